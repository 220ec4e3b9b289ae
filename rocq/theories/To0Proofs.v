(** Proofs about the owner server's maintenance. *)
From Verif Require Import Base BaseFacts ValueModel Text Assoc Hex TypesModel VoucherModel StoreModel StoreSpec Backend OwnerModel To0Model To0Spec.
From Coq Require Import ZifyBool ZifyNat ZifyN.
Local Open Scope N_scope.

Section maint.
Context (c : crypto) (chk : bool) (sh : bytes -> str) (cf : to0conf).
Notation be := (ov_be (db_ovs c chk)).
Notation cd := (voucher_codec c chk).

(** [later ks t t']: rows keep their contents and marks; only the registrations of [ks] change *)
Definition later (ks : list key) (t t' : table) : Prop :=
  map fst t' = map fst t /\
  forall k r, aget k t = Some r -> exists r', aget k t' = Some r' /\ r_contents r' = r_contents r /\
    (r_to2 r' = r_to2 r \/ r_to2 r' = Some true) /\ (~ In k ks -> r_to0 r' = r_to0 r).
Lemma later_refl ks t : later ks t t.
Proof. split; [reflexivity|]. intros k r G. exists r. auto. Qed.
Lemma later_trans ks t1 t2 t3 : later ks t1 t2 -> later ks t2 t3 -> later ks t1 t3.
Proof.
  intros [A1 B1] [A2 B2]. split; [congruence|]. intros k r G. destruct (B1 k r G) as (r1 & G1 & C1 & M1 & T1).
  destruct (B2 k r1 G1) as (r2 & G2 & C2 & M2 & T2). exists r2. split; [exact G2|]. split; [congruence|]. split; [destruct M2 as [->|M2]; auto|].
  intros NI. rewrite T2, T1 by exact NI. reflexivity.
Qed.
Lemma later_weaken ks ks' t t' : incl ks ks' -> later ks t t' -> later ks' t t'.
Proof. intros IN [A B]. split; [exact A|]. intros k r G. destruct (B k r G) as (r' & G' & C & M & T). exists r'. repeat (split; [assumption|]). intros NI. apply T. intros X. apply NI. apply IN. exact X. Qed.
Lemma marks_later f t ks : only_marks f -> later ks t (f t).
Proof. intros H. destruct (H t) as [A B]. split; [exact A|]. intros k r G. destruct (B k r G) as (r' & G' & C & T & M). exists r'. auto. Qed.
Lemma aset_dom {A} k (v : A) l : In k (map fst l) -> map fst (aset k v l) = map fst l.
Proof.
  induction l as [|[k' w] r IH]; cbn [aset map fst In]; [tauto|]. intros H. destruct (bytes_eqb k k') eqn:E; cbn [map fst].
  - apply bytes_eqb_spec in E. congruence.
  - apply bytes_eqb_neq in E. rewrite IH; [reflexivity|]. destruct H as [H|H]; [symmetry in H; contradiction|exact H].
Qed.
Lemma update_later t k f : (forall r, r_contents (f r) = r_contents r /\ r_to2 (f r) = r_to2 r) -> later [k] t (update t k f).
Proof.
  intros H. unfold update. destruct (aget k t) as [r0|] eqn:G; [|apply later_refl]. split.
  - apply aset_dom. apply aget_in in G. apply (in_map fst) in G. exact G.
  - intros k' r G'. destruct (name_dec k' k) as [->|N].
    + rewrite G' in G. inversion G; subst. exists (f r0). rewrite aget_aset_eq. destruct (H r0) as [H1 H2]. split; [reflexivity|]. split; [exact H1|]. split; [left; exact H2|].
      intros X. exfalso. apply X. left. reflexivity.
    + exists r. rewrite aget_aset_ne by exact N. auto.
Qed.

Definition keys_of (vs : list voucher) : list key := map guid_of vs.
Lemma guid_of_text v k : guid_text (hd_guid (ov_header v)) = Some k -> guid_of v = k.
Proof. unfold guid_of. intros ->. reflexivity. Qed.

(** What the reports of one query do *)
Lemma reports_run t0 env : (forall i, calm t0 (env i)) -> forall vs i t t' l x, report_all c chk sh cf be env i vs t = (t', l, x) ->
  later (keys_of vs) t t' /\ match x with Ok _ => map rp_voucher l = vs | Err _ => False | Panic _ => True end.
Proof.
  intros CA. induction vs as [|v vs IH]; intros i t t' l x R; cbn [report_all] in R.
  { inversion R; subst. split; [apply later_refl|reflexivity]. }
  destruct (CA i) as (OM & OK & _). destruct (report_ov c chk sh cf (ar_net (env i)) (ar_rnd (env i)) v) as [cs o].
  pose proof (marks_later (ar_between (env i)) t (keys_of (v :: vs)) OM) as L1. rewrite OK in R. cbn [negb] in R.
  assert (IN : incl (keys_of vs) (keys_of (v :: vs))) by (intros z Z; right; exact Z). destruct o as [secs|e|p].
  - destruct (guid_text (hd_guid (ov_header v))) as [k|] eqn:G; [|inversion R; subst; split; [exact L1|exact Logic.I]].
    cbn [db_ovs ov_be db_backend b_meta] in R. unfold db_set_meta in R.
    destruct (report_all _ _ _ _ _ env (S i) vs _) as [[t3 l3] x3] eqn:RA. inversion R; subst; clear R. destruct (IH _ _ _ _ _ RA) as [L3 X3]. split.
    + eapply later_trans; [exact L1|]. eapply later_trans; [|eapply later_weaken; [exact IN|exact L3]].
      eapply later_weaken; [|eapply update_later; intros r; cbn [r_contents r_to2]; auto]. intros z [<-|[]]. left. apply guid_of_text. exact G.
    + destruct x; [cbn [map rp_voucher]; rewrite X3; reflexivity|exact X3|exact Logic.I].
  - destruct (report_all _ _ _ _ _ env (S i) vs _) as [[t3 l3] x3] eqn:RA. inversion R; subst; clear R. destruct (IH _ _ _ _ _ RA) as [L3 X3]. split.
    + eapply later_trans; [exact L1|]. eapply later_weaken; [exact IN|exact L3].
    + destruct x; [cbn [map rp_voucher]; rewrite X3; reflexivity|exact X3|exact Logic.I].
  - inversion R; subst. split; [exact L1|exact Logic.I].
Qed.
(** What is recorded for each of them *)
Lemma reports_record t0 env : (forall i, calm t0 (env i)) -> forall vs i t t' l, report_all c chk sh cf be env i vs t = (t', l, Ok tt) -> NoDup (keys_of vs) ->
  (forall v, In v vs -> exists k r, guid_text (hd_guid (ov_header v)) = Some k /\ aget k t = Some r) ->
  forall rp s, In rp l -> rp_outcome rp = Ok s ->
  exists r now, t0 <= now /\ aget (guid_of (rp_voucher rp)) t' = Some r /\ r_to0 r = Some (Z.of_N (deadline now s)).
Proof.
  intros CA. induction vs as [|v vs IH]; intros i t t' l R ND HA rp s I O; cbn [report_all] in R; [inversion R; subst; destruct I|].
  destruct (CA i) as (OM & OK & TM). destruct (report_ov c chk sh cf (ar_net (env i)) (ar_rnd (env i)) v) as [cs o].
  pose proof (marks_later (ar_between (env i)) t [] OM) as L1. rewrite OK in R. cbn [negb] in R. inversion ND as [|? ? NI ND']; subst.
  assert (KEEP : forall t2 : table, (forall k, In k (map fst t) -> In k (map fst t2)) -> forall v0, In v0 vs -> exists k r, guid_text (hd_guid (ov_header v0)) = Some k /\ aget k t2 = Some r).
  { intros t2 D v0 I0. destruct (HA v0 (or_intror I0)) as (k & r & G & A). exists k. destruct (aget k t2) as [r2|] eqn:A2; [eauto|].
    apply aget_none in A2. exfalso. apply A2. apply D. apply aget_in in A. apply (in_map fst) in A. exact A. }
  destruct o as [secs|e|p]; [| |inversion R].
  - destruct (guid_text (hd_guid (ov_header v))) as [k|] eqn:G; [|discriminate]. cbn [db_ovs ov_be db_backend b_meta] in R. unfold db_set_meta in R.
    destruct (report_all _ _ _ _ _ env (S i) vs _) as [[t3 l3] x3] eqn:RA. inversion R; subst; clear R.
    assert (D2 : forall z, In z (map fst t) -> In z (map fst (update (ar_between (env i) t) k (fun r => Row (r_contents r) (r_to2 r) (Some (Z.of_N (deadline (ar_now (env i)) secs))) (r_ttl r))))).
    { intros z Z. destruct (update_later (ar_between (env i) t) k (fun r => Row (r_contents r) (r_to2 r) (Some (Z.of_N (deadline (ar_now (env i)) secs))) (r_ttl r))) as [D _];
        [intros r; cbn; auto|]. rewrite D. destruct L1 as [D1 _]. rewrite D1. exact Z. }
    destruct I as [<-|I]; [|eapply IH; eauto]. cbn [rp_outcome] in O. inversion O; subst s. cbn [rp_voucher]. rewrite (guid_of_text _ _ G).
    destruct (HA v (or_introl eq_refl)) as (k0 & r & G0 & A). rewrite G in G0. inversion G0; subst k0.
    destruct L1 as [_ L1]. destruct (L1 _ _ A) as (r1 & A1 & _). destruct (reports_run t0 env CA _ _ _ _ _ _ RA) as [L3 _]. destruct L3 as [_ L3].
    edestruct (L3 k) as (r3 & A3 & _ & _ & T3). { unfold update. rewrite A1. apply aget_aset_eq. }
    exists r3, (ar_now (env i)). split; [exact TM|]. split; [exact A3|]. rewrite T3; [reflexivity|]. rewrite <- (guid_of_text _ _ G). exact NI.
  - destruct (report_all _ _ _ _ _ env (S i) vs _) as [[t3 l3] x3] eqn:RA. inversion R; subst; clear R. destruct I as [<-|I]; [discriminate|].
    eapply IH; eauto. apply KEEP. destruct L1 as [D1 _]. intros z Z. rewrite D1. exact Z.
Qed.

(** The queries *)
Definition selected (max : Z) (r : row) : Prop := ~ onboarded r /\ match r_to0 r with Some x => (x < max)%Z | None => True end.
Lemma selects_spec max r : db_selects false max r = true <-> selected max r.
Proof.
  unfold db_selects, selected, onboarded. rewrite Bool.andb_true_iff. split.
  - intros [A B]. split; [|destruct (r_to0 r); [lia|exact Logic.I]]. destruct (r_to2 r) as [[|]|]; cbn in B; congruence.
  - intros [A B]. split; [destruct (r_to0 r); [lia|reflexivity]|]. destruct (r_to2 r) as [[|]|]; cbn; congruence.
Qed.
Definition query (max : Z) (t : table) : outcome serr (list voucher) := de_all cd (map (fun e => r_contents (snd e)) (filter (fun e => db_selects false max (snd e)) t)).
Lemma de_holds r v : de cd (r_contents r) = Some v <-> holds c chk r v.
Proof. unfold holds. cbn [de voucher_codec]. destruct (voucher_deserialize c chk (r_contents r)); split; intros H; inversion H; reflexivity. Qed.
Lemma query_spec max t : sound_table c chk t -> exists vs, query max t = Ok vs /\ NoDup (keys_of vs) /\
  (forall v, In v vs <-> exists k r, guid_text (hd_guid (ov_header v)) = Some k /\ aget k t = Some r /\ holds c chk r v /\ selected max r).
Proof.
  intros [ND S]. unfold query.
  assert (Q : exists vs, de_all cd (map (fun e => r_contents (snd e)) (filter (fun e => db_selects false max (snd e)) t)) = Ok vs /\
    keys_of vs = map fst (filter (fun e => db_selects false max (snd e)) t) /\
    (forall v, In v vs <-> exists k r, guid_text (hd_guid (ov_header v)) = Some k /\ In (k, r) t /\ holds c chk r v /\ selected max r)).
  { clear ND. induction t as [|[k r] t IH]; cbn [filter].
    - exists []. split; [reflexivity|]. split; [reflexivity|]. intros v. split; [intros []|intros (k & r & _ & [] & _)].
    - destruct IH as (vs & E & K & Q). { intros k' r' I. apply S. right. exact I. } destruct (S k r (or_introl eq_refl)) as (v & Hv & G).
      destruct (db_selects false max (snd (k, r))) eqn:SE; cbn [snd] in SE.
      + exists (v :: vs). cbn [map snd de_all]. pose proof (proj2 (de_holds r v) Hv) as DH. rewrite DH, E. cbn [bind]. split; [reflexivity|].
        split; [cbn [keys_of map fst]; rewrite (guid_of_text _ _ G), <- K; reflexivity|]. apply selects_spec in SE. intros v'. split.
        * intros [<-|I]; [exists k, r; split; [exact G|]; split; [left; reflexivity|auto]|]. apply Q in I. destruct I as (k' & r' & A & B & C). exists k', r'. split; [exact A|]. split; [right; exact B|exact C].
        * intros (k' & r' & A & [B|B] & C & D); [|right; apply Q; exists k', r'; auto]. inversion B; subst. left. unfold holds in *. congruence.
      + exists vs. split; [exact E|]. split; [exact K|]. intros v'. rewrite Q. split; intros (k' & r' & A & B & C & D).
        * exists k', r'. split; [exact A|]. split; [right; exact B|auto].
        * destruct B as [B|B]; [|exists k', r'; auto]. inversion B; subst. apply selects_spec in D. congruence. }
  destruct Q as (vs & E & K & Q). exists vs. split; [exact E|]. split; [rewrite K; apply (nodup_filter (fun e => db_selects false max (snd e)) t ND)|].
  intros v. rewrite Q. split; intros (k & r & A & B & C); exists k, r; split; try exact A; split; try exact C; [apply in_aget; assumption|apply aget_in; exact B].
Qed.
Lemma later_sound ks t t' : later ks t t' -> sound_table c chk t -> sound_table c chk t'.
Proof.
  intros [D L] [ND S]. split; [rewrite D; exact ND|]. intros k r I.
  assert (A' : aget k t' = Some r) by (apply in_aget; [unfold adom; rewrite D; exact ND|exact I]).
  assert (IK : In k (map fst t)) by (rewrite <- D; apply (in_map fst) in I; exact I).
  destruct (aget k t) as [r0|] eqn:A; [|apply aget_none in A; contradiction].
  destruct (L _ _ A) as (r' & A2 & C & _). rewrite A' in A2. inversion A2; subst r'. destruct (S k r0 (aget_in _ _ _ A)) as (v & Hv & G). exists v. split; [|exact G]. unfold holds in *. congruence.
Qed.
Lemma later_back ks t t' k r' : later ks t t' -> aget k t' = Some r' -> exists r, aget k t = Some r /\ r_contents r = r_contents r' /\
  (r_to2 r' = r_to2 r \/ r_to2 r' = Some true) /\ (~ In k ks -> r_to0 r' = r_to0 r).
Proof.
  intros [D L] A. assert (IK : In k (map fst t)) by (rewrite <- D; apply aget_in in A; apply (in_map fst) in A; exact A).
  destruct (aget k t) as [r|] eqn:G; [|apply aget_none in G; contradiction]. exists r. split; [reflexivity|]. destruct (L _ _ G) as (r2 & A2 & C & M & T).
  rewrite A in A2. inversion A2; subst r2. auto.
Qed.

(** One query and its reports *)
Lemma phase t0 max env t t' l x : sound_table c chk t -> (forall i, calm t0 (env i)) -> report_queried c chk sh cf be (query max t) env t = (t', l, x) ->
  exists vs, (forall v, In v vs <-> exists k r, guid_text (hd_guid (ov_header v)) = Some k /\ aget k t = Some r /\ holds c chk r v /\ selected max r) /\
  later (keys_of vs) t t' /\ match x with Ok _ => map rp_voucher l = vs | Err _ => False | Panic _ => True end /\
  (x = Ok tt -> forall rp s, In rp l -> rp_outcome rp = Ok s -> exists r now, t0 <= now /\ aget (guid_of (rp_voucher rp)) t' = Some r /\ r_to0 r = Some (Z.of_N (deadline now s))).
Proof.
  intros S CA R. destruct (query_spec max t S) as (vs & Q & ND & V). rewrite Q in R. cbn [report_queried] in R. exists vs. split; [exact V|].
  destruct (reports_run t0 env CA _ _ _ _ _ _ R) as [L X]. split; [exact L|]. split; [exact X|]. intros ->. eapply reports_record; eauto.
  intros v I. apply V in I. destruct I as (k & r & G & A & _). eauto.
Qed.

(** A round: the table at the second query and what is reported *)
Lemma round_db now1 now2 env1 env2 t t' l : sound_table c chk t -> (forall i, calm now1 (env1 i)) -> (forall i, calm now2 (env2 i)) ->
  maint_round c chk sh cf (db_ovs c chk) now1 now2 env1 env2 t = (t', l, Ok tt) ->
  exists t1 l1 l2 vs1 vs2, l = l1 ++ l2 /\ map rp_voucher l1 = vs1 /\ map rp_voucher l2 = vs2 /\
  (forall v, In v vs1 <-> exists k r, guid_text (hd_guid (ov_header v)) = Some k /\ aget k t = Some r /\ holds c chk r v /\ selected (Z.of_N (now1 / second)) r) /\
  (forall v, In v vs2 <-> exists k r, guid_text (hd_guid (ov_header v)) = Some k /\ aget k t1 = Some r /\ holds c chk r v /\ selected (Z.of_N (now2 / second + tc_window cf)) r) /\
  later (keys_of vs1) t t1 /\ later (keys_of vs2) t1 t' /\
  (forall rp s, In rp l2 -> rp_outcome rp = Ok s -> exists r now, now2 <= now /\ aget (guid_of (rp_voucher rp)) t' = Some r /\ r_to0 r = Some (Z.of_N (deadline now s))).
Proof.
  intros S C1 C2 R. unfold maint_round in R. cbn [db_ovs ov_be db_backend b_maint db_maint fst ov_due ov_within db_query_ovs] in R.
  change (de_all cd (map (fun e : name * row => r_contents (snd e)) (filter (fun e : name * row => db_selects false (Z.of_N (unix_timestamp now1)) (snd e)) t)))
    with (query (Z.of_N (now1 / second)) t) in R.
  match type of R with context [report_queried c chk sh cf ?b ?q env1 t] => change b with be in R; destruct (report_queried c chk sh cf be q env1 t) as [[t1 l1] x1] eqn:R1 end.
  destruct (phase now1 _ _ _ _ _ _ S C1 R1) as (vs1 & V1 & L1 & X1 & _). destruct x1 as [[]|e|p]; [|contradiction|discriminate].
  cbn [db_query_window] in R. replace (Z.of_N (unix_timestamp now2) + Z.of_N (tc_window cf))%Z with (Z.of_N (now2 / second + tc_window cf)) in R by (rewrite N2Z.inj_add; reflexivity).
  match type of R with context [report_queried c chk sh cf ?b ?q env2 t1] => change b with be in R; change q with (query (Z.of_N (now2 / second + tc_window cf)) t1) in R;
    destruct (report_queried c chk sh cf be (query (Z.of_N (now2 / second + tc_window cf)) t1) env2 t1) as [[t2 l2] x2] eqn:R2 end.
  destruct (phase now2 _ _ _ _ _ _ (later_sound _ _ _ L1 S) C2 R2) as (vs2 & V2 & L2 & X2 & RC). destruct x2 as [[]|e|p]; [|contradiction|discriminate].
  inversion R; subst. exists t1, l1, l2, (map rp_voucher l1), (map rp_voucher l2). repeat (split; [try reflexivity; try assumption|]). apply RC. reflexivity.
Qed.
End maint.

(** * The directory *)
Section dir_maint.
Context (c : crypto) (chk : bool) (sh : bytes -> str) (cf : to0conf).
Notation cd := (voucher_codec c chk).
Lemma dir_reports (env : nat -> around dir) : (forall i, ar_write (env i) = true) -> forall vs i d d' l x,
  report_all c chk sh cf (ov_be (dir_ovs c chk)) env i vs d = (d', l, x) ->
  match x with Ok _ => map rp_voucher l = vs | Err _ => False | Panic _ => exists r, map rp_voucher l ++ r = vs end.
Proof.
  intros CA. induction vs as [|v vs IH]; intros i d d' l x R; cbn [report_all] in R; [inversion R; subst; reflexivity|].
  destruct (report_ov c chk sh cf (ar_net (env i)) (ar_rnd (env i)) v) as [cs o]. rewrite CA in R. cbn [negb] in R. destruct o as [secs|e|p].
  - destruct (guid_text (hd_guid (ov_header v))) as [k|]; [|inversion R; subst; exists vs; reflexivity].
    cbn [dir_ovs ov_be dir_backend b_meta] in R. unfold dir_set_meta in R.
    destruct (aget (get_path k) (ar_between (env i) d)) as [f|];
      (destruct (report_all _ _ _ _ _ env (S i) vs _) as [[t3 l3] x3] eqn:RA; inversion R; subst; clear R; apply IH in RA;
       destruct x; [cbn [map rp_voucher]; rewrite RA; reflexivity|exact RA|destruct RA as (r & RA); exists r; cbn [map rp_voucher app]; rewrite RA; reflexivity]).
  - destruct (report_all _ _ _ _ _ env (S i) vs _) as [[t3 l3] x3] eqn:RA; inversion R; subst; clear R; apply IH in RA.
    destruct x; [cbn [map rp_voucher]; rewrite RA; reflexivity|exact RA|destruct RA as (r & RA); exists r; cbn [map rp_voucher app]; rewrite RA; reflexivity].
  - inversion R; subst. exists vs. reflexivity.
Qed.
Lemma le_dec_lt b : Forall (fun x => x < 256) b -> length b = 8%nat -> i64_dec b = if le_dec b <? 2 ^ 63 then Z.of_N (le_dec b) else (Z.of_N (le_dec b) - 2 ^ 64)%Z.
Proof. intros _ _. unfold i64_dec. destruct (N.ltb_spec (le_dec b) (2 ^ 63)); destruct (Z.ltb_spec (Z.of_N (le_dec b)) (2 ^ 63)); try reflexivity; lia. Qed.
Definition file_selected (sec : N) (f : file) : Prop := ~ file_onboarded f /\ ~ file_registered_until f sec.
Lemma dir_query_spec sec d : Forall (fun e => file_sound (snd e)) d ->
  exists vs, dir_query cd [(To2Performed, to_stored 0 (MBool true))] [(To0Wait, Z.of_N sec)] d = Ok vs /\
  forall v, In v vs <-> exists n f, In (n, f) d /\ file_selected sec f /\ voucher_deserialize c chk (f_data f) = Ok v.
Proof.
  induction 1 as [|[n f] d [S2 S0] F (vs & E & Q)]; cbn [dir_query]; [exists []; split; [reflexivity|]; intros v; split; [intros []|intros (? & ? & [] & _)]|].
  cbn [snd] in S2, S0. unfold attr in S2, S0. change (txt "user.fdo.to2_performed") with (xname To2Performed) in S2. change (txt "user.fdo.to0_accept_owner_wait_seconds") with (xname To0Wait) in S0.
  assert (N2 : neq_holds f (To2Performed, to_stored 0 (MBool true)) = true <-> ~ file_onboarded f).
  { unfold neq_holds, file_onboarded, attr. cbn [fst snd]. change (txt "user.fdo.to2_performed") with (xname To2Performed).
    destruct (aget (xname To2Performed) (f_xattr f)) as [b|]; [|split; [intros _ X; discriminate|reflexivity]]. destruct S2 as [->| ->].
    - split; [vm_compute; discriminate|intros X; exfalso; apply X; reflexivity].
    - split; [intros _ X; discriminate|reflexivity]. }
  cbn [existsb]. rewrite Bool.orb_false_r.
  assert (SKIP : ~ file_selected sec f -> forall v, In v vs <-> exists n' f', In (n', f') ((n, f) :: d) /\ file_selected sec f' /\ voucher_deserialize c chk (f_data f') = Ok v).
  { intros NS v. rewrite Q. split; intros (n' & f' & I & A & B); [exists n', f'; split; [right; exact I|auto]|]. destruct I as [I|I]; [inversion I; subst; contradiction|]. exists n', f'. auto. }
  destruct (neq_holds f (To2Performed, to_stored 0 (MBool true))) eqn:NE.
  - assert (LT : exists sel, lt_holds f [(To0Wait, Z.of_N sec)] = Ok sel /\ (sel = true <-> ~ file_registered_until f sec)).
    { unfold lt_holds, file_registered_until, attr. change (txt "user.fdo.to0_accept_owner_wait_seconds") with (xname To0Wait).
      destruct (aget (xname To0Wait) (f_xattr f)) as [b|]; cbn [bind].
      - destruct S0 as (L8 & B8 & B63). unfold nlen. rewrite L8. change (N.of_nat 8 =? 8) with true. cbn [negb]. eexists. split; [reflexivity|]. rewrite Bool.orb_false_r.
        rewrite (le_dec_lt _ B8 L8). destruct (N.ltb_spec (le_dec b) (2 ^ 63)); [|lia]. split.
        + intros X (b' & Eb & LE). inversion Eb; subst. lia.
        + intros X. destruct (Z.ltb_spec (Z.of_N (le_dec b)) (Z.of_N sec)); [reflexivity|]. exfalso. apply X. exists b. split; [reflexivity|lia].
      - exists true. split; [reflexivity|]. split; [intros _ (b & X & _); discriminate|reflexivity]. }
    destruct LT as (sel & -> & LS). rewrite E. cbn [bind]. destruct sel.
    + assert (FS : file_selected sec f) by (split; [apply N2; reflexivity|apply LS; reflexivity]). cbn [de voucher_codec].
      destruct (voucher_deserialize c chk (f_data f)) as [v0| |] eqn:V0; (eexists; split; [reflexivity|]); intros v; cbn [In].
      * rewrite Q. split.
        -- intros [<-|(n' & f' & I & A & B)]; [exists n, f; split; [left; reflexivity|auto]|exists n', f'; split; [right; exact I|auto]].
        -- intros (n' & f' & [I|I] & A & B); [inversion I; subst; left; congruence|right; exists n', f'; auto].
      * rewrite Q. split; intros (n' & f' & I & A & B); [exists n', f'; split; [right; exact I|auto]|]. destruct I as [I|I]; [inversion I; subst; congruence|exists n', f'; auto].
      * rewrite Q. split; intros (n' & f' & I & A & B); [exists n', f'; split; [right; exact I|auto]|]. destruct I as [I|I]; [inversion I; subst; congruence|exists n', f'; auto].
    + exists vs. split; [reflexivity|]. apply SKIP. intros [_ X]. apply LS in X. discriminate.
  - exists vs. split; [exact E|]. apply SKIP. intros [X _]. apply N2 in X. discriminate.
Qed.
Lemma maint_no_ttl now (d : dir) : Forall (fun e => attr "user.store_ttl" (snd e) = None) d -> fst (dir_maint now d) = d.
Proof.
  unfold dir_maint. induction 1 as [|[n f] d H F IH]; [reflexivity|]. cbn [maint_loop]. unfold attr in H. cbn [snd] in H. change (txt "user.store_ttl") with (xname Ttl) in H. rewrite H.
  destruct (maint_loop now d) as [d' o]. cbn [fst] in *. rewrite IH. reflexivity.
Qed.
End dir_maint.

(** * What a successful report is *)
Lemma try_urls_ok c chk cf net i rnd v urls cs s : try_urls c chk cf net i rnd v urls = (cs, Some (Ok s)) ->
  exists pre u j nonce answer m, cs = pre ++ [CHello u; CSign u m] /\ In u urls /\ net j u = Ok (nonce, answer) /\ sign_msg c chk cf v nonce rnd = Ok m /\ answer m = Ok s.
Proof.
  revert i cs. induction urls as [|u r IH]; intros i cs H; cbn [try_urls] in H; [inversion H|]. destruct (net i u) as [[nonce answer]|x|x] eqn:NU.
  - destruct (sign_msg c chk cf v nonce rnd) as [m| |] eqn:SM; try discriminate. inversion H as [[HC A]]; subst.
    exists [], u, i, nonce, answer, m. repeat (split; [first [reflexivity|left; reflexivity|assumption]|]). reflexivity.
  - destruct (try_urls c chk cf net (S i) rnd v r) as [cs' o] eqn:T. inversion H; subst. destruct (IH _ _ T) as (pre & u' & j & nonce & answer & m & -> & I & A).
    exists (CHello u :: pre), u', j, nonce, answer, m. split; [reflexivity|]. split; [right; exact I|exact A].
  - discriminate.
Qed.
