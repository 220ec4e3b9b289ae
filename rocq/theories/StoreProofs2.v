(** Distinct keys, determinism of the specification, and the database backends. *)
From Verif Require Import Base BaseFacts ValueModel Text Assoc StoreModel StoreSpec StoreRun StoreProofs.
From Coq Require Import ZifyBool ZifyNat ZifyN Permutation.
Local Open Scope N_scope.

(** * Keys without '_' and '.' have distinct names (GUIDs, base64 session ids) *)
Lemma get_path_cons a k : get_path (a :: k) = (if a =? 47 then txt "_slash_" else [a]) ++ get_path k.
Proof. reflexivity. Qed.
Lemma get_path_inj k : forall k', plain_key k -> plain_key k' -> get_path k = get_path k' -> k = k'.
Proof.
  induction k as [|a k IH]; intros [|b k'] H H' E; [reflexivity| | |]; rewrite ?get_path_cons in E.
  - destruct (b =? 47); discriminate.
  - destruct (a =? 47); discriminate.
  - inversion H as [|? ? [Ha _] Hk]; subst. inversion H' as [|? ? [Hb _] Hk']; subst.
    destruct (N.eqb_spec a 47) as [->|Na], (N.eqb_spec b 47) as [->|Nb].
    + apply app_inv_head in E. f_equal. auto.
    + exfalso. cbn in E. injection E as E _. congruence.
    + exfalso. cbn in E. injection E as E _. congruence.
    + cbn [app] in E. injection E as -> E. f_equal. auto.
Qed.
Lemma get_path_nodot k : plain_key k -> Forall (fun x => x <> 46) (get_path k).
Proof.
  induction 1 as [|a k [_ Ha] Hk IH]; [constructor|]. rewrite get_path_cons. apply Forall_app. split; [|exact IH].
  destruct (a =? 47); [|constructor; [exact Ha|constructor]]. vm_compute. repeat (constructor; [discriminate|]). constructor.
Qed.
Lemma plain_distinct : distinct_names plain_key.
Proof.
  split.
  - intros k k' H H'. apply get_path_inj; assumption.
  - intros k k' H H' E. apply get_path_nodot in H. rewrite E in H. unfold tmp_of in H. cbn in H. inversion H; subst. contradiction.
Qed.

(** * The specification is deterministic up to order *)
Lemma lists_perm {V} (p : record V -> bool) m vs vs' : lists p m vs -> lists p m vs' -> Permutation vs vs'.
Proof.
  intros (ks & ND & I & E) (ks' & ND' & I' & E').
  assert (P : Permutation ks ks'). { apply NoDup_Permutation; [assumption|assumption|]. intros k. rewrite I, I'. reflexivity. }
  apply (Permutation_map (fun k => option_map a_val (m k))) in P. rewrite <- E, <- E' in P.
  apply Permutation_sym in P. apply Permutation_map_inv in P. destruct P as (l & El & P).
  assert (l = vs'). { revert El. clear. revert l. induction vs' as [|v vs' IH]; intros [|x l] El; inversion El; [reflexivity|]. f_equal. auto. }
  subst l. exact P.
Qed.
Ltac inv H := inversion H; subst; clear H.
Lemma step_det {V} (s : N * amap V) o a s1 b s2 : step s o a s1 -> step s o b s2 -> s1 = s2 /\ same_answer a b.
Proof.
  intros H1 H2. inv H1; inv H2; try (split; reflexivity); try congruence;
  try (match goal with A : ?m ?k = Some ?r, B : ?m ?k = Some ?r' |- _ => assert (r = r') by congruence; subst end; try congruence; split; reflexivity).
  - exfalso. assert (r = r0) by congruence. subst. destruct a0; congruence.
  - exfalso. assert (r = r0) by congruence. subst. destruct a0; congruence.
  - split; [reflexivity|]. eapply lists_perm; eassumption.
  - split; [reflexivity|]. eapply lists_perm; eassumption.
Qed.
Lemma history_det {V} os : forall (s : N * amap V) x y, history s os x -> history s os y -> Forall2 same_answer x y.
Proof.
  induction os as [|o os IH]; intros s x y H1 H2; inv H1; inv H2; [constructor|].
  match goal with A : step s o ?a ?s1, B : step s o ?b ?s2 |- _ => destruct (step_det s o a s1 b s2 A B) as [-> E] end.
  constructor; [exact E|]. eapply IH; eassumption.
Qed.

(** * Databases *)
Section db.
Context {V : Type} (c : codec V) (guid_of : V -> str) (sty : server_type).

Record rrepr (w : row) (r : record V) : Prop := {
  rr_val : de c (r_contents w) = Some (a_val r);
  rr_to2 : r_to2 w = a_to2 r;
  rr_to0 : r_to0 w = option_map Z.of_N (a_to0 r);
  rr_ttl : r_ttl w = option_map Z.of_N (a_exp r) }.
Record RD (t : table) (m : amap V) : Prop := {
  RD_nodup : NoDup (adom t);
  RD_key : forall k, match aget k t with
                     | None => m k = None
                     | Some w => exists r, m k = Some r /\ rrepr w r
                     end;
  RD_owner : sty = Owner -> forall k r, m k = Some r -> a_exp r = None }.

Lemma RD_set t m k w r : RD t m -> rrepr w r -> (sty = Owner -> a_exp r = None) -> RD (aset k w t) (upd m k (Some r)).
Proof.
  intros H Q O. constructor.
  - apply nodup_aset, H.
  - intros k'. destruct (name_dec k k') as [<-|NE]; [rewrite aget_aset_eq, upd_eq; eauto|].
    rewrite aget_aset_ne, upd_ne by congruence. apply H.
  - intros Ow k' r' E. destruct (name_dec k k') as [<-|NE]; [rewrite upd_eq in E; inv E; auto|].
    rewrite upd_ne in E by exact NE. eapply RD_owner; eauto.
Qed.
Lemma aget_app_new {A} k (w : A) t k' : aget k t = None -> aget k' (t ++ [(k, w)]) = aget k' (aset k w t).
Proof.
  induction t as [|[k2 w2] t IH]; cbn [app aset aget]; [reflexivity|]. intros H. destruct (bytes_eqb k k2) eqn:E; [discriminate|].
  cbn [aget]. destruct (bytes_eqb k' k2); auto.
Qed.
Lemma aset_new {A} k (w : A) t : aget k t = None -> t ++ [(k, w)] = aset k w t.
Proof.
  induction t as [|[k2 w2] t IH]; cbn [app aset aget]; [reflexivity|]. destruct (bytes_eqb k k2) eqn:E; [discriminate|].
  intros H. f_equal. auto.
Qed.
Lemma RD_del t m k : RD t m -> RD (adel k t) (upd m k None).
Proof.
  intros H. constructor.
  - apply nodup_adel, H.
  - intros k'. destruct (name_dec k k') as [<-|NE]; [rewrite aget_adel_eq, upd_eq; reflexivity|].
    rewrite aget_adel_ne, upd_ne by congruence. apply H.
  - intros Ow k' r' E. destruct (name_dec k k') as [<-|NE]; [rewrite upd_eq in E; discriminate|].
    rewrite upd_ne in E by exact NE. eapply RD_owner; eauto.
Qed.
Lemma RD_ext t m m' : (forall k, m k = m' k) -> RD t m -> RD t m'.
Proof.
  intros E H. constructor; [apply H| |].
  - intros k. rewrite <- E. apply H.
  - intros O k r X. rewrite <- E in X. eapply RD_owner; eauto.
Qed.
Lemma RD_update t m k f g : RD t m -> (forall w r, rrepr w r -> rrepr (f w) (g r)) -> (forall r, sty = Owner -> a_exp r = None -> a_exp (g r) = None) ->
  RD (update t k f) (modify m k g).
Proof.
  intros H Q O. unfold update, modify. pose proof (RD_key _ _ H k) as P. destruct (aget k t) as [w|].
  - destruct P as (r & Em & P). rewrite Em. cbn [option_map]. apply RD_set; [exact H|auto|]. intros Ow. apply O; [exact Ow|]. eapply RD_owner; eauto.
  - eapply RD_ext; [|exact H]. intros k'. rewrite P. cbn [option_map]. destruct (name_dec k k') as [<-|NE]; [rewrite upd_eq; exact P|rewrite upd_ne by exact NE; reflexivity].
Qed.

Definition rentry (m : amap V) (e : name * row) (x : key * record V) : Prop :=
  fst e = fst x /\ m (fst x) = Some (snd x) /\ rrepr (snd e) (snd x).
Lemma rentries t m : RD t m -> exists l, Forall2 (rentry m) t l.
Proof.
  intros H. assert (A : forall n w, In (n, w) t -> exists x, rentry m (n, w) x).
  { intros n w I. apply in_aget in I; [|apply H]. pose proof (RD_key _ _ H n) as Q. rewrite I in Q. destruct Q as (r & Em & Q).
    exists (n, r). split; [reflexivity|]. split; [exact Em|exact Q]. }
  clear H. induction t as [|[n f] d IH]; [exists []; constructor|].
  destruct IH as [l Hl]; [intros n' f' I; apply A; right; exact I|]. destruct (A n f (or_introl eq_refl)) as [x Hx]. exists (x :: l). constructor; assumption.
Qed.
Lemma rlists_of (p : record V -> bool) t m l : RD t m -> Forall2 (rentry m) t l ->
  lists p m (map (fun x => a_val (snd x)) (filter (fun x => p (snd x)) l)).
Proof.
  intros H F. assert (IN : forall x, In x l -> m (fst x) = Some (snd x)).
  { clear H. induction F as [|[n2 f2] [k2 r2] d l (E2 & Em2 & Q2) F IH]; intros x []. - subst x. exact Em2. - auto. }
  assert (D : map fst l = adom t). { clear - F. unfold adom. induction F as [|e x t l (E & _) F IH]; [reflexivity|]. cbn. f_equal; [symmetry; exact E|exact IH]. }
  exists (map fst (filter (fun x => p (snd x)) l)). split; [|split].
  - assert (ND : NoDup (map fst l)) by (rewrite D; apply H).
    clear - ND. induction l as [|[k r] l IH]; [constructor|]. cbn [map fst] in ND. inversion ND as [|? ? NI ND']; subst. cbn [filter snd].
    destruct (p r); [|auto]. cbn [map fst]. constructor; [|auto]. intros I. apply NI. apply in_map_iff in I. destruct I as (x & Ex & I).
    apply filter_In in I. rewrite <- Ex. apply in_map. apply I.
  - intros k. rewrite in_map_iff. split.
    + intros ([k' r] & <- & I). apply filter_In in I. destruct I as [I P]. exists r. split; [exact (IN _ I)|exact P].
    + intros (r & Em & P). pose proof (RD_key _ _ H k) as Q. destruct (aget k t) as [w|] eqn:E; [|congruence]. 
      assert (I : In k (map fst l)). { rewrite D. apply aget_in in E. apply (in_map fst) in E. exact E. }
      apply in_map_iff in I. destruct I as ([k' r'] & <- & I). exists (k', r'). split; [reflexivity|]. apply filter_In. split; [exact I|].
      pose proof (IN _ I) as X. cbn in X, Em |- *. congruence.
  - rewrite !map_map. apply map_ext_in. intros x I. apply filter_In in I. rewrite (IN x) by apply I. reflexivity.
Qed.
Lemma de_all_ok m (p : row -> bool) (q : record V -> bool) t l : Forall2 (rentry m) t l -> (forall w r, rrepr w r -> p w = q r) ->
  de_all c (map (fun e => r_contents (snd e)) (filter (fun e => p (snd e)) t)) = Ok (map (fun x => a_val (snd x)) (filter (fun x => q (snd x)) l)).
Proof.
  intros F PQ. induction F as [|[n w] [k r] t l (E & Em & Q) F IH]; [reflexivity|]. cbn [fst snd] in *. cbn [filter snd].
  rewrite (PQ _ _ Q). destruct (q r); [|exact IH]. cbn [map de_all snd]. rewrite (rr_val _ _ Q), IH. reflexivity.
Qed.

Lemma db_step_refines now t m o : RD t m -> op_value_ok c o -> db_guard guid_of sty (now, m) o ->
  exists m', step (now, m) o (snd (db_step c guid_of sty (now, t) o)) (fst (fst (db_step c guid_of sty (now, t) o)), m') /\
             RD (snd (fst (db_step c guid_of sty (now, t) o))) m'.
Proof.
  intros H HV HG. destruct o as [k v|k v w|k|k|k s|k s|k b|k a| |d| |]; cbn [db_guard] in HG.
  - destruct HV as (data & Sv & Dv). destruct HG as [Em HG]. cbn [db_step]. unfold db_store. rewrite Sv.
    assert (KK : match sty with Rendezvous => k | _ => guid_of v end = k).
    { destruct HG as [->| ->]; [reflexivity|destruct sty; reflexivity]. }
    rewrite KK. pose proof (RD_key _ _ H k) as Q. destruct (aget k t) as [w|] eqn:E; [destruct Q as (r & X & _); congruence|].
    cbn [fst snd ans_unit]. eexists. split; [constructor|]. rewrite aset_new by exact E. apply RD_set; [exact H| |reflexivity].
    constructor; cbn; try reflexivity. exact Dv.
  - destruct HG.
  - destruct HG as (r & Em & X). cbn [db_step fst snd]. unfold db_load. pose proof (RD_key _ _ H k) as Q.
    destruct (aget k t) as [w|]; [|congruence]. destruct Q as (r' & Em' & Q). assert (r' = r) by congruence. subst r'.
    rewrite (rr_val _ _ Q). cbn [ans_val]. exists m. split; [apply SLoad; assumption|exact H].
  - cbn [db_step db_destroy fst snd ans_unit]. destruct (m k) as [r|] eqn:Em; [|congruence]. eexists. split; [eapply SDestroy; exact Em|]. apply RD_del. exact H.
  - cbn [db_step]. unfold db_set_meta.
    assert (X : db_set_meta sty now t k Ttl (MDur s) = (update t k (fun r => Row (r_contents r) (r_to2 r) (r_to0 r) (Some (Z.of_N (deadline now s)))), Ok tt)).
    { unfold db_set_meta. destruct sty; [reflexivity|congruence|reflexivity]. }
    unfold db_set_meta in X. rewrite X. cbn [fst snd ans_unit]. eexists. split; [constructor|].
    apply RD_update; [exact H| |intros; congruence]. intros w r Q. constructor; cbn; try apply Q. rewrite deadline_eq. reflexivity.
  - cbn [db_step]. unfold db_set_meta. rewrite HG. cbn [fst snd ans_unit]. eexists. split; [constructor|].
    apply RD_update; [exact H| |intros; assumption]. intros w r Q. constructor; cbn; try apply Q. rewrite deadline_eq. reflexivity.
  - cbn [db_step]. unfold db_set_meta. rewrite HG. cbn [fst snd ans_unit]. eexists. split; [constructor|].
    apply RD_update; [exact H| |intros; assumption]. intros w r Q. constructor; cbn; try apply Q. reflexivity.
  - cbn [db_step]. unfold db_del_meta. cbn [fst snd ans_unit]. destruct HG as [Em|(r & Em & HG)].
    + exists m. split; [constructor; exact Em|]. unfold update. pose proof (RD_key _ _ H k) as Q. destruct (aget k t) as [w|]; [|exact H].
      destruct Q as (r & X & _). congruence.
    + pose proof (RD_key _ _ H k) as Q. destruct (aget k t) as [w|] eqn:E; [|congruence]. destruct Q as (r' & X & Q).
      assert (r' = r) by congruence. subst r'. unfold update. rewrite E. destruct a.
      * destruct HG as [NO NE]. eexists. split; [apply SDel with (a := AExp) (r := r); assumption|]. apply RD_set; [exact H| |intros; congruence].
        destruct sty; [|congruence|]; constructor; cbn; try apply Q; reflexivity.
      * destruct HG as (-> & NE & N0). eexists. split; [apply SDel with (a := ATo2) (r := r); assumption|]. apply RD_set; [exact H| |].
        -- constructor; cbn; try apply Q; [reflexivity|rewrite N0; reflexivity].
        -- intros _. cbn. eapply (RD_owner _ _ H); eauto.
      * destruct HG as (-> & NE & N0). eexists. split; [apply SDel with (a := ATo0) (r := r); assumption|]. apply RD_set; [exact H| |].
        -- constructor; cbn; try apply Q; [symmetry; exact N0|reflexivity].
        -- intros _. cbn. eapply (RD_owner _ _ H); eauto.
  - cbn [db_step]. unfold db_maint. destruct sty eqn:ST.
    + cbn [fst snd ans_unit]. eexists. split; [constructor|]. clear HG. constructor.
      * apply nodup_filter, H.
      * intros k. rewrite aget_filter by apply H. pose proof (RD_key _ _ H k) as Q. destruct (aget k t) as [w|]; [|rewrite Q; reflexivity].
        destruct Q as (r & Em & Q). rewrite Em. cbn [snd]. rewrite (rr_ttl _ _ Q). unfold overdue. destruct (a_exp r) as [e|] eqn:Ee; cbn [option_map]; [|eauto].
        unfold unix_timestamp, SEC, second. destruct (Z.leb_spec (Z.of_N e) (Z.of_N (now / 1000000000))), (N.leb_spec (e * 1000000000) now); cbn [negb]; eauto; exfalso.
        -- pose proof (N.mul_div_le now 1000000000 ltac:(lia)). lia.
        -- pose proof (N.div_le_lower_bound now 1000000000 e ltac:(lia) ltac:(lia)). lia.
      * intros; congruence.
    + cbn [fst snd ans_unit]. eexists. split; [constructor|]. eapply RD_ext; [|exact H]. intros k. cbn. destruct (m k) as [r|] eqn:Em; [|reflexivity].
      unfold overdue. rewrite (RD_owner _ _ H ST _ _ Em). reflexivity.
    + cbn [fst snd ans_unit]. eexists. split; [constructor|]. clear HG. constructor.
      * apply nodup_filter, H.
      * intros k. rewrite aget_filter by apply H. pose proof (RD_key _ _ H k) as Q. destruct (aget k t) as [w|]; [|rewrite Q; reflexivity].
        destruct Q as (r & Em & Q). rewrite Em. cbn [snd]. rewrite (rr_ttl _ _ Q). unfold overdue. destruct (a_exp r) as [e|] eqn:Ee; cbn [option_map]; [|eauto].
        unfold unix_timestamp, SEC, second. destruct (Z.leb_spec (Z.of_N e) (Z.of_N (now / 1000000000))), (N.leb_spec (e * 1000000000) now); cbn [negb]; eauto; exfalso.
        -- pose proof (N.mul_div_le now 1000000000 ltac:(lia)). lia.
        -- pose proof (N.div_le_lower_bound now 1000000000 e ltac:(lia) ltac:(lia)). lia.
      * intros; congruence.
  - cbn [db_step fst snd]. exists m. split; [constructor|exact H].
  - cbn [db_step fst snd]. unfold db_query_ovs. rewrite HG. destruct (rentries _ _ H) as [l F].
    rewrite (de_all_ok m (db_selects false (Z.of_N (unix_timestamp now))) (due now) t l F).
    + cbn [ans_list]. exists m. split; [constructor; eapply rlists_of; eassumption|exact H].
    + intros w r Q. unfold db_selects, due. rewrite (rr_to0 _ _ Q), (rr_to2 _ _ Q). rewrite Bool.andb_comm. f_equal.
      * destruct (a_to0 r) as [x|]; cbn [option_map]; [|reflexivity]. unfold unix_timestamp, SEC, second. destruct (Z.ltb_spec (Z.of_N x) (Z.of_N (now / 1000000000))), (N.ltb_spec x (now / 1000000000)); try reflexivity; exfalso; lia.
  - cbn [db_step fst snd]. unfold db_load_all. destruct (rentries _ _ H) as [l F].
    pose proof (de_all_ok m (fun _ => true) (fun _ => true) t l F (fun _ _ _ => eq_refl)) as X.
    assert (FT : forall A (x : list A), filter (fun _ => true) x = x) by (intros A x; induction x; cbn; congruence). rewrite !FT in X. rewrite X. cbn [ans_list].
    exists m. split; [constructor|exact H]. pose proof (rlists_of (fun _ => true) _ _ _ H F) as L. rewrite FT in L. exact L.
Qed.

Lemma RD_empty : RD [] empty.
Proof. constructor; cbn; [constructor|auto|discriminate]. Qed.
Lemma db_refines os : forall now t m, RD t m -> Forall (op_value_ok c) os -> db_fits guid_of sty (now, m) os ->
  history (now, m) os (db_run c guid_of sty (now, t) os).
Proof.
  induction os as [|o os IH]; intros now t m H HV HF; [constructor|]. inversion HV; subst. inversion HF as [|? ? ? G X]; subst.
  destruct (db_step_refines now t m o H) as (m' & S & R'); auto.
  cbn [db_run]. destruct (db_step c guid_of sty (now, t) o) as [[now' t'] a]. cbn [fst snd] in *.
  econstructor; [exact S|]. apply IH; [exact R'|assumption|]. eapply X. exact S.
Qed.
End db.
