(** The stores refine [StoreSpec]. *)
From Verif Require Import Base BaseFacts ValueModel Text Assoc StoreModel StoreSpec StoreRun.
From Coq Require Import ZifyBool ZifyNat ZifyN.
Local Open Scope N_scope.

(** * Little-endian numbers *)
Lemma le_enc_length k v : length (le_enc k v) = k.
Proof. revert v. induction k as [|k IH]; intros v; cbn; [reflexivity|]. rewrite IH. reflexivity. Qed.
Lemma le_dec_enc k v : v < 256 ^ N.of_nat k -> le_dec (le_enc k v) = v.
Proof.
  revert v. induction k as [|k IH]; intros v H; cbn [le_enc le_dec].
  - cbn in H. lia.
  - rewrite pow256_S in H. rewrite IH by (apply N.div_lt_upper_bound; lia). pose proof (N.div_mod v 256 ltac:(lia)). lia.
Qed.
Lemma nlen_le8 v : nlen (le_enc 8 v) = 8.
Proof. unfold nlen. rewrite le_enc_length. reflexivity. Qed.
Lemma le8 v : v < 2 ^ 63 -> le_dec (le_enc 8 v) = v.
Proof. intros H. apply le_dec_enc. eapply N.lt_trans; [exact H|reflexivity]. Qed.

Lemma ttl_disk v : v < 2 ^ 63 -> ttl_from_disk (le_enc 8 v) = Ok (v * SEC).
Proof.
  intros H. unfold ttl_from_disk. rewrite nlen_le8, N.eqb_refl, le8 by exact H. cbn [negb].
  destruct (N.leb_spec (2 ^ 63) v); [lia|reflexivity].
Qed.
Lemma i64_le v : v < 2 ^ 63 -> i64_dec (le_enc 8 v) = Z.of_N v.
Proof. intros H. unfold i64_dec. rewrite le8 by exact H. destruct (Z.ltb_spec (Z.of_N v) (2 ^ 63)); [reflexivity|]. exfalso. lia. Qed.

Lemma deadline_eq now s : deadline now s = now / second + s.
Proof. unfold deadline, unix_timestamp, SEC, second. rewrite N.div_add; [reflexivity|discriminate]. Qed.

(** * Attribute names *)
Lemma xname_inj a b : xname a = xname b -> a = b.
Proof. destruct a, b; intros H; try reflexivity; vm_compute in H; discriminate. Qed.

Lemma eqb_key (a b : key) : list_eqb N.eqb a b = bytes_eqb a b.
Proof. reflexivity. Qed.
Lemma upd_eq {V} (m : amap V) k r : upd m k r k = r.
Proof. unfold upd. rewrite eqb_key, bytes_eqb_refl. reflexivity. Qed.
Lemma upd_ne {V} (m : amap V) k r k' : k <> k' -> upd m k r k' = m k'.
Proof. intros H. unfold upd. rewrite eqb_key. apply bytes_eqb_neq in H. rewrite H. reflexivity. Qed.

(** [combine]-matching of a text with itself or another of the two texts *)
Lemma count_true : count_match (bool_text true) (bool_text true) = nlen (bool_text true).
Proof. vm_compute. reflexivity. Qed.
Lemma count_false : count_match (bool_text true) (bool_text false) <> nlen (bool_text true).
Proof. vm_compute. discriminate. Qed.

(** * The directory *)
Section dirproof.
Context {V : Type} (c : codec V) (K : key -> Prop).

(** The keys in use have distinct file names, also from each other's temporary files. *)
Hypothesis DN : distinct_names K.

Lemma tmp_inj n n' : tmp_of n = tmp_of n' -> n = n'.
Proof. unfold tmp_of. intros H. apply app_inv_head in H. apply app_inv_tail in H. exact H. Qed.

Record repr (f : file) (r : record V) : Prop := Repr {
  rp_val : de c (f_data f) = Some (a_val r);
  rp_exp : aget (xname Ttl) (f_xattr f) = option_map (le_enc 8) (a_exp r);
  rp_to2 : aget (xname To2Performed) (f_xattr f) = option_map bool_text (a_to2 r);
  rp_to0 : aget (xname To0Wait) (f_xattr f) = option_map (le_enc 8) (a_to0 r);
  rp_b1 : forall e, a_exp r = Some e -> e < 2 ^ 63;
  rp_b2 : forall e, a_to0 r = Some e -> e < 2 ^ 63 }.

(** [lo]: leftovers of interrupted stores may be around. *)
Record R (lo : bool) (d : dir) (m : amap V) : Prop := {
  R_nodup : NoDup (adom d);
  R_key : forall k, K k -> match aget (get_path k) d with
                           | None => m k = None
                           | Some f => exists r, m k = Some r /\ repr f r
                           end;
  R_dom : forall k r, m k = Some r -> K k;
  R_all : forall n f, aget n d = Some f ->
            (exists k, K k /\ n = get_path k) \/
            (lo = true /\ f_xattr f = [] /\ exists k, K k /\ n = tmp_of (get_path k)) }.

Lemma R_get lo d m k r : R lo d m -> m k = Some r -> exists f, aget (get_path k) d = Some f /\ repr f r.
Proof.
  intros H E. pose proof (R_dom _ _ _ H _ _ E) as Kk. pose proof (R_key _ _ _ H _ Kk) as Q.
  destruct (aget (get_path k) d) as [f|]; [|congruence]. destruct Q as (r' & E' & Q). exists f. split; [reflexivity|]. congruence.
Qed.

Lemma R_empty lo : R lo [] empty.
Proof. constructor; [constructor| | |]; cbn; try discriminate; auto. Qed.

(** replacing the record of one key *)
Lemma R_set lo d m k f r : R lo d m -> K k -> repr f r -> R lo (aset (get_path k) f d) (upd m k (Some r)).
Proof.
  intros H Kk Rp. constructor.
  - apply nodup_aset, H.
  - intros k' Kk'. destruct (name_dec k k') as [<-|NE].
    + rewrite aget_aset_eq, upd_eq. eauto.
    + rewrite aget_aset_ne, upd_ne by (try exact NE; intros E; apply NE; symmetry; apply DN; auto). apply H. exact Kk'.
  - intros k' r' E. destruct (name_dec k k') as [<-|NE]; [exact Kk|]. rewrite upd_ne in E by exact NE. eapply R_dom; eauto.
  - intros n f' E. destruct (name_dec n (get_path k)) as [->|NE]; [left; eauto|].
    rewrite aget_aset_ne in E by exact NE. eapply R_all; eauto.
Qed.
Lemma R_del lo d m k : R lo d m -> K k -> R lo (adel (get_path k) d) (upd m k None).
Proof.
  intros H Kk. constructor.
  - apply nodup_adel, H.
  - intros k' Kk'. destruct (name_dec k k') as [<-|NE].
    + rewrite aget_adel_eq, upd_eq. reflexivity.
    + rewrite aget_adel_ne, upd_ne by (try exact NE; intros E; apply NE; symmetry; apply DN; auto). apply H. exact Kk'.
  - intros k' r' E. destruct (name_dec k k') as [<-|NE]; [exact Kk|]. rewrite upd_ne in E by exact NE. eapply R_dom; eauto.
  - intros n f' E. destruct (name_dec n (get_path k)) as [->|NE]; [rewrite aget_adel_eq in E; discriminate|].
    rewrite aget_adel_ne in E by exact NE. eapply R_all; eauto.
Qed.

(** the temporary file *)
Definition tmp_attrs (n : name) (d : dir) := match aget n d with Some f => f_xattr f | None => [] end.
Lemma R_tmp_attrs lo d m k : R lo d m -> K k -> tmp_attrs (tmp_of (get_path k)) d = [].
Proof.
  intros H Kk. unfold tmp_attrs. destruct (aget (tmp_of (get_path k)) d) as [f|] eqn:E; [|reflexivity].
  destruct (R_all _ _ _ H _ _ E) as [(k' & Kk' & E')|(_ & X & _)]; [|exact X]. exfalso. symmetry in E'. revert E'. apply DN; assumption.
Qed.
Lemma write_create n content d : fs_write n content (fs_create n d) = aset n (File content (tmp_attrs n d)) (fs_create n d).
Proof. unfold fs_write, fs_create. rewrite aget_aset_eq. reflexivity. Qed.
Lemma aset_aset {A} n (a b : A) l : aset n a (aset n b l) = aset n a l.
Proof.
  induction l as [|[k w] r IH]; cbn [aset]; [rewrite name_eqb_refl; reflexivity|].
  destruct (bytes_eqb n k) eqn:E; cbn [aset]; [rewrite name_eqb_refl; reflexivity|rewrite E, IH; reflexivity].
Qed.
Lemma write_create' n content d : fs_write n content (fs_create n d) = aset n (File content (tmp_attrs n d)) d.
Proof. rewrite write_create. unfold fs_create. apply aset_aset. Qed.
Lemma rename_write n n' content d :
  fs_rename n n' (fs_write n content (fs_create n d)) = aset n' (File content (tmp_attrs n d)) (adel n (aset n (File content (tmp_attrs n d)) d)).
Proof. rewrite write_create'. unfold fs_rename. rewrite aget_aset_eq. reflexivity. Qed.
Lemma adel_aset {A} n (a : A) l : adel n (aset n a l) = adel n l.
Proof.
  unfold adel. induction l as [|[k w] r IH]; cbn [aset filter fst].
  - rewrite name_eqb_refl. reflexivity.
  - destruct (bytes_eqb n k) eqn:E; cbn [filter fst].
    + rewrite name_eqb_refl. reflexivity.
    + rewrite E. cbn [negb]. rewrite IH. reflexivity.
Qed.

(** adding or dropping a temporary file changes nothing *)
Lemma R_tmp_set d m k content : R true d m -> K k -> R true (aset (tmp_of (get_path k)) (File content []) d) m.
Proof.
  intros H Kk. constructor.
  - apply nodup_aset, H.
  - intros k' Kk'. rewrite aget_aset_ne by (apply DN; assumption). apply H. exact Kk'.
  - apply H.
  - intros n f E. destruct (name_dec n (tmp_of (get_path k))) as [->|NE].
    + rewrite aget_aset_eq in E. inversion E; subst. right. split; [reflexivity|]. split; [reflexivity|]. eauto.
    + rewrite aget_aset_ne in E by exact NE. eapply R_all; eauto.
Qed.
Lemma R_tmp_del lo d m k : R lo d m -> K k -> R lo (adel (tmp_of (get_path k)) d) m.
Proof.
  intros H Kk. constructor.
  - apply nodup_adel, H.
  - intros k' Kk'. rewrite aget_adel_ne by (apply DN; assumption). apply H. exact Kk'.
  - apply H.
  - intros n f E. destruct (name_dec n (tmp_of (get_path k))) as [->|NE]; [rewrite aget_adel_eq in E; discriminate|].
    rewrite aget_adel_ne in E by exact NE. eapply R_all; eauto.
Qed.

Lemma repr_new data v : de c data = Some v -> repr (File data []) (Rec v None None None).
Proof. intros H. constructor; cbn; try reflexivity; try discriminate; exact H. Qed.

Lemma R_store lo d m k v data : R lo d m -> K k -> de c data = Some v ->
  R lo (fs_rename (tmp_of (get_path k)) (get_path k) (fs_write (tmp_of (get_path k)) data (fs_create (tmp_of (get_path k)) d)))
    (upd m k (Some (Rec v None None None))).
Proof.
  intros H Kk E. rewrite rename_write, adel_aset, (R_tmp_attrs _ _ _ _ H Kk).
  apply R_set; [apply R_tmp_del; assumption|exact Kk|apply repr_new; exact E].
Qed.

Lemma R_ext lo d m m' : (forall k, m k = m' k) -> R lo d m -> R lo d m'.
Proof.
  intros E H. constructor; [apply H| | |apply H].
  - intros k Kk. rewrite <- E. apply H. exact Kk.
  - intros k r X. rewrite <- E in X. eapply R_dom; eauto.
Qed.

(** ** maintenance *)
Definition file_overdue (now : N) (f : file) : bool :=
  match aget (xname Ttl) (f_xattr f) with Some t => negb (now <? le_dec t * SEC) | None => false end.
Definition ttl_ok (f : file) : Prop := match aget (xname Ttl) (f_xattr f) with Some t => exists v, ttl_from_disk t = Ok v | None => True end.
Lemma ttl_disk_val t v : ttl_from_disk t = Ok v -> v = le_dec t * SEC.
Proof. unfold ttl_from_disk. destruct (negb (nlen t =? 8)); [discriminate|]. destruct (2 ^ 63 <=? le_dec t); [discriminate|]. intros H. inversion H. reflexivity. Qed.
Lemma maint_filter now d : (forall n f, In (n, f) d -> ttl_ok f) ->
  maint_loop now d = (filter (fun e => negb (file_overdue now (snd e))) d, Ok tt).
Proof.
  induction d as [|[n f] r IH]; intros H; [reflexivity|]. cbn [maint_loop filter snd]. rewrite IH by (intros n' f' Hin; apply (H n' f'); right; exact Hin).
  specialize (H n f (or_introl eq_refl)). unfold ttl_ok in H.
  assert (FO : file_overdue now f = match aget (xname Ttl) (f_xattr f) with Some t => negb (now <? le_dec t * SEC) | None => false end) by reflexivity.
  rewrite FO. clear FO. destruct (aget (xname Ttl) (f_xattr f)) as [t|]; [|reflexivity].
  destruct H as [v H]. rewrite H, (ttl_disk_val _ _ H). destruct (now <? le_dec t * SEC); reflexivity.
Qed.
Lemma repr_overdue now f r : repr f r -> ttl_ok f /\ file_overdue now f = overdue now r.
Proof.
  intros H. unfold ttl_ok, file_overdue, overdue. rewrite (rp_exp _ _ H). destruct (a_exp r) as [e|] eqn:E; cbn [option_map]; [|auto].
  pose proof (rp_b1 _ _ H _ E). split; [eexists; apply ttl_disk; assumption|]. rewrite le8 by assumption. unfold SEC, second. lia.
Qed.
Lemma R_ttl_ok lo d m n f : R lo d m -> In (n, f) d -> ttl_ok f.
Proof.
  intros H I. apply in_aget in I; [|apply H]. destruct (R_all _ _ _ H _ _ I) as [(k & Kk & ->)|(_ & X & _)].
  - pose proof (R_key _ _ _ H _ Kk) as Q. rewrite I in Q. destruct Q as (r & _ & Q). apply (repr_overdue 0) in Q. apply Q.
  - unfold ttl_ok. rewrite X. cbn [aget]. exact Logic.I.
Qed.
Lemma R_maint lo d m now : R lo d m ->
  snd (dir_maint now d) = Ok tt /\
  R lo (fst (dir_maint now d)) (fun k => match m k with Some r => if overdue now r then None else Some r | None => None end).
Proof.
  intros H. unfold dir_maint. rewrite maint_filter by (intros n f I; eapply R_ttl_ok; eauto). cbn [fst snd]. split; [reflexivity|].
  constructor.
  - apply nodup_filter, H.
  - intros k Kk. rewrite aget_filter by apply H. pose proof (R_key _ _ _ H _ Kk) as Q.
    destruct (aget (get_path k) d) as [f|] eqn:E; [|rewrite Q; reflexivity]. destruct Q as (r & Em & Q). rewrite Em. cbn [snd].
    destruct (repr_overdue now _ _ Q) as [_ ->]. destruct (overdue now r); cbn [negb]; [reflexivity|eauto].
  - intros k r. destruct (m k) eqn:E; [|discriminate]. intros _. eapply R_dom; eauto.
  - intros n f E. rewrite aget_filter in E by apply H. destruct (aget n d) eqn:E'; [|discriminate].
    destruct (negb _); [|discriminate]. inversion E; subst. eapply R_all; eauto.
Qed.

(** ** loading *)
Lemma R_load lo d m now k : R lo d m -> K k ->
  (m k = None /\ dir_load c now d k = (d, Ok None)) \/
  (exists r, m k = Some r /\ expired now r = true /\ dir_load c now d k = (adel (get_path k) d, Ok None)) \/
  (exists r, m k = Some r /\ expired now r = false /\ dir_load c now d k = (d, Ok (Some (a_val r)))).
Proof.
  intros H Kk. pose proof (R_key _ _ _ H _ Kk) as Q. unfold dir_load. destruct (aget (get_path k) d) as [f|]; [|left; auto].
  destruct Q as (r & Em & Q). right. rewrite (rp_val _ _ Q), (rp_exp _ _ Q). unfold expired. destruct (a_exp r) as [e|] eqn:E; cbn [option_map].
  - rewrite (ttl_disk e) by (apply (rp_b1 _ _ Q); exact E). change SEC with second.
    destruct (e * second <? now) eqn:L; [left|right]; exists r; rewrite E, L; auto.
  - right. exists r. rewrite E. auto.
Qed.

(** ** listing *)
Definition entry (m : amap V) (e : name * file) (x : key * record V) : Prop :=
  fst e = get_path (fst x) /\ m (fst x) = Some (snd x) /\ repr (snd e) (snd x).
Lemma entries d m : R false d m -> exists l, Forall2 (entry m) d l.
Proof.
  intros H. assert (A : forall n f, In (n, f) d -> exists x, entry m (n, f) x).
  { intros n f I. apply in_aget in I; [|apply H]. destruct (R_all _ _ _ H _ _ I) as [(k & Kk & ->)|(X & _)]; [|discriminate].
    pose proof (R_key _ _ _ H _ Kk) as Q. rewrite I in Q. destruct Q as (r & Em & Q). exists (k, r). split; [reflexivity|]. split; [exact Em|exact Q]. }
  clear H. induction d as [|[n f] d IH]; [exists []; constructor|].
  destruct IH as [l Hl]; [intros n' f' I; apply A; right; exact I|]. destruct (A n f (or_introl eq_refl)) as [x Hx]. exists (x :: l). constructor; assumption.
Qed.
Lemma entries_nodup d m l : NoDup (adom d) -> Forall2 (entry m) d l -> (forall x, In x l -> K (fst x)) -> NoDup (map fst l).
Proof.
  intros ND F. induction F as [|[n f] [k r] d l (E & Em & Q) F IH]; intros HK; [constructor|]. cbn in E, Em, Q. cbn [map fst adom] in *.
  unfold adom in ND. cbn in ND. inversion ND as [|? ? NI ND']; subst. constructor; [|apply IH; [exact ND'|intros x I; apply HK; right; exact I]].
  intros I. apply NI. clear - I F. induction F as [|[n2 f2] [k2 r2] d l (E2 & _ & _) F IH]; [destruct I|].
  cbn in *. destruct I as [->|I]; [left; exact E2|right; auto].
Qed.
Lemma entries_complete d m l k r : R false d m -> Forall2 (entry m) d l -> m k = Some r -> In (k, r) l.
Proof.
  intros H F Em. destruct (R_get _ _ _ _ _ H Em) as (f & E & Q). apply aget_in in E. pose proof (R_dom _ _ _ H _ _ Em) as Kk.
  assert (D : forall k' r', m k' = Some r' -> K k') by apply H. clear H.
  induction F as [|[n2 f2] [k2 r2] d l (E2 & Em2 & Q2) F IH]; [destruct E|]. cbn [fst snd] in E2, Em2, Q2.
  destruct E as [E|E]; [|right; auto]. inversion E as [[En Ef]]. left. assert (k2 = k). { apply DN; [eauto|exact Kk|congruence]. } subst k2. congruence.
Qed.
Lemma lists_of (p : record V -> bool) d m l : R false d m -> Forall2 (entry m) d l ->
  lists p m (map (fun x => a_val (snd x)) (filter (fun x => p (snd x)) l)).
Proof.
  intros H F. assert (IN : forall x, In x l -> m (fst x) = Some (snd x)).
  { clear H. induction F as [|[n2 f2] [k2 r2] d l (E2 & Em2 & Q2) F IH]; intros x [].  - subst x. exact Em2. - auto. }
  exists (map fst (filter (fun x => p (snd x)) l)). split; [|split].
  - assert (ND : NoDup (map fst l)). { eapply entries_nodup; [apply H|exact F|]. intros x I. eapply R_dom; [exact H|apply IN; exact I]. }
    clear - ND. induction l as [|[k r] l IH]; [constructor|]. cbn [map fst] in ND. inversion ND as [|? ? NI ND']; subst. cbn [filter snd].
    destruct (p r); [|auto]. cbn [map fst]. constructor; [|auto]. intros I. apply NI. apply in_map_iff in I. destruct I as (x & Ex & I).
    apply filter_In in I. rewrite <- Ex. apply in_map. apply I.
  - intros k. rewrite in_map_iff. split.
    + intros ([k' r] & <- & I). apply filter_In in I. destruct I as [I P]. exists r. split; [exact (IN _ I)|exact P].
    + intros (r & Em & P). exists (k, r). split; [reflexivity|]. apply filter_In. split; [eapply entries_complete; eauto|exact P].
  - rewrite !map_map. apply map_ext_in. intros x I. apply filter_In in I. rewrite (IN x) by apply I. reflexivity.
Qed.

Lemma load_all_ok m d l : Forall2 (entry m) d l -> dir_load_all c d = Ok (map (fun x => a_val (snd x)) l).
Proof.
  induction 1 as [|[n f] [k r] d l (E & Em & Q) F IH]; [reflexivity|]. cbn [fst snd] in *. cbn [dir_load_all map snd].
  rewrite (rp_val _ _ Q), IH. reflexivity.
Qed.
Lemma query_ok m now d l : Forall2 (entry m) d l ->
  owner_query c now d = Ok (map (fun x => a_val (snd x)) (filter (fun x => due now (snd x)) l)).
Proof.
  unfold owner_query, to_stored. induction 1 as [|[n f] [k r] d l (E & Em & Q) F IH]; [reflexivity|]. cbn [fst snd] in E, Em, Q.
  assert (T2 : neq_holds f (@pair mkey bytes To2Performed (bool_text true)) = match a_to2 r with Some b => negb b | None => true end).
  { unfold neq_holds. cbn [fst snd]. rewrite (rp_to2 _ _ Q). destruct (a_to2 r) as [[|]|]; reflexivity. }
  cbn [dir_query existsb filter snd]. rewrite Bool.orb_false_r, T2.
  assert (DU : due now r = match a_to2 r with Some b => negb b | None => true end && match a_to0 r with Some t => t <? now / second | None => true end) by reflexivity.
  rewrite DU. clear DU.
  destruct (match a_to2 r with Some b => negb b | None => true end); cbn [andb]; [|exact IH].
  cbn [lt_holds]. rewrite (rp_to0 _ _ Q). destruct (a_to0 r) as [t|] eqn:E0; cbn [option_map].
  - rewrite nlen_le8, N.eqb_refl. cbn [negb bind]. rewrite i64_le by (apply (rp_b2 _ _ Q); exact E0). rewrite Bool.orb_false_r, IH. cbn [bind].
    rewrite (rp_val _ _ Q). change (now / second) with (unix_timestamp now).
    replace (Z.of_N t <? Z.of_N (unix_timestamp now))%Z with (t <? unix_timestamp now) by lia.
    destruct (t <? unix_timestamp now); reflexivity.
  - cbn [bind]. rewrite IH. cbn [bind]. rewrite (rp_val _ _ Q). reflexivity.
Qed.

(** ** one step *)
Lemma R_meta lo d m k f r : R lo d m -> K k -> repr f r -> aget (get_path k) d <> None -> R lo (aset (get_path k) f d) (upd m k (Some r)).
Proof. intros. apply R_set; assumption. Qed.

Lemma xne a b : a <> b -> xname a <> xname b.
Proof. intros H E. apply H. apply xname_inj. exact E. Qed.

Ltac xr := repeat first [rewrite aget_aset_eq | rewrite aget_aset_ne by (apply xne; discriminate) | rewrite aget_adel_eq | rewrite aget_adel_ne by (apply xne; discriminate)].
Ltac rp Q := constructor; cbn [f_data f_xattr a_val a_exp a_to2 a_to0 option_map]; xr; try apply Q; try reflexivity; try discriminate.

Lemma step_refines lo now d m o : R lo d m -> (forall k, op_key o = Some k -> K k) -> op_value_ok c o -> op_allowed lo o -> op_time_ok now o ->
  exists m', step (now, m) o (snd (dir_step c (now, d) o)) (fst (fst (dir_step c (now, d) o)), m') /\
             R lo (snd (fst (dir_step c (now, d) o))) m'.
Proof.
  intros H HK HV HA HT. destruct o as [k v|k v w|k|k|k s|k s|k b|k a| |t| |]; cbn [op_key] in HK; try specialize (HK k eq_refl).
  - destruct HV as (data & Sv & Dv). cbn [dir_step]. unfold dir_store. rewrite Sv. cbn [fst snd ans_unit].
    eexists. split; [constructor|]. apply R_store; assumption.
  - destruct HV as (data & Sv & Dv). cbn [dir_step fst snd]. unfold dir_crash. rewrite Sv. destruct w as [n|].
    + cbn [op_allowed] in HA. subst lo. exists m. split; [constructor|]. rewrite write_create', (R_tmp_attrs _ _ _ _ H HK). apply R_tmp_set; assumption.
    + eexists. split; [constructor|]. apply R_store; assumption.
  - cbn [dir_step]. destruct (R_load _ _ _ now _ H HK) as [(Em & ->)|[(r & Em & X & ->)|(r & Em & X & ->)]]; cbn [fst snd ans_val].
    + exists m. split; [constructor; exact Em|exact H].
    + eexists. split; [eapply SLoadExp; eassumption|]. apply R_del; assumption.
    + exists m. split; [apply SLoad; assumption|exact H].
  - cbn [dir_step]. unfold dir_destroy. pose proof (R_key _ _ _ H _ HK) as Q. destruct (aget (get_path k) d) as [f|] eqn:E; cbn [fst snd ans_unit].
    + destruct Q as (r & Em & Q). eexists. split; [eapply SDestroy; exact Em|]. apply R_del; assumption.
    + exists m. split; [constructor; exact Q|exact H].
  - cbn [dir_step]. unfold dir_set_meta. pose proof (R_key _ _ _ H _ HK) as Q. cbn [op_time_ok] in HT. destruct (aget (get_path k) d) as [f|] eqn:E; cbn [fst snd ans_unit].
    + destruct Q as (r & Em & Q). eexists. split; [constructor|]. unfold modify. rewrite Em. cbn [option_map]. apply R_set; [exact H|exact HK|].
      cbn [to_stored]. rewrite deadline_eq. rp Q. intros e X. inversion X; subst. exact HT.
    + eexists. split; [constructor|]. apply R_ext with m; [|exact H]. intros k'. unfold modify. rewrite Q. cbn [option_map].
      destruct (name_dec k k') as [<-|NE]; [rewrite upd_eq; exact Q|rewrite upd_ne by exact NE; reflexivity].
  - cbn [dir_step]. unfold dir_set_meta. pose proof (R_key _ _ _ H _ HK) as Q. cbn [op_time_ok] in HT. destruct (aget (get_path k) d) as [f|] eqn:E; cbn [fst snd ans_unit].
    + destruct Q as (r & Em & Q). eexists. split; [constructor|]. unfold modify. rewrite Em. cbn [option_map]. apply R_set; [exact H|exact HK|].
      cbn [to_stored]. rewrite deadline_eq. rp Q. intros e X. inversion X; subst. exact HT.
    + eexists. split; [constructor|]. apply R_ext with m; [|exact H]. intros k'. unfold modify. rewrite Q. cbn [option_map].
      destruct (name_dec k k') as [<-|NE]; [rewrite upd_eq; exact Q|rewrite upd_ne by exact NE; reflexivity].
  - cbn [dir_step]. unfold dir_set_meta. pose proof (R_key _ _ _ H _ HK) as Q. destruct (aget (get_path k) d) as [f|] eqn:E; cbn [fst snd ans_unit].
    + destruct Q as (r & Em & Q). eexists. split; [constructor|]. unfold modify. rewrite Em. cbn [option_map]. apply R_set; [exact H|exact HK|].
      cbn [to_stored]. rp Q.
    + eexists. split; [constructor|]. apply R_ext with m; [|exact H]. intros k'. unfold modify. rewrite Q. cbn [option_map].
      destruct (name_dec k k') as [<-|NE]; [rewrite upd_eq; exact Q|rewrite upd_ne by exact NE; reflexivity].
  - cbn [dir_step]. unfold dir_del_meta. pose proof (R_key _ _ _ H _ HK) as Q. destruct (aget (get_path k) d) as [f|] eqn:E; cbn [fst snd ans_unit].
    + destruct Q as (r & Em & Q). destruct a; cbn [mk].
      * rewrite (rp_exp _ _ Q). destruct (a_exp r) as [e|] eqn:Ee; cbn [option_map fst snd ans_unit].
        -- eexists. split; [apply SDel with (a := AExp) (r := r); [exact Em|congruence]|]. apply R_set; [exact H|exact HK|]. rp Q.
        -- exists m. split; [apply SDelUnset with r; [exact Em|exact Ee]|exact H].
      * rewrite (rp_to2 _ _ Q). destruct (a_to2 r) as [e|] eqn:Ee; cbn [option_map fst snd ans_unit].
        -- eexists. split; [apply SDel with (a := ATo2) (r := r); [exact Em|congruence]|]. apply R_set; [exact H|exact HK|]. rp Q.
        -- exists m. split; [apply SDelUnset with r; [exact Em|exact Ee]|exact H].
      * rewrite (rp_to0 _ _ Q). destruct (a_to0 r) as [e|] eqn:Ee; cbn [option_map fst snd ans_unit].
        -- eexists. split; [apply SDel with (a := ATo0) (r := r); [exact Em|congruence]|]. apply R_set; [exact H|exact HK|]. rp Q.
        -- exists m. split; [apply SDelUnset with r; [exact Em|exact Ee]|exact H].
    + exists m. split; [constructor; exact Q|exact H].
  - cbn [dir_step]. destruct (R_maint _ _ _ now H) as [A B]. destruct (dir_maint now d) as [d' o]. cbn [fst snd] in *. subst o. cbn [ans_unit].
    eexists. split; [constructor|]. exact B.
  - cbn [dir_step fst snd]. exists m. split; [constructor|exact H].
  - cbn [op_allowed] in HA. subst lo. cbn [dir_step fst snd]. destruct (entries _ _ H) as [l F]. rewrite (query_ok _ _ _ _ F). cbn [ans_list].
    exists m. split; [constructor; eapply lists_of; eauto|exact H].
  - cbn [op_allowed] in HA. subst lo. cbn [dir_step fst snd]. destruct (entries _ _ H) as [l F]. rewrite (load_all_ok _ _ _ F). cbn [ans_list].
    exists m. split; [constructor|exact H]. pose proof (lists_of (fun _ => true) _ _ _ H F) as L.
    assert (FT : forall A (x : list A), filter (fun _ => true) x = x) by (intros A x; induction x; cbn; congruence). rewrite FT in L. exact L.
Qed.

Lemma dir_refines lo os : forall now d m, R lo d m ->
  usable c K lo now os ->
  history (now, m) os (dir_run c (now, d) os).
Proof.
  induction os as [|o os IH]; intros now d m H (HK & HV & HA & HT); [constructor|].
  inversion HV; subst. inversion HA; subst. destruct HT as [T1 T2].
  destruct (step_refines lo now d m o H) as (m' & S & R'); auto; [intros k E; apply (HK o k); [left; reflexivity|exact E]|].
  cbn [dir_run]. destruct (dir_step c (now, d) o) as [[now' d'] a] eqn:E. cbn [fst snd] in *.
  econstructor; [exact S|]. apply IH; [exact R'|]. split; [|split; [|split]]; auto.
  - intros o' k' I. apply HK. right. exact I.
  - replace now' with (match o with OTick t => now + t | _ => now end); [exact T2|].
    clear - S. inversion S; reflexivity.
Qed.
Lemma final_R lo os : forall now d m, R lo d m -> usable c K lo now os -> exists m', R lo (snd (dir_final c (now, d) os)) m'.
Proof.
  induction os as [|o os IH]; intros now d m H (HK & HV & HA & HT); [exists m; exact H|].
  inversion HV; subst. inversion HA; subst. destruct HT as [T1 T2].
  destruct (step_refines lo now d m o H) as (m' & S & R'); auto; [intros k E; apply (HK o k); [left; reflexivity|exact E]|].
  cbn [dir_final]. destruct (dir_step c (now, d) o) as [[now' d'] a] eqn:E. cbn [fst snd] in *.
  eapply IH; [exact R'|]. split; [|split; [|split]]; auto.
  - intros o' k' I. apply HK. right. exact I.
  - replace now' with (match o with OTick t => now + t | _ => now end); [exact T2|].
    clear - S. inversion S; reflexivity.
Qed.

Lemma load_ext t d d' k : aget (get_path k) d' = aget (get_path k) d -> snd (dir_load c t d' k) = snd (dir_load c t d k).
Proof.
  unfold dir_load. intros ->. destruct (aget (get_path k) d) as [f|]; [|reflexivity].
  destruct (aget (xname Ttl) (f_xattr f)) as [x|]; [|reflexivity]. destruct (ttl_from_disk x) as [y|?|?]; [|reflexivity|reflexivity].
  destruct (y <? t); reflexivity.
Qed.

Lemma crash_atomic lo d m k v data d' : R lo d m -> K k -> ser c v = Ok data -> de c data = Some v -> store_crash d k data d' ->
  (forall k' t, K k' -> k' <> k -> snd (dir_load c t d' k') = snd (dir_load c t d k')) /\
  ((forall t, snd (dir_load c t d' k) = snd (dir_load c t d k)) \/ (forall t, snd (dir_load c t d' k) = Ok (Some v))).
Proof.
  intros H Kk Sv Dv [|w rest E|].
  - split; [reflexivity|left; reflexivity].
  - rewrite write_create'. split; [intros k' t Kk' _|left; intros t]; apply load_ext; apply aget_aset_ne; apply DN; assumption.
  - rewrite rename_write, (R_tmp_attrs _ _ _ _ H Kk), adel_aset. split.
    + intros k' t Kk' NE. apply load_ext. rewrite aget_aset_ne, aget_adel_ne; [reflexivity| |].
      * apply DN; assumption.
      * intros E. apply NE. apply DN; assumption.
    + right. intros t. unfold dir_load. rewrite aget_aset_eq. cbn [f_xattr f_data aget]. rewrite Dv. reflexivity.
Qed.

Lemma maint_invisible lo d m k t : R lo d m -> K k -> (forall e, t <> e * second) ->
  snd (dir_load c t (fst (dir_maint t d)) k) = snd (dir_load c t d k).
Proof.
  intros H Kk NE.
  destruct (R_maint _ _ _ t H) as [_ H'].
  destruct (R_load _ _ _ t _ H Kk) as [(Em & ->)|[(r & Em & X & ->)|(r & Em & X & ->)]];
  destruct (R_load _ _ _ t _ H' Kk) as [(Em' & ->)|[(r' & Em' & X' & ->)|(r' & Em' & X' & ->)]]; cbn [snd]; try reflexivity;
  rewrite Em in Em'; try discriminate.
  - destruct (overdue t r) eqn:O; [discriminate|]. injection Em' as <-. congruence.
  - destruct (overdue t r) eqn:O; [|discriminate]. unfold overdue in O. unfold expired in X. destruct (a_exp r) as [e|]; [|discriminate].
    specialize (NE e). lia.
  - destruct (overdue t r) eqn:O; [discriminate|]. injection Em' as <-. congruence.
  - destruct (overdue t r) eqn:O; [discriminate|]. injection Em' as <-. reflexivity.
Qed.
Lemma store_complete lo d m k v data t : R lo d m -> K k -> ser c v = Ok data -> de c data = Some v ->
  snd (dir_load c t (fst (dir_store c d k v)) k) = Ok (Some v).
Proof.
  intros H Kk Sv Dv. unfold dir_store. rewrite Sv. cbn [fst]. rewrite rename_write, (R_tmp_attrs _ _ _ _ H Kk).
  unfold dir_load. rewrite aget_aset_eq. cbn [f_xattr f_data aget]. rewrite Dv. reflexivity.
Qed.
Lemma store_other lo d m k v k' t : R lo d m -> K k -> K k' -> k' <> k ->
  snd (dir_load c t (fst (dir_store c d k v)) k') = snd (dir_load c t d k').
Proof.
  intros H Kk Kk' NE. apply load_ext. unfold dir_store. destruct (ser c v) as [data|?|?]; cbn [fst].
  - rewrite rename_write, adel_aset. rewrite aget_aset_ne, aget_adel_ne; [reflexivity| |].
    + apply DN; assumption.
    + intros E. apply NE. apply DN; assumption.
  - unfold fs_create. rewrite aget_aset_ne; [reflexivity|]. apply DN; assumption.
  - unfold fs_create. rewrite aget_aset_ne; [reflexivity|]. apply DN; assumption.
Qed.
End dirproof.

(** Expiry, for any directory. *)
Lemma load_after_expire {V} (c : codec V) d k v data now s t : ser c v = Ok data -> de c data = Some v -> now / second + s < 2 ^ 63 ->
  dir_load c t (fst (dir_set_meta now (fst (dir_store c d k v)) k Ttl (MDur s))) k =
  let d2 := fst (dir_set_meta now (fst (dir_store c d k v)) k Ttl (MDur s)) in
  if (now / second + s) * second <? t then (adel (get_path k) d2, Ok None) else (d2, Ok (Some v)).
Proof.
  intros Sv Dv B. cbv zeta. assert (E : exists xs, aget (get_path k) (fst (dir_set_meta now (fst (dir_store c d k v)) k Ttl (MDur s))) =
     Some (File data (aset (xname Ttl) (le_enc 8 (now / second + s)) xs))).
  { unfold dir_store. rewrite Sv. cbn [fst]. rewrite rename_write. unfold dir_set_meta. rewrite aget_aset_eq. cbn [fst f_data f_xattr].
    rewrite aget_aset_eq. cbn [to_stored]. rewrite deadline_eq. eexists. reflexivity. }
  destruct E as [xs E]. unfold dir_load at 1. rewrite E. cbn [f_xattr f_data]. rewrite aget_aset_eq, ttl_disk by exact B. change SEC with second.
  rewrite Dv. reflexivity.
Qed.
