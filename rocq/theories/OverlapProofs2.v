(** Proofs about overlapping calls of the directory store: loads overlapping with anything. *)
From Verif Require Import Base BaseFacts ValueModel Text Assoc StoreModel StoreProofs OverlapModel OverlapSpec OverlapProofs.
From Coq Require Import ZifyBool ZifyNat ZifyN.
Local Open Scope N_scope.
Set Default Proof Using "Type".
Local Arguments tmp_of : simpl never.
Local Arguments get_path : simpl never.
Local Arguments xname : simpl never.

Section regular.
Context {V : Type} (c : codec V) (T : N).

(** A file that somebody has open and nobody writes. *)
Definition held (s : fs) (i : N) : Prop := i < fs_next s /\ forall m, aget (tmp_of m) (fs_names s) <> Some i.
(** Such files keep their data, and so do the temporary files of [P]. *)
Definition keeps (P : name -> Prop) (s s' : fs) : Prop :=
  (forall i, held s i -> held s' i /\ f_data (fs_file s' i) = f_data (fs_file s i)) /\
  (forall m i, P m -> aget (tmp_of m) (fs_names s) = Some i ->
     aget (tmp_of m) (fs_names s') = Some i /\ f_data (fs_file s' i) = f_data (fs_file s i)).
Definition expiries (s : fs) : Prop := forall i, expiry_ok (fs_file s i).
Definition whole (last : name -> option V) (s : fs) : Prop :=
  forall n i, ~ temporary n -> aget n (fs_names s) = Some i -> exists v, last n = Some v /\ de c (f_data (fs_file s i)) = Some v.

Definition rpc (s : fs) (last : name -> option V) (calls : N -> option (qop V * (V -> Prop))) (o : qop V) (p : pc) (w : V -> Prop) : Prop :=
  match o, p with
  | QLoad k, Fresh => forall v, last (get_path k) = Some v \/ stored_under calls (get_path k) v -> w v
  | _, Fresh => True
  | QStore k v, Writing i off rest => aget (tmp_of (get_path k)) (fs_names s) = Some i /\
      ser c v = Ok (f_data (fs_file s i) ++ rest) /\ off = length (f_data (fs_file s i))
  | QLoad k, Opened i => held s i /\ exists v, de c (f_data (fs_file s i)) = Some v /\ w v
  | QLoad k, Reading i _ got => held s i /\ (exists v, de c (f_data (fs_file s i)) = Some v /\ w v) /\ exists r, f_data (fs_file s i) = got ++ r
  | QLoad k, Removing _ => True
  | QMeta k _ _, Opened i | QDelMeta k _, Opened i => held s i
  | QSweep n, Removing _ => ~ temporary n
  | _, _ => False
  end.

Definition done_ok (last : name -> option V) (o : qop V) (w : V -> Prop) (s' : fs) (r : reply V) : Prop :=
  match o with
  | QStore k v => r = Ok None /\ whole (upd_name (get_path k) (Some v) last) s'
  | QLoad k => (r = Ok None \/ exists v, r = Ok (Some v) /\ w v) /\ whole last s'
  | QDestroy k => whole (upd_name (get_path k) None last) s'
  | _ => whole last s'
  end.
Definition mine (o : qop V) (m : name) : Prop := match o with QStore k _ => m <> get_path k | _ => True end.
Definition rstep_ok (last : name -> option V) (calls : N -> option (qop V * (V -> Prop))) (s : fs) (o : qop V) (w : V -> Prop) (s' : fs) (x : pc + reply V) : Prop :=
  sound_fs s' /\ tmp_clean s' /\ expiries s' /\ keeps (mine o) s s' /\
  match x with
  | inl p => p <> Fresh /\ rpc s' last calls o p w /\ whole last s'
  | inr r => done_ok last o w s' r
  end.

Lemma keeps_refl P s : keeps P s s.
Proof. split; auto. Qed.
Lemma upd_same {A} n (x : A) g : upd_name n x g n = x.
Proof. unfold upd_name. rewrite name_eqb_refl. reflexivity. Qed.
Lemma upd_other {A} n m (x : A) g : m <> n -> upd_name n x g m = g m.
Proof. unfold upd_name. intros H. destruct (bytes_eqb m n) eqn:E; [apply bytes_eqb_spec in E; contradiction|reflexivity]. Qed.

Lemma named_held s n i : sound_fs s -> ~ temporary n -> aget n (fs_names s) = Some i -> held s i.
Proof. intros Sd NT G. split; [eapply (proj2 Sd); exact G|]. eapply not_tmp; eassumption. Qed.

(** Taking a name away. *)
Lemma unlink_step last s n s' : sound_fs s -> tmp_clean s -> expiries s -> whole last s -> ~ temporary n -> sys_unlink n s = Some s' ->
  sound_fs s' /\ tmp_clean s' /\ expiries s' /\ keeps (fun _ => True) s s' /\ whole (upd_name n None last) s' /\ whole last s'.
Proof.
  intros Sd TC EX W NT U. destruct (unlink_facts _ _ _ Sd TC U) as (S1 & TC1 & G1 & O1 & F1 & X1).
  assert (TM : forall m, aget (tmp_of m) (fs_names s') = aget (tmp_of m) (fs_names s)).
  { intros m. apply O1. intros <-. apply NT. exists m. reflexivity. }
  split; [exact S1|]. split; [exact TC1|]. split; [intros i; rewrite F1; apply EX|]. split.
  - split.
    + intros i [L H]. split; [split; [lia|]|rewrite F1; reflexivity]. intros m. rewrite TM. apply H.
    + intros m i _ G. rewrite TM, F1. auto.
  - assert (Q : forall m i, aget m (fs_names s') = Some i -> m <> n /\ aget m (fs_names s) = Some i).
    { intros m i G. destruct (name_dec m n) as [->|Nm]; [congruence|]. rewrite O1 in G by exact Nm. auto. }
    split; intros m i Nm G; destruct (Q _ _ G) as [N1 G1']; rewrite F1; destruct (W _ _ Nm G1') as (v & L & D); exists v; [rewrite upd_other by exact N1|]; auto.
Qed.
(** Changing the attributes of an open file. *)
Lemma attrs_step last s i g : sound_fs s -> tmp_clean s -> expiries s -> whole last s -> held s i ->
  expiry_ok (File (f_data (fs_file s i)) (g (f_xattr (fs_file s i)))) ->
  let s' := set_attrs i g s in
  sound_fs s' /\ tmp_clean s' /\ expiries s' /\ keeps (fun _ => True) s s' /\ whole last s'.
Proof.
  intros Sd TC EX W [L H] EO s'. destruct (attrs_facts i g s Sd TC H) as [S1 TC1].
  assert (D : forall j, f_data (fs_file s' j) = f_data (fs_file s j)).
  { intros j. unfold s'. cbn. destruct (N.eq_dec j i) as [->|NE]; [rewrite put_same; reflexivity|rewrite put_other by exact NE; reflexivity]. }
  split; [exact S1|]. split; [exact TC1|]. split.
  { intros j. unfold s'. cbn. destruct (N.eq_dec j i) as [->|NE]; [rewrite put_same; exact EO|rewrite put_other by exact NE; apply EX]. }
  split; [split; [intros j Hj; split; [exact Hj|apply D]|intros m j _ G; split; [exact G|apply D]]|].
  intros n j NT G. rewrite D. apply W; assumption.
Qed.
Lemma keeps_mine o s s' : keeps (fun _ => True) s s' -> keeps (mine o) s s'.
Proof. intros [A B]. split; [exact A|]. intros m i _. apply B. exact Logic.I. Qed.

Lemma rstep_store last calls s k v p w j now s' x : sound_fs s -> tmp_clean s -> expiries s -> whole last s -> sound_op c T (QStore k v) ->
  rpc s last calls (QStore k v) p w -> advance c s (QStore k v) p j now = (s', x) -> rstep_ok last calls s (QStore k v) w s' x.
Proof.
  intros Sd TC EX W [NT (data & SE & DE)] P E. cbn [proper target] in NT. destruct p as [|i off rest| | |]; try contradiction; cbn [advance] in E.
  - destruct (sys_create (tmp_of (get_path k)) s) as [s1 i] eqn:C. rewrite SE in E. injection E as <- <-.
    destruct (create_facts _ _ _ _ Sd TC C) as (S1 & TC1 & G1 & F1 & O1 & O2 & X1).
    split; [exact S1|]. split; [exact TC1|]. split.
    { intros q. destruct (N.eq_dec q i) as [->|NE]; [rewrite F1; exact Logic.I|].
      assert (H : fs_file s1 q = fs_file s q).
      { unfold sys_create in C. destruct (aget (tmp_of (get_path k)) (fs_names s)); injection C as <- <-; cbn [fs_file]; apply put_other; exact NE. }
      rewrite H. apply EX. }
    assert (KP : forall q, held s q -> fs_file s1 q = fs_file s q /\ q <> i).
    { intros q [L H]. split; [apply O2; auto|]. intros ->. destruct (aget (tmp_of (get_path k)) (fs_names s)) as [z|] eqn:G.
      - unfold sys_create in C. rewrite G in C. injection C as <- <-. exact (H _ G).
      - unfold sys_create in C. rewrite G in C. injection C as <- <-. lia. }
    split; [split|].
    + intros q Hq. destruct (KP q Hq) as [K1 K2]. split; [|rewrite K1; reflexivity]. destruct Hq as [L H]. split; [lia|]. intros m.
      destruct (name_dec (tmp_of m) (tmp_of (get_path k))) as [->|Nm]; [rewrite G1; congruence|rewrite O1 by exact Nm; apply H].
    + intros m q Nm G. cbn [mine] in Nm. assert (Nt : tmp_of m <> tmp_of (get_path k)) by (intros H; apply Nm, tmp_of_inj; exact H). rewrite O1 by exact Nt. split; [exact G|].
      rewrite O2; [reflexivity| |eapply (proj2 Sd); exact G]. intros H. apply Nt. eapply (proj1 Sd); eauto.
    + split; [discriminate|]. split; [cbn; rewrite F1; auto|]. intros n q Nn G. rewrite O1 in G by (intros ->; apply Nn; eexists; reflexivity).
      destruct (KP q (named_held s n q Sd Nn G)) as [-> _]. apply W; assumption.
  - cbn in P. destruct P as (G & SE' & ->). destruct rest as [|b0 rest].
    + destruct (sys_rename (tmp_of (get_path k)) (get_path k) s) as [s1|] eqn:R; [|unfold sys_rename in R; rewrite G in R; discriminate].
      injection E as <- <-. destruct (rename_facts _ _ _ _ Sd TC NT G R) as (S1 & TC1 & G1 & GN & O1 & F1 & X1). rewrite app_nil_r in SE'.
      split; [exact S1|]. split; [exact TC1|]. split; [intros q; rewrite F1; apply EX|]. split; [split|].
      * intros q [L H]. split; [split; [lia|]|rewrite F1; reflexivity]. intros m. destruct (name_dec (tmp_of m) (tmp_of (get_path k))) as [->|Nm]; [rewrite GN; discriminate|].
        rewrite O1; [apply H| |exact Nm]. intros Q. apply NT. exists m. congruence.
      * intros m q Nm Gq. cbn [mine] in Nm. assert (Nt : tmp_of m <> tmp_of (get_path k)) by (intros H; apply Nm, tmp_of_inj; exact H).
        rewrite O1; [rewrite F1; auto| |exact Nt]. intros Q. apply NT. exists m. congruence.
      * cbn. split; [reflexivity|]. intros n q Nn Gq. rewrite F1. destruct (name_dec n (get_path k)) as [->|N1].
        -- rewrite upd_same. exists v. split; [reflexivity|]. rewrite G1 in Gq. injection Gq as <-. congruence.
        -- rewrite upd_other by exact N1. apply W; [exact Nn|]. rewrite <- O1; [exact Gq|exact N1|]. intros ->. apply Nn. eexists. reflexivity.
    + injection E as <- <-. destruct (write_facts i (length (f_data (fs_file s i))) (firstn (S j) (b0 :: rest)) s _ Sd TC G) as [S1 TC1].
      assert (OT : forall q, q <> i -> fs_file (sys_write i (length (f_data (fs_file s i))) (firstn (S j) (b0 :: rest)) s) q = fs_file s q) by (intros q Nq; cbn; apply put_other; exact Nq).
      split; [exact S1|]. split; [exact TC1|]. split.
      { intros q. destruct (N.eq_dec q i) as [->|NE]; [|rewrite OT by exact NE; apply EX]. cbn [sys_write fs_file]. rewrite put_same. exact (EX i). }
      split; [split|].
      * intros q [L H]. split; [split; assumption|]. rewrite OT; [reflexivity|]. intros ->. exact (H _ G).
      * intros m q Nm Gq. cbn [mine] in Nm. split; [exact Gq|]. rewrite OT; [reflexivity|]. intros ->. apply Nm, tmp_of_inj. eapply (proj1 Sd); eauto.
      * split; [discriminate|]. split.
        -- cbn [rpc]. split; [exact G|]. cbn [sys_write fs_file]. rewrite put_same. cbn [f_data]. rewrite write_at_end. split; [rewrite <- app_assoc; pose proof (firstn_skipn (S j) (b0 :: rest)) as FS; cbn [firstn skipn app] in *; rewrite FS; exact SE'|]. rewrite app_length. reflexivity.
        -- intros n q Nn Gq. rewrite OT; [apply W; assumption|]. intros ->. apply Nn. exists (get_path k). eapply (proj1 Sd); [exact Gq|exact G].
Qed.

Lemma rstep_load last calls s k p w j now s' x : sound_fs s -> tmp_clean s -> expiries s -> whole last s -> sound_op c T (QLoad k) ->
  rpc s last calls (QLoad k) p w -> advance c s (QLoad k) p j now = (s', x) -> rstep_ok last calls s (QLoad k) w s' x.
Proof.
  intros Sd TC EX W [NT _] P E. cbn [proper target] in NT.
  assert (QU : forall y, match y with inl p => p <> Fresh /\ rpc s last calls (QLoad k) p w /\ whole last s | inr r => done_ok last (QLoad k) w s r end -> rstep_ok last calls s (QLoad k) w s y).
  { intros y H. split; [exact Sd|]. split; [exact TC|]. split; [exact EX|]. split; [apply keeps_refl|exact H]. }
  destruct p as [| |i|i t got|t]; try contradiction; cbn [advance] in E.
  - cbn in P. destruct (aget (get_path k) (fs_names s)) as [i|] eqn:G; injection E as <- <-; apply QU; [|split; [left; reflexivity|exact W]].
    split; [discriminate|]. split; [|exact W]. cbn. split; [eapply named_held; eassumption|]. destruct (W _ _ NT G) as (v & L & D). exists v. split; [exact D|]. apply P. left. exact L.
  - cbn in P. destruct P as [H V0]. pose proof (EX i) as EI. unfold expiry_ok in EI. destruct (aget (xname Ttl) (f_xattr (fs_file s i))) as [b|].
    + destruct EI as [y TT]. rewrite TT in E. destruct (y <? now); injection E as <- <-; apply QU; (split; [discriminate|]; split; [|exact W]); [exact Logic.I|].
      cbn. split; [exact H|]. split; [exact V0|]. eexists. reflexivity.
    + injection E as <- <-; apply QU. split; [discriminate|]. split; [|exact W]. cbn. split; [exact H|]. split; [exact V0|]. eexists. reflexivity.
  - cbn in P. destruct P as (H & (v & DV & WV) & r & D). rewrite D in E. rewrite skipn_app, skipn_all, Nat.sub_diag in E. cbn [app skipn] in E. destruct r as [|b0 r]; injection E as <- <-; apply QU.
    + rewrite app_nil_r in D. rewrite <- D, DV. split; [right; exists v; auto|exact W].
    + split; [discriminate|]. split; [|exact W]. cbn [rpc]. split; [exact H|]. split; [exists v; auto|]. exists (skipn (S j) (b0 :: r)). rewrite D, <- app_assoc. f_equal. symmetry. exact (firstn_skipn (S j) (b0 :: r)).
  - destruct (sys_unlink (get_path k) s) as [s1|] eqn:U; injection E as <- <-; [|apply QU; split; [left; reflexivity|exact W]].
    destruct (unlink_step last s _ _ Sd TC EX W NT U) as (S1 & TC1 & E1 & K1 & _ & W1). split; [exact S1|]. split; [exact TC1|]. split; [exact E1|].
    split; [exact K1|]. split; [left; reflexivity|exact W1].
Qed.

Lemma deadline_ok now s : now < T -> T / SEC + s < 2 ^ 63 -> exists x, ttl_from_disk (le_enc 8 (deadline now s)) = Ok x.
Proof.
  intros L B. unfold deadline, unix_timestamp. rewrite N.div_add by (unfold SEC; lia).
  assert (now / SEC <= T / SEC) by (apply N.div_le_mono; [unfold SEC; lia|lia]). eexists. apply ttl_disk. lia.
Qed.
Lemma xname_ne m : m <> Ttl -> xname Ttl <> xname m.
Proof. destruct m; intros H; [contradiction|discriminate|discriminate]. Qed.

Lemma rstep_other last calls s o p w j now s' x : sound_fs s -> tmp_clean s -> expiries s -> whole last s -> sound_op c T o -> now < T ->
  match o with QStore _ _ | QLoad _ => False | _ => True end ->
  rpc s last calls o p w -> advance c s o p j now = (s', x) -> rstep_ok last calls s o w s' x.
Proof.
  intros Sd TC EX W SO LT K P E.
  assert (QU : forall y, match y with inl p => p <> Fresh /\ rpc s last calls o p w /\ whole last s | inr r => done_ok last o w s r end -> rstep_ok last calls s o w s y).
  { intros y H. split; [exact Sd|]. split; [exact TC|]. split; [exact EX|]. split; [apply keeps_refl|exact H]. }
  destruct SO as [NT SO]. destruct o as [k v|k|k m y|k m|k|n]; try contradiction; cbn [proper target] in NT.
  - destruct p as [| |i| |]; try contradiction; cbn [advance] in E.
    + destruct (aget (get_path k) (fs_names s)) as [i|] eqn:G; injection E as <- <-; apply QU; [|exact W]. split; [discriminate|]. split; [|exact W]. eapply named_held; eassumption.
    + cbn in P. injection E as <- <-. assert (EO : expiry_ok (File (f_data (fs_file s i)) (aset (xname m) (to_stored now y) (f_xattr (fs_file s i))))).
      { unfold expiry_ok. cbn [f_xattr]. destruct m.
        - rewrite aget_aset_eq. destruct SO as (sec & -> & B). apply deadline_ok; assumption.
        - rewrite aget_aset_ne by (apply xname_ne; discriminate). apply (EX i).
        - rewrite aget_aset_ne by (apply xname_ne; discriminate). apply (EX i). }
      destruct (attrs_step last s i _ Sd TC EX W P EO) as (S1 & TC1 & E1 & K1 & W1). split; [exact S1|]. split; [exact TC1|]. split; [exact E1|]. split; [exact K1|exact W1].
  - destruct p as [| |i| |]; try contradiction; cbn [advance] in E.
    + destruct (aget (get_path k) (fs_names s)) as [i|] eqn:G; injection E as <- <-; apply QU; [|exact W]. split; [discriminate|]. split; [|exact W]. eapply named_held; eassumption.
    + cbn in P. destruct (aget (xname m) (f_xattr (fs_file s i))) eqn:G; injection E as <- <-; [|apply QU; exact W].
      assert (EO : expiry_ok (File (f_data (fs_file s i)) (adel (xname m) (f_xattr (fs_file s i))))).
      { unfold expiry_ok. cbn [f_xattr]. destruct m.
        - rewrite aget_adel_eq. exact Logic.I.
        - rewrite aget_adel_ne by (apply xname_ne; discriminate). apply (EX i).
        - rewrite aget_adel_ne by (apply xname_ne; discriminate). apply (EX i). }
      destruct (attrs_step last s i _ Sd TC EX W P EO) as (S1 & TC1 & E1 & K1 & W1). split; [exact S1|]. split; [exact TC1|]. split; [exact E1|]. split; [exact K1|exact W1].
  - destruct p as [| | | |]; try contradiction; cbn [advance] in E. destruct (sys_unlink (get_path k) s) as [s1|] eqn:U; injection E as <- <-.
    + destruct (unlink_step last s _ _ Sd TC EX W NT U) as (S1 & TC1 & E1 & K1 & W1 & _). split; [exact S1|]. split; [exact TC1|]. split; [exact E1|]. split; [exact K1|exact W1].
    + apply QU. cbn. intros n i Nn G. rewrite upd_other; [apply W; assumption|]. intros ->. apply unlink_none in U. congruence.
  - clear NT. destruct p as [| | | |t]; try contradiction; cbn [advance] in E.
    + destruct (aget n (fs_names s)) as [i|] eqn:G; [|injection E as <- <-; apply QU; exact W]. pose proof (EX i) as EI. unfold expiry_ok in EI.
      destruct (aget (xname Ttl) (f_xattr (fs_file s i))) as [b|] eqn:TT; [|injection E as <- <-; apply QU; exact W]. destruct EI as [y TY]. rewrite TY in E.
      destruct (now <? y); injection E as <- <-; apply QU; [exact W|]. split; [discriminate|]. split; [|exact W]. cbn. intros [m ->]. rewrite (TC _ _ G) in TT. discriminate.
    + cbn in P. destruct (sys_unlink n s) as [s1|] eqn:U; injection E as <- <-; [|apply QU; exact W].
      destruct (unlink_step last s _ _ Sd TC EX W P U) as (S1 & TC1 & E1 & K1 & _ & W1). split; [exact S1|]. split; [exact TC1|]. split; [exact E1|]. split; [exact K1|exact W1].
Qed.
Lemma rstep last calls s o p w j now s' x : sound_fs s -> tmp_clean s -> expiries s -> whole last s -> sound_op c T o -> now < T ->
  rpc s last calls o p w -> advance c s o p j now = (s', x) -> rstep_ok last calls s o w s' x.
Proof.
  intros Sd TC EX W SO LT P E. destruct o as [k v|k|k m y|k m|k|n] eqn:O; try (rewrite <- O in *; eapply rstep_other; try eassumption; rewrite O; exact Logic.I).
  - eapply rstep_store; eassumption.
  - eapply rstep_load; eassumption.
Qed.

(** Another call: nothing it relies on changes. *)
Lemma rpc_frame s s' last last' calls calls' o p w P : keeps P s s' ->
  (match o with QStore k _ => P (get_path k) | _ => True end) ->
  (forall n v, last' n = Some v \/ stored_under calls' n v -> last n = Some v \/ stored_under calls n v) ->
  rpc s last calls o p w -> rpc s' last' calls' o p w.
Proof.
  intros [K1 K2] PO L R. unfold rpc in *. destruct o as [k v|k|k m y|k m|k|m], p as [|i off rest|i|i t got|t]; try contradiction; try exact Logic.I; try exact R.
  - destruct R as (G & SE & ->). destruct (K2 _ _ PO G) as [G1 D1]. rewrite D1. auto.
  - intros v H. apply R. apply L. exact H.
  - destruct R as (H & v & D & WV). destruct (K1 _ H) as [H1 D1]. split; [exact H1|]. exists v. rewrite D1. auto.
  - destruct R as (H & (v & D & WV) & r & G). destruct (K1 _ H) as [H1 D1]. split; [exact H1|]. rewrite D1. eauto.
  - apply (K1 _ R).
  - apply (K1 _ R).
Qed.

Definition RInv (s : state) (last : name -> option V) (calls : N -> option (qop V * (V -> Prop))) : Prop :=
  sound_fs (st_fs s) /\ tmp_clean (st_fs s) /\ expiries (st_fs s) /\ whole last (st_fs s) /\
  (forall t, match st_calls s t, calls t with
             | None, None => True
             | Some (o, p), Some (o', w) => o' = o /\ sound_op c T o /\ rpc (st_fs s) last calls o p w
             | _, _ => False
             end) /\
  (forall t t' o p o' p', t <> t' -> st_calls s t = Some (o, p) -> st_calls s t' = Some (o', p') -> ~ both_store o o').

Lemma both_store_sym (a b : qop V) : both_store a b -> both_store b a.
Proof. intros (H & A & B). split; [symmetry; exact H|auto]. Qed.
Lemma under_drop t (calls : N -> option (qop V * (V -> Prop))) n v : stored_under (at_task t None calls) n v -> stored_under calls n v.
Proof. intros (u & k & w & G & P). destruct (N.eq_dec u t) as [->|NE]; [rewrite at_same in G; discriminate|]. rewrite at_other in G by exact NE. exists u, k, w. auto. Qed.
Lemma under_task t o w (calls : N -> option (qop V * (V -> Prop))) n v : stored_under (at_task t (Some (o, w)) calls) n v ->
  (exists k, o = QStore k v /\ get_path k = n) \/ stored_under calls n v.
Proof.
  intros (u & k & w' & G & P). destruct (N.eq_dec u t) as [->|NE]; [rewrite at_same in G; injection G as -> _; left; exists k; auto|].
  rewrite at_other in G by exact NE. right. exists u, k, w'. auto.
Qed.
Lemma under_also m x (calls : N -> option (qop V * (V -> Prop))) n v : stored_under (also m x calls) n v -> stored_under calls n v.
Proof. intros (u & k & w & G & P). unfold also in G. destruct (calls u) as [[[] ?]|] eqn:C; try discriminate. injection G as -> -> <-. exists u, k, P0. auto. Qed.

Lemma rpc_weaken s last calls o p (w w' : V -> Prop) : (forall v, w v -> w' v) -> rpc s last calls o p w -> rpc s last calls o p w'.
Proof.
  intros M R. unfold rpc in *. destruct o as [k v|k|k m y|k m|k|m], p as [|i off rest|i|i t got|t]; try contradiction; try exact Logic.I; try exact R.
  - intros v H. apply M, R, H.
  - destruct R as (H & v & D & WV). eauto.
  - destruct R as (H & (v & D & WV) & r). eauto 6.
Qed.

(** What [regular] keeps track of, after what has been seen. *)
Fixpoint evolve (last : name -> option V) (calls : N -> option (qop V * (V -> Prop))) (h : list (seen (V := V))) :
    (name -> option V) * (N -> option (qop V * (V -> Prop))) :=
  match h with
  | [] => (last, calls)
  | HBegin t o :: r =>
    match o with
    | QStore k v => evolve last (at_task t (Some (o, fun _ => False)) (also (get_path k) v calls)) r
    | QLoad k => evolve last (at_task t (Some (o, fun v => last (get_path k) = Some v \/ stored_under calls (get_path k) v)) calls) r
    | _ => evolve last (at_task t (Some (o, fun _ => False)) calls) r
    end
  | HGo _ _ :: r => evolve last calls r
  | HEnd t res :: r =>
    match calls t with
    | Some (QStore k v, _) => evolve (upd_name (get_path k) (Some v) last) (at_task t None calls) r
    | Some (QDestroy k, _) => evolve (upd_name (get_path k) None last) (at_task t None calls) r
    | _ => evolve last (at_task t None calls) r
    end
  end.

(** A call begins. *)
Definition joined (last : name -> option V) (calls : N -> option (qop V * (V -> Prop))) (t : N) (o : qop V) : N -> option (qop V * (V -> Prop)) :=
  match o with
  | QStore k v => at_task t (Some (o, fun _ => False)) (also (get_path k) v calls)
  | QLoad k => at_task t (Some (o, fun v => last (get_path k) = Some v \/ stored_under calls (get_path k) v)) calls
  | _ => at_task t (Some (o, fun _ => False)) calls
  end.
Lemma joined_other last calls t o u : u <> t -> match joined last calls t o u, calls u with
  | None, None => True
  | Some (a', w'), Some (a, w) => a' = a /\ (forall v, w v -> w' v) /\
      match a, o with QLoad k, QStore k' v => get_path k = get_path k' -> w' v | _, _ => True end
  | _, _ => False end.
Proof.
  intros NE. destruct o; cbn [joined]; rewrite at_other by exact NE; unfold also; destruct (calls u) as [[[] w]|]; auto.
Qed.
Lemma joined_under last calls t o n v : stored_under (joined last calls t o) n v ->
  (exists k, o = QStore k v /\ get_path k = n) \/ stored_under calls n v.
Proof.
  destruct o; cbn [joined]; intros H; apply under_task in H; destruct H as [H|H]; auto. right. eapply under_also. exact H.
Qed.
Lemma joined_inv s last calls t o : RInv s last calls -> st_calls s t = None -> sound_op c T o ->
  (forall t' o' p', st_calls s t' = Some (o', p') -> ~ both_store o' o) ->
  RInv (St (st_fs s) (at_task t (Some (o, Fresh)) (st_calls s))) last (joined last calls t o).
Proof.
  intros (Sd & TC & EX & W & CM & DT) C SO AP. split; [exact Sd|]. split; [exact TC|]. split; [exact EX|]. split; [exact W|]. cbn [st_calls st_fs]. split.
  - intros u. destruct (N.eq_dec u t) as [->|NE].
    + rewrite at_same. assert (J : exists w, joined last calls t o t = Some (o, w)) by (destruct o; cbn [joined]; rewrite at_same; eexists; reflexivity).
      destruct J as [w J]. rewrite J. split; [reflexivity|]. split; [exact SO|]. destruct o; try exact Logic.I. cbn [rpc]. cbn [joined] in *. rewrite at_same in J. injection J as <-.
      intros v [H|H]; [left; exact H|]. apply under_task in H. destruct H as [(k' & H & _)|H]; [discriminate|right; exact H].
    + rewrite at_other by exact NE. pose proof (CM u) as CU. pose proof (joined_other last calls t o u NE) as JO.
      destruct (st_calls s u) as [[a q]|] eqn:G.
      * destruct (calls u) as [[a' w]|] eqn:CL; [|contradiction]. destruct (joined last calls t o u) as [[a'' w']|]; [|contradiction].
        destruct CU as (-> & SA & R), JO as (-> & M & Q). split; [reflexivity|]. split; [exact SA|].
        destruct a as [k v|k|k m y|k m|k|m]; try (eapply rpc_weaken; [exact M|]; destruct q; exact R).
        destruct q; [|eapply rpc_weaken; [exact M|]; exact R ..]. cbn [rpc] in *. intros v [H|H]; [apply M, R; left; exact H|].
        apply joined_under in H. destruct H as [(k' & -> & H)|H]; [apply Q; congruence|apply M, R; right; exact H].
      * destruct (calls u); [contradiction|]. destruct (joined last calls t o u) as [[? ?]|]; [contradiction|]. exact Logic.I.
  - intros u u' a q a' q' NE G1 G2. destruct (N.eq_dec u t) as [->|N1]; [rewrite at_same in G1; injection G1 as <- <-|rewrite at_other in G1 by exact N1];
      (destruct (N.eq_dec u' t) as [->|N2]; [rewrite at_same in G2; injection G2 as <- <-|rewrite at_other in G2 by exact N2]); try congruence.
    + intros H. eapply AP; [exact G2|]. apply both_store_sym. exact H.
    + eapply AP; exact G1.
    + exact (DT _ _ _ _ _ _ NE G1 G2).
Qed.

(** A system call is made. *)
Lemma other_mine o a : ~ both_store a o -> match a with QStore k _ => mine o (get_path k) | _ => True end.
Proof. intros H. destruct a; try exact Logic.I. destruct o; try exact Logic.I. cbn [mine]. intros E. apply H. split; [exact E|split; reflexivity]. Qed.
Lemma others s last last' calls calls' t o f p : RInv s last calls -> st_calls s t = Some (o, p) -> keeps (mine o) (st_fs s) f ->
  (forall u, u <> t -> calls' u = calls u) ->
  (forall n v, last' n = Some v \/ stored_under calls' n v -> last n = Some v \/ stored_under calls n v) ->
  forall u, u <> t -> match st_calls s u, calls' u with
     | None, None => True
     | Some (o, p), Some (o', w) => o' = o /\ sound_op c T o /\ rpc f last' calls' o p w
     | _, _ => False end.
Proof.
  intros (Sd & TC & EX & W & CM & DT) C KP CE L u NE. rewrite CE by exact NE. pose proof (CM u) as CU. destruct (st_calls s u) as [[a q]|] eqn:G; [|exact CU].
  destruct (calls u) as [[a' w]|]; [|exact CU]. destruct CU as (-> & SA & R). split; [reflexivity|]. split; [exact SA|].
  eapply rpc_frame; [exact KP| |exact L|exact R]. apply other_mine. eapply DT; [|exact G|exact C]. exact NE.
Qed.
Lemma dist_keep s t o p x : st_calls s t = Some (o, p) -> (x = None \/ exists p', x = Some (o, p')) ->
  (forall t t' o p o' p', t <> t' -> st_calls s t = Some (o, p) -> st_calls s t' = Some (o', p') -> ~ @both_store V o o') ->
  forall u u' a q a' q', u <> u' -> at_task t x (st_calls s) u = Some (a, q) -> at_task t x (st_calls s) u' = Some (a', q') -> ~ both_store a a'.
Proof.
  intros C X DT u u' a q a' q' NE G1 G2. destruct (N.eq_dec u t) as [->|N1]; [rewrite at_same in G1|rewrite at_other in G1 by exact N1];
    (destruct (N.eq_dec u' t) as [->|N2]; [rewrite at_same in G2|rewrite at_other in G2 by exact N2]); try congruence.
  - destruct X as [->|[p' ->]]; [discriminate|]. injection G1 as <- <-. exact (DT _ _ _ _ _ _ NE C G2).
  - destruct X as [->|[p' ->]]; [discriminate|]. injection G2 as <- <-. exact (DT _ _ _ _ _ _ NE G1 C).
  - exact (DT _ _ _ _ _ _ NE G1 G2).
Qed.

Lemma regular_run l : forall s last calls ac s' h, RInv s last calls -> (forall t, ac t = option_map fst (st_calls s t)) ->
  (forall o, begun l o -> sound_op c T o) -> before T l -> moves c s l = (s', h) -> apart both_store ac h ->
  regular last calls h /\ RInv s' (fst (evolve last calls h)) (snd (evolve last calls h)) /\
  (forall t, pending ac h t = option_map fst (st_calls s' t)).
Proof.
  induction l as [|m l IH]; intros s last calls ac s' h RI AC PR BF E AP; cbn [moves] in E.
  { injection E as <- <-. split; [exact Logic.I|]. split; [exact RI|exact AC]. }
  destruct (move1 c s m) as [s1 h1] eqn:M. destruct (moves c s1 l) as [s2 h2] eqn:R. injection E as <- <-.
  assert (PR' : forall o, begun l o -> sound_op c T o) by (intros o [t H]; apply PR; exists t; right; exact H).
  assert (BF' : before T l) by (intros t k now H; eapply BF; right; exact H).
  destruct m as [t o|t j now]; cbn [move1] in M.
  - destruct (st_calls s t) as [[o0 p0]|] eqn:C; injection M as <- <-; cbn [app] in *.
    { eapply IH; eassumption. }
    cbn [apart] in AP. destruct AP as [AP1 AP2].
    assert (J : RInv (St (st_fs s) (at_task t (Some (o, Fresh)) (st_calls s))) last (joined last calls t o)).
    { apply joined_inv; [exact RI|exact C|apply PR; exists t; left; reflexivity|]. intros t' o' p' G. apply (AP1 t'). rewrite AC, G. reflexivity. }
    assert (AC' : forall u, at_task t (Some o) ac u = option_map fst (st_calls (St (st_fs s) (at_task t (Some (o, Fresh)) (st_calls s))) u)).
    { intros u. cbn [st_calls]. destruct (N.eq_dec u t) as [->|NE]; [rewrite !at_same; reflexivity|rewrite !at_other by exact NE; apply AC]. }
    pose proof (IH _ _ _ _ _ _ J AC' PR' BF' R AP2) as H. cbn [regular evolve pending]. destruct o; exact H.
  - destruct (st_calls s t) as [[o p]|] eqn:C; [|injection M as <- <-; cbn [app] in *; eapply IH; eassumption].
    pose proof RI as (Sd & TC & EX & W & CM & DT).
    pose proof (CM t) as CT. rewrite C in CT. destruct (calls t) as [[o' w]|] eqn:CL; [|contradiction]. destruct CT as (-> & SO & PC).
    destruct (advance c (st_fs s) o p j now) as [f x] eqn:AD.
    assert (LT : now < T) by (eapply BF; left; reflexivity).
    destruct (rstep last calls _ _ _ _ _ _ _ _ Sd TC EX W SO LT PC AD) as (S1 & TC1 & EX1 & KP & RES).
    destruct x as [p'|r]; injection M as <- <-; cbn [app apart regular evolve pending] in *.
    + destruct RES as (_ & PC' & W'). eapply IH; [| |exact PR'|exact BF'|exact R|exact AP].
      * split; [exact S1|]. split; [exact TC1|]. split; [exact EX1|]. split; [exact W'|]. cbn [st_calls st_fs]. split.
        -- intros u. destruct (N.eq_dec u t) as [->|NE]; [rewrite at_same, CL; auto|rewrite at_other by exact NE].
           eapply (others s last last calls calls t o f p RI C KP); auto.
        -- eapply dist_keep; [exact C|right; eexists; reflexivity|exact DT].
      * intros u. cbn [st_calls]. destruct (N.eq_dec u t) as [->|NE]; [rewrite at_same, AC, C; reflexivity|rewrite at_other by exact NE; apply AC].
    + rewrite CL.
      assert (GO : forall last', whole last' f ->
         (forall n v, last' n = Some v \/ stored_under (at_task t None calls) n v -> last n = Some v \/ stored_under calls n v) ->
         regular last' (at_task t None calls) h2 /\
         RInv s2 (fst (evolve last' (at_task t None calls) h2)) (snd (evolve last' (at_task t None calls) h2)) /\
         (forall u, pending (at_task t None ac) h2 u = option_map fst (st_calls s2 u))).
      { intros last' W' L. eapply IH; [| |exact PR'|exact BF'|exact R|exact AP].
        - split; [exact S1|]. split; [exact TC1|]. split; [exact EX1|]. split; [exact W'|]. cbn [st_calls st_fs]. split.
          + intros u. destruct (N.eq_dec u t) as [->|NE]; [rewrite !at_same; exact Logic.I|rewrite at_other by exact NE].
            apply (others s last last' calls (at_task t None calls) t o f p RI C KP); [intros z Nz; apply at_other; exact Nz|exact L|exact NE].
          + eapply dist_keep; [exact C|left; reflexivity|exact DT].
        - intros u. cbn [st_calls]. destruct (N.eq_dec u t) as [->|NE]; [rewrite !at_same; reflexivity|rewrite !at_other by exact NE; apply AC]. }
      assert (KEEP : forall n v, last n = Some v \/ stored_under (at_task t None calls) n v -> last n = Some v \/ stored_under calls n v).
      { intros n v [H|H]; [auto|]. right. eapply under_drop. exact H. }
      destruct o as [k v|k|k m y|k m|k|m]; cbn [done_ok] in RES; try (apply GO; [exact RES|exact KEEP]).
      * destruct RES as [-> W']. destruct (GO _ W') as (G1 & G2); [|auto]. intros n x [H|H]; [|right; eapply under_drop; exact H].
        destruct (name_dec n (get_path k)) as [->|Nn]; [|rewrite upd_other in H by exact Nn; auto]. rewrite upd_same in H. injection H as <-. right. exists t, k, w. auto.
      * destruct RES as [RR W']. destruct (GO _ W' KEEP) as (G1 & G2). auto.
      * apply GO; [exact RES|]. intros n x [H|H]; [|right; eapply under_drop; exact H].
        destruct (name_dec n (get_path k)) as [->|Nn]; [rewrite upd_same in H; discriminate|rewrite upd_other in H by exact Nn; auto].
Qed.

Lemma mkfs_expiries d : (forall n f, In (n, f) d -> expiry_ok f) -> expiries (mkfs d).
Proof.
  induction d as [|[n f] r IH]; intros H i; [exact Logic.I|]. cbn [mkfs fs_file]. destruct (N.eq_dec i (fs_next (mkfs r))) as [->|NE].
  - rewrite put_same. apply (H n). left. reflexivity.
  - rewrite put_other by exact NE. apply IH. intros m g G. apply (H m). right. exact G.
Qed.
Lemma start_rinv d : left_by_stores c d -> RInv (start d) (values c d) nobody.
Proof.
  intros LB. assert (F : forall n i, aget n (fs_names (mkfs d)) = Some i -> aget n d = Some (fs_file (mkfs d) i)).
  { intros n i G. pose proof (mkfs_file d n) as H. unfold file_at in H. rewrite G in H. symmetry. exact H. }
  split; [apply mkfs_sound|]. split; [intros n i G; apply F, aget_in, LB in G; apply G; eexists; reflexivity|]. split.
  - apply mkfs_expiries. intros n f G. apply LB in G. apply G.
  - split.
    + intros n i NT G. apply F in G. unfold values. destruct (LB _ _ (aget_in _ _ _ G)) as (_ & _ & H). destruct (H NT) as [v D]. rewrite G. exists v. auto.
    + split; [intros t; exact Logic.I|]. intros t t' o p o' p' _ H. discriminate.
Qed.
End regular.
