(** Proofs about overlapping calls of the directory store: one call per file at a time. *)
From Verif Require Import Base BaseFacts ValueModel Text Assoc StoreModel OverlapModel OverlapSpec.
From Coq Require Import ZifyBool ZifyNat ZifyN.
Local Open Scope N_scope.
Set Default Proof Using "Type".

(** * Names and files *)
Lemma tmp_of_inj a b : tmp_of a = tmp_of b -> a = b.
Proof. unfold tmp_of. intros H. apply app_inv_head in H. apply app_inv_tail in H. exact H. Qed.
Lemma tmp_of_ne n : tmp_of n <> n.
Proof. intros H. apply (f_equal (@length N)) in H. unfold tmp_of in H. rewrite !app_length in H. cbn in H. lia. Qed.
Local Arguments tmp_of : simpl never.
Local Arguments get_path : simpl never.
Local Arguments xname : simpl never.
Lemma put_same i f g : put i f g i = f.
Proof. unfold put. rewrite N.eqb_refl. reflexivity. Qed.
Lemma put_other i j f g : j <> i -> put i f g j = g j.
Proof. unfold put. intros H. destruct (j =? i) eqn:E; [apply N.eqb_eq in E; contradiction|reflexivity]. Qed.
Lemma at_same {A} t (x : A) g : at_task t x g t = x.
Proof. unfold at_task. rewrite N.eqb_refl. reflexivity. Qed.
Lemma at_other {A} t u (x : A) g : u <> t -> at_task t x g u = g u.
Proof. unfold at_task. intros H. destruct (u =? t) eqn:E; [apply N.eqb_eq in E; contradiction|reflexivity]. Qed.
Lemma write_at_end w chunk : write_at (length w) chunk w = w ++ chunk.
Proof.
  unfold write_at. rewrite Nat.sub_diag. cbn [repeat]. rewrite app_nil_r, firstn_all.
  rewrite skipn_all2 by lia. rewrite app_nil_r. reflexivity.
Qed.

Definition sound_fs (s : fs) : Prop :=
  (forall n m i, aget n (fs_names s) = Some i -> aget m (fs_names s) = Some i -> n = m) /\
  (forall n i, aget n (fs_names s) = Some i -> i < fs_next s).
Definition tmp_clean (s : fs) : Prop :=
  forall n i, aget (tmp_of n) (fs_names s) = Some i -> f_xattr (fs_file s i) = [].
(** Nothing but the file of this name and its temporary file changes. *)
Definition only (n : name) (s s' : fs) : Prop :=
  forall m, m <> n -> m <> tmp_of n ->
    aget m (fs_names s') = aget m (fs_names s) /\
    forall i, aget m (fs_names s) = Some i -> fs_file s' i = fs_file s i.
Lemma only_refl n s : only n s s.
Proof. intros m _ _. auto. Qed.

Lemma mkfs_sound d : sound_fs (mkfs d).
Proof.
  induction d as [|[n f] r [IH1 IH2]]; [split; intros *; discriminate|]. cbn [mkfs]. split; cbn [fs_names fs_next aget].
  - intros a b i. destruct (bytes_eqb a n) eqn:Ea, (bytes_eqb b n) eqn:Eb.
    + apply bytes_eqb_spec in Ea, Eb. congruence.
    + intros H G. inversion H; subst i. apply IH2 in G. lia.
    + intros H G. inversion G; subst i. apply IH2 in H. lia.
    + apply IH1.
  - intros a i. destruct (bytes_eqb a n); [intros H; inversion H; lia|]. intros H. apply IH2 in H. lia.
Qed.
Lemma mkfs_file d n : file_at (mkfs d) n = aget n d.
Proof.
  unfold file_at. induction d as [|[m f] r IH]; [reflexivity|]. cbn [mkfs fs_names fs_file aget].
  destruct (bytes_eqb n m) eqn:E; cbn [option_map]; [rewrite put_same; reflexivity|].
  rewrite <- IH. destruct (aget n (fs_names (mkfs r))) as [i|] eqn:G; [|reflexivity]. cbn [option_map].
  rewrite put_other; [reflexivity|]. apply (proj2 (mkfs_sound r)) in G. lia.
Qed.

(** * The system calls *)
Lemma create_facts n s s' i : sound_fs s -> tmp_clean s -> sys_create (tmp_of n) s = (s', i) ->
  sound_fs s' /\ tmp_clean s' /\ aget (tmp_of n) (fs_names s') = Some i /\ fs_file s' i = File [] [] /\
  (forall m, m <> tmp_of n -> aget m (fs_names s') = aget m (fs_names s)) /\
  (forall j, aget (tmp_of n) (fs_names s) <> Some j -> j < fs_next s -> fs_file s' j = fs_file s j) /\
  fs_next s <= fs_next s'.
Proof.
  intros [I B] TC. unfold sys_create. destruct (aget (tmp_of n) (fs_names s)) as [x|] eqn:G; intros E; injection E as <- <-; cbn [fs_names fs_file fs_next].
  - rename x into i. split; [split; assumption|]. split.
    { intros m j Gj. cbn [fs_names fs_file] in *. destruct (N.eq_dec j i) as [->|NE]; [rewrite put_same; cbn; eapply TC; eauto|rewrite put_other by assumption; eapply TC; eauto]. }
    split; [exact G|]. split; [rewrite put_same; rewrite (TC _ _ G); reflexivity|]. split; [auto|]. split; [|lia].
    intros j NT _. apply put_other. intros ->. contradiction.
  - split; [split|].
    + intros a b i. cbn [fs_names]. destruct (name_dec a (tmp_of n)) as [->|Na], (name_dec b (tmp_of n)) as [->|Nb];
        rewrite ?aget_aset_eq, ?aget_aset_ne by assumption; intros H1 H2; auto.
      * inversion H1; subst i. apply B in H2. lia.
      * inversion H2; subst i. apply B in H1. lia.
      * eauto.
    + intros a i. cbn [fs_names fs_next]. destruct (name_dec a (tmp_of n)) as [->|Na]; rewrite ?aget_aset_eq, ?aget_aset_ne by assumption; intros H; [inversion H; lia|apply B in H; lia].
    + split.
      { intros m j. cbn [fs_names fs_file]. destruct (name_dec (tmp_of m) (tmp_of n)) as [->|Na]; rewrite ?aget_aset_eq, ?aget_aset_ne by assumption; intros H.
        - inversion H; subst. rewrite put_same. reflexivity.
        - rewrite put_other; [eapply TC; eauto|]. apply B in H. lia. }
      split; [apply aget_aset_eq|]. split; [apply put_same|]. split; [intros m H; apply aget_aset_ne; exact H|]. split; [|lia].
      intros j _ L. apply put_other. lia.
Qed.
Lemma rename_facts n s s' i : sound_fs s -> tmp_clean s -> ~ temporary n -> aget (tmp_of n) (fs_names s) = Some i ->
  sys_rename (tmp_of n) n s = Some s' ->
  sound_fs s' /\ tmp_clean s' /\ aget n (fs_names s') = Some i /\ aget (tmp_of n) (fs_names s') = None /\
  (forall m, m <> n -> m <> tmp_of n -> aget m (fs_names s') = aget m (fs_names s)) /\ fs_file s' = fs_file s /\ fs_next s' = fs_next s.
Proof.
  intros [I B] TC NT G. unfold sys_rename. rewrite G. intros E. inversion E; subst; clear E. cbn [fs_names fs_file fs_next].
  assert (NE : tmp_of n <> n) by apply tmp_of_ne.
  assert (A : forall a j, aget a (aset n i (adel (tmp_of n) (fs_names s))) = Some j ->
    (a = n /\ j = i) \/ (a <> n /\ a <> tmp_of n /\ aget a (fs_names s) = Some j)).
  { intros a j. destruct (name_dec a n) as [->|Na]; [rewrite aget_aset_eq; intros H; inversion H; auto|].
    rewrite aget_aset_ne by assumption. destruct (name_dec a (tmp_of n)) as [->|Nt]; [rewrite aget_adel_eq; discriminate|].
    rewrite aget_adel_ne by assumption. auto. }
  split; [split|].
  - intros a b j Ha Hb. apply A in Ha, Hb. destruct Ha as [[-> ->]|(Na & Nt & Ha)], Hb as [[-> Eb]|(Nb & Ntb & Hb)]; auto.
    + exfalso. apply Ntb. eapply I; eauto.
    + subst j. exfalso. apply Nt. eapply I; eauto.
    + eauto.
  - intros a j Ha. apply A in Ha. cbn [fs_next]. destruct Ha as [[-> ->]|(_ & _ & Ha)]; eauto.
  - split.
    { intros m j Ha. cbn [fs_names] in Ha. apply A in Ha. cbn [fs_file]. destruct Ha as [[E _]|(_ & _ & Ha)]; [|eauto]. exfalso. apply NT. exists m. congruence. }
    split; [apply aget_aset_eq|]. split; [rewrite aget_aset_ne by assumption; apply aget_adel_eq|]. split; [|auto].
    intros m Nm Nt. rewrite aget_aset_ne by assumption. apply aget_adel_ne. exact Nt.
Qed.
Lemma unlink_facts n s s' : sound_fs s -> tmp_clean s -> sys_unlink n s = Some s' ->
  sound_fs s' /\ tmp_clean s' /\ aget n (fs_names s') = None /\
  (forall m, m <> n -> aget m (fs_names s') = aget m (fs_names s)) /\ fs_file s' = fs_file s /\ fs_next s' = fs_next s.
Proof.
  intros [I B] TC. unfold sys_unlink. destruct (aget n (fs_names s)) eqn:G; [|discriminate]. intros E. inversion E; subst; clear E. cbn [fs_names fs_file fs_next].
  assert (A : forall a j, aget a (adel n (fs_names s)) = Some j -> aget a (fs_names s) = Some j).
  { intros a j. destruct (name_dec a n) as [->|Na]; [rewrite aget_adel_eq; discriminate|]. rewrite aget_adel_ne by assumption. auto. }
  split; [split; cbn [fs_names fs_next]; intros; eauto|]. split; [intros m j Ha; cbn [fs_names fs_file] in *; eauto|]. split; [apply aget_adel_eq|].
  split; [|auto]. intros m Nm. apply aget_adel_ne. exact Nm.
Qed.
Lemma unlink_none n s : sys_unlink n s = None -> aget n (fs_names s) = None.
Proof. unfold sys_unlink. destruct (aget n (fs_names s)); [discriminate|reflexivity]. Qed.
(** Changing a file that is not a temporary one, other than by its data. *)
Lemma attrs_facts i g s : sound_fs s -> tmp_clean s -> (forall m, aget (tmp_of m) (fs_names s) <> Some i) ->
  sound_fs (set_attrs i g s) /\ tmp_clean (set_attrs i g s).
Proof.
  intros [I B] TC NT. split; [split; assumption|]. intros m j G. cbn [set_attrs fs_names fs_file] in *. rewrite put_other; [eauto|]. intros ->. eapply NT; eauto.
Qed.
Lemma write_facts i off ch s n : sound_fs s -> tmp_clean s -> aget (tmp_of n) (fs_names s) = Some i ->
  sound_fs (sys_write i off ch s) /\ tmp_clean (sys_write i off ch s).
Proof.
  intros [I B] TC G. split; [split; assumption|]. intros m j Gj. cbn [sys_write fs_names fs_file] in *. destruct (N.eq_dec j i) as [->|NE]; [rewrite put_same; cbn; eauto|rewrite put_other by assumption; eauto].
Qed.

(** * One call per file at a time *)
Section serial.
Context {V : Type} (c : codec V).

Definition ttl_at (s : fs) (i : N) : option bytes := aget (xname Ttl) (f_xattr (fs_file s i)).
Definition pcok (s : fs) (o : qop V) (p : pc) (ts : list N) : Prop :=
  match o, p with
  | _, Fresh => True
  | QStore k v, Writing i off rest => aget (tmp_of (get_path k)) (fs_names s) = Some i /\
      exists w, f_data (fs_file s i) = w /\ ser c v = Ok (w ++ rest) /\ off = length w
  | QLoad k, Opened i | QMeta k _ _, Opened i | QDelMeta k _, Opened i => aget (get_path k) (fs_names s) = Some i
  | QLoad k, Reading i t got => aget (get_path k) (fs_names s) = Some i /\ In t ts /\
      (exists r, f_data (fs_file s i) = got ++ r) /\
      match ttl_at s i with None => True | Some b => exists x, ttl_from_disk b = Ok x /\ (x <? t) = false end
  | QLoad k, Removing t => exists i b x, aget (get_path k) (fs_names s) = Some i /\ In t ts /\
      ttl_at s i = Some b /\ ttl_from_disk b = Ok x /\ (x <? t) = true
  | QSweep n, Removing t => ~ temporary n /\ exists i b x, aget n (fs_names s) = Some i /\ In t ts /\
      ttl_at s i = Some b /\ ttl_from_disk b = Ok x /\ (t <? x) = false
  | _, _ => False
  end.
Definition agrees (d : dir) (s : fs) : Prop :=
  (forall n, ~ temporary n -> aget n d = file_at s n) /\ (forall n f, aget (tmp_of n) d = Some f -> f_xattr f = []).

Lemma ttl_some s n i : aget n (fs_names s) = Some i -> file_at s n = Some (fs_file s i).
Proof. unfold file_at. intros ->. reflexivity. Qed.
Lemma agrees_only n d d' s s' : ~ temporary n -> agrees d s -> only n s s' ->
  (forall m, m <> n -> m <> tmp_of n -> aget m d' = aget m d) -> aget n d' = file_at s' n ->
  (forall f, aget (tmp_of n) d' = Some f -> f_xattr f = []) -> agrees d' s'.
Proof.
  intros NT [A1 A2] O D E T. split.
  - intros m NM. destruct (name_dec m n) as [->|N1]; [exact E|]. assert (N2 : m <> tmp_of n) by (intros ->; apply NM; exists n; reflexivity).
    rewrite D by assumption. rewrite A1 by assumption. destruct (O m N1 N2) as [O1 O2]. unfold file_at. rewrite O1.
    destruct (aget m (fs_names s)) as [j|] eqn:G; [|reflexivity]. cbn. rewrite (O2 j eq_refl). reflexivity.
  - intros m f. destruct (name_dec (tmp_of m) (tmp_of n)) as [->|N2]; [apply T|]. rewrite D; [apply A2| |exact N2].
    intros H. apply NT. exists m. congruence.
Qed.
Lemma agrees_same d s s' : agrees d s -> (forall n, ~ temporary n -> file_at s' n = file_at s n) -> agrees d s'.
Proof. intros [A1 A2] H. split; [|exact A2]. intros n NT. rewrite H by exact NT. apply A1. exact NT. Qed.

Definition step_ok (d : dir) (s : fs) (o : qop V) (ts : list N) (s' : fs) (x : pc + reply V) : Prop :=
  sound_fs s' /\ tmp_clean s' /\ only (target o) s s' /\
  match x with
  | inl p => pcok s' o p ts /\ agrees d s'
  | inr r => exists now d', In now ts /\ alone c now d o = (d', r) /\ agrees d' s'
  end.

Lemma not_tmp s n i : sound_fs s -> ~ temporary n -> aget n (fs_names s) = Some i -> forall m, aget (tmp_of m) (fs_names s) <> Some i.
Proof. intros [I _] NT G m H. apply NT. exists m. eapply I; eauto. Qed.

Lemma step_store d s k v p ts j now s' x : sound_fs s -> tmp_clean s -> agrees d s -> ~ temporary (get_path k) ->
  pcok s (QStore k v) p ts -> advance c s (QStore k v) p j now = (s', x) -> step_ok d s (QStore k v) (now :: ts) s' x.
Proof.
  intros Sd TC A NT P E. pose proof (tmp_of_ne (get_path k)) as NE. destruct p as [|i off rest| | |]; try contradiction; cbn [advance] in E.
  - destruct (sys_create (tmp_of (get_path k)) s) as [s1 i] eqn:C. destruct (create_facts _ _ _ _ Sd TC C) as (S1 & TC1 & G1 & F1 & O1 & O2 & _).
    assert (ON : only (get_path k) s s1).
    { intros m N1 N2. split; [apply O1; exact N2|]. intros q Gq. apply O2; [|eapply (proj2 Sd); exact Gq].
      intros H. apply N2. eapply (proj1 Sd); eauto. }
    assert (AG : forall n, ~ temporary n -> file_at s1 n = file_at s n).
    { intros n Nn. assert (N2 : n <> tmp_of (get_path k)) by (intros ->; apply Nn; eexists; reflexivity). unfold file_at. rewrite (O1 n N2).
      destruct (aget n (fs_names s)) as [q|] eqn:Gq; [|reflexivity]. cbn. rewrite O2; [reflexivity| |eapply (proj2 Sd); exact Gq].
      intros H. apply N2. eapply (proj1 Sd); eauto. }
    assert (ER : forall r, alone c now d (QStore k v) = (fs_create (tmp_of (get_path k)) d, r) ->
      step_ok d s (QStore k v) (now :: ts) s1 (inr r)).
    { intros r HR. split; [exact S1|]. split; [exact TC1|]. split; [exact ON|]. exists now, (fs_create (tmp_of (get_path k)) d).
      split; [left; reflexivity|]. split; [exact HR|]. apply (agrees_only (get_path k) d _ s s1 NT A ON).
      - intros m N1 N2. unfold fs_create. apply aget_aset_ne. exact N2.
      - unfold fs_create. rewrite aget_aset_ne by congruence. rewrite AG by exact NT. apply (proj1 A). exact NT.
      - intros f. unfold fs_create. rewrite aget_aset_eq. intros H. inversion H; subst. cbn. destruct (aget (tmp_of (get_path k)) d) eqn:G; [|reflexivity]. eapply (proj2 A); eauto. }
    unfold alone, unit_reply, dir_store in ER. destruct (ser c v) as [data|e|w] eqn:SE; injection E as <- <-.
    + split; [exact S1|]. split; [exact TC1|]. split; [exact ON|]. split; [|eapply agrees_same; eauto].
      cbn. split; [exact G1|]. exists []. rewrite F1. auto.
    + apply ER. reflexivity.
    + apply ER. reflexivity.
  - cbn in P. destruct P as (G & w & D & SE & ->). subst w. destruct rest as [|b0 rest].
    + destruct (sys_rename (tmp_of (get_path k)) (get_path k) s) as [s1|] eqn:R; [|unfold sys_rename in R; rewrite G in R; discriminate].
      injection E as <- <-. destruct (rename_facts _ _ _ _ Sd TC NT G R) as (S1 & TC1 & G1 & GN & O1 & F1 & _).
      rewrite app_nil_r in SE.
      assert (ON : only (get_path k) s s1).
      { intros m N1 N2. split; [apply O1; assumption|]. intros q _. rewrite F1. reflexivity. }
      split; [exact S1|]. split; [exact TC1|]. split; [exact ON|]. set (d1 := fs_create (tmp_of (get_path k)) d).
      exists now, (fs_rename (tmp_of (get_path k)) (get_path k) (fs_write (tmp_of (get_path k)) (f_data (fs_file s i)) d1)).
      split; [left; reflexivity|]. split; [cbn; unfold unit_reply, dir_store; rewrite SE; reflexivity|].
      assert (X : match aget (tmp_of (get_path k)) d with Some f => f_xattr f | None => [] end = []).
      { destruct (aget (tmp_of (get_path k)) d) eqn:Gd; [eapply (proj2 A); eauto|reflexivity]. }
      assert (Y : fs_write (tmp_of (get_path k)) (f_data (fs_file s i)) d1 = aset (tmp_of (get_path k)) (File (f_data (fs_file s i)) []) d1).
      { unfold fs_write, d1, fs_create. rewrite aget_aset_eq. cbn [f_xattr]. rewrite X. reflexivity. }
      rewrite Y. unfold fs_rename. rewrite aget_aset_eq.
      assert (Z : fs_file s i = File (f_data (fs_file s i)) []).
      { pose proof (TC _ _ G) as H. destruct (fs_file s i). cbn in *. subst. reflexivity. }
      apply (agrees_only (get_path k) d _ s s1 NT A ON).
      * intros m N1 N2. rewrite aget_aset_ne by exact N1. rewrite aget_adel_ne by exact N2. rewrite aget_aset_ne by exact N2. unfold d1, fs_create. apply aget_aset_ne. exact N2.
      * rewrite aget_aset_eq. unfold file_at. rewrite G1. cbn. rewrite F1. f_equal. symmetry. exact Z.
      * intros f. rewrite aget_aset_ne by exact NE. rewrite aget_adel_eq. discriminate.
    + injection E as <- <-. destruct (write_facts i (length (f_data (fs_file s i))) (firstn (S j) (b0 :: rest)) s _ Sd TC G) as [S1 TC1].
      split; [exact S1|]. split; [exact TC1|]. split.
      { intros m N1 N2. split; [reflexivity|]. intros q Gq. cbn. apply put_other. intros ->. apply N2. eapply (proj1 Sd); eauto. }
      split.
      * cbn. split; [exact G|]. eexists. split; [reflexivity|]. rewrite put_same. cbn [f_data]. rewrite write_at_end. split.
        -- rewrite <- app_assoc. change (b0 :: firstn j rest) with (firstn (S j) (b0 :: rest)). change (skipn j rest) with (skipn (S j) (b0 :: rest)). rewrite firstn_skipn. exact SE.
        -- rewrite app_length. reflexivity.
      * eapply agrees_same; [exact A|]. intros n Nn. unfold file_at. cbn. destruct (aget n (fs_names s)) as [q|] eqn:Gq; [|reflexivity]. cbn.
        rewrite put_other; [reflexivity|]. intros ->. apply Nn. exists (get_path k). eapply (proj1 Sd); eauto.
Qed.

Lemma unlinked d s n s' : sound_fs s -> tmp_clean s -> agrees d s -> ~ temporary n -> sys_unlink n s = Some s' ->
  sound_fs s' /\ tmp_clean s' /\ only n s s' /\ agrees (adel n d) s'.
Proof.
  intros Sd TC A NT U. destruct (unlink_facts _ _ _ Sd TC U) as (S1 & TC1 & G1 & O1 & F1 & _).
  assert (ON : only n s s') by (intros m N1 N2; split; [apply O1; exact N1|]; intros q _; rewrite F1; reflexivity).
  split; [exact S1|]. split; [exact TC1|]. split; [exact ON|]. apply (agrees_only n d _ s s' NT A ON).
  - intros m N1 _. apply aget_adel_ne. exact N1.
  - rewrite aget_adel_eq. unfold file_at. rewrite G1. reflexivity.
  - intros f. rewrite aget_adel_ne by apply tmp_of_ne. intros H. eapply (proj2 A); eauto.
Qed.
Lemma agrees_get d s n i : agrees d s -> ~ temporary n -> aget n (fs_names s) = Some i -> aget n d = Some (fs_file s i).
Proof. intros A NT G. rewrite (proj1 A) by exact NT. apply ttl_some. exact G. Qed.
Lemma agrees_none d s n : agrees d s -> ~ temporary n -> aget n (fs_names s) = None -> aget n d = None.
Proof. intros A NT G. rewrite (proj1 A) by exact NT. unfold file_at. rewrite G. reflexivity. Qed.

Lemma step_load d s k p ts j now s' x : sound_fs s -> tmp_clean s -> agrees d s -> ~ temporary (get_path k) ->
  pcok s (QLoad k) p ts -> advance c s (QLoad k) p j now = (s', x) -> step_ok d s (QLoad k) (now :: ts) s' x.
Proof.
  intros Sd TC A NT P E. destruct p as [| |i|i t got|t]; try contradiction; cbn [advance] in E.
  - destruct (aget (get_path k) (fs_names s)) as [i|] eqn:G; injection E as <- <-;
      (split; [exact Sd|]; split; [exact TC|]; split; [apply only_refl|]).
    + split; [exact G|exact A].
    + exists now, d. split; [left; reflexivity|]. split; [|exact A]. cbn. unfold dir_load. rewrite (agrees_none d s _ A NT G). reflexivity.
  - cbn in P. pose proof (agrees_get d s _ _ A NT P) as GD. destruct (aget (xname Ttl) (f_xattr (fs_file s i))) as [b|] eqn:T.
    + destruct (ttl_from_disk b) as [ttl|e|w] eqn:TT; [destruct (ttl <? now) eqn:L|..]; injection E as <- <-;
        (split; [exact Sd|]; split; [exact TC|]; split; [apply only_refl|]).
      * split; [|exact A]. cbn. exists i, b, ttl. unfold ttl_at. auto 7.
      * split; [|exact A]. cbn. split; [exact P|]. split; [auto|]. split; [eexists; reflexivity|]. unfold ttl_at. rewrite T. eauto.
      * exists now, d. split; [left; reflexivity|]. split; [|exact A]. cbn. unfold dir_load. rewrite GD, T, TT. reflexivity.
      * exists now, d. split; [left; reflexivity|]. split; [|exact A]. cbn. unfold dir_load. rewrite GD, T, TT. reflexivity.
    + injection E as <- <-. split; [exact Sd|]. split; [exact TC|]. split; [apply only_refl|].
      split; [|exact A]. cbn. split; [exact P|]. split; [auto|]. split; [eexists; reflexivity|]. unfold ttl_at. rewrite T. exact Logic.I.
  - cbn in P. destruct P as (G & It & [r D] & TT). pose proof (agrees_get d s _ _ A NT G) as GD. rewrite D in E.
    rewrite skipn_app, skipn_all, Nat.sub_diag in E. cbn [app skipn] in E. destruct r as [|b0 r]; injection E as <- <-;
      (split; [exact Sd|]; split; [exact TC|]; split; [apply only_refl|]).
    + rewrite app_nil_r in D. exists t, d. split; [right; exact It|]. split; [|exact A]. cbn. unfold dir_load. rewrite GD, D. unfold ttl_at in TT.
      destruct (aget (xname Ttl) (f_xattr (fs_file s i))) as [b|]; [|reflexivity]. destruct TT as (y & -> & ->). reflexivity.
    + split; [|exact A]. cbn. split; [exact G|]. split; [auto|]. split; [|exact TT]. exists (skipn (S j) (b0 :: r)). rewrite D.
      rewrite <- app_assoc. f_equal. symmetry. exact (firstn_skipn (S j) (b0 :: r)).
  - cbn in P. destruct P as (i & b & y & G & It & T & TT & L). pose proof (agrees_get d s _ _ A NT G) as GD.
    destruct (sys_unlink (get_path k) s) as [s1|] eqn:U; [|apply unlink_none in U; congruence]. injection E as <- <-.
    destruct (unlinked _ _ _ _ Sd TC A NT U) as (S1 & TC1 & ON & A1). split; [exact S1|]. split; [exact TC1|]. split; [exact ON|].
    exists t, (adel (get_path k) d). split; [right; exact It|]. split; [|exact A1]. cbn. unfold dir_load. unfold ttl_at in T. rewrite GD, T, TT, L. reflexivity.
Qed.

Lemma step_attrs d s n i g : sound_fs s -> tmp_clean s -> agrees d s -> ~ temporary n -> aget n (fs_names s) = Some i ->
  let f := fs_file s i in
  sound_fs (set_attrs i g s) /\ tmp_clean (set_attrs i g s) /\ only n s (set_attrs i g s) /\
  agrees (aset n (File (f_data f) (g (f_xattr f))) d) (set_attrs i g s).
Proof.
  intros Sd TC A NT G f. destruct (attrs_facts i g s Sd TC (not_tmp s n i Sd NT G)) as [S1 TC1].
  assert (ON : only n s (set_attrs i g s)).
  { intros m N1 N2. split; [reflexivity|]. intros q Gq. cbn. apply put_other. intros ->. apply N1. eapply (proj1 Sd); eauto. }
  split; [exact S1|]. split; [exact TC1|]. split; [exact ON|]. apply (agrees_only n d _ s _ NT A ON).
  - intros m N1 _. apply aget_aset_ne. exact N1.
  - rewrite aget_aset_eq. unfold file_at. cbn. rewrite G. cbn. rewrite put_same. reflexivity.
  - intros f0. rewrite aget_aset_ne by apply tmp_of_ne. apply (proj2 A).
Qed.

Lemma step_other d s o p ts j now s' x : sound_fs s -> tmp_clean s -> agrees d s -> proper o ->
  match o with QStore _ _ | QLoad _ => False | _ => True end ->
  pcok s o p ts -> advance c s o p j now = (s', x) -> step_ok d s o (now :: ts) s' x.
Proof.
  intros Sd TC A NT K P E. destruct o as [k v|k|k m y|k m|k|n]; try contradiction; cbn [proper target] in NT.
  - destruct p as [| |i| |]; try contradiction; cbn [advance] in E.
    + destruct (aget (get_path k) (fs_names s)) as [i|] eqn:G; injection E as <- <-;
        (split; [exact Sd|]; split; [exact TC|]; split; [apply only_refl|]); [split; [exact G|exact A]|].
      exists now, d. split; [left; reflexivity|]. split; [|exact A]. cbn. unfold unit_reply, dir_set_meta. rewrite (agrees_none d s _ A NT G). reflexivity.
    + cbn in P. pose proof (agrees_get d s _ _ A NT P) as GD. injection E as <- <-.
      destruct (step_attrs d s _ i (aset (xname m) (to_stored now y)) Sd TC A NT P) as (S1 & TC1 & ON & A1).
      split; [exact S1|]. split; [exact TC1|]. split; [exact ON|]. eexists now, _. split; [left; reflexivity|]. split; [|exact A1].
      cbn. unfold unit_reply, dir_set_meta. rewrite GD. reflexivity.
  - destruct p as [| |i| |]; try contradiction; cbn [advance] in E.
    + destruct (aget (get_path k) (fs_names s)) as [i|] eqn:G; injection E as <- <-;
        (split; [exact Sd|]; split; [exact TC|]; split; [apply only_refl|]); [split; [exact G|exact A]|].
      exists now, d. split; [left; reflexivity|]. split; [|exact A]. cbn. unfold unit_reply, dir_del_meta. rewrite (agrees_none d s _ A NT G). reflexivity.
    + cbn in P. pose proof (agrees_get d s _ _ A NT P) as GD. destruct (aget (xname m) (f_xattr (fs_file s i))) eqn:T; injection E as <- <-.
      * destruct (step_attrs d s _ i (adel (xname m)) Sd TC A NT P) as (S1 & TC1 & ON & A1).
        split; [exact S1|]. split; [exact TC1|]. split; [exact ON|]. eexists now, _. split; [left; reflexivity|]. split; [|exact A1].
        cbn. unfold unit_reply, dir_del_meta. rewrite GD, T. reflexivity.
      * split; [exact Sd|]. split; [exact TC|]. split; [apply only_refl|]. exists now, d. split; [left; reflexivity|]. split; [|exact A].
        cbn. unfold unit_reply, dir_del_meta. rewrite GD, T. reflexivity.
  - destruct p as [| | | |]; try contradiction; cbn [advance] in E. destruct (sys_unlink (get_path k) s) as [s1|] eqn:U; injection E as <- <-.
    + destruct (unlinked _ _ _ _ Sd TC A NT U) as (S1 & TC1 & ON & A1). split; [exact S1|]. split; [exact TC1|]. split; [exact ON|].
      exists now, (adel (get_path k) d). split; [left; reflexivity|]. split; [|exact A1]. cbn. unfold unit_reply, dir_destroy.
      unfold sys_unlink in U. destruct (aget (get_path k) (fs_names s)) as [i|] eqn:G; [|discriminate]. rewrite (agrees_get d s _ _ A NT G). reflexivity.
    + split; [exact Sd|]. split; [exact TC|]. split; [apply only_refl|]. exists now, d. split; [left; reflexivity|]. split; [|exact A].
      cbn. unfold unit_reply, dir_destroy. rewrite (agrees_none d s _ A NT (unlink_none _ _ U)). reflexivity.
  - clear NT. destruct p as [| | | |t]; try contradiction; cbn [advance] in E.
    + assert (QUIET : forall r, match aget n d with None => r = Ok None | Some f =>
         match aget (xname Ttl) (f_xattr f) with None => r = Ok None
         | Some b => match ttl_from_disk b with Err e => r = Err e | Panic w => r = Panic w | Ok y => (now <? y) = true /\ r = Ok None end end end ->
         step_ok d s (QSweep n) (now :: ts) s (inr r)).
      { intros r H. split; [exact Sd|]. split; [exact TC|]. split; [apply only_refl|]. exists now, d. split; [left; reflexivity|]. split; [|exact A].
        cbn. unfold unit_reply, sweep, dir_maint. destruct (aget n d) as [f|]; [|subst r; reflexivity]. cbn [maint_loop].
        destruct (aget (xname Ttl) (f_xattr f)) as [b|]; [|subst r; reflexivity].
        destruct (ttl_from_disk b); [|subst r; reflexivity|subst r; reflexivity]. destruct H as [-> ->]. reflexivity. }
      assert (TMP : temporary n -> step_ok d s (QSweep n) (now :: ts) s (inr (Ok None))).
      { intros [m ->]. apply QUIET. destruct (aget (tmp_of m) d) as [f|] eqn:G; [|reflexivity]. rewrite (proj2 A _ _ G). reflexivity. }
      assert (DT : {m | n = tmp_of m} + {~ temporary n}).
      { destruct n as [|b0 r]; [right; intros [m H]; discriminate|]. destruct (N.eq_dec b0 46) as [->|N0]; [|right; intros [m H]; unfold tmp_of in H; cbn in H; congruence].
        destruct (list_eq_dec N.eq_dec (skipn (length r - 4) r) (txt ".tmp")) as [E4|N4].
        - left. exists (firstn (length r - 4) r). unfold tmp_of. rewrite <- E4, firstn_skipn. reflexivity.
        - right. intros [m H]. apply N4. unfold tmp_of in H. cbn in H. injection H as ->. rewrite app_length. cbn [length].
          replace (length m + 4 - 4)%nat with (length m) by lia. rewrite skipn_app, skipn_all, Nat.sub_diag. reflexivity. }
      destruct DT as [[m ->]|NT].
      { assert (E' : (s, @inr pc (reply V) (Ok None)) = (s', x)).
        { rewrite <- E. destruct (aget (tmp_of m) (fs_names s)) as [i|] eqn:G; [|reflexivity]. rewrite (TC _ _ G). reflexivity. }
        injection E' as <- <-. apply TMP. exists m. reflexivity. }
      destruct (aget n (fs_names s)) as [i|] eqn:G.
      * pose proof (agrees_get d s _ _ A NT G) as GD. rewrite GD in QUIET. destruct (aget (xname Ttl) (f_xattr (fs_file s i))) as [b|] eqn:T.
        -- destruct (ttl_from_disk b) as [y|e|w] eqn:TT; [destruct (now <? y) eqn:L|..]; injection E as <- <-; try (apply QUIET; auto).
           split; [exact Sd|]. split; [exact TC|]. split; [apply only_refl|]. split; [|exact A]. cbn. split; [exact NT|]. exists i, b, y. unfold ttl_at. auto 7.
        -- injection E as <- <-. apply QUIET. reflexivity.
      * injection E as <- <-. apply QUIET. rewrite (agrees_none d s _ A NT G). reflexivity.
    + cbn in P. destruct P as (NT & i & b & y & G & It & T & TT & L). pose proof (agrees_get d s _ _ A NT G) as GD.
      destruct (sys_unlink n s) as [s1|] eqn:U; [|apply unlink_none in U; congruence]. injection E as <- <-.
      destruct (unlinked _ _ _ _ Sd TC A NT U) as (S1 & TC1 & ON & A1). split; [exact S1|]. split; [exact TC1|]. split; [exact ON|].
      exists t, (adel n d). split; [right; exact It|]. split; [|exact A1]. cbn. unfold unit_reply, sweep, dir_maint. unfold ttl_at in T. rewrite GD. cbn [maint_loop].
      rewrite T, TT, L. reflexivity.
Qed.
Lemma step_one d s o p ts j now s' x : sound_fs s -> tmp_clean s -> agrees d s -> proper o ->
  pcok s o p ts -> advance c s o p j now = (s', x) -> step_ok d s o (now :: ts) s' x.
Proof.
  intros Sd TC A NT P E. destruct o as [k v|k|k m y|k m|k|n] eqn:O; try (rewrite <- O in *; eapply step_other; try eassumption; rewrite O; exact Logic.I).
  - eapply step_store; eassumption.
  - eapply step_load; eassumption.
Qed.

(** A call about another file does not notice. *)
Lemma pcok_frame s s' n o p ts : only n s s' -> ~ temporary n \/ s' = s -> target o <> n -> proper o -> pcok s o p ts -> pcok s' o p ts.
Proof.
  intros ON [NN| ->] TN PR P; [|exact P].
  assert (F : forall m i, m <> n -> m <> tmp_of n -> aget m (fs_names s) = Some i -> aget m (fs_names s') = Some i /\ fs_file s' i = fs_file s i).
  { intros m i N1 N2 G. destruct (ON m N1 N2) as [H1 H2]. rewrite H1. auto. }
  assert (PN : forall m, ~ temporary m -> m <> tmp_of n) by (intros m H ->; apply H; eexists; reflexivity).
  assert (X : forall k, get_path k <> n -> tmp_of (get_path k) <> tmp_of n) by (intros k H E; apply H, tmp_of_inj; exact E).
  assert (Y : forall k, tmp_of k <> n) by (intros k <-; apply NN; eexists; reflexivity).
  unfold pcok, ttl_at in *. destruct o as [k v|k|k m y|k m|k|m], p as [|i off rest|i|i t got|t]; cbn [proper target] in *; try contradiction; try exact Logic.I.
  - destruct P as (G & w & D & R). destruct (F _ _ (Y _) (X _ TN) G) as [G1 F1]. split; [exact G1|]. exists w. rewrite F1. auto.
  - apply (F _ _ TN (PN _ PR) P).
  - destruct P as (G & R). destruct (F _ _ TN (PN _ PR) G) as [G1 F1]. rewrite F1. auto.
  - destruct P as (i & b & z & G & R). destruct (F _ _ TN (PN _ PR) G) as [G1 F1]. exists i, b, z. rewrite F1. auto.
  - apply (F _ _ TN (PN _ PR) P).
  - apply (F _ _ TN (PN _ PR) P).
  - destruct P as (NT & i & b & z & G & R). destruct (F _ _ TN (PN _ NT) G) as [G1 F1]. split; [exact NT|]. exists i, b, z. rewrite F1. auto.
Qed.

Lemma sweep_still s n p ts j now s' x : temporary n -> pcok s (QSweep n) p ts -> advance c s (QSweep n) p j now = (s', x) -> s' = s.
Proof.
  intros T P E. destruct p as [| | | |t]; try contradiction; cbn [advance] in E; [|destruct P as [NT _]; contradiction].
  destruct (aget n (fs_names s)); [|injection E as <- _; reflexivity]. destruct (aget _ _); [|injection E as <- _; reflexivity].
  destruct (ttl_from_disk _) as [y| |]; [destruct (now <? y)|..]; injection E as <- _; reflexivity.
Qed.

Definition Inv (s : state) (d : dir) (calls : N -> option (qop V * list N)) : Prop :=
  sound_fs (st_fs s) /\ tmp_clean (st_fs s) /\ agrees d (st_fs s) /\
  (forall t, match st_calls s t, calls t with
             | None, None => True
             | Some (o, p), Some (o', ts) => o' = o /\ proper o /\ pcok (st_fs s) o p ts
             | _, _ => False
             end) /\
  (forall t t' o p o' p', t <> t' -> st_calls s t = Some (o, p) -> st_calls s t' = Some (o', p') -> target o <> target o').

Lemma temporary_dec n : temporary n \/ ~ temporary n.
Proof.
  destruct n as [|b0 r]; [right; intros [m H]; discriminate|]. destruct (N.eq_dec b0 46) as [->|N0]; [|right; intros [m H]; unfold tmp_of in H; cbn in H; congruence].
  destruct (list_eq_dec N.eq_dec (skipn (length r - 4) r) (txt ".tmp")) as [E4|N4].
  - left. exists (firstn (length r - 4) r). unfold tmp_of. rewrite <- E4, firstn_skipn. reflexivity.
  - right. intros [m H]. apply N4. unfold tmp_of in H. cbn in H. injection H as ->. rewrite app_length. cbn [length].
    replace (length m + 4 - 4)%nat with (length m) by lia. rewrite skipn_app, skipn_all, Nat.sub_diag. reflexivity.
Qed.

Lemma serial_run l : forall s d calls ac s' h, Inv s d calls -> (forall t, ac t = option_map fst (st_calls s t)) ->
  (forall o, begun l o -> proper o) -> moves c s l = (s', h) -> apart same_file ac h ->
  exists d', replays c calls d h d' /\ agrees d' (st_fs s').
Proof.
  induction l as [|m l IH]; intros s d calls ac s' h (Sd & TC & A & CM & DT) AC PR E AP; cbn [moves] in E.
  { injection E as <- <-. exists d. split; [reflexivity|exact A]. }
  destruct (move1 c s m) as [s1 h1] eqn:M. destruct (moves c s1 l) as [s2 h2] eqn:R. injection E as <- <-.
  assert (PR' : forall o, begun l o -> proper o) by (intros o [t H]; apply PR; exists t; right; exact H).
  destruct m as [t o|t j now]; cbn [move1] in M.
  - destruct (st_calls s t) as [[o0 p0]|] eqn:C; injection M as <- <-; cbn [app] in *.
    { eapply IH; try eassumption. split; [exact Sd|]. auto. }
    cbn [apart replays] in *. destruct AP as [AP1 AP2]. eapply IH; [| | |exact R|exact AP2]; [|intros u; cbn [st_calls]; destruct (N.eq_dec u t) as [->|NE]; [rewrite !at_same; reflexivity|rewrite !at_other by exact NE; apply AC]|exact PR'].
    split; [exact Sd|]. split; [exact TC|]. split; [exact A|]. cbn [st_calls st_fs]. split.
    + intros u. destruct (N.eq_dec u t) as [->|NE]; [rewrite !at_same|rewrite !at_other by exact NE; apply CM].
      split; [reflexivity|]. split; [apply PR; exists t; left; reflexivity|]. destruct o; exact Logic.I.
    + assert (Q : forall u o' p', u <> t -> st_calls s u = Some (o', p') -> target o' <> target o).
      { intros u o' p' NE G H. apply (AP1 u o'); [rewrite AC, G; reflexivity|exact H]. }
      intros u u' a p a' p' NE G1 G2. destruct (N.eq_dec u t) as [->|N1]; [rewrite at_same in G1; injection G1 as <- <-|rewrite at_other in G1 by exact N1];
        (destruct (N.eq_dec u' t) as [->|N2]; [rewrite at_same in G2; injection G2 as <- <-|rewrite at_other in G2 by exact N2]); try congruence.
      * intros H. eapply Q; [exact N2|exact G2|congruence].
      * eapply Q; eassumption.
      * exact (DT _ _ _ _ _ _ NE G1 G2).
  - destruct (st_calls s t) as [[o p]|] eqn:C; [|injection M as <- <-; cbn [app] in *; eapply IH; try eassumption; split; [exact Sd|]; auto].
    pose proof (CM t) as CT. rewrite C in CT. destruct (calls t) as [[o' ts]|] eqn:CL; [|contradiction]. destruct CT as (-> & PO & PC).
    destruct (advance c (st_fs s) o p j now) as [f x] eqn:AD. pose proof (step_one d _ _ _ _ _ _ _ _ Sd TC A PO PC AD) as (S1 & TC1 & ON & RES).
    assert (STILL : ~ temporary (target o) \/ f = st_fs s).
    { destruct (temporary_dec (target o)) as [T|T]; [right|left; exact T]. destruct o; try (exfalso; exact (PO T)). eapply sweep_still; eassumption. }
    assert (FR : forall u, u <> t -> match st_calls s u, calls u with
             | None, None => True | Some (o, p), Some (o', ts) => o' = o /\ proper o /\ pcok f o p ts | _, _ => False end).
    { intros u NE. pose proof (CM u) as CU. destruct (st_calls s u) as [[a q]|] eqn:G; [|exact CU]. destruct (calls u) as [[a' ts']|]; [|exact CU].
      destruct CU as (-> & PA & PP). split; [reflexivity|]. split; [exact PA|]. eapply pcok_frame; [exact ON|exact STILL| |exact PA|exact PP].
      eapply DT; [|exact G|exact C]. exact NE. }
    destruct x as [p'|r]; injection M as <- <-; cbn [app apart replays] in *; rewrite CL.
    + destruct RES as [PC' A']. eapply IH; [| | |exact R|exact AP]; [|intros u; cbn [st_calls]; destruct (N.eq_dec u t) as [->|NE]; [rewrite at_same, AC, C; reflexivity|rewrite at_other by exact NE; apply AC]|exact PR'].
      split; [exact S1|]. split; [exact TC1|]. split; [exact A'|]. cbn [st_calls st_fs]. split.
      * intros u. destruct (N.eq_dec u t) as [->|NE]; [rewrite !at_same; auto|rewrite !at_other by exact NE; apply FR; exact NE].
      * intros u u' a q a' q' NE G1 G2. destruct (N.eq_dec u t) as [->|N1]; [rewrite at_same in G1; injection G1 as <- <-|rewrite at_other in G1 by exact N1];
          (destruct (N.eq_dec u' t) as [->|N2]; [rewrite at_same in G2; injection G2 as <- <-|rewrite at_other in G2 by exact N2]); first [congruence|exact (DT _ _ _ _ _ _ NE G1 G2)|exact (DT _ _ _ _ _ _ NE C G2)|exact (DT _ _ _ _ _ _ NE G1 C)].
    + destruct RES as (now' & d1 & IN & AL & A1). rewrite at_same.
      assert (X : exists d', replays c (at_task t None (at_task t (Some (o, now :: ts)) calls)) d1 h2 d' /\ agrees d' (st_fs s2)).
      { eapply IH; [| | |exact R|exact AP]; [|intros u; cbn [st_calls]; destruct (N.eq_dec u t) as [->|NE]; [rewrite !at_same; reflexivity|rewrite !at_other by exact NE; apply AC]|exact PR'].
        split; [exact S1|]. split; [exact TC1|]. split; [exact A1|]. cbn [st_calls st_fs]. split.
        - intros u. destruct (N.eq_dec u t) as [->|NE]; [rewrite !at_same; exact Logic.I|rewrite !at_other by exact NE; apply FR; exact NE].
        - intros u u' a q a' q' NE G1 G2. destruct (N.eq_dec u t) as [->|N1]; [rewrite at_same in G1; discriminate|rewrite at_other in G1 by exact N1];
            (destruct (N.eq_dec u' t) as [->|N2]; [rewrite at_same in G2; discriminate|rewrite at_other in G2 by exact N2]); exact (DT _ _ _ _ _ _ NE G1 G2). }
      destruct X as (d' & RP & AG). exists d'. split; [|exact AG]. exists o, (now :: ts), now', d1. auto.
Qed.

Lemma start_inv d : (forall n f, aget (tmp_of n) d = Some f -> f_xattr f = []) -> Inv (start d) d nobody.
Proof.
  intros T. split; [apply mkfs_sound|]. split.
  { intros n i G. pose proof (mkfs_file d (tmp_of n)) as F. cbn [start st_fs] in *. unfold file_at in F. rewrite G in F. cbn in F. eapply T. symmetry. exact F. }
  split; [split; [intros n _; symmetry; apply mkfs_file|exact T]|]. split; [intros t; exact Logic.I|]. intros t t' o p o' p' _ H. discriminate.
Qed.
End serial.
