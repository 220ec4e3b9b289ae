(** Lemmas about the device's operating system. *)
From Verif Require Import Base BaseFacts Text CborModel ValueModel ValueProofs SiModel DevSiModel SiSpec SiApiModel SiApiSpec HostModel HostSpec.
From Coq Require Import ZifyBool ZifyNat ZifyN.
Local Open Scope N_scope.

Lemma path_eqb_spec a : forall b, path_eqb a b = true <-> a = b.
Proof.
  induction a as [|x a IH]; intros [|y b]; cbn [path_eqb]; try (split; intros; discriminate); try tauto.
  rewrite andb_true_iff, IH. unfold str_eqb. rewrite bytes_eqb_spec. split; [intros [-> ->]; reflexivity|intros H; inversion H; auto].
Qed.
Lemma fset_eq fs p n : fset fs p n p = Some n.
Proof. unfold fset. assert (path_eqb p p = true) as -> by (apply path_eqb_spec; reflexivity). reflexivity. Qed.
Lemma fset_ne fs p n q : q <> p -> fset fs p n q = fs q.
Proof. intros N. unfold fset. destruct (path_eqb q p) eqn:E; [apply path_eqb_spec in E; congruence|reflexivity]. Qed.
Lemma is_dir_fset_ne fs p n q : q <> p -> is_dir (fset fs p n) q = is_dir fs q.
Proof. intros N. destruct q as [|x q]; [reflexivity|]. unfold is_dir. rewrite fset_ne by exact N. reflexivity. Qed.
Lemma not_dir fs p n d : fs p = Some n -> nd_data n = Some d -> p <> [] -> is_dir fs p = false.
Proof. intros F D N. destruct p; [congruence|]. unfold is_dir. rewrite F, D. reflexivity. Qed.

(** *** Calls change one path *)
Definition at_path (o : hop) : option path :=
  match o with HMkDir p | HCreate p | HAppend p _ | HMode p _ | HOwner p _ _ => Some p | _ => None end.
Lemma append_else fs p d q : q <> p -> append fs p d q = fs q.
Proof. intros N. unfold append. destruct (fs p) as [n|]; [|reflexivity]. destruct (nd_data n); [apply fset_ne; exact N|reflexivity]. Qed.
Lemma call_else um fs o fs' q : call um fs o = Some fs' -> at_path o <> Some q -> fs' q = fs q.
Proof.
  intros C N. destruct o; cbn [call at_path] in *.
  - destruct (exists_at fs p); [discriminate|]. destruct (is_dir fs (removelast p)); inversion C; subst. apply fset_ne. congruence.
  - destruct (is_dir fs p); [discriminate|]. destruct (fs p); [inversion C; subst; apply fset_ne; congruence|]. destruct (is_dir fs (removelast p)); inversion C; subst. apply fset_ne. congruence.
  - destruct (is_dir fs p); [discriminate|]. destruct (fs p); inversion C; subst. apply append_else. congruence.
  - destruct (fs p); inversion C; subst. apply fset_ne. congruence.
  - destruct (fs p); inversion C; subst. apply fset_ne. congruence.
  - inversion C; reflexivity.
  - inversion C; reflexivity.
Qed.
Lemma hcall_else b o s s' r q : hcall b o s = (s', r) -> at_path o <> Some q -> hs_fs s' q = hs_fs s q.
Proof.
  intros C N. unfold hcall in C. destruct (bx_io b (hs_log s ++ [o])) as [|k].
  - destruct (call (bx_umask b) (hs_fs s) o) eqn:E; inversion C; subst; [|reflexivity]. eapply call_else; eassumption.
  - inversion C; subst. cbn [hs_fs]. destruct o; try reflexivity. apply append_else. cbn [at_path] in N. congruence.
Qed.
Lemma hcall_ok b o s s' : hcall b o s = (s', Ok tt) -> call (bx_umask b) (hs_fs s) o = Some (hs_fs s') /\ hs_log s' = hs_log s ++ [o].
Proof.
  unfold hcall. destruct (bx_io b (hs_log s ++ [o])); [|intros H; discriminate]. destruct (call (bx_umask b) (hs_fs s) o) eqn:E; intros H; inversion H; subst. auto.
Qed.
Lemma hcall_works b o s fs : working b -> call (bx_umask b) (hs_fs s) o = Some fs -> hcall b o s = (HSt fs (hs_log s ++ [o]), Ok tt).
Proof. intros W C. unfold hcall. rewrite W, C. reflexivity. Qed.
Lemma hcall_log b o s s' r : hcall b o s = (s', r) -> hs_log s' = hs_log s ++ [o].
Proof. unfold hcall. destruct (bx_io b (hs_log s ++ [o])); [|intros H; inversion H; reflexivity]. destruct (call (bx_umask b) (hs_fs s) o); intros H; inversion H; reflexivity. Qed.
Lemma hcall_no_panic b o s : exists s', hcall b o s = (s', Ok tt) \/ hcall b o s = (s', Err tt).
Proof. unfold hcall. destruct (bx_io b (hs_log s ++ [o])); [|eauto]. destruct (call (bx_umask b) (hs_fs s) o); eauto. Qed.
Lemma hcall_unit b o s s' a : hcall b o s = (s', Ok a) -> hcall b o s = (s', Ok tt).
Proof. destruct a. auto. Qed.

Lemma hbind_ok {A B} (m : hm A) (f : A -> hm B) s s' r : hbind m f s = (s', Ok r) -> exists s1 a, m s = (s1, Ok a) /\ f a s1 = (s', Ok r).
Proof. unfold hbind. destruct (m s) as [s1 [a|e|w]]; intros H; [eauto|discriminate|discriminate]. Qed.
Lemma hbind_step {A B} (m : hm A) (f : A -> hm B) s s1 a : m s = (s1, Ok a) -> hbind m f s = f a s1.
Proof. intros H. unfold hbind. rewrite H. reflexivity. Qed.
(** A property of two states that every step of a program keeps *)
Definition always (R : hstate -> hstate -> Prop) {A} (m : hm A) : Prop := forall s, R s (fst (m s)).
Section always.
Context (R : hstate -> hstate -> Prop) (RR : forall s, R s s) (RT : forall s1 s2 s3, R s1 s2 -> R s2 s3 -> R s1 s3).
Lemma always_bind {A B} (m : hm A) (f : A -> hm B) : always R m -> (forall a, always R (f a)) -> always R (hbind m f).
Proof. intros M F s. unfold hbind. specialize (M s). destruct (m s) as [s1 [a|e|w]]; cbn [fst] in *; [|exact M|exact M]. eapply RT; [exact M|apply F]. Qed.
Lemma always_ret {A} (a : A) : always R (hret a). Proof. intros s. apply RR. Qed.
Lemma always_fail {A} : always R (@hfail A). Proof. intros s. apply RR. Qed.
Lemma always_read {A} (f : fsys -> outcome unit A) : always R (hread f). Proof. intros s. apply RR. Qed.
End always.

(** *** Directories *)
Lemma above_snoc (d : path) s r : above (d ++ [s]) (d ++ s :: r) <-> r <> [].
Proof.
  split.
  - intros (_ & r' & N & E). rewrite <- app_assoc in E. apply app_inv_head in E. cbn [app] in E. inversion E; subst. exact N.
  - intros N. split; [intros H; destruct d; discriminate|]. exists r. split; [exact N|]. rewrite <- app_assoc. reflexivity.
Qed.
Lemma only_refl p fs : only p fs fs. Proof. intros q N. left. reflexivity. Qed.
Lemma only_trans p a b c : only p a b -> only p b c -> only p a c.
Proof.
  intros H1 H2 q N. destruct (H1 q N) as [E1|(A1 & E1 & D1)], (H2 q N) as [E2|(A2 & E2 & D2)].
  - left. congruence.
  - right. split; [exact A2|]. split; [congruence|exact D2].
  - right. split; [exact A1|]. split; [exact E1|]. destruct q; [reflexivity|]. unfold is_dir in *. rewrite E2. exact D1.
  - exfalso. destruct q; [destruct A1 as [X _]; congruence|]. unfold is_dir in D1. rewrite E2 in D1. discriminate.
Qed.
Lemma only_self p fs n : only p fs (fset fs p n). Proof. intros q N. left. apply fset_ne. exact N. Qed.
Lemma mkdir_only b q p s s' r : above q p -> is_dir (hs_fs s) q = false -> hcall b (HMkDir q) s = (s', r) -> only p (hs_fs s) (hs_fs s').
Proof.
  intros A D C x N. destruct (list_eq_dec (list_eq_dec N.eq_dec) x q) as [->|NE].
  - unfold hcall in C. destruct (bx_io b _); [|inversion C; subst; left; reflexivity]. destruct (call _ _ _) as [fs|] eqn:E; inversion C; subst; [|left; reflexivity]. cbn [hs_fs].
    cbn [call] in E. destruct (exists_at (hs_fs s) q) eqn:X; [discriminate|]. destruct (is_dir (hs_fs s) (removelast q)); inversion E; subst. right. split; [exact A|].
    destruct A as [A _]. destruct q; [congruence|]. split; [unfold exists_at in X; destruct (hs_fs s (s0 :: q)); [discriminate|reflexivity]|]. unfold is_dir. rewrite fset_eq. reflexivity.
  - left. eapply hcall_else; [exact C|]. cbn [at_path]. congruence.
Qed.
Lemma mkdirs_only b p : forall todo d, p <> [] -> (exists z, z <> [] /\ p = d ++ todo ++ z) -> forall s, only p (hs_fs s) (hs_fs (fst (mkdirs b d todo s))).
Proof.
  induction todo as [|x r IH]; intros d NP (z & NZ & EP) s; cbn [mkdirs]; [apply only_refl|].
  assert (AB : above (d ++ [x]) p). { rewrite EP. cbn [app]. apply above_snoc. intros H. apply app_eq_nil in H. tauto. }
  unfold hbind. destruct (is_dir (hs_fs s) (d ++ [x])) eqn:D.
  - apply IH; [exact NP|]. exists z. split; [exact NZ|]. rewrite EP, <- app_assoc. reflexivity.
  - destruct (hcall b (HMkDir (d ++ [x])) s) as [s1 r1] eqn:C. pose proof (mkdir_only _ _ _ _ _ _ AB D C) as O1. destruct r1 as [a|e|w]; cbn [fst]; [|exact O1|exact O1].
    eapply only_trans; [exact O1|]. apply IH; [exact NP|]. exists z. split; [exact NZ|]. rewrite EP, <- app_assoc. reflexivity.
Qed.
Lemma removelast_snoc {X} (l : list X) x : removelast (l ++ [x]) = l.
Proof. rewrite removelast_app by discriminate. apply app_nil_r. Qed.
Lemma path_split (p : path) : p <> [] -> exists x, p = removelast p ++ [x].
Proof. intros N. exists (last p []). apply app_removelast_last. exact N. Qed.

(** *** Putting a file in place *)
Lemma put_file_only b p data m : p <> [] -> always (fun s s' => only p (hs_fs s) (hs_fs s')) (put_file b p data m).
Proof.
  intros NP. set (R := fun s s' => only p (hs_fs s) (hs_fs s')).
  assert (RR : forall s, R s s) by (intros s; apply only_refl). assert (RT : forall s1 s2 s3, R s1 s2 -> R s2 s3 -> R s1 s3) by (intros s1 s2 s3; apply only_trans).
  assert (HC : forall o, (forall q, at_path o = Some q -> q = p) -> always R (hcall b o)).
  { intros o H s q N. left. destruct (hcall b o s) as [s1 r1] eqn:E. eapply hcall_else; [exact E|]. intros X. apply H in X. congruence. }
  unfold put_file. apply always_bind; [exact RT| |].
  - intros s. destruct (path_split p NP) as [x E]. apply mkdirs_only; [exact NP|]. exists [x]. split; [discriminate|exact E].
  - intros _. apply always_bind; [exact RT|apply HC; cbn; congruence|]. intros _. apply always_bind; [exact RT|apply HC; cbn; congruence|]. intros _.
    apply always_bind; [exact RT|apply HC; cbn; congruence|]. intros _. apply HC. cbn. discriminate.
Qed.
Lemma create_gives um fs p fs' : call um fs (HCreate p) = Some fs' -> exists m u g, fs' p = Some (Node (Some []) m u g) /\
  (fs p = None /\ m = N.ldiff 438 um /\ u = 0 /\ g = 0 \/ exists n, fs p = Some n /\ m = nd_mode n /\ u = nd_uid n /\ g = nd_gid n).
Proof.
  cbn [call]. destruct (is_dir fs p); [discriminate|]. destruct (fs p) as [n|].
  - intros H; inversion H; subst. rewrite fset_eq. eexists _, _, _. split; [reflexivity|]. right. eauto.
  - destruct (is_dir fs (removelast p)); intros H; inversion H; subst. rewrite fset_eq. eexists _, _, _. split; [reflexivity|]. left. auto.
Qed.
Lemma append_gives um fs p d fs' b0 m u g : call um fs (HAppend p d) = Some fs' -> fs p = Some (Node (Some b0) m u g) -> fs' p = Some (Node (Some (b0 ++ d)) m u g).
Proof. cbn [call]. destruct (is_dir fs p); [discriminate|]. intros C E. rewrite E in C. inversion C; subst. unfold append. rewrite E. cbn. apply fset_eq. Qed.
Lemma mode_gives um fs p x fs' b0 m u g : call um fs (HMode p x) = Some fs' -> fs p = Some (Node b0 m u g) -> fs' p = Some (Node b0 x u g).
Proof. cbn [call]. intros C E. rewrite E in C. inversion C; subst. apply fset_eq. Qed.
Lemma owner_gives um fs p x y fs' b0 m u g : call um fs (HOwner p x y) = Some fs' -> fs p = Some (Node b0 m u g) -> fs' p = Some (Node b0 m x y).
Proof. cbn [call]. intros C E. rewrite E in C. inversion C; subst. apply fset_eq. Qed.
Lemma put_file_ok b p data m s s' : put_file b p data m s = (s', Ok tt) -> file_at (hs_fs s') p data m.
Proof.
  unfold put_file. intros H. apply hbind_ok in H. destruct H as (s1 & [] & _ & H). apply hbind_ok in H. destruct H as (s2 & [] & C1 & H). apply hbind_ok in H. destruct H as (s3 & [] & C2 & H).
  apply hbind_ok in H. destruct H as (s4 & [] & C3 & C4). apply hcall_ok in C1, C2, C3, C4. destruct C1 as [C1 _], C2 as [C2 _], C3 as [C3 _], C4 as [C4 _].
  destruct (create_gives _ _ _ _ C1) as (m0 & u & g & F & _). pose proof (append_gives _ _ _ _ _ _ _ _ _ C2 F) as F2. cbn [app] in F2. pose proof (mode_gives _ _ _ _ _ _ _ _ _ C3 F2) as F3.
  cbn [call] in C4. injection C4 as C4. exists u, g. rewrite <- C4. exact F3.
Qed.
Lemma mkdirs_works b : working b -> forall todo d s, is_dir (hs_fs s) d = true -> (forall a x z, todo = a ++ x :: z -> hs_fs s (d ++ a ++ [x]) = None \/ is_dir (hs_fs s) (d ++ a ++ [x]) = true) ->
  exists s', mkdirs b d todo s = (s', Ok tt) /\ is_dir (hs_fs s') (d ++ todo) = true.
Proof.
  intros W. induction todo as [|x r IH]; intros d s D CL; cbn [mkdirs]; [exists s; rewrite app_nil_r; auto|].
  assert (HP : hs_fs s (d ++ [x]) = None \/ is_dir (hs_fs s) (d ++ [x]) = true) by (apply (CL [] x r); reflexivity).
  destruct (is_dir (hs_fs s) (d ++ [x])) eqn:DX.
  - unfold hbind. rewrite DX. destruct (IH (d ++ [x]) s DX) as (s' & E & D').
    + intros a y z E. specialize (CL (x :: a) y z ltac:(cbn; congruence)). rewrite <- app_assoc. exact CL.
    + exists s'. rewrite <- app_assoc in D'. auto.
  - destruct HP as [NX|HX]; [|discriminate]. assert (NE : d ++ [x] <> []) by (destruct d; discriminate).
    assert (C : call (bx_umask b) (hs_fs s) (HMkDir (d ++ [x])) = Some (fset (hs_fs s) (d ++ [x]) (Node None (N.ldiff 511 (bx_umask b)) 0 0))).
    { cbn [call]. unfold exists_at. rewrite removelast_snoc, D. destruct (d ++ [x]) eqn:Q; [congruence|]. rewrite NX. reflexivity. }
    unfold hbind. rewrite DX, (hcall_works _ _ _ _ W C). set (s1 := HSt _ _).
    assert (D1 : is_dir (hs_fs s1) (d ++ [x]) = true) by (unfold s1; cbn [hs_fs]; unfold is_dir; destruct (d ++ [x]); [reflexivity|]; rewrite fset_eq; reflexivity).
    destruct (IH (d ++ [x]) s1 D1) as (s' & E & D').
    + intros a y z E. specialize (CL (x :: a) y z ltac:(cbn; congruence)). rewrite <- app_assoc. unfold s1. cbn [hs_fs app]. cbn [app] in CL.
      assert (N2 : d ++ x :: a ++ [y] <> d ++ [x]). { intros X. apply app_inv_head in X. inversion X as [X1]. apply app_eq_nil in X1. destruct X1; discriminate. }
      rewrite fset_ne, is_dir_fset_ne by exact N2. exact CL.
    + exists s'. rewrite <- app_assoc in D'. auto.
Qed.
Lemma clear_only p fs fs' : way_clear fs p -> only p fs fs' -> is_dir fs' p = false -> way_clear fs' p.
Proof.
  intros (NP & D & CL) O D'. split; [exact NP|]. split; [exact D'|]. intros q A. assert (N : q <> p). { destruct A as (_ & r & NR & E). intros ->. apply NR. rewrite <- app_nil_r in E at 1. apply app_inv_head in E. auto. }
  destruct (O q N) as [E|(_ & _ & X)]; [|auto]. destruct (CL q A) as [C|C]; [left; congruence|right]. destruct q; [reflexivity|]. unfold is_dir in *. rewrite E. exact C.
Qed.
Lemma put_file_works b p data m s : working b -> way_clear (hs_fs s) p -> exists s', put_file b p data m s = (s', Ok tt).
Proof.
  intros W CL. pose proof CL as (NP & D & AB). destruct (path_split p NP) as [x E]. unfold put_file.
  destruct (mkdirs_works b W (removelast p) [] s) as (s1 & E1 & D1); [reflexivity| |].
  { intros a y z EA. cbn [app]. apply AB. split; [destruct a; discriminate|]. exists (z ++ [x]). split; [destruct z; discriminate|]. rewrite E, EA, <- !app_assoc. reflexivity. }
  cbn [app] in D1. rewrite (hbind_step _ _ _ _ _ E1).
  assert (O1 : only p (hs_fs s) (hs_fs s1)). { replace s1 with (fst (mkdirs b [] (removelast p) s)) by (rewrite E1; reflexivity). apply mkdirs_only; [exact NP|]. exists [x]. split; [discriminate|exact E]. }
  assert (P1 : hs_fs s1 p = hs_fs s p).
  { assert (always (fun s s' => hs_fs s' p = hs_fs s p) (mkdirs b [] (removelast p))) as AL.
    { assert (G : forall todo d, (exists z, z <> [] /\ p = d ++ todo ++ z) -> always (fun s s' => hs_fs s' p = hs_fs s p) (mkdirs b d todo)).
      { induction todo as [|y r IH]; intros d (z & NZ & EP); cbn [mkdirs]; [intros st; reflexivity|]. apply always_bind; [congruence| |].
        - intros st. destruct (is_dir (hs_fs st) (d ++ [y])); [reflexivity|]. destruct (hcall b (HMkDir (d ++ [y])) st) as [s2 r2] eqn:C. eapply hcall_else; [exact C|]. cbn [at_path]. intros X. inversion X as [X1].
          rewrite EP in X1. cbn [app] in X1. apply app_inv_head in X1. inversion X1 as [X2]. symmetry in X2. apply app_eq_nil in X2. tauto.
        - intros _. apply IH. exists z. split; [exact NZ|]. rewrite EP, <- app_assoc. reflexivity. }
      apply G. exists [x]. split; [discriminate|exact E]. }
    specialize (AL s). rewrite E1 in AL. exact AL. }
  assert (D2 : is_dir (hs_fs s1) p = false) by (destruct p; [congruence|]; unfold is_dir in *; rewrite P1; exact D).
  assert (C1 : exists fs, call (bx_umask b) (hs_fs s1) (HCreate p) = Some fs). { cbn [call]. rewrite D2. destruct (hs_fs s1 p); [eauto|]. rewrite D1. eauto. }
  destruct C1 as [f1 C1]. rewrite (hbind_step _ _ _ _ _ (hcall_works _ _ _ _ W C1)). destruct (create_gives _ _ _ _ C1) as (m0 & u & g & F1 & _).
  assert (C2 : exists fs, call (bx_umask b) f1 (HAppend p data) = Some fs). { cbn [call]. rewrite (not_dir _ _ _ _ F1 eq_refl NP), F1. eauto. }
  destruct C2 as [f2 C2]. rewrite (hbind_step _ _ _ _ _ (hcall_works _ _ (HSt f1 _) f2 W C2)). pose proof (append_gives _ _ _ _ _ _ _ _ _ C2 F1) as F2.
  assert (C3 : exists fs, call (bx_umask b) f2 (HMode p m) = Some fs) by (cbn [call]; rewrite F2; eauto).
  destruct C3 as [f3 C3]. rewrite (hbind_step _ _ _ _ _ (hcall_works _ _ (HSt f2 _) f3 W C3)). eexists. apply (hcall_works _ _ (HSt f3 _) f3 W). reflexivity.
Qed.
(** A file stays a file, and a path without anything does not become a directory. *)
Lemma put_file_kind b p data m : p <> [] -> always (fun s s' => is_dir (hs_fs s) p = false -> is_dir (hs_fs s') p = false) (put_file b p data m).
Proof.
  intros NP. set (R := fun s s' : hstate => is_dir (hs_fs s) p = false -> is_dir (hs_fs s') p = false).
  assert (RT : forall s1 s2 s3, R s1 s2 -> R s2 s3 -> R s1 s3) by (unfold R; tauto).
  destruct (path_split p NP) as [x E].
  assert (K : forall o, (match o with HMkDir q => q <> p | _ => True end) -> always R (hcall b o)).
  { intros o H s D. destruct (hcall b o s) as [s1 r1] eqn:C. cbn [fst]. destruct p as [|y p']; [congruence|]. unfold is_dir in *.
    destruct (list_eq_dec (list_eq_dec N.eq_dec) (match at_path o with Some q => q | None => [] end) (y :: p')) as [EQ|NE].
    - unfold hcall in C. destruct (bx_io b _).
      + destruct (call _ _ o) as [fs|] eqn:CC; inversion C; subst; cbn [hs_fs]; [|exact D]. destruct o; cbn [at_path] in EQ; try discriminate; subst; try (exfalso; apply H; reflexivity); cbn [call] in CC.
        * destruct (is_dir _ _); [discriminate|]. destruct (hs_fs s (y :: p')); [inversion CC; subst; rewrite fset_eq; reflexivity|]. destruct (is_dir _ _); inversion CC; subst. rewrite fset_eq. reflexivity.
        * destruct (is_dir _ _); [discriminate|]. destruct (hs_fs s (y :: p')) as [n|] eqn:F; inversion CC; subst. unfold append. rewrite F. destruct (nd_data n); [rewrite fset_eq; reflexivity|discriminate].
        * destruct (hs_fs s (y :: p')) as [n|]; inversion CC; subst. rewrite fset_eq. exact D.
        * destruct (hs_fs s (y :: p')) as [n|]; inversion CC; subst. rewrite fset_eq. exact D.
      + inversion C; subst; cbn [hs_fs]. destruct o; try exact D. cbn [at_path] in EQ. subst. unfold append. destruct (hs_fs s (y :: p')) as [nd|] eqn:F; [|rewrite F; reflexivity]. destruct (nd_data nd) eqn:X; [rewrite fset_eq; reflexivity|discriminate].
    - rewrite (hcall_else _ _ _ _ _ (y :: p') C); [exact D|]. intros X. rewrite X in NE. congruence. }
  unfold put_file. apply always_bind; [exact RT| |].
  - assert (G : forall todo d, (exists z, z <> [] /\ p = d ++ todo ++ z) -> always R (mkdirs b d todo)).
    { induction todo as [|y r IH]; intros d (z & NZ & EP); cbn [mkdirs]; [intros s; exact (fun H => H)|]. apply always_bind; [exact RT| |].
      - intros s. destruct (is_dir (hs_fs s) (d ++ [y])); [exact (fun H => H)|]. apply K. intros X. rewrite EP in X. cbn [app] in X. apply app_inv_head in X. inversion X as [X2]. symmetry in X2. apply app_eq_nil in X2. tauto.
      - intros _. apply IH. exists z. split; [exact NZ|]. rewrite EP, <- app_assoc. reflexivity. }
    apply G. exists [x]. split; [discriminate|exact E].
  - intros _. apply always_bind; [exact RT|apply K; exact Logic.I|]. intros _. apply always_bind; [exact RT|apply K; exact Logic.I|]. intros _. apply always_bind; [exact RT|apply K; exact Logic.I|]. intros _. apply K. exact Logic.I.
Qed.
