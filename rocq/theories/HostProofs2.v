(** Lemmas about accounts and keys. *)
From Verif Require Import Base BaseFacts Text CborModel ValueModel ValueProofs SiModel DevSiModel SiSpec SiApiModel SiApiSpec HostModel HostSpec HostProofs.
From Coq Require Import ZifyBool ZifyNat ZifyN.
Local Open Scope N_scope.

(** *** Accounts *)
Lemma of_user_false user l : of_user user l = false <-> forall rest, fields l <> user :: rest.
Proof.
  unfold of_user. split.
  - intros H rest E. rewrite E in H. unfold str_eqb in H. rewrite bytes_eqb_refl in H. discriminate.
  - intros H. destruct (fields l) as [|f r]; [reflexivity|]. destruct (str_eqb f user) eqn:E; [|reflexivity]. unfold str_eqb in E. apply bytes_eqb_spec in E. subst. exfalso. eapply H. reflexivity.
Qed.
Lemma of_user_true user l : of_user user l = true <-> exists rest, fields l = user :: rest.
Proof.
  unfold of_user. split.
  - destruct (fields l) as [|f r]; [discriminate|]. intros H. apply bytes_eqb_spec in H. subst. eauto.
  - intros [rest ->]. apply bytes_eqb_refl.
Qed.
Lemma find_split {X} (f : X -> bool) l x : find f l = Some x -> exists a z, l = a ++ x :: z /\ f x = true /\ forall y, In y a -> f y = false.
Proof.
  induction l as [|y l IH]; cbn [find]; [discriminate|]. destruct (f y) eqn:E.
  - intros H. inversion H; subst. exists [], l. split; [reflexivity|]. split; [exact E|]. intros y [].
  - intros H. destruct (IH H) as (a & z & -> & F & B). exists (y :: a), z. split; [reflexivity|]. split; [exact F|]. intros w [<-|I]; auto.
Qed.
Lemma find_at {X} (f : X -> bool) a x z : f x = true -> (forall y, In y a -> f y = false) -> find f (a ++ x :: z) = Some x.
Proof. intros F. induction a as [|y a IH]; intros B; cbn [app find]; [rewrite F; reflexivity|]. rewrite (B y) by (left; reflexivity). apply IH. intros w I. apply B. right. exact I. Qed.
Lemma account_reads fs user uid gid home : account fs user uid gid home -> get_user_uid_gid_home user fs = Ok (uid, gid, home).
Proof.
  intros (t & a & l & z & R & L & B & x & u & g & c & rest & F & U & G). unfold get_user_uid_gid_home. rewrite R. cbn [bind]. rewrite L, find_at.
  - rewrite F. cbn. rewrite U. cbn. rewrite G. reflexivity.
  - apply of_user_true. eauto.
  - intros y I. apply of_user_false. apply B. exact I.
Qed.
Lemma reads_account fs user uid gid home : get_user_uid_gid_home user fs = Ok (uid, gid, home) -> account fs user uid gid home.
Proof.
  unfold get_user_uid_gid_home. destruct (read_text fs PASSWD) as [t|e|w] eqn:R; cbn [bind]; try discriminate. destruct (find (of_user user) (lines t)) as [l|] eqn:F; [|discriminate].
  apply find_split in F. destruct F as (a & z & L & O & B). apply of_user_true in O. destruct O as [rest O]. intros H. rewrite O in H.
  destruct rest as [|x [|u [|g [|c [|h rest]]]]]; cbn in H; try discriminate; try (destruct (parse_u32 u); cbn in H; discriminate);
    try (destruct (parse_u32 u); cbn in H; [|discriminate]; destruct (parse_u32 g); cbn in H; discriminate).
  destruct (parse_u32 u) as [nu|] eqn:U; cbn in H; [|discriminate]. destruct (parse_u32 g) as [ng|] eqn:G; cbn in H; [|discriminate]. inversion H; subst.
  exists t, a, l, z. split; [exact R|]. split; [exact L|]. split; [intros l' I; apply of_user_false; apply B; exact I|]. exists x, u, g, c, rest. auto.
Qed.
Lemma account_present fs user uid gid home : account fs user uid gid home -> is_user_in_passwd user fs = Ok true.
Proof.
  intros (t & a & l & z & R & L & B & x & u & g & c & rest & F & _). unfold is_user_in_passwd. rewrite R. cbn [bind]. rewrite L, existsb_app. cbn [existsb].
  assert (of_user user l = true) as -> by (apply of_user_true; eauto). rewrite orb_true_r. reflexivity.
Qed.
Lemma no_account_absent fs user : no_account fs user <-> is_user_in_passwd user fs = Ok false.
Proof.
  unfold no_account, is_user_in_passwd. split.
  - intros (t & R & B). rewrite R. cbn [bind]. destruct (existsb (of_user user) (lines t)) eqn:E; [|reflexivity]. apply existsb_exists in E. destruct E as (l & I & O). apply of_user_true in O. destruct O as [rest O]. exfalso. exact (B l I rest O).
  - destruct (read_text fs PASSWD) as [t|e|w]; cbn [bind]; intros H; try discriminate. exists t. split; [reflexivity|]. intros l I. apply of_user_false. destruct (of_user user l) eqn:O; [|reflexivity].
    assert (existsb (of_user user) (lines t) = true) by (apply existsb_exists; eauto). congruence.
Qed.
Lemma account_same fs fs' user uid gid home : fs' PASSWD = fs PASSWD -> account fs user uid gid home -> account fs' user uid gid home.
Proof. intros E (t & a & l & z & R & H). exists t, a, l, z. split; [unfold read_text in *; rewrite E; exact R|exact H]. Qed.

(** *** Keys *)
Lemma dir_node fs p n : fs p = Some n -> nd_data n = None -> is_dir fs p = true.
Proof. intros F D. unfold is_dir. destruct p; [reflexivity|]. rewrite F, D. reflexivity. Qed.
Lemma has_line_before t l more : has_line t l -> has_line (t ++ LF :: more) l.
Proof.
  intros (N & a & z & E & A & Z). split; [exact N|]. exists a, (z ++ LF :: more). split; [rewrite E, <- !app_assoc; reflexivity|]. split; [exact A|]. right.
  destruct Z as [->|[z' ->]]; [exists more; reflexivity|exists (z' ++ LF :: more); reflexivity].
Qed.
Lemma has_line_new t key : ~ In LF key -> has_line (t ++ KEYS_HEAD ++ key ++ KEYS_TAIL) key.
Proof.
  intros N. split; [exact N|]. exists (t ++ KEYS_HEAD), KEYS_TAIL. split; [rewrite <- !app_assoc; reflexivity|]. split; [right|right; eexists; reflexivity].
  exists (t ++ LF :: txt "# These keys are installed by FIDO Device Onboarding"). rewrite <- app_assoc. reflexivity.
Qed.
Lemma read_text_node fs p t : read_text fs p = Ok t <-> exists n, fs p = Some n /\ nd_data n = Some (utf8_enc t) /\ forallb is_scalar t = true.
Proof.
  unfold read_text. split.
  - destruct (fs p) as [n|]; [|discriminate]. destruct (nd_data n) as [d|] eqn:D; [|discriminate]. destruct (utf8_dec d) as [x|] eqn:U; cbn; intros H; inversion H; subst. apply utf8_dec_enc in U. destruct U as [<- S]. eauto.
  - intros (n & -> & -> & S). rewrite utf8_roundtrip by exact S. reflexivity.
Qed.
Lemma scalars_block t key : forallb is_scalar t = true -> forallb is_scalar key = true -> forallb is_scalar (t ++ KEYS_HEAD ++ key ++ KEYS_TAIL) = true.
Proof. intros A B. rewrite !forallb_app, A, B. vm_compute. reflexivity. Qed.
Lemma ssh_dir_ne home : ssh_dir home <> []. Proof. unfold ssh_dir. destruct (resolve home); discriminate. Qed.
Lemma key_file_under home : key_file None home <> ssh_dir home.
Proof. unfold key_file. intros H. rewrite <- app_nil_r in H. apply app_inv_head in H. discriminate. Qed.
Lemma key_file_passwd home : key_file None home <> PASSWD.
Proof. unfold key_file. intros H. assert (X : last (ssh_dir home ++ [txt "authorized_keys"]) [] = last PASSWD []) by (rewrite H; reflexivity). rewrite last_last in X. discriminate. Qed.
Lemma ssh_dir_passwd home : ssh_dir home <> PASSWD.
Proof. unfold ssh_dir. intros H. assert (X : last (resolve home ++ [txt ".ssh"]) [] = last PASSWD []) by (rewrite H; reflexivity). rewrite last_last in X. discriminate. Qed.

(** The directory of the keys *)
Lemma key_path_ok b env uid gid home s s' p : key_path b env uid gid home s = (s', Ok p) ->
  p = key_file env home /\ (s' = s \/ env = None /\ hs_fs s (ssh_dir home) = None /\ hs_fs s' (ssh_dir home) = Some (Node None 448 uid gid) /\ forall q, q <> ssh_dir home -> hs_fs s' q = hs_fs s q).
Proof.
  unfold key_path, key_file. destruct env as [v|]; [intros H; inversion H; subst; auto|]. fold (ssh_dir home). intros H. apply hbind_ok in H. destruct H as (s1 & there & R & H). unfold hread in R. inversion R; subst s1 there. clear R.
  apply hbind_ok in H. destruct H as (s2 & [] & M & H). inversion H; subst s2 p. split; [reflexivity|]. pose proof (ssh_dir_ne home) as NE. revert M. destruct (exists_at (hs_fs s) (ssh_dir home)) eqn:EX; [intros M; inversion M; auto|intros M; right].
  apply hbind_ok in M. destruct M as (s3 & [] & C1 & M). apply hbind_ok in M. destruct M as (s4 & [] & C2 & C3).
  pose proof (fun q => hcall_else _ _ _ _ _ q C1) as E1. pose proof (fun q => hcall_else _ _ _ _ _ q C2) as E2. pose proof (fun q => hcall_else _ _ _ _ _ q C3) as E3. cbn [at_path] in E1, E2, E3.
  apply hcall_ok in C1, C2, C3. destruct C1 as [C1 _], C2 as [C2 _], C3 as [C3 _]. split; [reflexivity|]. split; [unfold exists_at in EX; destruct (ssh_dir home); [congruence|]; destruct (hs_fs s (s0 :: p)); [discriminate|reflexivity]|]. split.
  - cbn [call] in C1. rewrite EX in C1. destruct (is_dir (hs_fs s) (removelast (ssh_dir home))); [|discriminate]. inversion C1 as [F1]. assert (G1 : hs_fs s3 (ssh_dir home) = Some (Node None (N.ldiff 511 (bx_umask b)) 0 0)) by (rewrite <- F1; apply fset_eq).
    pose proof (mode_gives _ _ _ _ _ _ _ _ _ C2 G1) as G2. exact (owner_gives _ _ _ _ _ _ _ _ _ _ C3 G2).
  - intros q N. rewrite E3, E2, E1 by congruence. reflexivity.
Qed.
Lemma install_ok b env user key s s' : forallb is_scalar key = true -> install_ssh_key b env user key s = (s', Ok tt) ->
  exists uid gid home t, account (hs_fs s) user uid gid home /\
    (read_text (hs_fs s) (key_file env home) = Ok t \/ hs_fs s (key_file env home) = None /\ t = []) /\ forallb is_scalar t = true /\
    hs_fs s' (key_file env home) = Some (Node (Some (utf8_enc (t ++ KEYS_HEAD ++ key ++ KEYS_TAIL))) 384 uid gid) /\
    forall q, q <> key_file env home -> hs_fs s' q = hs_fs s q \/ env = None /\ q = ssh_dir home /\ hs_fs s q = None /\ hs_fs s' q = Some (Node None 448 uid gid).
Proof.
  intros SK H. unfold install_ssh_key in H. apply hbind_ok in H. destruct H as (s1 & [[uid gid] home] & R & H). unfold hread in R. assert (A : get_user_uid_gid_home user (hs_fs s) = Ok (uid, gid, home)) by congruence. assert (s1 = s) by congruence. subst s1. clear R.
  apply hbind_ok in H. destruct H as (s2 & p & KP & H). apply key_path_ok in KP. destruct KP as [-> KP]. apply hbind_ok in H. destruct H as (s3 & t & R & H). unfold hread in R.
  assert (s3 = s2) by congruence. subst s3. assert (T : (if exists_at (hs_fs s2) (key_file env home) then read_text (hs_fs s2) (key_file env home) else Ok []) = Ok t) by congruence. clear R.
  apply hbind_ok in H. destruct H as (s4 & [] & C1 & H). apply hbind_ok in H. destruct H as (s5 & [] & C2 & H). apply hbind_ok in H. destruct H as (s6 & [] & C3 & C4).
  pose proof (fun q => hcall_else _ _ _ _ _ q C1) as E1. pose proof (fun q => hcall_else _ _ _ _ _ q C2) as E2. pose proof (fun q => hcall_else _ _ _ _ _ q C3) as E3. pose proof (fun q => hcall_else _ _ _ _ _ q C4) as E4. cbn [at_path] in E1, E2, E3, E4.
  apply hcall_ok in C1, C2, C3, C4. destruct C1 as [C1 _], C2 as [C2 _], C3 as [C3 _], C4 as [C4 _].
  assert (NP : key_file env home <> []) by (intros X; rewrite X in C1; discriminate C1).
  assert (KF : hs_fs s2 (key_file env home) = hs_fs s (key_file env home)). { destruct KP as [->|(-> & _ & _ & O)]; [reflexivity|]. apply O. apply key_file_under. }
  assert (TT : (read_text (hs_fs s) (key_file env home) = Ok t \/ hs_fs s (key_file env home) = None /\ t = []) /\ forallb is_scalar t = true).
  { unfold exists_at in T. unfold read_text in *. rewrite KF in T. destruct (key_file env home) as [|k1 k2]; [congruence|]. destruct (hs_fs s (k1 :: k2)) as [n|]; [|inversion T; auto].
    split; [left; exact T|]. destruct (nd_data n) as [d|]; [|discriminate]. destruct (utf8_dec d) eqn:U; cbn in T; inversion T; subst. apply utf8_dec_enc in U. tauto. }
  exists uid, gid, home, t. split; [apply reads_account; exact A|]. split; [tauto|]. split; [tauto|]. split.
  - destruct (create_gives _ _ _ _ C1) as (m & u & g & F1 & _). pose proof (append_gives _ _ _ _ _ _ _ _ _ C2 F1) as F2. pose proof (mode_gives _ _ _ _ _ _ _ _ _ C3 F2) as F3. exact (owner_gives _ _ _ _ _ _ _ _ _ _ C4 F3).
  - intros q N. rewrite E4, E3, E2, E1 by congruence. destruct KP as [->|(-> & B & C & O)]; [auto|]. destruct (list_eq_dec (list_eq_dec N.eq_dec) q (ssh_dir home)) as [->|NQ]; [right; auto|left; auto].
Qed.

(** Installing works when the home is there. *)
Lemma install_works b user key s uid gid home : working b -> account (hs_fs s) user uid gid home ->
  is_dir (hs_fs s) (ssh_dir home) = true \/ (hs_fs s (ssh_dir home) = None /\ is_dir (hs_fs s) (resolve home) = true) ->
  hs_fs s (key_file None home) = None \/ (exists t, read_text (hs_fs s) (key_file None home) = Ok t) -> exists s', install_ssh_key b None user key s = (s', Ok tt) /\ is_dir (hs_fs s') (ssh_dir home) = true.
Proof.
  intros W A SD KF. unfold install_ssh_key. pose proof (account_reads _ _ _ _ _ A) as G.
  rewrite (hbind_step _ _ _ s (uid, gid, home)) by (unfold hread; rewrite G; reflexivity). cbv beta iota.
  assert (KP : exists s2, key_path b None uid gid home s = (s2, Ok (key_file None home)) /\ is_dir (hs_fs s2) (ssh_dir home) = true /\ hs_fs s2 (key_file None home) = hs_fs s (key_file None home)).
  { unfold key_path, key_file. fold (ssh_dir home). pose proof (ssh_dir_ne home) as NE. rewrite (hbind_step _ _ _ s (exists_at (hs_fs s) (ssh_dir home))) by reflexivity. destruct SD as [D|[N D]].
    - assert (exists_at (hs_fs s) (ssh_dir home) = true) as ->. { unfold is_dir in D. unfold exists_at. destruct (ssh_dir home); [reflexivity|]. destruct (hs_fs s (s0 :: p)); [reflexivity|discriminate]. }
      exists s. split; [reflexivity|]. auto.
    - assert (EX : exists_at (hs_fs s) (ssh_dir home) = false). { unfold exists_at. destruct (ssh_dir home) eqn:Q; [congruence|]. rewrite <- Q in *. rewrite N. reflexivity. }
      rewrite EX. assert (RL : removelast (ssh_dir home) = resolve home) by apply removelast_snoc.
      assert (C1 : call (bx_umask b) (hs_fs s) (HMkDir (ssh_dir home)) = Some (fset (hs_fs s) (ssh_dir home) (Node None (N.ldiff 511 (bx_umask b)) 0 0))) by (cbn [call]; rewrite EX, RL, D; reflexivity).
      pose proof (hcall_works _ _ _ _ W C1) as H1. set (s1 := HSt _ _) in H1. assert (F1 : hs_fs s1 (ssh_dir home) = Some (Node None (N.ldiff 511 (bx_umask b)) 0 0)) by apply fset_eq.
      assert (C2 : call (bx_umask b) (hs_fs s1) (HMode (ssh_dir home) 448) = Some (fset (hs_fs s1) (ssh_dir home) (Node None 448 0 0))) by (cbn [call]; rewrite F1; reflexivity).
      pose proof (hcall_works _ _ _ _ W C2) as H2. set (s2 := HSt _ _) in H2. assert (F2 : hs_fs s2 (ssh_dir home) = Some (Node None 448 0 0)) by apply fset_eq.
      assert (C3 : call (bx_umask b) (hs_fs s2) (HOwner (ssh_dir home) uid gid) = Some (fset (hs_fs s2) (ssh_dir home) (Node None 448 uid gid))) by (cbn [call]; rewrite F2; reflexivity).
      pose proof (hcall_works _ _ _ _ W C3) as H3. set (s3 := HSt _ _) in H3. exists s3. split.
      + erewrite hbind_step; [reflexivity|]. rewrite (hbind_step _ _ _ _ _ H1), (hbind_step _ _ _ _ _ H2). exact H3.
      + split; [eapply dir_node; [unfold s3; cbn [hs_fs]; apply fset_eq|reflexivity]|].
        assert (NK : ssh_dir home ++ [txt "authorized_keys"] <> ssh_dir home) by (apply key_file_under). unfold s3, s2, s1. cbn [hs_fs]. rewrite !fset_ne by exact NK. reflexivity. }
  destruct KP as (s2 & KP & D2 & K2). rewrite (hbind_step _ _ _ _ _ KP). cbv beta iota. set (p := key_file None home) in *.
  assert (NP : p <> []) by (unfold p, key_file; destruct (ssh_dir home); discriminate).
  assert (RL : removelast p = ssh_dir home) by apply removelast_snoc.
  assert (KD : is_dir (hs_fs s2) p = false). { unfold is_dir. destruct p as [|p1 p2] eqn:Q; [congruence|]. rewrite K2. destruct KF as [N|[t R]]; [rewrite N; reflexivity|]. apply read_text_node in R. destruct R as (n & F & ND & _). rewrite F, ND. reflexivity. }
  assert (RD : exists t, (if exists_at (hs_fs s2) p then read_text (hs_fs s2) p else Ok []) = Ok t).
  { unfold exists_at. unfold read_text in *. rewrite K2. destruct p as [|p1 p2] eqn:Q; [congruence|]. destruct KF as [N|[t R]]; [rewrite N; eauto|]. destruct (hs_fs s (p1 :: p2)); [eauto|discriminate]. }
  destruct RD as [t RD]. rewrite (hbind_step _ _ _ s2 t) by (unfold hread; rewrite RD; reflexivity).
  assert (C1 : exists fs, call (bx_umask b) (hs_fs s2) (HCreate p) = Some fs). { cbn [call]. rewrite KD, RL. destruct (hs_fs s2 p); [eauto|]. rewrite D2. eauto. }
  destruct C1 as [f1 C1]. rewrite (hbind_step _ _ _ _ _ (hcall_works _ _ _ _ W C1)). destruct (create_gives _ _ _ _ C1) as (m0 & u & g & F1 & _).
  match goal with |- context [HAppend p ?d] => assert (C2 : exists fs, call (bx_umask b) f1 (HAppend p d) = Some fs) by (cbn [call]; rewrite (not_dir _ _ _ _ F1 eq_refl NP), F1; eauto) end.
  destruct C2 as [f2 C2]. rewrite (hbind_step _ _ _ _ _ (hcall_works _ _ (HSt f1 _) f2 W C2)). pose proof (append_gives _ _ _ _ _ _ _ _ _ C2 F1) as F2.
  assert (C3 : exists fs, call (bx_umask b) f2 (HMode p 384) = Some fs) by (cbn [call]; rewrite F2; eauto).
  destruct C3 as [f3 C3]. rewrite (hbind_step _ _ _ _ _ (hcall_works _ _ (HSt f2 _) f3 W C3)). pose proof (mode_gives _ _ _ _ _ _ _ _ _ C3 F2) as F3.
  assert (C4 : exists fs, call (bx_umask b) f3 (HOwner p uid gid) = Some fs) by (cbn [call]; rewrite F3; eauto). destruct C4 as [f4 C4].
  eexists. split; [apply (hcall_works _ _ (HSt f3 _) f4 W C4)|]. cbn [hs_fs].
  assert (NS : ssh_dir home <> p) by (intros X; symmetry in X; exact (key_file_under home X)).
  assert (EQ : f4 (ssh_dir home) = hs_fs s2 (ssh_dir home)).
  { rewrite (call_else _ _ _ _ (ssh_dir home) C4), (call_else _ _ _ _ (ssh_dir home) C3), (call_else _ _ _ _ (ssh_dir home) C2), (call_else _ _ _ _ (ssh_dir home) C1) by (cbn [at_path]; congruence). reflexivity. }
  unfold is_dir in *. destruct (ssh_dir home); [reflexivity|]. rewrite EQ. exact D2.
Qed.

(** *** Programs that are started *)
Lemma starts_with_spec p : forall s, starts_with p s = true <-> exists r, s = p ++ r.
Proof.
  induction p as [|x p IH]; intros [|y s]; cbn [starts_with].
  - split; [exists []; reflexivity|reflexivity].
  - split; [exists (y :: s); reflexivity|reflexivity].
  - split; [discriminate|intros [r E]; discriminate].
  - rewrite andb_true_iff, IH, N.eqb_eq. split; [intros [-> [r ->]]; exists r; reflexivity|intros [r E]; inversion E; subst; split; [reflexivity|eauto]].
Qed.
Lemma hashed_spec pw : is_password_encrypted pw = true <-> hashed pw.
Proof.
  unfold is_password_encrypted, hashed. rewrite !orb_true_iff, !starts_with_spec. split.
  - intros [[[r E]|[r E]]|[r E]]; exists r; auto.
  - intros [r [E|[E|E]]]; [left; left|left; right|right]; eauto.
Qed.
Lemma trim_end_spec s : exists space, s = trim_end s ++ space /\ Forall (fun x => is_space x = true) space.
Proof.
  induction s as [|x r IH]; [exists []; split; [reflexivity|constructor]|]. destruct IH as (sp & E & F). cbn [trim_end]. destruct (trim_end r) as [|y t] eqn:T.
  - cbn [app] in E. subst r. destruct (is_space x) eqn:S; [exists (x :: sp)|exists sp]; split; try reflexivity; auto.
  - exists sp. split; [rewrite E at 1; reflexivity|exact F].
Qed.
Lemma trim_end_trimmed s : trimmed (trim_end s).
Proof.
  induction s as [|x r IH]; [intros [|? ?] y E; discriminate|]. cbn [trim_end]. destruct (trim_end r) as [|h t] eqn:T.
  - destruct (is_space x) eqn:S; intros [|z a] y E; try discriminate; cbn in E; inversion E; subst; [exact S|]. destruct a; discriminate.
  - intros [|z a] y E; cbn [app] in E; [discriminate E|]. inversion E; subst. eapply IH. eassumption.
Qed.
Lemma hcmd_ok b c args i s s' r : hcmd b c args i s = (s', Ok r) -> bx_cmd b (hs_log s ++ [HCmd c args i]) (hs_fs s) = (hs_fs s', Some r) /\ hs_log s' = hs_log s ++ [HCmd c args i].
Proof. unfold hcmd. destruct (bx_cmd b _ _) as [fs [x|]]; intros H; inversion H; subst; auto. Qed.
Lemma hcmd_log b c args i s : hs_log (fst (hcmd b c args i s)) = hs_log s ++ [HCmd c args i].
Proof. unfold hcmd. destruct (bx_cmd b _ _) as [fs [x|]]; reflexivity. Qed.

(** *** All keys of an account *)
Definition no_break (key : str) : Prop := forallb is_scalar key = true /\ ~ In LF key.
(** The place where keys of the account go is usable. *)
Definition place (fs : fsys) (home : str) : Prop :=
  (is_dir fs (ssh_dir home) = true \/ (fs (ssh_dir home) = None /\ is_dir fs (resolve home) = true)) /\
  (fs (key_file None home) = None \/ (exists t, read_text fs (key_file None home) = Ok t)).
Lemma key_step b user key s uid gid home : working b -> account (hs_fs s) user uid gid home -> place (hs_fs s) home -> no_break key ->
  exists s', install_ssh_key b None user key s = (s', Ok tt) /\ place (hs_fs s') home /\ authorised (hs_fs s') (key_file None home) key /\
    (forall k, authorised (hs_fs s) (key_file None home) k -> authorised (hs_fs s') (key_file None home) k) /\
    (forall q, q <> key_file None home -> q <> ssh_dir home -> hs_fs s' q = hs_fs s q) /\
    exists d, hs_fs s' (key_file None home) = Some (Node (Some d) 384 uid gid).
Proof.
  intros W A [SD KF] [SK NK]. destruct (install_works b user key s uid gid home W A SD KF) as (s' & H & D). exists s'. split; [exact H|].
  destruct (install_ok _ _ _ _ _ _ SK H) as (u & g & h & t & A2 & T & ST & F & O). pose proof (account_reads _ _ _ _ _ A) as G. pose proof (account_reads _ _ _ _ _ A2) as G2. rewrite G in G2. inversion G2; subst u g h.
  assert (R : read_text (hs_fs s') (key_file None home) = Ok (t ++ KEYS_HEAD ++ key ++ KEYS_TAIL)). { apply read_text_node. eexists. split; [exact F|]. split; [reflexivity|]. apply scalars_block; assumption. }
  split; [split; [left; exact D|right; eauto]|]. split; [exists (t ++ KEYS_HEAD ++ key ++ KEYS_TAIL); split; [exact R|apply has_line_new; exact NK]|]. split.
  - intros k (t' & R' & L). destruct T as [T|[T _]].
    + rewrite T in R'. inversion R'; subst. eexists. split; [exact R|]. apply has_line_before. exact L.
    + unfold read_text in R'. rewrite T in R'. discriminate.
  - split; [|eauto]. intros q N1 N2. destruct (O q N1) as [E|(_ & E & _)]; [exact E|congruence].
Qed.
Lemma keys_in b disk user uid gid home : working b -> forall ks s, account (hs_fs s) user uid gid home -> place (hs_fs s) home -> Forall no_break ks ->
  exists s', host_effects b None disk (map (EKey user) ks) s = (s', map (fun _ => Fine) ks) /\
    (forall k, In k ks -> authorised (hs_fs s') (key_file None home) k) /\
    (forall k, authorised (hs_fs s) (key_file None home) k -> authorised (hs_fs s') (key_file None home) k) /\
    (forall q, q <> key_file None home -> q <> ssh_dir home -> hs_fs s' q = hs_fs s q) /\
    (ks <> [] -> exists d, hs_fs s' (key_file None home) = Some (Node (Some d) 384 uid gid)).
Proof.
  intros W. induction ks as [|k ks IH]; intros s A P F; cbn [map host_effects].
  - exists s. split; [reflexivity|]. split; [intros k []|]. split; [auto|]. split; [auto|]. congruence.
  - inversion F as [|? ? NB F']; subst. destruct (key_step b user k s uid gid home W A P NB) as (s1 & E & P1 & K1 & O1 & Q1 & D1). cbn [host_effect]. rewrite E. cbn [answer_of].
    assert (A1 : account (hs_fs s1) user uid gid home). { eapply account_same; [|exact A]. apply Q1; intros X; symmetry in X; [exact (key_file_passwd home X)|exact (ssh_dir_passwd home X)]. }
    destruct (IH s1 A1 P1 F') as (s2 & E2 & K2 & O2 & Q2 & D2). rewrite E2. exists s2. split; [reflexivity|]. split; [intros x [<-|I]; auto|]. split; [auto|]. split; [intros q N1 N2; rewrite Q2, Q1 by assumption; reflexivity|].
    intros _. destruct ks as [|k2 ks]; [cbn in E2; inversion E2; subst; exact D1|]. apply D2. discriminate.
Qed.
Lemma host_effects_app b env disk l1 l2 s s1 a1 : host_effects b env disk l1 s = (s1, a1) -> host_effects b env disk (l1 ++ l2) s = (let '(s2, a2) := host_effects b env disk l2 s1 in (s2, a1 ++ a2)).
Proof.
  revert s a1. induction l1 as [|e l1 IH]; intros s a1; cbn [app host_effects]; [intros H; inversion H; subst; destruct (host_effects b env disk l2 s1); reflexivity|].
  destruct (host_effect b env disk e s) as [s0 a]. destruct (host_effects b env disk l1 s0) as [s3 a3] eqn:E. intros H. inversion H; subst. rewrite (IH _ _ E). destruct (host_effects b env disk l2 s1). reflexivity.
Qed.
(** *** Making the account *)
Lemma made b user home homes args s : useradd_works user home homes b -> no_account (hs_fs s) user ->
  exists s' r uid gid, hcmd b (txt "useradd") (args ++ [user]) [] s = (s', Ok r) /\ succeeded r = true /\ account (hs_fs s') user uid gid home /\
    (forall u i g h, account (hs_fs s) u i g h -> account (hs_fs s') u i g h) /\ (forall q, q <> PASSWD -> q <> resolve home -> hs_fs s' q = hs_fs s q) /\
    (In (txt "-m") args \/ homes = true -> hs_fs s (resolve home) = None -> is_dir (hs_fs s') (resolve home) = true).
Proof.
  intros U N. destruct (U (hs_log s) args (hs_fs s) N) as (fs' & out & err & uid & gid & E & A & O & Q & D). unfold hcmd. rewrite E. eexists _, _, uid, gid. split; [reflexivity|]. auto.
Qed.
