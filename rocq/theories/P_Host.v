(** C70 to C74: what onboarding leaves on the machine: files, accounts, SSH keys. *)
From Verif Require Import Base BaseFacts Text CborModel ValueModel ValueProofs SiModel DevSiModel SiSpec SiApiModel SiApiSpec HostModel HostSpec HostProofs HostProofs2.
From Coq Require Import ZifyBool ZifyNat ZifyN.
Local Open Scope N_scope.

(** ** C70 Files *)
(** Success: the file is there, with these contents and this mode. *)
Theorem C70_deployed b p data m s s' : put_file b p data m s = (s', Ok tt) -> file_at (hs_fs s') p data m.
Proof. apply put_file_ok. Qed.
(** Whatever fails, and wherever the machine stops: nothing else changes, except for missing directories on the way. *)
Theorem C70_nothing_else b p data m s : p <> [] -> only p (hs_fs s) (hs_fs (fst (put_file b p data m s))) /\ forall w, snd (put_file b p data m s) <> Panic w.
Proof.
  intros NP. split; [apply put_file_only; exact NP|]. assert (B : forall A B0 (x : hm A) (f : A -> hm B0), (forall s w, snd (x s) <> Panic w) -> (forall a s w, snd (f a s) <> Panic w) -> forall s w, snd (hbind x f s) <> Panic w).
  { intros A B0 x f X F st w. unfold hbind. specialize (X st w). destruct (x st) as [s1 [a|e|v]]; cbn [snd] in *; [apply F|discriminate|congruence]. }
  assert (HC : forall o s w, snd (hcall b o s) <> Panic w) by (intros o st w; destruct (hcall_no_panic b o st) as [s' [E|E]]; rewrite E; discriminate).
  assert (MK : forall todo d s w, snd (mkdirs b d todo s) <> Panic w).
  { induction todo as [|x r IH]; intros d; cbn [mkdirs]; [intros; discriminate|]. apply B; [|intros _; apply IH]. intros st w. destruct (is_dir (hs_fs st) (d ++ [x])); [discriminate|apply HC]. }
  unfold put_file. apply B; [apply MK|]. intros _. apply B; [apply HC|]. intros _. apply B; [apply HC|]. intros _. apply B; [apply HC|]. intros _. apply HC.
Qed.
(** After an attempt that failed or was interrupted anywhere, another one on a machine that works puts the file in place. *)
Theorem C70_repeat b b2 p data m data2 m2 s : way_clear (hs_fs s) p -> working b2 ->
  let s1 := fst (put_file b p data m s) in
  exists s2, put_file b2 p data2 m2 s1 = (s2, Ok tt) /\ file_at (hs_fs s2) p data2 m2 /\ only p (hs_fs s) (hs_fs s2).
Proof.
  intros CL W s1. pose proof CL as (NP & D & _).
  assert (O1 : only p (hs_fs s) (hs_fs s1)) by (apply put_file_only; exact NP).
  assert (CL1 : way_clear (hs_fs s1) p) by (eapply clear_only; [exact CL|exact O1|apply put_file_kind; assumption]).
  destruct (put_file_works b2 p data2 m2 s1 W CL1) as [s2 E]. exists s2. split; [exact E|]. split; [eapply put_file_ok; exact E|].
  eapply only_trans; [exact O1|]. replace s2 with (fst (put_file b2 p data2 m2 s1)) by (rewrite E; reflexivity). apply put_file_only. exact NP.
Qed.
(** All files of a configuration: if every one was answered to be in place, they all are at the end. *)
Theorem C70_all_files b env disk fs s s' : NoDup (map (fun f => resolve (fst (fst f))) fs) -> (forall f, In f fs -> resolve (fst (fst f)) <> []) ->
  host_effects b env disk (map (fun f => EWrite (fst (fst f)) (snd (fst f)) (snd f)) fs) s = (s', map (fun _ => Fine) fs) ->
  forall path data mode, In (path, data, mode) fs -> file_at (hs_fs s') (resolve path) data mode.
Proof.
  revert s. induction fs as [|[[p0 d0] m0] fs IH]; intros s ND NE; cbn [map host_effects fst snd host_effect]; [intros _ p d m []|].
  destruct (put_file b (resolve p0) d0 m0 s) as [s1 r1] eqn:P0. destruct (host_effects b env disk (map _ fs) s1) as [s2 l2] eqn:H. intros E. inversion E as [[E1 E2 E3]]. subst s2. rewrite E3 in H.
  destruct r1 as [[]|e|w]; try discriminate E2. inversion ND as [|? ? NI ND']; subst. intros p d m [I|I].
  - inversion I; subst p d m. clear I. pose proof (put_file_ok _ _ _ _ _ _ P0) as F.
    assert (K : forall fs s s' l, (forall f, In f fs -> resolve (fst (fst f)) <> [] /\ resolve (fst (fst f)) <> resolve p0) ->
      host_effects b env disk (map (fun f : str * bytes * N => EWrite (fst (fst f)) (snd (fst f)) (snd f)) fs) s = (s', l) -> file_at (hs_fs s) (resolve p0) d0 m0 -> file_at (hs_fs s') (resolve p0) d0 m0).
    { clear. induction fs as [|[[p1 d1] m1] fs IH]; intros s s' l A; cbn [map host_effects fst snd host_effect]; [intros E; inversion E; auto|].
      destruct (put_file b (resolve p1) d1 m1 s) as [s1 r1] eqn:P1. destruct (host_effects b env disk (map _ fs) s1) as [s2 l2] eqn:H. intros E F. inversion E; subst. eapply IH; [intros f I; apply A; right; exact I|exact H|].
      destruct (A _ (or_introl eq_refl)) as [N1 N2]. cbn [fst] in N1, N2. assert (O : only (resolve p1) (hs_fs s) (hs_fs s1)) by (replace s1 with (fst (put_file b (resolve p1) d1 m1 s)) by (rewrite P1; reflexivity); apply put_file_only; exact N1).
      destruct F as (u & g & F). destruct (O (resolve p0)) as [X|(_ & X & _)]; [congruence|exists u, g; congruence|congruence]. }
    eapply K; [|exact H|exact F]. intros f I. split; [apply NE; right; exact I|]. cbn [fst] in NI. intros X. apply NI. rewrite <- X. apply in_map with (f := fun f : str * bytes * N => resolve (fst (fst f))). exact I.
  - eapply IH; [exact ND'|intros f I'; apply NE; right; exact I'|exact H|exact I].
Qed.

(** ** C71 Contents are not readable more widely than configured *)
(** Statement: at whatever point the machine stops, what is in the file is under a mode within the configured one. *)
Definition C71_statement : Prop := forall b p data m s n d, p <> [] -> hs_fs s p = None ->
  hs_fs (fst (put_file b p data m s)) p = Some n -> nd_data n = Some d -> d <> [] -> within (nd_mode n) m.
(** A new file: the mode is within the configured one if all the process's umask lets through is. *)
Theorem C71_umask_partial b p data m s n d : p <> [] -> hs_fs s p = None -> within (N.ldiff 438 (bx_umask b)) m ->
  hs_fs (fst (put_file b p data m s)) p = Some n -> nd_data n = Some d -> within (nd_mode n) m.
Proof.
  intros NP F0 UM. set (R := fun s s' : hstate => (forall n, hs_fs s p = Some n -> nd_data n <> None -> within (nd_mode n) m) -> forall n, hs_fs s' p = Some n -> nd_data n <> None -> within (nd_mode n) m).
  assert (RT : forall s1 s2 s3, R s1 s2 -> R s2 s3 -> R s1 s3) by (unfold R; intros s1 s2 s3 A B H; apply B; apply A; exact H).
  assert (ST : forall fs o fs', call (bx_umask b) fs o = Some fs' -> (forall x, o <> HMode p x \/ x = m) -> (forall n, fs p = Some n -> nd_data n <> None -> within (nd_mode n) m) -> forall n, fs' p = Some n -> nd_data n <> None -> within (nd_mode n) m).
  { intros fs o fs' C HM H x E D. destruct (list_eq_dec (list_eq_dec N.eq_dec) (match at_path o with Some q => q | None => [] end) p) as [EQ|NQ].
    2: { apply H; [|exact D]. rewrite <- E. symmetry. eapply call_else; [exact C|]. intros X. rewrite X in NQ. congruence. }
    destruct o; cbn [at_path] in EQ; subst; try congruence; cbn [call] in C.
    - destruct (exists_at fs p); [discriminate|]. destruct (is_dir fs (removelast p)); inversion C; subst. rewrite fset_eq in E. inversion E; subst. cbn in D. congruence.
    - destruct (is_dir fs p) eqn:DP; [discriminate|]. destruct (fs p) as [n0|] eqn:FP.
      + inversion C; subst. rewrite fset_eq in E. inversion E; subst. cbn. apply H; [reflexivity|]. unfold is_dir in DP. destruct p; [congruence|]. rewrite FP in DP. destruct (nd_data n0); congruence.
      + destruct (is_dir fs (removelast p)); inversion C; subst. rewrite fset_eq in E. inversion E; subst. exact UM.
    - destruct (is_dir fs p); [discriminate|]. destruct (fs p) as [n0|] eqn:FP; [|discriminate]. inversion C; subst. unfold append in E. rewrite FP in E. destruct (nd_data n0) eqn:DN; [rewrite fset_eq in E; inversion E; subst; cbn; apply H; congruence|apply H; congruence].
    - destruct (HM m0) as [X| ->]; [congruence|]. destruct (fs p); inversion C; subst. rewrite fset_eq in E. inversion E; subst. cbn. unfold within. apply N.ldiff_diag.
    - destruct (fs p) as [n0|] eqn:FP; inversion C; subst. rewrite fset_eq in E. inversion E; subst. cbn in *. apply H; [reflexivity|exact D].
    - exfalso. apply NP. reflexivity.
    - exfalso. apply NP. reflexivity. }
  assert (HC : forall o, (forall x, o <> HMode p x \/ x = m) -> always R (hcall b o)).
  { intros o HM s0 H n0 E D. unfold hcall in E. destruct (bx_io b (hs_log s0 ++ [o])).
    - destruct (call (bx_umask b) (hs_fs s0) o) eqn:C; cbn [fst hs_fs] in E; [eapply ST; eassumption|apply H; assumption].
    - cbn [fst hs_fs] in E. destruct o; try (apply H; assumption). unfold append in E. destruct (hs_fs s0 p0) as [nd|] eqn:FP; [|apply H; assumption]. destruct (nd_data nd) as [d0|] eqn:DN; [|apply H; assumption].
      destruct (list_eq_dec (list_eq_dec N.eq_dec) p p0) as [->|NQ]; [rewrite fset_eq in E; inversion E; subst; cbn; apply H; [exact FP|congruence]|rewrite fset_ne in E by exact NQ; apply H; assumption]. }
  assert (AL : always R (put_file b p data m)).
  { unfold put_file. apply always_bind; [exact RT| |].
    - assert (G : forall todo d, always R (mkdirs b d todo)).
      { induction todo as [|y r IH]; intros d0; cbn [mkdirs]; [intros st H; exact H|]. apply always_bind; [exact RT| |intros _; apply IH]. intros st. destruct (is_dir (hs_fs st) (d0 ++ [y])); [intros H; exact H|apply HC; intros x; left; discriminate]. }
      apply G.
    - intros _. apply always_bind; [exact RT|apply HC; intros x; left; discriminate|]. intros _. apply always_bind; [exact RT|apply HC; intros x; left; discriminate|]. intros _.
      apply always_bind; [exact RT|apply HC; intros x; destruct (N.eq_dec x m) as [->|NE]; [right; reflexivity|left; congruence]|]. intros _. apply HC. intros x. left. discriminate. }
  intros E D. apply (AL s); [intros x X; congruence|exact E|congruence].
Qed.
(** The file is made with what the umask lets through, written, and only then given its mode: a machine that stops before
    leaves a secret, configured to be root's alone, for everybody to read. *)
Definition secret : path := [txt "etc"; txt "secret"].
Definition etc : fsys := fset (fun _ => None) [txt "etc"] (Node None 493 0 0).
Definition stops_at (o : hop -> bool) : box :=
  Box 18 (fun l => match rev l with x :: _ => if o x then CutShort 0 else Works | [] => Works end) (fun _ fs => (fs, None)).
Definition is_chmod (o : hop) : bool := match o with HMode _ _ => true | _ => false end.
Theorem C71_refuted : ~ C71_statement.
Proof.
  intros H. specialize (H (stops_at is_chmod) secret [1; 2; 3] 384 (HSt etc []) (Node (Some [1; 2; 3]) 420 0 0) [1; 2; 3] ltac:(discriminate) eq_refl).
  assert (X : within 420 384) by (apply H; [vm_compute; reflexivity|reflexivity|discriminate]). vm_compute in X. discriminate.
Qed.

(** ** C72 Accounts *)
(** An account that is there is left alone: nothing is run or written. *)
Theorem C72_existing b user pw s uid gid home : account (hs_fs s) user uid gid home ->
  create_user b user s = (s, Ok tt) /\ create_user_with_password b user pw s = (s, Ok tt).
Proof. intros A. unfold create_user, create_user_with_password. apply account_present in A. rewrite !(hbind_step _ _ _ s true) by (unfold hread; rewrite A; reflexivity). auto. Qed.
(** What is run for an account with a password, and nothing else: the password goes to the standard input of openssl, and
    what useradd gets as an argument is a hash. *)
Theorem C72_commands b user pw s :
  let s' := fst (create_user_with_password b user pw s) in exists l, hs_log s' = hs_log s ++ l /\
  (l = [] \/ (~ hashed pw /\ l = [run_openssl pw]) \/ (hashed pw /\ l = [run_useradd user pw]) \/
   (~ hashed pw /\ exists h space code err log fs fs', l = [run_openssl pw; run_useradd user h] /\
      bx_cmd b (log ++ [run_openssl pw]) fs = (fs', Some (code, utf8_enc (h ++ space), err)) /\ trimmed h /\ Forall (fun x => is_space x = true) space)).
Proof.
  cbv zeta. unfold create_user_with_password, hbind at 1, hread at 1. destruct (is_user_in_passwd user (hs_fs s)) as [[]|e|w]; cbn [fst hret hs_log].
  - exists []. rewrite app_nil_r. auto.
  - unfold hash_password. destruct (is_password_encrypted pw) eqn:HP.
    + exists [run_useradd user pw]. apply hashed_spec in HP. split; [|auto]. unfold hbind, hret. pose proof (hcmd_log b (txt "useradd") [txt "-p"; pw; user] [] s) as L. destruct (hcmd b _ _ _ s) as [s1 [r|e|w]]; cbn [fst] in *; try exact L. destruct (succeeded r); exact L.
    + assert (NH : ~ hashed pw) by (intros X; apply hashed_spec in X; congruence). unfold hbind at 1 2. pose proof (hcmd_log b (txt "openssl") [txt "passwd"; txt "-6"; txt "-stdin"] (utf8_enc pw) s) as L.
      destruct (hcmd b (txt "openssl") _ _ s) as [s1 [[[code out] err]|e|w]] eqn:C; cbn [fst] in *; try (exists [run_openssl pw]; split; [exact L|auto]).
      apply hcmd_ok in C. destruct C as [C _]. unfold hread. destruct (utf8_dec out) as [t|] eqn:U; cbn [unwrap bind]; [|exists [run_openssl pw]; split; [exact L|auto]].
      destruct (trim_end_spec t) as (sp & T & F). apply utf8_dec_enc in U. destruct U as [U _]. exists [run_openssl pw; run_useradd user (trim_end t)]. split.
      * change [run_openssl pw; run_useradd user (trim_end t)] with ([run_openssl pw] ++ [run_useradd user (trim_end t)]). rewrite app_assoc. unfold run_openssl, run_useradd. rewrite <- L.
        pose proof (hcmd_log b (txt "useradd") [txt "-p"; trim_end t; user] [] s1) as L2. unfold hbind. destruct (hcmd b _ _ _ s1) as [s2 [r|e|w]]; cbn [fst] in *; try exact L2. destruct (succeeded r); exact L2.
      * right. right. right. split; [exact NH|]. exists (trim_end t), sp, code, err, (hs_log s), (hs_fs s), (hs_fs s1). split; [reflexivity|]. split; [rewrite <- T, U; exact C|]. split; [apply trim_end_trimmed|exact F].
  - exists []. rewrite app_nil_r. auto.
  - exists []. rewrite app_nil_r. auto.
Qed.
(** Success: the account was there, or useradd was run last and said that it worked. *)
Theorem C72_made b user pw s s' : (create_user b user s = (s', Ok tt) -> (s' = s /\ is_user_in_passwd user (hs_fs s) = Ok true) \/
    (no_account (hs_fs s) user /\ exists out err, bx_cmd b (hs_log s ++ [HCmd (txt "useradd") [txt "-m"; user] []]) (hs_fs s) = (hs_fs s', Some (Some 0%Z, out, err)))) /\
  (create_user_with_password b user pw s = (s', Ok tt) -> (s' = s /\ is_user_in_passwd user (hs_fs s) = Ok true) \/
    (no_account (hs_fs s) user /\ exists log h fs out err, hs_log s' = log ++ [run_useradd user h] /\ bx_cmd b (hs_log s') fs = (hs_fs s', Some (Some 0%Z, out, err)))).
Proof.
  assert (SU : forall r : option Z * bytes * bytes, succeeded r = true -> exists out err, r = (Some 0%Z, out, err)). { intros [[[[]|] o] e]; cbn; try discriminate. eauto. }
  split; intros H; apply hbind_ok in H; destruct H as (s0 & [] & R & H); unfold hread in R; assert (s0 = s) by congruence; subst s0.
  - left. unfold hret in H. split; congruence.
  - right. split; [apply no_account_absent; congruence|]. apply hbind_ok in H. destruct H as (s1 & r & C & H). apply hcmd_ok in C. destruct C as [C _]. destruct (succeeded r) eqn:E; [|discriminate H]. assert (s1 = s') by (unfold hret in H; congruence). subst s1.
    destruct (SU r E) as (out & err & ->). eauto.
  - left. unfold hret in H. split; congruence.
  - right. split; [apply no_account_absent; congruence|]. apply hbind_ok in H. destruct H as (s2 & h & _ & H). apply hbind_ok in H. destruct H as (s1 & r & C & H). apply hcmd_ok in C. destruct C as [C L]. destruct (succeeded r) eqn:E; [|discriminate H]. assert (s1 = s') by (unfold hret in H; congruence). subst s1.
    destruct (SU r E) as (out & err & ->). exists (hs_log s2), h, (hs_fs s2), out, err. split; [exact L|]. rewrite L. exact C.
Qed.
(** Statement: an account made has the configured password: its hash, as given or as openssl, having succeeded, printed it. *)
Definition C72_statement : Prop := forall b user pw s s', no_account (hs_fs s) user -> create_user_with_password b user pw s = (s', Ok tt) ->
  exists h, In (run_useradd user h) (hs_log s') /\ ((hashed pw /\ h = pw) \/ hash_printed b pw h).
(** It holds where openssl does not fail. *)
Theorem C72_password_partial b user pw s s' : (forall log fs fs' code out err, bx_cmd b (log ++ [run_openssl pw]) fs = (fs', Some (code, out, err)) -> code = Some 0%Z) ->
  no_account (hs_fs s) user -> create_user_with_password b user pw s = (s', Ok tt) ->
  exists h, In (run_useradd user h) (hs_log s') /\ ((hashed pw /\ h = pw) \/ hash_printed b pw h).
Proof.
  intros OS NA H. unfold create_user_with_password in H. apply no_account_absent in NA. rewrite (hbind_step _ _ _ s false) in H by (unfold hread; rewrite NA; reflexivity).
  apply hbind_ok in H. destruct H as (s1 & h & HP & H). apply hbind_ok in H. destruct H as (s2 & r & C & H). apply hcmd_ok in C. destruct C as [_ C].
  assert (s2 = s') by (destruct (succeeded r); unfold hret, hfail in H; congruence). subst s2. exists h. split; [rewrite C; apply in_or_app; right; left; reflexivity|].
  unfold hash_password in HP. destruct (is_password_encrypted pw) eqn:E; [left; apply hashed_spec in E; unfold hret in HP; split; [exact E|congruence]|right].
  apply hbind_ok in HP. destruct HP as (s3 & [[code out] err] & C1 & HP). apply hcmd_ok in C1. destruct C1 as [C1 _]. pose proof (OS _ _ _ _ _ _ C1) as ->. unfold hread in HP. destruct (utf8_dec out) as [t|] eqn:U; cbn [unwrap bind] in HP; [|discriminate].
  assert (HT : h = trim_end t) by congruence. destruct (trim_end_spec t) as (sp & T & F). apply utf8_dec_enc in U. destruct U as [U _]. exists (hs_log s), (hs_fs s), (hs_fs s3), sp, err. rewrite HT. split; [rewrite <- T, U; exact C1|]. split; [apply trim_end_trimmed|exact F].
Qed.
(** openssl's exit status is not looked at: where it fails without printing anything, the account is made with the empty
    hash, that is without a password, and onboarding goes on. *)
Definition passwd_text : str := txt "root:x:0:0:root:/root:/bin/bash" ++ [LF].
Definition plain_fs : fsys := fset (fset etc PASSWD (Node (Some (utf8_enc passwd_text)) 420 0 0)) [txt "home"] (Node None 493 0 0).
Definition is_cmd (c : str) (o : hop) : bool := match o with HCmd x _ _ => bytes_eqb x c | _ => false end.
Definition no_openssl : box :=
  Box 18 (fun _ => Works) (fun l fs => match rev l with o :: _ => if is_cmd (txt "openssl") o then (fs, Some (Some 127%Z, [], [])) else (fs, Some (Some 0%Z, [], [])) | [] => (fs, None) end).
Theorem C72_refuted : ~ C72_statement.
Proof.
  intros H. destruct (H no_openssl (txt "admin") (txt "secret") (HSt plain_fs []) (HSt plain_fs [run_openssl (txt "secret"); run_useradd (txt "admin") []])) as (h & I & X).
  - apply no_account_absent. vm_compute. reflexivity.
  - reflexivity.
  - destruct X as [[X _]|(log & fs & fs' & sp & err & C & _)].
    + apply hashed_spec in X. vm_compute in X. discriminate.
    + cbn [no_openssl bx_cmd] in C. rewrite rev_app_distr in C. cbn [rev app] in C. inversion C.
Qed.

(** ** C73 SSH keys *)
(** Success: the key is authorised, all that were authorised still are, the file is its user's alone, and only the directory
    for it may be new. *)
Theorem C73_installed b env user key s s' : forallb is_scalar key = true -> ~ In LF key -> install_ssh_key b env user key s = (s', Ok tt) ->
  exists uid gid home, account (hs_fs s) user uid gid home /\
    authorised (hs_fs s') (key_file env home) key /\ (forall k, authorised (hs_fs s) (key_file env home) k -> authorised (hs_fs s') (key_file env home) k) /\
    (exists d, hs_fs s' (key_file env home) = Some (Node (Some d) 384 uid gid)) /\
    forall q, q <> key_file env home -> hs_fs s' q = hs_fs s q \/ env = None /\ q = ssh_dir home /\ hs_fs s q = None /\ hs_fs s' q = Some (Node None 448 uid gid).
Proof.
  intros SK NK H. destruct (install_ok _ _ _ _ _ _ SK H) as (uid & gid & home & t & A & T & ST & F & O). exists uid, gid, home. split; [exact A|].
  assert (R : read_text (hs_fs s') (key_file env home) = Ok (t ++ KEYS_HEAD ++ key ++ KEYS_TAIL)). { apply read_text_node. eexists. split; [exact F|]. split; [reflexivity|]. apply scalars_block; assumption. }
  split; [eexists; split; [exact R|apply has_line_new; exact NK]|]. split; [|split; [eauto|exact O]].
  intros k (t' & R' & L). destruct T as [T|[T _]].
  - rewrite T in R'. inversion R'; subst. eexists. split; [exact R|]. apply has_line_before. exact L.
  - unfold read_text in R'. rewrite T in R'. discriminate.
Qed.
(** Statement: keys that were authorised stay so, whatever fails. *)
Definition C73_kept_statement : Prop := forall b env user key s uid gid home k, account (hs_fs s) user uid gid home ->
  authorised (hs_fs s) (key_file env home) k -> authorised (hs_fs (fst (install_ssh_key b env user key s))) (key_file env home) k.
(** The file is emptied before it is written: a machine that stops in between, or whose disk is full, has lost them. *)
Definition admin_fs : fsys :=
  fset (fset (fset (fset plain_fs PASSWD (Node (Some (utf8_enc (txt "admin:x:1000:1000::/home/admin:/bin/bash" ++ [LF]))) 420 0 0)) [txt "home"; txt "admin"] (Node None 448 1000 1000))
    [txt "home"; txt "admin"; txt ".ssh"] (Node None 448 1000 1000)) [txt "home"; txt "admin"; txt ".ssh"; txt "authorized_keys"] (Node (Some (utf8_enc (txt "ssh-rsa A"))) 384 1000 1000).
Definition is_append (o : hop) : bool := match o with HAppend _ _ => true | _ => false end.
Lemma admin_account : account admin_fs (txt "admin") 1000 1000 (txt "/home/admin").
Proof. apply reads_account. vm_compute. reflexivity. Qed.
Lemma admin_key : authorised admin_fs (key_file None (txt "/home/admin")) (txt "ssh-rsa A").
Proof.
  exists (txt "ssh-rsa A"). split; [vm_compute; reflexivity|]. split; [vm_compute; intuition discriminate|]. exists [], []. rewrite app_nil_r. auto.
Qed.
Theorem C73_kept_refuted : ~ C73_kept_statement.
Proof.
  intros H. specialize (H (stops_at is_append) None (txt "admin") (txt "ssh-rsa B") (HSt admin_fs []) _ _ _ _ admin_account admin_key). destruct H as (t & R & L).
  assert (E : read_text (hs_fs (fst (install_ssh_key (stops_at is_append) None (txt "admin") (txt "ssh-rsa B") (HSt admin_fs [])))) (key_file None (txt "/home/admin")) = Ok []) by (vm_compute; reflexivity).
  rewrite E in R. inversion R; subst. destruct L as (_ & a & z & L & _). symmetry in L. apply app_eq_nil in L. destruct L as [_ L]. apply app_eq_nil in L. destruct L as [L _]. discriminate L.
Qed.
(** Statement: repeated after an interruption, it gives what it gives without: a directory that is its user's. *)
Definition C73_repeat_statement : Prop := forall b b2 user key s s2 uid gid home, account (hs_fs s) user uid gid home -> hs_fs s (ssh_dir home) = None ->
  install_ssh_key b2 None user key (fst (install_ssh_key b None user key s)) = (s2, Ok tt) -> hs_fs s2 (ssh_dir home) = Some (Node None 448 uid gid).
(** The directory is given to the user only by the attempt that makes it. *)
Definition new_fs : fsys :=
  fset (fset plain_fs PASSWD (Node (Some (utf8_enc (txt "admin:x:1000:1000::/home/admin:/bin/bash" ++ [LF]))) 420 0 0)) [txt "home"; txt "admin"] (Node None 448 1000 1000).
Lemma new_account : account new_fs (txt "admin") 1000 1000 (txt "/home/admin").
Proof. apply reads_account. vm_compute. reflexivity. Qed.
Definition all_works : box := Box 18 (fun _ => Works) (fun _ fs => (fs, None)).
Theorem C73_repeat_refuted : ~ C73_repeat_statement.
Proof.
  intros H. set (s1 := fst (install_ssh_key (stops_at is_chmod) None (txt "admin") (txt "k") (HSt new_fs []))).
  destruct (install_works all_works (txt "admin") (txt "k") s1 1000 1000 (txt "/home/admin")) as (s2 & E & _).
  - intros l. reflexivity.
  - apply reads_account. vm_compute. reflexivity.
  - left. vm_compute. reflexivity.
  - left. vm_compute. reflexivity.
  - specialize (H (stops_at is_chmod) all_works (txt "admin") (txt "k") (HSt new_fs []) s2 _ _ _ new_account ltac:(vm_compute; reflexivity) E).
    assert (X : hs_fs (fst (install_ssh_key all_works None (txt "admin") (txt "k") s1)) (ssh_dir (txt "/home/admin")) = Some (Node None 493 0 0)) by (vm_compute; reflexivity).
    rewrite E in X. cbn [fst] in X. congruence.
Qed.
(** Statement: whatever /etc/passwd contains, installing a key works or ends in an error. *)
Definition C73_passwd_statement : Prop := forall b env user key s w, snd (install_ssh_key b env user key s) <> Panic w.
(** A line of the user's with fewer than six fields crashes the device's program. *)
Theorem C73_passwd_refuted : ~ C73_passwd_statement.
Proof. intros H. apply (H all_works None (txt "admin") (txt "k") (HSt (fset plain_fs PASSWD (Node (Some (txt "admin:x")) 420 0 0)) []) P_FIELD). vm_compute. reflexivity. Qed.
Theorem C73_passwd_partial b env user key s : (forall t l, read_text (hs_fs s) PASSWD = Ok t -> In l (lines t) -> (6 <= length (fields l))%nat) -> forall w, snd (install_ssh_key b env user key s) <> Panic w.
Proof.
  intros LN. assert (B : forall A B0 (x : hm A) (f : A -> hm B0) s, (forall w, snd (x s) <> Panic w) -> (forall a s w, snd (f a s) <> Panic w) -> forall w, snd (hbind x f s) <> Panic w).
  { intros A B0 x f st X F w. unfold hbind. specialize (X w). destruct (x st) as [s1 [a|e|v]]; cbn [snd] in *; [apply F|discriminate|congruence]. }
  assert (HC : forall o s w, snd (hcall b o s) <> Panic w) by (intros o st w; destruct (hcall_no_panic b o st) as [s' [E|E]]; rewrite E; discriminate).
  unfold install_ssh_key. apply B.
  - intros w. unfold hread. cbn [snd]. unfold get_user_uid_gid_home. destruct (read_text (hs_fs s) PASSWD) as [t|e|v] eqn:R; cbn [bind]; [|discriminate|].
    + destruct (find (of_user user) (lines t)) as [l|] eqn:F; [|discriminate]. apply find_some in F. destruct F as [I _]. specialize (LN t l eq_refl I). destruct (fields l) as [|f0 [|f1 [|f2 [|f3 [|f4 [|f5 fr]]]]]]; cbn [length] in LN; try lia.
      cbn. destruct (parse_u32 f2); cbn; [|discriminate]. destruct (parse_u32 f3); cbn; discriminate.
    + unfold read_text in R. destruct (hs_fs s PASSWD) as [n|]; [|discriminate]. destruct (nd_data n) as [d|]; [|discriminate]. destruct (utf8_dec d); discriminate.
  - intros [[uid gid] home] st. apply B.
    + unfold key_path. destruct env; [discriminate|]. apply B; [discriminate|]. intros [] s1; apply B; try discriminate. apply B; [apply HC|]. intros _ s2. apply B; [apply HC|]. intros _. apply HC.
    + intros p s1. apply B.
      * intros w. unfold hread. cbn [snd]. destruct (exists_at (hs_fs s1) p); [|discriminate]. unfold read_text. destruct (hs_fs s1 p) as [n|]; [|discriminate]. destruct (nd_data n) as [d|]; [|discriminate]. destruct (utf8_dec d); discriminate.
      * intros c s2. apply B; [apply HC|]. intros _ s3. apply B; [apply HC|]. intros _ s4. apply B; [apply HC|]. intros _. apply HC.
Qed.

(** ** C74 The configured user *)
(** Statement: the account is there, with its home, and every key is authorised for it; all steps worked; no other account
    and no other file changed. *)
Definition user_there (b : box) (u : inituser) (ks : list str) (home : str) (s : hstate) : Prop :=
  forall disk, exists s' uid gid, host_effects b None disk (user_made u) s = (s', map (fun _ => Fine) (user_made u)) /\ account (hs_fs s') (iu_name u) uid gid home /\
    is_dir (hs_fs s') (resolve home) = true /\ (forall k, In k ks -> authorised (hs_fs s') (key_file None home) k) /\
    (ks <> [] -> exists d, hs_fs s' (key_file None home) = Some (Node (Some d) 384 uid gid)) /\
    (forall v i g h, account (hs_fs s) v i g h -> account (hs_fs s') v i g h) /\
    (forall q, q <> PASSWD -> q <> resolve home -> q <> ssh_dir home -> q <> key_file None home -> hs_fs s' q = hs_fs s q).
Definition C74_statement : Prop := forall b u ks home homes s, working b -> openssl_works b -> useradd_works (iu_name u) home homes b ->
  no_account (hs_fs s) (iu_name u) -> hs_fs s (resolve home) = None -> hs_fs s (ssh_dir home) = None -> hs_fs s (key_file None home) = None ->
  iu_keys u = Some ks -> Forall no_break ks -> user_there b u ks home s.
(** It holds if no password is configured, or useradd makes homes unasked. *)
Theorem C74_user_partial b u ks home homes s : working b -> openssl_works b -> useradd_works (iu_name u) home homes b ->
  no_account (hs_fs s) (iu_name u) -> hs_fs s (resolve home) = None -> hs_fs s (ssh_dir home) = None -> hs_fs s (key_file None home) = None ->
  iu_keys u = Some ks -> Forall no_break ks -> iu_pw u = None \/ homes = true -> user_there b u ks home s.
Proof.
  intros W OS UA NA F1 F2 F3 K NB PW disk.
  assert (D1 : ssh_dir home <> resolve home). { unfold ssh_dir. intros X. rewrite <- app_nil_r in X. apply app_inv_head in X. discriminate. }
  assert (D2 : key_file None home <> resolve home). { unfold key_file, ssh_dir. intros X. rewrite <- app_assoc, <- app_nil_r in X. apply app_inv_head in X. discriminate. }
  assert (MK : exists s1 uid gid l, host_effects b None disk ((match iu_pw u with Some p => [ENewUserPw (iu_name u) p] | None => [] end) ++ [ENewUser (iu_name u)]) s = (s1, l) /\ Forall (eq Fine) l /\
     account (hs_fs s1) (iu_name u) uid gid home /\ is_dir (hs_fs s1) (resolve home) = true /\ (forall v i g h, account (hs_fs s) v i g h -> account (hs_fs s1) v i g h) /\
     (forall q, q <> PASSWD -> q <> resolve home -> hs_fs s1 q = hs_fs s q)).
  { pose proof NA as ABS. apply no_account_absent in ABS. destruct (iu_pw u) as [pw|].
    - destruct PW as [X| ->]; [discriminate|].
      assert (HP : exists h s0, hash_password b pw s = (s0, Ok h) /\ hs_fs s0 = hs_fs s).
      { unfold hash_password. destruct (is_password_encrypted pw); [unfold hret; eauto|]. destruct (OS (hs_log s) [txt "passwd"; txt "-6"; txt "-stdin"] (utf8_enc pw) (hs_fs s)) as (t & err & E & ST).
        unfold hbind, hcmd. rewrite E. unfold hread. rewrite utf8_roundtrip by exact ST. cbn [unwrap bind]. eauto. }
      destruct HP as (h & s0 & HP & F0). destruct (made b (iu_name u) home true [txt "-p"; h] s0 UA) as (s1 & r & uid & gid & C & SU & A & O & Q & D); [rewrite F0; exact NA|].
      exists s1, uid, gid, [Fine; Fine]. rewrite F0 in *. split; [|split; [repeat constructor|]; split; [exact A|]; split; [apply D; auto|]; split; [exact O|exact Q]].
      assert (E1 : create_user_with_password b (iu_name u) pw s = (s1, Ok tt)).
      { unfold create_user_with_password. rewrite (hbind_step _ _ _ s false) by (unfold hread; rewrite ABS; reflexivity). rewrite (hbind_step _ _ _ _ _ HP). cbn [app] in C. rewrite (hbind_step _ _ _ _ _ C), SU. reflexivity. }
      destruct (C72_existing b (iu_name u) pw s1 uid gid home A) as [E2 _]. cbn [app host_effects host_effect]. rewrite E1, E2. reflexivity.
    - destruct (made b (iu_name u) home homes [txt "-m"] s UA NA) as (s1 & r & uid & gid & C & SU & A & O & Q & D). exists s1, uid, gid, [Fine].
      split; [|split; [repeat constructor|]; split; [exact A|]; split; [apply D; [left; left; reflexivity|exact F1]|]; split; [exact O|exact Q]].
      assert (E1 : create_user b (iu_name u) s = (s1, Ok tt)). { unfold create_user. rewrite (hbind_step _ _ _ s false) by (unfold hread; rewrite ABS; reflexivity). cbn [app] in C. rewrite (hbind_step _ _ _ _ _ C), SU. reflexivity. }
      cbn [app host_effects host_effect]. rewrite E1. reflexivity. }
  destruct MK as (s1 & uid & gid & l & E1 & FL & A & HD & O & Q).
  assert (P1 : place (hs_fs s1) home). { split; [right; split; [rewrite Q; [exact F2|apply ssh_dir_passwd|exact D1]|exact HD]|left; rewrite Q; [exact F3|apply key_file_passwd|exact D2]]. }
  destruct (keys_in b disk (iu_name u) uid gid home W ks s1 A P1 NB) as (s2 & E2 & K2 & _ & Q2 & D3).
  assert (PE : hs_fs s2 PASSWD = hs_fs s1 PASSWD) by (apply Q2; intros X; symmetry in X; [exact (key_file_passwd home X)|exact (ssh_dir_passwd home X)]).
  exists s2, uid, gid. split.
  - unfold user_made. rewrite K. replace (ENewUser (iu_name u) :: map (EKey (iu_name u)) ks) with ([ENewUser (iu_name u)] ++ map (EKey (iu_name u)) ks) by reflexivity. rewrite app_assoc.
    rewrite (host_effects_app _ _ _ _ _ _ _ _ E1), E2. f_equal. rewrite (map_app _ _ (map (EKey (iu_name u)) ks)), map_map. f_equal.
    assert (LE : length l = length ((match iu_pw u with Some p => [ENewUserPw (iu_name u) p] | None => [] end) ++ [ENewUser (iu_name u)])).
    { revert E1. generalize ((match iu_pw u with Some p => [ENewUserPw (iu_name u) p] | None => [] end) ++ [ENewUser (iu_name u)]). clear. intros l0. revert s l. induction l0 as [|e l0 IH]; intros s l; cbn [host_effects]; [intros E; inversion E; reflexivity|].
      destruct (host_effect b None disk e s) as [s0 a]. destruct (host_effects b None disk l0 s0) as [s3 l3] eqn:E. intros X. inversion X; subst. cbn [length]. f_equal. eapply IH. exact E. }
    revert LE FL. generalize ((match iu_pw u with Some p => [ENewUserPw (iu_name u) p] | None => [] end) ++ [ENewUser (iu_name u)]). clear. induction l as [|a l IH]; intros [|e l0] LE FL; cbn in LE; try discriminate; [reflexivity|]. inversion FL; subst. cbn [map]. f_equal. apply IH; [congruence|assumption].
  - split; [eapply account_same; [exact PE|exact A]|]. split.
    + destruct (resolve home) eqn:RH; [reflexivity|]. rewrite <- RH in *. assert (X : hs_fs s2 (resolve home) = hs_fs s1 (resolve home)) by (apply Q2; congruence). unfold is_dir in *. rewrite RH in *. rewrite X. exact HD.
    + split; [exact K2|]. split; [exact D3|]. split; [intros v i g h AV; eapply account_same; [exact PE|apply O; exact AV]|]. intros q N1 N2 N3 N4. rewrite Q2, Q by assumption. reflexivity.
Qed.
(** An account that is there already gets the keys; its password stays. *)
Theorem C74_existing b disk u ks s uid gid home : working b -> account (hs_fs s) (iu_name u) uid gid home -> place (hs_fs s) home -> iu_keys u = Some ks -> Forall no_break ks ->
  exists s', host_effects b None disk (user_made u) s = (s', map (fun _ => Fine) (user_made u)) /\
    (forall k, In k ks -> authorised (hs_fs s') (key_file None home) k) /\ (forall k, authorised (hs_fs s) (key_file None home) k -> authorised (hs_fs s') (key_file None home) k) /\
    (forall q, q <> key_file None home -> q <> ssh_dir home -> hs_fs s' q = hs_fs s q).
Proof.
  intros W A P K NB. destruct (keys_in b disk (iu_name u) uid gid home W ks s A P NB) as (s2 & E2 & K2 & O2 & Q2 & _). exists s2. split; [|auto]. unfold user_made. rewrite K.
  destruct (C72_existing b (iu_name u) [] s uid gid home A) as [E1 _]. destruct (iu_pw u) as [pw|].
  - destruct (C72_existing b (iu_name u) pw s uid gid home A) as [_ E0]. cbn [app host_effects host_effect]. rewrite E0, E1, E2. cbn [map answer_of]. rewrite map_map. reflexivity.
  - cbn [app host_effects host_effect]. rewrite E1, E2. cbn [map answer_of]. rewrite map_map. reflexivity.
Qed.

(** A machine with useradd and openssl *)
Definition new_line (user home : str) : str := user ++ txt ":x:1000:1000::" ++ home ++ txt ":/bin/bash" ++ [LF].
Definition toy_useradd (user home : str) (homes : bool) (args : list str) (fs : fsys) : fsys :=
  let old := match fs PASSWD with Some n => match nd_data n with Some d => d | None => [] end | None => [] end in
  let f1 := fset fs PASSWD (Node (Some (utf8_enc (new_line user home) ++ old)) 420 0 0) in
  if homes || existsb (bytes_eqb (txt "-m")) args then match fs (resolve home) with None => fset f1 (resolve home) (Node None 448 1000 1000) | Some _ => f1 end else f1.
Definition toy_box (user home : str) (homes : bool) : box :=
  Box 18 (fun _ => Works) (fun l fs => match rev l with
    | HCmd c args i :: _ => if bytes_eqb c (txt "useradd") then (toy_useradd user home homes args fs, Some (Some 0%Z, [], []))
                            else if bytes_eqb c (txt "openssl") then (fs, Some (Some 0%Z, utf8_enc (txt "$6$hash" ++ [LF]), [])) else (fs, None)
    | _ => (fs, None)
    end).
Lemma toy_openssl user home homes : openssl_works (toy_box user home homes).
Proof. intros log args pw fs. exists (txt "$6$hash" ++ [LF]), []. cbn [toy_box bx_cmd]. rewrite rev_app_distr. cbn [rev app]. split; vm_compute; reflexivity. Qed.
Definition the_user : str := txt "admin". Definition the_home : str := txt "/home/admin".
Lemma lines_cons l t : ~ In LF l -> ~ In CR l -> lines (l ++ LF :: t) = l :: lines t.
Proof.
  intros NL NC. unfold lines. assert (P : pieces (l ++ LF :: t) = (l, true) :: pieces t).
  { clear NC. induction l as [|x l IH]; [reflexivity|]. cbn [app pieces]. assert (X : (x =? LF) = false) by (apply N.eqb_neq; intros ->; apply NL; left; reflexivity). rewrite X, IH by (intros I; apply NL; right; exact I). reflexivity. }
  rewrite P. cbn [map fst snd]. f_equal. clear P NL. induction l as [|x l IH]; [reflexivity|]. destruct l as [|y l]; [cbn [strip_cr]; assert (X : (x =? CR) = false) by (apply N.eqb_neq; intros ->; apply NC; left; reflexivity); rewrite X; reflexivity|].
  change (strip_cr (x :: y :: l)) with (x :: strip_cr (y :: l)). f_equal. apply IH. intros I. apply NC. right. exact I.
Qed.
Lemma toy_useradd_works homes : useradd_works the_user the_home homes (toy_box the_user the_home homes).
Proof.
  intros log args fs (t & R & B). cbn [toy_box bx_cmd]. rewrite rev_app_distr. cbn [rev app]. set (fs' := toy_useradd the_user the_home homes (args ++ [the_user]) fs). exists fs', [], [], 1000, 1000.
  set (l := the_user ++ txt ":x:1000:1000::" ++ the_home ++ txt ":/bin/bash").
  pose proof R as RN. apply read_text_node in RN. destruct RN as (n & FN & DN & ST).
  assert (NP : resolve the_home <> PASSWD) by (vm_compute; discriminate).
  assert (FP : fs' PASSWD = Some (Node (Some (utf8_enc (new_line the_user the_home) ++ utf8_enc t)) 420 0 0)).
  { unfold fs', toy_useradd. rewrite FN, DN. destruct (homes || _); [|apply fset_eq]. destruct (fs (resolve the_home)); [apply fset_eq|]. rewrite fset_ne by congruence. apply fset_eq. }
  assert (R' : read_text fs' PASSWD = Ok (l ++ LF :: t)).
  { apply read_text_node. eexists. split; [exact FP|]. split.
    - cbn [nd_data]. assert (X : forall a c, utf8_enc (a ++ c) = utf8_enc a ++ utf8_enc c) by (intros a c; unfold utf8_enc; rewrite map_app; apply concat_app). replace (l ++ LF :: t) with (new_line the_user the_home ++ t); [rewrite X; reflexivity|]. unfold new_line, l. rewrite <- !app_assoc. reflexivity.
    - rewrite forallb_app. cbn [forallb]. rewrite ST. vm_compute. reflexivity. }
  assert (L : lines (l ++ LF :: t) = l :: lines t) by (apply lines_cons; vm_compute; intuition discriminate).
  split; [vm_compute; reflexivity|]. split.
  - exists (l ++ LF :: t), [], l, (lines t). split; [exact R'|]. split; [exact L|]. split; [intros l' []|]. eexists _, _, _, _, _. split; [vm_compute; reflexivity|]. split; vm_compute; reflexivity.
  - split.
    + intros u i g h (t0 & a & l0 & z & R0 & L0 & B0 & x & uu & gg & c & rest & F & U & G). rewrite R in R0. inversion R0; subst t0. exists (l ++ LF :: t), (l :: a), l0, z. split; [exact R'|]. split; [rewrite L, L0; reflexivity|]. split.
      * intros l' [<-|I]; [|exact (B0 l' I)]. intros rs X. assert (E : fields l = the_user :: [txt "x"; txt "1000"; txt "1000"; []; the_home; txt "/bin/bash"]) by (vm_compute; reflexivity). rewrite E in X. inversion X; subst u.
        apply (B l0) with (rest := x :: uu :: gg :: c :: h :: rest); [rewrite L0; apply in_or_app; right; left; reflexivity|exact F].
      * exists x, uu, gg, c, rest. auto.
    + split.
      * intros q N1 N2. unfold fs', toy_useradd. destruct (homes || _); [|apply fset_ne; exact N1]. destruct (fs (resolve the_home)); [apply fset_ne; exact N1|]. rewrite !fset_ne by assumption. reflexivity.
      * intros M N. unfold fs', toy_useradd. assert (homes || existsb (bytes_eqb (txt "-m")) (args ++ [the_user]) = true) as ->.
        { destruct M as [M| ->]; [|reflexivity]. apply orb_true_iff. right. apply existsb_exists. exists (txt "-m"). split; [apply in_or_app; left; exact M|apply bytes_eqb_refl]. }
        rewrite N. eapply dir_node; [apply fset_eq|reflexivity].
Qed.
(** Where useradd does not make homes unasked: with a password it is called without -m, there is no home, and the first key
    cannot be installed. *)
Theorem C74_refuted : ~ C74_statement.
Proof.
  intros H. set (u := InitUser the_user (Some (txt "secret")) (Some [txt "ssh-rsa A"])).
  assert (T : user_there (toy_box the_user the_home false) u [txt "ssh-rsa A"] the_home (HSt plain_fs [])).
  { apply (H _ u _ the_home false).
    - intros l. reflexivity.
    - apply toy_openssl.
    - apply toy_useradd_works.
    - apply no_account_absent. vm_compute. reflexivity.
    - vm_compute. reflexivity.
    - vm_compute. reflexivity.
    - vm_compute. reflexivity.
    - reflexivity.
    - constructor; [split; [vm_compute; reflexivity|vm_compute; intuition discriminate]|constructor]. }
  destruct (T (fun _ _ => Fine)) as (s' & uid & gid & E & _).
  assert (X : snd (host_effects (toy_box the_user the_home false) None (fun _ _ => Fine) (user_made u) (HSt plain_fs [])) = [Fine; Fine; Fails]) by (vm_compute; reflexivity).
  rewrite E in X. discriminate X.
Qed.

(** *** The hypotheses are met. *)
Definition a_user : inituser := InitUser the_user None (Some [txt "ssh-rsa A"; txt "ssh-ed25519 B"]).
Example user_case : user_there (toy_box the_user the_home false) a_user [txt "ssh-rsa A"; txt "ssh-ed25519 B"] the_home (HSt plain_fs []).
Proof.
  apply (C74_user_partial _ a_user _ the_home false).
  - intros l. reflexivity.
  - apply toy_openssl.
  - apply toy_useradd_works.
  - apply no_account_absent. vm_compute. reflexivity.
  - vm_compute. reflexivity.
  - vm_compute. reflexivity.
  - vm_compute. reflexivity.
  - reflexivity.
  - repeat constructor; vm_compute; intuition discriminate.
  - left. reflexivity.
Qed.
Example user_pw_case : user_there (toy_box the_user the_home true) (InitUser the_user (Some (txt "secret")) (Some [txt "ssh-rsa A"])) [txt "ssh-rsa A"] the_home (HSt plain_fs []).
Proof.
  apply (C74_user_partial _ (InitUser the_user (Some (txt "secret")) (Some [txt "ssh-rsa A"])) _ the_home true).
  - intros l. reflexivity.
  - apply toy_openssl.
  - apply toy_useradd_works.
  - apply no_account_absent. vm_compute. reflexivity.
  - vm_compute. reflexivity.
  - vm_compute. reflexivity.
  - vm_compute. reflexivity.
  - reflexivity.
  - repeat constructor; vm_compute; intuition discriminate.
  - right. reflexivity.
Qed.
(** A file two directories down, on a machine that stops at the first chmod, and the repeat *)
Definition deep : path := [txt "etc"; txt "app"; txt "conf.d"; txt "a.conf"].
Example file_clear : way_clear (hs_fs (HSt etc [])) deep /\ working all_works.
Proof.
  split; [|intros l; reflexivity]. split; [discriminate|]. split; [reflexivity|]. intros q (NE & r & NR & E). destruct (list_eq_dec (list_eq_dec N.eq_dec) q [txt "etc"]) as [->|N]; [right; reflexivity|left].
  unfold etc. cbn [hs_fs]. apply fset_ne. exact N.
Qed.
Example file_case : snd (put_file (stops_at is_chmod) deep [1; 2] 384 (HSt etc [])) = Err tt /\
  hs_log (fst (put_file (stops_at is_chmod) deep [1; 2] 384 (HSt etc []))) = [HMkDir [txt "etc"; txt "app"]; HMkDir [txt "etc"; txt "app"; txt "conf.d"]; HCreate deep; HAppend deep [1; 2]; HMode deep 384] /\
  file_at (hs_fs (fst (put_file all_works deep [1; 2] 384 (fst (put_file (stops_at is_chmod) deep [1; 2] 384 (HSt etc [])))))) deep [1; 2] 384.
Proof. split; [vm_compute; reflexivity|]. split; [vm_compute; reflexivity|]. exists 0, 0. vm_compute. reflexivity. Qed.
(** A umask that lets nothing through to others *)
Example umask_case : within (N.ldiff 438 63) 384 /\ hs_fs (fst (put_file (Box 63 (fun _ => Works) (fun _ fs => (fs, None))) deep [1; 2] 384 (HSt etc []))) deep = Some (Node (Some [1; 2]) 384 0 0).
Proof. split; vm_compute; reflexivity. Qed.
(** Two files *)
Example files_case : NoDup (map (fun f => resolve (fst (fst f))) [(txt "/etc/a", [1], 384); (txt "/etc/b", [2], 420)]) /\
  snd (host_effects all_works None (fun _ _ => Fine) (map (fun f => EWrite (fst (fst f)) (snd (fst f)) (snd f)) [(txt "/etc/a", [1], 384); (txt "/etc/b", [2], 420)]) (HSt etc [])) = [Fine; Fine].
Proof. split; [|vm_compute; reflexivity]. repeat constructor; vm_compute; intuition discriminate. Qed.
(** Adding a key to a file with one *)
Example key_case : exists s', install_ssh_key all_works None the_user (txt "ssh-rsa B") (HSt admin_fs []) = (s', Ok tt) /\ authorised (hs_fs s') (key_file None the_home) (txt "ssh-rsa A").
Proof.
  assert (W : working all_works) by (intros l; reflexivity).
  assert (P : place (hs_fs (HSt admin_fs [])) the_home). { split; [left; vm_compute; reflexivity|right]. destruct admin_key as (t & R & _). exists t. exact R. }
  assert (NB : no_break (txt "ssh-rsa B")) by (split; [vm_compute; reflexivity|vm_compute; intuition discriminate]).
  destruct (key_step all_works the_user (txt "ssh-rsa B") (HSt admin_fs []) 1000 1000 the_home W admin_account P NB) as (s' & E & _ & _ & O & _). exists s'. split; [exact E|]. apply O. exact admin_key.
Qed.
(** An account with a password, by a machine with openssl *)
Example password_case : hs_log (fst (create_user_with_password (toy_box the_user the_home true) the_user (txt "secret") (HSt plain_fs []))) = [run_openssl (txt "secret"); run_useradd the_user (txt "$6$hash")].
Proof. vm_compute. reflexivity. Qed.

Print Assumptions C70_deployed.
Print Assumptions C70_nothing_else.
Print Assumptions C70_repeat.
Print Assumptions C70_all_files.
Print Assumptions C71_umask_partial.
Print Assumptions C71_refuted.
Print Assumptions C72_existing.
Print Assumptions C72_commands.
Print Assumptions C72_made.
Print Assumptions C72_password_partial.
Print Assumptions C72_refuted.
Print Assumptions C73_installed.
Print Assumptions C73_kept_refuted.
Print Assumptions C73_repeat_refuted.
Print Assumptions C73_passwd_refuted.
Print Assumptions C73_passwd_partial.
Print Assumptions C74_user_partial.
Print Assumptions C74_existing.
Print Assumptions C74_refuted.
