(** C101, C102, C103 and C104: the credential's file. *)
From Coq Require Import Lia ZifyBool ZifyNat ZifyN.
From Verif Require Import Base BaseFacts CborModel ValueModel Text TypesModel VoucherModel CryptoSpec VoucherSpec Assoc KexModel RvModel MsgModel SessionModel
  HttpClientModel RvServerModel SiModel DevSiModel OwnerModel MfgModel ToyCrypto ToySession P_Voucher P_Rv P_Kex P_RvServer P_To0 ClientModel ClientSpec ClientProofs ClientProofs2 ClientToy P_Client.
From Verif Require Import MfgSpec MfgClientModel MfgClientSpec MfgClientProofs MfgClientProofs2 P_Mfg P_MfgClient LocModel LocSpec LocProofs.
Local Open Scope N_scope.

Section client.
Context (A : aead) (c : crypto) (chk : bool) (ko : kex_ops) (avail : bool) (show_ip : bytes -> str) (prefix : option str) (wo : world).
Local Notation onboard := (onboard A c chk ko avail show_ip prefix wo).

(** * C101: the file that counts *)
(** What a run does depends on the files only by whether the marker is there and by what is in the first of the places. *)
Theorem C101_only_that : forall e allow fs fs' p b n, used e fs p b -> used e fs' p b ->
  present (marker_path e) fs = present (marker_path e) fs' -> onboard e allow fs n = onboard e allow fs' n.
Proof.
  intros e allow fs fs' p b n U U' M. destruct (used_to_be _ _ _ _ U) as (m & T). unfold LocModel.onboard. rewrite (used_disk _ _ _ _ _ U T), (used_disk _ _ _ _ _ U' T), M. reflexivity.
Qed.
(** Without a file in any of the places nothing is done. *)
Theorem C101_none : forall e allow fs n, unused e fs -> fst (onboard e allow fs n) = [].
Proof. intros e allow fs n U. unfold LocModel.onboard. rewrite (unused_disk _ _ U). unfold main. cbn [dd_marker dd_cred]. destruct (negb avail && negb allow); [reflexivity|]. destruct (present _ _); reflexivity. Qed.
Lemma starts allow d n h x : main A c chk ko avail show_ip prefix wo allow d n = (h, x) -> h <> [] -> dd_marker d = false /\ exists dc, dd_cred d = Cred dc /\ dc_active dc = true.
Proof.
  unfold main. intros R N0. destruct (negb avail && negb allow); [congruence|]. destruct (dd_marker d); [congruence|]. split; [reflexivity|]. destruct (dd_cred d) as [| |dc]; [congruence|congruence|].
  exists dc. split; [reflexivity|]. destruct (dc_active dc); [reflexivity|]. cbn [negb] in R. congruence.
Qed.
Lemma runs_with e allow fs n h x : onboard e allow fs n = (h, x) -> h <> [] ->
  exists p b m info dc, used e fs p b /\ to_be e p m /\ has_credential b info dc /\ dc_active dc = true /\ aget (marker_path e) fs = None /\ p <> marker_path e /\
    find e fs = At p m /\ content fs p = Some (info, dc) /\ disk_of e fs = DevDisk false (Cred dc) m.
Proof.
  intros R N0. destruct (starts _ _ _ _ _ R N0) as (M & dc & DC & AC). clear R N0. cbn [dd_marker dd_cred disk_of] in M, DC. unfold credential in DC.
  assert (MN : aget (marker_path e) fs = None) by (unfold present in M; destruct (aget (marker_path e) fs); [discriminate|reflexivity]).
  destruct (find e fs) as [| |p m] eqn:F; [discriminate|discriminate|]. destruct (content fs p) as [[info dc']|] eqn:CO; [|discriminate]. injection DC as ->.
  destruct (find_used _ _ _ _ F) as (b & U & T). assert (G : aget p fs = Some b) by apply U.
  assert (FS : from_slice as_cred b = Ok (info, dc)) by (unfold content in CO; rewrite G in CO; destruct (from_slice as_cred b) as [y| |]; congruence).
  exists p, b, m, info, dc. split; [exact U|]. split; [exact T|]. split; [exact FS|]. split; [exact AC|]. split; [exact MN|]. split; [intros ->; congruence|]. split; [reflexivity|]. split; [exact CO|].
  rewrite (used_disk _ _ _ _ _ U T), FS, M. reflexivity.
Qed.
(** Whatever a run does, it does with the credential in the first of the places, an active one, there being no marker; and
    what it does beyond authentication it does with an owner that has proved itself to this credential. *)
Theorem C101_credential : forall e allow fs n h x l ev r, sane wo -> onboard e allow fs n = (h, x) -> h = l ++ ev :: r ->
  exists p b info dc, used e fs p b /\ has_credential b info dc /\ dc_active dc = true /\ aget (marker_path e) fs = None /\
    (past_authentication ev -> session_authenticated c chk wo dc l).
Proof.
  intros e allow fs n h x l ev r SA R E. destruct (runs_with _ _ _ _ _ _ R ltac:(rewrite E; destruct l; discriminate)) as (p & b & m & info & dc & U & T & HC & AC & MN & _ & _ & _ & D).
  exists p, b, info, dc. split; [exact U|]. split; [exact HC|]. split; [exact AC|]. split; [exact MN|]. intros PA. destruct (C33_authenticated_owner A c chk ko avail show_ip prefix wo allow _ n h x l ev r SA R E PA) as (dc' & D' & S).
  rewrite D in D'. cbn [dd_cred] in D'. injection D' as <-. exact S.
Qed.

Context (others : list devent -> files -> files).
(** At each point of a run, no file has changed but the one the credential is in and the marker, service information aside. *)
Theorem C101_frame : forall e allow fs n h x l r q, onboard e allow fs n = (h, x) -> h = l ++ r -> spares others q ->
  aget q (device_files others e fs l) = aget q fs \/ q = marker_path e \/ exists b, used e fs q b.
Proof.
  intros e allow fs n h x l r q R E SP. unfold device_files. destruct (find e fs) as [| |p m] eqn:F; [auto|auto|]. destruct (find_used _ _ _ _ F) as (b & U & _).
  destruct (content fs p) as [[info dc]|]; [|auto]. destruct (name_dec q (marker_path e)) as [->|NM]; [auto|]. destruct (name_dec q p) as [->|NP]; [eauto|]. left. apply steps_frame; assumption.
Qed.
(** At each point of a run, the credential's file is as it was, or the owner has said that it has nothing more to tell, and
    the file is deleted, or emptied and then written again deactivated, as it is to be. *)
Theorem C101_file : forall e allow fs n h x l r p b m, sane wo -> onboard e allow fs n = (h, x) -> h = l ++ r -> used e fs p b -> to_be e p m ->
  spares others p -> bytes_ok b -> nlen b < 4294967296 ->
  aget p (device_files others e fs l) = Some b \/
  (exists h1 h2, l = h1 ++ h2 /\ info_done A ko avail wo h1) /\
  match m with
  | KeepIt => False
  | DeleteIt => aget p (device_files others e fs l) = None
  | DeactivateIt => aget p (device_files others e fs l) = Some [] \/
      exists b' info dc, aget p (device_files others e fs l) = Some b' /\ has_credential b info dc /\ has_credential b' info (deactivated dc)
  end.
Proof.
  intros e allow fs n h x l r p b m SA R E U T SP BO BL. assert (G : aget p fs = Some b) by apply U. unfold device_files. rewrite (used_find _ _ _ _ _ U T), (used_content _ _ _ _ U).
  destruct (from_slice as_cred b) as [[info dc]| |] eqn:FS; [|left; exact G|left; exact G]. destruct l as [|x0 l0] eqn:EL; [left; exact G|]. rewrite <- EL in *.
  destruct (runs_with _ _ _ _ _ _ R ltac:(rewrite E, EL; discriminate)) as (p' & b' & m' & info' & dc' & U' & T' & HC & AC & MN & NP & F & CO & D).
  rewrite (used_find _ _ _ _ _ U T) in F. injection F as <- <-. rewrite steps_file by assumption. rewrite G. clear x0 l0 EL.
  revert r E. induction l as [|ev l IH] using rev_ind; intros r E; [left; reflexivity|]. rewrite fold_left_app. cbn [fold_left].
  rewrite <- app_assoc in E. cbn [app] in E. specialize (IH _ E). destruct (main_events A c chk ko avail show_ip prefix wo allow _ n h x l ev r SA R E) as (dc2 & D2 & _ & O).
  rewrite D in D2, O. cbn [dd_cred dd_method] in D2, O.
  assert (MORE : (exists h1 h2, l = h1 ++ h2 /\ info_done A ko avail wo h1) -> exists h1 h2, l ++ [ev] = h1 ++ h2 /\ info_done A ko avail wo h1).
  { intros (h1 & h2 & -> & ID). exists h1, (h2 ++ [ev]). rewrite app_assoc. auto. }
  assert (SAME : file_step info dc ev (fold_left (fun o x => file_step info dc x o) l (Some b)) = fold_left (fun o x => file_step info dc x o) l (Some b) ->
    file_step info dc ev (fold_left (fun o x => file_step info dc x o) l (Some b)) = Some b \/
    (exists h1 h2, l ++ [ev] = h1 ++ h2 /\ info_done A ko avail wo h1) /\
    match m with
    | KeepIt => False
    | DeleteIt => file_step info dc ev (fold_left (fun o x => file_step info dc x o) l (Some b)) = None
    | DeactivateIt => file_step info dc ev (fold_left (fun o x => file_step info dc x o) l (Some b)) = Some [] \/
        exists b' info' dc', file_step info dc ev (fold_left (fun o x => file_step info dc x o) l (Some b)) = Some b' /\ has_credential b info' dc' /\ has_credential b' info' (deactivated dc')
    end).
  { intros ->. destruct IH as [IH|[IH1 IH2]]; [left; exact IH|right; split; [apply MORE; exact IH1|exact IH2]]. }
  destruct ev as [u w|fx|ok|[]|[]|[]]; try (apply SAME; reflexivity); cbn [in_order] in O; destruct O as (-> & h1 & EQ & ID); right; (split; [apply MORE; eauto|]).
  - left. reflexivity.
  - right. exists (enc (cred_val info (deactivated dc))), info, dc. split; [reflexivity|]. split; [exact FS|]. apply rewritten with (b := b); assumption.
  - reflexivity.
Qed.

(** * C102: once *)
(** When a device has onboarded and the marker is still there, no later run does anything, in whatever environment, as long as
    it names the same marker file. *)
Theorem C102_marked_partial : forall e allow fs n h b, sane wo -> onboard e allow fs n = (h, Onboarded b) -> spares others (marker_path e) ->
  forall A' c' chk' ko' avail' show_ip' prefix' wo' e' allow' fs' n',
  marker_path e' = marker_path e -> aget (marker_path e) fs' = aget (marker_path e) (device_files others e fs h) ->
  fst (LocModel.onboard A' c' chk' ko' avail' show_ip' prefix' wo' e' allow' fs' n') = [].
Proof.
  intros e allow fs n h b SA R SP A' c' chk' ko' avail' show_ip' prefix' wo' e' allow' fs' n' ME MS.
  destruct (C34_success_answered A c chk ko avail show_ip prefix wo allow _ n h b R) as (h0 & l & url & w & ct & pt & n7 & E & TY & _).
  destruct (runs_with _ _ _ _ _ _ R ltac:(rewrite E; destruct (h0 ++ l); discriminate)) as (p & bb & m & info & dc & U & T & HC & AC & MN & NP & F & CO & D).
  destruct (main_events A c chk ko avail show_ip prefix wo allow _ n h _ (h0 ++ l) (TWire url w) [] SA R E) as (dc2 & D2 & _ & O). cbn [in_order] in O. destruct (O TY) as (h1 & EQ & _).
  assert (P : present (marker_path e) (device_files others e fs h) = true).
  { unfold device_files. rewrite F, CO. apply steps_marker; [exact NP|exact SP|]. left. rewrite E, EQ. apply in_or_app. left. apply in_or_app. right. left. reflexivity. }
  unfold LocModel.onboard, main. assert (dd_marker (disk_of e' fs') = true) as -> by (cbn [dd_marker disk_of]; unfold present in *; rewrite ME, MS; exact P). destruct (negb avail' && negb allow'); reflexivity.
Qed.
(** The marker is where the environment says: a run begins only if there is none, and one that has onboarded leaves one there. *)
Theorem C102_marker : forall e allow fs n h x q, sane wo -> onboard e allow fs n = (h, x) -> marker_at e q ->
  (aget q fs <> None -> h = []) /\ (forall b, x = Onboarded b -> spares others q -> aget q fs = None /\ aget q (device_files others e fs h) <> None).
Proof.
  intros e allow fs n h x q SA R MA. apply marker_found in MA. subst q. split.
  - intros M. assert (P : dd_marker (disk_of e fs) = true) by (cbn [dd_marker disk_of]; unfold present; destruct (aget (marker_path e) fs); [reflexivity|congruence]).
    change h with (fst (h, x)). rewrite <- R. unfold LocModel.onboard, main. rewrite P. destruct (negb avail && negb allow); reflexivity.
  - intros b -> SP. destruct (C34_success_answered A c chk ko avail show_ip prefix wo allow _ n h b R) as (h0 & l & url & w & ct & pt & n7 & E & TY & _).
    destruct (runs_with _ _ _ _ _ _ R ltac:(rewrite E; destruct (h0 ++ l); discriminate)) as (p & bb & m & info & dc & U & T & HC & AC & MN & NP & F & CO & D). split; [exact MN|].
    destruct (main_events A c chk ko avail show_ip prefix wo allow _ n h _ (h0 ++ l) (TWire url w) [] SA R E) as (dc2 & D2 & _ & O). cbn [in_order] in O. destruct (O TY) as (h1 & EQ & _).
    assert (P : present (marker_path e) (device_files others e fs h) = true).
    { unfold device_files. rewrite F, CO. apply steps_marker; [exact NP|exact SP|]. left. rewrite E, EQ. apply in_or_app. left. apply in_or_app. right. left. reflexivity. }
    unfold present in P. intros X. rewrite X in P. discriminate P.
Qed.
(** When a device has onboarded, its credential is put away as it is to be; and with one that was deactivated no run does
    anything, whether the marker is still there or not. *)
Theorem C102_put_away_partial : forall e allow fs n h ok p b m, sane wo -> onboard e allow fs n = (h, Onboarded ok) -> used e fs p b -> to_be e p m -> spares others p ->
  bytes_ok b -> nlen b < 4294967296 ->
  match m with
  | KeepIt => aget p (device_files others e fs h) = Some b
  | DeleteIt => aget p (device_files others e fs h) = None
  | DeactivateIt => exists b' info dc, aget p (device_files others e fs h) = Some b' /\ has_credential b info dc /\ has_credential b' info (deactivated dc) /\
      forall A' c' chk' ko' avail' show_ip' prefix' wo' e' allow' fs' n', used e' fs' p b' ->
      fst (LocModel.onboard A' c' chk' ko' avail' show_ip' prefix' wo' e' allow' fs' n') = []
  end.
Proof.
  intros e allow fs n h ok p b m SA R U T SP BO BL.
  destruct (C34_success_answered A c chk ko avail show_ip prefix wo allow _ n h ok R) as (h0 & l & url & w & ct & pt & n7 & E & TY & _).
  destruct (runs_with _ _ _ _ _ _ R ltac:(rewrite E; destruct (h0 ++ l); discriminate)) as (p' & b' & m' & info & dc & U' & T' & HC & AC & MN & NP & F & CO & D).
  assert (EQF := used_find _ _ _ _ _ U T). rewrite F in EQF. injection EQF as -> ->. assert (b' = b) as -> by (destruct U as (_ & G & _), U' as (_ & G' & _); congruence).
  destruct (main_events A c chk ko avail show_ip prefix wo allow _ n h _ (h0 ++ l) (TWire url w) [] SA R E) as (dc2 & D2 & _ & O). cbn [in_order] in O. destruct (O TY) as (h1 & EQ & _).
  rewrite D in EQ. cbn [dd_method] in EQ.
  assert (FILE : aget p (device_files others e fs h) = fold_left (fun o x => file_step info dc x o) h (Some b)).
  { unfold device_files. rewrite F, CO. rewrite steps_file by assumption. f_equal. apply U. }
  rewrite E, EQ in FILE. rewrite <- app_assoc, fold_left_app in FILE. destruct m; cbn [put_away app fold_left file_step] in FILE.
  - destruct (C101_file e allow fs n h _ h [] p b KeepIt SA R (eq_sym (app_nil_r h)) U T SP BO BL) as [X|[_ []]]. exact X.
  - rewrite E, EQ, <- app_assoc. exact FILE.
  - exists (enc (cred_val info (deactivated dc))), info, dc. split; [rewrite E, EQ, <- app_assoc; exact FILE|]. split; [exact HC|].
    assert (HB : has_credential (enc (cred_val info (deactivated dc))) info (deactivated dc)) by (apply rewritten with (b := b); assumption). split; [exact HB|].
    intros A' c' chk' ko' avail' show_ip' prefix' wo' e' allow' fs' n' U2. destruct (used_to_be _ _ _ _ U2) as (m2 & T2). unfold LocModel.onboard. rewrite (used_disk _ _ _ _ _ U2 T2), HB.
    unfold main. cbn [dd_marker dd_cred deactivated dc_active negb]. destruct (negb avail' && negb allow'); [reflexivity|]. destruct (present _ _); reflexivity.
Qed.
End client.

(** What one would like: a device that has onboarded does not do so again.  It is false: an environment that names another
    marker file is enough, where the credential is kept. *)
Definition C102_statement : Prop := forall A c chk ko avail show_ip prefix wo others e allow fs n h b,
  sane wo -> onboard A c chk ko avail show_ip prefix wo e allow fs n = (h, Onboarded b) -> (forall q, spares others q) ->
  forall A' c' chk' ko' avail' show_ip' prefix' wo' e' allow' n', ev_cred e' = ev_cred e ->
  fst (onboard A' c' chk' ko' avail' show_ip' prefix' wo' e' allow' (device_files others e fs h) n') = [].

Definition lo_path : str := txt "/boot/device-credentials".
Definition lo_data : bytes := enc (cred_val (txt "serial") cl_cred).
Definition lo_env (marker : option evalue) : env := Env (Some (EText lo_path)) false false None marker.
Definition lo_fs : files := [(lo_path, lo_data)].
Definition lo_none (h : list devent) (fs : files) : files := fs.
Lemma lo_spares q : spares lo_none q. Proof. intros h fs. reflexivity. Qed.
Lemma lo_disk m : present (match m with Some (EText p) => p | _ => MARKER end) lo_fs = false -> disk_of (lo_env m) lo_fs = cl_disk KeepIt.
Proof.
  intros P. unfold disk_of. assert (marker_path (lo_env m) = match m with Some (EText p) => p | _ => MARKER end) as -> by reflexivity. rewrite P.
  assert (X : forall m, credential (lo_env m) lo_fs = Cred cl_cred /\ method (lo_env m) lo_fs = KeepIt) by (intros m'; vm_compute; auto). destruct (X m) as [-> ->]. reflexivity.
Qed.
Lemma onboard_is A c chk ko avail show_ip prefix wo e allow fs n : onboard A c chk ko avail show_ip prefix wo e allow fs n = main A c chk ko avail show_ip prefix wo allow (disk_of e fs) n.
Proof. reflexivity. Qed.
Lemma cl_main_as down l m n : cl_main down l m n = main toy_aead toy true toy_kex true to_sh None (cl_world down l) false (cl_disk m) n. Proof. reflexivity. Qed.
Definition lo_run := cl_main [] ex_exts KeepIt 1.
Lemma lo_exit : snd lo_run = Onboarded true. Proof. vm_compute. reflexivity. Qed.
Definition some {T} (l : list T) : bool := match l with [] => false | _ => true end.
Lemma some_not {T} (l : list T) : some l = true -> l <> []. Proof. destruct l; discriminate. Qed.
Lemma lo_some : fst (cl_main [] ex_exts KeepIt 1) <> []. Proof. apply some_not. vm_compute. reflexivity. Qed.
Lemma cl_some : fst cl_run <> []. Proof. apply some_not. vm_compute. reflexivity. Qed.
Lemma lo_is : onboard toy_aead toy true toy_kex true to_sh None (cl_world [] ex_exts) (lo_env None) false lo_fs 1 = (fst lo_run, Onboarded true).
Proof. rewrite onboard_is, (lo_disk None) by (vm_compute; reflexivity). rewrite <- lo_exit, <- cl_main_as. unfold lo_run. apply surjective_pairing. Qed.
Definition lo_other : env := lo_env (Some (EText (txt "/var/marker"))).
Lemma lo_after : disk_of lo_other (device_files lo_none (lo_env None) lo_fs (fst lo_run)) = cl_disk KeepIt.
Proof. vm_compute. reflexivity. Qed.
Theorem C102_refuted : ~ C102_statement.
Proof.
  intros H. pose proof (H _ _ _ _ _ _ _ _ lo_none _ _ _ _ _ _ (cl_sane _ _) lo_is lo_spares toy_aead toy true toy_kex true to_sh None (cl_world [] ex_exts) lo_other false 1%nat eq_refl) as X.
  rewrite onboard_is, lo_after, <- cl_main_as in X. exact (lo_some X).
Qed.

(** * C103: the credential the factory wrote *)
Section factory.
Context (A : aead) (c : crypto) (chk : bool) (ko : kex_ops) (avail : bool) (to_der : bytes -> bytes) (wo : world).
Context (newkey : list devent -> N -> N -> option (bytes * bytes)).
Local Notation initialise := (initialise A c chk ko avail to_der wo newkey).
Local Notation initialised := (initialised A c chk ko avail to_der wo).
Context (how : list devent -> written).

Lemma before_save_split h : exists r, h = before_save h ++ r.
Proof. induction h as [|x h [r E]]; [exists []; reflexivity|]. cbn [before_save]. destruct (is_save x); [exists (x :: h); reflexivity|]. exists r. cbn [app]. f_equal. exact E. Qed.
Lemma initialise_main e fs su mi url h : initialise e fs su mi url = (h, Initialised) ->
  mfg_main A c chk ko avail to_der wo newkey (credential e fs) su mi url = (h, Initialised) /\ ((exists p, target e = Some p) \/ existsb is_save h = false).
Proof.
  unfold LocModel.initialise. destruct (mfg_main _ _ _ _ _ _ _ _ _ _ _ _) as [h' x]. destruct (target e) as [p|]; [intros E; inversion E; subst; split; [reflexivity|left; eauto]|].
  destruct (existsb is_save h') eqn:X; intros E; inversion E; subst; auto.
Qed.
(** After a successful run, the file it was told to write has an active credential for the header the server sent, and no other
    file has changed.  A device that is started, without a marker, in an environment in which that file counts has exactly this credential. *)
Theorem C103_found_partial : forall e fs su mi url h, sane_small wo -> opens_bytes A -> outputs_ok c -> hmac_bytes c -> good_keys c to_der newkey su -> honest wo how ->
  initialise e fs su mi url = (h, Initialised) ->
  exists p data info dc keys hd h1, target e = Some p /\ aget p (mfg_files how e fs h) = Some data /\ has_credential data info dc /\ dc_active dc = true /\
    initialised su h1 data keys hd info dc /\ (exists u w, h = h1 ++ [TFx (EWrite CRED_PATH data 438); TWire u w]) /\
    (forall q, q <> p -> aget q (mfg_files how e fs h) = aget q fs) /\
    forall e2, counts e2 fs p -> aget (marker_path e2) fs = None -> marker_path e2 <> p ->
      exists m, to_be e2 p m /\ disk_of e2 (mfg_files how e fs h) = DevDisk false (Cred dc) m.
Proof.
  intros e fs su mi url h SA OB OC HB GK HO R. apply initialise_main in R. destruct R as [R TG].
  destruct (C62_success_partial A c chk ko avail to_der wo newkey _ _ _ _ _ R) as (keys0 & p0 & data & _ & _ & FW & FX & u & w & E).
  assert (E' : h = p0 ++ TFx (EWrite CRED_PATH data 438) :: [TWire u w]) by exact E.
  destruct TG as [(p & TG)|TG]; [|exfalso; rewrite E, existsb_app in TG; apply Bool.orb_false_iff in TG; destruct TG as [_ TG]; discriminate].
  destruct (C61_credential A c chk ko avail to_der wo newkey _ _ _ _ _ _ _ _ _ SA OB OC HB GK R E' ltac:(intros (? & ? & Z); discriminate)) as (data' & keys & hd & info & dc & WC & IN).
  unfold writes_credential in WC. assert (data' = data) as -> by congruence.
  assert (RC : from_slice as_cred data = Ok (info, dc)) by (destruct IN as (? & ? & ? & ? & _ & _ & _ & _ & _ & RC & _); exact RC).
  assert (AC : dc_active dc = true) by (destruct IN as (? & ? & ? & ? & _ & _ & _ & _ & _ & _ & CF & _); apply CF).
  assert (FILES : mfg_files how e fs h = aset p data fs).
  { unfold mfg_files. rewrite TG, E, mfg_steps_app. rewrite (mfg_steps_wires how p p0 FW). cbn [mfg_steps app]. rewrite (HO _ FX). reflexivity. }
  rewrite FILES. exists p, data, info, dc, keys, hd, p0. split; [exact TG|]. split; [apply aget_aset_eq|]. split; [exact RC|]. split; [exact AC|]. split; [exact IN|]. split; [exists u, w; exact E|].
  split; [intros q NQ; apply aget_aset_ne; exact NQ|]. intros e2 CT MN NM.
  assert (U : used e2 (aset p data fs) p data) by (apply counts_used with (fs := fs); [exact CT|apply aget_aset_eq|intros q NQ; apply aget_aset_ne; exact NQ]).
  destruct (used_to_be _ _ _ _ U) as (m & T). exists m. split; [exact T|]. rewrite (used_disk _ _ _ _ _ U T), RC. unfold present. rewrite aget_aset_ne by exact NM. rewrite MN. reflexivity.
Qed.

(** * C104: initialised once *)
(** A device whose credential is active is left alone. *)
Theorem C104_left_alone : forall e fs p b info dc su mi url, used e fs p b -> has_credential b info dc -> dc_active dc = true ->
  initialise e fs su mi url = ([], Already).
Proof.
  intros e fs p b info dc su mi url U HC AC. destruct (used_to_be _ _ _ _ U) as (m & T).
  assert (CR : credential e fs = Cred dc) by (change (credential e fs) with (dd_cred (disk_of e fs)); rewrite (used_disk _ _ _ _ _ U T), HC; reflexivity).
  unfold LocModel.initialise. rewrite CR. unfold mfg_main. rewrite AC. destruct (target e); reflexivity.
Qed.
(** A run changes no file but the one it is told to write. *)
Theorem C104_frame : forall e fs l q, target e <> Some q -> aget q (mfg_files how e fs l) = aget q fs.
Proof. intros e fs l q N. unfold mfg_files. destruct (target e) as [p|]; [|reflexivity]. apply mfg_steps_frame. congruence. Qed.
(** The same, in terms of the environment; and a successful run has written an active credential there. *)
Theorem C104_told : forall e fs su mi url h, sane_small wo -> opens_bytes A -> outputs_ok c -> hmac_bytes c -> good_keys c to_der newkey su -> honest wo how ->
  initialise e fs su mi url = (h, Initialised) ->
  exists p data info dc, told_file e p /\ aget p (mfg_files how e fs h) = Some data /\ has_credential data info dc /\ dc_active dc = true /\
    forall q, ~ told_file e q -> aget q (mfg_files how e fs h) = aget q fs.
Proof.
  intros e fs su mi url h SA OB OC HB GK HO R. destruct (C103_found_partial e fs su mi url h SA OB OC HB GK HO R) as (p & data & info & dc & keys & hd & h1 & TG & AG & HC & AC & _).
  exists p, data, info, dc. split; [apply told_target; exact TG|]. split; [exact AG|]. split; [exact HC|]. split; [exact AC|]. intros q NQ. apply C104_frame. intros X. apply NQ, told_target, X.
Qed.
(** After a successful run, a second one does nothing, provided that the file written is the one that counts. *)
Theorem C104_once_partial : forall e fs su mi url h p, sane_small wo -> opens_bytes A -> outputs_ok c -> hmac_bytes c -> good_keys c to_der newkey su -> honest wo how ->
  initialise e fs su mi url = (h, Initialised) -> target e = Some p ->
  forall e', counts e' fs p ->
  forall A' c' chk' ko' avail' to_der' wo' newkey' su' mi' url',
  LocModel.initialise A' c' chk' ko' avail' to_der' wo' newkey' e' (mfg_files how e fs h) su' mi' url' = ([], Already).
Proof.
  intros e fs su mi url h p SA OB OC HB GK HO R TG e' CT A' c' chk' ko' avail' to_der' wo' newkey' su' mi' url'.
  destruct (C103_found_partial e fs su mi url h SA OB OC HB GK HO R) as (p' & data & info & dc & keys & hd & h1 & TG' & G & HC & AC & _ & _ & FR & _).
  rewrite TG in TG'. injection TG' as <-. assert (U : used e' (mfg_files how e fs h) p data) by (apply counts_used with (fs := fs); assumption).
  destruct (used_to_be _ _ _ _ U) as (m & T).
  assert (CR : credential e' (mfg_files how e fs h) = Cred dc) by (change (credential e' (mfg_files how e fs h)) with (dd_cred (disk_of e' (mfg_files how e fs h))); rewrite (used_disk _ _ _ _ _ U T), HC; reflexivity).
  unfold LocModel.initialise. rewrite CR. unfold mfg_main. rewrite AC. destruct (target e'); reflexivity.
Qed.
End factory.

(** The settings of the documentation: with neither variable the default file counts, ... *)
Lemma counts_default e fs : ev_cred e = None -> aget FIRMWARE fs = None -> counts e fs ETC.
Proof.
  intros EC N0. split; [right; congruence|]. exists [FIRMWARE], []. unfold places. rewrite EC. split; [reflexivity|]. intros q [<-|[]]. split; [exact N0|exact firmware_etc].
Qed.
(** ... and a file named with DEVICE_CREDENTIAL counts, unless there is one of the firmware. *)
Lemma counts_named e fs p : ev_cred e = Some (EText p) -> aget FIRMWARE fs = None -> p <> FIRMWARE -> counts e fs p.
Proof.
  intros EC N0 NF. split; [right; congruence|]. exists [FIRMWARE], [ETC]. unfold places. rewrite EC. split; [reflexivity|]. intros q [<-|[]]. split; [exact N0|congruence].
Qed.

(** One would like both for each environment in which both programs are started.  Both are false: the program of the factory
    writes to the file of one variable, and looks, as the onboarding program does, at the file of another. *)
Definition C103_statement : Prop := forall A c chk ko avail to_der wo newkey how e fs su mi url h,
  sane_small wo -> opens_bytes A -> outputs_ok c -> hmac_bytes c -> good_keys c to_der newkey su -> honest wo how ->
  initialise A c chk ko avail to_der wo newkey e fs su mi url = (h, Initialised) -> unused e fs -> aget (marker_path e) fs = None ->
  exists dc m, disk_of e (mfg_files how e fs h) = DevDisk false (Cred dc) m.
Definition C104_statement : Prop := forall A c chk ko avail to_der wo newkey how e fs su mi url h,
  sane_small wo -> opens_bytes A -> outputs_ok c -> hmac_bytes c -> good_keys c to_der newkey su -> honest wo how ->
  initialise A c chk ko avail to_der wo newkey e fs su mi url = (h, Initialised) ->
  initialise A c chk ko avail to_der wo newkey e (mfg_files how e fs h) su mi url = ([], Already).

Definition lm_env (f : option evalue) : env := Env None false false f None.
Definition lm_dest : str := txt "/tmp/device".
Definition lm_how (h : list devent) : written := Whole.
Lemma lm_honest wo : honest wo lm_how. Proof. intros h _. reflexivity. Qed.
Definition lm_diun : setup := WithDiun (VHash mcl_root).
Definition lm_run (e : env) (fs : files) := initialise toy_aead toy true toy_kex true mcl_der (mcl_world false []) mcl_newkey e fs lm_diun mcl_info mcl_url.
Lemma init_new A c chk ko avail to_der wo newkey e fs su mi url p : credential e fs = NoCred -> target e = Some p ->
  initialise A c chk ko avail to_der wo newkey e fs su mi url = mfg_main A c chk ko avail to_der wo newkey NoCred su mi url.
Proof. intros C T. unfold initialise. rewrite C, T. destruct (mfg_main _ _ _ _ _ _ _ _ _ _ _ _). reflexivity. Qed.
Lemma mcl_diun_as m down : mcl_run (WithDiun m) down = mfg_main toy_aead toy true toy_kex true mcl_der (mcl_world false down) mcl_newkey NoCred (WithDiun m) mcl_info mcl_url. Proof. reflexivity. Qed.
Lemma lm_new e fs p : credential e fs = NoCred -> target e = Some p ->
  initialise toy_aead toy true toy_kex true mcl_der (mcl_world false []) mcl_newkey e fs lm_diun mcl_info mcl_url = (fst mcl_diun_run, Initialised).
Proof.
  intros C T. rewrite (init_new _ _ _ _ _ _ _ _ _ _ _ _ _ _ C T). unfold lm_diun. rewrite <- mcl_diun_as. rewrite <- mcl_diun_exit. apply surjective_pairing.
Qed.
Lemma lm_empty f : match f with Some ENotText => False | _ => True end -> lm_run (lm_env f) [] = (fst mcl_diun_run, Initialised).
Proof. intros F. unfold lm_run. destruct f as [[q|]|]; [apply (lm_new _ _ q); reflexivity|destruct F|apply (lm_new _ _ ETC); reflexivity]. Qed.
Lemma lm_good : good_keys toy mcl_der mcl_newkey lm_diun. Proof. apply mcl_good. right. eexists. reflexivity. Qed.
(** The case: the factory's program with and without a file named, and what counts then *)
Lemma lm_target f : target (lm_env f) = match f with None => Some ETC | Some (EText p) => Some p | Some ENotText => None end. Proof. reflexivity. Qed.
Example C103_case : exists p data info dc m, target (lm_env (Some (EText lm_dest))) = Some p /\
  aget p (mfg_files lm_how (lm_env (Some (EText lm_dest))) [] (fst mcl_diun_run)) = Some data /\ has_credential data info dc /\ dc_active dc = true /\
  disk_of (Env (Some (EText lm_dest)) false false None None) (mfg_files lm_how (lm_env (Some (EText lm_dest))) [] (fst mcl_diun_run)) = DevDisk false (Cred dc) m.
Proof.
  destruct (C103_found_partial toy_aead toy true toy_kex true mcl_der (mcl_world false []) mcl_newkey lm_how _ _ _ _ _ _ (mcl_sane _ _) toy_opens toy_outputs_ok toy_hmac_bytes lm_good (lm_honest _)
    (lm_empty (Some (EText lm_dest)) Logic.I)) as (p & data & info & dc & keys & hd & h1 & TG & G & HC & AC & _ & _ & _ & FIND).
  assert (p = lm_dest) as -> by (rewrite lm_target in TG; congruence).
  destruct (FIND (Env (Some (EText lm_dest)) false false None None)) as (m & _ & D).
  - apply counts_named; [reflexivity|reflexivity|]. intros X. apply (f_equal (fun x => nth 1 x 0)) in X. vm_compute in X. discriminate.
  - reflexivity.
  - intros X. apply (f_equal (fun x => nth 1 x 0)) in X. vm_compute in X. discriminate.
  - exists lm_dest, data, info, dc, m. auto.
Qed.
Example C104_case : target (lm_env None) = Some ETC /\ counts (lm_env None) [] ETC /\ lm_run (lm_env None) [] = (fst mcl_diun_run, Initialised).
Proof. split; [reflexivity|]. split; [apply counts_default; reflexivity|apply lm_empty; exact Logic.I]. Qed.
(** A named file does not count for the program that writes it. *)
Lemma lm_unseen : disk_of (lm_env (Some (EText lm_dest))) (mfg_files lm_how (lm_env (Some (EText lm_dest))) [] (fst mcl_diun_run)) = DevDisk false NoCred KeepIt.
Proof. vm_compute. reflexivity. Qed.
Lemma lm_unused : unused (lm_env (Some (EText lm_dest))) []. Proof. split; [discriminate|]. intros p _. reflexivity. Qed.
Lemma lm_unseen_cred : credential (lm_env (Some (EText lm_dest))) (mfg_files lm_how (lm_env (Some (EText lm_dest))) [] (fst mcl_diun_run)) = NoCred.
Proof. vm_compute. reflexivity. Qed.
Lemma two_exits (h h' : list devent) : (h, Initialised) = (h', Already) -> False. Proof. discriminate. Qed.
Theorem C103_refuted : ~ C103_statement.
Proof.
  intros H. destruct (H _ _ _ _ _ _ _ _ lm_how _ _ _ _ _ _ (mcl_sane _ _) toy_opens toy_outputs_ok toy_hmac_bytes lm_good (lm_honest _) (lm_empty (Some (EText lm_dest)) Logic.I) lm_unused eq_refl) as (dc & m & X).
  rewrite lm_unseen in X. discriminate.
Qed.
Theorem C104_refuted : ~ C104_statement.
Proof.
  intros H. pose proof (H _ _ _ _ _ _ _ _ lm_how _ _ _ _ _ _ (mcl_sane _ _) toy_opens toy_outputs_ok toy_hmac_bytes lm_good (lm_honest _) (lm_empty (Some (EText lm_dest)) Logic.I)) as X.
  rewrite (lm_new _ _ lm_dest) in X; [|exact lm_unseen_cred|reflexivity]. exact (two_exits _ _ X).
Qed.
(** The documentation (HOWTO.md:828-835) says that the program only runs if there is no credential in any of the places.  It is
    false: a credential that is not active and comes first lets it run, and it overwrites the active one in the default place. *)
Definition C104_documented_statement : Prop := forall A c chk ko avail to_der wo newkey e fs su mi url p b info dc,
  In p (places e) -> aget p fs = Some b -> has_credential b info dc -> dc_active dc = true ->
  fst (initialise A c chk ko avail to_der wo newkey e fs su mi url) = [].
Definition lm_off : files := [(FIRMWARE, enc (cred_val (txt "serial") (deactivated cl_cred))); (ETC, lo_data)].
Lemma lm_off_cred : credential (lm_env None) lm_off = Cred (deactivated cl_cred). Proof. vm_compute. reflexivity. Qed.
Lemma init_off A c chk ko avail to_der wo newkey e fs su mi url p dc : credential e fs = Cred (deactivated dc) -> target e = Some p ->
  initialise A c chk ko avail to_der wo newkey e fs su mi url = mfg_main A c chk ko avail to_der wo newkey NoCred su mi url.
Proof. intros C T. unfold initialise. rewrite C, T. change (mfg_main A c chk ko avail to_der wo newkey (Cred (deactivated dc)) su mi url) with (mfg_main A c chk ko avail to_der wo newkey NoCred su mi url). destruct (mfg_main _ _ _ _ _ _ _ _ _ _ _ _). reflexivity. Qed.
Lemma lo_data_reads : has_credential lo_data (txt "serial") cl_cred. Proof. vm_compute. reflexivity. Qed.
Lemma mcl_some : fst (mcl_run (WithDiun (VHash mcl_root)) []) <> []. Proof. apply some_not. vm_compute. reflexivity. Qed.
Theorem C104_documented_refuted : ~ C104_documented_statement.
Proof.
  intros H. pose proof (H toy_aead toy true toy_kex true mcl_der (mcl_world false []) mcl_newkey (lm_env None) lm_off lm_diun mcl_info mcl_url ETC lo_data (txt "serial") cl_cred
    (or_intror (or_introl eq_refl)) eq_refl lo_data_reads eq_refl) as X.
  rewrite (init_off _ _ _ _ _ _ _ _ _ _ _ _ _ ETC _ lm_off_cred eq_refl) in X. unfold lm_diun in X. rewrite <- mcl_diun_as in X. exact (mcl_some X).
Qed.
(** A run that is stopped while it writes the credential leaves a file with which neither program does anything any more. *)
Example C104_stopped : forall k, (k < 3)%nat -> let fs := mfg_files (fun _ => Part k) (lm_env None) [] (fst mcl_diun_run) in
  lm_run (lm_env None) fs = ([], Failed) /\ disk_of (lm_env None) fs = DevDisk false Unreadable DeactivateIt.
Proof. intros k L. destruct k as [|[|[|k]]]; [| | |lia]; split; vm_compute; reflexivity. Qed.

(** ** A device that deactivates its credential *)
Definition lo_etc : files := [(ETC, lo_data)].
Lemma lo_etc_disk : disk_of silent_env lo_etc = cl_disk DeactivateIt. Proof. vm_compute. reflexivity. Qed.
Lemma lo_etc_is : onboard toy_aead toy true toy_kex true to_sh None (cl_world [] ex_exts) silent_env false lo_etc 1 = (fst cl_run, Onboarded true).
Proof. rewrite onboard_is, lo_etc_disk, <- cl_exit. exact cl_main_is. Qed.
Lemma lo_etc_used : used silent_env lo_etc ETC lo_data.
Proof. split; [right; discriminate|]. split; [reflexivity|]. exists [FIRMWARE], []. split; [reflexivity|]. intros q [<-|[]]. reflexivity. Qed.
Lemma lo_data_ok : forallb (fun x => x <? 256) lo_data = true /\ nlen lo_data < 4294967296. Proof. vm_compute. auto. Qed.
Example C102_case : exists b' info dc, aget ETC (device_files lo_none silent_env lo_etc (fst cl_run)) = Some b' /\ has_credential lo_data info dc /\ has_credential b' info (deactivated dc).
Proof.
  destruct lo_data_ok as [BO BL]. assert (BO' : bytes_ok lo_data) by (apply Forall_forall; intros x I; rewrite forallb_forall in BO; specialize (BO x I); lia).
  destruct (C102_put_away_partial toy_aead toy true toy_kex true to_sh None (cl_world [] ex_exts) lo_none _ _ _ _ _ _ _ _ DeactivateIt (cl_sane _ _) lo_etc_is lo_etc_used
    (tb_default silent_env ltac:(discriminate)) (lo_spares _) BO' BL) as (b' & info & dc & G & HC & HB & _). exists b', info, dc. auto.
Qed.
Example C101_case : exists p b info dc, used silent_env lo_etc p b /\ has_credential b info dc /\ dc_active dc = true.
Proof.
  pose proof lo_etc_is as R. destruct (fst cl_run) as [|ev r] eqn:E; [exfalso; exact (cl_some E)|].
  destruct (C101_credential toy_aead toy true toy_kex true to_sh None (cl_world [] ex_exts) _ _ _ _ _ _ [] ev r (cl_sane _ _) R eq_refl) as (p & b & info & dc & U & HC & AC & _).
  exists p, b, info, dc. auto.
Qed.
Print Assumptions C102_marker.
Print Assumptions C104_told.
Print Assumptions C101_only_that.
Print Assumptions C101_none.
Print Assumptions C101_credential.
Print Assumptions C101_frame.
Print Assumptions C101_file.
Print Assumptions C102_marked_partial.
Print Assumptions C102_put_away_partial.
Print Assumptions C102_refuted.
Print Assumptions C103_found_partial.
Print Assumptions C103_refuted.
Print Assumptions C104_left_alone.
Print Assumptions C104_frame.
Print Assumptions C104_once_partial.
Print Assumptions C104_refuted.
Print Assumptions C104_documented_refuted.
