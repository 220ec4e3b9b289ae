(** C109 and C110: the devices of the all-in-one. *)
From Coq Require Import Lia ZifyBool ZifyNat ZifyN.
From Verif Require Import Base BaseFacts CborModel ValueModel Text TypesModel VoucherModel CryptoSpec VoucherSpec Assoc KexModel RvModel MsgModel SessionModel
  HttpClientModel RvServerModel SiModel DevSiModel OwnerModel MfgModel ToyCrypto ToySession P_Voucher P_Rv P_Kex P_RvServer P_To0 ClientModel ClientSpec ClientProofs ClientProofs2 ClientToy P_Client.
From Verif Require Import MfgSpec MfgClientModel MfgClientSpec MfgClientProofs MfgClientProofs2 P_Mfg P_MfgClient LocModel LocSpec LocProofs P_Loc DevModel.
Local Open Scope N_scope.

(** The marker of the device at [loc]. *)
Definition marker_of (loc : str) : str := loc ++ txt ".marker".
Lemma marker_other loc : marker_of loc <> loc.
Proof. intros X. apply (f_equal (@length N)) in X. unfold marker_of in X. rewrite app_length in X. cbn in X. lia. Qed.
Lemma dev_marker e loc : marker_at (dev_env e loc) (marker_of loc). Proof. apply ma_told. reflexivity. Qed.

Lemma already_nothing A c chk ko avail to_der wo newkey e fs su mi url h : initialise A c chk ko avail to_der wo newkey e fs su mi url = (h, Already) -> h = [].
Proof.
  unfold initialise. destruct (mfg_main A c chk ko avail to_der wo newkey (credential e fs) su mi url) as [h0 x] eqn:M. intros E.
  assert (X : x = Already -> h0 = []).
  { intros ->. revert M. unfold mfg_main. destruct (with_client _ _ _) as [s [r|er|w]]; destruct (credential e fs) as [| |dc]; try discriminate; destruct (dc_active dc); try discriminate; intros M; injection M as <-; reflexivity. }
  destruct (target e); [injection E as <- ->; auto|]. destruct (existsb is_save h0); [discriminate E|]. injection E as <- ->. auto.
Qed.
(** C109: after a device was manufactured, only its file has changed; and the client that is run for it, in whatever environment, has
    exactly the credential in that file, which is active, unless there is one from the firmware. *)
Theorem C109_runs : forall A c chk ko avail to_der wo newkey how e loc fs su mi url h fs',
  sane_small wo -> opens_bytes A -> outputs_ok c -> hmac_bytes c -> good_keys c to_der newkey su -> honest wo how ->
  aio_manufacture A c chk ko avail to_der wo newkey how e loc fs su mi url = (h, fs', true) -> h <> [] ->
  (forall q, q <> loc -> aget q fs' = aget q fs) /\
  exists data info dc, aget loc fs' = Some data /\ has_credential data info dc /\ dc_active dc = true /\
    forall e2, aget FIRMWARE fs = None -> loc <> FIRMWARE -> aget (marker_of loc) fs = None ->
      exists m, to_be (dev_env e2 loc) loc m /\ disk_of (dev_env e2 loc) fs' = DevDisk false (Cred dc) m.
Proof.
  intros A c chk ko avail to_der wo newkey how e loc fs su mi url h fs' SA OB OC HB GK HO R NE. unfold aio_manufacture in R.
  destruct (initialise A c chk ko avail to_der wo newkey (mfg_env e loc) fs su mi url) as [h0 x] eqn:I. injection R as -> F OK.
  assert (XI : x = Initialised).
  { destruct x; try discriminate OK; [|reflexivity]. exfalso. apply NE. exact (already_nothing _ _ _ _ _ _ _ _ _ _ _ _ _ _ I). }
  subst x. destruct (C103_found_partial A c chk ko avail to_der wo newkey how _ _ _ _ _ _ SA OB OC HB GK HO I) as (p & data & info & dc & keys & hd & h1 & TG & AG & HC & AC & _ & _ & FR & FIND).
  assert (p = loc) as -> by (cbn in TG; congruence). rewrite F in AG, FR, FIND. split; [exact FR|]. exists data, info, dc. split; [exact AG|]. split; [exact HC|]. split; [exact AC|].
  intros e2 NF NL NM. apply FIND.
  - apply counts_named; [reflexivity|exact NF|exact NL].
  - exact NM.
  - apply marker_other.
Qed.
(** Whenever it succeeds, also if it did nothing, a credential can be read at the location. *)
Theorem C109_readable : forall A c chk ko avail to_der wo newkey how e loc fs su mi url h fs',
  aio_manufacture A c chk ko avail to_der wo newkey how e loc fs su mi url = (h, fs', true) -> exists b info dc, aget loc fs' = Some b /\ has_credential b info dc.
Proof.
  intros A c chk ko avail to_der wo newkey how e loc fs su mi url h fs' R. unfold aio_manufacture in R.
  destruct (initialise A c chk ko avail to_der wo newkey (mfg_env e loc) fs su mi url) as [h0 x]. injection R as -> F OK. rewrite F in OK.
  assert (X : content fs' loc <> None) by (intros X; rewrite X in OK; destruct x; discriminate). unfold content in X.
  destruct (aget loc fs') as [b|] eqn:G; [|destruct (X eq_refl)]. exists b. unfold has_credential. destruct (from_slice as_cred b) as [[info dc]|er|w]; [|destruct (X eq_refl)..].
  exists info, dc. auto.
Qed.
(** A device that has onboarded does not do so again, in whatever environment it is run, as long as its marker is there. *)
Theorem C109_once : forall A c chk ko avail show_ip prefix wo others e loc allow fs n h fs' b,
  sane wo -> aio_run A c chk ko avail show_ip prefix wo others e loc allow fs n = (h, fs', Onboarded b) -> spares others (marker_of loc) ->
  aget (marker_of loc) fs' <> None /\
  forall A' c' chk' ko' avail' show_ip' prefix' wo' others' e2 allow' fs2 n' h2 fs2' x2, sane wo' -> aget (marker_of loc) fs2 = aget (marker_of loc) fs' ->
    aio_run A' c' chk' ko' avail' show_ip' prefix' wo' others' e2 loc allow' fs2 n' = (h2, fs2', x2) -> h2 = [] /\ fs2' = fs2.
Proof.
  intros A c chk ko avail show_ip prefix wo others e loc allow fs n h fs' b SA R SP. unfold aio_run in R.
  destruct (onboard A c chk ko avail show_ip prefix wo (dev_env e loc) allow fs n) as [h0 x] eqn:O. injection R as -> F ->.
  destruct (C102_marker A c chk ko avail show_ip prefix wo others _ _ _ _ _ _ _ SA O (dev_marker e loc)) as [_ M]. destruct (M b eq_refl SP) as [_ P]. rewrite F in P. split; [exact P|].
  intros A' c' chk' ko' avail' show_ip' prefix' wo' others' e2 allow' fs2 n' h2 fs2' x2 SA' EQ R2. unfold aio_run in R2.
  destruct (onboard A' c' chk' ko' avail' show_ip' prefix' wo' (dev_env e2 loc) allow' fs2 n') as [h3 x3] eqn:O2. injection R2 as -> F2 _.
  destruct (C102_marker A' c' chk' ko' avail' show_ip' prefix' wo' others' _ _ _ _ _ _ _ SA' O2 (dev_marker e2 loc)) as [N0 _]. assert (h2 = []) as -> by (apply N0; rewrite EQ; exact P). split; [reflexivity|].
  rewrite <- F2. unfold device_files. destruct (find (dev_env e2 loc) fs2) as [| |p m]; try reflexivity. destruct (content fs2 p) as [[info dc]|]; reflexivity.
Qed.

(** * C110: manufacturing a device again *)
(** One would like that it leaves an active credential alone. *)
Definition C110_statement : Prop := forall A c chk ko avail to_der wo newkey how e loc fs su mi url b info dc,
  sane_small wo -> opens_bytes A -> outputs_ok c -> hmac_bytes c -> good_keys c to_der newkey su -> honest wo how ->
  aget loc fs = Some b -> has_credential b info dc -> dc_active dc = true ->
  fst (fst (aio_manufacture A c chk ko avail to_der wo newkey how e loc fs su mi url)) = [].
(** It does so only if the environment of the command makes that credential, or another active one, count. *)
Theorem C110_left_alone_partial : forall A c chk ko avail to_der wo newkey how e loc fs su mi url p b info dc,
  used e fs p b -> has_credential b info dc -> dc_active dc = true ->
  exists ok, aio_manufacture A c chk ko avail to_der wo newkey how e loc fs su mi url = ([], fs, ok).
Proof.
  intros A c chk ko avail to_der wo newkey how e loc fs su mi url p b info dc U HC AC. unfold aio_manufacture.
  rewrite (C104_left_alone A c chk ko avail to_der wo newkey (mfg_env e loc) fs p b info dc su mi url U HC AC). eexists. reflexivity.
Qed.
Lemma manufacture_events A c chk ko avail to_der wo newkey how e loc fs su mi url :
  fst (fst (aio_manufacture A c chk ko avail to_der wo newkey how e loc fs su mi url)) = fst (initialise A c chk ko avail to_der wo newkey (mfg_env e loc) fs su mi url).
Proof. unfold aio_manufacture. destruct (initialise _ _ _ _ _ _ _ _ _ _ _ _ _). reflexivity. Qed.
Definition ld_files : files := mfg_files lm_how (lm_env (Some (EText lm_dest))) [] (fst mcl_diun_run).
Lemma ld_env : mfg_env silent_env lm_dest = lm_env (Some (EText lm_dest)). Proof. reflexivity. Qed.
Lemma ld_some : fst mcl_diun_run <> [].
Proof.
  destruct (C103_found_partial toy_aead toy true toy_kex true mcl_der (mcl_world false []) mcl_newkey lm_how _ _ _ _ _ _ (mcl_sane _ _) toy_opens toy_outputs_ok toy_hmac_bytes lm_good (lm_honest _)
    (lm_empty (Some (EText lm_dest)) Logic.I)) as (p & data & info & dc & keys & hd & h1 & _ & _ & _ & _ & _ & (u & w & E) & _). rewrite E. destruct h1; discriminate.
Qed.
(** The case: a device is manufactured in an environment in which nothing is said. *)
Lemma manufactured A c chk ko avail to_der wo newkey how e loc fs su mi url h data info dc :
  initialise A c chk ko avail to_der wo newkey (mfg_env e loc) fs su mi url = (h, Initialised) -> aget loc (mfg_files how (mfg_env e loc) fs h) = Some data -> has_credential data info dc ->
  aio_manufacture A c chk ko avail to_der wo newkey how e loc fs su mi url = (h, mfg_files how (mfg_env e loc) fs h, true).
Proof. intros I AG HC. unfold aio_manufacture. rewrite I. unfold content. rewrite AG. unfold has_credential in HC. rewrite HC. reflexivity. Qed.
Example C109_case : aio_manufacture toy_aead toy true toy_kex true mcl_der (mcl_world false []) mcl_newkey lm_how silent_env lm_dest [] lm_diun mcl_info mcl_url = (fst mcl_diun_run, ld_files, true) /\
  fst mcl_diun_run <> [].
Proof.
  split; [|exact ld_some]. destruct C103_case as (p & data & info & dc & m & TG & AG & HC & _). rewrite lm_target in TG. injection TG as <-.
  apply (manufactured _ _ _ _ _ _ _ _ lm_how silent_env lm_dest [] lm_diun mcl_info mcl_url _ data info dc); [rewrite ld_env; apply (lm_empty (Some (EText lm_dest)) Logic.I)|exact AG|exact HC].
Qed.
(** ... and a device is run there. *)
Lemma ld_disk : disk_of (dev_env silent_env lo_path) lo_fs = cl_disk KeepIt. Proof. exact (lo_disk (Some (EText (marker_of lo_path))) eq_refl). Qed.
Lemma ran A c chk ko avail show_ip prefix wo others e loc allow fs n h x : onboard A c chk ko avail show_ip prefix wo (dev_env e loc) allow fs n = (h, x) ->
  aio_run A c chk ko avail show_ip prefix wo others e loc allow fs n = (h, device_files others (dev_env e loc) fs h, x).
Proof. intros O. unfold aio_run. rewrite O. reflexivity. Qed.
Example C109_once_case : exists fs', aio_run toy_aead toy true toy_kex true to_sh None (cl_world [] ex_exts) lo_none silent_env lo_path false lo_fs 1 = (fst lo_run, fs', Onboarded true) /\ fst lo_run <> [].
Proof.
  eexists. split; [|exact lo_some]. apply ran. rewrite onboard_is, ld_disk. rewrite <- lo_exit, <- cl_main_as. unfold lo_run. apply surjective_pairing.
Qed.
Theorem C110_refuted : ~ C110_statement.
Proof.
  intros H. destruct C103_case as (p & data & info & dc & m & TG & AG & HC & AC & _). rewrite lm_target in TG. injection TG as <-.
  pose proof (H toy_aead toy true toy_kex true mcl_der (mcl_world false []) mcl_newkey lm_how silent_env lm_dest ld_files lm_diun mcl_info mcl_url data info dc (mcl_sane _ _) toy_opens toy_outputs_ok toy_hmac_bytes lm_good (lm_honest _) AG HC AC) as X.
  rewrite manufacture_events, ld_env in X. rewrite (lm_new _ _ lm_dest) in X; [|exact lm_unseen_cred|reflexivity]. exact (ld_some X).
Qed.
Print Assumptions C109_runs.
Print Assumptions C109_readable.
Print Assumptions C109_once.
Print Assumptions C110_left_alone_partial.
Print Assumptions C110_refuted.
