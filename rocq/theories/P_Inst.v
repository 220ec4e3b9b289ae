(** C111: from the installation image to the onboarding of the installed system. *)
From Coq Require Import Lia ZifyBool ZifyNat ZifyN.
From Verif Require Import Base BaseFacts CborModel ValueModel Text TypesModel VoucherModel CryptoSpec VoucherSpec Assoc KexModel RvModel MsgModel SessionModel
  HttpClientModel RvServerModel SiModel DevSiModel OwnerModel MfgModel ToyCrypto ToySession P_Voucher P_Rv P_Kex P_RvServer P_To0 ClientModel ClientSpec ClientProofs ClientProofs2 ClientToy P_Client.
From Verif Require Import MfgSpec MfgClientModel MfgClientSpec MfgClientProofs MfgClientProofs2 P_Mfg P_MfgClient LocModel LocSpec LocProofs P_Loc DevModel P_Dev InstModel.
Local Open Scope N_scope.

(** * Mounting *)
Lemma eqb_prefix (x a b : str) : bytes_eqb (x ++ a) (x ++ b) = bytes_eqb a b.
Proof. induction x as [|k x IH]; [reflexivity|]. cbn. rewrite N.eqb_refl. exact IH. Qed.
Lemma aget_hidden {X} p (root : list (name * X)) : under_boot p = true -> aget p (filter (fun f => negb (under_boot (fst f))) root) = None.
Proof.
  intros U. induction root as [|[k v] r IH]; [reflexivity|]. cbn [filter fst]. destruct (under_boot k) eqn:K; cbn [negb]; [exact IH|]. cbn [aget].
  destruct (bytes_eqb p k) eqn:E; [|exact IH]. apply bytes_eqb_spec in E. congruence.
Qed.
Lemma mounted_boot n boot root : aget (BOOT_DIR ++ n) (mounted boot root) = aget n boot.
Proof.
  unfold mounted. induction boot as [|[k v] r IH].
  - cbn [map app]. apply aget_hidden. reflexivity.
  - cbn [map app fst snd aget]. rewrite eqb_prefix, IH. reflexivity.
Qed.
Lemma mounted_other p boot root : under_boot p = false -> aget p (mounted boot root) = aget p root.
Proof.
  intros U. unfold mounted. induction boot as [|[k v] r IH].
  - cbn [map app]. induction root as [|[k v] r IH]; [reflexivity|]. cbn [filter fst]. destruct (under_boot k) eqn:K; cbn [negb aget].
    + destruct (bytes_eqb p k) eqn:E; [apply bytes_eqb_spec in E; congruence|exact IH].
    + destruct (bytes_eqb p k); [reflexivity|exact IH].
  - cbn [map app fst snd aget]. destruct (bytes_eqb p (BOOT_DIR ++ k)) eqn:E; [|exact IH]. apply bytes_eqb_spec in E. subst p. discriminate U.
Qed.
(** What systemd documents of an environment file with one line that gives DEVICE_CREDENTIAL a value in quotes: it is what is between them, if that has
    no quote, backslash or control character in it.  Nothing else is set. *)
Definition reads_line (parse : bytes -> env) : Prop := forall p, (forall x, In x p -> 32 <= x < 127 /\ x <> 34 /\ x <> 92) ->
  parse (txt "DEVICE_CREDENTIAL=" ++ [34] ++ p ++ [34; 10]) = Env (Some (EText p)) false false None None.
Lemma reads_it parse : reads_line parse -> parse ENV_LINE = Env (Some (EText BOOT)) false false None None.
Proof.
  intros RL. apply (RL BOOT). assert (X : forallb (fun x => (32 <=? x) && (x <? 127) && negb (x =? 34) && negb (x =? 92)) BOOT = true) by (vm_compute; reflexivity).
  intros x I. rewrite forallb_forall in X. specialize (X x I). lia.
Qed.
Lemma boot_other : BOOT <> FIRMWARE. Proof. intros X. apply (f_equal (fun x => nth 1 x 0)) in X. vm_compute in X. discriminate. Qed.
Lemma boot_etc : ETC <> BOOT. Proof. intros X. apply (f_equal (fun x => nth 1 x 0)) in X. vm_compute in X. discriminate. Qed.
Lemma boot_marker : MARKER <> BOOT. Proof. intros X. apply (f_equal (fun x => nth 1 x 0)) in X. vm_compute in X. discriminate. Qed.
Lemma etc_marker : MARKER <> ETC. Proof. intros X. apply (f_equal (@length N)) in X. vm_compute in X. discriminate. Qed.

Lemma names_differ : CRED_NAME <> ENV_NAME. Proof. intros X. apply (f_equal (@length N)) in X. vm_compute in X. discriminate. Qed.

(** If the installation succeeded and a credential was made, it is on the boot partition, active, and nothing else there has changed but the
    environment file.  The client of any system that is started with this partition at /boot, and has neither a marker nor a credential
    from the firmware, has exactly this credential. *)
Theorem C111_installed : forall A c chk ko avail to_der wo newkey how tools cp cat image boot su mi url h image' boot',
  sane_small wo -> opens_bytes A -> outputs_ok c -> hmac_bytes c -> good_keys c to_der newkey su -> honest wo how ->
  service A c chk ko avail to_der wo newkey how tools cp cat image boot su mi url = (h, image', boot', true) -> h <> [] ->
  (forall q, q <> CRED_NAME -> q <> ENV_NAME -> aget q boot' = aget q boot) /\
  exists data info dc keys hd h1 u w, aget CRED_NAME boot' = Some data /\ has_credential data info dc /\ dc_active dc = true /\
    initialised A c chk ko avail to_der wo su h1 data keys hd info dc /\ h = h1 ++ [TFx (EWrite CRED_PATH data 438); TWire u w] /\
    forall parse root, reads_line parse -> aget FIRMWARE root = None -> aget MARKER root = None ->
      let fs := mounted boot' root in used (unit_env parse fs) fs BOOT data /\ disk_of (unit_env parse fs) fs = DevDisk false (Cred dc) KeepIt.
Proof.
  intros A c chk ko avail to_der wo newkey how tools cp cat image boot su mi url h image' boot' SA OB OC HB GK HO R NE. unfold service in R.
  destruct (initialise A c chk ko avail to_der wo newkey initrd_env image su mi url) as [h0 x] eqn:I.
  assert (X : h0 = h /\ (x = Initialised \/ x = Already) /\ tools = true /\ exists data, aget ETC (mfg_files how initrd_env image h0) = Some data /\ cp = Whole /\ cat = Whole /\
    boot' = aset ENV_NAME ENV_LINE (aset CRED_NAME data boot)).
  { destruct x; try discriminate R; destruct tools; try discriminate R; destruct (aget ETC (mfg_files how initrd_env image h0)) as [data|]; try discriminate R;
      destruct cp; try discriminate R; destruct cat; try discriminate R; cbn [write_file] in R; injection R as -> _ <-; (split; [reflexivity|]); (split; [auto|]); (split; [reflexivity|]);
      exists data; auto. }
  destruct X as (-> & X & _ & data & AG & _ & _ & ->). assert (x = Initialised) as ->.
  { destruct X as [->| ->]; [reflexivity|]. exfalso. apply NE. exact (already_nothing _ _ _ _ _ _ _ _ _ _ _ _ _ _ I). }
  clear X R. destruct (C103_found_partial A c chk ko avail to_der wo newkey how _ _ _ _ _ _ SA OB OC HB GK HO I) as (p & data' & info & dc & keys & hd & h1 & TG & AG' & HC & AC & IN & (u & w & E) & _ & _).
  change (Some ETC = Some p) in TG. injection TG as <-. rewrite AG in AG'. injection AG' as <-. split.
  { intros q Q1 Q2. rewrite !aget_aset_ne by assumption. reflexivity. }
  assert (GC : aget CRED_NAME (aset ENV_NAME ENV_LINE (aset CRED_NAME data boot)) = Some data) by (rewrite aget_aset_ne; [apply aget_aset_eq|exact names_differ]).
  exists data, info, dc, keys, hd, h1, u, w. split; [exact GC|]. split; [exact HC|]. split; [exact AC|]. split; [exact IN|]. split; [exact E|].
  intros parse root RL NF NM fs.
  assert (UE : unit_env parse fs = Env (Some (EText BOOT)) false false None None).
  { unfold unit_env. change BOOT_ENV with (BOOT_DIR ++ ENV_NAME). unfold fs. rewrite mounted_boot, aget_aset_eq. exact (reads_it _ RL). }
  assert (GB : aget BOOT fs = Some data) by (change BOOT with (BOOT_DIR ++ CRED_NAME); unfold fs; rewrite mounted_boot; exact GC).
  assert (GF : aget FIRMWARE fs = None) by (unfold fs; rewrite mounted_other by reflexivity; exact NF).
  assert (GM : aget MARKER fs = None) by (unfold fs; rewrite mounted_other by reflexivity; exact NM).
  rewrite UE. clearbody fs. split.
  - split; [right; discriminate|]. split; [exact GB|]. exists [FIRMWARE], [ETC]. split; [reflexivity|]. intros q [<-|[]]. exact GF.
  - unfold disk_of, credential, method, find, resolve_env, resolve, marker_path, present. cbn [ev_cred ev_marker ev_delete ev_deactivate]. rewrite GF, GB, GM. unfold content. rewrite GB.
    unfold has_credential in HC. rewrite HC. reflexivity.
Qed.
(** An installation whose client fails, or that cannot get at the boot partition, leaves that partition alone; and however it fails, only the two files on it can have changed. *)
Theorem C111_failed : forall A c chk ko avail to_der wo newkey how tools cp cat image boot su mi url h image' boot' ok,
  service A c chk ko avail to_der wo newkey how tools cp cat image boot su mi url = (h, image', boot', ok) ->
  (forall q, q <> CRED_NAME -> q <> ENV_NAME -> aget q boot' = aget q boot) /\
  (tools = false \/ (forall x, initialise A c chk ko avail to_der wo newkey silent_env image su mi url = (h, x) -> x <> Initialised /\ x <> Already) -> boot' = boot /\ ok = false).
Proof.
  intros A c chk ko avail to_der wo newkey how tools cp cat image boot su mi url h image' boot' ok R. unfold service in R. change initrd_env with silent_env in R.
  destruct (initialise A c chk ko avail to_der wo newkey silent_env image su mi url) as [h0 x] eqn:I.
  assert (X : h0 = h) by (destruct x, tools, (aget ETC (mfg_files how silent_env image h0)), cp; injection R; auto). subst h0. split.
  - intros q Q1 Q2. destruct x, tools, (aget ETC (mfg_files how silent_env image h)), cp, cat; injection R as _ <- _; cbn [write_file]; rewrite ?aget_aset_ne by assumption; reflexivity.
  - intros [->|F].
    + destruct x; injection R as _ <- <-; auto.
    + destruct (F x eq_refl) as [F1 F2]. destruct x; try congruence; injection R as _ <- <-; auto.
Qed.
(** A system whose client has onboarded has a marker, and as long as it has, its client does nothing, whatever is on the boot partition.
    (The environment file must not name another marker.) *)
Theorem C111_once : forall A c chk ko avail show_ip prefix wo others parse moves allow fs n h fs' b,
  sane wo -> unit_run A c chk ko avail show_ip prefix wo others parse moves allow fs n = (h, fs', Onboarded b) -> ev_marker (unit_env parse fs) = None -> spares others MARKER ->
  aget MARKER fs' <> None /\
  forall A' c' chk' ko' avail' show_ip' prefix' wo' others' parse' moves' allow' fs2 n', sane wo' -> aget MARKER fs2 = aget MARKER fs' -> ev_marker (unit_env parse' fs2) = None ->
    fst (fst (unit_run A' c' chk' ko' avail' show_ip' prefix' wo' others' parse' moves' allow' fs2 n')) = [] /\
    aget MARKER (snd (fst (unit_run A' c' chk' ko' avail' show_ip' prefix' wo' others' parse' moves' allow' fs2 n'))) = aget MARKER fs2.
Proof.
  assert (MV : forall fs, aget MARKER (move fs) = aget MARKER fs).
  { intros fs. unfold move. destruct (aget BOOT fs); [|reflexivity]. rewrite aget_aset_ne by exact etc_marker. rewrite aget_adel_ne by exact boot_marker. reflexivity. }
  assert (MI : forall (d : bool) fs, aget MARKER (if d then move fs else fs) = aget MARKER fs) by (intros [] fs; [apply MV|reflexivity]).
  intros A c chk ko avail show_ip prefix wo others parse moves allow fs n h fs' b SA R EM SP. unfold unit_run in R. cbv zeta in R.
  destruct (onboard A c chk ko avail show_ip prefix wo (unit_env parse fs) allow fs n) as [h0 x] eqn:O. injection R as -> F ->.
  assert (MA : forall e, ev_marker e = None -> marker_at e MARKER) by (intros e E; apply ma_default; rewrite E; discriminate).
  destruct (C102_marker A c chk ko avail show_ip prefix wo others _ _ _ _ _ _ _ SA O (MA _ EM)) as [_ M]. destruct (M b eq_refl SP) as [_ P].
  assert (P' : aget MARKER fs' <> None) by (rewrite <- F, MI; exact P). split; [exact P'|].
  intros A' c' chk' ko' avail' show_ip' prefix' wo' others' parse' moves' allow' fs2 n' SA' EQ EM'. unfold unit_run. cbv zeta.
  destruct (onboard A' c' chk' ko' avail' show_ip' prefix' wo' (unit_env parse' fs2) allow' fs2 n') as [h3 x3] eqn:O2. cbn [fst snd].
  destruct (C102_marker A' c' chk' ko' avail' show_ip' prefix' wo' others' _ _ _ _ _ _ _ SA' O2 (MA _ EM')) as [N0 _]. assert (h3 = []) as -> by (apply N0; rewrite EQ; exact P'). split; [reflexivity|].
  rewrite MI. unfold device_files. destruct (LocModel.find (unit_env parse' fs2) fs2) as [| |p m]; try reflexivity. destruct (content fs2 p) as [[info dc]|]; reflexivity.
Qed.
(** The credential of the installation is not lost: after a run that onboards, the file is either where it was or in the default place, unchanged. *)
Theorem C111_kept : forall A c chk ko avail show_ip prefix wo others parse moves allow fs n h fs' b data,
  sane wo -> reads_line parse -> aget BOOT_ENV fs = Some ENV_LINE -> used (unit_env parse fs) fs BOOT data -> spares others BOOT -> bytes_ok data -> nlen data < 4294967296 ->
  unit_run A c chk ko avail show_ip prefix wo others parse moves allow fs n = (h, fs', Onboarded b) ->
  if moves then aget ETC fs' = Some data /\ aget BOOT fs' = None else aget BOOT fs' = Some data.
Proof.
  intros A c chk ko avail show_ip prefix wo others parse moves allow fs n h fs' b data SA RL EL U SP BO BL R. unfold unit_run in R. cbv zeta in R.
  destruct (onboard A c chk ko avail show_ip prefix wo (unit_env parse fs) allow fs n) as [h0 x] eqn:O. injection R as -> F ->. cbn [succeeded andb] in F.
  assert (UE : unit_env parse fs = Env (Some (EText BOOT)) false false None None) by (unfold unit_env; rewrite EL; exact (reads_it _ RL)).
  assert (TB : to_be (unit_env parse fs) BOOT KeepIt) by (rewrite UE; apply tb_keep; [reflexivity|exact boot_other|reflexivity|reflexivity]).
  pose proof (C102_put_away_partial A c chk ko avail show_ip prefix wo others _ _ _ _ _ _ _ _ KeepIt SA O U TB SP BO BL) as K. cbv iota in K.
  destruct moves; rewrite <- F; [|exact K]. unfold move. rewrite K. split; [apply aget_aset_eq|].
  rewrite aget_aset_ne by (apply not_eq_sym; exact boot_etc). apply aget_adel_eq.
Qed.

(** * The case *)
Definition in_parse (b : bytes) : env :=
  if bytes_eqb (firstn 19 b) (txt "DEVICE_CREDENTIAL=" ++ [34]) then Env (Some (EText (firstn (length b - 21) (skipn 19 b)))) false false None None else silent_env.
Lemma in_reads : reads_line in_parse.
Proof.
  intros p _. rewrite app_assoc. set (x := txt "DEVICE_CREDENTIAL=" ++ [34]). assert (L : length x = 19%nat) by reflexivity. unfold in_parse.
  rewrite firstn_app, L, Nat.sub_diag, firstn_O, app_nil_r. rewrite (firstn_all2 x) by lia. fold x. rewrite bytes_eqb_refl.
  rewrite skipn_app, L, Nat.sub_diag. rewrite (skipn_all2 x) by lia. cbn [app skipn]. rewrite !app_length, L. cbn [length].
  replace (19 + (length p + 2) - 21)%nat with (length p) by lia. rewrite firstn_app, Nat.sub_diag, firstn_O, app_nil_r, firstn_all. reflexivity.
Qed.
Lemma serviced A c chk ko avail to_der wo newkey how image boot su mi url h data :
  initialise A c chk ko avail to_der wo newkey initrd_env image su mi url = (h, Initialised) -> aget ETC (mfg_files how initrd_env image h) = Some data ->
  service A c chk ko avail to_der wo newkey how true Whole Whole image boot su mi url = (h, mfg_files how initrd_env image h, aset ENV_NAME ENV_LINE (aset CRED_NAME data boot), true).
Proof. intros I G. unfold service. rewrite I, G. reflexivity. Qed.
Example C111_case : exists image' boot', service toy_aead toy true toy_kex true mcl_der (mcl_world false []) mcl_newkey lm_how true Whole Whole [] [] lm_diun mcl_info mcl_url = (fst mcl_diun_run, image', boot', true) /\
  fst mcl_diun_run <> [].
Proof.
  assert (I : initialise toy_aead toy true toy_kex true mcl_der (mcl_world false []) mcl_newkey initrd_env [] lm_diun mcl_info mcl_url = (fst mcl_diun_run, Initialised)) by exact (lm_empty None Logic.I).
  destruct (C103_found_partial toy_aead toy true toy_kex true mcl_der (mcl_world false []) mcl_newkey lm_how _ _ _ _ _ _ (mcl_sane _ _) toy_opens toy_outputs_ok toy_hmac_bytes lm_good (lm_honest _) I)
    as (p & data & _ & _ & _ & _ & _ & TG & AG & _). change (Some ETC = Some p) in TG. injection TG as <-.
  do 2 eexists. split; [apply (serviced _ _ _ _ _ _ _ _ lm_how [] [] lm_diun mcl_info mcl_url _ data I AG)|exact ld_some].
Qed.
Definition in_fs : files := mounted [(CRED_NAME, lo_data); (ENV_NAME, ENV_LINE)] [].
Lemma in_disk : disk_of (unit_env in_parse in_fs) in_fs = cl_disk KeepIt. Proof. vm_compute. reflexivity. Qed.
Lemma unit_ran A c chk ko avail show_ip prefix wo others parse moves allow fs n h x : onboard A c chk ko avail show_ip prefix wo (unit_env parse fs) allow fs n = (h, x) ->
  exists fs', unit_run A c chk ko avail show_ip prefix wo others parse moves allow fs n = (h, fs', x).
Proof. intros O. unfold unit_run. cbv zeta. rewrite O. eexists. reflexivity. Qed.
Example C111_run_case : exists fs', unit_run toy_aead toy true toy_kex true to_sh None (cl_world [] ex_exts) lo_none in_parse true false in_fs 1 = (fst lo_run, fs', Onboarded true) /\ fst lo_run <> [] /\
  aget BOOT_ENV in_fs = Some ENV_LINE /\ used (unit_env in_parse in_fs) in_fs BOOT lo_data /\ bytes_ok lo_data /\ nlen lo_data < 4294967296.
Proof.
  destruct (unit_ran toy_aead toy true toy_kex true to_sh None (cl_world [] ex_exts) lo_none in_parse true false in_fs 1 (fst lo_run) (Onboarded true)) as [fs' R].
  { rewrite onboard_is, in_disk. rewrite <- lo_exit, <- cl_main_as. unfold lo_run. apply surjective_pairing. }
  exists fs'. split; [exact R|]. split; [exact lo_some|]. split; [reflexivity|]. destruct lo_data_ok as [BO BL]. split.
  - split; [right; discriminate|]. split; [reflexivity|]. exists [FIRMWARE], [ETC]. split; [reflexivity|]. intros q [<-|[]]. reflexivity.
  - split; [|exact BL]. apply Forall_forall. intros x I. rewrite forallb_forall in BO. specialize (BO x I). lia.
Qed.
Print Assumptions C111_installed.
Print Assumptions C111_failed.
Print Assumptions C111_once.
Print Assumptions C111_kept.
