(** A configuration, turned into a reply, turned into a list, carried out by the device. *)
From Verif Require Import Base BaseFacts CborSpec CborModel ValueModel ValueProofs Text Hex TypesModel TypesProofs CryptoSpec SiModel DevSiModel SiSpec SiProofs SiProofs2 SiProofs3 SiApiModel SiApiSpec SiApiProofs.
Local Open Scope N_scope.
Local Opaque dec_top any_value.

Section run.
Context (c : crypto) (w : machine) (prefix : option str) (W : willing w) (HS : hash_sizes c) (OUT : outputs_ok c).

(** Between two items of the configuration. *)
Record calm (s : dst) (act : list simod) (u p k : option str) (reb : bool) (effs : list effect) : Prop := {
  ca_active : d_active s = act; ca_user : d_user s = u; ca_pw : d_pw s = p; ca_keys : d_keys s = k;
  ca_bin : d_bin s = no_bin; ca_cmd : d_cmd s = no_cmd; ca_disk : d_disk s = no_disk;
  ca_reboot : d_reboot s = reb; ca_log : effects (d_log s) = effs
}.
Lemma step_on m key v s : text_eqb key (txt "active") = false -> existsb (simod_eqb m) (d_active s) = true ->
  step c w prefix s (m, key, v) =
  (let s := noted s (Read (m, key, v)) in
   match m with
   | SSHKey => step_ssh s key v
   | Reboot => if text_eqb key (txt "reboot") then need s (v_bool v) (fun b => go (set_reboot s b)) else go s
   | SubscriptionManager => step_rhsm s key v
   | BinaryFile => step_bin c w prefix s key v
   | Command => step_cmd w s key v
   | DiskEncryption => step_disk w s key v
   | DevMod | Unsupported _ => go s
   end).
Proof. intros K E. unfold step. rewrite K. cbn [noted d_active]. rewrite E. reflexivity. Qed.
Lemma step_act m s : step c w prefix s (m, txt "active", VBool true) = go (set_active (noted s (Read (m, txt "active", VBool true))) (mods_insert (d_active s) m)).
Proof. reflexivity. Qed.
Lemma steps_app a : forall s b, steps c w prefix s (a ++ b) = andthen (steps c w prefix s a) (fun s1 => steps c w prefix s1 b).
Proof.
  induction a as [|x a IH]; intros s b; [reflexivity|]. cbn [app steps]. destruct (step c w prefix s x) as [s1 [u| |]]; cbn [andthen]; [apply IH|reflexivity|reflexivity].
Qed.
Lemma v_str_text s : forallb is_scalar s = true -> v_str (text_v s) = Some s.
Proof. intros H. cbn [v_str text_v]. apply utf8_roundtrip. exact H. Qed.
Lemma v_strs_text l : Forall sendable l -> v_strs (VArr (map text_v l)) = Some l.
Proof.
  intros F. cbn [v_strs]. induction F as [|x l [X _] F IH]; [reflexivity|]. cbn [map v_texts]. rewrite v_str_text by exact X. rewrite IH. reflexivity.
Qed.
Lemma will e es : (forall cmd args, e <> ERun cmd args) -> w (es ++ [e]) = Fine.
Proof. intros N. pose proof (W es e) as H. destruct e; try exact H. exfalso. eapply N. reflexivity. Qed.

(** *** A file *)
Definition file_entries (path : str) (data : bytes) (mode : option N) : list sientry :=
  [(BinaryFile, txt "name", text_v path); (BinaryFile, txt "length", VInt (Z.of_N (nlen data)))] ++
  (match mode with Some m => [(BinaryFile, txt "mode", VInt (Z.of_N m))] | None => [] end) ++
  [(BinaryFile, txt "data001", VBytes data); (BinaryFile, txt "sha-384", VBytes (c_hash c Sha384 data))].

Ltac nextstep := match goal with
  | H : existsb (simod_eqb ?m) (d_active ?s) = true |- context [step c w prefix ?s' (?m, ?k, ?v)] =>
    rewrite (step_on m k v s' eq_refl H); cbv zeta
  end.

Lemma file_run s act u pw k reb effs path data mode p : calm s act u pw k reb effs -> existsb (simod_eqb BinaryFile) act = true ->
  forallb is_scalar path = true -> placed prefix path p -> segments path <> [] -> nlen data <= CAPACITY ->
  match mode with Some m => m < 4294967296 | None => True end ->
  exists s', steps c w prefix s (file_entries path data mode) = go s' /\
    calm s' act u pw k reb (effs ++ [EWrite p data (match mode with Some m => m | None => 384 end)]).
Proof.
  intros CA AC PS PL SG LEN MD.
  pose proof (placed_real _ _ _ PL SG) as SP. apply destination_placed in PL.
  assert (HP : has_parent p = true).
  { destruct (has_parent p) eqn:E; [reflexivity|]. apply no_parent_segments in E. contradiction. }
  assert (U64 : v_u64 (VInt (Z.of_N (nlen data))) = Some (nlen data)).
  { cbn [v_u64]. rewrite Z.mod_small, N2Z.id by (unfold CAPACITY in LEN; lia). reflexivity. }
  assert (CAP : CAPACITY <? nlen data = false) by lia.
  assert (HD : hash_from_digest Sha384 (c_hash c Sha384 data) = Ok (Hash Sha384 (c_hash c Sha384 data))).
  { unfold hash_from_digest. rewrite HS, N.eqb_refl. reflexivity. }
  assert (HC : hash_compare_data c (Hash Sha384 (c_hash c Sha384 data)) data = Ok tt).
  { unfold hash_compare_data. cbn [h_type h_value digestible]. unfold memcmp_eq. rewrite N.eqb_refl. cbn [negb bind]. rewrite bytes_eqb_refl. reflexivity. }
  destruct CA as [C1 C2 C3 C4 C5 C6 C7 C8 C9]. destruct s as [a0 u0 p0 k0 o1 o2 o3 b0 cm0 dk0 rb0 out0 log0]. cbn [d_active d_user d_pw d_keys d_bin d_cmd d_disk d_reboot d_log] in *. subst.
  set (st := fun b log => Dst act u pw k o1 o2 o3 b no_cmd no_disk reb out0 log).
  assert (STEP : forall b log key v r, text_eqb key (txt "active") = false ->
     step_bin c w prefix (st b (log ++ [Read (BinaryFile, key, v)])) key v = r -> step c w prefix (st b log) (BinaryFile, key, v) = r).
  { intros b log key v r K E. rewrite step_on by assumption. exact E. }
  assert (S1 : forall log, step c w prefix (st no_bin log) (BinaryFile, txt "name", text_v path) = go (st (Bin (Some path) None None None) (log ++ [Read (BinaryFile, txt "name", text_v path)]))).
  { intros log. apply STEP; [reflexivity|]. unfold step_bin. change (text_eqb (txt "name") (txt "name")) with true. cbn [st d_bin bf_path no_bin]. rewrite v_str_text by exact PS. reflexivity. }
  assert (S2 : forall log, step c w prefix (st (Bin (Some path) None None None) log) (BinaryFile, txt "length", VInt (Z.of_N (nlen data))) =
     go (st (Bin (Some path) (Some (nlen data)) (Some []) None) (log ++ [Read (BinaryFile, txt "length", VInt (Z.of_N (nlen data)))]))).
  { intros log. apply STEP; [reflexivity|]. unfold step_bin. change (text_eqb (txt "length") (txt "name")) with false. change (text_eqb (txt "length") (txt "length")) with true.
    cbv zeta. cbn [st d_bin bf_len]. rewrite U64. cbn [need]. rewrite CAP. reflexivity. }
  assert (S3 : forall log, steps c w prefix (st (Bin (Some path) (Some (nlen data)) (Some []) None) log) (match mode with Some m => [(BinaryFile, txt "mode", VInt (Z.of_N m))] | None => [] end) =
     go (st (Bin (Some path) (Some (nlen data)) (Some []) mode) (log ++ match mode with Some m => [Read (BinaryFile, txt "mode", VInt (Z.of_N m))] | None => [] end))).
  { intros log. destruct mode as [m|]; [|cbn [steps]; rewrite app_nil_r; reflexivity]. cbn [steps].
    rewrite (STEP (Bin (Some path) (Some (nlen data)) (Some []) None) log (txt "mode") (VInt (Z.of_N m)) (go (st (Bin (Some path) (Some (nlen data)) (Some []) (Some m)) (log ++ [Read (BinaryFile, txt "mode", VInt (Z.of_N m))])))).
    - reflexivity.
    - reflexivity.
    - unfold step_bin; cbv zeta;
      change (text_eqb (txt "mode") (txt "name")) with false; change (text_eqb (txt "mode") (txt "length")) with false;
      change (prefixb (txt "data") (txt "mode")) with false; change (text_eqb (txt "mode") (txt "mode")) with true; cbv iota; cbn [st d_bin bf_mode v_u32 need].
      rewrite Z.mod_small, N2Z.id by lia; reflexivity. }
  assert (S4 : forall log, step c w prefix (st (Bin (Some path) (Some (nlen data)) (Some []) mode) log) (BinaryFile, txt "data001", VBytes data) =
     go (st (Bin (Some path) (Some (nlen data)) (Some data) mode) (log ++ [Read (BinaryFile, txt "data001", VBytes data)]))).
  { intros log. apply STEP; [reflexivity|]. reflexivity. }
  assert (S5 : forall log, step c w prefix (st (Bin (Some path) (Some (nlen data)) (Some data) mode) log) (BinaryFile, txt "sha-384", VBytes (c_hash c Sha384 data)) =
     go (st no_bin ((log ++ [Read (BinaryFile, txt "sha-384", VBytes (c_hash c Sha384 data))]) ++ [Did (EWrite p data (match mode with Some m => m | None => 384 end))]))).
  { intros log. apply STEP; [reflexivity|]. unfold step_bin. cbv zeta.
    change (text_eqb (txt "sha-384") (txt "name")) with false; change (text_eqb (txt "sha-384") (txt "length")) with false;
    change (prefixb (txt "data") (txt "sha-384")) with false; change (text_eqb (txt "sha-384") (txt "mode")) with false; change (prefixb (txt "sha-") (txt "sha-384")) with true. cbv iota.
    cbn [v_bytes need]. change (split_on 45 (txt "sha-384")) with [txt "sha"; txt "384"]. cbv iota.
    change (text_eqb (txt "384") (txt "256")) with false. change (text_eqb (txt "384") (txt "384")) with true. cbv iota.
    cbn [need]. rewrite HD. cbn [st d_bin bf_path bf_len bf_data bf_mode need]. rewrite N.eqb_refl. cbn [negb]. rewrite HC. unfold deploy. rewrite PL. cbn [need]. cbv zeta. rewrite HP.
    unfold perform. cbv zeta. cbn [noted d_log]. rewrite effects_app. cbn [effects]. rewrite will by discriminate. reflexivity. }
  eexists. split.
  - unfold file_entries. rewrite steps_app. cbn [steps]. change (Dst act u pw k o1 o2 o3 no_bin no_cmd no_disk reb out0 log0) with (st no_bin log0).
    rewrite S1. cbn [andthen go]. rewrite S2. cbn [andthen go]. rewrite steps_app, S3. cbn [andthen go steps]. rewrite S4. cbn [andthen go]. rewrite S5. cbn [andthen go]. reflexivity.
  - constructor; try reflexivity. cbn [d_log st]. rewrite !effects_app. cbn [effects]. rewrite !app_nil_r.
    assert (E0 : effects (match mode with Some m => [Read (BinaryFile, txt "mode", VInt (Z.of_N m))] | None => [] end) = []) by (destruct mode; reflexivity).
    rewrite E0, app_nil_r. reflexivity.
Qed.

Lemma files_run l : forall s act u pw k reb effs, calm s act u pw k reb effs -> existsb (simod_eqb BinaryFile) act = true ->
  Forall (fun x => let '(path, data, mode, p) := x in forallb is_scalar path = true /\ placed prefix path p /\ segments path <> [] /\ nlen data <= CAPACITY /\
    match mode with Some m => m < 4294967296 | None => True end) l ->
  exists s', steps c w prefix s (flat_map (fun x => let '(path, data, mode, p) := x in file_entries path data mode) l) = go s' /\
    calm s' act u pw k reb (effs ++ map (fun x => let '(path, data, mode, p) := x in EWrite p data (match mode with Some m => m | None => 384 end)) l).
Proof.
  induction l as [|[[[path data] mode] p] l IH]; intros s act u pw k reb effs CA AC F; [exists s; split; [reflexivity|rewrite app_nil_r; exact CA]|].
  inversion F as [|? ? X F']; subst. cbn beta iota in X. destruct X as (X1 & X2 & X3 & X4 & X5). cbn [flat_map map].
  destruct (file_run s act u pw k reb effs path data mode p CA AC X1 X2 X3 X4 X5) as (s1 & E1 & C1).
  destruct (IH s1 _ _ _ _ _ _ C1 AC F') as (s2 & E2 & C2). exists s2. rewrite steps_app, E1. cbn [andthen go]. split; [exact E2|]. rewrite <- app_assoc in C2. exact C2.
Qed.

(** *** A command *)
Definition command_entries (x : sicommand) : list sientry :=
  [(Command, txt "command", text_v (sc_cmd x)); (Command, txt "args", VArr (map text_v (sc_args x))); (Command, txt "may_fail", VBool (sc_may_fail x));
   (Command, txt "return_stdout", VBool (sc_stdout x)); (Command, txt "return_stderr", VBool (sc_stderr x)); (Command, txt "execute", VBool true)].
Lemma command_step s key v : existsb (simod_eqb Command) (d_active s) = true -> text_eqb key (txt "active") = false ->
  step c w prefix s (Command, key, v) = step_cmd w (noted s (Read (Command, key, v))) key v.
Proof. intros A K. rewrite step_on by assumption. reflexivity. Qed.
Lemma command_run_ok s act u pw k reb effs x : calm s act u pw k reb effs -> existsb (simod_eqb Command) act = true -> command_fine x ->
  exists s', steps c w prefix s (command_entries x) = go s' /\ calm s' act u pw k reb (effs ++ [command_run x]).
Proof.
  intros CA AC ([F1 _] & F2 & _). destruct x as [cmd args mf so se]. cbn [sc_cmd sc_args] in *.
  pose proof (v_str_text cmd F1) as V1. pose proof (v_strs_text args F2) as V2.
  destruct CA as [C1 C2 C3 C4 C5 C6 C7 C8 C9]. destruct s as [a0 u0 p0 k0 o1 o2 o3 b0 cm0 dk0 rb0 out0 log0]. cbn [d_active d_user d_pw d_keys d_bin d_cmd d_disk d_reboot d_log] in *. subst.
  set (st := fun cm log => Dst act u pw k o1 o2 o3 no_bin cm no_disk reb out0 log).
  assert (STEP : forall cm log key v r, text_eqb key (txt "active") = false ->
     step_cmd w (st cm (log ++ [Read (Command, key, v)])) key v = r -> step c w prefix (st cm log) (Command, key, v) = r).
  { intros cm log key v r K E. rewrite command_step by assumption. exact E. }
  set (r1 := Read (Command, txt "command", text_v cmd)). set (r2 := Read (Command, txt "args", VArr (map text_v args))).
  set (r3 := Read (Command, txt "may_fail", VBool mf)). set (r4 := Read (Command, txt "return_stdout", VBool so)).
  set (r5 := Read (Command, txt "return_stderr", VBool se)). set (r6 := Read (Command, txt "execute", VBool true)).
  unfold command_entries. cbn [sc_cmd sc_args sc_may_fail sc_stdout sc_stderr]. cbn [steps].
  change (Dst act u pw k o1 o2 o3 no_bin no_cmd no_disk reb out0 log0) with (st no_cmd log0).
  rewrite (STEP no_cmd log0 (txt "command") (text_v cmd) (go (st (Cmd (Some cmd) [] false false false) (log0 ++ [r1])))).
  2: reflexivity.
  2: { unfold step_cmd. cbv zeta. change (text_eqb (txt "command") (txt "command")) with true. cbn [st d_cmd no_cmd cm_cmd]. rewrite V1. reflexivity. }
  cbn [andthen go].
  rewrite (STEP _ (log0 ++ [r1]) (txt "args") (VArr (map text_v args)) (go (st (Cmd (Some cmd) args false false false) ((log0 ++ [r1]) ++ [r2])))).
  2: reflexivity.
  2: { unfold step_cmd. cbv zeta. change (text_eqb (txt "args") (txt "command")) with false. change (text_eqb (txt "args") (txt "args")) with true. cbv iota. rewrite V2. reflexivity. }
  cbn [andthen go].
  rewrite (STEP _ ((log0 ++ [r1]) ++ [r2]) (txt "may_fail") (VBool mf) (go (st (Cmd (Some cmd) args mf false false) (((log0 ++ [r1]) ++ [r2]) ++ [r3])))); [|reflexivity|reflexivity].
  cbn [andthen go].
  rewrite (STEP _ (((log0 ++ [r1]) ++ [r2]) ++ [r3]) (txt "return_stdout") (VBool so) (go (st (Cmd (Some cmd) args mf so false) ((((log0 ++ [r1]) ++ [r2]) ++ [r3]) ++ [r4])))); [|reflexivity|reflexivity].
  cbn [andthen go].
  rewrite (STEP _ ((((log0 ++ [r1]) ++ [r2]) ++ [r3]) ++ [r4]) (txt "return_stderr") (VBool se) (go (st (Cmd (Some cmd) args mf so se) (((((log0 ++ [r1]) ++ [r2]) ++ [r3]) ++ [r4]) ++ [r5])))); [|reflexivity|reflexivity].
  cbn [andthen go]. rewrite command_step by (exact AC || reflexivity).
  set (log := (((((log0 ++ [r1]) ++ [r2]) ++ [r3]) ++ [r4]) ++ [r5])).
  assert (EL : effects (log ++ [r6]) = effects log0) by (unfold log; rewrite !effects_app; cbn [effects r1 r2 r3 r4 r5 r6]; rewrite !app_nil_r; reflexivity).
  unfold step_cmd. cbv zeta. change (text_eqb (txt "execute") (txt "command")) with false. change (text_eqb (txt "execute") (txt "args")) with false.
  change (text_eqb (txt "execute") (txt "may_fail")) with false. change (text_eqb (txt "execute") (txt "return_stdout")) with false.
  change (text_eqb (txt "execute") (txt "return_stderr")) with false. change (text_eqb (txt "execute") (txt "execute")) with true. cbv iota.
  unfold run_command. cbn [st noted d_cmd cm_cmd cm_args cm_out cm_err cm_may_fail]. cbv zeta. unfold perform. cbv zeta.
  cbn [st noted add_out d_log d_active d_user d_pw d_keys d_org d_akey d_insights d_bin d_cmd d_disk d_reboot d_out]. rewrite effects_app. fold r6. rewrite EL. cbn [effects].
  destruct (W (effects log0) (ERun cmd args)) as (out & err & ->). rewrite orb_true_r.
  destruct so, se; cbn [andthen go]; (eexists; split; [reflexivity|]); (constructor; try reflexivity); cbn [st noted set_cmd add_out d_log]; change (Read (Command, txt "execute", VBool true)) with r6; rewrite (effects_app (log ++ [r6])), EL; reflexivity.
Qed.
Lemma commands_run l : forall s act u pw k reb effs, calm s act u pw k reb effs -> existsb (simod_eqb Command) act = true -> Forall command_fine l ->
  exists s', steps c w prefix s (flat_map command_entries l) = go s' /\ calm s' act u pw k reb (effs ++ map command_run l).
Proof.
  induction l as [|x l IH]; intros s act u pw k reb effs CA AC F; [exists s; split; [reflexivity|rewrite app_nil_r; exact CA]|].
  inversion F; subst. cbn [flat_map map].
  destruct (command_run_ok s act u pw k reb effs x CA AC H1) as (s1 & E1 & C1).
  destruct (IH s1 _ _ _ _ _ _ C1 AC H2) as (s2 & E2 & C2). exists s2. rewrite steps_app, E1. cbn [andthen go]. split; [exact E2|]. rewrite <- app_assoc in C2. exact C2.
Qed.

(** *** A disk *)
Definition disk_entries (x : sidisk) : list sientry :=
  [(DiskEncryption, txt "disk-label", text_v (sd_label x)); (DiskEncryption, txt "pin", text_v (sd_pin x)); (DiskEncryption, txt "config", text_v (sd_config x));
   (DiskEncryption, txt "reencrypt", VBool (sd_reencrypt x)); (DiskEncryption, txt "execute", VNull)].
Lemma disk_run_ok s act u pw k reb effs x : calm s act u pw k reb effs -> existsb (simod_eqb DiskEncryption) act = true -> disk_fine x ->
  exists s', steps c w prefix s (disk_entries x) = go s' /\ calm s' act u pw k reb (effs ++ disk_bound x).
Proof.
  intros CA AC ([F1 _] & [F2 _] & [F3 _]). destruct x as [lb pin cf re]. cbn [sd_label sd_pin sd_config] in *.
  pose proof (v_str_text lb F1) as V1. pose proof (v_str_text pin F2) as V2. pose proof (v_str_text cf F3) as V3.
  destruct CA as [C1 C2 C3 C4 C5 C6 C7 C8 C9]. destruct s as [a0 u0 p0 k0 o1 o2 o3 b0 cm0 dk0 rb0 out0 log0]. cbn [d_active d_user d_pw d_keys d_bin d_cmd d_disk d_reboot d_log] in *. subst.
  set (st := fun dk log => Dst act u pw k o1 o2 o3 no_bin no_cmd dk reb out0 log).
  assert (STEP : forall dk log key v r, text_eqb key (txt "active") = false ->
     step_disk w (st dk (log ++ [Read (DiskEncryption, key, v)])) key v = r -> step c w prefix (st dk log) (DiskEncryption, key, v) = r).
  { intros dk log key v r K E. rewrite step_on by assumption. exact E. }
  set (r1 := Read (DiskEncryption, txt "disk-label", text_v lb)). set (r2 := Read (DiskEncryption, txt "pin", text_v pin)).
  set (r3 := Read (DiskEncryption, txt "config", text_v cf)). set (r4 := Read (DiskEncryption, txt "reencrypt", VBool re)).
  set (r5 := Read (DiskEncryption, txt "execute", VNull)).
  unfold disk_entries. cbn [sd_label sd_pin sd_config sd_reencrypt]. cbn [steps].
  change (Dst act u pw k o1 o2 o3 no_bin no_cmd no_disk reb out0 log0) with (st no_disk log0).
  rewrite (STEP no_disk log0 (txt "disk-label") (text_v lb) (go (st (Disk (Some lb) None None false) (log0 ++ [r1])))).
  2: reflexivity.
  2: { unfold step_disk. cbv zeta. change (text_eqb (txt "disk-label") (txt "disk-label")) with true. cbn [st d_disk no_disk dk_label]. rewrite V1. reflexivity. }
  cbn [andthen go].
  rewrite (STEP _ (log0 ++ [r1]) (txt "pin") (text_v pin) (go (st (Disk (Some lb) (Some pin) None false) ((log0 ++ [r1]) ++ [r2])))).
  2: reflexivity.
  2: { unfold step_disk. cbv zeta. change (text_eqb (txt "pin") (txt "disk-label")) with false. change (text_eqb (txt "pin") (txt "pin")) with true. cbn [st d_disk dk_pin]. rewrite V2. reflexivity. }
  cbn [andthen go].
  rewrite (STEP _ ((log0 ++ [r1]) ++ [r2]) (txt "config") (text_v cf) (go (st (Disk (Some lb) (Some pin) (Some cf) false) (((log0 ++ [r1]) ++ [r2]) ++ [r3])))).
  2: reflexivity.
  2: { unfold step_disk. cbv zeta. change (text_eqb (txt "config") (txt "disk-label")) with false. change (text_eqb (txt "config") (txt "pin")) with false. change (text_eqb (txt "config") (txt "config")) with true. cbn [st d_disk dk_config]. rewrite V3. reflexivity. }
  cbn [andthen go].
  rewrite (STEP _ (((log0 ++ [r1]) ++ [r2]) ++ [r3]) (txt "reencrypt") (VBool re) (go (st (Disk (Some lb) (Some pin) (Some cf) re) ((((log0 ++ [r1]) ++ [r2]) ++ [r3]) ++ [r4])))); [|reflexivity|reflexivity].
  cbn [andthen go].
  set (log := ((((log0 ++ [r1]) ++ [r2]) ++ [r3]) ++ [r4])).
  rewrite step_on by (exact AC || reflexivity). cbv zeta.
  unfold step_disk. cbv zeta. change (text_eqb (txt "execute") (txt "disk-label")) with false. change (text_eqb (txt "execute") (txt "pin")) with false.
  change (text_eqb (txt "execute") (txt "config")) with false. change (text_eqb (txt "execute") (txt "reencrypt")) with false. change (text_eqb (txt "execute") (txt "execute")) with true. cbv iota.
  unfold run_disk. cbn [st noted d_disk dk_label dk_pin dk_config dk_reencrypt need]. unfold perform. cbv zeta.
  cbn [st noted add_out d_log d_active d_user d_pw d_keys d_org d_akey d_insights d_bin d_cmd d_disk d_reboot d_out]. fold r5.
  assert (EL : effects (log ++ [r5]) = effects log0) by (unfold log; rewrite !effects_app; cbn [effects r1 r2 r3 r4 r5]; rewrite !app_nil_r; reflexivity).
  rewrite (effects_app (log ++ [r5]) [Did (EOpen lb)]), EL. cbn [effects]. rewrite will by discriminate. cbn [simple].
  rewrite (effects_app ((log ++ [r5]) ++ [Did (EOpen lb)])), (effects_app (log ++ [r5])), EL. cbn [effects]. rewrite will by discriminate. cbn [simple].
  destruct re; cbn [dk_reencrypt].
  - cbn [noted add_out d_log d_active d_user d_pw d_keys d_org d_akey d_insights d_bin d_cmd d_disk d_reboot d_out].
    rewrite (effects_app (((log ++ [r5]) ++ [Did (EOpen lb)]) ++ [Did (ERebind lb pin cf)])), (effects_app ((log ++ [r5]) ++ [Did (EOpen lb)])), (effects_app (log ++ [r5])), EL. cbn [effects].
    rewrite will by discriminate. cbn [simple andthen go]. eexists. split; [reflexivity|]. constructor; try reflexivity. cbn [st noted set_disk add_out d_log]. change (Read (DiskEncryption, txt "execute", VNull)) with r5.
    repeat match goal with |- context [effects (?a ++ [Did ?e])] => rewrite (effects_app a [Did e]) end. rewrite EL. cbn [effects]. rewrite <- !app_assoc. reflexivity.
  - cbn [andthen go]. eexists. split; [reflexivity|]. constructor; try reflexivity. cbn [st noted set_disk add_out d_log]. change (Read (DiskEncryption, txt "execute", VNull)) with r5.
    repeat match goal with |- context [effects (?a ++ [Did ?e])] => rewrite (effects_app a [Did e]) end. rewrite EL. cbn [effects]. rewrite <- !app_assoc. reflexivity.
Qed.
Lemma disks_run l : forall s act u pw k reb effs, calm s act u pw k reb effs -> existsb (simod_eqb DiskEncryption) act = true -> Forall disk_fine l ->
  exists s', steps c w prefix s (flat_map disk_entries l) = go s' /\ calm s' act u pw k reb (effs ++ flat_map disk_bound l).
Proof.
  induction l as [|x l IH]; intros s act u pw k reb effs CA AC F; [exists s; split; [reflexivity|rewrite app_nil_r; exact CA]|].
  inversion F; subst. cbn [flat_map map].
  destruct (disk_run_ok s act u pw k reb effs x CA AC H1) as (s1 & E1 & C1).
  destruct (IH s1 _ _ _ _ _ _ C1 AC H2) as (s2 & E2 & C2). exists s2. rewrite steps_app, E1. cbn [andthen go]. split; [exact E2|]. rewrite <- app_assoc in C2. exact C2.
Qed.

(** *** A block of one module *)
Definition on {A} (m : simod) (l : list A) (act : list simod) : list simod := match l with [] => act | _ => mods_insert act m end.
Definition oblock {A} (m : simod) (f : A -> list sientry) (l : list A) : list sientry := match l with [] => [] | _ => (m, txt "active", VBool true) :: flat_map f l end.
Lemma mods_in act m m' : existsb (simod_eqb m') (mods_insert act m) = simod_eqb m' m || existsb (simod_eqb m') act.
Proof.
  unfold mods_insert. destruct (existsb (simod_eqb m) act) eqn:E; [|reflexivity]. destruct (simod_eqb m' m) eqn:X; [|reflexivity]. apply simod_eqb_eq in X. subst m'. exact E.
Qed.
Lemma on_in {A} m (l : list A) act m' : existsb (simod_eqb m') (on m l act) = (match l with [] => false | _ => simod_eqb m' m end) || existsb (simod_eqb m') act.
Proof. destruct l; [reflexivity|]. apply mods_in. Qed.
Lemma calm_act s act u p k reb effs m : calm s act u p k reb effs ->
  calm (set_active (noted s (Read (m, txt "active", VBool true))) (mods_insert (d_active s) m)) (mods_insert act m) u p k reb effs.
Proof.
  intros [C1 C2 C3 C4 C5 C6 C7 C8 C9]. subst. constructor; try reflexivity; try assumption.
  cbn [set_active noted d_log]. rewrite effects_app. cbn [effects]. apply app_nil_r.
Qed.
Lemma oblock_run {A} m (f : A -> list sientry) (l : list A) effs' s act u p k reb effs :
  (forall s1, calm s1 (mods_insert act m) u p k reb effs -> exists s', steps c w prefix s1 (flat_map f l) = go s' /\ calm s' (mods_insert act m) u p k reb (effs ++ effs')) ->
  (l = [] -> effs' = []) -> calm s act u p k reb effs ->
  exists s', steps c w prefix s (oblock m f l) = go s' /\ calm s' (on m l act) u p k reb (effs ++ effs').
Proof.
  intros R E CA. destruct l as [|x l]; [rewrite E, app_nil_r by reflexivity; exists s; split; [reflexivity|exact CA]|].
  unfold oblock, on. cbn [steps]. rewrite step_act. cbn [andthen go]. apply R. apply calm_act. exact CA.
Qed.
Lemma calm_read s act u p k reb effs x : calm s act u p k reb effs -> calm (noted s (Read x)) act u p k reb effs.
Proof. intros [C1 C2 C3 C4 C5 C6 C7 C8 C9]. subst. constructor; try reflexivity; try assumption. cbn [noted d_log]. rewrite effects_app. cbn [effects]. apply app_nil_r. Qed.

(** *** The user and the reboot *)
Lemma user_run out x : user_fine x -> exists s', steps c w prefix (dst0 out) (user_entries x) = go s' /\
  calm s' [SSHKey] (Some (iu_name x)) (iu_pw x) (option_map (join SEMI) (iu_keys x)) false [].
Proof.
  intros ([N _] & _ & P & K). destruct x as [name pw ks]. cbn [iu_name iu_pw iu_keys] in *.
  pose proof (v_str_text name N) as V1.
  assert (ST : forall u p k log key v, text_eqb key (txt "active") = false ->
    step c w prefix (Dst [SSHKey] u p k None None None no_bin no_cmd no_disk false out log) (SSHKey, key, v) =
    step_ssh (Dst [SSHKey] u p k None None None no_bin no_cmd no_disk false out (log ++ [Read (SSHKey, key, v)])) key v).
  { intros. rewrite step_on by (assumption || reflexivity). reflexivity. }
  unfold user_entries. cbn [iu_name iu_pw iu_keys app steps]. rewrite step_act. cbn [andthen go].
  change (set_active (noted (dst0 out) (Read (SSHKey, txt "active", VBool true))) (mods_insert (d_active (dst0 out)) SSHKey)) with
    (Dst [SSHKey] None None None None None None no_bin no_cmd no_disk false out [Read (SSHKey, txt "active", VBool true)]).
  rewrite ST by reflexivity. unfold step_ssh at 1. change (text_eqb (txt "username") (txt "username")) with true. cbv iota. rewrite V1. unfold set_ssh; cbn [need andthen go d_active d_user d_pw d_keys d_org d_akey d_insights d_bin d_cmd d_disk d_reboot d_out d_log app].
  destruct pw as [p|], ks as [l|]; cbn [app steps option_map].
  - destruct (P p eq_refl) as [VP _]. destruct (K l eq_refl) as (_ & _ & VK & _). apply v_str_text in VP, VK.
    rewrite ST by reflexivity. unfold step_ssh at 1. change (text_eqb (txt "password") (txt "username")) with false. change (text_eqb (txt "password") (txt "password")) with true. cbv iota. rewrite VP.
    unfold set_ssh; cbn [need andthen go d_active d_user d_pw d_keys d_org d_akey d_insights d_bin d_cmd d_disk d_reboot d_out d_log app].
    rewrite ST by reflexivity. unfold step_ssh at 1. change (text_eqb (txt "sshkeys") (txt "username")) with false. change (text_eqb (txt "sshkeys") (txt "password")) with false. change (text_eqb (txt "sshkeys") (txt "sshkeys")) with true. cbv iota. rewrite VK.
    unfold set_ssh; cbn [need andthen go d_active d_user d_pw d_keys d_org d_akey d_insights d_bin d_cmd d_disk d_reboot d_out d_log app]. eexists. split; [reflexivity|]. constructor; reflexivity.
  - destruct (P p eq_refl) as [VP _]. apply v_str_text in VP.
    rewrite ST by reflexivity. unfold step_ssh at 1. change (text_eqb (txt "password") (txt "username")) with false. change (text_eqb (txt "password") (txt "password")) with true. cbv iota. rewrite VP.
    unfold set_ssh; cbn [need andthen go d_active d_user d_pw d_keys d_org d_akey d_insights d_bin d_cmd d_disk d_reboot d_out d_log app]. eexists. split; [reflexivity|]. constructor; reflexivity.
  - destruct (K l eq_refl) as (_ & _ & VK & _). apply v_str_text in VK.
    rewrite ST by reflexivity. unfold step_ssh at 1. change (text_eqb (txt "sshkeys") (txt "username")) with false. change (text_eqb (txt "sshkeys") (txt "password")) with false. change (text_eqb (txt "sshkeys") (txt "sshkeys")) with true. cbv iota. rewrite VK.
    unfold set_ssh; cbn [need andthen go d_active d_user d_pw d_keys d_org d_akey d_insights d_bin d_cmd d_disk d_reboot d_out d_log app]. eexists. split; [reflexivity|]. constructor; reflexivity.
  - eexists. split; [reflexivity|]. constructor; reflexivity.
Qed.
Lemma reboot_run s act u p k effs b : calm s act u p k false effs -> exists s', steps c w prefix s (reboot_entries b) = go s' /\ calm s' (mods_insert act Reboot) u p k b effs.
Proof.
  intros CA. unfold reboot_entries. cbn [steps]. rewrite step_act. cbn [andthen go]. apply (calm_act _ _ _ _ _ _ _ Reboot) in CA.
  set (s1 := set_active _ _) in *. clearbody s1. rewrite step_on; [|reflexivity|rewrite (ca_active _ _ _ _ _ _ _ CA), mods_in; reflexivity]. cbv zeta.
  change (text_eqb (txt "reboot") (txt "reboot")) with true. cbn [v_bool need andthen go].
  apply (calm_read _ _ _ _ _ _ _ (Reboot, txt "reboot", VBool b)) in CA. eexists. split; [reflexivity|].
  destruct CA as [C1 C2 C3 C4 C5 C6 C7 C8 C9]. constructor; try assumption; reflexivity.
Qed.
Lemma split_join l : l <> [] -> Forall (fun k => ~ In SEMI k) l -> split_on SEMI (join SEMI l) = l.
Proof.
  assert (ONE : forall k, ~ In SEMI k -> split_on SEMI k = [k]).
  { induction k as [|x k IH]; intros N; [reflexivity|]. cbn [split_on]. destruct (N.eqb_spec x SEMI) as [->|_]; [exfalso; apply N; left; reflexivity|].
    rewrite IH by (intros I; apply N; right; exact I). reflexivity. }
  intros NE F. induction l as [|k l IH]; [contradiction|]. inversion F; subst. destruct l as [|k2 l]; [apply ONE; assumption|].
  change (join SEMI (k :: k2 :: l)) with (k ++ SEMI :: join SEMI (k2 :: l)). rewrite split_on_app, ONE, IH by (assumption || discriminate). reflexivity.
Qed.
Lemma will_log s e : (forall cmd args, e <> ERun cmd args) -> w (effects (d_log (noted s (Did e)))) = Fine.
Proof. intros N. cbn [noted d_log]. rewrite effects_app. cbn [effects]. apply will. exact N. Qed.
Lemma calm_did s act u p k reb effs e : calm s act u p k reb effs -> calm (noted s (Did e)) act u p k reb (effs ++ [e]).
Proof. intros [C1 C2 C3 C4 C5 C6 C7 C8 C9]. constructor; try assumption. cbn [noted d_log]. rewrite effects_app, C9. reflexivity. Qed.
Lemma install_run user l : forall s act u p k reb effs, calm s act u p k reb effs ->
  exists s', install_keys w user s l = go s' /\ calm s' act u p k reb (effs ++ map (EKey user) l).
Proof.
  induction l as [|key l IH]; intros s act u p k reb effs CA; cbn [install_keys map]; [exists s; split; [reflexivity|rewrite app_nil_r; exact CA]|].
  unfold perform. cbv zeta. rewrite will_log by discriminate. cbn [simple]. apply (calm_did _ _ _ _ _ _ _ (EKey user key)) in CA.
  destruct (IH _ _ _ _ _ _ _ CA) as (s2 & E2 & C2). exists s2. split; [exact E2|]. rewrite <- app_assoc in C2. exact C2.
Qed.
Lemma finish_user s act x reb effs : calm s act (Some (iu_name x)) (iu_pw x) (option_map (join SEMI) (iu_keys x)) reb effs ->
  existsb (simod_eqb SSHKey) act = true -> user_fine x ->
  exists s', finish_ssh w s = go s' /\ calm s' act (Some (iu_name x)) (iu_pw x) (option_map (join SEMI) (iu_keys x)) reb (effs ++ user_made x).
Proof.
  intros CA AC (_ & SOME & _ & K). pose proof CA as [C1 C2 C3 C4 C5 C6 C7 C8 C9]. unfold finish_ssh. rewrite C1, AC, C2, C3, C4. cbn [negb]. unfold user_made.
  destruct x as [name pw ks]. cbn [iu_name iu_pw iu_keys] in *. clear C1 C2 C3 C4 C5 C6 C7 C8 C9.
  assert (KEYS : forall s1 effs1 l, ks = Some l -> calm s1 act (Some name) pw (option_map (join SEMI) ks) reb effs1 ->
    exists s', perform w s1 (ENewUser name) (fun s2 a => simple s2 a (fun s2 => install_keys w name s2 (split_on SEMI (join SEMI l)))) = go s' /\
      calm s' act (Some name) pw (option_map (join SEMI) ks) reb (effs1 ++ ENewUser name :: map (EKey name) l)).
  { intros s1 effs1 l -> CA1. destruct (K l eq_refl) as (NE & NS & _). rewrite split_join by assumption. unfold perform. cbv zeta. rewrite will_log by discriminate. cbn [simple].
    apply (calm_did _ _ _ _ _ _ _ (ENewUser name)) in CA1. destruct (install_run name l _ _ _ _ _ _ _ CA1) as (s2 & E2 & C2). exists s2. split; [exact E2|]. rewrite <- app_assoc in C2. exact C2. }
  destruct pw as [p|].
  - assert (R1 : perform w s (ENewUserPw name p) (fun s1 a => simple s1 a go) = go (noted s (Did (ENewUserPw name p)))).
    { unfold perform. cbv zeta. rewrite will_log by discriminate. reflexivity. }
    apply (calm_did _ _ _ _ _ _ _ (ENewUserPw name p)) in CA.
    destruct ks as [l|]; cbn [option_map]; rewrite R1; cbn [andthen go].
    + destruct (KEYS _ _ l eq_refl CA) as (s2 & E2 & C2). exists s2. split; [exact E2|]. rewrite <- app_assoc in C2. exact C2.
    + eexists. split; [reflexivity|]. exact CA.
  - destruct ks as [l|]; cbn [option_map andthen go]; [|destruct SOME; congruence].
    apply (KEYS s effs l eq_refl CA).
Qed.
End run.

(** *** From the configuration to the entries *)
Lemma all_some_app {A} (a b : list (option A)) x y : all_some a = Some x -> all_some b = Some y -> all_some (a ++ b) = Some (x ++ y).
Proof.
  revert x. induction a as [|[v|] a IH]; intros x X Y; cbn [app all_some] in *; [inversion X; exact Y| |discriminate].
  destruct (all_some a) as [x'|]; [|discriminate]. inversion X; subst. rewrite (IH x' eq_refl Y). reflexivity.
Qed.
Lemma block_conv {A} m (f : A -> list (str * json)) (g : A -> list sientry) l :
  Forall (fun x => all_some (map conv (map (fun kv => (m, fst kv, snd kv)) (f x))) = Some (g x)) l ->
  all_some (map conv (block m f l)) = Some (oblock m g l).
Proof.
  intros F. assert (FL : all_some (map conv (flat_map (fun x => map (fun kv => (m, fst kv, snd kv)) (f x)) l)) = Some (flat_map g l)).
  { induction F as [|x l X F IH]; [reflexivity|]. cbn [flat_map]. rewrite map_app. apply all_some_app; assumption. }
  destruct l as [|x l]; [reflexivity|]. unfold block, oblock. cbn [map]. cbn [all_some].
  change (conv (m, txt "active", JBool true)) with (Some (m, txt "active", VBool true)). cbn [all_some]. rewrite FL. reflexivity.
Qed.
Lemma octal_digits_spec s : forall a m, octal_digits a s = Some m -> Forall (fun x => 48 <= x <= 55) s /\ m = fold_left (fun a x => a * 8 + (x - 48)) s a /\ (a < 4294967296 -> m < 4294967296).
Proof.
  induction s as [|x s IH]; intros a m E; cbn [octal_digits] in E; [inversion E; subst; auto|].
  destruct ((48 <=? x) && (x <=? 55)) eqn:R; [|discriminate]. cbv zeta in E. destruct (N.ltb_spec (a * 8 + (x - 48)) 4294967296); [|discriminate].
  destruct (IH _ _ E) as (F & M & B). split; [constructor; [lia|exact F]|]. split; [exact M|]. intros _. apply B. assumption.
Qed.
Lemma parse_octal_spec s m : parse_octal s = Some m -> octal s m /\ m < 4294967296.
Proof.
  unfold parse_octal, octal. destruct s as [|x s]; [discriminate|]. destruct (N.eqb_spec x 43) as [->|NE].
  - destruct s as [|y s]; [discriminate|]. intros E. apply octal_digits_spec in E. destruct E as (F & M & B). specialize (B ltac:(lia)). split; [|exact B].
    exists (y :: s). split; [right; reflexivity|]. split; [discriminate|]. auto.
  - intros E. apply octal_digits_spec in E. destruct E as (F & M & B). specialize (B ltac:(lia)). split; [|exact B].
    exists (x :: s). split; [left; reflexivity|]. split; [discriminate|]. auto.
Qed.

(** A prepared file: its path, contents, mode. *)
Definition plan (c : crypto) (f : rawfile) (sf : sifile) (x : str * bytes * option N) : Prop :=
  let '(path, data, mode) := x in
  path = rf_path f /\ rf_source f = Some data /\ sf = SiFile path mode (nlen data) (hex_enc data) (hex_enc (c_hash c Sha384 data)) /\
  match rf_perms f with None => mode = None | Some s => exists m, mode = Some m /\ octal s m /\ m < 4294967296 end.
Lemma prepare_plan c f sf : prepare_file c f = Some sf -> exists x, plan c f sf x.
Proof.
  unfold prepare_file, plan. destruct f as [path perms source]. cbn [rf_path rf_perms rf_source]. destruct perms as [s|].
  - destruct (parse_octal s) as [m|] eqn:P; [|discriminate]. cbn [option_map]. destruct source as [data|]; [|discriminate]. intros E; inversion E; subst.
    exists (path, data, Some m). repeat (split; [reflexivity|]). apply parse_octal_spec in P. destruct P. eauto.
  - destruct source as [data|]; [|discriminate]. intros E; inversion E; subst. exists (path, data, None). repeat (split; [reflexivity|]). reflexivity.
Qed.
Lemma prepare_all c fs : forall sfs, all_some (map (prepare_file c) fs) = Some sfs -> Forall2 (fun f sf => prepare_file c f = Some sf) fs sfs.
Proof.
  induction fs as [|f fs IH]; intros sfs E; cbn [map all_some] in E; [inversion E; constructor|].
  destruct (prepare_file c f) as [sf|] eqn:P; [|discriminate]. destruct (all_some (map (prepare_file c) fs)) as [r|]; [|discriminate]. inversion E; subst. constructor; auto.
Qed.

(** *** All entries can be read back *)
Lemma eok m key v : proper m -> ~ In COLON (simod_text m) -> vok MAX_DEPTH v -> texts_ok v = true -> entry_ok (m, key, v).
Proof. intros. repeat split; assumption. Qed.
Lemma nocolon m : m = BinaryFile \/ m = Command \/ m = DiskEncryption \/ m = SSHKey \/ m = Reboot -> proper m /\ ~ In COLON (simod_text m).
Proof.
  intros H. split; [intros s ->; repeat (destruct H as [H|H]; [discriminate|]); discriminate|].
  repeat (destruct H as [->|H]; [vm_compute; intuition discriminate|]). subst m. vm_compute. intuition discriminate.
Qed.
Lemma vok_textv s : sendable s -> vok MAX_DEPTH (text_v s).
Proof. intros [A B]. apply vok_text; [unfold MAX_DEPTH; lia|exact A|exact B]. Qed.
Lemma tok_textv s : sendable s -> texts_ok (text_v s) = true.
Proof. intros [A _]. cbn [texts_ok text_v]. rewrite utf8_roundtrip by exact A. reflexivity. Qed.
Ltac eokt := apply eok; [apply nocolon; intuition|apply nocolon; intuition| |].
Lemma file_entries_ok c path data mode : outputs_ok c -> sendable path -> bytes_ok data -> nlen data <= CAPACITY -> match mode with Some m => m < 4294967296 | None => True end ->
  Forall entry_ok (file_entries c path data mode).
Proof.
  intros (OC & _) S BD LD MD. destruct (OC Sha384 data) as [O1 O2]. unfold CAPACITY in LD. unfold file_entries. apply Forall_app. split; [|apply Forall_app; split].
  - constructor; [eokt; [apply vok_textv; exact S|apply tok_textv; exact S]|]. constructor; [|constructor]. eokt; [cbn [vok MAX_DEPTH]; unfold two64; lia|reflexivity].
  - destruct mode as [m|]; [|constructor]. constructor; [|constructor]. eokt; [cbn [vok MAX_DEPTH]; unfold two64; lia|reflexivity].
  - constructor; [eokt; [cbn [vok MAX_DEPTH]; split; [exact BD|unfold two64; lia]|reflexivity]|]. constructor; [|constructor]. eokt; [cbn [vok MAX_DEPTH]; split; [exact O1|unfold two64; lia]|reflexivity].
Qed.
Lemma vok_arr_S d l : nlen l < two64 -> Forall (vok d) l -> vok (S d) (VArr l).
Proof. intros A B. split; assumption. Qed.
Lemma vok_arr l : nlen l < two64 -> Forall (vok 127) l -> vok MAX_DEPTH (VArr l).
Proof. exact (vok_arr_S 127 l). Qed.
Lemma command_entries_ok x : command_fine x -> Forall entry_ok (command_entries x).
Proof.
  intros (A & B & C). unfold command_entries. constructor; [eokt; [apply vok_textv; exact A|apply tok_textv; exact A]|].
  constructor; [eokt|].
  - apply vok_arr; [unfold nlen in *; rewrite map_length; exact C|]. apply Forall_map. eapply Forall_impl; [|exact B]. intros s [S1 S2].
    apply vok_text; [unfold MAX_DEPTH; lia|exact S1|exact S2].
  - cbn [texts_ok]. apply forallb_forall. intros v I. apply in_map_iff in I. destruct I as (s & <- & I). apply tok_textv. rewrite Forall_forall in B. apply B. exact I.
  - repeat (constructor; [eokt; [exact Logic.I|reflexivity]|]). constructor.
Qed.
Lemma disk_entries_ok x : disk_fine x -> Forall entry_ok (disk_entries x).
Proof.
  intros (A & B & C). unfold disk_entries. constructor; [eokt; [apply vok_textv; exact A|apply tok_textv; exact A]|].
  constructor; [eokt; [apply vok_textv; exact B|apply tok_textv; exact B]|]. constructor; [eokt; [apply vok_textv; exact C|apply tok_textv; exact C]|].
  repeat (constructor; [eokt; [exact Logic.I|reflexivity]|]). constructor.
Qed.
Lemma user_entries_ok x : user_fine x -> Forall entry_ok (user_entries x).
Proof.
  intros (A & _ & P & K). unfold user_entries. apply Forall_app. split; [|apply Forall_app; split].
  - constructor; [eokt; [exact Logic.I|reflexivity]|]. constructor; [eokt; [apply vok_textv; exact A|apply tok_textv; exact A]|constructor].
  - destruct (iu_pw x) as [p|]; [|constructor]. specialize (P p eq_refl). constructor; [eokt; [apply vok_textv; exact P|apply tok_textv; exact P]|constructor].
  - destruct (iu_keys x) as [l|]; [|constructor]. destruct (K l eq_refl) as (_ & _ & S). constructor; [eokt; [apply vok_textv; exact S|apply tok_textv; exact S]|constructor].
Qed.
Lemma reboot_entries_ok b : Forall entry_ok (reboot_entries b).
Proof. unfold reboot_entries. repeat (constructor; [eokt; [exact Logic.I|reflexivity]|]). constructor. Qed.
Lemma oblock_ok {A} m (f : A -> list sientry) l : (m = BinaryFile \/ m = Command \/ m = DiskEncryption \/ m = SSHKey \/ m = Reboot) -> Forall (fun x => Forall entry_ok (f x)) l -> Forall entry_ok (oblock m f l).
Proof.
  intros M F. assert (FF : Forall entry_ok (flat_map f l)) by (induction F; [constructor|cbn [flat_map]; apply Forall_app; auto]).
  destruct l; [constructor|]. unfold oblock. constructor; [|exact FF]. apply eok; [apply nocolon; exact M|apply nocolon; exact M|exact Logic.I|reflexivity].
Qed.

(** *** The whole way *)
Definition plans (prefix : option str) (c : crypto) (fs : list rawfile) (sfs : list sifile) (l : list (str * bytes * option N * str)) : Prop :=
  Forall2 (fun f x => let '(path, data, mode, p) := x in placed prefix path p /\ exists sf, plan c f sf (path, data, mode)) fs l /\
  Forall2 (fun sf x => let '(path, data, mode, p) := x in sf = SiFile path mode (nlen data) (hex_enc data) (hex_enc (c_hash c Sha384 data))) sfs l.
Lemma make_plans prefix c fs : forall sfs, Forall2 (fun f sf => prepare_file c f = Some sf) fs sfs -> Forall file_fine fs -> exists l, plans prefix c fs sfs l.
Proof.
  intros sfs F2. induction F2 as [|f sf fs sfs P F2 IH]; intros F; [exists []; split; constructor|]. inversion F as [|? ? X F']; subst.
  destruct (IH F') as (l & L1 & L2). destruct (prepare_plan _ _ _ P) as ([[path data] mode] & PL). pose proof PL as (E1 & E2 & E3 & _).
  destruct X as (_ & AB & _). assert (D : exists p, destination_path path prefix = Some p).
  { unfold destination_path. rewrite E1, AB. cbn [negb]. destruct prefix; eauto. }
  destruct D as (p & D). apply destination_placed in D. exists ((path, data, mode, p) :: l). split; constructor; try assumption. split; [exact D|]. exists sf. exact PL.
Qed.
Lemma plans_written prefix c fs sfs l : plans prefix c fs sfs l ->
  Forall2 (file_written prefix) fs (map (fun x => let '(path, data, mode, p) := x in EWrite p data (match mode with Some m => m | None => 384 end)) l).
Proof.
  intros [F _]. induction F as [|f [[[path data] mode] p] fs l X F IH]; [constructor|]. cbn [map]. constructor; [|exact IH].
  destruct X as (PL & sf & E1 & E2 & _ & E3). subst path. exists p, data, (match mode with Some m => m | None => 384 end). split; [reflexivity|]. split; [exact PL|]. split; [exact E2|].
  destruct (rf_perms f); [destruct E3 as (m & -> & O & _); exact O|subst mode; reflexivity].
Qed.
Definition fentries (c : crypto) (x : str * bytes * option N * str) : list sientry := let '(path, data, mode, p) := x in file_entries c path data mode.
Lemma plans_conv prefix c fs sfs l : outputs_ok c -> Forall file_fine fs -> plans prefix c fs sfs l -> all_some (map conv (block BinaryFile file_commands sfs)) = Some (oblock BinaryFile (fentries c) l).
Proof.
  intros (OC & _) FF [F1 F2].
  assert (G : Forall2 (fun sf x => all_some (map conv (map (fun kv => (BinaryFile, fst kv, snd kv)) (file_commands sf))) = Some (fentries c x)) sfs l).
  { revert fs FF F1. induction F2 as [|sf x sfs l X F2 IH]; intros fs FF F1; [constructor|]. inversion F1 as [|f ? fs' ? X1 F1']; subst. inversion FF as [|? ? X2 FF']; subst. constructor; [|eapply IH; eassumption].
    destruct x as [[[path data] mode] p]. destruct X1 as (_ & sf' & _ & SD & _). destruct X2 as (_ & _ & _ & BD). destruct (BD _ SD) as [BD' _]. subst sf.
    destruct (OC Sha384 data) as [O1 _].
    assert (C1 : conv (BinaryFile, txt "data001|hex", JStr (hex_enc data)) = Some (BinaryFile, txt "data001", VBytes data)).
    { unfold conv. change (suffixb (txt "|hex") (txt "data001|hex")) with true. cbv iota. rewrite hex_round by exact BD'. reflexivity. }
    assert (C2 : conv (BinaryFile, txt "sha-384|hex", JStr (hex_enc (c_hash c Sha384 data))) = Some (BinaryFile, txt "sha-384", VBytes (c_hash c Sha384 data))).
    { unfold conv. change (suffixb (txt "|hex") (txt "sha-384|hex")) with true. cbv iota. rewrite hex_round by exact O1. reflexivity. }
    unfold file_commands, fentries, file_entries. cbn [sf_path sf_len sf_mode sf_hex sf_hash]. rewrite !map_app.
    apply all_some_app; [reflexivity|]. apply all_some_app; [destruct mode; reflexivity|]. cbn [map fst snd all_some]. rewrite C1, C2. reflexivity. }
  assert (H : forall sfs l, Forall2 (fun sf x => all_some (map conv (map (fun kv => (BinaryFile, fst kv, snd kv)) (file_commands sf))) = Some (fentries c x)) sfs l ->
     all_some (map conv (flat_map (fun x => map (fun kv => (BinaryFile, fst kv, snd kv)) (file_commands x)) sfs)) = Some (flat_map (fentries c) l)).
  { clear. intros sfs l F. induction F as [|sf x sfs l X F IH]; [reflexivity|]. cbn [flat_map]. rewrite map_app. apply all_some_app; assumption. }
  pose proof (H _ _ G) as H'. inversion G; subst; [reflexivity|]. unfold block, oblock. cbn [map all_some].
  change (conv (BinaryFile, txt "active", JBool true)) with (Some (BinaryFile, txt "active", VBool true)). cbn [all_some]. rewrite H'. reflexivity.
Qed.

Lemma from_settings_spec c conf sc : from_settings c conf = Some sc ->
  st_user sc = st_user conf /\ st_commands sc = st_commands conf /\ st_disks sc = st_disks conf /\ st_extra sc = st_extra conf /\ st_reboot sc = st_reboot conf /\
  forall asked, Forall2 (fun f sf => prepare_file c f = Some sf) (part asked BinaryFile (st_files conf)) (part asked BinaryFile (st_files sc)).
Proof.
  unfold from_settings, part. destruct (st_files conf) as [fs|].
  - destruct (all_some (map (prepare_file c) fs)) as [sfs|] eqn:E; [|discriminate]. cbn [option_map]. intros X; inversion X; subst. cbn. repeat (split; [reflexivity|]).
    intros asked. destruct (existsb (simod_eqb BinaryFile) asked); [apply prepare_all; exact E|constructor].
  - intros X; inversion X; subst. cbn. repeat (split; [reflexivity|]). intros asked. destruct (existsb (simod_eqb BinaryFile) asked); constructor.
Qed.
Lemma part_forall {A} (P : A -> Prop) asked m (o : option (list A)) : Forall P (listed o) -> Forall P (part asked m o).
Proof. unfold part, listed. destruct (existsb (simod_eqb m) asked); [auto|constructor]. Qed.

(** A list that can be sent: its keys are texts and its values bytes. *)
Definition legible (x : str * bytes) : Prop := forallb is_scalar (fst x) = true /\ bytes_ok (snd x).
Definition textual (x : sientry) : Prop := forallb is_scalar (fst (entry_bytes x)) = true.
Lemma entry_bytes_ok x : entry_ok x -> bytes_ok (snd (entry_bytes x)).
Proof. intros (_ & _ & V & _). exact (enc_bytes_ok _ _ V). Qed.
Lemma oblock_names {A} m (f : A -> list sientry) l : textual (m, txt "active", VBool true) -> (forall x, Forall textual (f x)) -> Forall textual (oblock m f l).
Proof.
  intros N F. destruct l as [|x l]; [constructor|]. unfold oblock. constructor; [exact N|]. generalize (x :: l). clear x l. intros l.
  induction l as [|x l IH]; cbn [flat_map]; [constructor|]. apply Forall_app. split; [apply F|exact IH].
Qed.
Lemma carried_out_list c w prefix conf sc pd asked out : willing w -> hash_sizes c -> outputs_ok c -> from_settings c conf = Some sc -> config_fine conf ->
  let user := if existsb (simod_eqb SSHKey) asked then match pd with Some u => u | None => st_user conf end else None in
  let reboot := if existsb (simod_eqb Reboot) asked then st_reboot conf else None in
  (forall u, user = Some u -> user_fine u) ->
  exists l s written, list_of_reply (make_reply sc pd asked) = Some l /\ process c w prefix l out = (s, Ok tt) /\
    Forall2 (file_written prefix) (part asked BinaryFile (st_files conf)) written /\
    effects (d_log s) = written ++ map command_run (part asked Command (st_commands conf)) ++ flat_map disk_bound (part asked DiskEncryption (st_disks conf)) ++
      match user with Some u => user_made u | None => [] end /\
    d_reboot s = match reboot with Some b => b | None => false end /\
    Forall legible l.
Proof.
  intros W HS OUT FS (CF1 & CF2 & CF3 & CF4) user reboot UF.
  destruct (from_settings_spec _ _ _ FS) as (E1 & E2 & E3 & E4 & E5 & PF). specialize (PF asked).
  assert (F1 : Forall file_fine (part asked BinaryFile (st_files conf))) by (apply part_forall; exact CF1).
  assert (F2 : Forall command_fine (part asked Command (st_commands conf))) by (apply part_forall; exact CF2).
  assert (F3 : Forall disk_fine (part asked DiskEncryption (st_disks conf))) by (apply part_forall; exact CF3).
  destruct (make_plans prefix c _ _ PF F1) as (pl & PL).
  set (fs := part asked BinaryFile (st_files conf)) in *. set (cs := part asked Command (st_commands conf)) in *. set (ds := part asked DiskEncryption (st_disks conf)) in *.
  set (ef := oblock BinaryFile (fentries c) pl). set (ec := oblock Command command_entries cs). set (ed := oblock DiskEncryption disk_entries ds).
  set (es := opt user_entries user ++ (ef ++ ec ++ ed) ++ opt reboot_entries reboot).
  assert (LR : list_of_reply (make_reply sc pd asked) = Some (si_of es)).
  { apply list_of_reply_spec. exists (ef ++ ec ++ ed). split.
    - rewrite reply_extras by congruence. rewrite E2, E3. fold cs ds. rewrite !map_app.
      apply all_some_app; [eapply plans_conv; eassumption|]. apply all_some_app.
      + apply block_conv. apply Forall_forall. intros x _. destruct x as [a b cc d e]. cbn [map fst snd command_commands sc_cmd sc_args sc_may_fail sc_stdout sc_stderr].
        unfold command_entries. cbn [sc_cmd sc_args sc_may_fail sc_stdout sc_stderr]. cbn [all_some conv].
        change (suffixb (txt "|hex") (txt "command")) with false. change (suffixb (txt "|hex") (txt "args")) with false. change (suffixb (txt "|hex") (txt "may_fail")) with false.
        change (suffixb (txt "|hex") (txt "return_stdout")) with false. change (suffixb (txt "|hex") (txt "return_stderr")) with false. change (suffixb (txt "|hex") (txt "execute")) with false.
        cbn [all_some option_map json_val]. rewrite map_map. reflexivity.
      + apply block_conv. apply Forall_forall. intros x _. destruct x as [a b cc d]. reflexivity.
    - unfold es, user, reboot, make_reply. cbv zeta. cbn [ar_user ar_reboot]. unfold when. rewrite E1, E5. reflexivity. }
  assert (OKE : Forall entry_ok es).
  { unfold es. apply Forall_app. split; [|apply Forall_app; split; [apply Forall_app; split; [|apply Forall_app; split]|]].
    - destruct user as [u|]; [apply user_entries_ok; apply UF; reflexivity|constructor].
    - apply oblock_ok; [auto|]. destruct PL as [PL1 PL2]. clear -PL1 F1 OUT. revert F1. induction PL1 as [|f [[[path data] mode] p] fs l X PL1 IH]; intros F1; [constructor|].
      inversion F1 as [|? ? Y F1']; subst. constructor; [|apply IH; exact F1']. destruct X as (_ & sf & X1 & X2 & _ & X3). destruct Y as (Y1 & _ & _ & Y2). destruct (Y2 _ X2) as [Y3 Y4]. subst path.
      apply file_entries_ok; [exact OUT|exact Y1|exact Y3|exact Y4|]. destruct (rf_perms f); [destruct X3 as (m & -> & _ & B); exact B|subst mode; exact Logic.I].
    - apply oblock_ok; [auto|]. eapply Forall_impl; [|exact F2]. apply command_entries_ok.
    - apply oblock_ok; [auto|]. eapply Forall_impl; [|exact F3]. apply disk_entries_ok.
    - destruct reboot; [apply reboot_entries_ok|constructor]. }
  assert (RUN0 : exists s0 act0 u0 p0 k0, steps c w prefix (dst0 out) (opt user_entries user) = go s0 /\ calm s0 act0 u0 p0 k0 false [] /\
     match user with Some u => act0 = [SSHKey] /\ u0 = Some (iu_name u) /\ p0 = iu_pw u /\ k0 = option_map (join SEMI) (iu_keys u) | None => act0 = [] end).
  { destruct user as [u|]; cbn [opt].
    - destruct (user_run c w prefix out u (UF u eq_refl)) as (s0 & R0 & C0). exists s0, [SSHKey], (Some (iu_name u)), (iu_pw u), (option_map (join SEMI) (iu_keys u)). split; [exact R0|]. split; [exact C0|]. repeat split.
    - exists (dst0 out), [], None, None, None. split; [reflexivity|]. split; [constructor; reflexivity|reflexivity]. }
  destruct RUN0 as (s0 & act0 & u0 & p0 & k0 & R0 & C0 & U0).
  set (written := map (fun x : str * bytes * option N * str => let '(path, data, mode, p) := x in EWrite p data (match mode with Some m => m | None => 384 end)) pl).
  destruct (oblock_run c w prefix BinaryFile (fentries c) pl written s0 act0 u0 p0 k0 false []) as (s1 & R1 & C1); [ |intros ->; reflexivity|exact C0|].
  { intros s1 C1. apply (files_run c w prefix W HS pl s1 _ _ _ _ _ _ C1); [rewrite mods_in; reflexivity|].
    destruct PL as [PL1 _]. clear -PL1 F1. revert F1. induction PL1 as [|f [[[path data] mode] p] fs l X PL1 IH]; intros F1; [constructor|].
    inversion F1 as [|? ? Y F1']; subst. constructor; [|apply IH; exact F1']. destruct X as (X0 & sf & X1 & X2 & _ & X3). destruct Y as ([Y1 _] & _ & Y0 & Y2). destruct (Y2 _ X2) as [Y3 Y4]. subst path.
    repeat split; try assumption. destruct (rf_perms f); [destruct X3 as (m & -> & _ & B); exact B|subst mode; exact Logic.I]. }
  cbn [app] in C1.
  destruct (oblock_run c w prefix Command command_entries cs (map command_run cs) s1 _ _ _ _ _ _ ltac:(intros s' C'; apply (commands_run c w prefix W cs s' _ _ _ _ _ _ C'); [rewrite mods_in; reflexivity|exact F2]) ltac:(intros ->; reflexivity) C1) as (s2 & R2 & C2).
  destruct (oblock_run c w prefix DiskEncryption disk_entries ds (flat_map disk_bound ds) s2 _ _ _ _ _ _ ltac:(intros s' C'; apply (disks_run c w prefix W ds s' _ _ _ _ _ _ C'); [rewrite mods_in; reflexivity|exact F3]) ltac:(intros ->; reflexivity) C2) as (s3 & R3 & C3).
  set (act3 := on DiskEncryption ds (on Command cs (on BinaryFile pl act0))) in *.
  assert (RUN4 : exists s4 act4, steps c w prefix s3 (opt reboot_entries reboot) = go s4 /\
     calm s4 act4 u0 p0 k0 (match reboot with Some b => b | None => false end) (written ++ map command_run cs ++ flat_map disk_bound ds) /\
     (forall m, m <> Reboot -> existsb (simod_eqb m) act4 = existsb (simod_eqb m) act3)).
  { rewrite <- app_assoc in C3. destruct reboot as [b|]; cbn [opt].
    - destruct (reboot_run c w prefix s3 _ _ _ _ _ b C3) as (s4 & R4 & C4). exists s4, (mods_insert act3 Reboot). split; [exact R4|]. split; [exact C4|].
      intros m NE. rewrite mods_in. destruct (simod_eqb m Reboot) eqn:X; [apply simod_eqb_eq in X; contradiction|reflexivity].
    - exists s3, act3. split; [reflexivity|]. split; [exact C3|]. reflexivity. }
  destruct RUN4 as (s4 & act4 & R4 & C4 & A4).
  assert (STEPS : steps c w prefix (dst0 out) es = go s4).
  { unfold es, ef, ec, ed. rewrite steps_app, R0. cbn [andthen go]. rewrite !steps_app. rewrite R1. cbn [andthen go]. rewrite steps_app, R2. cbn [andthen go]. rewrite R3. cbn [andthen go]. exact R4. }
  assert (ASSH : forall m, m = SSHKey \/ m = SubscriptionManager -> existsb (simod_eqb m) act4 = existsb (simod_eqb m) act0).
  { intros m M. rewrite A4 by (destruct M; subst; discriminate). unfold act3. rewrite !on_in. destruct M; subst m; destruct ds, cs, pl; reflexivity. }
  assert (FIN : exists s5, finish_ssh w s4 = go s5 /\ calm s5 act4 u0 p0 k0 (match reboot with Some b => b | None => false end)
      ((written ++ map command_run cs ++ flat_map disk_bound ds) ++ match user with Some u => user_made u | None => [] end)).
  { destruct user as [u|].
    - destruct U0 as (-> & -> & -> & ->). apply (finish_user w W s4 act4 u); [exact C4|rewrite ASSH by auto; reflexivity|apply UF; reflexivity].
    - exists s4. rewrite app_nil_r. split; [|exact C4]. unfold finish_ssh. rewrite (ca_active _ _ _ _ _ _ _ C4), ASSH by auto. subst act0. reflexivity. }
  destruct FIN as (s5 & R5 & C5).
  assert (R6 : finish_rhsm w s5 = go s5).
  { unfold finish_rhsm. rewrite (ca_active _ _ _ _ _ _ _ C5), ASSH by auto. destruct user as [u|]; [destruct U0 as (-> & _)|subst act0]; reflexivity. }
  exists (si_of es), s5, written. split; [exact LR|]. split; [|split; [|split; [|split]]].
  - unfold process. rewrite si_iter_of by exact OKE. rewrite STEPS. cbn [andthen go]. rewrite R5. cbn [andthen go]. exact R6.
  - eapply plans_written; exact PL.
  - rewrite (ca_log _ _ _ _ _ _ _ C5). rewrite <- !app_assoc. reflexivity.
  - apply (ca_reboot _ _ _ _ _ _ _ C5).
  - rewrite si_of_map. apply Forall_map. apply Forall_forall. intros x I. split; [|eapply entry_bytes_ok; rewrite Forall_forall in OKE; apply OKE; exact I].
    revert x I. apply Forall_forall. unfold es. apply Forall_app. split; [|apply Forall_app; split; [apply Forall_app; split; [|apply Forall_app; split]|]].
    + destruct user as [u|]; [|constructor]. unfold opt, user_entries. destruct (iu_pw u), (iu_keys u); repeat constructor.
    + apply oblock_names; [reflexivity|]. intros [[[path data] mode] p]. unfold fentries, file_entries. destruct mode; repeat constructor.
    + apply oblock_names; [reflexivity|]. intros x. repeat constructor.
    + apply oblock_names; [reflexivity|]. intros x. repeat constructor.
    + destruct reboot; repeat constructor.
Qed.
Lemma carried_out c w prefix conf sc pd asked out : willing w -> hash_sizes c -> outputs_ok c -> from_settings c conf = Some sc -> config_fine conf ->
  let user := if existsb (simod_eqb SSHKey) asked then match pd with Some u => u | None => st_user conf end else None in
  let reboot := if existsb (simod_eqb Reboot) asked then st_reboot conf else None in
  (forall u, user = Some u -> user_fine u) ->
  exists l s written, list_of_reply (make_reply sc pd asked) = Some l /\ process c w prefix l out = (s, Ok tt) /\
    Forall2 (file_written prefix) (part asked BinaryFile (st_files conf)) written /\
    effects (d_log s) = written ++ map command_run (part asked Command (st_commands conf)) ++ flat_map disk_bound (part asked DiskEncryption (st_disks conf)) ++
      match user with Some u => user_made u | None => [] end /\
    d_reboot s = match reboot with Some b => b | None => false end.
Proof.
  intros W HS OUT FS CF user reboot UF.
  destruct (carried_out_list c w prefix conf sc pd asked out W HS OUT FS CF UF) as (l & s & wr & A & B & C & D & E & _). exists l, s, wr. repeat (split; [assumption|]). exact E.
Qed.
