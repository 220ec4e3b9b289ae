(** C42, C43, C45 (configuration), C56, C57: the service info API, from its configuration to the device. *)
From Verif Require Import Base BaseFacts ValueModel ValueProofs Text Hex TypesModel CryptoSpec ToyCrypto SiModel DevSiModel SiSpec SiProofs SiProofs2 SiProofs3 P_Si SiApiModel SiApiSpec SiApiProofs SiApiRun.
From Coq Require Import ZifyBool ZifyNat ZifyN.
Local Open Scope N_scope.
Local Opaque dec_top any_value.

(** * C42 *)
(** Every reply of the API, for every configuration, device and list of modules. *)
Theorem C42_reply : forall conf per_device asked, let r := make_reply conf per_device asked in
  (forall xs pre m key v post, ar_extra r = Some xs -> xs = pre ++ (m, key, v) :: post ->
     In m asked /\ ((key = txt "active" /\ v = JBool true) \/ In (m, txt "active", JBool true) pre)) /\
  (ar_user r <> None -> In SSHKey asked) /\ (ar_reboot r <> None -> In Reboot asked).
Proof.
  intros conf pd asked r. destruct (reply_active conf pd asked) as (A & B & C). split; [|split; assumption].
  intros xs pre m key v post E1 E2. apply (A pre m key v post). fold r. rewrite E1. exact E2.
Qed.
(** The list the owner makes of a reply, for the device. *)
Theorem C42_list : forall conf per_device asked l, list_of_reply (make_reply conf per_device asked) = Some l ->
  exists es, l = si_of es /\
    forall pre m key v post, es = pre ++ (m, key, v) :: post ->
      In m asked /\ ((key = txt "active" /\ v = VBool true) \/ In (m, txt "active", VBool true) pre).
Proof. intros conf pd asked l E. apply list_led in E. exact E. Qed.

Lemma all_some_map {A} (l : list (option A)) r : all_some l = Some r -> l = map Some r.
Proof. revert r. induction l as [|[x|] l IH]; intros r E; cbn [all_some] in E; [inversion E; reflexivity| |discriminate]. destruct (all_some l); [|discriminate]. inversion E; subst. cbn [map]. f_equal. apply IH. reflexivity. Qed.
Lemma module_list_names v ms : module_list v = Some ms -> exists ns, lists_names v ns /\ (forall n, In n ms -> In n ns) /\ (ns <> [] -> ms <> []).
Proof.
  unfold module_list. destruct (untag v) eqn:U; try discriminate. destruct (all_some (map as_string (skipn 2 l))) as [ns|] eqn:E; [|discriminate].
  intros H. inversion H; subst. exists ns. split; [exists l; split; [exact U|apply all_some_map; exact E]|]. split; [intros n I; exact (dedupe_in _ _ _ I)|].
  destruct ns; [contradiction|]. intros _. cbn [dedupe existsb]. discriminate.
Qed.
Lemma calls_of n : calls n (simod_of n).
Proof. destruct (simod_of_spec n) as [(m & I & E)|[N E]]; rewrite E; [left; exact I|right; auto]. Qed.
Lemma ask_api_some t auth conf pd guid mods r : ask_api t auth conf pd guid mods = Some r -> r = make_reply conf (pd guid) (asked_of mods).
Proof.
  unfold ask_api, serve. cbn [hr_verb hr_path hr_auth hr_query]. change (text_eqb (txt "device_info") (txt "device_info")) with true. cbn match.
  destruct (info_auth t auth); [|discriminate]. cbn [q_version q_guid q_modules]. change (1 =? 1) with true. cbn match. intros E. inversion E. reflexivity.
Qed.

(** From the device's message to the list it gets: only modules the device named, each activated first. *)
Definition C42_statement : Prop :=
  forall t auth conf per_device guid n msg more done l,
  perform_service_info (ask_api t auth conf per_device guid) n msg = Some (more, done, l) ->
  exists es, l = si_of es /\
    forall pre m key v post, es = pre ++ (m, key, v) :: post ->
      named msg m /\ ((key = txt "active" /\ v = VBool true) \/ In (m, txt "active", VBool true) pre).
(** It is true when no module's name has a comma in it, and at least one module is named. *)
Theorem C42_partial : forall t auth conf per_device guid n msg more done l,
  (forall v ns, In (DevMod, txt "modules", v) (si_iter msg) -> lists_names v ns -> ns <> [] /\ Forall (fun s => ~ In 44 s) ns) ->
  perform_service_info (ask_api t auth conf per_device guid) n msg = Some (more, done, l) ->
  exists es, l = si_of es /\
    forall pre m key v post, es = pre ++ (m, key, v) :: post ->
      named msg m /\ ((key = txt "active" /\ v = VBool true) \/ In (m, txt "active", VBool true) pre).
Proof.
  intros t auth conf pd guid n msg more done l H P. unfold perform_service_info in P. destruct (negb (n =? 0)).
  - inversion P; subst. exists []. split; [reflexivity|]. intros [|? ?]; discriminate.
  - destruct (last_modules None (si_iter msg)) as [[ms|]| |] eqn:LM; try discriminate. destruct (ask_api t auth conf pd guid (join COMMA ms)) as [r|] eqn:A; [|discriminate].
    apply ask_api_some in A. subst r. destruct (list_of_reply _) as [l'|] eqn:LR; [|discriminate]. inversion P; subst. clear P.
    apply list_led in LR. destruct LR as (es & -> & L). exists es. split; [reflexivity|]. intros pre m key v post E. destruct (L _ _ _ _ _ E) as [IM X]. split; [|exact X].
    apply last_modules_in in LM. destruct LM as [LM|(v' & IV & ML)]; [discriminate|]. destruct (module_list_names _ _ ML) as (ns & LN & SUB & NE).
    destruct (H v' ns IV LN) as [NN NC]. unfold asked_of in IM. rewrite split_commas in IM.
    + apply in_map_iff in IM. destruct IM as (s & <- & IS). exists v', ns, s. split; [exact IV|]. split; [exact LN|]. split; [apply SUB; exact IS|apply calls_of].
    + apply NE. exact NN.
    + apply Forall_forall. intros s IS. rewrite Forall_forall in NC. apply NC. apply SUB. exact IS.
Qed.
(** The names are joined with commas and split again: a device with one strange module name is sent commands of a module it
    does not have. *)
Definition comma_name : str := txt "x,org.fedoraiot.command".
Definition comma_msg : silist := si_of [(DevMod, txt "modules", VArr [VInt 1; VInt 1; T comma_name])].
Definition cmd_conf : settings sifile := Settings None None (Some [SiCommand (txt "ls") [] false false false]) None None None.
Lemma no_pd : bytes -> option (option inituser). Proof. exact (fun _ => None). Defined.
Definition comma_entries : list sientry :=
  [(Command, txt "active", VBool true); (Command, txt "command", T (txt "ls")); (Command, txt "args", VArr []); (Command, txt "may_fail", VBool false);
   (Command, txt "return_stdout", VBool false); (Command, txt "return_stderr", VBool false); (Command, txt "execute", VBool true)].
Lemma comma_iter : si_iter comma_msg = [(DevMod, txt "modules", VArr [VInt 1; VInt 1; T comma_name])].
Proof. vm_compute. reflexivity. Qed.
Theorem C42_refuted : ~ C42_statement.
Proof.
  intros H. destruct (H (tokens_of None None) (txt "Bearer x") cmd_conf no_pd [] 0 comma_msg false false (si_of comma_entries)) as (es & E & L).
  { vm_compute. reflexivity. }
  rewrite !si_of_map in E. destruct es as [|[[m key] v] es]; [discriminate|]. destruct (L [] m key v es eq_refl) as [(v' & ns & n & I & (l & U & NS) & IN & C) _].
  rewrite comma_iter in I. destruct I as [I|[]]. inversion I; subst v'. cbn [untag] in U. inversion U; subst l. cbn [skipn map] in NS.
  change (as_string (T comma_name)) with (Some comma_name) in NS. destruct ns as [|n1 [|? ?]]; try discriminate. inversion NS; subst n1. destruct IN as [<-|[]].
  assert (M : m = Unsupported comma_name).
  { destruct C as [C|[C _]]; [|exact C]. cbn [known_modules In] in C. repeat (destruct C as [C|C]; [inversion C|]). destruct C. }
  subst m. apply (f_equal (fun l => match l with x :: _ => hd 0 (fst x) | [] => 0 end)) in E. revert E. clear. cbn [map comma_entries]. unfold entry_bytes. cbn [fst snd simod_text]. 
  change (hd 0 (comma_name ++ COLON :: key)) with 120. change (hd 0 (simod_text Command ++ COLON :: txt "active")) with 111. discriminate.
Qed.
Example C42_case : exists l, perform_service_info (ask_api (tokens_of (Some (txt "tok")) None) (txt "Bearer tok") cmd_conf no_pd [])
    0 (si_of [(DevMod, txt "modules", VArr [VInt 1; VInt 2; T (txt "devmod"); T (txt "org.fedoraiot.command")])]) = Some (false, false, l) /\ l = si_of comma_entries.
Proof. eexists. split; [vm_compute; reflexivity|]. vm_compute. reflexivity. Qed.

(** * C43 *)
(** [info] and [adm]: the configured tokens.  An administrative request is executed only with the admin token. *)
Theorem C43_admin : forall info adm conf per_device r a, serve (tokens_of info adm) conf per_device r = Stores a ->
  exists tok, adm = Some tok /\ hr_auth r = Some (txt "Bearer " ++ tok) /\ hr_body r = Some a /\ hr_verb r = POST /\
    exists rest, hr_path r = txt "admin" :: txt "v0" :: rest.
Proof.
  intros info adm conf pd r a E. unfold serve in E. destruct (hr_verb r).
  - destruct (match hr_path r with p :: _ => _ | [] => _ end); [|discriminate]. destruct (hr_auth r); [|discriminate]. destruct (info_auth _ _); [|discriminate].
    destruct (hr_query r) as [q|]; [|discriminate]. destruct (q_version q =? 1); discriminate.
  - destruct (hr_path r) as [|p1 [|p2 rest]].
    + cbn [andb] in E. discriminate.
    + rewrite andb_false_r in E. destruct (text_eqb p1 (txt "ping")); discriminate.
    + destruct (text_eqb p1 (txt "admin") && text_eqb p2 (txt "v0")) eqn:P.
      * apply andb_true_iff in P. destruct P as [P1 P2]. apply text_eqb_eq in P1. apply text_eqb_eq in P2. subst.
        destruct (hr_auth r) as [h|]; [|discriminate]. unfold admin_auth in E. destruct adm as [tok|]; cbn [tokens_of tk_admin option_map] in E; [|discriminate].
        destruct (text_eqb (bearer tok) h) eqn:H; [|discriminate]. apply text_eqb_eq in H. subst h. destruct (hr_body r) as [b|]; [|discriminate]. inversion E; subst.
        exists tok. repeat split. exists rest. reflexivity.
      * destruct (text_eqb p1 (txt "ping")); discriminate.
  - discriminate.
Qed.
(** A service info request is answered only with the service info token, if there is one. *)
Theorem C43_info : forall info adm conf per_device r x, serve (tokens_of info adm) conf per_device r = Replied x ->
  (forall tok, info = Some tok -> hr_auth r = Some (txt "Bearer " ++ tok)) /\ hr_verb r = GET /\
  exists q, hr_query r = Some q /\ q_version q = 1 /\ x = make_reply conf (per_device (q_guid q)) (asked_of (q_modules q)).
Proof.
  intros info adm conf pd r x E. unfold serve in E. destruct (hr_verb r).
  - destruct (match hr_path r with p :: _ => _ | [] => _ end); [|discriminate]. destruct (hr_auth r) as [h|]; [|discriminate]. destruct (info_auth _ _) eqn:A; [|discriminate].
    destruct (hr_query r) as [q|]; [|discriminate]. destruct (N.eqb_spec (q_version q) 1); [|discriminate]. inversion E; subst. split; [|split; [reflexivity|exists q; auto]].
    intros tok ->. unfold info_auth in A. cbn [tokens_of tk_info option_map] in A. apply text_eqb_eq in A. rewrite <- A. reflexivity.
  - destruct (_ && _); [destruct (hr_auth r); [destruct (admin_auth _ _); [destruct (hr_body r)|]|]; discriminate|]. destruct (match hr_path r with p :: _ => _ | [] => _ end); discriminate.
  - discriminate.
Qed.
(** With the right token both are served. *)
Theorem C43_served : forall info adm conf per_device,
  (forall tok a rest, adm = Some tok ->
     serve (tokens_of info adm) conf per_device (HReq POST (txt "admin" :: txt "v0" :: rest) (Some (txt "Bearer " ++ tok)) None (Some a)) = Stores a) /\
  (forall h g ms rest, (forall tok, info = Some tok -> h = txt "Bearer " ++ tok) ->
     serve (tokens_of info adm) conf per_device (HReq GET (txt "device_info" :: rest) (Some h) (Some (Query 1 g ms)) None) = Replied (make_reply conf (per_device g) (asked_of ms))).
Proof.
  intros info adm conf pd. split.
  - intros tok a rest ->. unfold serve. cbn [hr_verb hr_path hr_auth hr_body]. change (text_eqb (txt "admin") (txt "admin") && text_eqb (txt "v0") (txt "v0")) with true. cbn match.
    unfold admin_auth. cbn [tokens_of tk_admin option_map]. fold (bearer tok). rewrite (proj2 (text_eqb_eq (bearer tok) (bearer tok)) eq_refl). reflexivity.
  - intros h g ms rest H. unfold serve. cbn [hr_verb hr_path hr_auth hr_query]. change (text_eqb (txt "device_info") (txt "device_info")) with true. cbn match.
    unfold info_auth. destruct info as [tok|]; cbn [tokens_of tk_info option_map]; [|reflexivity]. rewrite (H tok eq_refl). fold (bearer tok).
    rewrite (proj2 (text_eqb_eq (bearer tok) (bearer tok)) eq_refl). reflexivity.
Qed.
Example C43_case : serve (tokens_of None (Some (txt "s3"))) cmd_conf no_pd (HReq POST [txt "admin"; txt "v0"] (Some (txt "Bearer s3")) None (Some (Admin [1] []))) = Stores (Admin [1] []) /\
  serve (tokens_of None None) cmd_conf no_pd (HReq POST [txt "admin"; txt "v0"] (Some (txt "Bearer ")) None (Some (Admin [1] []))) = Refused.
Proof. split; vm_compute; reflexivity. Qed.

(** * C45 and C56 *)
(** A configuration, the device that asks for it, and what the device does: each file is written with its contents at its
    path, each command is run, each disk is re-bound, the user is made, in this order, and nothing else happens. *)
Theorem C56_partial : forall c w prefix conf sc per_device asked out,
  willing w -> hash_sizes c -> outputs_ok c -> from_settings c conf = Some sc -> config_fine conf ->
  let user := if existsb (simod_eqb SSHKey) asked then match per_device with Some u => u | None => st_user conf end else None in
  let reboot := if existsb (simod_eqb Reboot) asked then st_reboot conf else None in
  (forall u, user = Some u -> user_fine u) ->
  exists l s written, list_of_reply (make_reply sc per_device asked) = Some l /\ process c w prefix l out = (s, Ok tt) /\
    Forall2 (file_written prefix) (part asked BinaryFile (st_files conf)) written /\
    effects (d_log s) = written ++ map command_run (part asked Command (st_commands conf)) ++
      flat_map disk_bound (part asked DiskEncryption (st_disks conf)) ++ match user with Some u => user_made u | None => [] end /\
    d_reboot s = match reboot with Some b => b | None => false end.
Proof. exact carried_out. Qed.

(** The file of a configuration, through API, owner and device. *)
Theorem C45_configured_partial : forall c w prefix conf sc per_device asked out f,
  willing w -> hash_sizes c -> outputs_ok c -> from_settings c conf = Some sc -> config_fine conf ->
  (forall u, match per_device with Some u => u | None => st_user conf end = Some u -> user_fine u) ->
  In BinaryFile asked -> In f (match st_files conf with Some l => l | None => [] end) ->
  exists l s e, list_of_reply (make_reply sc per_device asked) = Some l /\ process c w prefix l out = (s, Ok tt) /\
    In e (effects (d_log s)) /\ file_written prefix f e.
Proof.
  intros c w prefix conf sc pd asked out f W HS OUT FS CF UF IA IFF.
  destruct (carried_out c w prefix conf sc pd asked out W HS OUT FS CF) as (l & s & written & LR & P & F2 & EF & _).
  { destruct (existsb (simod_eqb SSHKey) asked); [exact UF|discriminate]. }
  exists l, s. unfold part in F2. replace (existsb (simod_eqb BinaryFile) asked) with true in F2 by (symmetry; apply existsb_in; exact IA).
  assert (X : exists e, In e written /\ file_written prefix f e).
  { clear -F2 IFF. induction F2 as [|a b la lb H F2 IH]; [destruct IFF|]. destruct IFF as [->|I]; [exists b; split; [left; reflexivity|exact H]|]. destruct (IH I) as (e & IE & H'). exists e. split; [right; exact IE|exact H']. }
  destruct X as (e & IE & H). exists e. repeat split; try assumption. rewrite EF. apply in_or_app. left. exact IE.
Qed.

(** A configuration with something of everything. *)
Definition full_conf : settings rawfile :=
  Settings (Some (InitUser (txt "admin") (Some (txt "pw")) (Some [txt "key1"; txt "key2"])))
    (Some [RawFile (txt "/etc/a") (Some (txt "644")) (Some [1; 2]); RawFile (txt "/etc/b") None (Some [])])
    (Some [SiCommand (txt "ls") [txt "-l"] false true false])
    (Some [SiDisk (txt "disk") (txt "tpm2") (txt "{}") true]) None (Some true).
Lemma sendable_b s : forallb is_scalar s = true -> (nlen (utf8_enc s) <? 18446744073709551616) = true -> sendable s.
Proof. intros A B. split; [exact A|]. apply N.ltb_lt. exact B. Qed.
Lemma w_ok_willing : willing w_ok.
Proof. intros es e. unfold w_ok. rewrite last_last. destruct e; eauto. Qed.
Lemma full_conf_fine : config_fine full_conf.
Proof.
  unfold config_fine, full_conf. cbn [st_files st_commands st_disks st_extra listed]. split; [|split; [|split; [|reflexivity]]].
  - constructor; [|constructor; [|constructor]]; (split; [apply sendable_b; vm_compute; reflexivity|]; split; [vm_compute; reflexivity|]; split; [vm_compute; discriminate|]);
      intros data E; cbn [rf_source] in E; inversion E; subst; (split; [repeat constructor; lia|vm_compute; discriminate]).
  - constructor; [|constructor]. split; [apply sendable_b; vm_compute; reflexivity|]. split; [constructor; [apply sendable_b; vm_compute; reflexivity|constructor]|vm_compute; reflexivity].
  - constructor; [|constructor]. split; [|split]; apply sendable_b; vm_compute; reflexivity.
Qed.
Lemma full_user_fine u : st_user full_conf = Some u -> user_fine u.
Proof.
  intros E. inversion E; subst. split; [apply sendable_b; vm_compute; reflexivity|]. split; [left; discriminate|]. cbn [iu_pw iu_keys]. split.
  - intros p E2. inversion E2; subst. apply sendable_b; vm_compute; reflexivity.
  - intros ks E2. inversion E2; subst. split; [discriminate|]. split; [|apply sendable_b; vm_compute; reflexivity].
    constructor; [|constructor; [|constructor]]; intros H; vm_compute in H; repeat (destruct H as [H|H]; [discriminate|]); exact H.
Qed.
Definition all_modules : list simod := [DevMod; SSHKey; BinaryFile; Command; Reboot; DiskEncryption].
Example C56_case : exists sc, from_settings toy full_conf = Some sc /\ exists l s, list_of_reply (make_reply sc None all_modules) = Some l /\
  process toy w_ok (Some (txt "/sysroot")) l [] = (s, Ok tt) /\
  effects (d_log s) = [EWrite (txt "/sysroot/etc/a") [1; 2] 420; EWrite (txt "/sysroot/etc/b") [] 384; ERun (txt "ls") [txt "-l"];
    EOpen (txt "disk"); ERebind (txt "disk") (txt "tpm2") (txt "{}"); EReencrypt (txt "disk");
    ENewUserPw (txt "admin") (txt "pw"); ENewUser (txt "admin"); EKey (txt "admin") (txt "key1"); EKey (txt "admin") (txt "key2")] /\ d_reboot s = true.
Proof.
  eexists. split; [vm_compute; reflexivity|]. eexists. eexists. split; [vm_compute; reflexivity|]. split; [vm_compute; reflexivity|]. split; vm_compute; reflexivity.
Qed.

(** What is missing from C56: commands of other modules, given in additional_serviceinfo.  They are always texts, so the
    subscription the device knows how to make cannot be configured. *)
Definition C56_subscription_statement : Prop :=
  forall c w prefix org key insights out l, willing w ->
  let conf := Settings None None None None (Some [(SubscriptionManager, [(txt "organization_id", org); (txt "activation_key", key); (txt "perform_insights", insights)])]) None in
  list_of_reply (make_reply conf None [SubscriptionManager]) = Some l ->
  exists s, process c w prefix l out = (s, Ok tt) /\ In (ERegister org key) (effects (d_log s)).
Theorem C56_subscription_refuted : ~ C56_subscription_statement.
Proof.
  intros H. destruct (H toy w_ok None (txt "1") (txt "k") (txt "true") [] _ w_ok_willing eq_refl) as (s & P & _). vm_compute in P. discriminate.
Qed.
(** And a user with an empty list of keys gets an empty key. *)
Definition C56_no_keys_statement : Prop :=
  forall c w prefix name l out s, willing w ->
  list_of_reply (make_reply (Settings (Some (InitUser name None (Some []))) None None None None None) None [SSHKey]) = Some l ->
  process c w prefix l out = (s, Ok tt) -> effects (d_log s) = user_made (InitUser name None (Some [])).
Theorem C56_no_keys_refuted : ~ C56_no_keys_statement.
Proof.
  intros H. set (r := list_of_reply (make_reply (Settings (Some (InitUser (txt "admin") None (Some []))) None None None None None) None [SSHKey])).
  set (l := match r with Some l => l | None => [] end). specialize (H toy w_ok None (txt "admin") l [] (fst (process toy w_ok None l [])) w_ok_willing).
  assert (A : r = Some l) by (vm_compute; reflexivity). assert (B : process toy w_ok None l [] = (fst (process toy w_ok None l []), Ok tt)) by (vm_compute; reflexivity).
  specialize (H A B). vm_compute in H. discriminate.
Qed.

Print Assumptions C42_reply.
Print Assumptions C42_list.
Print Assumptions C42_partial.
Print Assumptions C42_refuted.
Print Assumptions C43_admin.
Print Assumptions C43_info.
Print Assumptions C43_served.
Print Assumptions C56_partial.
Print Assumptions C45_configured_partial.
Print Assumptions C56_subscription_refuted.
Print Assumptions C56_no_keys_refuted.
