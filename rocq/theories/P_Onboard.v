(** * C69: a device onboards with its owner
    Both sides of the protocol of TO2 together (client-linuxapp/src/main.rs:316-1061, owner-onboarding-server/src/
    handlers.rs:18-585, http-wrapper's client and server), with the service info API server behind the owner's server. *)
From Verif Require Import Base BaseFacts CborModel ValueModel ValueProofs Text Assoc Hex TypesModel CryptoSpec TypesProofs VoucherModel VoucherSpec VoucherProofs KexModel KexSpec RvModel StoreModel StoreSpec Backend
  MsgModel SessionModel SessionSpec HttpClientModel HttpClientSpec RvServerModel SiModel DevSiModel SiSpec SiProofs2 SiApiModel SiApiSpec OwnerModel OwnerSpec OwnerProofs ClientModel ClientSpec ClientProofs ClientHonest OnboardSpec OnboardProofs OnboardProofs2 OnboardProofs3 OnboardProofs4.
From Verif Require P_Servers.
From Coq Require Import ZifyBool ZifyNat ZifyN.
Local Open Scope N_scope.
Local Opaque dec_top from_slice any_value.

(** [h]: what the device has done before.  [id]: the session that the server will give the device. *)
Theorem C69_onboards : forall A idt c chk ko cf W (be : backend voucher W) marked wo url surr at_ id key v holds dc to1d avail prefix m tok auth conf sc pd s,
  (* cryptography *)
  aead_roundtrip A -> seal_longer A -> P_Servers.seals_derived ko A -> outputs_ok c -> sign_correct c -> hash_sizes c -> curve_laws ko -> kex_works ko ->
  (* the owner's server is behind the address; what happens there otherwise does not concern the device's session *)
  served A idt (ow_server c chk ko cf be) (oc_kdf_avail cf) wo url surr at_ ->
  (forall h, quiet idt id holds (an_before (surr h))) -> (forall h, owner_ready ko idt (surr h)) -> an_id (surr (s_hist s)) = id ->
  (* its store holds the device's voucher, and the voucher is the owner's *)
  guid_text (dc_guid dc) = Some key -> keeper be key v holds -> mark_laws be marked -> holds (y_world (at_ (s_hist s))) -> y_pend (at_ (s_hist s)) = [] ->
  its_voucher c chk dc v -> its_owner c chk cf v to1d ->
  (* it is configured for a service info API server *)
  info_auth tok auth = true -> from_settings c conf = Some sc -> (forall h mods, an_api (surr h) key mods = ask_api tok auth sc pd (dc_guid dc) mods) ->
  let user := match pd (dc_guid dc) with Some u => u | None => st_user conf end in
  config_fine conf -> (forall u, user = Some u -> user_fine u) ->
  (forall mods l, list_of_reply (make_reply sc (pd (dc_guid dc)) mods) = Some l -> nlen (enc (silist_val l)) < 2 ^ 64) ->
  (* the device's machine works, and no request is larger than the server takes *)
  device_ready ko wo -> fits (s_hist (fst (perform_to2 A c chk ko avail prefix wo m dc url to1d s))) ->
  exists s' l es, perform_to2 A c chk ko avail prefix wo m dc url to1d s = (s', Ok (match st_reboot conf with Some b => b | None => false end)) /\
    s_hist s' = s_hist s ++ l /\ session_of url (nlen (entries_raw v)) es m l /\ configured prefix conf user (offered wo) es /\
    marked (y_world (at_ (s_hist s'))) key.
Proof.
  intros A idt c chk ko cf W be marked wo url surr at_ id key v holds dc to1d avail prefix m tok auth conf sc pd s AR SLG SDV HO HS HSZ CL KW SD QU OR ID KEY KP ML HW HP IV IO AUTH FS API user CF UF SZ DR FT.
  apply (session_ok A AR SLG idt c HO HS HSZ chk ko CL KW SDV cf be key v holds KP avail prefix wo url surr at_ SD id QU to1d IO dc IV KEY OR DR tok auth AUTH conf sc FS CF pd API UF SZ marked ML m s); [|exact FT].
  constructor; cbn [s_url s_hist s_hc]; try assumption; try reflexivity. destruct (or_token _ _ _ (OR (s_hist s))) as [H1 H2]. rewrite ID in H2. auto.
Qed.

(** Both stores keep what they hold. *)
Theorem C69_directory : forall (cd : codec voucher) k v, keeper (dir_backend cd) k v (dir_holds cd k v).
Proof.
  intros cd k v. constructor; cbn [dir_backend b_load b_meta].
  - intros now w (f & G & D & T). unfold dir_load. rewrite G, T, D. reflexivity.
  - intros now w k' w' r (f & G & D & T) L. unfold dir_load in L. destruct (aget (get_path k') w) as [f'|] eqn:G'; [|inversion L; subst; exists f; auto].
    destruct (aget (xname Ttl) (f_xattr f')) as [t|] eqn:X; [|inversion L; subst; exists f; auto].
    destruct (ttl_from_disk t) as [x| |]; [|inversion L; subst; exists f; auto|inversion L; subst; exists f; auto].
    destruct (x <? now); inversion L; subst; exists f; [|auto]. split; [|auto]. rewrite aget_adel_ne; [exact G|]. intros E. rewrite E in G. rewrite G' in G. inversion G; subst. congruence.
  - intros now w (f & G & D & T). unfold dir_set_meta. rewrite G. eexists. reflexivity.
  - intros now w k' w' r (f & G & D & T) L. unfold dir_set_meta in L. destruct (aget (get_path k') w) as [f'|] eqn:G'; inversion L; subst; [|exists f; auto].
    destruct (bytes_eqb (get_path k') (get_path k)) eqn:E.
    + apply bytes_eqb_spec in E. rewrite E in *. rewrite G in G'. inversion G'; subst f'. eexists. split; [apply aget_aset_eq|]. cbn [f_data f_xattr]. split; [exact D|]. rewrite aget_aset_ne; [exact T|vm_compute; discriminate].
    + exists f. split; [|auto]. rewrite aget_aset_ne; [exact G|]. intros X. rewrite X, bytes_eqb_refl in E. discriminate.
Qed.
Theorem C69_database : forall (cd : codec voucher) guid_of k v, keeper (db_backend cd guid_of Owner) k v (db_holds cd k v).
Proof.
  intros cd guid_of k v. constructor; cbn [db_backend b_load b_meta].
  - intros now w (r & G & D). unfold db_load. rewrite G, D. reflexivity.
  - intros now w k' w' r (f & G & D) L. inversion L; subst. exists f. auto.
  - intros now w (r & G & D). unfold db_set_meta. eexists. reflexivity.
  - intros now w k' w' r (f & G & D) L. unfold db_set_meta in L. inversion L; subst; clear L. unfold update. destruct (aget k' w) as [f'|] eqn:G'; [|exists f; auto].
    destruct (bytes_eqb k' k) eqn:E.
    + apply bytes_eqb_spec in E. subst k'. rewrite G in G'. inversion G'; subst f'. eexists. split; [apply aget_aset_eq|exact D].
    + exists f. split; [|exact D]. rewrite aget_aset_ne; [exact G|]. intros X. rewrite X, bytes_eqb_refl in E. discriminate.
Qed.

(** ** A case *)
From Verif Require Import RvServerRuns To0Model ToyCrypto ToySession P_Voucher P_Rv P_Kex P_RvServer P_Si P_SiApi P_Owner P_To0 ClientToy P_Honest OnboardSpec.
Definition ob_url : str := txt "http://owner:8043".
Definition ob_sc : settings sifile := match from_settings toy full_conf with Some x => x | None => Settings None None None None None None end.
Definition ob_tok : tokens := tokens_of (Some (txt "tok")) None.
Definition ob_around (h : list devent) : OnboardSpec.around dir :=
  OnboardSpec.Around [STick (5 * SES_SEC); SMaint] t1000 n6 (fun _ => Some kex384) ex_guid [] (fun _ mods => ask_api ob_tok (txt "Bearer tok") ob_sc no_pd (dc_guid cl_cred) mods) [5] [5] [].
Definition ob_server := toy_ow (ow_dir toy true).
Definition ob_step (y : sys (W:=dir) (D:=owdata)) (w : HttpClientModel.wire) :=
  sys_run toy_aead toy_idt ob_server (fst (sys_run toy_aead toy_idt ob_server y (sequential (OnboardSpec.an_before (ob_around []))))) (one_request (owner_request (ob_around []) w) NoFault).
Fixpoint ob_back (r : list devent) : sys (W:=dir) (D:=owdata) :=
  match r with
  | [] => sys_init t1000 [(get_path key_toy, File (cl_data ex_exts) [])]
  | TWire u w :: r => if bytes_eqb u ob_url then fst (ob_step (ob_back r) w) else ob_back r
  | _ :: r => ob_back r
  end.
Definition ob_at (h : list devent) := ob_back (rev h).
Definition ob_resp (h : list devent) : option hresponse :=
  match rev h with TWire u w :: r => if bytes_eqb u ob_url then to_hresponse true (last (responses (snd (ob_step (ob_back r) w))) Dropped) [] else None | _ => None end.
Definition ob_world : world := World ob_resp
  (fun h => match rev h with TFx e :: _ => w_ok [e] | _ => Fine end) (fun _ => true) (fun h n => repeat (N.of_nat (length h) mod 256) 16) (fun h s => Some (Ecdh s [3; 4] (repeat 7 48)))
  (Some (Some (txt "linux"))) (txt "x86") [DiskEncryption].
Definition ob_start : st := St [] [] client_new.
Definition ob_to1d : cose := hon_to1d.
Definition ob_run := perform_to2 toy_aead toy true toy_kex true None ob_world DeactivateIt cl_cred ob_url ob_to1d ob_start.

Lemma ob_served : served toy_aead toy_idt ob_server (oc_kdf_avail ocf) ob_world ob_url ob_around ob_at.
Proof.
  constructor.
  - intros h w. unfold ob_at. rewrite rev_unit. cbn [ob_back]. rewrite bytes_eqb_refl. split; [reflexivity|]. cbn [wo_resp ob_world]. unfold ob_resp. rewrite rev_unit, bytes_eqb_refl. reflexivity.
  - intros h e N. unfold ob_at. rewrite rev_unit. cbn [ob_back]. destruct e as [u w| | | | |]; try reflexivity. destruct (bytes_eqb u ob_url) eqn:E; [|reflexivity].
    apply bytes_eqb_spec in E. subst u. exfalso. exact (N w eq_refl).
Qed.
Lemma ob_quiet holds h : quiet toy_idt [5] holds (OnboardSpec.an_before (ob_around h)).
Proof. split; [vm_compute; discriminate|]. repeat constructor. Qed.
Lemma b16 n : forallb (fun x => x <? 256) n = true -> (nlen n =? 16) = true -> nonce_ok n.
Proof. intros A B. split; [apply bytes_okb; exact A|apply N.eqb_eq; exact B]. Qed.
Lemma ob_kex_ok key r : forallb (fun x => x <? 256) r = true -> (nlen r =? 48) = true -> kex_ok toy_kex (Some (Ecdh Ecdh384 key r)).
Proof. intros A B. exists key, r. split; [reflexivity|]. split; [apply bytes_okb; exact A|]. split; [apply N.eqb_eq; exact B|discriminate]. Qed.
Lemma ob_owner_ready h : owner_ready toy_kex toy_idt (ob_around h).
Proof.
  constructor; cbn [ob_around an_nonce an_kex an_guid an_token an_id]; [apply b16; reflexivity|apply ob_kex_ok; reflexivity|apply b16; reflexivity|].
  split; [|reflexivity]. intros [H|[]]. discriminate.
Qed.
Lemma ob_device_ready : device_ready toy_kex ob_world.
Proof.
  constructor; cbn [ob_world wo_io wo_rand wo_kex wo_release wo_arch wo_mods].
  - reflexivity.
  - intros h. split; [|reflexivity]. apply Forall_forall. intros x H. apply repeat_spec in H. subst x. pose proof (N.mod_upper_bound (N.of_nat (length h)) 256). lia.
  - intros h. apply ob_kex_ok; reflexivity.
  - exists (txt "linux"). split; [reflexivity|]. apply sendable_b; vm_compute; reflexivity.
  - apply sendable_b; vm_compute; reflexivity.
  - split; [repeat constructor; intros []|]. constructor; [|constructor]. vm_compute. auto 30.
  - intros h e. destruct e; cbn [wo_fx ob_world]; rewrite rev_unit; try reflexivity. eexists _, _. split; [reflexivity|]. split; apply bytes_okb; reflexivity.
Qed.
Definition ob_voucher : voucher := cl_voucher ex_exts.
Lemma ob_voucher_is : extend_all toy true cl_new ex_exts = (ob_voucher, Ok tt). Proof. vm_compute. reflexivity. Qed.
Lemma ob_new : voucher_new to_header cl_hmac (Some [[42; 43]; [43; 43]]) = Ok cl_new. Proof. vm_compute. reflexivity. Qed.
Lemma ob_header_reads : header_deserialize toy true cl_header_bytes = Ok to_header. Proof. vm_compute. reflexivity. Qed.
Lemma ob_issued : issued toy true ob_voucher.
Proof.
  assert (I : issued toy true cl_new).
  { eapply issued_new with (h := to_header) (hmac := cl_hmac) (ch := [[42; 43]; [43; 43]]).
    - exists cl_header_bytes. split; [vm_compute; reflexivity|]. split; [exact ob_header_reads|]. apply bytes_okb. vm_compute. reflexivity.
    - split; [apply bytes_okb; vm_compute; reflexivity|]. vm_compute. reflexivity.
    - split; [reflexivity|]. repeat constructor; cbn; try lia.
    - exact ob_new.
    - vm_compute. reflexivity. }
  destruct (extend_all_keeps toy true toy_outputs_ok toy_sign_correct _ _ _ I ex_exts_ok ob_voucher_is) as (H & _). exact H.
Qed.
Lemma ob_mfg_key : exists kraw, nth_error (pa_items (hd_contents (ov_header ob_voucher))) 4 = Some kraw /\ h_type cl_mfg = Sha384 /\ h_value cl_mfg = c_hash toy (h_type cl_mfg) kraw.
Proof. eexists. split; [vm_compute; reflexivity|]. split; vm_compute; reflexivity. Qed.
Lemma ob_its_voucher : its_voucher toy true cl_cred ob_voucher.
Proof.
  constructor.
  - vm_compute. reflexivity.
  - apply b16; reflexivity.
  - exists cl_header_bytes. split; [exists (enc (VBytes cl_header_bytes)); split; vm_compute; reflexivity|]. split; [vm_compute; reflexivity|]. split; [|vm_compute; reflexivity].
    vm_compute. reflexivity.
  - destruct ob_mfg_key as (k & E & T & V). exists k. split; [exact E|]. split; [right; exact T|exact V].
  - exists [42; 43], [[43; 43]]. split; vm_compute; reflexivity.
  - discriminate.
Qed.
Lemma ob_verifies : exists ps, verify_entries toy true ob_voucher = Ok ps /\ pk_key (owner_after ob_voucher ps) = [7].
Proof. eexists. split; vm_compute; reflexivity. Qed.
Lemma ob_its_owner : its_owner toy true ocf ob_voucher ob_to1d.
Proof.
  constructor.
  - exact ob_issued.
  - vm_compute. split; discriminate.
  - destruct ob_verifies as (ps & V & K). exists ps. split; [exact V|exact K].
  - exact hon_signed1.
  - split; discriminate.
  - split; (split; [apply ex_key_valid; lia|vm_compute; reflexivity]).
Qed.
Lemma ob_settings : from_settings toy full_conf = Some ob_sc. Proof. vm_compute. reflexivity. Qed.
Lemma ob_sizes mods l : list_of_reply (make_reply ob_sc None mods) = Some l -> nlen (enc (silist_val l)) < 2 ^ 64.
Proof.
  unfold make_reply, when. destruct (existsb (simod_eqb SSHKey) mods), (existsb (simod_eqb BinaryFile) mods), (existsb (simod_eqb Command) mods), (existsb (simod_eqb DiskEncryption) mods), (existsb (simod_eqb Reboot) mods);
    intros E; vm_compute in E; injection E as <-; vm_compute; reflexivity.
Qed.
Lemma ob_fits_b h : forallb (fun e => match e with TWire _ w => nlen (wr_body w) <=? 16384 | _ => true end) h = true -> fits h.
Proof. intros F u w I. rewrite forallb_forall in F. specialize (F _ I). apply N.leb_le in F. exact F. Qed.
Lemma ob_fits : fits (s_hist (fst ob_run)). Proof. apply ob_fits_b. vm_compute. reflexivity. Qed.
Lemma ob_holds : dir_holds (voucher_codec toy true) key_toy ob_voucher (y_world (ob_at [])).
Proof. eexists. split; [vm_compute; reflexivity|]. split; vm_compute; reflexivity. Qed.
Lemma ob_seals : seal_longer toy_aead.
Proof. intros k n p ct E. inversion E; subst. unfold nlen. cbn [length]. rewrite app_length. lia. Qed.
Lemma ob_kex_works : kex_works toy_kex. Proof. split; [intros s k P k' _ _|intros b i s n]; discriminate. Qed.
Example ob_case : exists s' l es, ob_run = (s', Ok true) /\ s_hist s' = l /\ session_of ob_url 3 es DeactivateIt l /\
  configured None full_conf (st_user full_conf) [DevMod; SSHKey; BinaryFile; Command; Reboot; DiskEncryption] es /\ dir_marked (y_world (ob_at l)) key_toy.
Proof.
  destruct (C69_onboards toy_aead toy_idt toy true toy_kex ocf dir (ow_dir toy true) dir_marked ob_world ob_url ob_around ob_at [5] key_toy ob_voucher (dir_holds (voucher_codec toy true) key_toy ob_voucher)
    cl_cred ob_to1d true None DeactivateIt ob_tok (txt "Bearer tok") full_conf ob_sc no_pd ob_start toy_roundtrip ob_seals (P_Servers.toy_seals_derived toy_kex) toy_outputs_ok toy_sign_correct toy_sizes toy_curve_laws ob_kex_works
    ob_served (fun h => ob_quiet _ h) ob_owner_ready eq_refl ltac:(vm_compute; reflexivity) (C69_directory _ _ _) (dir_mark_laws _) ob_holds eq_refl ob_its_voucher ob_its_owner ltac:(vm_compute; reflexivity) ob_settings (fun h mods => eq_refl)
    full_conf_fine full_user_fine ob_sizes ob_device_ready ob_fits) as (s' & l & es & E & H & S & C & M).
  exists s', l, es. split; [exact E|]. cbn [s_hist ob_start app] in H. split; [exact H|]. split; [exact S|]. split; [exact C|]. rewrite <- H. exact M.
Qed.

Print Assumptions C69_onboards.
Print Assumptions C69_directory.
Print Assumptions C69_database.
