(** * C85, C86: the owner server registers its devices over HTTP
    The owner server's half of TO0 (owner-onboarding-server/src/main.rs:210-313) and the rendezvous server that answers it
    (rendezvous-server/src/handlers_to0.rs). *)
From Verif Require Import Base BaseFacts CborModel CborSpec ValueModel Text Assoc Hex TypesModel CryptoSpec VoucherModel VoucherSpec RvModel StoreModel StoreSpec Backend
  MsgModel SessionModel SessionSpec HttpClientModel HttpClientSpec RvServerModel RvServerSpec RvServerRuns SiModel DevSiModel OwnerModel ClientModel To0Model To0Spec To0Accept
  To0ClientModel FindSpec To0ClientSpec ServeSpec OnboardSpec To0ClientProofs.
From Verif Require P_Find.
From Coq Require Import ZifyBool ZifyNat ZifyN.
Local Open Scope N_scope.
Local Opaque dec_top from_slice any_value.

(** ** C85: what C41 and C58 say of calls to a rendezvous server holds of the requests that are made.  Every run is one of the
    runs of [report_ov], in which a server is called by its address: the same addresses in the same order, in a Hello the empty
    array, in an OwnerSign the message; and it ends in the same way. *)
Theorem C85_refines : forall A c chk avail sh wo cf v s, exists net rnd l,
  s_hist (fst (to0_report A c chk avail sh wo cf v s)) = s_hist s ++ l /\ Forall2 sent_as (fst (report_ov c chk sh cf net rnd v)) l /\
  snd (report_ov c chk sh cf net rnd v) = snd (to0_report A c chk avail sh wo cf v s).
Proof. intros A c chk avail sh wo cf v s. apply report_refines. Qed.
Print Assumptions C85_refines.

(** Where a rendezvous server is behind one of the addresses in the voucher and nobody behind those before it, the registration
    is made there, by a Hello and an OwnerSign; the number of seconds the owner server gets back is what the server grants; and
    from then on the server has the owner's record for the device, for that long.  This is so whatever others do at the server
    in the meantime, and whatever it has stored before. *)
Theorem C85_registered_directory : forall A idt c chk kf rcf cf data v key k avail av wo url surr at_ id until sh s il us rest,
  aead_roundtrip A -> seal_longer A -> outputs_ok c -> sign_correct c -> keyfns_ok c kf ->
  (* the voucher is this owner's and acceptable to both servers *)
  registrable c chk kf rcf cf data v key -> reportable c cf v -> guid_text (hd_guid (ov_header v)) = Some k ->
  (* the rendezvous server *)
  reached A idt (rv_server c chk kf rcf (rv_dir c chk)) av wo url surr at_ ->
  (forall h, undisturbed A idt (rv_server c chk kf rcf (rv_dir c chk)) (fun _ _ => True) id (fun _ => True) (su_before (surr h))) ->
  (forall h, rv_ready idt until (surr h)) -> (forall h, su_id (surr h) = id) -> until / second + N.min (tc_period cf) (cf_max rcf) < 2 ^ 63 ->
  y_pend (at_ (s_hist s)) = [] ->
  (* its address is in the voucher; those before it are dead *)
  to_interpreted (hd_rv (ov_header v)) RvModel.Owner = Ok il -> flat_map (get_urls sh) il = us ++ url :: rest -> Forall (dead wo) us -> ~ dead wo url ->
  fits (s_hist (fst (to0_report A c chk avail sh wo cf v s))) ->
  exists s' l w20 w22 it, to0_report A c chk avail sh wo cf v s = (s', Ok (N.min (tc_period cf) (cf_max rcf))) /\
    s_hist s' = s_hist s ++ l ++ [TWire url w20; TWire url w22] /\ Forall (to_dead wo) l /\ wr_type w20 = 20 /\ wr_type w22 = 22 /\
    owners_record c chk cf key it /\
    dir_until (item_codec c chk) k it (registered_to cf rcf (e_now (su_env (surr (s_hist s ++ l ++ [TWire url w20])) w22))) (y_world (at_ (s_hist s'))) /\
    y_pend (at_ (s_hist s')) = [].
Proof.
  intros A idt c chk kf rcf cf data v key k avail av wo url surr at_ id until sh s il us rest AR SLG HO HS KF RG RP G SD QU RR ID UB YP TI US DU ND FT.
  destruct (report_ok A AR SLG idt c HO HS chk kf KF rcf cf (rv_dir c chk) data v key RG (fun _ _ => True) (fun _ => True) (dir_post c chk rcf cf key k) until UB
    (fun _ _ _ _ _ _ _ _ _ _ => Logic.I) (dir_handles c HO HS chk kf KF rcf cf data v key k G) avail av wo url surr at_ SD id QU RR ID sh s il us rest YP Logic.I RP TI US DU ND FT)
    as (s' & l & w20 & w22 & E & H & FL & T1 & T2 & (it & OR & DU') & YP').
  exists s', l, w20, w22, it. auto 10.
Qed.
Print Assumptions C85_registered_directory.

(** With a database: if the device is not in its table when the owner server calls, and nobody else registers it.  (Where it is
    registered already, the request is refused: C58_database_refuted.) *)
Theorem C85_registered_database_partial : forall A idt c chk kf rcf cf data v key k avail av wo url surr at_ id until sh s il us rest,
  aead_roundtrip A -> seal_longer A -> outputs_ok c -> sign_correct c -> keyfns_ok c kf ->
  registrable c chk kf rcf cf data v key -> reportable c cf v -> guid_text (hd_guid (ov_header v)) = Some k ->
  reached A idt (rv_server c chk kf rcf (rv_db c chk)) av wo url surr at_ ->
  (forall h, undisturbed A idt (rv_server c chk kf rcf (rv_db c chk)) (of_others c chk k until) id (fun t => aget k t = None) (su_before (surr h))) ->
  (forall h, rv_ready idt until (surr h)) -> (forall h, su_id (surr h) = id) -> until / second + N.min (tc_period cf) (cf_max rcf) < 2 ^ 63 ->
  y_pend (at_ (s_hist s)) = [] -> aget k (y_world (at_ (s_hist s))) = None ->
  to_interpreted (hd_rv (ov_header v)) RvModel.Owner = Ok il -> flat_map (get_urls sh) il = us ++ url :: rest -> Forall (dead wo) us -> ~ dead wo url ->
  fits (s_hist (fst (to0_report A c chk avail sh wo cf v s))) ->
  exists s' l w20 w22 it, to0_report A c chk avail sh wo cf v s = (s', Ok (N.min (tc_period cf) (cf_max rcf))) /\
    s_hist s' = s_hist s ++ l ++ [TWire url w20; TWire url w22] /\ Forall (to_dead wo) l /\ wr_type w20 = 20 /\ wr_type w22 = 22 /\
    owners_record c chk cf key it /\ row_of (item_codec c chk) k it (y_world (at_ (s_hist s'))) /\ y_pend (at_ (s_hist s')) = [].
Proof.
  intros A idt c chk kf rcf cf data v key k avail av wo url surr at_ id until sh s il us rest AR SLG HO HS KF RG RP G SD QU RR ID UB YP NO TI US DU ND FT.
  destruct (report_ok A AR SLG idt c HO HS chk kf KF rcf cf (rv_db c chk) data v key RG (of_others c chk k until) (fun t => aget k t = None) (fun _ => db_post c chk cf key k 0) until UB
    (db_absent c chk kf rcf k until) (db_handles c HO HS chk kf KF rcf cf data v key k G) avail av wo url surr at_ SD id QU RR ID sh s il us rest YP NO RP TI US DU ND FT)
    as (s' & l & w20 & w22 & E & H & FL & T1 & T2 & (it & OR & DU') & YP').
  exists s', l, w20, w22, it. auto 10.
Qed.
Print Assumptions C85_registered_database_partial.

(** ** C86: whatever comes back, the owner server does not panic: its registrations end with an error at the worst.  A panic ends
    the task that registers, and the owner server with it (main.rs:615-631). *)
Definition C86_statement : Prop := forall A c chk avail sh wo cf data v s p, outputs_ok c -> sign_correct c -> harmless c chk cf data v ->
  (forall h r b, wo_resp wo h = Some r -> hr_body r = Some b -> bytes_ok b) -> snd (to0_report A c chk avail sh wo cf v s) <> Panic p.
(** So if no response has an Authorization header that is not text *)
Theorem C86_partial : forall A c chk avail sh wo cf data v s p, outputs_ok c -> sign_correct c -> harmless c chk cf data v ->
  plain_responses wo -> snd (to0_report A c chk avail sh wo cf v s) <> Panic p.
Proof. intros A c chk avail sh wo cf data v s p HO HS HL PR. apply (report_no_panic A c HO HS chk avail wo cf data v HL PR). Qed.
Print Assumptions C86_partial.

(** ** Cases: the first address in the voucher leads nowhere, at the second there is a rendezvous server *)
From Verif Require Import ToyCrypto ToySession P_Voucher P_Rv P_Kex P_RvServer P_To0 ClientToy P_Onboard P_Find.
Section toy_registers.
Context {W : Type} (be : backend item W) (w0 : W).
Definition tc_surr (h : list devent) : surround W rvenv := Surround [STick (5 * SES_SEC); SMaint] (fun _ => RvEnv t100 n4 IoOk) [6] [6] [].
Definition tc_step (y : sys (W:=W) (D:=rvdata)) (w : HttpClientModel.wire) :=
  sys_run toy_aead toy_idt (toy_rv be) (fst (sys_run toy_aead toy_idt (toy_rv be) y (sequential (su_before (tc_surr []))))) (one_request (su_request (tc_surr []) w) NoFault).
Fixpoint tc_back (r : list devent) : sys (W:=W) (D:=rvdata) :=
  match r with
  | [] => sys_init t100 w0
  | TWire u w :: r => if bytes_eqb u fd_rurl then fst (tc_step (tc_back r) w) else tc_back r
  | _ :: r => tc_back r
  end.
Definition tc_at (h : list devent) := tc_back (rev h).
Definition tc_resp (h : list devent) : option hresponse :=
  match rev h with TWire u w :: r => if bytes_eqb u fd_rurl then to_hresponse true (last (replies_of (snd (tc_step (tc_back r) w))) Dropped) [] else None | _ => None end.
Definition tc_world : world := World tc_resp (wo_fx ob_world) (wo_io ob_world) (wo_rand ob_world) (wo_kex ob_world) (wo_release ob_world) (wo_arch ob_world) (wo_mods ob_world).
Definition tc_start : st := St [] [] client_new.
Definition tc_report := to0_report toy_aead toy true true to_sh tc_world to_conf to_voucher tc_start.
Lemma tc_reached : reached toy_aead toy_idt (toy_rv be) true tc_world fd_rurl tc_surr tc_at.
Proof.
  constructor.
  - intros h w. unfold tc_at. rewrite rev_unit. cbn [tc_back]. rewrite bytes_eqb_refl. split; [reflexivity|]. cbn [wo_resp tc_world]. unfold tc_resp. rewrite rev_unit, bytes_eqb_refl. reflexivity.
  - intros h e N. unfold tc_at. rewrite rev_unit. cbn [tc_back]. destruct e as [u w| | | | |]; try reflexivity. destruct (bytes_eqb u fd_rurl) eqn:E; [|reflexivity].
    apply bytes_eqb_spec in E. subst u. exfalso. exact (N w eq_refl).
Qed.
Lemma tc_undisturbed fair holds h : undisturbed toy_aead toy_idt (toy_rv be) fair [6] holds (su_before (tc_surr h)).
Proof. split; [vm_compute; discriminate|]. repeat constructor. Qed.
Lemma tc_ready h : rv_ready toy_idt fd_until (tc_surr h).
Proof.
  constructor; cbn [tc_surr su_env su_token su_id e_now].
  - intros _. exists n4. split; [reflexivity|]. apply b16; reflexivity.
  - intros _. vm_compute. discriminate.
  - reflexivity.
  - split; [|reflexivity]. intros [H|[]]. discriminate.
Qed.
Lemma tc_dead : dead tc_world (txt "http://rv1:80").
Proof. intros h w. cbn [wo_resp tc_world]. unfold tc_resp. rewrite rev_unit. reflexivity. Qed.
End toy_registers.
Definition tc_key : pubkey := Pubkey 10 1 [42] [42] None.
Lemma tc_registrable : registrable toy true kf_toy cf_toy to_conf to_data to_voucher tc_key.
Proof. destruct to_rightful as (B & L & D & TS & OW & TL & AD & _). constructor; auto. Qed.
Lemma tc_reportable : reportable toy to_conf to_voucher.
Proof. split; [vm_compute; reflexivity|]. exists [[42; 43]; [43; 43]], [42; 43]. split; vm_compute; reflexivity. Qed.
Lemma tc_guid : guid_text (hd_guid (ov_header to_voucher)) = Some key_toy. Proof. vm_compute. reflexivity. Qed.
Definition tc_il := of_ok [] (to_interpreted (hd_rv (ov_header to_voucher)) RvModel.Owner).
Lemma tc_directives : to_interpreted (hd_rv (ov_header to_voucher)) RvModel.Owner = Ok tc_il. Proof. vm_compute. reflexivity. Qed.
Lemma tc_urls : flat_map (get_urls to_sh) tc_il = [txt "http://rv1:80"] ++ fd_rurl :: []. Proof. vm_compute. reflexivity. Qed.
Lemma tc_alive_dir : ~ dead (tc_world (rv_dir toy true) []) fd_rurl.
Proof. intros D. specialize (D [] (Wire 20 None false [128])). vm_compute in D. discriminate. Qed.
Lemma tc_alive_db : ~ dead (tc_world (rv_db toy true) []) fd_rurl.
Proof. intros D. specialize (D [] (Wire 20 None false [128])). vm_compute in D. discriminate. Qed.
Lemma tc_fits_dir : fits (s_hist (fst (tc_report (rv_dir toy true) []))). Proof. apply ob_fits_b. vm_compute. reflexivity. Qed.
Lemma tc_fits_db : fits (s_hist (fst (tc_report (rv_db toy true) []))). Proof. apply ob_fits_b. vm_compute. reflexivity. Qed.
Lemma tc_bound : fd_until / second + N.min (tc_period to_conf) (cf_max cf_toy) < 2 ^ 63. Proof. vm_compute. reflexivity. Qed.
Example C85_case_directory : exists s' l w20 w22 it, tc_report (rv_dir toy true) [] = (s', Ok 600) /\
  s_hist s' = l ++ [TWire fd_rurl w20; TWire fd_rurl w22] /\ Forall (to_dead (tc_world (rv_dir toy true) [])) l /\ wr_type w20 = 20 /\ wr_type w22 = 22 /\
  owners_record toy true to_conf tc_key it /\ dir_until (item_codec toy true) key_toy it (700 * second) (y_world (tc_at (rv_dir toy true) [] (s_hist s'))) /\ y_pend (tc_at (rv_dir toy true) [] (s_hist s')) = [].
Proof.
  exact (C85_registered_directory toy_aead toy_idt toy true kf_toy cf_toy to_conf to_data to_voucher tc_key key_toy true true (tc_world (rv_dir toy true) []) fd_rurl tc_surr
    (tc_at (rv_dir toy true) []) [6] fd_until to_sh tc_start tc_il [txt "http://rv1:80"] [] toy_roundtrip ob_seals toy_outputs_ok toy_sign_correct kf_toy_ok tc_registrable tc_reportable tc_guid
    (tc_reached _ _) (tc_undisturbed _ _ _) tc_ready (fun h => eq_refl) tc_bound eq_refl tc_directives tc_urls (Forall_cons _ (tc_dead _ _) (Forall_nil _)) tc_alive_dir tc_fits_dir).
Qed.
Example C85_case_database : exists s' l w20 w22 it, tc_report (rv_db toy true) [] = (s', Ok 600) /\
  s_hist s' = l ++ [TWire fd_rurl w20; TWire fd_rurl w22] /\ Forall (to_dead (tc_world (rv_db toy true) [])) l /\ wr_type w20 = 20 /\ wr_type w22 = 22 /\
  owners_record toy true to_conf tc_key it /\ row_of (item_codec toy true) key_toy it (y_world (tc_at (rv_db toy true) [] (s_hist s'))) /\ y_pend (tc_at (rv_db toy true) [] (s_hist s')) = [].
Proof.
  exact (C85_registered_database_partial toy_aead toy_idt toy true kf_toy cf_toy to_conf to_data to_voucher tc_key key_toy true true (tc_world (rv_db toy true) []) fd_rurl tc_surr
    (tc_at (rv_db toy true) []) [6] fd_until to_sh tc_start tc_il [txt "http://rv1:80"] [] toy_roundtrip ob_seals toy_outputs_ok toy_sign_correct kf_toy_ok tc_registrable tc_reportable tc_guid
    (tc_reached _ _) (tc_undisturbed _ _ _) tc_ready (fun h => eq_refl) tc_bound eq_refl eq_refl tc_directives tc_urls (Forall_cons _ (tc_dead _ _) (Forall_nil _)) tc_alive_db tc_fits_db).
Qed.

(** A harmless voucher, and a rendezvous server that sends a header which is not text *)
Lemma tc_harmless : harmless toy true to_conf to_data to_voucher.
Proof.
  destruct to_rightful as (B & L & D & TS & OW & TL & AD & _). constructor; auto. intros ch x E I.
  assert (X : ov_chain to_voucher = Some [[42; 43]; [43; 43]]) by (vm_compute; reflexivity). rewrite X in E. inversion E; subst. destruct I as [<-|[<-|[]]]; vm_compute; discriminate.
Qed.
Example C86_case : outputs_ok toy /\ sign_correct toy /\ harmless toy true to_conf to_data to_voucher /\ plain_responses (World (fun _ => None) (wo_fx ob_world) (wo_io ob_world) (wo_rand ob_world) (wo_kex ob_world) None [] []).
Proof. split; [apply toy_outputs_ok|]. split; [apply toy_sign_correct|]. split; [exact tc_harmless|]. intros h r E. discriminate. Qed.
Definition bad_resp : hresponse := HResp true None (Some (HText (dec_str 21))) (Some HOpaque) (Some (enc (VArr [bstr_val n3]))).
Definition bad_world : world := World (fun _ => Some bad_resp) (wo_fx ob_world) (wo_io ob_world) (wo_rand ob_world) (wo_kex ob_world) None [] [].
Lemma bad_panics : snd (to0_report toy_aead toy true true to_sh bad_world to_conf to_voucher tc_start) = Panic P_AUTH_HEADER.
Proof. vm_compute. reflexivity. Qed.
Theorem C86_refuted : ~ C86_statement.
Proof.
  intros H. refine (H toy_aead toy true true to_sh bad_world to_conf to_data to_voucher tc_start P_AUTH_HEADER toy_outputs_ok toy_sign_correct tc_harmless _ bad_panics).
  intros h r b E B. cbn [wo_resp bad_world] in E. inversion E; subst. cbn [bad_resp hr_body] in B. inversion B; subst. apply bytes_okb. vm_compute. reflexivity.
Qed.
Print Assumptions C86_refuted.
(** Of two vouchers that are due, the second is not registered: the maintenance has ended, and with it the server. *)
Example C86_ends : let bad : nat -> To0Model.around table := fun _ => To0Model.Around (fun _ _ => Panic P_AUTH_HEADER) [] (fun t => t) t1000 true in
  let x := maint_round toy true to_sh to_conf (db_ovs toy true) t1000 t1000 bad bad two_rows in
  snd x = Panic P_AUTH_HEADER /\ map rp_voucher (snd (fst x)) = [to_voucher].
Proof. vm_compute. auto. Qed.
