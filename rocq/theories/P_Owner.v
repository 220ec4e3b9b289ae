(** Properties of the owner onboarding server: C27, C28, C30, C57. *)
From Verif Require Import Base BaseFacts Text Assoc RvModel StoreModel StoreSpec Hex Backend BackendSpec BackendProofs
  CborModel ValueModel TypesModel CryptoSpec VoucherModel VoucherSpec VoucherProofs KexModel KexSpec MsgModel SessionModel SessionSpec SeqFacts
  RvServerModel RvServerSpec RvServerRuns SiModel SiSpec SiApiModel OwnerModel OwnerSpec OwnerProofs OwnerRuns ToyCrypto ToySession P_Voucher P_Kex P_RvServer.
From Coq Require Import ZifyBool ZifyNat ZifyN.
Local Open Scope N_scope.

(** Vouchers in a directory, and in a database. *)
Definition ow_dir c chk := dir_backend (voucher_codec c chk).
Definition ow_db c chk := db_backend (voucher_codec c chk) (fun v => match guid_text (hd_guid (ov_header v)) with Some k => k | None => [] end) Owner.

(** * C27: after the proof *)
(** Whatever requests arrive, in whatever sessions and however they overlap, and whatever happens to the store in
    between: the messages that let a device on are sent only in a session that asked for a GUID, was given a nonce, and
    then presented a token over that nonce signed by the key of the device certificate of the voucher kept for the GUID. *)
Theorem C27_answers c chk ko cf {W} (be : backend voucher W) cd keeps okv marked A idt : store_laws be cd keeps okv -> mark_laws be marked ->
  forall now w0 es y o, Forall (ow_event_ok marked) es -> sys_run A idt (ow_server c chk ko cf be) (sys_init now w0) es = (y, o) ->
  forall pre om b tok post, o = pre ++ Sent (Answer om b tok) :: post ->
  In om [TO2SetupDevice; TO2OwnerServiceInfoReady; TO2OwnerServiceInfo; TO2Done2] ->
  exists id im s' g n nonce reply, In (Stored id im om s') pre /\ ek_encrypt A (keys_of s') nonce reply = Ok b /\ proved c chk keeps pre id g n.
Proof.
  intros SL ML now w0 es y o EA R pre om b tok post EQ AP.
  destruct (ow_after_proof c chk ko cf be cd keeps okv marked SL ML w0 A idt now es y o EA R _ _ _ _ _ EQ AP) as (id & im & s' & g & n & k & reply & nonce & ST & PV & KS & _ & EN).
  exists id, im, s', g, n, nonce, reply. split; [exact ST|]. split; [|exact PV]. unfold keys_of. rewrite KS. exact EN.
Qed.
(** A voucher is marked as onboarded only if it was at the start or a session proved the device and then said it is done. *)
Theorem C27_marked c chk ko cf {W} (be : backend voucher W) cd keeps okv marked A idt : store_laws be cd keeps okv -> mark_laws be marked ->
  forall now w0 es y o, Forall (ow_event_ok marked) es -> sys_run A idt (ow_server c chk ko cf be) (sys_init now w0) es = (y, o) ->
  forall k, plain_key k -> marked (y_world y) k -> marked w0 k \/
    exists id g n, guid_text g = Some k /\ proved c chk keeps o id g n /\ finished A o id n.
Proof.
  intros SL ML now w0 es y o EA R. destruct (ow_principle c chk ko cf be cd keeps okv marked SL ML w0 A idt now es y o) as (H & _);
    [intros k _ KP; left; exact KP|apply ow_events_ok; exact EA|exact R|exact H].
Qed.
(** And when the device is told so, the voucher has been marked (if it is still there). *)
Theorem C27_told c chk ko cf {W} (be : backend voucher W) cd keeps okv marked A idt : store_laws be cd keeps okv -> mark_laws be marked ->
  forall now w0 es y o, Forall (ow_event_ok marked) es -> sys_run A idt (ow_server c chk ko cf be) (sys_init now w0) es = (y, o) ->
  forall pre b tok post, o = pre ++ Sent (Answer TO2Done2 b tok) :: post ->
  exists p1 id s body m w e p2 g n k w', pre = p1 ++ Ran id TO2Done s body m w e :: p2 /\ proved c chk keeps p1 id g n /\ guid_text g = Some k /\
    w' = fst (sv_handle (ow_server c chk ko cf be) TO2Done w s m e) /\
    ((exists v, snd (b_load be (oe_now e) w k) = Ok (Some v)) -> marked w' k).
Proof. intros SL ML now w0 es y o. apply (ow_done_marks c chk ko cf be cd keeps okv marked SL ML). Qed.
(** The two stores. *)
Theorem C27_directory c chk ko cf A idt : forall now d0 es y o, Forall (ow_event_ok dir_marked) es ->
  sys_run A idt (ow_server c chk ko cf (ow_dir c chk)) (sys_init now d0) es = (y, o) ->
  (forall pre om b tok post, o = pre ++ Sent (Answer om b tok) :: post ->
    In om [TO2SetupDevice; TO2OwnerServiceInfoReady; TO2OwnerServiceInfo; TO2Done2] ->
    exists id im s' g n nonce reply, In (Stored id im om s') pre /\ ek_encrypt A (keys_of s') nonce reply = Ok b /\
      proved c chk (dir_keeps (voucher_codec c chk)) pre id g n) /\
  (forall k, plain_key k -> dir_marked (y_world y) k -> dir_marked d0 k \/
    exists id g n, guid_text g = Some k /\ proved c chk (dir_keeps (voucher_codec c chk)) o id g n /\ finished A o id n).
Proof.
  intros now d0 es y o EA R. split.
  - eapply (C27_answers c chk ko cf (ow_dir c chk)); [apply (dir_laws (voucher_codec c chk))|apply (dir_mark_laws (voucher_codec c chk))|exact EA|exact R].
  - eapply (C27_marked c chk ko cf (ow_dir c chk)); [apply (dir_laws (voucher_codec c chk))|apply (dir_mark_laws (voucher_codec c chk))|exact EA|exact R].
Qed.
Theorem C27_database c chk ko cf A idt : forall now t0 es y o, Forall (ow_event_ok db_marked) es ->
  sys_run A idt (ow_server c chk ko cf (ow_db c chk)) (sys_init now t0) es = (y, o) ->
  (forall pre om b tok post, o = pre ++ Sent (Answer om b tok) :: post ->
    In om [TO2SetupDevice; TO2OwnerServiceInfoReady; TO2OwnerServiceInfo; TO2Done2] ->
    exists id im s' g n nonce reply, In (Stored id im om s') pre /\ ek_encrypt A (keys_of s') nonce reply = Ok b /\
      proved c chk (db_keeps (voucher_codec c chk)) pre id g n) /\
  (forall k, plain_key k -> db_marked (y_world y) k -> db_marked t0 k \/
    exists id g n, guid_text g = Some k /\ proved c chk (db_keeps (voucher_codec c chk)) o id g n /\ finished A o id n).
Proof.
  intros now t0 es y o EA R. split.
  - eapply (C27_answers c chk ko cf (ow_db c chk)); [apply (db_laws (voucher_codec c chk))|apply (db_mark_laws (voucher_codec c chk))|exact EA|exact R].
  - eapply (C27_marked c chk ko cf (ow_db c chk)); [apply (db_laws (voucher_codec c chk))|apply (db_mark_laws (voucher_codec c chk))|exact EA|exact R].
Qed.

(** * C57: the keys *)
(** What is sent after the proof is encrypted under keys derived from the key exchange drawn for this session and the
    value in the token the device signed in this session. *)
Theorem C57_keys c chk ko cf {W} (be : backend voucher W) cd keeps okv marked A idt : store_laws be cd keeps okv -> mark_laws be marked ->
  forall now w0 es y o, Forall (ow_event_ok marked) es -> sys_run A idt (ow_server c chk ko cf be) (sys_init now w0) es = (y, o) ->
  forall pre om b tok post, o = pre ++ Sent (Answer om b tok) :: post ->
  In om [TO2SetupDevice; TO2OwnerServiceInfoReady; TO2OwnerServiceInfo; TO2Done2] ->
  exists id im s' g n k nonce reply, In (Stored id im om s') pre /\ proved c chk keeps pre id g n /\ agreed chk ko (oc_kdf_avail cf) pre id k /\
    ek_encrypt A k nonce reply = Ok b.
Proof.
  intros SL ML now w0 es y o EA R pre om b tok post EQ AP.
  destruct (ow_after_proof c chk ko cf be cd keeps okv marked SL ML w0 A idt now es y o EA R _ _ _ _ _ EQ AP) as (id & im & s' & g & n & k & reply & nonce & ST & PV & KS & AG & EN).
  exists id, im, s', g, n, k, nonce, reply. auto.
Qed.

(** * C28: rounds of service info *)
(** One request of a session at a time: at most 1001 rounds; the first gives what the API says for this GUID and the
    modules the device listed, the others give nothing and say that this is all. *)
Theorem C28_rounds_partial c chk ko cf {W} (be : backend voucher W) A idt :
  forall l now w0 y o, NoDup (new_ids l) -> sys_run A idt (ow_server c chk ko cf be) (sys_init now w0) (sequential l) = (y, o) ->
  forall id, rounds id o <= 1001.
Proof. intros l now w0 y o. apply rounds_bounded. Qed.
Theorem C28_answers_partial c chk ko cf {W} (be : backend voucher W) cd keeps okv marked A idt : store_laws be cd keeps okv -> mark_laws be marked ->
  forall l now w0 y o, NoDup (new_ids l) -> Forall (ow_event_ok marked) (sequential l) ->
  sys_run A idt (ow_server c chk ko cf be) (sys_init now w0) (sequential l) = (y, o) ->
  forall pre b tok post, o = pre ++ Sent (Answer TO2OwnerServiceInfo b tok) :: post ->
  exists p1 id s body m w e s' nonce reply g n k pt more msg,
    pre = p1 ++ [Ran id TO2DeviceServiceInfo s body m w e; Stored id TO2DeviceServiceInfo TO2OwnerServiceInfo s'] /\
    ek_encrypt A (keys_of s') nonce reply = Ok b /\ rounds id p1 <= 1000 /\ proved c chk keeps p1 id g n /\ guid_text g = Some k /\
    ek_decrypt A (keys_of s) body = Ok pt /\ from_slice as_dsi pt = Ok (more, msg) /\
    (rounds id p1 = 0 -> exists ms r out, last_modules None (si_iter msg) = Ok (Some ms) /\ oe_api e k (join COMMA ms) = Some r /\
       list_of_reply r = Some out /\ reply = enc (VArr [VBool false; VBool false; silist_val out])) /\
    (rounds id p1 <> 0 -> reply = enc (VArr [VBool false; VBool true; VArr []])).
Proof.
  intros SL ML l now w0 y o ND EA R pre b tok post EQ.
  destruct (round_answer c chk ko cf be A idt l now w0 y o ND R _ _ _ _ EQ) as (p1 & id & s & body & m & w & e & s' & nonce & reply & EP & EN & LE &
    pt & more & msg & gt & g & k & more' & fin & out & OP & RD & OG & GP & GT & PS & RE & PV).
  pose proof EQ as EQ'. rewrite EP, <- app_assoc in EQ'. cbn [app] in EQ'.
  destruct (ow_principle c chk ko cf be cd keeps okv marked SL ML w0 A idt now (sequential l) y o) as (_ & PR & _);
    [intros k0 _ KP; left; exact KP|apply ow_events_ok; exact EA|exact R|]. destruct (PR _ _ _ _ _ _ _ _ _ EQ') as (_ & ID1 & _ & P & _ & _).
  destruct ID1 as [_ ID1]. rewrite OG in ID1. destruct (od_nonce6 (ses_data s)) as [n|] eqn:ON; [|contradiction]. destruct ID1 as (g' & GT' & BG & _ & PRV).
  rewrite (guid_round _ _ BG GT') in GP. inversion GP; subst g'. rewrite GT' in GT. inversion GT; subst gt. clear GP GT.
  exists p1, id, s, body, m, w, e, s', nonce, reply, g, n, k, pt, more, msg. split; [exact EP|]. split; [exact EN|]. split; [exact LE|]. split; [exact (PRV PV)|]. split; [exact GT'|].
  split; [exact OP|]. split; [exact RD|]. unfold perform_service_info in PS. split; intros RZ.
  - rewrite RZ in PS. cbn [N.eqb negb] in PS. destruct (last_modules None (si_iter msg)) as [[ms|]| |] eqn:LM; try discriminate.
    destruct (oe_api e k (join COMMA ms)) as [r|] eqn:AP; [|discriminate]. destruct (list_of_reply r) as [out'|] eqn:LR; [|discriminate]. inversion PS; subst. exists ms, r, out. auto.
  - destruct (N.eqb_spec (rounds id p1) 0); [contradiction|]. cbn [negb] in PS. inversion PS; subst. reflexivity.
Qed.

(** ** A TO2 run with the toy cryptography *)
Definition n5 : bytes := repeat 5 16.
Definition n6 : bytes := repeat 6 16.
Definition n7 : bytes := repeat 7 16.
Definition kexD : kex := Ecdh Ecdh256 [3; 4] ex_r16.
Definition kexO : kex := Ecdh Ecdh256 [5; 6] ex_r16'.
Definition ocf : owconf := OwConf [7] (ex_key 7) [7] (ex_key 7) true.
Definition si_reply : reply := Reply None (Some [(Command, txt "active", JBool true)]) None.
Definition toy_api (k m : str) : option reply := if text_eqb k key_toy && text_eqb m (txt "devmod") then Some si_reply else None.
Definition ow_env (f : iofault) : owenv := OwEnv t100 n6 (fun _ => Some kexO) ex_guid [] None toy_api f.
Definition hellodevice_toy : bytes := enc (VArr [VInt 1200; bstr_val ex_guid; bstr_val n5; text_val (txt "ECDH256"); VInt (cipher_num A128Gcm); siginfo_val ((-7)%Z, [])]).
Definition prove_toy (n sk : bytes) : bytes :=
  of_ok [] (cose_serialize (of_ok no_cose (cose_new toy true
    (enc (VMap [(VInt 10, VBytes n); (VInt 11, VBytes (1 :: ex_guid)); (VInt (-257), VArr [VBytes (of_ok [] (get_public toy_kex kexD))])]))
    [(VInt (-259), bstr_val n7)] sk []))).
Definition key_raw : bytes := of_ok [] (derive_key toy_kex true KDevice A128Gcm kexD (of_ok [] (get_public toy_kex kexO)) false).
Definition sealed (b : bytes) : bytes := 224 :: key_raw ++ b.
Definition ow_req (t : N) (auth : option str) (body : bytes) (id : str) : sevent dir owenv :=
  SReq (Req t true auth body (ow_env IoOk) id id [] true) NoFault.
Definition si_msg : bytes := sealed (enc (VArr [VBool false; silist_val (si_of [(DevMod, txt "modules", VArr [VInt 1; VInt 1; text_val (txt "devmod")])])])).
Definition start_events (sk : bytes) : list (sevent dir owenv) :=
  [ow_req 60 None hellodevice_toy [1]; ow_req 62 (Some [1]) (enc (VArr [VInt 2])) [2]; ow_req 64 (Some [1]) (prove_toy n6 sk) [3];
   ow_req 66 (Some [1]) (sealed (enc (VArr [VNull; VNull]))) [4]].
Definition round_events : list (sevent dir owenv) := [ow_req 68 (Some [1]) si_msg [5]; ow_req 68 (Some [1]) si_msg [6]].
Definition done_events (n : bytes) : list (sevent dir owenv) := [ow_req 70 (Some [1]) (sealed (enc (VArr [bstr_val n]))) [7]].
Definition d_toy : dir := [(get_path key_toy, File ex_bytes [])].
Definition toy_ow {W} (be : backend voucher W) := ow_server toy true toy_kex ocf be.
Definition ow_run (l : list (sevent dir owenv)) := sys_run toy_aead toy_idt (toy_ow (ow_dir toy true)) (sys_init 0 d_toy) (sequential l).
Definition all_events (sk : bytes) := start_events sk ++ round_events ++ done_events n6.
Lemma ow_req_ok t auth body id : forallb (fun x => x <? 256) body = true -> Forall (ow_event_ok dir_marked) (sequential [ow_req t auth body id]).
Proof.
  intros H. unfold sequential, ow_req. cbn [flat_map expand app one_request].
  constructor; [|constructor; [exact Logic.I|constructor; [exact Logic.I|constructor]]]. cbn. split; [apply bytes_okb; exact H|]. split; [apply bytes_okb; reflexivity|reflexivity].
Qed.
Lemma seq_forall {W E} (P : event (W:=W) (E:=E) -> Prop) l : Forall (fun x => Forall P (sequential [x])) l -> Forall P (sequential l).
Proof.
  induction 1 as [|x l H _ IH]; [constructor|]. change (sequential (x :: l)) with (expand x ++ sequential l). apply Forall_app. split; [|exact IH].
  unfold sequential in H. cbn [flat_map] in H. rewrite app_nil_r in H. exact H.
Qed.
Lemma all_events_ok sk : forallb (fun x => x <? 256) (prove_toy n6 sk) = true -> Forall (ow_event_ok dir_marked) (sequential (all_events sk)).
Proof. intros H. apply seq_forall. unfold all_events, start_events, round_events, done_events. cbn [app]. repeat (constructor; [apply ow_req_ok; first [exact H|vm_compute; reflexivity]|]). constructor. Qed.
Definition kinds (l : list response) : list N := map (fun r => match r with Answer om _ _ => mtype_num om | ErrorReply n _ => 1000 + n | Dropped => 0 end) l.
(** The device signs with its key: it gets everything and the voucher ends up marked.  With another key: an error, and
    everything after that is refused; with the wrong nonce in the end the voucher is not marked. *)
Example C27_case : Forall (ow_event_ok dir_marked) (sequential (all_events [42])) /\
  kinds (sent (snd (ow_run (all_events [42])))) = [61; 63; 65; 67; 69; 69; 71] /\
  map (fun nf => f_xattr (snd nf)) (y_world (fst (ow_run (all_events [42])))) = [[(txt "user.fdo.to2_performed", txt "true")]] /\
  kinds (sent (snd (ow_run (all_events [41])))) = [61; 63; 1500; 1500; 1500; 1500; 1500] /\
  map (fun nf => f_xattr (snd nf)) (y_world (fst (ow_run (all_events [41])))) = [[]] /\
  kinds (sent (snd (ow_run (start_events [42] ++ round_events ++ done_events n7)))) = [61; 63; 65; 67; 69; 69; 1101].
Proof.
  split; [apply all_events_ok; vm_compute; reflexivity|]. split; [vm_compute; reflexivity|]. split; [vm_compute; reflexivity|]. split; [vm_compute; reflexivity|].
  split; vm_compute; reflexivity.
Qed.
Example C28_case : NoDup (new_ids (all_events [42])) /\
  nth_error (sent (snd (ow_run (all_events [42])))) 4 = Some (Answer TO2OwnerServiceInfo (sealed (enc (VArr [VBool false; VBool false;
    VArr [VArr [text_val (txt "org.fedoraiot.command:active"); VBytes [245]]]]))) None) /\
  nth_error (sent (snd (ow_run (all_events [42])))) 5 = Some (Answer TO2OwnerServiceInfo (sealed (enc (VArr [VBool false; VBool true; VArr []]))) None) /\
  rounds [1] (snd (ow_run (all_events [42]))) = 2.
Proof.
  split; [|split; [vm_compute; reflexivity|split; vm_compute; reflexivity]].
  unfold all_events, start_events, round_events, done_events. cbn [app new_ids]. cbn. repeat (constructor; [cbn; intuition discriminate|]). constructor.
Qed.

(** ** Overlapping requests *)
(** For arbitrary histories the limit does not hold: requests of one session that overlap all see the session as it was. *)
Definition C28_statement : Prop :=
  forall c chk ko cf A idt now d0 es y o, Forall (ow_event_ok dir_marked) es ->
  sys_run A idt (ow_server c chk ko cf (ow_dir c chk)) (sys_init now d0) es = (y, o) -> forall id, rounds id o <= 1001.
Definition si_arrive : event (W:=dir) (E:=owenv) := EArrive (Req 68 true (Some [1]) si_msg (ow_env IoOk) [5] [5] [] true).
Definition storm (n : nat) : list event := sequential (start_events [42]) ++ repeat si_arrive n ++ concat (repeat [EData 0 true; EMeta 0 true] n).
Definition storm_run (n : nat) := sys_run toy_aead toy_idt (toy_ow (ow_dir toy true)) (sys_init 0 d_toy) (storm n).
Lemma storm_ok n : Forall (ow_event_ok dir_marked) (storm n).
Proof.
  apply Forall_app. split.
  - pose proof (all_events_ok [42] ltac:(vm_compute; reflexivity)) as H. unfold all_events, sequential in H. rewrite flat_map_app in H. apply Forall_app in H. apply H.
  - apply Forall_app. split; apply Forall_forall; intros x I.
    + apply repeat_spec in I. subst x. cbn. split; [apply bytes_okb; vm_compute; reflexivity|]. split; [apply bytes_okb; reflexivity|reflexivity].
    + apply in_concat in I. destruct I as (l & IL & IX). apply repeat_spec in IL. subst l. destruct IX as [<-|[<-|[]]]; exact Logic.I.
Qed.
Lemma storm_is n : sys_run toy_aead toy_idt (ow_server toy true toy_kex ocf (ow_dir toy true)) (sys_init 0 d_toy) (storm n) = (fst (storm_run n), snd (storm_run n)).
Proof. unfold storm_run. apply surjective_pairing. Qed.
Lemma storm_rounds : rounds [1] (snd (storm_run 1002)) = 1002.
Proof. vm_compute. reflexivity. Qed.
Theorem C28_overlap_refuted : ~ C28_statement.
Proof.
  intros H. pose proof (H toy true toy_kex ocf toy_aead toy_idt 0 d_toy (storm 1002) (fst (storm_run 1002)) (snd (storm_run 1002)) (storm_ok 1002) (storm_is 1002) [1]) as L.
  rewrite storm_rounds in L. apply L. reflexivity.
Qed.
(** Both of two overlapping first requests get the configured data. *)
Example C28_overlap_case : kinds (sent (snd (storm_run 2))) = [61; 63; 65; 67; 69; 69] /\
  nth_error (sent (snd (storm_run 2))) 4 = nth_error (sent (snd (storm_run 2))) 5.
Proof. split; vm_compute; reflexivity. Qed.

(** * C30: entries *)
(** A request for an entry the voucher has is answered with it, under its number; without a voucher there is an error. *)
Theorem C30_entries_partial c chk ko cf {W} (be : backend voucher W) cd keeps okv marked A idt : store_laws be cd keeps okv -> mark_laws be marked ->
  forall now w0 es y o, Forall (ow_event_ok marked) es -> sys_run A idt (ow_server c chk ko cf be) (sys_init now w0) es = (y, o) ->
  forall pre id s body m w e post, o = pre ++ Ran id TO2GetOVNextEntry s body m w e :: post ->
  let result := snd (sv_handle (ow_server c chk ko cf be) TO2GetOVNextEntry w s m e) in
  exists g n k num, greeted pre id g n /\ guid_text g = Some k /\ entry_number body num /\
    (oe_fault e <> LoadFails ->
      (snd (b_load be (oe_now e) w k) = Ok None -> result = HReject ResourceNotFound) /\
      (forall v raw en, snd (b_load be (oe_now e) w k) = Ok (Some v) -> nth_error (entries_raw v) (N.to_nat num) = Some raw -> cose_deserialize chk raw = Ok en ->
       exists b, cose_serialize en = Ok b /\ result = HReply (ses_data s) None (130 :: enc (VInt (Z.of_N num)) ++ b))).
Proof. intros SL ML now w0 es y o EA R pre id s body m w e post EQ. exact (ow_entries c chk ko cf be cd keeps okv marked SL ML w0 A idt now es y o EA R _ _ _ _ _ _ _ _ EQ). Qed.
(** Every entry of a voucher that verifies can be read. *)
Lemma custody_reads c chk info prev key raws ps : custody c chk info prev key raws ps -> forall n raw, nth_error raws n = Some raw -> exists en, cose_deserialize chk raw = Ok en.
Proof. induction 1 as [|prev key raw e p raws ps D S R P H CU IH]; intros n r E; [destruct n; discriminate|]. destruct n; cbn [nth_error] in E; [inversion E; subst; eauto|eauto]. Qed.
Theorem C30_readable c chk v ps : coherent c chk v -> verify_entries c chk v = Ok ps ->
  forall n, (n < length (entries_raw v))%nat -> exists raw en, nth_error (entries_raw v) n = Some raw /\ cose_deserialize chk raw = Ok en.
Proof.
  intros CO V n LT. destruct (coherent_raws _ _ _ CO) as (hb & hm & HB & HM & _). apply (verify_custody _ _ _ _ _ _ CO HB HM) in V.
  destruct (nth_error (entries_raw v) n) as [raw|] eqn:E; [|apply nth_error_None in E; lia]. destruct (custody_reads _ _ _ _ _ _ _ V _ _ E) as (en & D). eauto.
Qed.
(** Other numbers are not answered at all: the handler panics. *)
Definition C30_statement : Prop :=
  forall c chk ko cf A idt now d0 es y o, Forall (ow_event_ok dir_marked) es ->
  sys_run A idt (ow_server c chk ko cf (ow_dir c chk)) (sys_init now d0) es = (y, o) ->
  forall pre id s body m w e post, o = pre ++ Ran id TO2GetOVNextEntry s body m w e :: post ->
  snd (sv_handle (ow_server c chk ko cf (ow_dir c chk)) TO2GetOVNextEntry w s m e) <> HPanic.
Definition over_events : list (sevent dir owenv) := [ow_req 60 None hellodevice_toy [1]; ow_req 62 (Some [1]) (enc (VArr [VInt 3])) [2]].
Lemma over_ok : Forall (ow_event_ok dir_marked) (sequential over_events).
Proof. apply seq_forall. unfold over_events. repeat (constructor; [apply ow_req_ok; vm_compute; reflexivity|]). constructor. Qed.
Definition is_entry_ran {W} (x : obs (W:=W) (D:=owdata) (M:=owmsg) (E:=owenv)) : bool := match x with Ran _ TO2GetOVNextEntry _ _ _ _ _ => true | _ => false end.
Lemma find_split {X} (f : X -> bool) l : match find f l with Some x => exists pre post, l = pre ++ x :: post | None => True end.
Proof.
  induction l as [|y l IH]; cbn [find]; [exact Logic.I|]. destruct (f y); [exists [], l; reflexivity|]. destruct (find f l) as [x|]; [|exact Logic.I].
  destruct IH as (pre & post & ->). exists (y :: pre), post. reflexivity.
Qed.
Lemma over_is : sys_run toy_aead toy_idt (ow_server toy true toy_kex ocf (ow_dir toy true)) (sys_init 0 d_toy) (sequential over_events) = (fst (ow_run over_events), snd (ow_run over_events)).
Proof. unfold ow_run. apply surjective_pairing. Qed.
Lemma over_panics : match find is_entry_ran (snd (ow_run over_events)) with
  | Some (Ran id TO2GetOVNextEntry s body m w e) => snd (sv_handle (toy_ow (ow_dir toy true)) TO2GetOVNextEntry w s m e) = HPanic | _ => False end.
Proof. vm_compute. reflexivity. Qed.
Theorem C30_out_of_range_refuted : ~ C30_statement.
Proof.
  intros H. pose proof (H toy true toy_kex ocf toy_aead toy_idt 0 d_toy (sequential over_events) (fst (ow_run over_events)) (snd (ow_run over_events)) over_ok over_is) as L. clear H.
  pose proof (find_split is_entry_ran (snd (ow_run over_events))) as F. pose proof over_panics as P.
  destruct (find is_entry_ran (snd (ow_run over_events))) as [x|]; [|contradiction]. destruct F as (pre & post & F). destruct x as [id im s body m w e| |]; try contradiction.
  destruct im; try contradiction. exact (L _ _ _ _ _ _ _ _ F P).
Qed.
(** The last entry of the voucher with three entries is number 2; a request for number 3 gets no response at all. *)
Example C30_case : kinds (sent (snd (ow_run over_events))) = [61; 0] /\
  kinds (sent (snd (ow_run [ow_req 60 None hellodevice_toy [1]; ow_req 62 (Some [1]) (enc (VArr [VInt 2])) [2]]))) = [61; 63] /\
  length (entries_raw ex_extended) = 3%nat.
Proof. split; [vm_compute; reflexivity|split; vm_compute; reflexivity]. Qed.

Print Assumptions C27_answers.
Print Assumptions C27_marked.
Print Assumptions C27_told.
Print Assumptions C27_directory.
Print Assumptions C27_database.
Print Assumptions C57_keys.
Print Assumptions C28_rounds_partial.
Print Assumptions C28_answers_partial.
Print Assumptions C28_overlap_refuted.
Print Assumptions C30_entries_partial.
Print Assumptions C30_readable.
Print Assumptions C30_out_of_range_refuted.
