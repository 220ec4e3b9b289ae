(** Properties of the HTTP protocol layer: C20-C23 and C53. *)
From Verif Require Import Base BaseFacts ValueModel Text Assoc MsgModel SessionModel SessionSpec SessionProofs SessionProofs2 SessionProofs3
  HttpClientModel HttpClientSpec HttpClientProofs ToySession.
Local Open Scope N_scope.

(** * C20: message order *)
(** Whatever requests arrive, in whatever interleaving, with failures, time and maintenance in between: when a handler
    runs for a message in a session, some of the requests stored in that session before it, ending with the session the
    handler sees, form together with this message the beginning of a legal protocol run. *)
Theorem C20_handlers_in_order {W D M E} (A : aead) (idt : str -> option str) (sv : server W D M E) :
  routes_ok sv -> forall now w0 es y pre id im s body m w e post,
  sys_run A idt sv (sys_init now w0) es = (y, pre ++ Ran id im s body m w e :: post) ->
  exists q, subseq q (stored_of id pre) /\
    ((q = [] /\ s = Ses None None (sv_new sv)) \/ (exists q' im' om', q = q' ++ [(im', om', s)])) /\
    legal (numbers q ++ [mtype_num im]).
Proof.
  intros RO now w0 es y pre id im s body m w e post R.
  destruct (run_inv A idt sv RO es [] _ _ _ (init_inv sv now w0) R) as [_ O]. destruct (O _ _ _ eq_refl) as (q & (S & AT & X) & C & V).
  exists q. split; [exact S|]. split; [exact X|]. eapply at_next; eassumption.
Qed.
(** The messages accepted in one session are the beginning of a protocol run — in full: *)
Definition C20_statement : Prop :=
  forall W D M E (A : aead) (idt : str -> option str) (sv : server W D M E), routes_ok sv ->
  forall now w0 es y o id, sys_run A idt sv (sys_init now w0) es = (y, o) -> legal (numbers (stored_of id o)).
(** This is false when requests of one session overlap: each is checked against the session as it was before both. *)
Definition overlap : list (event (W:=N) (E:=unit)) :=
  one_request (toy_req 30 None [1] [5]) NoFault ++
  [EArrive (toy_req 32 (Some [5]) [2] [6]); EArrive (toy_req 32 (Some [5]) [3] [7]); EData 0 true; EData 1 true].
Theorem C20_legal_refuted : ~ C20_statement.
Proof.
  intros H. pose proof (H N N bytes unit toy_aead toy_idt toy_server toy_routes_ok 0 0 overlap) as X.
  destruct (sys_run toy_aead toy_idt toy_server (sys_init 0 0) overlap) as [y o] eqn:R. specialize (X y o [5] eq_refl).
  assert (NUM : numbers (stored_of [5] o) = [30; 31; 32; 33; 32; 33]).
  { replace o with (snd (sys_run toy_aead toy_idt toy_server (sys_init 0 0) overlap)) by (rewrite R; reflexivity). vm_compute. reflexivity. }
  rewrite NUM in X. destruct X as [rest X]. inversion X.
Qed.
(** It holds when requests do not overlap, whatever fails in between, with the ids of new sessions unique. *)
Theorem C20_sequential_partial {W D M E} (A : aead) (idt : str -> option str) (sv : server W D M E) :
  routes_ok sv -> forall now w0 (l : list (sevent W E)) y o, NoDup (new_ids l) ->
  sys_run A idt sv (sys_init now w0) (sequential l) = (y, o) -> forall id, legal (numbers (stored_of id o)).
Proof.
  intros RO now w0 l y o ND R id. destruct (sinv_run A idt sv RO l [] [] _ _ _ (sinv_init now w0) ND (fun _ _ X => X) R) as [u H]. apply H.
Qed.
(** A whole TO2 run of the toy server, with an overtaken message, a failing store and a rejected body in it. *)
Definition to2_run : list (sevent N unit) :=
  let k b := 224 :: [9; 9] ++ b in
  [SReq (toy_req 60 None [1] [5]) NoFault; SReq (toy_req 64 (Some [5]) [1] [6]) NoFault; SReq (toy_req 62 (Some [5]) [1] [7]) DataFault;
   SReq (toy_req 62 (Some [5]) [13] [8]) NoFault; SReq (toy_req 62 (Some [5]) [1] [9]) NoFault; STick 1000; SMaint;
   SReq (toy_req 62 (Some [5]) [2] [10]) NoFault; SReq (toy_req 64 (Some [5]) [1] [11]) NoFault; SReq (toy_req 66 (Some [5]) [1] [12]) NoFault;
   SReq (toy_req 66 (Some [5]) (k [1]) [13]) NoFault; SReq (toy_req 68 (Some [5]) (k [1]) [14]) NoFault; SReq (toy_req 70 (Some [5]) (k [1]) [15]) NoFault].
Example C20_case : NoDup (new_ids to2_run) /\
  numbers (stored_of [5] (snd (sys_run toy_aead toy_idt toy_server (sys_init 0 0) (sequential to2_run)))) =
    [60; 61; 62; 63; 62; 63; 64; 65; 66; 67; 68; 69; 70; 71].
Proof. split; [vm_compute; repeat constructor; cbn; intuition discriminate|vm_compute; reflexivity]. Qed.

(** * C21: encryption *)
(** A handler of a message that must be encrypted sees what the body opens to under the session's keys; a handler of a
    message that must not be encrypted does not run in a session with keys. *)
Theorem C21_requests {W D M E} (A : aead) (idt : str -> option str) (sv : server W D M E) :
  routes_ok sv -> forall now w0 es y pre id im s body m w e post,
  sys_run A idt sv (sys_init now w0) es = (y, pre ++ Ran id im s body m w e :: post) ->
  (In (mtype_num im) encrypted_numbers -> exists pt, opened_under A (keys_of s) body pt /\ sv_parse sv im pt = Ok m) /\
  (In (mtype_num im) plain_numbers -> ek_is_some (keys_of s) = false).
Proof.
  intros RO now w0 es y pre id im s body m w e post R.
  pose proof (seen_run A idt sv RO es [] (sys_init now w0) _ _ (Forall_nil _) R _ _ _ eq_refl) as P. cbn [seen_ok app] in P.
  unfold parse_request in P. destruct (valid_prev im (ses_last s)); cbn [negb] in P; [|discriminate].
  destruct (enc_violated (enc_req im) (ek_is_some (keys_of s))) eqn:EV; [discriminate|].
  split; intros N; [apply encrypted_req in N|apply plain_req in N]; rewrite N in EV; cbn in EV; [|exact EV]. unfold ek_is_some in EV.
  destruct (keys_of s) as [[su|] [ks|]] eqn:K; cbn [ek_suite ek_keys negb] in EV; try discriminate EV.
  unfold ek_decrypt in P. cbn [ek_suite ek_keys] in P. destruct ks as [key|]; [|discriminate]. destruct (unseal A key body) as [pt|] eqn:U; [|discriminate].
  cbn in P. exists pt. split; [exists su, key; auto|]. destruct (sv_parse sv im pt); inversion P; reflexivity.
Qed.
(** Keys in a session were put there by a handler that ran, and succeeded, in that session before. *)
Theorem C21_keys_from_handler {W D M E} (A : aead) (idt : str -> option str) (sv : server W D M E) :
  routes_ok sv -> forall now w0 es y pre id im s body m w e post k,
  sys_run A idt sv (sys_init now w0) es = (y, pre ++ Ran id im s body m w e :: post) -> ses_keys s = Some k ->
  exists im0 s0 body0 m0 w1 e1 w2 d0 reply0, In (Ran id im0 s0 body0 m0 w1 e1) pre /\ sv_handle sv im0 w1 s0 m0 e1 = (w2, HReply d0 (Some k) reply0).
Proof. intros RO now w0 es y pre id im s body m w e post k R K. eapply keys_provenance; [exact RO|exact R|reflexivity|exact K]. Qed.
(** An answer is the reply of a handler that ran before; its session, with the keys then in force, was stored; an answer
    that must be encrypted is that reply sealed under those keys, one that must not be is sent when there are none. *)
Theorem C21_answers {W D M E} (A : aead) (idt : str -> option str) (sv : server W D M E) :
  routes_ok sv -> forall now w0 es y pre om body tok post,
  sys_run A idt sv (sys_init now w0) es = (y, pre ++ Sent (Answer om body tok) :: post) ->
  exists id im s rbody m w e w' d ks reply nonce,
    let s' := Ses (Some om) (match ks with Some _ => ks | None => ses_keys s end) d in
    In (Ran id im s rbody m w e) pre /\ In (Stored id im om s') pre /\ sv_handle sv im w s m e = (w', HReply d ks reply) /\
    (In (mtype_num om) encrypted_numbers -> sealed_under A (keys_of s') nonce reply body) /\
    (In (mtype_num om) plain_numbers -> ek_is_some (keys_of s') = false).
Proof.
  intros RO now w0 es y pre om body tok post R.
  pose proof (seen_run A idt sv RO es [] (sys_init now w0) _ _ (Forall_nil _) R _ _ _ eq_refl) as (p & MD & ST & OM & RS). cbn [app] in MD.
  destruct MD as (s & rb & m & w & e & w' & d & ks & H1 & H2 & H3 & H4 & H5). specialize (H5 ST).
  exists (pd_id p), (pd_im p), s, rb, m, w, e, w', d, ks, (pd_reply p), (pd_nonce p). cbn zeta. rewrite OM in *. rewrite <- H4.
  split; [exact H1|]. split; [exact H5|]. split; [exact H3|].
  unfold respond in RS. rewrite OM in RS. destruct (enc_violated (enc_req om) (ek_is_some (keys_of (pd_ses p)))) eqn:EV; [discriminate|].
  split; intros N; [apply encrypted_req in N|apply plain_req in N]; rewrite N in EV; cbn in EV; [|exact EV]. unfold ek_is_some in EV.
  destruct (keys_of (pd_ses p)) as [[su|] [kk|]] eqn:K; cbn [ek_suite ek_keys negb] in EV; try discriminate EV.
  unfold ek_encrypt in RS. cbn [ek_suite ek_keys] in RS. destruct kk as [key|]; [|discriminate]. destruct (seal A key (pd_nonce p) (pd_reply p)) as [b|] eqn:SE; [|discriminate].
  cbn in RS. inversion RS; subst. exists su, key. auto.
Qed.
(** In the run above the message 66 is refused in the clear and accepted sealed, and answered sealed. *)
Example C21_case :
  let o := snd (sys_run toy_aead toy_idt toy_server (sys_init 0 0) (sequential to2_run)) in
  length (filter (fun x => match x with Ran _ TO2DeviceServiceInfoReady _ _ _ _ _ => true | _ => false end) o) = 1%nat /\
  In (Sent (Answer TO2OwnerServiceInfoReady [224; 9; 9; 1] None)) o.
Proof. vm_compute. split; [reflexivity|]. auto 40. Qed.

(** * C22: failed requests *)
(** In full: a request answered with an error leaves what every session id loads to, now and later, as it was. *)
Definition C22_statement : Prop :=
  forall W D M E (A : aead) (idt : str -> option str) (sv : server W D M E), routes_ok sv -> replies_sendable A sv ->
  forall now w0 es y rq f y' o o0, sys_run A idt sv (sys_init now w0) es = (y, o0) -> y_pend y = [] ->
  sys_run A idt sv y (one_request rq f) = (y', o) -> (exists code prev, In (Sent (ErrorReply code prev)) o) ->
  forall t id, y_now y <= t -> snd (ses_load t (y_store y') id) = snd (ses_load t (y_store y) id).
(** False: the session is stored first and then given its life time; if that fails the client is told of an error. *)
Theorem C22_error_changes_nothing_refuted : ~ C22_statement.
Proof.
  intros H.
  pose proof (H N N bytes unit toy_aead toy_idt toy_server toy_routes_ok toy_sendable 0 0 [] (sys_init 0 0) (toy_req 30 None [1] [5]) MetaFault
    (fst (sys_run toy_aead toy_idt toy_server (sys_init 0 0) (one_request (toy_req 30 None [1] [5]) MetaFault)))
    (snd (sys_run toy_aead toy_idt toy_server (sys_init 0 0) (one_request (toy_req 30 None [1] [5]) MetaFault))) [] eq_refl eq_refl) as X.
  assert (Y : sys_run toy_aead toy_idt toy_server (sys_init 0 0) (one_request (toy_req 30 None [1] [5]) MetaFault) =
    (fst (sys_run toy_aead toy_idt toy_server (sys_init 0 0) (one_request (toy_req 30 None [1] [5]) MetaFault)),
     snd (sys_run toy_aead toy_idt toy_server (sys_init 0 0) (one_request (toy_req 30 None [1] [5]) MetaFault)))) by (vm_compute; reflexivity).
  specialize (X Y). clear Y.
  assert (Y : exists code prev, In (Sent (ErrorReply code prev)) (snd (sys_run toy_aead toy_idt toy_server (sys_init 0 0) (one_request (toy_req 30 None [1] [5]) MetaFault)))).
  { exists InternalServerError, TO1HelloRV. vm_compute. auto. }
  specialize (X Y 0 [5] (N.le_refl 0)). vm_compute in X. discriminate.
Qed.
(** It holds unless giving the life time fails, for handlers whose replies can be sent: after any history of any
    interleaving, with a failing store or a client that hangs up. *)
Theorem C22_error_changes_nothing_partial {W D M E} (A : aead) (idt : str -> option str) (sv : server W D M E) :
  routes_ok sv -> replies_sendable A sv ->
  forall now w0 es y rq f y' o o0, sys_run A idt sv (sys_init now w0) es = (y, o0) -> y_pend y = [] -> f <> MetaFault ->
  sys_run A idt sv y (one_request rq f) = (y', o) -> (exists code prev, In (Sent (ErrorReply code prev)) o) ->
  forall t id, y_now y <= t -> snd (ses_load t (y_store y') id) = snd (ses_load t (y_store y) id).
Proof.
  intros RO [P RS] now w0 es y rq f y' o o0 R P0 F R2 ER t id LE.
  refine (request_error A idt sv RO P y rq f y' o _ _ P0 RS F R2 ER t id LE).
  - eapply nodup_run; [exact RO| |exact R]. constructor.
  - exact (run_keyed A idt sv RO P now w0 es y o0 RS R).
Qed.
(** With requests overlapping: an event changes what an id loads to only by storing the session of a request whose
    handler succeeded, or by giving the session already there a new life time. *)
Theorem C22_only_success_changes {W D M E} (A : aead) (idt : str -> option str) (sv : server W D M E) :
  routes_ok sv -> forall now w0 es y o0 ev y' o id t,
  sys_run A idt sv (sys_init now w0) es = (y, o0) -> sys_step A idt sv y ev = (y', o) -> y_now y < t ->
  snd (ses_load t (y_store y') id) = snd (ses_load t (y_store y) id) \/
  (exists n p, ev = EData n true /\ nth_error (y_pend y) n = Some p /\ pd_id p = id /\ snd (ses_load t (y_store y') id) = Some (pd_ses p)) \/
  (exists n p, ev = EMeta n true /\ nth_error (y_pend y) n = Some p /\ pd_id p = id /\
     option_map fst (aget id (y_store y')) = option_map fst (aget id (y_store y))).
Proof.
  intros RO now w0 es y o0 ev y' o id t R S LT. eapply step_loads; [|exact S|exact LT]. eapply nodup_run; [exact RO| |exact R]. constructor.
Qed.
(** Without the condition on replies the session is stored and the client told of an error, too: here a handler answers
    a message with one that must be encrypted and sets no keys. *)
Definition forgetful : server N N bytes unit :=
  Server [(TO2ProveDevice, TO2SetupDevice)] (fun _ b => Ok b) 0 (fun _ w s m _ => (w, HReply 1 None m)).
Example C22_unsendable :
  let st := [([5], (Ses (Some TO2OVNextEntry) None 0, None))] in
  let '(y, o) := sys_run toy_aead toy_idt forgetful (Sys 0 0 st []) (one_request (toy_req 64 (Some [5]) [1] [6]) NoFault) in
  In (Sent (ErrorReply InvalidMessageError TO2ProveDevice)) o /\ option_map ses_last (snd (ses_load 0 (y_store y) [5])) = Some (Some TO2SetupDevice).
Proof. vm_compute. auto. Qed.
(** A rejected request, a failing store and a request out of order, in a session that is there. *)
Example C22_case :
  let y := fst (sys_run toy_aead toy_idt toy_server (sys_init 0 0) (one_request (toy_req 30 None [1] [5]) NoFault)) in
  y_pend y = [] /\ snd (ses_load 5 (y_store y) [5]) <> None /\
  (forall rq f, In (rq, f) [(toy_req 32 (Some [5]) [13] [6], NoFault); (toy_req 32 (Some [5]) [1] [6], DataFault); (toy_req 30 (Some [5]) [1] [6], NoFault)] ->
     f <> MetaFault /\ exists code prev, In (Sent (ErrorReply code prev)) (snd (sys_run toy_aead toy_idt toy_server y (one_request rq f)))).
Proof.
  cbn zeta. split; [reflexivity|]. split; [vm_compute; discriminate|]. intros rq f [X|[X|[X|[]]]]; inversion X; subst; (split; [discriminate|]).
  - exists 3, TO1ProveToRV. vm_compute. auto.
  - exists InternalServerError, TO1ProveToRV. vm_compute. auto.
  - exists InternalServerError, TO1HelloRV. vm_compute. auto.
Qed.

(** * C23: the client *)
(** In full: a message on the wire follows the last reply received. *)
Definition C23_statement : Prop :=
  forall M (A : aead) (parse : mtype -> bytes -> outcome unit M) kdf calls c pre x post, Forall typed calls ->
  client_run A parse kdf client_new calls = (c, pre ++ x :: post) -> cs_sent x <> None ->
  follows (option_map mtype_num (received pre)) (mtype_num (cl_om (cs_call x))).
(** False: the position is moved on before the request is sent, so after a failed call the next message goes out. *)
Definition toy_parse : mtype -> bytes -> outcome unit bytes := fun _ b => Ok b.
Definition skip_calls : list ccall := [CCall TO1HelloRV TO1HelloRVAck (Some [1]) None [] None; CCall TO1ProveToRV TO1RVRedirect (Some [2]) None [] None].
Theorem C23_follows_received_refuted : ~ C23_statement.
Proof.
  intros H.
  specialize (H bytes toy_aead toy_parse true skip_calls (fst (client_run toy_aead toy_parse true client_new skip_calls))
    [CStep (CCall TO1HelloRV TO1HelloRVAck (Some [1]) None [] None) (Some (Wire 30 None false [1])) (Err CNetwork)]
    (CStep (CCall TO1ProveToRV TO1RVRedirect (Some [2]) None [] None) (Some (Wire 32 None false [2])) (Err CNetwork)) []).
  assert (T : Forall typed skip_calls) by (repeat constructor). specialize (H T).
  assert (R : client_run toy_aead toy_parse true client_new skip_calls = (fst (client_run toy_aead toy_parse true client_new skip_calls),
    [CStep (CCall TO1HelloRV TO1HelloRVAck (Some [1]) None [] None) (Some (Wire 30 None false [1])) (Err CNetwork)] ++
    CStep (CCall TO1ProveToRV TO1RVRedirect (Some [2]) None [] None) (Some (Wire 32 None false [2])) (Err CNetwork) :: [])) by (vm_compute; reflexivity).
  specialize (H R ltac:(discriminate)). cbn in H. destruct H as [b H]. inversion H.
Qed.
(** It holds while the calls before succeeded. *)
Theorem C23_follows_received_partial {M} (A : aead) (parse : mtype -> bytes -> outcome unit M) kdf calls c pre x post :
  Forall typed calls -> client_run A parse kdf client_new calls = (c, pre ++ x :: post) -> Forall (fun y => exists m, cs_ret y = Ok m) pre ->
  cs_sent x <> None -> follows (option_map mtype_num (received pre)) (mtype_num (cl_om (cs_call x))).
Proof.
  intros TY R OKS S. destruct (run_nth A parse kdf _ _ _ _ _ _ R) as (c1 & c2 & w & r & SR & EX & IC & L & _).
  destruct (send_spec A parse kdf _ _ _ _ _ SR) as (_ & _ & V & SE & _). rewrite EX in S. cbn [cs_sent] in S. destruct w as [w|]; [|contradiction S; reflexivity].
  destruct (SE w eq_refl) as (AT & _). destruct (V AT) as [V1 _]. rewrite L in V1. unfold received. rewrite <- expected_received by exact OKS.
  apply follows_valid; [|exact V1]. rewrite Forall_forall in TY. apply TY. exact IC.
Qed.
(** Whatever servers do, the exchanges a client attempts are the beginning of a protocol run, ... *)
Theorem C23_attempts_legal {M} (A : aead) (parse : mtype -> bytes -> outcome unit M) kdf calls c t :
  Forall typed calls -> client_run A parse kdf client_new calls = (c, t) -> legal (exchanged t).
Proof. intros T R. apply (run_legal A parse kdf calls client_new c t [] R T). reflexivity. Qed.
(** ... and a message goes on the wire only as the successor of the reply the last attempt asked for, with its type in the path. *)
Theorem C23_continues_from_expected {M} (A : aead) (parse : mtype -> bytes -> outcome unit M) kdf calls c pre x post w :
  Forall typed calls -> client_run A parse kdf client_new calls = (c, pre ++ x :: post) -> cs_sent x = Some w ->
  follows (option_map mtype_num (expected pre)) (wr_type w) /\ wr_type w = mtype_num (cl_om (cs_call x)).
Proof.
  intros TY R S. destruct (run_nth A parse kdf _ _ _ _ _ _ R) as (c1 & c2 & w1 & r & SR & EX & IC & L & _).
  destruct (send_spec A parse kdf _ _ _ _ _ SR) as (_ & _ & V & SE & _). rewrite EX in S. cbn [cs_sent] in S. subst w1.
  destruct (SE w eq_refl) as (AT & WT & _). destruct (V AT) as [V1 _]. rewrite L in V1. split; [|exact WT]. rewrite WT.
  apply follows_valid; [|exact V1]. rewrite Forall_forall in TY. apply TY. exact IC.
Qed.
(** Messages that must be encrypted are sent sealed under the keys handed over last; those that must not be are sent
    before there are any. *)
Theorem C23_sends_encrypted {M} (A : aead) (parse : mtype -> bytes -> outcome unit M) kdf calls c pre x post w :
  client_run A parse kdf client_new calls = (c, pre ++ x :: post) -> cs_sent x = Some w ->
  (In (wr_type w) encrypted_numbers -> exists b, cl_body (cs_call x) = Some b /\ sealed_under A (keys_given pre) (cl_nonce (cs_call x)) b (wr_body w)) /\
  (In (wr_type w) plain_numbers -> ek_is_some (keys_given pre) = false).
Proof.
  intros R S. destruct (run_nth A parse kdf _ _ _ _ _ _ R) as (c1 & c2 & w1 & r & SR & EX & _ & _ & K).
  destruct (send_spec A parse kdf _ _ _ _ _ SR) as (_ & _ & _ & SE & _). rewrite EX in S. cbn [cs_sent] in S. subst w1.
  destruct (SE w eq_refl) as (_ & WT & _ & EV & _ & b & B & EN). change (hc_keys c1 = keys_given pre) in K. rewrite K in *.
  rewrite WT. split; intros N; [apply encrypted_req in N|apply plain_req in N]; rewrite N in EV; cbn in EV; [|exact EV]. exists b. split; [exact B|]. unfold ek_is_some in EV.
  destruct (keys_given pre) as [[su|] [kk|]]; cbn [ek_suite ek_keys negb] in EV; try discriminate EV.
  unfold ek_encrypt in EN. cbn [ek_suite ek_keys] in EN. destruct kk as [key|]; [|discriminate]. destruct (seal A key _ b) as [ct|] eqn:SL; [|discriminate].
  cbn in EN. inversion EN; subst. exists su, key. auto.
Qed.
(** A call returns a reply only for a success response carrying the expected type, whose body opens, if it must be
    encrypted, under the keys handed over last (this request's included), and parses to that reply. *)
Theorem C23_accepts_only_expected {M} (A : aead) (parse : mtype -> bytes -> outcome unit M) kdf calls c pre x post m :
  Forall real_keys calls -> client_run A parse kdf client_new calls = (c, pre ++ x :: post) -> cs_ret x = Ok m ->
  exists h s b pt, cl_resp (cs_call x) = Some h /\ hr_success h = true /\ hr_type h = Some (HText s) /\
    parse_u8 s = Some (mtype_num (cl_sm (cs_call x))) /\ hr_body h = Some b /\ parse (cl_sm (cs_call x)) pt = Ok m /\
    (In (mtype_num (cl_sm (cs_call x))) encrypted_numbers -> opened_under A (keys_given (pre ++ [x])) b pt) /\
    (In (mtype_num (cl_sm (cs_call x))) plain_numbers -> ek_is_some (keys_given (pre ++ [x])) = false) /\
    (keys_given (pre ++ [x]) = unencrypted -> pt = b).
Proof.
  intros RK R S. destruct (run_nth A parse kdf _ _ _ _ _ _ R) as (c1 & c2 & w1 & r & SR & EX & IC & _ & K).
  destruct (send_spec A parse kdf _ _ _ _ _ SR) as (_ & K2 & _ & SE & OKS). rewrite EX in S. cbn [cs_ret] in S. subst r.
  destruct (OKS m eq_refl) as (w & h & s & b & pt & -> & H1 & H2 & H3 & H4 & H5 & H6 & H7). destruct (SE w eq_refl) as (_ & _ & _ & _ & EV & _).
  assert (KK : keys_given (pre ++ [x]) = hc_keys c2).
  { rewrite K2, K. unfold keys_given. rewrite EX. generalize (cs_call x) as z. intros z. clear. change (hc_keys client_new) with unencrypted. generalize unencrypted.
    induction pre as [|y pre IH]; intros k; cbn [app keys_from cs_sent cs_call]; [destruct (cl_new z); reflexivity|apply IH]. }
  rewrite KK. exists h, s, b, pt. do 6 (split; [assumption|]).
  assert (RX : real_keys (cs_call x)) by (rewrite Forall_forall in RK; auto). unfold real_keys in RX.
  assert (EV2 : enc_violated (enc_req (cl_sm (cs_call x))) (ek_is_some (hc_keys c2)) = false).
  { rewrite K2. destruct (cl_new (cs_call x)) as [k|]; [rewrite RX|rewrite orb_false_r in EV; exact EV]. destruct (enc_req (cl_sm (cs_call x))) as [[|]|]; cbn in *; auto.
    rewrite orb_true_r in EV. discriminate. }
  split; [|split]; [intros N; apply encrypted_req in N; rewrite N in EV2; cbn in EV2
    |intros N; apply plain_req in N; rewrite N in EV2; exact EV2|intros N; rewrite N in H6; inversion H6; reflexivity]. unfold ek_is_some in EV2.
  destruct (hc_keys c2) as [[su|] [kk|]]; cbn [ek_suite ek_keys negb] in EV2; try discriminate EV2.
  unfold ek_decrypt in H6. cbn [ek_suite ek_keys] in H6. destruct kk as [key|]; [|discriminate]. destruct (unseal A key b) as [q|] eqn:U; [|discriminate].
  cbn in H6. inversion H6; subst. exists su, key. auto.
Qed.
(** A TO2 conversation up to the first sealed message, with a reply of the wrong type at the end. *)
Definition toy_reply (n : N) (b : bytes) : option hresponse := Some (HResp true None (Some (HText (dec_str n))) (Some (HText [5])) (Some b)).
Definition to2_calls : list ccall :=
  [CCall TO2HelloDevice TO2ProveOVHdr (Some [1]) None [] (toy_reply 61 [1]);
   CCall TO2GetOVNextEntry TO2OVNextEntry (Some [1]) None [] (toy_reply 63 [1]);
   CCall TO2ProveDevice TO2SetupDevice (Some [1]) (Some toy_keys) [] (toy_reply 65 [224; 9; 9; 1]);
   CCall TO2DeviceServiceInfoReady TO2OwnerServiceInfoReady (Some [7]) None [] (toy_reply 67 [224; 9; 9; 8]);
   CCall TO2DeviceServiceInfo TO2OwnerServiceInfo (Some [7]) None [] (toy_reply 67 [224; 9; 9; 8])].
Example C23_case : Forall typed to2_calls /\ Forall real_keys to2_calls /\
  map (fun s => (option_map wr_body (cs_sent s), cs_ret s)) (snd (client_run toy_aead toy_parse true client_new to2_calls)) =
    [(Some [1], Ok [1]); (Some [1], Ok [1]); (Some [1], Ok [1]); (Some [224; 9; 9; 7], Ok [8]); (Some [224; 9; 9; 7], Err CWrongType)].
Proof. split; [repeat constructor|]. split; [repeat constructor|vm_compute; reflexivity]. Qed.
(** An [EncryptionKeys::unencrypted()] given as new keys counts as keys for the check of the reply (client.rs:198). *)
Example C23_unreal_keys :
  snd (send_request toy_aead toy_parse true (HClient None unencrypted (Some TO2OVNextEntry) None)
    (CCall TO2ProveDevice TO2SetupDevice (Some [1]) (Some unencrypted) [] (toy_reply 65 [1]))) = Ok [1].
Proof. reflexivity. Qed.
(** A response header that is not text ends the program (client.rs:280). *)
Example C23_header_panic :
  snd (send_request toy_aead toy_parse true client_new
    (CCall TO1HelloRV TO1HelloRVAck (Some [1]) None [] (Some (HResp true None (Some (HText (dec_str 31))) (Some HOpaque) (Some [1]))))) = Panic P_AUTH_HEADER.
Proof. reflexivity. Qed.

(** * C53: a client and a server keep in step *)
(** A client that has come as far as a session of the server (or both are new) sends a message the server can parse and
    whose handler replies, both setting the same keys or none: the server answers, the client gets the handler's reply,
    and they have again come equally far. *)
Theorem C53_exchange {W D M E R} (A : aead) (idt : str -> option str) (sv : server W D M E) (parse : mtype -> bytes -> outcome unit R) :
  aead_roundtrip A -> routes_ok sv ->
  forall kdf1 kdf2 c om sm pt new nonce c1 wm now w st rq id s tok m w' d reply eb,
  prepare A kdf1 c om sm (Some pt) new nonce = (c1, Ok wm) ->
  rq_type rq = wr_type wm -> rq_ctype rq = true -> rq_auth rq = wr_auth wm -> rq_body rq = wr_body wm -> rq_load_ok rq = true ->
  nlen (wr_body wm) <= 16384 ->
  route sv (mtype_num om) = Some (om, sm) ->
  (in_sync idt now st c id s /\ tok = None \/
   c = client_new /\ s = Ses None None (sv_new sv) /\ id = rq_new_id rq /\ tok = Some (rq_new_token rq) /\ no_space (rq_new_token rq) /\
   idt (rq_new_token rq) = Some id) ->
  sv_parse sv om pt = Ok m ->
  sv_handle sv om w s m (rq_env rq) = (w', HReply d new reply) ->
  match new with Some k => ek_is_some k = true | None => True end ->
  (exists body, ek_encrypt A (match new with Some k => k | None => hc_keys c end) (rq_nonce rq) reply = Ok body) ->
  let s' := Ses (Some sm) (match new with Some _ => new | None => ses_keys s end) d in
  exists y' body c2,
    sys_run A idt sv (Sys now w st []) (one_request rq NoFault) =
      (y', [Ran id om s (rq_body rq) m w (rq_env rq); Stored id om sm s'; Sent (Answer sm body tok)]) /\
    y_world y' = w' /\ y_now y' = now /\ y_pend y' = [] /\
    receive A parse c1 sm (to_hresponse kdf2 (Answer sm body tok) eb) =
      (c2, match parse sm reply with Ok x => Ok x | Err _ => Err CParse | Panic p => Panic p end) /\
    in_sync idt now (y_store y') c2 id s'.
Proof. intros AR RO **. eapply exchange; eauto. Qed.
(** The cipher of the examples opens what it sealed; a first message and the one that sets keys, with the toy server. *)
Example C53_case :
  let c := HClient (Some (txt "Bearer " ++ [5])) unencrypted (Some TO2OVNextEntry) (Some false) in
  let s := Ses (Some TO2OVNextEntry) None 4 in
  aead_roundtrip toy_aead /\ in_sync toy_idt 0 [([5], (s, None))] c [5] s /\
  snd (prepare toy_aead true client_new TO2HelloDevice TO2ProveOVHdr (Some [1]) None []) = Ok (Wire 60 None false [1]) /\
  snd (prepare toy_aead true c TO2ProveDevice TO2SetupDevice (Some [1]) (Some toy_keys) []) = Ok (Wire 64 (Some (txt "Bearer " ++ [5])) false [1]) /\
  sv_handle toy_server TO2ProveDevice 0 s [1] tt = (1, HReply 5 (Some toy_keys) [1]).
Proof.
  cbn zeta. split; [apply toy_roundtrip|]. split; [|vm_compute; auto]. split; [|vm_compute; auto]. exists [5]. split; [reflexivity|]. split; [intros [X|[]]; discriminate|reflexivity].
Qed.

Print Assumptions C20_handlers_in_order.
Print Assumptions C20_legal_refuted.
Print Assumptions C20_sequential_partial.
Print Assumptions C21_requests.
Print Assumptions C21_keys_from_handler.
Print Assumptions C21_answers.
Print Assumptions C22_error_changes_nothing_refuted.
Print Assumptions C22_error_changes_nothing_partial.
Print Assumptions C22_only_success_changes.
Print Assumptions C23_follows_received_refuted.
Print Assumptions C23_follows_received_partial.
Print Assumptions C23_attempts_legal.
Print Assumptions C23_continues_from_expected.
Print Assumptions C23_sends_encrypted.
Print Assumptions C23_accepts_only_expected.
Print Assumptions C53_exchange.
