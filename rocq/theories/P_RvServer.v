(** Properties of the rendezvous server: C24-C26. *)
From Verif Require Import Base BaseFacts Text Assoc RvModel StoreModel StoreSpec StoreProofs StoreProofs2 Hex Backend BackendSpec BackendProofs
  CborModel ValueModel TypesModel CryptoSpec VoucherModel VoucherSpec ChainSpec MsgModel SessionModel SessionSpec
  RvServerModel RvServerSpec RvServerProofs RvServerRuns ToyCrypto ToySession P_Voucher.
From Coq Require Import ZifyBool ZifyNat ZifyN.
Local Open Scope N_scope.

(** * C24: what is registered *)
(** Whatever requests arrive, in whatever sessions, with failures of the store and maintenance in between: a record that
    is kept under a GUID's text was kept at the start or comes from a request that [registers] it — this session's nonce,
    a verifying voucher with that GUID and at least one entry, a blob signed by its last owner and bound to the request
    by its hash, an accepted manufacturer key and device chain (RvServerSpec.v). *)
Theorem C24_only_registered c chk kf cf {W} (be : backend item W) keeps A idt :
  store_laws be (item_codec c chk) keeps (fun _ _ => True) -> keyfns_ok c kf ->
  forall now w0 es y o, Forall (event_ok keeps) es -> sys_run A idt (rv_server c chk kf cf be) (sys_init now w0) es = (y, o) ->
  forall k it, plain_key k -> keeps (y_world y) k it -> keeps w0 k it \/ registered c chk cf o k it.
Proof.
  intros SL KF now w0 es y o EA R. destruct (rv_principle c chk kf cf be keeps SL KF w0 A idt now es y o) as (H & _);
    [intros k it _ KP; left; exact KP|apply events_ok; exact EA|exact R|exact H].
Qed.
(** The two stores satisfy the laws. *)
Theorem C24_directory c chk kf cf A idt : keyfns_ok c kf ->
  forall now d0 es y o, Forall (event_ok (dir_keeps (item_codec c chk))) es ->
  sys_run A idt (rv_server c chk kf cf (dir_backend (item_codec c chk))) (sys_init now d0) es = (y, o) ->
  forall k it, plain_key k -> dir_keeps (item_codec c chk) (y_world y) k it ->
  dir_keeps (item_codec c chk) d0 k it \/ registered c chk cf o k it.
Proof. intros KF now d0 es y o. apply (C24_only_registered c chk kf cf (dir_backend (item_codec c chk)) _ A idt (dir_laws _) KF). Qed.
Theorem C24_database c chk kf cf A idt : keyfns_ok c kf ->
  forall now t0 es y o, Forall (event_ok (db_keeps (item_codec c chk))) es ->
  sys_run A idt (rv_server c chk kf cf (rv_db c chk)) (sys_init now t0) es = (y, o) ->
  forall k it, plain_key k -> db_keeps (item_codec c chk) (y_world y) k it ->
  db_keeps (item_codec c chk) t0 k it \/ registered c chk cf o k it.
Proof. intros KF now t0 es y o. apply (C24_only_registered c chk kf cf (rv_db c chk) _ A idt (rv_db_laws _ _) KF). Qed.
(** Maintenance is among what may happen between requests. *)
Theorem C24_maintenance_forgets c chk {W} (be : backend item W) keeps okv : store_laws be (item_codec c chk) keeps okv ->
  forall now, event_ok keeps (EWorld (rv_maint be now)).
Proof. intros SL now w. unfold rv_maint. destruct (b_maint be now w) as [w' r] eqn:M. eapply (sl_maint _ _ _ _ SL). exact M. Qed.

(** ** A registration and a lookup with the toy cryptography *)
Definition kf_toy : keyfns := Keyfns (fun k => match k with [_] => Some 10 | _ => None end) (fun k => k).
Lemma kf_toy_ok : keyfns_ok toy kf_toy.
Proof.
  intros cert k. cbn [toy c_cert_key]. destruct cert as [|x r]; [discriminate|]. destruct (N.ltb_spec x 256); [|discriminate]. intros E. inversion E; subst.
  split; [intros t X; inversion X; reflexivity|]. split; [constructor; [exact H|constructor]|]. split; [vm_compute; discriminate|reflexivity].
Qed.
Definition cf_toy : rvconf := RvConf 1000 (Some [[7; 7]]) (Some [[43; 43]]).
Definition n3 : bytes := [1;2;3;4;5;6;7;8;9;10;11;12;13;14;15;16].
Definition n4 : bytes := [16;15;14;13;12;11;10;9;8;7;6;5;4;3;2;1].
Definition of_ok {E T} (d : T) (o : outcome E T) : T := match o with Ok x => x | _ => d end.
Definition no_cose : cose := Cose (PA None []) [] [] [] [].
Definition to0d_toy (wait : N) (n : bytes) : bytes := of_ok [] (serialize_array (PA None [ex_bytes; enc (VInt (Z.of_N wait)); enc (bstr_val n)])).
Definition to1d_toy (sk : bytes) (to0d : bytes) : cose :=
  of_ok no_cose (cose_new toy true (enc (VArr [VArr []; hash_val (Hash Sha384 (c_hash toy Sha384 to0d))])) [] sk []).
Definition ownersign_toy (wait : N) (n sk : bytes) : bytes :=
  of_ok [] (serialize_array (PA None [enc (VBytes (to0d_toy wait n)); of_ok [] (cose_serialize (to1d_toy sk (to0d_toy wait n)))])).
Definition item_toy (wait : N) : item := Item (Pubkey 10 1 [42] [42] None) (to1d_toy [7] (to0d_toy wait n3)).
Definition key_toy : str := match guid_text ex_guid with Some k => k | None => [] end.
Definition hellorv_toy (g : bytes) : bytes := enc (VArr [bstr_val g; siginfo_val ((-7)%Z, [])]).
Definition token_toy (n sk : bytes) : bytes :=
  of_ok [] (cose_serialize (of_ok no_cose (cose_new toy true (enc (VMap [(VInt 10, VBytes n); (VInt 11, VBytes (1 :: ex_guid))])) [] sk []))).
Definition rv_req {W} (t : N) (auth : option str) (body : bytes) (e : rvenv) (id : str) : list (event (W:=W) (E:=rvenv)) :=
  one_request (Req t true auth body e id id [] true) NoFault.
(** Registering at second 100, asking for 3600 seconds; refused: the wrong signer, the wrong nonce. *)
Definition t100 : N := 100 * second.
Definition reg_events {W} (f : iofault) : list (event (W:=W) (E:=rvenv)) :=
  rv_req 20 None [128] (RvEnv t100 n3 IoOk) [5] ++ rv_req 22 (Some [5]) (ownersign_toy 3600 n3 [7]) (RvEnv t100 n3 f) [6].
Definition get_events {W} (t : N) (sk : bytes) : list (event (W:=W) (E:=rvenv)) :=
  rv_req 30 None (hellorv_toy ex_guid) (RvEnv t n4 IoOk) [8] ++ rv_req 32 (Some [8]) (token_toy n4 sk) (RvEnv t n4 IoOk) [9].
Definition toy_rv {W} (be : backend item W) := rv_server toy true kf_toy cf_toy be.
Definition sent {W D M E} (os : list (obs (W:=W) (D:=D) (M:=M) (E:=E))) : list response :=
  flat_map (fun x => match x with Sent r => [r] | _ => [] end) os.
Lemma bytes_okb b : forallb (fun x => x <? 256) b = true -> bytes_ok b.
Proof. intros H. rewrite forallb_forall in H. apply Forall_forall. intros x I. specialize (H x I). lia. Qed.
Lemma reg_ok {W} n auth body t nonce f id (P : event (W:=W) (E:=rvenv) -> Prop) : (forall k ok, P (EData k ok)) -> (forall k ok, P (EMeta k ok)) ->
  P (EArrive (Req n true auth body (RvEnv t nonce f) id id [] true)) -> Forall P (rv_req n auth body (RvEnv t nonce f) id).
Proof. intros H1 H2 H3. unfold rv_req, one_request. auto. Qed.
Lemma request_okb body nonce t f : forallb (fun x => x <? 256) body = true -> forallb (fun x => x <? 256) nonce = true -> nlen nonce =? 16 = true ->
  t / second <? 2 ^ 62 = true -> request_ok body (RvEnv t nonce f).
Proof. intros H1 H2 H3 H4. split; [apply bytes_okb; exact H1|]. split; [apply bytes_okb; exact H2|]. cbn [e_nonce e_now]. split; [lia|apply N.ltb_lt; exact H4]. Qed.
Lemma reg_events_ok {W} (keeps : W -> key -> item -> Prop) f : Forall (event_ok keeps) (reg_events f).
Proof. apply Forall_app. split; (apply reg_ok; [intros; exact I|intros; exact I|]); apply request_okb; vm_compute; reflexivity. Qed.
Lemma get_events_ok {W} (keeps : W -> key -> item -> Prop) : Forall (event_ok keeps) (get_events t100 [42]).
Proof. apply Forall_app. split; (apply reg_ok; [intros; exact I|intros; exact I|]); apply request_okb; vm_compute; reflexivity. Qed.
Lemma key_toy_plain : plain_key key_toy.
Proof. eapply (guid_text_plain ex_guid); [apply bytes_okb; reflexivity|reflexivity]. Qed.

Definition y_reg (f : iofault) := sys_run toy_aead toy_idt (toy_rv (rv_dir toy true)) (sys_init 0 []) (reg_events f).
Example C24_case : Forall (event_ok (dir_keeps (item_codec toy true))) (reg_events IoOk) /\ keyfns_ok toy kf_toy /\
  plain_key key_toy /\ dir_keeps (item_codec toy true) (y_world (fst (y_reg IoOk))) key_toy (item_toy 3600) /\
  y_world (fst (sys_run toy_aead toy_idt (toy_rv (rv_dir toy true)) (sys_init 0 [])
    (rv_req 20 None [128] (RvEnv t100 n3 IoOk) [5] ++ rv_req 22 (Some [5]) (ownersign_toy 3600 n3 [8]) (RvEnv t100 n3 IoOk) [6] ++
     rv_req 22 (Some [5]) (ownersign_toy 3600 n4 [7]) (RvEnv t100 n3 IoOk) [7]))) = [].
Proof.
  split; [apply reg_events_ok|]. split; [apply kf_toy_ok|]. split; [apply key_toy_plain|]. split; [|vm_compute; reflexivity].
  assert (G : match y_world (fst (y_reg IoOk)) with [(n, f)] => bytes_eqb n (get_path key_toy) = true /\ de (item_codec toy true) (f_data f) = Some (item_toy 3600) | _ => False end)
    by (vm_compute; auto).
  destruct (y_world (fst (y_reg IoOk))) as [|[n f] [|]]; try contradiction. destruct G as [G1 G2]. apply bytes_eqb_spec in G1. subst n. exists f. split; [left; reflexivity|exact G2].
Qed.

(** * C25: the time granted *)
(** The owner is told the smaller of what it asked for and the maximum. *)
Theorem C25_told c chk kf cf {W} (be : backend item W) keeps A idt :
  store_laws be (item_codec c chk) keeps (fun _ _ => True) -> keyfns_ok c kf ->
  forall now w0 es y o, Forall (event_ok keeps) es -> sys_run A idt (rv_server c chk kf cf be) (sys_init now w0) es = (y, o) ->
  forall pre b tok post, o = pre ++ Sent (Answer TO0AcceptOwner b tok) :: post ->
  exists k it t asked, registered_at c chk cf pre k it t asked /\ b = enc (VArr [VInt (Z.of_N (N.min asked (cf_max cf)))]).
Proof. intros SL KF now w0 es y o EA R. eapply (told c chk kf cf be keeps SL KF w0); [|exact EA|exact R]. intros k it _ KP. left. exact KP. Qed.
(** Until when a record may be returned: the second of the registration plus the time granted. *)
Definition C25_statement : Prop :=
  forall c chk kf cf A idt, keyfns_ok c kf -> forall now es y o, Forall (event_ok (dir_keeps (item_codec c chk))) es ->
  sys_run A idt (rv_server c chk kf cf (rv_dir c chk)) (sys_init now []) es = (y, o) ->
  forall k it t, plain_key k -> snd (b_load (rv_dir c chk) t (y_world y) k) = Ok (Some it) ->
  exists t0 asked, registered_at c chk cf o k it t0 asked /\ t <= (t0 / second + N.min asked (cf_max cf)) * second.
(** This fails if the server is stopped, or the store fails, between storing the record and its expiry. *)
Definition reg_times {W} (o : list (obs (W:=W) (D:=rvdata) (M:=rvmsg) (E:=rvenv))) : list N :=
  flat_map (fun x => match x with Ran _ TO0OwnerSign _ _ _ _ e => [e_now e] | _ => [] end) o.
Lemma reg_times_in {W} c chk cf (o : list (obs (W:=W) (D:=rvdata) (M:=rvmsg) (E:=rvenv))) k it t asked : registered_at c chk cf o k it t asked -> In t (reg_times o).
Proof.
  intros (pre & id & s & body & m & w & e & post & n & g & -> & <- & _). unfold reg_times. rewrite flat_map_app. apply in_or_app. right. left. reflexivity.
Qed.
Lemma too_late {W} (o : list (obs (W:=W) (D:=rvdata) (M:=rvmsg) (E:=rvenv))) k it t asked : reg_times o = [t100] ->
  registered_at toy true cf_toy o k it t asked -> 100000 * second <= (t / second + N.min asked (cf_max cf_toy)) * second -> False.
Proof.
  intros E RG LE. apply reg_times_in in RG. rewrite E in RG. destruct RG as [<-|[]]. unfold t100, cf_toy, second in LE. cbn [cf_max] in LE.
  rewrite N.div_mul in LE by discriminate. lia.
Qed.
Lemma y_reg_is f : sys_run toy_aead toy_idt (rv_server toy true kf_toy cf_toy (rv_dir toy true)) (sys_init 0 []) (reg_events f) = (fst (y_reg f), snd (y_reg f)).
Proof. unfold y_reg. apply surjective_pairing. Qed.
Lemma y_reg_times : reg_times (snd (y_reg MetaFails)) = [t100].
Proof. vm_compute. reflexivity. Qed.
Lemma y_reg_late : snd (b_load (rv_dir toy true) (100000 * second) (y_world (fst (y_reg MetaFails))) key_toy) = Ok (Some (item_toy 3600)).
Proof. vm_compute. reflexivity. Qed.
Theorem C25_expires_refuted : ~ C25_statement.
Proof.
  intros H. destruct (H toy true kf_toy cf_toy toy_aead toy_idt kf_toy_ok 0 (reg_events MetaFails) _ _ (reg_events_ok _ _) (y_reg_is MetaFails)
    key_toy (item_toy 3600) (100000 * second) key_toy_plain y_reg_late) as (t0 & asked & RG & LE).
  exact (too_late _ _ _ _ _ y_reg_times RG LE).
Qed.
(** Otherwise it holds: a lookup after that time finds nothing, and maintenance at or after that time removes the record. *)
Theorem C25_expires_partial c chk kf cf A idt : keyfns_ok c kf -> forall now es y o,
  Forall (fun ev => match ev with EArrive rq => request_ok (rq_body rq) (rq_env rq) /\ e_fault (rq_env rq) <> MetaFails
                    | EWorld f => forall d n x, In (n, x) (f d) -> In (n, x) d | _ => True end) es ->
  sys_run A idt (rv_server c chk kf cf (rv_dir c chk)) (sys_init now []) es = (y, o) ->
  forall k it t, plain_key k ->
  (snd (b_load (rv_dir c chk) t (y_world y) k) = Ok (Some it) ->
     exists t0 asked, registered_at c chk cf o k it t0 asked /\ t <= (t0 / second + N.min asked (cf_max cf)) * second) /\
  (dir_keeps (item_codec c chk) (rv_maint (rv_dir c chk) t (y_world y)) k it ->
     exists t0 asked, registered_at c chk cf o k it t0 asked /\ t < (t0 / second + N.min asked (cf_max cf)) * second).
Proof.
  intros KF now es y o EA R k it t PK. destruct (timed c chk kf cf KF A idt now es y o EA R) as [H _].
  split; intros X; [eapply timed_load; eassumption|eapply timed_maint; eassumption].
Qed.
(** In such runs a blob is released only until then. *)
Theorem C25_released_in_time_partial c chk kf cf A idt : keyfns_ok c kf -> forall now es y o,
  Forall (fun ev => match ev with EArrive rq => request_ok (rq_body rq) (rq_env rq) /\ e_fault (rq_env rq) <> MetaFails
                    | EWorld f => forall d n x, In (n, x) (f d) -> In (n, x) d | _ => True end) es ->
  sys_run A idt (rv_server c chk kf cf (rv_dir c chk)) (sys_init now []) es = (y, o) ->
  forall pre b tok post, o = pre ++ Sent (Answer TO1RVRedirect b tok) :: post ->
  exists p1 id s body m w e p2 k it t0 asked, pre = p1 ++ Ran id TO1ProveToRV s body m w e :: p2 /\ registered_at c chk cf p1 k it t0 asked /\
    cose_serialize (si_to1d it) = Ok b /\ e_now e <= (t0 / second + N.min asked (cf_max cf)) * second.
Proof.
  intros KF now es y o EA R pre b tok post EQ. destruct (timed c chk kf cf KF A idt now es y o EA R) as [_ H].
  assert (EA' : Forall (event_ok (dir_keeps (item_codec c chk))) es).
  { eapply Forall_impl; [|exact EA]. intros [rq|n ok|n ok|n|d| |f]; cbn; auto; [intros [X _]; exact X|]. intros X w k v _ (x & IX & D). exists x. auto. }
  destruct (released c chk kf cf (rv_dir c chk) (dir_keeps (item_codec c chk)) (dir_laws _) KF [] A idt now es y o) with (pre := pre) (b := b) (tok := tok) (post := post)
    as (p1 & id & s & body & m & w & e & p2 & g & n & k & it & -> & ASK & GT & L & _ & _ & CS); auto.
  { intros k it _ KP. left. exact KP. }
  rewrite <- app_assoc in EQ. cbn [app] in EQ. specialize (H _ _ _ _ _ _ _ _ _ EQ).
  destruct ASK as (s1 & b1 & sg & m1 & w1 & e1 & IA & RD & _).
  assert (BG : bytes_ok g).
  { destruct (in_split _ _ IA) as (q1 & q2 & ->). rewrite <- app_assoc in EQ. cbn [app] in EQ.
    destruct (rv_principle c chk kf cf (rv_dir c chk) (dir_keeps (item_codec c chk)) (dir_laws _) KF [] A idt now es y o) as (_ & P2 & _);
      [intros k' it' _ KP; left; exact KP|apply events_ok; exact EA'|exact R|]. destruct (P2 _ _ _ _ _ _ _ _ _ EQ) as (_ & _ & _ & _ & _ & (BB & _)).
    eapply hellorv_guid_ok; eassumption. }
  edestruct timed_load as (t0 & asked & RG & LE); [exact idt|exact H|exact (guid_text_plain _ _ BG GT)|exact L|].
  exists p1, id, s, body, m, w, e, p2, k, it, t0, asked. auto.
Qed.
(** A registration that was answered is found until then (unless something removes or replaces it). *)
Theorem C25_found_until c chk kf cf A w s m e w' d ks b g it wait k t : keyfns_ok c kf ->
  sd_nonce3 (ses_data s) = Some A -> ownersign_check c chk kf cf A m = Ok (g, it, wait) -> guid_text g = Some k ->
  (exists data, item_write it = Ok data /\ item_read c chk data = Ok it) -> e_now e / second + wait < 2 ^ 63 ->
  h_ownersign c chk kf cf (rv_dir c chk) w s m e = (w', HReply d ks b) -> t <= (e_now e / second + wait) * second ->
  snd (b_load (rv_dir c chk) t w' k) = Ok (Some it).
Proof.
  intros KF N3 C G (data & IW & IR) TB H LE. destruct (ownersign_steps _ _ _ _ _ _ _ _ _ _ _ H) as [(_ & NR)|(cor & g' & it' & wait' & k' & w1 & N3' & C' & G' & X)];
    [exfalso; eapply NR; reflexivity|]. rewrite N3 in N3'. inversion N3'; subst cor. rewrite C in C'. inversion C'; subst g' it' wait'. rewrite G in G'. inversion G'; subst k'.
  destruct X as [(r1 & _ & _ & NR)|(S & _ & r2 & M & _)]; [exfalso; eapply NR; reflexivity|]. clear C' N3' G'.
  unfold rv_dir in S, M |- *. cbn [b_store b_meta b_load dir_backend] in *. unfold dir_store in S. cbn [item_codec ser] in S. unfold to_serr in S. rewrite IW in S. cbn [map_err] in S.
  rewrite rename_write in S. inversion S; subst w1. unfold dir_set_meta in M. rewrite aget_aset_eq in M. apply (f_equal fst) in M. cbn [fst] in M. subst w'. clear S.
  unfold dir_load. rewrite aget_aset_eq. cbn [f_xattr f_data]. rewrite aget_aset_eq. cbn [to_stored]. rewrite deadline_eq, ttl_disk by exact TB. change SEC with second.
  destruct (_ * second <? t) eqn:Y; [lia|]. cbn [snd item_codec de]. rewrite IR. reflexivity.
Qed.
(** The database stores return a record until maintenance removes it, however late: *)
Definition C25_database_statement : Prop :=
  forall c chk kf cf A idt, keyfns_ok c kf -> forall now es y o,
  Forall (event_ok (db_keeps (item_codec c chk))) es -> Forall (fun ev => match ev with EArrive rq => e_fault (rq_env rq) = IoOk | _ => True end) es ->
  sys_run A idt (rv_server c chk kf cf (rv_db c chk)) (sys_init now []) es = (y, o) ->
  forall k it t, plain_key k -> snd (b_load (rv_db c chk) t (y_world y) k) = Ok (Some it) ->
  exists t0 asked, registered_at c chk cf o k it t0 asked /\ t <= (t0 / second + N.min asked (cf_max cf)) * second.
Lemma reg_events_io {W} : Forall (fun ev : event (W:=W) => match ev with EArrive rq => e_fault (rq_env rq) = IoOk | _ => True end) (reg_events IoOk).
Proof. unfold reg_events, rv_req, one_request. cbn [app]. repeat constructor. Qed.
Definition y_db := sys_run toy_aead toy_idt (toy_rv (rv_db toy true)) (sys_init 0 []) (reg_events IoOk).
Lemma y_db_is : sys_run toy_aead toy_idt (rv_server toy true kf_toy cf_toy (rv_db toy true)) (sys_init 0 []) (reg_events IoOk) = (fst y_db, snd y_db).
Proof. unfold y_db. apply surjective_pairing. Qed.
Lemma y_db_times : reg_times (snd y_db) = [t100].
Proof. vm_compute. reflexivity. Qed.
Lemma y_db_late : snd (b_load (rv_db toy true) (100000 * second) (y_world (fst y_db)) key_toy) = Ok (Some (item_toy 3600)).
Proof. vm_compute. reflexivity. Qed.
Theorem C25_database_refuted : ~ C25_database_statement.
Proof.
  intros H. destruct (H toy true kf_toy cf_toy toy_aead toy_idt kf_toy_ok 0 (reg_events IoOk) _ _ (reg_events_ok _ _) reg_events_io y_db_is
    key_toy (item_toy 3600) (100000 * second) key_toy_plain y_db_late) as (t0 & asked & RG & LE).
  exact (too_late _ _ _ _ _ y_db_times RG LE).
Qed.
(** Asked for 3600 with a maximum of 1000: told 1000, found up to second 1100 and not a nanosecond later, removed at second 1100. *)
Example C25_case :
  nth_error (sent (snd (y_reg IoOk))) 1 = Some (Answer TO0AcceptOwner (enc (VArr [VInt 1000])) None) /\
  snd (b_load (rv_dir toy true) (1100 * second) (y_world (fst (y_reg IoOk))) key_toy) = Ok (Some (item_toy 3600)) /\
  snd (b_load (rv_dir toy true) (1100 * second + 1) (y_world (fst (y_reg IoOk))) key_toy) = Ok None /\
  rv_maint (rv_dir toy true) (1100 * second - 1) (y_world (fst (y_reg IoOk))) = y_world (fst (y_reg IoOk)) /\
  rv_maint (rv_dir toy true) (1100 * second) (y_world (fst (y_reg IoOk))) = [].
Proof. split; [vm_compute; reflexivity|]. split; [vm_compute; reflexivity|]. split; [vm_compute; reflexivity|]. split; vm_compute; reflexivity. Qed.

(** * C26: who gets the blob *)
(** A redirect blob is released only in a session that asked for the GUID and was given the nonce, to a request with a
    token signed by the registered device key over that nonce; it is the registered one. *)
Theorem C26_released c chk kf cf {W} (be : backend item W) keeps A idt :
  store_laws be (item_codec c chk) keeps (fun _ _ => True) -> keyfns_ok c kf ->
  forall now w0 es y o, Forall (event_ok keeps) es -> sys_run A idt (rv_server c chk kf cf be) (sys_init now w0) es = (y, o) ->
  forall pre b tok post, o = pre ++ Sent (Answer TO1RVRedirect b tok) :: post ->
  exists p1 id s body m w e p2 g n k it, pre = p1 ++ Ran id TO1ProveToRV s body m w e :: p2 /\
    asked_for p1 id g n /\ guid_text g = Some k /\ (keeps w0 k it \/ registered c chk cf p1 k it) /\
    token_proves c chk body (pk_key (si_key it)) n /\ cose_serialize (si_to1d it) = Ok b.
Proof.
  intros SL KF now w0 es y o EA R pre b tok post EQ.
  destruct (released c chk kf cf be keeps SL KF w0 A idt now es y o ltac:(intros k it _ KP; left; exact KP) EA R _ _ _ _ EQ)
    as (p1 & id & s & body & m & w & e & p2 & g & n & k & it & X1 & X2 & X3 & _ & X4). exists p1, id, s, body, m, w, e, p2, g, n, k, it. auto.
Qed.
Theorem C26_directory c chk kf cf A idt : keyfns_ok c kf -> forall now es y o,
  Forall (event_ok (dir_keeps (item_codec c chk))) es ->
  sys_run A idt (rv_server c chk kf cf (rv_dir c chk)) (sys_init now []) es = (y, o) ->
  forall pre b tok post, o = pre ++ Sent (Answer TO1RVRedirect b tok) :: post ->
  exists p1 id s body m w e p2 g n k it, pre = p1 ++ Ran id TO1ProveToRV s body m w e :: p2 /\
    asked_for p1 id g n /\ guid_text g = Some k /\ registered c chk cf p1 k it /\
    token_proves c chk body (pk_key (si_key it)) n /\ cose_serialize (si_to1d it) = Ok b.
Proof.
  intros KF now es y o EA R pre b tok post EQ.
  destruct (C26_released c chk kf cf (rv_dir c chk) _ A idt (dir_laws _) KF now [] es y o EA R _ _ _ _ EQ)
    as (p1 & id & s & body & m & w & e & p2 & g & n & k & it & X1 & X2 & X3 & [(f & [] & _)|X4] & X5). exists p1, id, s, body, m, w, e, p2, g, n, k, it. auto.
Qed.
Theorem C26_database c chk kf cf A idt : keyfns_ok c kf -> forall now es y o,
  Forall (event_ok (db_keeps (item_codec c chk))) es ->
  sys_run A idt (rv_server c chk kf cf (rv_db c chk)) (sys_init now []) es = (y, o) ->
  forall pre b tok post, o = pre ++ Sent (Answer TO1RVRedirect b tok) :: post ->
  exists p1 id s body m w e p2 g n k it, pre = p1 ++ Ran id TO1ProveToRV s body m w e :: p2 /\
    asked_for p1 id g n /\ guid_text g = Some k /\ registered c chk cf p1 k it /\
    token_proves c chk body (pk_key (si_key it)) n /\ cose_serialize (si_to1d it) = Ok b.
Proof.
  intros KF now es y o EA R pre b tok post EQ.
  destruct (C26_released c chk kf cf (rv_db c chk) _ A idt (rv_db_laws _ _) KF now [] es y o EA R _ _ _ _ EQ)
    as (p1 & id & s & body & m & w & e & p2 & g & n & k & it & X1 & X2 & X3 & [(f & [] & _)|X4] & X5). exists p1, id, s, body, m, w, e, p2, g, n, k, it. auto.
Qed.
(** Registering and looking up: the device gets the blob; with another key it gets an error. *)
Definition y_get {W} (be : backend item W) w0 (sk : bytes) := sys_run toy_aead toy_idt (toy_rv be) (sys_init 0 w0) (reg_events IoOk ++ get_events t100 sk).
Example C26_case :
  Forall (event_ok (dir_keeps (item_codec toy true))) (reg_events IoOk ++ get_events t100 [42]) /\
  last (sent (snd (y_get (rv_dir toy true) [] [42]))) Dropped = Answer TO1RVRedirect (of_ok [] (cose_serialize (si_to1d (item_toy 3600)))) None /\
  last (sent (snd (y_get (rv_db toy true) [] [42]))) Dropped = Answer TO1RVRedirect (of_ok [] (cose_serialize (si_to1d (item_toy 3600)))) None /\
  last (sent (snd (y_get (rv_dir toy true) [] [41]))) Dropped = ErrorReply InvalidMessageError TO1ProveToRV.
Proof.
  split; [apply Forall_app; split; [apply reg_events_ok|apply get_events_ok]|]. split; [vm_compute; reflexivity|]. split; vm_compute; reflexivity.
Qed.

(** The rendezvous server satisfies the assumptions of C20-C22 and C53. *)
Theorem C20_rendezvous_server c chk kf cf {W} (be : backend item W) A : routes_ok (rv_server c chk kf cf be) /\ replies_sendable A (rv_server c chk kf cf be).
Proof.
  split; [apply rv_routes_ok|]. exists (fun _ => True). split; [exact Logic.I|]. intros im om w s pt m e w' d ks reply RI V _ EV K _ HD. split; [exact Logic.I|]. cbn [sv_handle sv_routes rv_server] in *.
  pose proof (handle_nokeys _ _ _ _ _ _ _ _ _ _ _ _ _ _ HD) as ->. split; [discriminate|].
  destruct RI as [X|[X|[X|[X|[]]]]]; injection X as <- <-; exact EV.
Qed.

Print Assumptions C24_only_registered.
Print Assumptions C24_directory.
Print Assumptions C24_database.
Print Assumptions C24_maintenance_forgets.
Print Assumptions C25_told.
Print Assumptions C25_expires_refuted.
Print Assumptions C25_expires_partial.
Print Assumptions C25_released_in_time_partial.
Print Assumptions C25_found_until.
Print Assumptions C25_database_refuted.
Print Assumptions C26_released.
Print Assumptions C26_directory.
Print Assumptions C26_database.
Print Assumptions C20_rendezvous_server.
