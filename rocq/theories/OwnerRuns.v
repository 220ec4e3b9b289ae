(** The owner server: where its answers come from, the keys of a session, and the rounds of service info. *)
From Verif Require Import Base BaseFacts Text Assoc StoreModel StoreSpec Hex Backend BackendSpec
  CborModel ValueModel ValueProofs TypesModel CryptoSpec TypesProofs VoucherModel
  VoucherSpec DecFacts CoseFacts KexModel MsgModel SessionModel SessionSpec SessionProofs SessionProofs2 SeqFacts
  RvServerModel RvServerSpec RvServerRuns SiModel SiApiModel OwnerModel OwnerSpec OwnerProofs.
From Coq Require Import ZifyBool ZifyNat ZifyN.
Local Open Scope N_scope.
Local Opaque dec_top.

Section runs.
Context (c : crypto) (chk : bool) (ko : kex_ops) (cf : owconf) {W : Type} (be : backend voucher W) (cd : codec voucher)
  (keeps : W -> key -> voucher -> Prop) (okv : key -> voucher -> Prop) (marked : W -> key -> Prop).
Context (SL : store_laws be cd keeps okv) (ML : mark_laws be marked) (w0 : W) (A : aead) (idt : str -> option str).
Let sv := ow_server c chk ko cf be.
Let obs := obs (W:=W) (D:=owdata) (M:=owmsg) (E:=owenv).
Notation proved := (proved c chk keeps).
Notation agreed := (agreed chk ko (oc_kdf_avail cf)).

(** * Keys *)
Definition IDk (os : list obs) (id : str) (s : session owdata) : Prop :=
  (forall kx, od_kex (ses_data s) = Some kx -> offered os id kx) /\ (forall k, ses_keys s = Some k -> agreed os id k) /\
  (ses_last s <> None -> od_guid (ses_data s) <> None).
Lemma offered_app os o id kx : offered os id kx -> offered (W:=W) (os ++ o) id kx.
Proof. intros (s & b & m & w & e & su & I & X). exists s, b, m, w, e, su. split; [apply in_or_app; auto|exact X]. Qed.
Lemma agreed_app os o id k : agreed os id k -> agreed (os ++ o : list obs) id k.
Proof.
  intros (pre & s & b & m & w & e & post & kx & x & raw & ci & -> & H). exists pre, s, b, m, w, e, (post ++ o), kx, x, raw, ci.
  split; [rewrite <- app_assoc; reflexivity|exact H].
Qed.
Lemma IDk_app os o id s : IDk os id s -> IDk (os ++ o) id s.
Proof. intros (H1 & H2 & H3). split; [intros kx X; apply offered_app; auto|]. split; [intros k X; apply agreed_app; auto|exact H3]. Qed.
Lemma check_keys v nonce6 kx ci body tk e n7 ks b : cose_deserialize chk body = Ok tk -> prove_check c chk ko cf v nonce6 kx ci tk e = Ok (n7, ks, b) ->
  exists x raw, token_kex chk body x /\ derive_key ko (oc_kdf_avail cf) OwnerService ci kx x (read_kdf_header (oe_kdf e)) = Ok raw /\
    ks = EKeys (Some (Z.to_N (cipher_num ci))) (Some (Combined raw)).
Proof.
  intros RD P. unfold prove_check in P. destruct (ov_chain v) as [[|leaf rest]|] eqn:CH; try discriminate.
  destruct (c_cert_key c leaf) as [key|] eqn:CK; cbn [of_option bind] in P; [|discriminate].
  destruct (cose_get_unprotected as_bstr16 tk EUPH_NONCE) as [n7'| |]; cbn [code map_err bind] in P; try discriminate. destruct n7' as [n7'|]; [|discriminate].
  destruct (get_eat c tk key) as [t| |] eqn:GE; cbn [code map_err bind] in P; try discriminate. destruct (eat_payload t) as [pv|] eqn:EP; [|discriminate].
  destruct (as_provepayload pv) as [x|] eqn:PP; cbn [of_option bind] in P; [|discriminate].
  destruct (nonce_eq (eat_nonce t) nonce6) as [[|]| |] eqn:NE; cbn [bind negb] in P; try discriminate.
  destruct (derive_key ko (oc_kdf_avail cf) OwnerService ci kx x (read_kdf_header (oe_kdf e))) as [raw| |] eqn:DK; cbn [bind code map_err] in P; try discriminate.
  match type of P with context [cose_new ?a ?b ?d ?f ?g ?h] => destruct (cose_new a b d f g h) as [st| |]; cbn [bind code map_err] in P; try discriminate end.
  destruct (cose_serialize st) as [b'| |]; cbn [bind code map_err] in P; try discriminate. inversion P; subst. exists x, raw.
  split; [|split; [exact DK|reflexivity]]. unfold get_eat in GE.
  destruct (cose_get_payload c (from_slice as_claims) tk key) as [m| |] eqn:GP; cbn [bind] in GE; try discriminate.
  apply cose_payload_signed in GP. destruct GP as [_ PL]. unfold eat_of_claims in GE.
  destruct (hdr_get EAT_NONCE m) as [v0|]; [|discriminate]. destruct (as_bstr16 v0) as [n|]; cbn [of_option bind] in GE; [|discriminate].
  destruct (hdr_get EAT_UEID m) as [u|]; [|discriminate]. destruct (as_bytebuf u) as [ub|]; cbn [of_option bind] in GE; [|discriminate].
  destruct (from_ueid ub); inversion GE; subst t. cbn [eat_payload] in EP. unfold as_provepayload in PP. destruct (as_fields pv) as [|y [|? ?]] eqn:FV; try discriminate.
  exists tk, m, pv, y. auto.
Qed.

Lemma keys_step os id im om s body m w e w' r : True -> IDk os id s -> In (im, om) (sv_routes sv) ->
  parse_request A sv im s body = PMsg m -> nlen body <= MAX_BODY -> True -> sv_handle sv im w s m e = (w', r) ->
  let os' := os ++ [Ran id im s body m w e] in
  True /\ match r with HReply d ks reply => IDk os' id (Ses (Some om) (match ks with Some _ => ks | None => ses_keys s end) d) | _ => True end.
Proof.
  intros _ HD RI P LB _ H. cbn zeta. split; [exact Logic.I|]. destruct r as [d ks b| |]; [|exact Logic.I|exact Logic.I].
  unfold sv, ow_server in RI, H. cbn [sv_routes sv_handle] in RI, H. assert (HD' := IDk_app os [Ran id im s body m w e] id s HD). pose proof (parse_valid _ _ _ _ _ _ P) as VP.
  assert (SAME : im <> TO2HelloDevice -> od_kex d = od_kex (ses_data s) -> ks = None -> od_guid d = od_guid (ses_data s) ->
    IDk (os ++ [Ran id im s body m w e]) id (Ses (Some om) match ks with Some _ => ks | None => ses_keys s end d)).
  { intros NH E1 -> E2. destruct HD' as (X1 & X2 & X3). split; cbn [ses_data ses_keys ses_last]; [rewrite E1; exact X1|]. split; [exact X2|]. intros _. rewrite E2. apply X3.
    intros Z. rewrite Z in VP. apply NH. destruct RI as [RI|[RI|[RI|[RI|[RI|[RI|[]]]]]]]; inversion RI; subst im om; try reflexivity; discriminate VP. }
  destruct RI as [RI|[RI|[RI|[RI|[RI|[RI|[]]]]]]]; inversion RI; subst im om; clear RI.
  - (* HelloDevice *) pose proof (ow_plain c chk ko cf be A TO2HelloDevice _ _ _ eq_refl P) as RP. unfold ow_parse in RP.
    destruct (from_slice as_hellodevice body) as [m0| |] eqn:RD; cbn [bind map_err] in RP; try discriminate.
    destruct (hash_from_data c Sha256 body) as [h| |]; cbn [bind map_err] in RP; inversion RP; subst m. clear RP.
    cbn [ow_handle] in H. unfold h_hellodevice in H. destruct (guid_text (hd2_guid m0)) as [k|]; [|discriminate].
    destruct (ow_load be w e k) as [w1 [[v|]| |]]; try discriminate. destruct (hello_reply c chk ko cf v m0 h e) as [[kx b']| |] eqn:HR; inversion H; subst.
    split; cbn [ses_data od_kex ses_keys ses_last od_guid]; [|split; [apply HD'|intros _; discriminate]]. intros kx' X. inversion X; subst kx'. clear X. unfold hello_reply in HR.
    destruct (negb _); [discriminate|]. destruct (negb _); [discriminate|]. destruct (oe_kex e (hd2_kex m0)) as [k0|] eqn:OK; cbn [of_option bind code map_err] in HR; [|discriminate].
    assert (k0 = kx).
    { destruct (get_public ko k0) as [pub| |]; cbn [bind code map_err] in HR; try discriminate.
      destruct (match get (from_slice as_bytebuf) (ov_contents v) 1 with Ok h0 => Ok h0 | _ => Panic P_UNWRAP end) as [hd| |]; cbn [bind code map_err] in HR; try discriminate.
      destruct (proveovhdr_payload _ _ _ _ _ _ _) as [p| |]; cbn [bind code map_err] in HR; try discriminate.
      match type of HR with context [cose_new ?a ?b ?d ?f ?g ?h] => destruct (cose_new a b d f g h) as [st| |]; cbn [bind code map_err] in HR; try discriminate end.
      destruct (cose_serialize st); cbn [bind code map_err] in HR; inversion HR; reflexivity. }
    subst k0. exists s, body, (MHelloDevice m0 h), w, e, (hd2_kex m0). split; [apply in_or_app; right; left; reflexivity|exact OK].
  - (* GetOVNextEntry *) pose proof (ow_plain c chk ko cf be A TO2GetOVNextEntry _ _ _ eq_refl P) as RP. unfold ow_parse in RP.
    destruct (from_slice as_getentry body) as [n0| |]; cbn [bind map_err] in RP; inversion RP; subst m. cbn [ow_handle] in H. unfold h_getentry in H.
    repeat match type of H with (match ?x with _ => _ end) = _ => destruct x eqn:?; try discriminate end. inversion H; subst. (apply SAME; [discriminate|reflexivity|reflexivity|cbn [od_guid]; congruence]).
  - (* ProveDevice *) pose proof (ow_plain c chk ko cf be A TO2ProveDevice _ _ _ eq_refl P) as RP. unfold ow_parse in RP.
    destruct (cose_deserialize chk body) as [tk| |] eqn:RD; cbn [bind map_err] in RP; inversion RP; subst m. clear RP. cbn [ow_handle] in H. unfold h_prove in H.
    destruct (od_guid (ses_data s)) as [gt|]; [|discriminate]. destruct (guid_parse gt) as [g|]; [|discriminate]. destruct (guid_text g) as [k|]; [|discriminate].
    destruct (od_nonce6 (ses_data s)) as [n6|]; [|discriminate]. destruct (od_kex (ses_data s)) as [kx|] eqn:OK; [|discriminate]. destruct (od_cipher (ses_data s)) as [ci|]; [|discriminate].
    destruct (ow_load be w e k) as [w1 [[v|]| |]]; try discriminate. destruct (prove_check c chk ko cf v n6 kx ci tk e) as [[[n7 ks'] b']| |] eqn:PC; inversion H; subst.
    split; cbn [ses_data od_kex ses_keys ses_last od_guid]; [discriminate|]. split; [|intros _; discriminate]. intros k' X. inversion X; subst k'. destruct (check_keys _ _ _ _ _ _ _ _ _ _ RD PC) as (x & raw & TK & DK & ->).
    exists os, s, body, (MProveDevice tk), w, e, [], kx, x, raw, ci. split; [reflexivity|]. split; [apply HD; exact OK|]. auto.
  - destruct m; try (cbn [ow_handle] in H); destruct (ow_opened c chk ko cf be A _ _ _ _ P) as (pt & _ & RP); unfold ow_parse in RP; (destruct (from_slice as_dsiready pt) as [[]| |]; cbn [bind map_err] in RP; inversion RP).
    unfold h_siready in H. destruct (od_proven (ses_data s)); inversion H; subst. (apply SAME; [discriminate|reflexivity|reflexivity|cbn [od_guid]; congruence]).
  - destruct (ow_opened c chk ko cf be A _ _ _ _ P) as (pt & _ & RP). unfold ow_parse in RP. destruct (from_slice as_dsi pt) as [[mo l]| |]; cbn [bind map_err] in RP; inversion RP; subst m.
    cbn [ow_handle] in H. unfold h_serviceinfo in H. repeat match type of H with (match ?x with _ => _ end) = _ => destruct x eqn:?; try discriminate end; inversion H; subst. (apply SAME; [discriminate|reflexivity|reflexivity|cbn [od_guid]; congruence]).
  - destruct (ow_opened c chk ko cf be A _ _ _ _ P) as (pt & _ & RP). unfold ow_parse in RP. destruct (from_slice as_done pt) as [n| |]; cbn [bind map_err] in RP; inversion RP; subst m.
    cbn [ow_handle] in H. unfold h_done in H. repeat match type of H with (match ?x with _ => _ end) = _ => destruct x eqn:?; try discriminate end; inversion H; subst; (apply SAME; [discriminate|reflexivity|reflexivity|cbn [od_guid]; congruence]).
Qed.
Lemma keys_run now es y o : sys_run A idt sv (sys_init now w0) es = (y, o) ->
  (forall pre id im s body m w e post, o = pre ++ Ran id im s body m w e :: post -> IDk pre id s) /\
  (forall pre id im om s post, o = pre ++ Stored id im om s :: post -> IDk pre id s).
Proof.
  intros R.
  destruct (principle A idt sv (ow_routes_ok c chk ko cf be) (fun _ _ => True) IDk (fun _ => True) (fun _ _ => True)
    (fun _ _ _ _ => Logic.I) IDk_app) with (now := now) (w0 := w0) (es := es) (y := y) (o := o) as (_ & P1 & P2); auto.
  - intros os id. split; [intros ? X; discriminate|]. split; [intros ? X; discriminate|]. cbn. intros X. exfalso. apply X. reflexivity.
  - exact keys_step.
  - apply Forall_forall. intros [rq|n ok|n ok|n|d| |f] _; exact Logic.I.
  - split; [|exact P2]. intros pre id im s body m w e post EQ. apply (P1 _ _ _ _ _ _ _ _ _ EQ).
Qed.

(** * Answers *)
Lemma ow_answer now es y o : Forall (ow_event_ok marked) es -> sys_run A idt sv (sys_init now w0) es = (y, o) ->
  forall pre om b tok post, o = pre ++ Sent (Answer om b tok) :: post ->
  exists p1 id im s body m w e p2 w' d ks reply nonce, let s' := after om s d ks in
    pre = p1 ++ Ran id im s body m w e :: p2 /\ In (Stored id im om s') pre /\ In (im, om) ow_routes /\
    ow_handle c chk ko cf be im w s m e = (w', HReply d ks reply) /\ ek_encrypt A (keys_of s') nonce reply = Ok b /\
    enc_violated (enc_req om) (ek_is_some (keys_of s')) = false /\
    IDo c chk keeps p1 id s /\ IDo c chk keeps (p1 ++ [Ran id im s body m w e]) id s' /\ IDk pre id s' /\
    parse_request A sv im s body = PMsg m /\ ow_request_ok body e.
Proof.
  intros EA R pre om b tok post EQ.
  pose proof (ow_principle c chk ko cf be cd keeps okv marked SL ML w0 A idt now es y o ltac:(intros k _ KP; left; exact KP) (ow_events_ok marked _ EA) R) as (_ & PR & _).
  destruct (keys_run _ _ _ _ R) as (_ & KR).
  assert (SO : seen_ok A sv ([] ++ pre) (Sent (Answer om b tok))) by (eapply (seen_run A idt sv (ow_routes_ok c chk ko cf be)); [|exact R|exact EQ]; constructor).
  cbn in SO. destruct SO as (p & (s & body & m & w & e & w' & d & ks & IR & RI & HD & PS & ST) & STD & <- & RS). specialize (ST STD).
  destruct (in_split _ _ IR) as (p1 & p2 & EP). pose proof EQ as EQ'. rewrite EP, <- app_assoc in EQ'. cbn [app] in EQ'.
  destruct (PR _ _ _ _ _ _ _ _ _ EQ') as (IW1 & ID1 & _ & PA & LB & RK).
  exists p1, (pd_id p), (pd_im p), s, body, m, w, e, p2, w', d, ks, (pd_reply p), (pd_nonce p). cbn zeta. unfold after. rewrite <- PS.
  split; [exact EP|]. split; [exact ST|]. split; [exact RI|]. split; [exact HD|].
  assert (RR : ek_encrypt A (keys_of (pd_ses p)) (pd_nonce p) (pd_reply p) = Ok b /\ enc_violated (enc_req (pd_om p)) (ek_is_some (keys_of (pd_ses p))) = false).
  { unfold respond in RS. destruct (enc_violated _ _); [discriminate|]. destruct (ek_encrypt A (keys_of (pd_ses p)) (pd_nonce p) (pd_reply p)); inversion RS; subst. auto. }
  destruct RR as [R1 R2]. split; [exact R1|]. split; [exact R2|]. split; [exact ID1|]. split.
  - destruct (ow_step c chk ko cf be cd keeps okv marked SL ML w A p1 (pd_id p) (pd_im p) (pd_om p) s body m w e w' _ ltac:(intros k _ KP; left; exact KP) ID1 RI PA LB RK HD) as [_ X].
    rewrite PS. exact X.
  - split; [|auto]. destruct (in_split _ _ ST) as (q1 & q2 & EQ2). rewrite EQ2. apply IDk_app. eapply KR. rewrite EQ, EQ2, <- app_assoc. reflexivity.
Qed.

Theorem ow_after_proof now es y o : Forall (ow_event_ok marked) es -> sys_run A idt sv (sys_init now w0) es = (y, o) ->
  forall pre om b tok post, o = pre ++ Sent (Answer om b tok) :: post -> In om after_proof ->
  exists id im s' g n k reply nonce, In (Stored id im om s') pre /\ proved pre id g n /\
    ses_keys s' = Some k /\ agreed pre id k /\ ek_encrypt A k nonce reply = Ok b.
Proof.
  intros EA R pre om b tok post EQ AP.
  destruct (ow_answer _ _ _ _ EA R _ _ _ _ _ EQ) as (p1 & id & im & s & body & m & w & e & p2 & w' & d & ks & reply & nonce & EP & ST & RI & HD & EN & EV & ID1 & ID2 & (_ & IK & _) & P & RK).
  set (s' := after om s d ks) in *.
  assert (PV : od_proven d = true).
  { cbn [after ses_data] in ID2. destruct RI as [RI|[RI|[RI|[RI|[RI|[RI|[]]]]]]]; inversion RI; subst im om; clear RI; try (cbn [after_proof In] in AP; exfalso; intuition discriminate).
    - pose proof (ow_plain c chk ko cf be A TO2ProveDevice _ _ _ eq_refl P) as RP. unfold ow_parse in RP. destruct (cose_deserialize chk body) as [tk| |]; cbn [bind map_err] in RP; inversion RP; subst m.
      cbn [ow_handle] in HD. unfold h_prove in HD. repeat match type of HD with (match ?x with _ => _ end) = _ => destruct x; try discriminate end. inversion HD; reflexivity.
    - destruct (ow_opened c chk ko cf be A _ _ _ _ P) as (pt & _ & RP). unfold ow_parse in RP. destruct (from_slice as_dsiready pt) as [[]| |]; cbn [bind map_err] in RP; inversion RP; subst m.
      cbn [ow_handle] in HD. unfold h_siready in HD. destruct (od_proven (ses_data s)) eqn:X; inversion HD; subst. exact X.
    - destruct (ow_opened c chk ko cf be A _ _ _ _ P) as (pt & _ & RP). unfold ow_parse in RP. destruct (from_slice as_dsi pt) as [[mo l]| |]; cbn [bind map_err] in RP; inversion RP; subst m.
      cbn [ow_handle] in HD. unfold h_serviceinfo in HD. destruct (od_proven (ses_data s)) eqn:X; [|discriminate]. cbn [negb] in HD.
      repeat match type of HD with (match ?x with _ => _ end) = _ => destruct x; try discriminate end; inversion HD; reflexivity.
    - destruct (ow_opened c chk ko cf be A _ _ _ _ P) as (pt & _ & RP). unfold ow_parse in RP. destruct (from_slice as_done pt) as [n| |]; cbn [bind map_err] in RP; inversion RP; subst m.
      cbn [ow_handle] in HD. unfold h_done in HD. destruct (od_proven (ses_data s)) eqn:X; [|discriminate]. cbn [negb] in HD.
      repeat match type of HD with (match ?x with _ => _ end) = _ => destruct x; try discriminate end; inversion HD; reflexivity. }
  destruct ID2 as (_ & ID2). cbn [s' after ses_data] in ID2. destruct (od_guid d) as [gt|]; [destruct (od_nonce6 d) as [n|]; [|contradiction]|destruct (od_nonce6 d); [contradiction|congruence]].
  destruct ID2 as (g & _ & _ & _ & PRV). specialize (PRV PV).
  assert (KS : exists k, ses_keys s' = Some k).
  { unfold keys_of in EV. destruct (ses_keys s') as [k|]; [eauto|]. exfalso. destruct AP as [<-|[<-|[<-|[<-|[]]]]]; discriminate EV. }
  destruct KS as (k & KS). unfold keys_of in EN. rewrite KS in EN.
  exists id, im, s', g, n, k, reply, nonce. split; [exact ST|]. split; [|auto]. rewrite EP.
  change (Ran id im s body m w e :: p2) with ([Ran id im s body m w e] ++ p2). rewrite app_assoc. apply proved_app. exact PRV.
Qed.

(** The voucher is marked before the device is told. *)
Theorem ow_done_marks now es y o : Forall (ow_event_ok marked) es -> sys_run A idt sv (sys_init now w0) es = (y, o) ->
  forall pre b tok post, o = pre ++ Sent (Answer TO2Done2 b tok) :: post ->
  exists p1 id s body m w e p2 g n k w', pre = p1 ++ Ran id TO2Done s body m w e :: p2 /\ proved p1 id g n /\ guid_text g = Some k /\
    w' = fst (sv_handle sv TO2Done w s m e) /\ ((exists v, snd (b_load be (oe_now e) w k) = Ok (Some v)) -> marked w' k).
Proof.
  intros EA R pre b tok post EQ.
  destruct (ow_answer _ _ _ _ EA R _ _ _ _ _ EQ) as (p1 & id & im & s & body & m & w & e & p2 & w' & d & ks & reply & nonce & EP & ST & RI & HD & EN & EV & ID1 & _ & _ & P & RK).
  assert (im = TO2Done) as -> by (destruct RI as [RI|[RI|[RI|[RI|[RI|[RI|[]]]]]]]; inversion RI; reflexivity).
  destruct (ow_opened c chk ko cf be A _ _ _ _ P) as (pt & _ & RP). unfold ow_parse in RP. destruct (from_slice as_done pt) as [n| |]; cbn [bind map_err] in RP; inversion RP; subst m.
  pose proof HD as HD0. cbn [ow_handle] in HD. unfold h_done in HD. destruct (od_proven (ses_data s)) eqn:X; [|discriminate]. cbn [negb] in HD. destruct ID1 as (_ & ID1).
  destruct (od_nonce6 (ses_data s)) as [n6|] eqn:ON; [|discriminate].
  destruct (@nonce_eq unit n6 n) as [[|]| |]; try discriminate. destruct (od_guid (ses_data s)) as [gt|] eqn:OG; [|discriminate].
  destruct ID1 as (g & GT & BG & GR & PRV). rewrite (guid_round _ _ BG GT), GT in HD. destruct (od_nonce7 (ses_data s)) as [n7|]; [|discriminate].
  exists p1, id, s, body, (MDone n), w, e, p2, g, n6, gt, w'. split; [exact EP|]. split; [auto|]. split; [exact GT|]. unfold sv, ow_server. cbn [sv_handle]. rewrite HD0. split; [reflexivity|].
  intros LD. assert (BM : exists w1 u, b_meta be (oe_now e) w gt To2Performed (MBool true) = (w1, Ok u) /\ w' = w1).
  { destruct (oe_fault e); try discriminate; destruct (b_meta be (oe_now e) w gt To2Performed (MBool true)) as [w1 [u| |]]; inversion HD; subst; eauto. }
  destruct BM as (w1 & [] & BM & ->). eapply (ml_set _ _ ML); eassumption.
Qed.
(** * Entries *)
Lemma entry_sent v n raw en : nth_error (entries_raw v) (N.to_nat n) = Some raw -> cose_deserialize chk raw = Ok en ->
  entry chk v (N.to_nat n) = Ok en /\ exists b, cose_serialize en = Ok b /\ ovnextentry n en = Ok (130 :: enc (VInt (Z.of_N n)) ++ b).
Proof.
  intros NT D. split; [unfold entry, get, get_raw; unfold entries_raw in NT; rewrite NT; exact D|].
  assert (CS : exists b, cose_serialize en = Ok b).
  { unfold cose_deserialize in D. destruct (parse_array_data chk (Some 4) raw) as [a| |]; cbn [map_err bind] in D; try discriminate.
    destruct (pa_tag a) as [tg|] eqn:TG; [|discriminate]. destruct (N.eqb_spec tg COSESIGN_TAG) as [ET|]; cbn [negb] in D; [|discriminate].
    destruct (serialize_array a) as [data| |] eqn:S; cbn [map_err bind] in D; try discriminate.
    destruct (cose_inner_of_bytes data) as [[[[p u] pl] sg]| |]; cbn [bind] in D; try discriminate. inversion D; subst en.
    exists data. unfold cose_serialize. cbn [cs_contents]. rewrite TG, ET. unfold COSESIGN_TAG. rewrite S. reflexivity. }
  destruct CS as (b & CS). exists b. split; [exact CS|]. unfold ovnextentry. rewrite CS. cbn [bind]. unfold serialize_array. cbn [pa_tag pa_items bind].
  change (nlen [enc (VInt (Z.of_N n)); b]) with 2. change (encode_item_start MArray 2) with (Ok (E:=cerr) [130]). cbn [bind map_err app concat]. rewrite app_nil_r. reflexivity.
Qed.
Theorem ow_entries now es y o : Forall (ow_event_ok marked) es -> sys_run A idt sv (sys_init now w0) es = (y, o) ->
  forall pre id s body m w e post, o = pre ++ Ran id TO2GetOVNextEntry s body m w e :: post ->
  exists g n6 k num, greeted pre id g n6 /\ guid_text g = Some k /\ entry_number body num /\
    (oe_fault e <> LoadFails ->
      (snd (b_load be (oe_now e) w k) = Ok None -> snd (sv_handle sv TO2GetOVNextEntry w s m e) = HReject ResourceNotFound) /\
      (forall v raw en, snd (b_load be (oe_now e) w k) = Ok (Some v) -> nth_error (entries_raw v) (N.to_nat num) = Some raw -> cose_deserialize chk raw = Ok en ->
       exists b, cose_serialize en = Ok b /\ snd (sv_handle sv TO2GetOVNextEntry w s m e) = HReply (ses_data s) None (130 :: enc (VInt (Z.of_N num)) ++ b))).
Proof.
  intros EA R pre id s body m w e post EQ.
  pose proof (ow_principle c chk ko cf be cd keeps okv marked SL ML w0 A idt now es y o ltac:(intros k _ KP; left; exact KP) (ow_events_ok marked _ EA) R) as (_ & PR & _).
  destruct (PR _ _ _ _ _ _ _ _ _ EQ) as (_ & ID1 & _ & P & _ & _). destruct (keys_run _ _ _ _ R) as (KR & _). destruct (KR _ _ _ _ _ _ _ _ _ EQ) as (_ & _ & GD).
  pose proof (parse_valid _ _ _ _ _ _ P) as VP.
  assert (NL : ses_last s <> None) by (intros Z; rewrite Z in VP; discriminate VP). specialize (GD NL).
  pose proof (ow_plain c chk ko cf be A TO2GetOVNextEntry _ _ _ eq_refl P) as RP. unfold ow_parse in RP.
  destruct (from_slice as_getentry body) as [num| |] eqn:RD; cbn [bind map_err] in RP; inversion RP; subst m.
  destruct ID1 as [_ ID1]. destruct (od_guid (ses_data s)) as [gt|] eqn:OG; [|congruence]. destruct (od_nonce6 (ses_data s)) as [n6|]; [|contradiction].
  destruct ID1 as (g & GT & BG & GR & _). exists g, n6, gt, num. split; [exact GR|]. split; [exact GT|]. split.
  { apply from_slice_ok in RD. destruct RD as (v & D & AS). unfold as_getentry in AS. destruct (as_fields v) as [|x [|? ?]] eqn:FV; try discriminate. exists v, x. auto. }
  intros NF. assert (LD : ow_load be w e gt = (fst (b_load be (oe_now e) w gt), code InternalServerError (snd (b_load be (oe_now e) w gt)))).
  { unfold ow_load. destruct (oe_fault e); try congruence; destruct (b_load be (oe_now e) w gt); reflexivity. }
  unfold sv, ow_server. cbn [sv_handle ow_handle]. unfold h_getentry. rewrite OG, (guid_round _ _ BG GT), GT, LD. split.
  - intros ->. reflexivity.
  - intros v raw en -> NT D. destruct (entry_sent _ _ _ _ NT D) as (EN & b & CS & ON). exists b. split; [exact CS|]. cbn [code map_err]. rewrite EN, ON. reflexivity.
Qed.
End runs.

(** * Rounds of service info, one request of a session at a time *)
Section rounds.
Context (c : crypto) (chk : bool) (ko : kex_ops) (cf : owconf) {W : Type} (be : backend voucher W) (A : aead) (idt : str -> option str).
Let sv := ow_server c chk ko cf be.
Let obs := obs (W:=W) (D:=owdata) (M:=owmsg) (E:=owenv).
Definition loops (d : owdata) : N := match od_loops d with Some n => n | None => 0 end.
Definition Jr (l : list (mtype * mtype * session owdata)) (s : session owdata) : Prop :=
  loops (ses_data s) = nlen (filter is_round l) /\ nlen (filter is_round l) <= 1001.
Lemma loops_kept im om w s m e w' d ks reply body : In (im, om) ow_routes -> parse_request A sv im s body = PMsg m -> im <> TO2DeviceServiceInfo ->
  ow_handle c chk ko cf be im w s m e = (w', HReply d ks reply) -> od_loops d = od_loops (ses_data s).
Proof.
  intros RI P NE H. destruct (ow_opened c chk ko cf be A _ _ _ _ P) as (pt & _ & RP).
  destruct RI as [RI|[RI|[RI|[RI|[RI|[RI|[]]]]]]]; inversion RI; subst im om; clear RI; unfold ow_parse in RP; try congruence.
  - destruct (from_slice as_hellodevice pt) as [m0| |]; cbn [bind map_err] in RP; try discriminate. destruct (hash_from_data c Sha256 pt) as [h| |]; cbn [bind map_err] in RP; inversion RP; subst m.
    cbn [ow_handle] in H. unfold h_hellodevice in H. repeat match type of H with (match ?x with _ => _ end) = _ => destruct x; try discriminate end. inversion H; reflexivity.
  - destruct (from_slice as_getentry pt) as [n0| |]; cbn [bind map_err] in RP; inversion RP; subst m. cbn [ow_handle] in H. unfold h_getentry in H.
    repeat match type of H with (match ?x with _ => _ end) = _ => destruct x; try discriminate end. inversion H; reflexivity.
  - destruct (cose_deserialize chk pt) as [tk| |]; cbn [bind map_err] in RP; inversion RP; subst m. cbn [ow_handle] in H. unfold h_prove in H.
    repeat match type of H with (match ?x with _ => _ end) = _ => destruct x; try discriminate end. inversion H; reflexivity.
  - destruct (from_slice as_dsiready pt) as [[]| |]; cbn [bind map_err] in RP; inversion RP; subst m. cbn [ow_handle] in H. unfold h_siready in H.
    destruct (od_proven (ses_data s)); inversion H; reflexivity.
  - destruct (from_slice as_done pt) as [n| |]; cbn [bind map_err] in RP; inversion RP; subst m. cbn [ow_handle] in H. unfold h_done in H.
    repeat match type of H with (match ?x with _ => _ end) = _ => destruct x; try discriminate end; inversion H; reflexivity.
Qed.
(** A round *)
Lemma round_made w s m e w' d ks reply body : parse_request A sv TO2DeviceServiceInfo s body = PMsg m ->
  ow_handle c chk ko cf be TO2DeviceServiceInfo w s m e = (w', HReply d ks reply) ->
  exists pt more l more' fin out gt g k, ek_decrypt A (keys_of s) body = Ok pt /\ from_slice as_dsi pt = Ok (more, l) /\
    od_guid (ses_data s) = Some gt /\ guid_parse gt = Some g /\ guid_text g = Some k /\
    perform_service_info (oe_api e k) (loops (ses_data s)) l = Some (more', fin, out) /\ reply = enc (VArr [VBool more'; VBool fin; silist_val out]) /\
    loops (ses_data s) <= 1000 /\ loops d = loops (ses_data s) + 1 /\ od_proven (ses_data s) = true.
Proof.
  intros P H. destruct (ow_opened c chk ko cf be A _ _ _ _ P) as (pt & OP & RP). unfold ow_parse in RP.
  destruct (from_slice as_dsi pt) as [[mo l]| |] eqn:FS; cbn [bind map_err fst snd] in RP; inversion RP; subst m. cbn [ow_handle] in H. unfold h_serviceinfo in H. fold (loops (ses_data s)) in H.
  destruct (od_proven (ses_data s)) eqn:PV; [|discriminate]. cbn [negb] in H. destruct (od_guid (ses_data s)) as [gt|] eqn:OG; [|discriminate]. destruct (guid_parse gt) as [g|] eqn:GP; [|discriminate].
  destruct (guid_text g) as [k|] eqn:GT; [|discriminate]. destruct (MAX_SERVICE_INFO_LOOPS <? loops (ses_data s)) eqn:LT; [discriminate|].
  destruct (perform_service_info (oe_api e k) (loops (ses_data s)) l) as [[[mo' fin] out]|] eqn:PS; inversion H; subst.
  exists pt, mo, l, mo', fin, out, gt, g, k. unfold MAX_SERVICE_INFO_LOOPS in LT. repeat (split; [first [assumption|reflexivity]|]).
  split; [lia|]. split; [unfold loops; reflexivity|reflexivity].
Qed.
Lemma Jr_step l s im om body m w e w' d ks reply : Jr l s -> In (im, om) (sv_routes sv) -> parse_request A sv im s body = PMsg m ->
  sv_handle sv im w s m e = (w', HReply d ks reply) -> Jr (l ++ [(im, om, after om s d ks)]) (after om s d ks).
Proof.
  intros [J1 J2] RI P H. unfold Jr. rewrite filter_app. unfold sv, ow_server in RI, H. cbn [sv_routes sv_handle] in RI, H. cbn [after ses_data].
  assert (D : im = TO2DeviceServiceInfo \/ im <> TO2DeviceServiceInfo) by (destruct im; (left; reflexivity) || (right; discriminate)).
  destruct D as [->|NE].
  - destruct (round_made _ _ _ _ _ _ _ _ _ P H) as (pt & mo & l' & mo' & fin & out & gt & g & k & _ & _ & _ & _ & _ & _ & _ & LE & LD & _).
    change (filter is_round [(TO2DeviceServiceInfo, om, after om s d ks)]) with [(TO2DeviceServiceInfo, om, after om s d ks)]. rewrite nlen_app.
    change (nlen [(TO2DeviceServiceInfo, om, after om s d ks)]) with 1. split; lia.
  - assert (R : filter is_round [(im, om, after om s d ks)] = []).
    { cbn [filter]. unfold is_round. cbn [fst]. destruct im; try reflexivity. congruence. }
    rewrite R, app_nil_r. unfold loops. rewrite (loops_kept _ _ _ _ _ _ _ _ _ _ _ RI P NE H). split; [exact J1|exact J2].
Qed.
Lemma rounds_run l now w0 y o : NoDup (new_ids l) -> sys_run A idt sv (sys_init now w0) (sequential l) = (y, o) ->
  forall pre post, o = pre ++ post -> forall id, Jr (stored_of id pre) (last_session sv id pre).
Proof. apply (seq_principle A idt sv (ow_routes_ok c chk ko cf be) Jr); [split; [reflexivity|vm_compute; discriminate]|exact Jr_step]. Qed.

Theorem rounds_bounded l now w0 y o : NoDup (new_ids l) -> sys_run A idt sv (sys_init now w0) (sequential l) = (y, o) -> forall id, rounds id o <= 1001.
Proof. intros ND R id. unfold rounds. apply (rounds_run _ _ _ _ _ ND R o []). symmetry. apply app_nil_r. Qed.
Theorem round_answer l now w0 y o : NoDup (new_ids l) -> sys_run A idt sv (sys_init now w0) (sequential l) = (y, o) ->
  forall pre b tok post, o = pre ++ Sent (Answer TO2OwnerServiceInfo b tok) :: post ->
  exists p1 id s body m w e s' nonce reply, pre = p1 ++ [Ran id TO2DeviceServiceInfo s body m w e; Stored id TO2DeviceServiceInfo TO2OwnerServiceInfo s'] /\
    ek_encrypt A (keys_of s') nonce reply = Ok b /\ rounds id p1 <= 1000 /\
    exists pt more msg gt g k more' fin out, ek_decrypt A (keys_of s) body = Ok pt /\ from_slice as_dsi pt = Ok (more, msg) /\
      od_guid (ses_data s) = Some gt /\ guid_parse gt = Some g /\ guid_text g = Some k /\
      perform_service_info (oe_api e k) (rounds id p1) msg = Some (more', fin, out) /\ reply = enc (VArr [VBool more'; VBool fin; silist_val out]) /\ od_proven (ses_data s) = true.
Proof.
  intros ND R pre b tok post EQ. pose proof (seq_run A idt sv (ow_routes_ok c chk ko cf be) l now w0 y o ND R) as AO.
  pose proof (AO _ _ _ EQ) as PX. cbn in PX. destruct PX as (p1 & id & im & s & body & m & w & e & w' & d & ks & reply & nonce & EP & RI & HD & EN).
  assert (im = TO2DeviceServiceInfo) as -> by (unfold sv, ow_server in RI; cbn [sv_routes] in RI; destruct RI as [RI|[RI|[RI|[RI|[RI|[RI|[]]]]]]]; inversion RI; reflexivity).
  rewrite EP, <- app_assoc in EQ. cbn [app] in EQ. pose proof (AO _ _ _ EQ) as PR. cbn in PR. destruct PR as (LS & P & _).
  pose proof (rounds_run _ _ _ _ _ ND R p1 _ EQ id) as [J _]. replace (last_session sv id p1) with s in J by exact LS. fold (rounds id p1) in J.
  destruct (round_made _ _ _ _ _ _ _ _ _ P HD) as (pt & mo & l' & mo' & fin & out & gt & g & k & X1 & X2 & X3 & X4 & X5 & X6 & X7 & LE & LD & PV).
  rewrite J in X6, LE. exists p1, id, s, body, m, w, e, (after TO2OwnerServiceInfo s d ks), nonce, reply. split; [exact EP|]. split; [exact EN|]. split; [exact LE|].
  exists pt, mo, l', gt, g, k, mo', fin, out. auto 12.
Qed.
End rounds.
