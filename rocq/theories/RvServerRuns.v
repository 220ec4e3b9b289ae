(** Runs of the rendezvous server: invariants. *)
From Verif Require Import Base BaseFacts Text Assoc RvModel StoreModel StoreSpec StoreRun StoreProofs StoreProofs2 Hex Backend BackendSpec BackendProofs
  CborModel ValueModel ValueProofs TypesModel CryptoSpec TypesProofs VoucherModel
  VoucherSpec VoucherProofs VoucherProofs2 ChainSpec ChainProofs DecFacts CoseFacts MsgModel SessionModel SessionSpec SessionProofs SessionProofs2 RvServerProofs RvServerModel RvServerSpec.
From Coq Require Import ZifyBool ZifyNat ZifyN.
Local Open Scope N_scope.
Local Opaque dec_top.

(** * Runs *)
Lemma hellorv_guid_ok body g sg : bytes_ok body -> from_slice as_hellorv body = Ok (HelloRV g sg) -> bytes_ok g /\ nlen g = 16.
Proof.
  intros B F. apply from_slice_ok in F. destruct F as (v & D & A). pose proof (fields_octets _ (dec_top_octets _ _ B D)) as O.
  unfold as_hellorv in A. destruct (as_fields v) as [|x [|y [|z l]]]; try discriminate. inversion O as [|? ? OX _]; subst.
  destruct (as_bstr16 x) as [g'|] eqn:E; [|discriminate]. destruct (as_siginfo y); inversion A; subst. split; [eapply bstr16_ok; eassumption|].
  unfold as_bstr16 in E. destruct (as_bytebuf x); [|discriminate]. destruct (N.eqb_spec (nlen b) 16); inversion E; subst; assumption.
Qed.

Section runs.
Context (c : crypto) (chk : bool) (kf : keyfns) (cf : rvconf) {W : Type} (be : backend item W) (keeps : W -> key -> item -> Prop).
Context (SL : store_laws be (item_codec c chk) keeps (fun _ _ => True)) (KF : keyfns_ok c kf) (w0 : W) (A : aead) (idt : str -> option str).
Let sv := rv_server c chk kf cf be.
Let obs := obs (W:=W) (D:=rvdata) (M:=rvmsg) (E:=rvenv).

Definition IWr (os : list obs) (w : W) : Prop := forall k it, plain_key k -> keeps w k it -> keeps w0 k it \/ registered c chk cf os k it.
Definition IDr (os : list obs) (id : str) (s : session rvdata) : Prop :=
  ses_keys s = None /\
  (forall t, sd_nonce3 (ses_data s) = Some t -> exists n, t = nonce_text n /\ bytes_ok n /\ nlen n = 16 /\ gave_nonce3 os id n) /\
  (forall t, sd_nonce4 (ses_data s) = Some t -> exists n g k, t = nonce_text n /\ bytes_ok n /\ nlen n = 16 /\ sd_guid (ses_data s) = Some k /\
     guid_text g = Some k /\ bytes_ok g /\ asked_for os id g n).
Lemma gave_app os o id n : gave_nonce3 os id n -> gave_nonce3 (W:=W) (os ++ o) id n.
Proof. intros (s & b & m & w & e & I & E). exists s, b, m, w, e. split; [apply in_or_app; auto|exact E]. Qed.
Lemma asked_app os o id g n : asked_for os id g n -> asked_for (W:=W) (os ++ o) id g n.
Proof. intros (s & b & sg & m & w & e & I & E). exists s, b, sg, m, w, e. split; [apply in_or_app; auto|exact E]. Qed.
Lemma registered_app os o k it : registered c chk cf os k it -> registered (W:=W) c chk cf (os ++ o) k it.
Proof.
  intros (t & wait & pre & id & s & b & m & w & e & post & n & g & -> & H). exists t, wait, pre, id, s, b, m, w, e, (post ++ o), n, g.
  split; [rewrite <- app_assoc; reflexivity|exact H].
Qed.
Lemma IWr_app os o w : IWr os w -> IWr (os ++ o) w.
Proof. intros H k it PK KP. destruct (H k it PK KP) as [X|X]; [auto|]. right. apply registered_app. exact X. Qed.
Lemma IDr_app os o id s : IDr os id s -> IDr (os ++ o) id s.
Proof.
  intros (H1 & H2 & H3). split; [exact H1|]. split.
  - intros t E. destruct (H2 t E) as (n & X1 & X2 & X3 & X4). exists n. repeat (split; [assumption|]). apply gave_app. exact X4.
  - intros t E. destruct (H3 t E) as (n & g & k & X1 & X2 & X3 & X4 & X5 & X6 & X7). exists n, g, k. repeat (split; [assumption|]). apply asked_app. exact X7.
Qed.
Lemma IWr_forget os w w' : forgets keeps w w' -> IWr os w -> IWr os w'.
Proof. intros F H k it PK KP. apply H; [exact PK|]. apply F; assumption. Qed.
Lemma IDr_data os id s last : IDr os id s -> IDr os id (Ses last (ses_keys s) (ses_data s)).
Proof. intros H. exact H. Qed.

(** What the request was, in a session without keys *)
Lemma rv_plain os id im s body m : IDr os id s -> parse_request A sv im s body = PMsg m -> rv_parse chk im body = Ok m.
Proof.
  intros (K & _) P. unfold parse_request in P. destruct (negb _); [discriminate|]. destruct (enc_violated _ _); [discriminate|].
  unfold keys_of in P. rewrite K in P. cbn [ek_decrypt ek_suite unencrypted] in P. cbn [sv_parse rv_server sv] in P.
  unfold sv, rv_server in P. cbn [sv_parse] in P. destruct (rv_parse chk im body); inversion P; reflexivity.
Qed.

(** The parts of [h_ownersign] *)
Lemma ownersign_steps w s m e w' r : h_ownersign c chk kf cf be w s m e = (w', r) ->
  (w' = w /\ forall d ks b, r <> HReply d ks b) \/
  exists correct g it wait k w1, sd_nonce3 (ses_data s) = Some correct /\ ownersign_check c chk kf cf correct m = Ok (g, it, wait) /\ guid_text g = Some k /\
    ((exists r1, b_store be w k it = (w', r1) /\ (r1 = Ok tt -> e_fault e = MetaFails) /\ forall d ks b, r <> HReply d ks b) \/
     (b_store be w k it = (w1, Ok tt) /\ e_fault e <> MetaFails /\ exists r2, b_meta be (e_now e) w1 k Ttl (MDur wait) = (w', r2) /\
       match r with HReply d ks b => r2 = Ok tt /\ d = ses_data s /\ ks = None /\ b = enc (VArr [VInt (Z.of_N wait)]) | _ => r2 <> Ok tt end)).
Proof.
  intros H. unfold h_ownersign in H. destruct (sd_nonce3 (ses_data s)) as [correct|]; [|inversion H; subst; left; split; [reflexivity|discriminate]].
  destruct (ownersign_check c chk kf cf correct m) as [[[g it] wait]| |] eqn:C; [|inversion H; subst; left; split; [reflexivity|discriminate]|inversion H; subst; left; split; [reflexivity|discriminate]].
  destruct (guid_text g) as [k|] eqn:G; [|inversion H; subst; left; split; [reflexivity|discriminate]].
  destruct (e_fault e) eqn:FA; try (inversion H; subst; left; split; [reflexivity|discriminate]; fail).
  all: destruct (b_store be w k it) as [w1 r1] eqn:S; right; exists correct, g, it, wait, k, w1; split; [reflexivity|]; split; [exact C|]; split; [exact G|].
  all: destruct r1 as [[]| |]; [|left; eexists; inversion H; subst; split; [exact S|]; split; [discriminate|discriminate]|left; eexists; inversion H; subst; split; [exact S|]; split; [discriminate|discriminate]].
  3:{ left. exists (Ok tt). inversion H; subst. split; [exact S|]. split; [reflexivity|discriminate]. }
  all: right; split; [exact S|]; split; [discriminate|]; destruct (b_meta be (e_now e) w1 k Ttl (MDur wait)) as [w2 r2] eqn:M; exists r2.
  all: destruct r2 as [[]| |]; inversion H; subst; (split; [reflexivity|]); try discriminate; repeat split.
Qed.

Lemma rv_step os id im om s body m w e w' r : IWr os w -> IDr os id s -> In (im, om) (sv_routes sv) ->
  parse_request A sv im s body = PMsg m -> nlen body <= MAX_BODY -> request_ok body e -> sv_handle sv im w s m e = (w', r) ->
  let os' := os ++ [Ran id im s body m w e] in
  IWr os' w' /\ match r with HReply d ks reply => IDr os' id (Ses (Some om) (match ks with Some _ => ks | None => ses_keys s end) d) | _ => True end.
Proof.
  intros HW HD RI P LB (BB & BN & LN & NW) H. cbn zeta. pose proof (rv_plain _ _ _ _ _ _ HD P) as RP. clear P.
  unfold sv, rv_server in RI, H. cbn [sv_routes sv_handle] in RI, H. unfold rv_routes in RI.
  assert (HW' := IWr_app os [Ran id im s body m w e] w HW). assert (HD' := IDr_app os [Ran id im s body m w e] id s HD).
  destruct RI as [RI|[RI|[RI|[RI|[]]]]]; inversion RI; subst im om; clear RI; unfold rv_parse in RP.
  - (* Hello *) destruct (from_slice as_unit_struct body) as [[]| |]; cbn [bind map_err] in RP; inversion RP; subst m. cbn [rv_handle] in H. unfold h_hello in H.
    inversion H; subst; clear H. split; [exact HW'|]. destruct HD' as (K & H3 & H4). split; [exact K|]. cbn [ses_data sd_nonce3 sd_nonce4 sd_guid]. split; [|exact H4].
    intros t E. inversion E; subst. exists (e_nonce e). repeat (split; [auto; fail|]). exists s, body, MHello, w', e. split; [apply in_or_app; right; left; reflexivity|reflexivity].
  - (* OwnerSign *) destruct (ownersign_read chk body) as [m0| |] eqn:RD; cbn [bind map_err] in RP; inversion RP; subst m. cbn [rv_handle] in H.
    destruct (ownersign_steps _ _ _ _ _ _ H) as [(-> & NR)|(correct & g & it & wait & k & w1 & N3 & C & G & X)].
    + split; [exact HW'|]. destruct r as [d ks b| |]; [exfalso; eapply NR; reflexivity|exact Logic.I|exact Logic.I].
    + destruct HD as (_ & HN3 & _). destruct (HN3 _ N3) as (n & -> & BN3 & LN3 & GV).
      destruct (check_registers _ _ _ _ _ _ _ _ _ _ KF BB LB BN3 LN3 RD C) as (asked & RG & WT & BG & LG & data & IWt & IRd).
      pose proof (guid_text_plain _ _ BG G) as PK.
      assert (REG : registered c chk cf (os ++ [Ran id TO0OwnerSign s body (MOwnerSign m0) w e]) k it).
      { exists (e_now e), asked, os, id, s, body, (MOwnerSign m0), w, e, [], n, g. repeat split; auto. }
      assert (ST : forall wx rx, b_store be w k it = (wx, rx) -> IWr (os ++ [Ran id TO0OwnerSign s body (MOwnerSign m0) w e]) wx).
      { intros wx rx S k' it' PK' KP. destruct (sl_store _ _ _ _ SL _ _ _ _ _ PK Logic.I S _ _ PK' KP) as [X1|(-> & d' & SE & DE)]; [apply HW'; assumption|].
        right. cbn [item_codec ser de] in SE, DE. unfold to_serr in SE. rewrite IWt in SE. cbn [map_err] in SE. inversion SE; subst d'. rewrite IRd in DE. inversion DE; subst it'. exact REG. }
      destruct X as [(r1 & S & _ & NR)|(S & _ & r2 & M & X)].
      * split; [eapply ST; exact S|]. destruct r as [d ks b| |]; [exfalso; eapply NR; reflexivity|exact Logic.I|exact Logic.I].
      * split; [|destruct r as [d ks b| |]; [|exact Logic.I|exact Logic.I]; destruct X as (_ & -> & -> & _); exact HD'].
        eapply IWr_forget; [|eapply ST; exact S]. eapply (sl_meta _ _ _ _ SL); [|exact M]. exact PK.
  - (* HelloRV *) destruct (from_slice as_hellorv body) as [[g sg]| |] eqn:RD; cbn [bind map_err] in RP; inversion RP; subst m. cbn [rv_handle] in H. unfold h_hellorv in H.
    cbn [hr_sig hr_guid] in H. destruct (hellorv_guid_ok _ _ _ BB RD) as [BG LG].
    destruct (negb _); [inversion H; subst; split; [exact HW'|exact Logic.I]|]. destruct (negb _); [inversion H; subst; split; [exact HW'|exact Logic.I]|].
    destruct (guid_text g) as [k|] eqn:G; [|inversion H; subst; split; [exact HW'|exact Logic.I]]. pose proof (guid_text_plain _ _ BG G) as PK.
    destruct (match e_fault e with LoadFails => true | _ => false end) eqn:LF;
      [destruct (e_fault e); try discriminate; inversion H; subst; split; [exact HW'|exact Logic.I]|].
    replace (match e_fault e with LoadFails => (w, HReject InternalServerError) | _ =>
        match b_load be (e_now e) w k with (w1, Err _) => (w1, HReject InternalServerError) | (w1, Panic _) => (w1, HPanic) | (w1, Ok None) => (w1, HReject ResourceNotFound)
        | (w1, Ok (Some _)) => (w1, HReply (RvData (sd_nonce3 (ses_data s)) (Some (nonce_text (e_nonce e))) (Some k)) None (enc (VArr [bstr_val (e_nonce e); siginfo_val (fst sg, [])]))) end end)
      with (match b_load be (e_now e) w k with (w1, Err _) => (w1, HReject InternalServerError) | (w1, Panic _) => (w1, HPanic) | (w1, Ok None) => (w1, HReject ResourceNotFound)
        | (w1, Ok (Some _)) => (w1, HReply (RvData (sd_nonce3 (ses_data s)) (Some (nonce_text (e_nonce e))) (Some k)) None (enc (VArr [bstr_val (e_nonce e); siginfo_val (fst sg, [])]))) end) in H
      by (destruct (e_fault e); try discriminate; reflexivity).
    destruct (b_load be (e_now e) w k) as [w1 rl] eqn:L. destruct (sl_load _ _ _ _ SL _ _ _ _ _ PK L) as [FG _].
    destruct rl as [[it|]| |]; inversion H; subst; (split; [eapply IWr_forget; [exact FG|exact HW']|]); try exact Logic.I.
    destruct HD' as (K & H3 & _). split; [exact K|]. cbn [ses_data sd_nonce3 sd_nonce4 sd_guid]. split; [exact H3|].
    intros t E. inversion E; subst. exists (e_nonce e), g, k. repeat (split; [auto; fail|]).
    exists s, body, sg, (MHelloRV (HelloRV g sg)), w, e. split; [apply in_or_app; right; left; reflexivity|]. split; [exact RD|reflexivity].
  - (* ProveToRV *) destruct (cose_deserialize chk body) as [tk| |] eqn:RD; cbn [bind map_err] in RP; inversion RP; subst m. cbn [rv_handle] in H. unfold h_prove in H.
    destruct (sd_nonce4 (ses_data s)) as [nt|] eqn:N4; [|inversion H; subst; split; [exact HW'|exact Logic.I]].
    destruct HD as (_ & _ & HN4). destruct (HN4 _ N4) as (n & g & k & -> & BN4 & LN4 & SG & GT & BG & ASK). rewrite (nonce_round _ BN4 LN4), SG in H.
    rewrite (guid_round _ _ BG GT), GT in H. pose proof (guid_text_plain _ _ BG GT) as PK.
    destruct (b_load be (e_now e) w k) as [w1 rl] eqn:L. destruct (sl_load _ _ _ _ SL _ _ _ _ _ PK L) as [FG _].
    assert (F1 := IWr_forget _ _ _ FG HW').
    repeat match type of H with (match ?x with _ => _ end) = _ => destruct x; try (inversion H; subst; split; [assumption|exact Logic.I]) end.
    all: inversion H; subst; (split; [assumption|exact HD']).
Qed.

Lemma rv_routes_ok : routes_ok sv.
Proof. unfold routes_ok, sv, rv_server. cbn [sv_routes]. repeat constructor. Qed.
Lemma IDr_new os id : IDr os id (Ses None None (sv_new sv)).
Proof. split; [reflexivity|]. split; intros t E; discriminate. Qed.

Lemma events_ok es : Forall (event_ok keeps) es ->
  Forall (event_allowed (fun f => forall w, forgets keeps w (f w)) request_ok) es.
Proof. intros H. eapply Forall_impl; [|exact H]. intros [rq|n ok|n ok|n|d| |f]; cbn; auto. Qed.

Definition rv_principle now es y o :=
  principle A idt sv rv_routes_ok IWr IDr (fun f => forall w, forgets keeps w (f w)) request_ok IWr_app IDr_app IDr_new rv_step
    (fun os f w F H => IWr_forget os w (f w) (F w) H) now w0 es y o.

Lemma prove_reply w s tk e w' d ks b g n k : sd_nonce4 (ses_data s) = Some (nonce_text n) -> bytes_ok n -> nlen n = 16 -> sd_guid (ses_data s) = Some k -> guid_text g = Some k -> bytes_ok g ->
  h_prove c be w s tk e = (w', HReply d ks b) ->
  exists it t w1, b_load be (e_now e) w k = (w1, Ok (Some it)) /\ get_eat c tk (pk_key (si_key it)) = Ok t /\ eat_nonce t = n /\ cose_serialize (si_to1d it) = Ok b /\
    d = ses_data s /\ ks = None /\ w' = w1.
Proof.
  intros N4 BN LN SG GT BG H. unfold h_prove in H. rewrite N4, (nonce_round _ BN LN), SG, (guid_round _ _ BG GT), GT in H.
  assert (H' : match b_load be (e_now e) w k with
              | (w1, Err _) => (w1, HReject InvalidMessageError)
              | (w1, Panic _) => (w1, HPanic)
              | (w1, Ok None) => (w1, HReject ResourceNotFound)
              | (w1, Ok (Some it)) =>
                match get_eat c tk (pk_key (si_key it)) with
                | Err _ => (w1, HReject InvalidMessageError)
                | Panic _ => (w1, HPanic)
                | Ok t =>
                  match @nonce_eq unit n (eat_nonce t) with
                  | Ok true =>
                    match cose_serialize (si_to1d it) with
                    | Ok b => (w1, HReply (ses_data s) None b)
                    | Err _ => (w1, HReject InternalServerError)
                    | Panic _ => (w1, HPanic)
                    end
                  | Ok false => (w1, HReject InvalidMessageError)
                  | _ => (w1, HPanic)
                  end
                end
              end = (w', HReply d ks b)) by (destruct (e_fault e); try exact H; discriminate).
  clear H. destruct (b_load be (e_now e) w k) as [w1 [[it|]| |]]; try discriminate. destruct (get_eat c tk (pk_key (si_key it))) as [t| |] eqn:GE; try discriminate.
  destruct (@nonce_eq unit n (eat_nonce t)) as [[|]| |] eqn:NE; try discriminate. apply nonce_eq_ok in NE. destruct (cose_serialize (si_to1d it)) as [b'| |] eqn:CS; try discriminate.
  inversion H'; subst. exists it, t, w'. repeat split; auto.
Qed.
Lemma eat_proves body tk key t : cose_deserialize chk body = Ok tk -> get_eat c tk key = Ok t -> token_proves c chk body key (eat_nonce t).
Proof.
  intros RD GE. unfold get_eat in GE. destruct (cose_get_payload c (from_slice as_claims) tk key) as [m| |] eqn:GP; cbn [bind] in GE; try discriminate.
  apply cose_payload_signed in GP. destruct GP as [SG PL]. unfold eat_of_claims in GE. change EAT_NONCE with EAT_NONCE_KEY in GE.
  destruct (hdr_get EAT_NONCE_KEY m) as [v|] eqn:HN; [|discriminate]. destruct (as_bstr16 v) as [n|] eqn:BS; cbn [of_option bind] in GE; [|discriminate].
  exists tk, m, v. assert (eat_nonce t = n) as ->; [|auto].
  destruct (hdr_get EAT_UEID m) as [u|]; [|discriminate]. destruct (as_bytebuf u) as [ub|]; cbn [of_option bind] in GE; [|discriminate].
  destruct (from_ueid ub); inversion GE; reflexivity.
Qed.

(** Where answers come from *)
Lemma handle_nokeys im w s m e w' d ks b : rv_handle c chk kf cf be im w s m e = (w', HReply d ks b) -> ks = None.
Proof.
  intros H. destruct m as [|m|m|m]; cbn [rv_handle] in H; [unfold h_hello in H; inversion H; reflexivity|unfold h_ownersign in H|unfold h_hellorv in H|unfold h_prove in H].
  all: repeat match type of H with (match ?x with _ => _ end) = _ => destruct x; try discriminate end; inversion H; reflexivity.
Qed.
Lemma answer_made now es y o : IWr [] w0 -> Forall (event_ok keeps) es -> sys_run A idt sv (sys_init now w0) es = (y, o) ->
  forall pre om b tok post, o = pre ++ Sent (Answer om b tok) :: post ->
  exists p1 id im s body m w e p2 w' d, pre = p1 ++ Ran id im s body m w e :: p2 /\ In (im, om) rv_routes /\
    rv_handle c chk kf cf be im w s m e = (w', HReply d None b) /\
    IWr p1 w /\ IDr p1 id s /\ rv_parse chk im body = Ok m /\ nlen body <= MAX_BODY /\ request_ok body e.
Proof.
  intros H0 EA R pre om b tok post EQ. pose proof (rv_principle now es y o H0 (events_ok _ EA) R) as (_ & PR & _).
  assert (SO : seen_ok A sv ([] ++ pre) (Sent (Answer om b tok))) by (eapply (seen_run A idt sv rv_routes_ok); [|exact R|exact EQ]; constructor).
  cbn in SO. destruct SO as (p & (s & body & m & w & e & w' & d & ks & IR & RI & HD & PS & _) & _ & <- & RS).
  destruct (in_split _ _ IR) as (p1 & p2 & EP). subst pre. rewrite <- app_assoc in EQ. cbn [app] in EQ.
  destruct (PR _ _ _ _ _ _ _ _ _ EQ) as (IW1 & ID1 & _ & PA & LB & RK). unfold sv, rv_server in HD, RI. cbn [sv_handle sv_routes] in HD, RI.
  pose proof (handle_nokeys _ _ _ _ _ _ _ _ _ HD) as ->. exists p1, (pd_id p), (pd_im p), s, body, m, w, e, p2, w', d.
  split; [reflexivity|]. split; [exact RI|].
  assert (pd_reply p = b) as EB.
  { unfold respond in RS. destruct (enc_violated _ _); [discriminate|]. rewrite PS in RS. destruct ID1 as (K & _). unfold keys_of in RS. cbn [ses_keys] in RS. rewrite K in RS.
    cbn [ek_encrypt ek_suite unencrypted] in RS. inversion RS; reflexivity. }
  rewrite EB in HD. repeat (split; [assumption|]). split; [eapply rv_plain; eassumption|]. auto.
Qed.

Theorem released now es y o : IWr [] w0 -> Forall (event_ok keeps) es -> sys_run A idt sv (sys_init now w0) es = (y, o) ->
  forall pre b tok post, o = pre ++ Sent (Answer TO1RVRedirect b tok) :: post ->
  exists p1 id s body m w e p2 g n k it, pre = p1 ++ Ran id TO1ProveToRV s body m w e :: p2 /\ asked_for p1 id g n /\ guid_text g = Some k /\
    snd (b_load be (e_now e) w k) = Ok (Some it) /\ (keeps w0 k it \/ registered c chk cf p1 k it) /\
    token_proves c chk body (pk_key (si_key it)) n /\ cose_serialize (si_to1d it) = Ok b.
Proof.
  intros H0 EA R pre b tok post EQ. destruct (answer_made _ _ _ _ H0 EA R _ _ _ _ _ EQ) as (p1 & id & im & s & body & m & w & e & p2 & w' & d & -> & RI & HD & IW1 & ID1 & RP & _ & RK).
  assert (im = TO1ProveToRV) as -> by (destruct RI as [X|[X|[X|[X|[]]]]]; inversion X; reflexivity).
  unfold rv_parse in RP. destruct (cose_deserialize chk body) as [tk| |] eqn:RD; cbn [bind map_err] in RP; inversion RP; subst m. cbn [rv_handle] in HD.
  destruct (sd_nonce4 (ses_data s)) as [nt|] eqn:N4; [|unfold h_prove in HD; rewrite N4 in HD; discriminate].
  destruct ID1 as (_ & _ & HN4). destruct (HN4 _ N4) as (n & g & k & -> & BN4 & LN4 & SG & GT & BG & ASK).
  destruct (prove_reply _ _ _ _ _ _ _ _ _ _ _ N4 BN4 LN4 SG GT BG HD) as (it & t & w1 & L & GE & NE & CS & _).
  pose proof (guid_text_plain _ _ BG GT) as PK. destruct (sl_load _ _ _ _ SL _ _ _ _ _ PK L) as [_ KP].
  exists p1, id, s, body, (MProveToRV tk), w, e, p2, g, n, k, it. split; [reflexivity|]. split; [exact ASK|]. split; [exact GT|]. split; [rewrite L; reflexivity|].
  split; [apply IW1; [exact PK|]; apply KP; reflexivity|]. split; [rewrite <- NE; eapply eat_proves; eassumption|exact CS].
Qed.

Theorem told now es y o : IWr [] w0 -> Forall (event_ok keeps) es -> sys_run A idt sv (sys_init now w0) es = (y, o) ->
  forall pre b tok post, o = pre ++ Sent (Answer TO0AcceptOwner b tok) :: post ->
  exists k it t asked, registered_at c chk cf pre k it t asked /\ b = enc (VArr [VInt (Z.of_N (N.min asked (cf_max cf)))]).
Proof.
  intros H0 EA R pre b tok post EQ. destruct (answer_made _ _ _ _ H0 EA R _ _ _ _ _ EQ) as (p1 & id & im & s & body & m & w & e & p2 & w' & d & -> & RI & HD & IW1 & ID1 & RP & LB & RK).
  assert (im = TO0OwnerSign) as -> by (destruct RI as [X|[X|[X|[X|[]]]]]; inversion X; reflexivity).
  unfold rv_parse in RP. destruct (ownersign_read chk body) as [m0| |] eqn:RD; cbn [bind map_err] in RP; inversion RP; subst m. cbn [rv_handle] in HD.
  destruct ID1 as (_ & HN3 & _). destruct RK as (BB & _).
  destruct (ownersign_steps _ _ _ _ _ _ HD) as [(_ & NR)|(correct & g & it & wait & k & w1 & N3 & C & G & X)]; [exfalso; eapply NR; reflexivity|].
  destruct (HN3 _ N3) as (n & -> & BN3 & LN3 & GV).
  destruct (check_registers _ _ _ _ _ _ _ _ _ _ KF BB LB BN3 LN3 RD C) as (asked & RG & WT & BG & LG & _).
  exists k, it, (e_now e), asked. split.
  - exists p1, id, s, body, (MOwnerSign m0), w, e, p2, n, g. repeat split; auto.
  - destruct X as [(r1 & _ & _ & NR)|(_ & _ & r2 & _ & (_ & _ & _ & EB))]; [exfalso; eapply NR; reflexivity|]. rewrite EB, WT. reflexivity.
Qed.
End runs.

Lemma laws_weaken {V W} (be : backend V W) cd keeps (P Q : key -> V -> Prop) : (forall k v, Q k v -> P k v) -> store_laws be cd keeps P -> store_laws be cd keeps Q.
Proof. intros H [A B C D]. constructor; auto. intros. eapply B; eauto. Qed.
Definition rv_dir c chk := dir_backend (item_codec c chk).
Definition rv_db c chk := db_backend (item_codec c chk) (fun _ => []) Rendezvous.
Lemma rv_db_laws c chk : store_laws (rv_db c chk) (item_codec c chk) (db_keeps (item_codec c chk)) (fun _ _ => True).
Proof. apply (laws_weaken _ _ _ (fun k v => Rendezvous = Rendezvous \/ (fun _ : item => []) v = k)); [auto|apply db_laws]. Qed.

(** * Expiry with the directory store *)
Section timing.
Context (c : crypto) (chk : bool) (kf : keyfns) (cf : rvconf) (KF : keyfns_ok c kf) (A : aead) (idt : str -> option str).
Let cd := item_codec c chk.
Let be := rv_dir c chk.
Let sv := rv_server c chk kf cf be.
Let obs := obs (W:=dir) (D:=rvdata) (M:=rvmsg) (E:=rvenv).
Definition file_timed (os : list obs) (n : name) (f : file) : Prop :=
  exists k it t asked, n = get_path k /\ plain_key k /\ de cd (f_data f) = Some it /\ registered_at c chk cf os k it t asked /\
    aget (xname Ttl) (f_xattr f) = Some (le_enc 8 (t / second + N.min asked (cf_max cf))) /\ t / second + N.min asked (cf_max cf) < 2 ^ 63.
Definition IWt (os : list obs) (d : dir) : Prop := forall n f, In (n, f) d -> file_timed os n f.
Lemma registered_at_app os o k it t asked : registered_at c chk cf os k it t asked -> registered_at c chk cf (os ++ o : list obs) k it t asked.
Proof.
  intros (pre & id & s & b & m & w & e & post & n & g & -> & H). exists pre, id, s, b, m, w, e, (post ++ o), n, g.
  split; [rewrite <- app_assoc; reflexivity|exact H].
Qed.
Lemma IWt_app os o w : IWt os w -> IWt (os ++ o) w.
Proof. intros H n f I. destruct (H n f I) as (k & it & t & asked & X1 & X2 & X3 & X4 & X5). exists k, it, t, asked. repeat (split; [assumption|]). split; [apply registered_at_app; exact X4|exact X5]. Qed.
Lemma IWt_drop os (w w' : dir) : (forall n f, In (n, f) w' -> In (n, f) w) -> IWt os w -> IWt os w'.
Proof. intros D H n f I. apply H. apply D. exact I. Qed.

Lemma u32_bound v n : as_u32 v = Some n -> n < 4294967296.
Proof. unfold as_u32. destruct (as_int _ _ v) eqn:E; [|discriminate]. intros X. inversion X; subst. unfold as_int in E. destruct (untag v); try discriminate. destruct (_ && _) eqn:B; inversion E; subst. lia. Qed.
Lemma asked_bound body n g key to1d asked : registers c chk cf body n g key to1d asked -> asked < 4294967296.
Proof.
  intros (to0d & v & ps & addrs & h & _ & (tag & r0 & r1 & r2 & rest & _ & _ & U & _) & _). apply from_slice_ok in U. destruct U as (x & _ & U).
  eapply u32_bound; exact U.
Qed.

Lemma dir_load_drops now (d : dir) k n f : In (n, f) (fst (b_load be now d k)) -> In (n, f) d.
Proof.
  unfold be, rv_dir. cbn [b_load dir_backend]. unfold dir_load. destruct (aget (get_path k) d) as [f0|]; [|auto].
  destruct (aget (xname Ttl) (f_xattr f0)) as [t|]; [|auto]. destruct (ttl_from_disk t) as [x| |]; [|auto|auto].
  destruct (x <? now); cbn [fst]; [apply in_adel|auto].
Qed.

Definition okreq_t (body : bytes) (e : rvenv) : Prop := request_ok body e /\ e_fault e <> MetaFails.
Lemma timed_step os id im om s body m w e w' r : IWt os w -> IDr os id s -> In (im, om) (sv_routes sv) ->
  parse_request A sv im s body = PMsg m -> nlen body <= MAX_BODY -> okreq_t body e -> sv_handle sv im w s m e = (w', r) ->
  let os' := os ++ [Ran id im s body m w e] in
  IWt os' w' /\ match r with HReply d ks reply => IDr os' id (Ses (Some om) (match ks with Some _ => ks | None => ses_keys s end) d) | _ => True end.
Proof.
  intros HW HD RI P LB (RK & NF) H. cbn zeta.

  destruct (rv_step c chk kf cf be (dir_keeps cd) (dir_laws cd) KF w A os id im om s body m w e w' r ltac:(intros k it _ KP; left; exact KP) HD RI P LB RK H) as [_ HD'].
  split; [|exact HD']. clear HD'. pose proof (rv_plain c chk kf cf be A os id im s body m HD P) as RP. clear P.
  apply (IWt_app os [Ran id im s body m w e]) in HW. unfold sv, rv_server in RI, H. cbn [sv_routes sv_handle] in RI, H.
  assert (LD : forall now k w1 r1, b_load be now w k = (w1, r1) -> IWt (os ++ [Ran id im s body m w e]) w1).
  { intros now k w1 r1 L. eapply IWt_drop; [|exact HW]. intros n f I. eapply dir_load_drops. rewrite L. exact I. }
  destruct RI as [RI|[RI|[RI|[RI|[]]]]]; inversion RI; subst im om; clear RI; unfold rv_parse in RP.
  - destruct (from_slice as_unit_struct body) as [[]| |]; cbn [bind map_err] in RP; inversion RP; subst m. cbn [rv_handle] in H. unfold h_hello in H. inversion H; subst. exact HW.
  - destruct (ownersign_read chk body) as [m0| |] eqn:RD; cbn [bind map_err] in RP; inversion RP; subst m. cbn [rv_handle] in H.
    destruct RK as (BB & BN & LN & NW). destruct HD as (_ & HN3 & _).
    destruct (ownersign_steps _ _ _ _ _ _ _ _ _ _ _ H) as [(-> & _)|(correct & g & it & wait & k & w1 & N3 & C & G & X)]; [exact HW|].
    destruct (HN3 _ N3) as (n & -> & BN3 & LN3 & GV).
    destruct (check_registers _ _ _ _ _ _ _ _ _ _ KF BB LB BN3 LN3 RD C) as (asked & RG & WT & BG & LG & data & IWt' & IRd).
    pose proof (guid_text_plain _ _ BG G) as PK.
    assert (SE : ser cd it = Ok data) by (cbn [cd item_codec ser]; unfold to_serr; rewrite IWt'; reflexivity).
    assert (ST : b_store be w k it = (fs_rename (tmp_of (get_path k)) (get_path k) (fs_write (tmp_of (get_path k)) data (fs_create (tmp_of (get_path k)) w)), Ok tt)).
    { unfold be, rv_dir. cbn [b_store dir_backend]. unfold dir_store. change (item_codec c chk) with cd. rewrite SE. reflexivity. }
    rewrite rename_write, adel_aset in ST.
    destruct X as [(r1 & S & X & _)|(S & _ & r2 & M & _)]; rewrite ST in S; inversion S; subst; [exfalso; apply NF, X; reflexivity|]. clear S ST.
    unfold be, rv_dir in M. cbn [b_meta dir_backend] in M. unfold dir_set_meta in M. rewrite aget_aset_eq in M. inversion M; subst; clear M. cbn [f_data f_xattr]. rewrite aset_aset.
    intros n' f' I'. apply in_aset in I'. destruct I' as [I'|I']; [|apply HW; eapply in_adel; exact I']. inversion I'; subst n' f'; clear I'.
    exists k, it, (e_now e), asked. split; [reflexivity|]. split; [exact PK|]. cbn [f_data f_xattr]. split; [cbn [cd item_codec de]; rewrite IRd; reflexivity|].
    split; [exists os, id, s, body, (MOwnerSign m0), w, e, [], n, g; repeat split; auto|].
    split; [rewrite aget_aset_eq; cbn [to_stored]; rewrite deadline_eq; reflexivity|].
    apply asked_bound in RG. change (2 ^ 62) with 4611686018427387904 in NW. change (2 ^ 63) with 9223372036854775808. lia.
  - destruct (from_slice as_hellorv body) as [[g sg]| |] eqn:RD; cbn [bind map_err] in RP; inversion RP; subst m. cbn [rv_handle] in H. unfold h_hellorv in H.
    repeat match type of H with
    | (match b_load be (e_now e) w ?k with _ => _ end) = _ => let L := fresh "L" in destruct (b_load be (e_now e) w k) eqn:L; apply LD in L
    | (match ?x with _ => _ end) = _ => destruct x
    end; inversion H; subst; assumption.
  - destruct (cose_deserialize chk body) as [tk| |] eqn:RD; cbn [bind map_err] in RP; inversion RP; subst m. cbn [rv_handle] in H. unfold h_prove in H.
    repeat match type of H with
    | (match b_load be (e_now e) w ?k with _ => _ end) = _ => let L := fresh "L" in destruct (b_load be (e_now e) w k) eqn:L; apply LD in L
    | (match ?x with _ => _ end) = _ => destruct x
    end; inversion H; subst; assumption.
Qed.

(** A world change that only removes files *)
Definition removes (f : dir -> dir) : Prop := forall d n x, In (n, x) (f d) -> In (n, x) d.
Lemma maint_removes now : removes (rv_maint be now).
Proof. intros d n x H. unfold rv_maint, be, rv_dir in H. cbn [b_maint dir_backend] in H. eapply maint_in; exact H. Qed.
Definition event_t (ev : event (W:=dir) (E:=rvenv)) : Prop :=
  match ev with EArrive rq => okreq_t (rq_body rq) (rq_env rq) | EWorld f => removes f | _ => True end.

Theorem timed now es y o : Forall event_t es -> sys_run A idt sv (sys_init now []) es = (y, o) ->
  IWt o (y_world y) /\ (forall pre id im s body m w e post, o = pre ++ Ran id im s body m w e :: post -> IWt pre w).
Proof.
  intros EA R.
  assert (PR := principle A idt sv (rv_routes_ok c chk kf cf be) IWt IDr removes okreq_t IWt_app (IDr_app (W:=dir)) (IDr_new c chk kf cf be) timed_step
    (fun os f w F H => IWt_drop os w (f w) (F w) H) now [] es y o).
  destruct PR as (P1 & P2 & _); [intros n f []|eapply Forall_impl; [|exact EA]; intros [rq|n ok|n ok|n|d| |f]; cbn; auto|exact R|].
  split; [exact P1|]. intros pre id im s body m w e post EQ. apply (P2 _ _ _ _ _ _ _ _ _ EQ).
Qed.

Lemma timed_load os d now k it : IWt os d -> plain_key k -> snd (b_load be now d k) = Ok (Some it) ->
  exists t asked, registered_at c chk cf os k it t asked /\ now <= (t / second + N.min asked (cf_max cf)) * second.
Proof.
  intros H PK L. unfold be, rv_dir in L. cbn [b_load dir_backend] in L. unfold dir_load in L. destruct (aget (get_path k) d) as [f|] eqn:G; [|discriminate].
  destruct (H _ _ (aget_in _ _ _ G)) as (k' & it' & t & asked & EN & PK' & D & RG & TT & TB). apply get_path_inj in EN; [|assumption|assumption]. subst k'.
  rewrite TT, (ttl_disk _ TB) in L. change SEC with second in L. destruct (_ * second <? now) eqn:X; [discriminate|]. cbn [snd] in L. change (item_codec c chk) with cd in L. rewrite D in L.
  inversion L; subst it'. exists t, asked. split; [exact RG|lia].
Qed.
Lemma timed_maint os d now k it : IWt os d -> plain_key k -> dir_keeps cd (rv_maint be now d) k it ->
  exists t asked, registered_at c chk cf os k it t asked /\ now < (t / second + N.min asked (cf_max cf)) * second.
Proof.
  intros H PK (f & I & D). unfold rv_maint, be, rv_dir in I. cbn [b_maint dir_backend] in I. unfold dir_maint in I.
  rewrite maint_filter in I.
  - cbn [fst] in I. apply filter_In in I. destruct I as [I FO]. cbn [snd] in FO.
    destruct (H _ _ I) as (k' & it' & t & asked & EN & PK' & D' & RG & TT & TB). apply get_path_inj in EN; [|assumption|assumption]. subst k'.
    unfold file_overdue in FO. rewrite TT, le8 in FO by exact TB. change SEC with second in FO. rewrite D in D'. inversion D'; subst it'. exists t, asked. split; [exact RG|].
    destruct (now <? _) eqn:X in FO; [lia|discriminate].
  - intros n f' I'. destruct (H _ _ I') as (k' & it' & t & asked & _ & _ & _ & _ & TT & TB). unfold ttl_ok. rewrite TT, (ttl_disk _ TB). eauto.
Qed.
End timing.
