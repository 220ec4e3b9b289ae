(** Facts about the HTTP client, alone and with a server. *)
From Verif Require Import Base BaseFacts ValueModel Text Assoc MsgModel SessionModel SessionSpec SessionProofs SessionProofs2 HttpClientModel HttpClientSpec.
From Coq Require Import ZifyBool ZifyNat ZifyN.
Local Open Scope N_scope.

Lemma mtype_eqb_spec a b : mtype_eqb a b = true <-> a = b.
Proof.
  split; [|intros ->; unfold mtype_eqb; apply N.eqb_refl].
  unfold mtype_eqb. intros H. destruct a; destruct b; try reflexivity; discriminate H.
Qed.
Lemma mtype_of_to m : mtype_of_num (mtype_num m) = Some m.
Proof. destruct m; reflexivity. Qed.
Lemma mtype_to_of n m : mtype_of_num n = Some m -> mtype_num m = n.
Proof. unfold mtype_of_num. intros H. apply find_some in H. destruct H as [_ H]. apply N.eqb_eq in H. exact H. Qed.
Lemma parse_u8_num m : parse_u8 (dec_str (mtype_num m)) = Some (mtype_num m).
Proof. destruct m; reflexivity. Qed.

Section client.
Context {M : Type} (A : aead) (parse : mtype -> bytes -> outcome unit M) (kdf : bool).
Notation cstep := (cstep (M:=M)).
Notation srun := (client_run A parse kdf).

(** What one call does. *)
Lemma send_spec c x c' w r : send_request A parse kdf c x = (c', w, r) ->
  hc_last c' = (if attempted (CStep x w r) then Some (cl_sm x) else hc_last c) /\
  hc_keys c' = (match w, cl_new x with Some _, Some k => k | _, _ => hc_keys c end) /\
  (attempted (CStep x w r) = true -> valid_prev (cl_om x) (hc_last c) = true /\ valid_prev (cl_sm x) (Some (cl_om x)) = true) /\
  (forall w', w = Some w' -> attempted (CStep x w r) = true /\ wr_type w' = mtype_num (cl_om x) /\ wr_auth w' = hc_token c /\
     enc_violated (enc_req (cl_om x)) (ek_is_some (hc_keys c)) = false /\
     enc_violated (enc_req (cl_sm x)) (ek_is_some (hc_keys c) || match cl_new x with Some _ => true | None => false end) = false /\
     exists b, cl_body x = Some b /\ ek_encrypt A (hc_keys c) (cl_nonce x) b = Ok (wr_body w')) /\
  (forall m, r = Ok m -> exists w' h s b pt, w = Some w' /\ cl_resp x = Some h /\ hr_success h = true /\ hr_type h = Some (HText s) /\
     parse_u8 s = Some (mtype_num (cl_sm x)) /\ hr_body h = Some b /\ ek_decrypt A (hc_keys c') b = Ok pt /\ parse (cl_sm x) pt = Ok m).
Proof.
  unfold send_request, prepare. intros H.
  destruct (valid_prev (cl_om x) (hc_last c)) eqn:V1; cbn [negb] in H; [|inversion H; subst; cbn; repeat split; discriminate].
  destruct (valid_prev (cl_sm x) (Some (cl_om x))) eqn:V2; cbn [negb] in H; [|inversion H; subst; cbn; repeat split; discriminate].
  cbn [hc_keys hc_last hc_kdf hc_token] in H.
  destruct (enc_violated (enc_req (cl_om x)) (ek_is_some (hc_keys c))) eqn:E1; [inversion H; subst; cbn; repeat split; auto; discriminate|].
  destruct (enc_violated (enc_req (cl_sm x)) _) eqn:E2; [inversion H; subst; cbn; repeat split; auto; discriminate|].
  destruct (cl_body x) as [b|] eqn:B; [|inversion H; subst; cbn; repeat split; auto; discriminate].
  destruct (ek_encrypt A (hc_keys c) (cl_nonce x) b) as [b'|e|p] eqn:EN; [|inversion H; subst; cbn; repeat split; auto; discriminate|inversion H; subst; cbn; repeat split; auto; discriminate].
  set (c1 := HClient (hc_token c) (match cl_new x with Some k => k | None => hc_keys c end) (Some (cl_sm x)) (hc_kdf c)) in *.
  assert (R : exists c2 r2, receive A parse c1 (cl_sm x) (cl_resp x) = (c2, r2) /\ hc_last c2 = Some (cl_sm x) /\ hc_keys c2 = hc_keys c1 /\
     attempted (CStep x w r2) = true /\
     (forall m, r2 = Ok m -> exists h s b pt, cl_resp x = Some h /\ hr_success h = true /\ hr_type h = Some (HText s) /\
     parse_u8 s = Some (mtype_num (cl_sm x)) /\ hr_body h = Some b /\ ek_decrypt A (hc_keys c1) b = Ok pt /\ parse (cl_sm x) pt = Ok m)).
  { clear H. unfold receive. destruct (cl_resp x) as [h|] eqn:RS; [|do 2 eexists; repeat split; discriminate].
    cbn [hc_last hc_keys hc_token hc_kdf].
    destruct (response_type h) as [t|e|p] eqn:RT; [| |do 2 eexists; repeat split; discriminate].
    2:{ do 2 eexists; repeat split; try discriminate. unfold response_type in RT. cbn.
        destruct (hr_type h) as [[s|]|]; [|inversion RT; reflexivity|destruct (hr_success h); inversion RT; reflexivity].
        destruct (parse_u8 s) as [n|]; [|inversion RT; reflexivity]. destruct (mtype_of_num n); inversion RT; reflexivity. }
    assert (T : hr_success h = true -> exists s n, hr_type h = Some (HText s) /\ parse_u8 s = Some n /\ mtype_of_num n = Some t).
    { intros S. unfold response_type in RT. destruct (hr_type h) as [[s|]|]; [|discriminate|rewrite S in RT; discriminate].
      destruct (parse_u8 s) as [n|] eqn:PU; [|discriminate]. destruct (mtype_of_num n) eqn:MN; [|discriminate]. inversion RT; subst. eauto. }
    destruct (hr_auth h) as [[a|]|]; cbn [hc_last hc_keys hc_token hc_kdf]; [|do 2 eexists; repeat split; discriminate|];
    (destruct (mtype_eqb t (if hr_success h then cl_sm x else MError)) eqn:TE; cbn [negb]; [|do 2 eexists; repeat split; discriminate];
     destruct (hr_body h) as [bd|] eqn:BD; [|do 2 eexists; repeat split; discriminate];
     destruct (hr_success h) eqn:SU; [|do 2 eexists; repeat split; discriminate];
     destruct (ek_decrypt A (hc_keys c1) bd) as [pt|e|p] eqn:DE; [|do 2 eexists; repeat split; discriminate|do 2 eexists; repeat split; discriminate];
     apply mtype_eqb_spec in TE; subst t; destruct (T eq_refl) as (s & n & T1 & T2 & T3); apply mtype_to_of in T3; subst n;
     destruct (parse (cl_sm x) pt) as [m|e|p] eqn:PM; do 2 eexists; repeat split; try discriminate;
     intros m' EQ; inversion EQ; subst; exists h, s, bd, pt; auto 10). }
  destruct R as (c2 & r2 & R & L & K & AT & OKS). rewrite R in H. inversion H; subst c' w r; clear H.
  assert (AT' : forall w, attempted (CStep x w r2) = true) by (intros w0; exact AT). rewrite AT'.
  split; [exact L|]. split; [rewrite K; reflexivity|]. split; [auto|]. split.
  - intros w' EQ. inversion EQ; subst. cbn [wr_type wr_auth wr_body]. repeat split; auto. exists b. auto.
  - intros m EQ. destruct (OKS m EQ) as (h & s & bd & pt & X). rewrite K. eexists _, h, s, bd, pt. split; [reflexivity|]. exact X.
Qed.

Lemma run_nth l : forall c c' pre x post, srun c l = (c', pre ++ x :: post) ->
  exists c1 c2 w r, send_request A parse kdf c1 (cs_call x) = (c2, w, r) /\ x = CStep (cs_call x) w r /\ In (cs_call x) l /\
    hc_last c1 = expected_from (hc_last c) pre /\ hc_keys c1 = keys_from (hc_keys c) pre.
Proof.
  induction l as [|y l IH]; intros c c' pre x post R; cbn [client_run] in R; [inversion R; destruct pre; discriminate|].
  destruct (send_request A parse kdf c y) as [[c1 w] ret] eqn:S. destruct (send_spec _ _ _ _ _ S) as (L & K & _).
  assert (HEAD : x = CStep y w ret -> pre = [] -> exists c1 c2 w0 r, send_request A parse kdf c1 (cs_call x) = (c2, w0, r) /\ x = CStep (cs_call x) w0 r /\ In (cs_call x) (y :: l) /\
    hc_last c1 = expected_from (hc_last c) pre /\ hc_keys c1 = keys_from (hc_keys c) pre).
  { intros -> ->. exists c, c1, w, ret. cbn [cs_call]. split; [exact S|]. split; [reflexivity|]. split; [left; reflexivity|]. split; reflexivity. }
  assert (TAIL : forall c2 t, srun c1 l = (c2, t) -> CStep y w ret :: t = pre ++ x :: post ->
    exists c1 c2 w0 r, send_request A parse kdf c1 (cs_call x) = (c2, w0, r) /\ x = CStep (cs_call x) w0 r /\ In (cs_call x) (y :: l) /\
    hc_last c1 = expected_from (hc_last c) pre /\ hc_keys c1 = keys_from (hc_keys c) pre).
  { intros c2 t R2 EQ. destruct pre as [|z pre].
    - cbn [app] in EQ. injection EQ as EQ1 EQ2. apply HEAD; [symmetry; exact EQ1|reflexivity].
    - cbn [app] in EQ. injection EQ as EQ1 EQ2. subst z t. destruct (IH _ _ _ _ _ R2) as (d1 & d2 & w0 & r0 & X1 & X2 & X3 & X4 & X5).
      exists d1, d2, w0, r0. split; [exact X1|]. split; [exact X2|]. split; [right; exact X3|]. cbn [expected_from keys_from cs_call cs_sent]. rewrite <- L, <- K. auto. }
  destruct ret as [m|e|p].
  - destruct (srun c1 l) as [c2 t] eqn:R2. injection R as R0 R1. eapply TAIL; [reflexivity|exact R1].
  - destruct (srun c1 l) as [c2 t] eqn:R2. injection R as R0 R1. eapply TAIL; [reflexivity|exact R1].
  - injection R as R0 R1. destruct pre as [|z pre]; cbn [app] in R1; [injection R1 as R1 R2; apply HEAD; [symmetry; exact R1|reflexivity]|].
    injection R1 as R1 R2. destruct pre; discriminate.
Qed.

Lemma run_legal l : forall c c' t q, srun c l = (c', t) -> Forall typed l -> at_ (hc_last c) q -> legal (q ++ exchanged t).
Proof.
  induction l as [|y l IH]; intros c c' t q R TY AT; cbn [client_run] in R; [inversion R; subst; rewrite app_nil_r; eapply at_legal; exact AT|].
  destruct (send_request A parse kdf c y) as [[c1 w] ret] eqn:S. destruct (send_spec _ _ _ _ _ S) as (L & _ & V & _).
  inversion TY as [|? ? TY1 TY2]; subst.
  assert (AT1 : at_ (hc_last c1) (q ++ exchanged [CStep y w ret])).
  { cbn [exchanged flat_map cs_call app]. rewrite app_nil_r. rewrite L. destruct (attempted (CStep y w ret)); [|rewrite app_nil_r; exact AT].
    destruct (V eq_refl) as [V1 V2]. eapply at_step; [exact AT| |exact V1]. unfold route_ok. destruct TY1 as [-> ->]. rewrite V2. reflexivity. }
  assert (TAIL : forall c2 t', srun c1 l = (c2, t') -> legal (q ++ exchanged (CStep y w ret :: t'))).
  { intros c2 t' R2. specialize (IH _ _ _ _ R2 TY2 AT1). rewrite <- app_assoc in IH. cbn [exchanged flat_map app] in *. rewrite app_nil_r in IH. exact IH. }
  destruct ret as [m|e|p].
  - destruct (srun c1 l) as [c2 t'] eqn:R2. injection R as R0 R1. subst t. eapply TAIL. reflexivity.
  - destruct (srun c1 l) as [c2 t'] eqn:R2. injection R as R0 R1. subst t. eapply TAIL. reflexivity.
  - injection R as R0 R1. subst t. eapply at_legal. exact AT1.
Qed.
Lemma expected_received (l : list cstep) : Forall (fun x => exists m, cs_ret x = Ok m) l -> forall t, expected_from t l = received_from t l.
Proof.
  induction 1 as [|x l [m X] _ IH]; intros t; [reflexivity|]. cbn [expected_from received_from]. rewrite X. unfold attempted at 1. rewrite X. apply IH.
Qed.
End client.

(** * Client and server together *)
Lemma token_of_bearer t : no_space t -> token_of (txt "Bearer " ++ t) = t.
Proof.
  intros NS. unfold token_of. change (existsb (fun c => c =? 32) (txt "Bearer " ++ t)) with true. cbn iota.
  change (drop_word (txt "Bearer " ++ t)) with t. induction t as [|c t IH]; [reflexivity|]. cbn [take_word].
  destruct (c =? 32) eqn:EQ; [exfalso; apply NS; left; lia|]. f_equal. apply IH. intros X. apply NS. right. exact X.
Qed.
Section sync.
Context {W D M E : Type} (A : aead) (AR : aead_roundtrip A) (idt : str -> option str) (sv : server W D M E) (RO : routes_ok sv).

Lemma decrypt_encrypt k n p c : ek_encrypt A k n p = Ok c -> ek_decrypt A k c = Ok p.
Proof.
  unfold ek_encrypt, ek_decrypt. destruct (ek_suite k); [|intros H; inversion H; reflexivity]. destruct (ek_keys k) as [[key|]|]; try discriminate.
  destruct (seal A key n p) eqn:S; [|discriminate]. intros H; inversion H; subst. rewrite (AR _ _ _ _ S). reflexivity.
Qed.

(** The server answers a request of a client in sync, and the client gets the handler's reply and stays in sync. *)
Lemma exchange {R} (parse : mtype -> bytes -> outcome unit R) kdf1 kdf2 c om sm pt new nonce c1 wm now w st rq id s tok m w' d ks reply eb :
  prepare A kdf1 c om sm (Some pt) new nonce = (c1, Ok wm) ->
  rq_type rq = wr_type wm -> rq_ctype rq = true -> rq_auth rq = wr_auth wm -> rq_body rq = wr_body wm -> rq_load_ok rq = true ->
  nlen (wr_body wm) <= 16384 ->
  route sv (mtype_num om) = Some (om, sm) ->
  (in_sync idt now st c id s /\ tok = None \/
   c = client_new /\ s = Ses None None (sv_new sv) /\ id = rq_new_id rq /\ tok = Some (rq_new_token rq) /\ no_space (rq_new_token rq) /\
   idt (rq_new_token rq) = Some id) ->
  sv_parse sv om pt = Ok m ->
  sv_handle sv om w s m (rq_env rq) = (w', HReply d ks reply) ->
  ks = new -> match new with Some k => ek_is_some k = true | None => True end ->
  (exists body, ek_encrypt A (match new with Some k => k | None => hc_keys c end) (rq_nonce rq) reply = Ok body) ->
  let s' := Ses (Some sm) (match ks with Some _ => ks | None => ses_keys s end) d in
  exists y' body c2,
    sys_run A idt sv (Sys now w st []) (one_request rq NoFault) =
      (y', [Ran id om s (rq_body rq) m w (rq_env rq); Stored id om sm s'; Sent (Answer sm body tok)]) /\
    y_world y' = w' /\ y_now y' = now /\ y_pend y' = [] /\
    receive A parse c1 sm (to_hresponse kdf2 (Answer sm body tok) eb) =
      (c2, match parse sm reply with Ok x => Ok x | Err _ => Err CParse | Panic p => Panic p end) /\
    in_sync idt now (y_store y') c2 id s'.
Proof.
  intros P T CT AU BO LO LEN RT SRC PA HD KS NK [rb RB] s'.
  unfold prepare in P. destruct (valid_prev om (hc_last c)) eqn:V1; cbn [negb] in P; [|discriminate].
  destruct (valid_prev sm (Some om)) eqn:V2; cbn [negb] in P; [|discriminate]. cbn [hc_keys hc_last hc_kdf hc_token] in P.
  destruct (enc_violated (enc_req om) (ek_is_some (hc_keys c))) eqn:E1; [discriminate|].
  destruct (enc_violated (enc_req sm) _) eqn:E2; [discriminate|].
  destruct (ek_encrypt A (hc_keys c) nonce pt) as [ct|e|p] eqn:EN; [|discriminate|discriminate]. injection P as <- <-.
  cbn [wr_type wr_auth wr_body wr_kdf] in *.
  assert (SY : ses_last s = hc_last c /\ keys_of s = hc_keys c).
  { destruct SRC as [[(_ & _ & L & K) _]|(-> & -> & _)]; [auto|split; reflexivity]. }
  destruct SY as [SL SK].
  assert (F : exists st1, find_session idt sv now st rq = (st1, Some (id, tok, s)) /\ (rq_auth rq = None -> st1 = st)).
  { unfold find_session. rewrite AU, LO. destruct SRC as [[((t & TT & NS & IT) & LD & _) ->]|(-> & -> & -> & -> & NS & IT)].
    - rewrite TT, token_of_bearer, IT by exact NS. destruct (ses_load now st id) as [st1 s1]. cbn [snd] in LD. subst s1. exists st1. split; [reflexivity|discriminate].
    - cbn [hc_token client_new]. exists st. auto. }
  destruct F as (st1 & F & _).
  assert (KN : keys_of s' = match new with Some k => k | None => hc_keys c end).
  { unfold s', keys_of. cbn [ses_keys]. subst ks. destruct new; [reflexivity|exact SK]. }
  assert (ES : enc_violated (enc_req sm) (ek_is_some (keys_of s')) = false).
  { rewrite KN. destruct new as [k|]; [rewrite NK|]; [|rewrite orb_false_r in E2; exact E2]. destruct (enc_req sm) as [[|]|]; cbn in *; auto. rewrite orb_true_r in E2. discriminate. }
  assert (RESP : forall b, respond A (Pend om sm id tok s' reply (rq_nonce rq) b) = Answer sm rb tok).
  { intros b. unfold respond. cbn [pd_ses pd_om pd_im pd_nonce pd_reply pd_token]. rewrite ES, KN, RB. reflexivity. }
  assert (AT : arrive A idt sv now w st rq = (w', st1, Some (Pend om sm id tok s' reply (rq_nonce rq) false), [Ran id om s (rq_body rq) m w (rq_env rq)])).
  { unfold arrive. rewrite T, RT, BO, CT. unfold MAX_BODY. replace (16384 <? nlen ct) with false by lia. cbn [orb negb]. rewrite F.
    unfold parse_request. rewrite SL, V1, SK, E1, (decrypt_encrypt _ _ _ _ EN), PA. cbn [negb]. rewrite HD. reflexivity. }
  assert (PUT : aget id (ses_put st1 id s') = Some (s', None)) by (unfold ses_put; apply aget_aset_eq).
  exists (Sys now w' (ses_ttl now (ses_put st1 id s') id) []), rb.
  set (c2k := Some (match hc_kdf c with Some b => b | None => match (if kdf2 then None else Some (HText KDF_TRUE)) with Some h => hval_eqb h KDF_TRUE | None => false end end)).
  exists (HClient (match tok with Some t => Some (txt "Bearer " ++ t) | None => hc_token c end) (match new with Some k => k | None => hc_keys c end) (Some sm) c2k).
  split; [|split; [reflexivity|split; [reflexivity|split; [reflexivity|split]]]].
  - unfold one_request. cbn [sys_run sys_step]. rewrite AT. cbn [sys_run sys_step app nth_error pd_stored replace_nth remove_nth negb pd_id pd_ses pd_im pd_om pd_token pd_reply pd_nonce].
    rewrite RESP. reflexivity.
  - unfold receive, to_hresponse. cbn [hc_kdf hc_token hc_keys hc_last hr_success hr_type hr_auth hr_kdf hr_body].
    unfold response_type. cbn [hr_type]. rewrite parse_u8_num, mtype_of_to. cbn [of_option].
    assert (ME : mtype_eqb sm sm = true) by (apply mtype_eqb_spec; reflexivity).
    assert (DEC : ek_decrypt A (match new with Some k => k | None => hc_keys c end) rb = Ok reply) by (eapply decrypt_encrypt; exact RB).
    subst c2k.
    destruct tok as [t|]; cbn [hc_kdf hc_token hc_keys hc_last]; rewrite ME; cbn [negb]; rewrite DEC; destruct (hc_kdf c); reflexivity.
  - unfold in_sync. cbn [hc_token hc_last hc_keys y_store]. split; [|split; [|split; [reflexivity|exact KN]]].
    + destruct SRC as [[(X & _) ->]|(-> & _ & -> & -> & NS & IT)]; [exact X|]. exists (rq_new_token rq). auto.
    + unfold ses_ttl. rewrite PUT. unfold ses_load. rewrite aget_aset_eq.
      pose proof (N.mul_succ_div_gt now SES_SEC ltac:(discriminate)) as DV. 
      replace ((now / SES_SEC + SESSION_TTL_SECS) * SES_SEC <? now) with false; [reflexivity|]. symmetry. apply N.ltb_ge. unfold SESSION_TTL_SECS. unfold SES_SEC in *. lia.
Qed.
End sync.
