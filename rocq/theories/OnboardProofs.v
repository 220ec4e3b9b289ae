(** Lemmas: a device's requests reach the owner's server and are answered. *)
From Verif Require Import Base BaseFacts CborModel ValueModel Text Assoc Hex TypesModel VoucherModel CryptoSpec VoucherSpec KexModel KexSpec RvModel StoreModel StoreSpec Backend
  MsgModel SessionModel SessionSpec HttpClientModel HttpClientSpec HttpClientProofs RvServerModel RvServerSpec SiModel DevSiModel SiSpec SiApiModel SiApiSpec OwnerModel OwnerSpec ClientModel ClientSpec ClientProofs ClientHonest OnboardSpec.
From Coq Require Import ZifyBool ZifyNat ZifyN.
Local Open Scope N_scope.
Set Default Proof Using "Type".
Local Opaque dec_top from_slice.

(** * Between the requests *)
Lemma aget_keep {V} (f : name * V -> bool) k x : forall l, aget k l = Some x -> f (k, x) = true -> aget k (filter f l) = Some x.
Proof.
  induction l as [|[k' y] l IH]; intros G F; [discriminate|]. cbn [aget] in G. destruct (bytes_eqb k k') eqn:E.
  - inversion G; subst y. pose proof E as E'. apply bytes_eqb_spec in E'. subst k'. cbn [filter]. rewrite F. cbn [aget]. rewrite E. reflexivity.
  - cbn [filter]. destruct (f (k', y)); [|exact (IH G F)]. cbn [aget]. rewrite E. exact (IH G F).
Qed.

Section server.
Context (A : aead) (idt : str -> option str) (c : crypto) (chk : bool) (ko : kex_ops) (cf : owconf) {W : Type} (be : backend voucher W)
  (key : str) (v : voucher) (holds : W -> Prop) (KP : keeper be key v holds).
Notation sv := (ow_server c chk ko cf be).
Notation hnd := (ow_handle c chk ko cf be).

Lemma load_holds w e k w' r : holds w -> ow_load be w e k = (w', r) -> holds w'.
Proof using KP.
  intros H. unfold ow_load. destruct (oe_fault e); try (intros X; inversion X; subst; exact H);
    (destruct (b_load be (oe_now e) w k) as [w1 r1] eqn:L; intros X; inversion X; subst; eapply (kp_loads _ _ _ _ KP); eassumption).
Qed.
(** Whatever the server is asked, the store keeps what it holds. *)
Lemma handle_holds im w s m e w' r : holds w -> hnd im w s m e = (w', r) -> holds w'.
Proof using KP.
  intros H E. destruct m; cbn [ow_handle] in E.
  - unfold h_hellodevice in E. destruct (guid_text _); [|inversion E; subst; exact H]. destruct (ow_load be w e _) as [w1 [[v1|]| |]] eqn:L; pose proof (load_holds _ _ _ _ _ H L) as H1;
      try (inversion E; subst; exact H1). destruct (hello_reply _ _ _ _ _ _ _ _) as [[kx rb]| |]; inversion E; subst; exact H1.
  - unfold h_getentry in E. destruct (od_guid _); [|inversion E; subst; exact H]. destruct (guid_parse _); [|inversion E; subst; exact H]. destruct (guid_text _); [|inversion E; subst; exact H].
    destruct (ow_load be w e _) as [w1 [[v1|]| |]] eqn:L; pose proof (load_holds _ _ _ _ _ H L) as H1; try (inversion E; subst; exact H1).
    destruct (entry _ _ _) as [en| |]; [destruct (ovnextentry _ _)|..]; inversion E; subst; exact H1.
  - unfold h_prove in E. destruct (od_guid _); [|inversion E; subst; exact H]. destruct (guid_parse _); [|inversion E; subst; exact H]. destruct (guid_text _); [|inversion E; subst; exact H].
    destruct (od_nonce6 _); [|inversion E; subst; exact H]. destruct (od_kex _); [|inversion E; subst; exact H]. destruct (od_cipher _); [|inversion E; subst; exact H].
    destruct (ow_load be w e _) as [w1 [[v1|]| |]] eqn:L; pose proof (load_holds _ _ _ _ _ H L) as H1; try (inversion E; subst; exact H1).
    destruct (prove_check _ _ _ _ _ _ _ _ _ _) as [[[n7 ks] rb]| |]; inversion E; subst; exact H1.
  - unfold h_siready in E. destruct (od_proven _); inversion E; subst; exact H.
  - unfold h_serviceinfo in E. destruct (negb _); [inversion E; subst; exact H|]. destruct (od_guid _); [|inversion E; subst; exact H]. destruct (guid_parse _); [|inversion E; subst; exact H].
    destruct (guid_text _); [|inversion E; subst; exact H]. destruct (MAX_SERVICE_INFO_LOOPS <? _); [inversion E; subst; exact H|]. destruct (perform_service_info _ _ _) as [[[? ?] ?]|]; inversion E; subst; exact H.
  - unfold h_done in E. destruct (negb _); [inversion E; subst; exact H|]. destruct (od_nonce6 _); [|inversion E; subst; exact H]. destruct (nonce_eq _ _) as [[|]| |]; try (inversion E; subst; exact H).
    destruct (od_guid _); [|inversion E; subst; exact H]. destruct (guid_parse _); [|inversion E; subst; exact H]. destruct (guid_text _); [|inversion E; subst; exact H].
    destruct (od_nonce7 _); [|inversion E; subst; exact H].
    destruct (oe_fault e); try (inversion E; subst; exact H);
      (destruct (b_meta _ _ _ _ _ _) as [w1 [u| |]] eqn:B; pose proof (kp_metas _ _ _ _ KP _ _ _ _ _ H B) as H1; inversion E; subst; exact H1).
Qed.

(** The session [id] waits at the server. *)
Definition waits (id : str) (ses : session owdata) (e : N) (y : sys (W:=W) (D:=owdata)) : Prop :=
  holds (y_world y) /\ aget id (y_store y) = Some (ses, Some e) /\ y_now y < e * SES_SEC.
Definition others (id : str) (y : sys (W:=W) (D:=owdata)) : Prop := Forall (fun p => pd_id p <> id) (y_pend y).

Lemma load_other now (st st' : sstore owdata) id id' r : id' <> id -> ses_load now st id' = (st', r) -> aget id st' = aget id st.
Proof.
  intros NE. unfold ses_load. destruct (aget id' st) as [[s [e|]]|]; try (intros X; inversion X; reflexivity).
  destruct (e * SES_SEC <? now); intros X; inversion X; subst; [|reflexivity]. apply aget_adel_ne. congruence.
Qed.
Lemma arrive_other now w st rq id w' st' p os : holds w -> unrelated idt id holds (SReq rq NoFault) -> arrive A idt sv now w st rq = (w', st', p, os) ->
  holds w' /\ aget id st' = aget id st /\ match p with Some p => pd_id p <> id | None => True end.
Proof using KP.
  intros H [U1 U2] E. unfold arrive in E. destruct (route sv (rq_type rq)) as [[im om]|]; [|inversion E; subst; auto].
  destruct (_ || _); [inversion E; subst; auto|].
  destruct (find_session idt sv now st rq) as [st1 o] eqn:F.
  assert (FS : aget id st1 = aget id st /\ match o with Some (i, _, _) => i <> id | None => True end).
  { unfold find_session in F. destruct (rq_auth rq) as [a|] eqn:AU; [|inversion F; subst; auto]. specialize (U2 a eq_refl).
    destruct (rq_load_ok rq); [|inversion F; subst; auto]. destruct (idt (token_of a)) as [i|]; [|inversion F; subst; auto].
    assert (NE : i <> id) by (intros X; apply U2; f_equal; exact X).
    destruct (ses_load now st i) as [st2 s] eqn:L. pose proof (load_other _ _ _ _ _ _ NE L) as LO. inversion F; subst. split; [exact LO|]. destruct s; auto. }
  destruct FS as [F1 F2]. destruct o as [[[i tok] s]|]; [|inversion E; subst; auto].
  destruct (parse_request A sv im s (rq_body rq)); [|inversion E; subst; auto].
  destruct (sv_handle sv im w s m (rq_env rq)) as [w1 h] eqn:HH. cbn [sv_handle ow_server] in HH. pose proof (handle_holds _ _ _ _ _ _ _ H HH) as H1.
  destruct h; inversion E; subst; auto.
Qed.
Lemma unrelated_same rq f id : unrelated idt id holds (SReq rq f) -> unrelated idt id holds (SReq rq NoFault). Proof. exact (fun H => H). Qed.
Lemma put_other (st : sstore owdata) i id s : i <> id -> aget id (ses_put st i s) = aget id st.
Proof. intros NE. apply aget_aset_ne. congruence. Qed.
Lemma ttl_other now (st : sstore owdata) i id : i <> id -> aget id (ses_ttl now st i) = aget id st.
Proof. intros NE. unfold ses_ttl. destruct (aget i st) as [[s ?]|]; [|reflexivity]. apply aget_aset_ne. congruence. Qed.

(** One event of another *)
Lemma quiet_event id (y : sys (W:=W)) x : y_pend y = [] -> holds (y_world y) -> unrelated idt id holds x ->
  let y' := fst (sys_run A idt sv y (expand x)) in
  y_pend y' = [] /\ holds (y_world y') /\ y_now y' = y_now y + ticks [x] /\
  (forall ses e, aget id (y_store y) = Some (ses, Some e) -> y_now y < e * SES_SEC -> aget id (y_store y') = Some (ses, Some e)).
Proof using KP.
  destruct y as [now w st ps]. cbn [y_pend y_world y_now y_store]. intros -> H U. destruct x as [rq f|d| |g]; cbn [expand ticks fold_right].
  - rewrite N.add_0_r. unfold one_request. cbn [sys_run sys_step]. destruct (arrive A idt sv now w st rq) as [[[w' st'] p] os] eqn:AR.
    destruct (arrive_other _ _ _ _ _ _ _ _ _ H (unrelated_same _ f _ U) AR) as (H1 & G & P).
    destruct p as [p|]; cbn [app].
    + destruct (pd_stored p) eqn:PS.
      { exfalso. unfold arrive in AR. destruct (route sv (rq_type rq)) as [[im om]|]; [|discriminate]. destruct (_ || _); [discriminate|]. destruct (find_session idt sv now st rq) as [st1 [[[i tok] s]|]]; [|discriminate].
        destruct (parse_request A sv im s (rq_body rq)); [|discriminate]. destruct (sv_handle sv im w s m (rq_env rq)) as [w1 [d ks reply| |]]; inversion AR; subst. discriminate. }
      destruct f; cbn [sys_run sys_step nth_error pd_stored replace_nth remove_nth negb pd_id pd_ses pd_im fst snd]; rewrite ?PS; cbn [sys_run sys_step nth_error pd_stored replace_nth remove_nth negb pd_id pd_ses pd_im fst snd y_pend y_world y_now y_store];
        (split; [reflexivity|split; [exact H1|split; [reflexivity|]]]); intros ses e GE _; rewrite ?ttl_other, ?put_other by exact P; rewrite G; exact GE.
    + destruct f; cbn [sys_run sys_step nth_error remove_nth fst snd y_pend y_world y_now y_store];
        (split; [reflexivity|split; [exact H1|split; [reflexivity|]]]); intros ses e GE _; rewrite G; exact GE.
  - cbn [sys_run sys_step fst y_pend y_world y_now y_store]. rewrite N.add_0_r. auto.
  - cbn [sys_run sys_step fst y_pend y_world y_now y_store]. rewrite N.add_0_r. split; [reflexivity|]. split; [exact H|]. split; [reflexivity|].
    intros ses e GE LT. unfold ses_maint. apply aget_keep; [exact GE|]. cbn [snd]. apply N.ltb_lt. exact LT.
  - cbn [sys_run sys_step fst y_pend y_world y_now y_store]. rewrite N.add_0_r. split; [reflexivity|]. split; [exact (U _ H)|]. auto.
Qed.
Lemma run_app_fst (y : sys (W:=W) (D:=owdata)) a b : fst (sys_run A idt sv y (a ++ b)) = fst (sys_run A idt sv (fst (sys_run A idt sv y a)) b).
Proof.
  revert y. induction a as [|x a IH]; intros y; [reflexivity|]. cbn [app sys_run]. destruct (sys_step A idt sv y x) as [y1 o1]. specialize (IH y1).
  destruct (sys_run A idt sv y1 (a ++ b)) as [y2 o2]. destruct (sys_run A idt sv y1 a) as [y3 o3]. cbn [fst] in *. exact IH.
Qed.
Lemma quiet_run id l : forall y : sys (W:=W), y_pend y = [] -> holds (y_world y) -> Forall (unrelated idt id holds) l ->
  let y' := fst (sys_run A idt sv y (sequential l)) in
  y_pend y' = [] /\ holds (y_world y') /\ y_now y' = y_now y + ticks l /\
  (forall ses e, aget id (y_store y) = Some (ses, Some e) -> y_now y + ticks l < e * SES_SEC -> aget id (y_store y') = Some (ses, Some e)).
Proof using KP.
  induction l as [|x l IH]; intros y P H F; cbn zeta.
  - cbn [sequential flat_map sys_run fst ticks fold_right]. rewrite N.add_0_r. auto.
  - inversion F; subst. unfold sequential. cbn [flat_map]. fold (sequential l). rewrite run_app_fst.
    destruct (quiet_event id y x P H H2) as (P1 & H1 & N1 & G1). destruct (IH _ P1 H1 H3) as (P2 & H2' & N2 & G2).
    assert (TK : ticks (x :: l) = ticks [x] + ticks l) by (unfold ticks; cbn [fold_right]; destruct x; lia).
    split; [exact P2|]. split; [exact H2'|]. split; [lia|]. intros ses e GE LT. apply G2; [apply G1; [exact GE|lia]|lia].
Qed.

(** What a request leaves in the store *)
Lemma run_stored now w st rq y' id im om s' r a b : sys_run A idt sv (Sys now w st []) (one_request rq NoFault) = (y', [a; Stored id im om s'; b]) -> r = b ->
  aget id (y_store y') = Some (s', Some (now / SES_SEC + SESSION_TTL_SECS)) /\ y_now y' = now.
Proof.
  unfold one_request. cbn [sys_run sys_step]. destruct (arrive A idt sv now w st rq) as [[[w1 st1] p] os] eqn:AR. destruct p as [p|]; cbn [app].
  - destruct (pd_stored p) eqn:PS.
    { exfalso. unfold arrive in AR. destruct (route sv (rq_type rq)) as [[im' om']|]; [|discriminate]. destruct (_ || _); [discriminate|]. destruct (find_session idt sv now st rq) as [st2 [[[i tok] s]|]]; [|discriminate].
      destruct (parse_request A sv im' s (rq_body rq)); [|discriminate]. destruct (sv_handle sv im' w s m (rq_env rq)) as [w2 [d ks reply| |]]; inversion AR; subst. discriminate. }
    cbn [sys_run sys_step nth_error]. rewrite PS. cbn [sys_run sys_step nth_error pd_stored replace_nth remove_nth negb pd_id pd_ses pd_im fst snd app].
    intros E _. injection E as <- E. cbn [y_store y_now].
    assert (X : id = pd_id p /\ s' = pd_ses p).
    { unfold arrive in AR. destruct (route sv (rq_type rq)) as [[im' om']|]; [|discriminate]. destruct (_ || _); [discriminate|]. destruct (find_session idt sv now st rq) as [st2 [[[i tok] s]|]]; [|discriminate].
      destruct (parse_request A sv im' s (rq_body rq)); [|discriminate]. destruct (sv_handle sv im' w s m (rq_env rq)) as [w2 [d ks reply| |]]; inversion AR; subst. cbn [app] in E. injection E as ? ? ? ? ?. cbn [pd_id pd_ses] in *. auto. }
    destruct X as [-> ->]. split; [|reflexivity]. unfold ses_ttl. unfold ses_put at 1. rewrite aget_aset_eq. apply aget_aset_eq.
  - cbn [sys_run sys_step nth_error app]. intros E _. exfalso. injection E as <- E.
    unfold arrive in AR. destruct (route sv (rq_type rq)) as [[im' om']|]; [|inversion AR; subst; discriminate]. destruct (_ || _); [inversion AR; subst; discriminate|].
    destruct (find_session idt sv now st rq) as [st2 [[[i tok] s]|]]; [|inversion AR; subst; discriminate].
    destruct (parse_request A sv im' s (rq_body rq)); [|inversion AR; subst; discriminate]. destruct (sv_handle sv im' w s m (rq_env rq)) as [w2 [d ks reply| |]]; inversion AR; subst; discriminate.
Qed.
End server.

(** * A request of the device *)
Definition works (A : aead) (k : ekeys) : Prop := k = unencrypted \/ usable A k.
Lemma works_enc A k n p : works A k -> exists b, ek_encrypt A k n p = Ok b.
Proof.
  intros [->|(suite & key & -> & S)]; [exists p; reflexivity|]. unfold ek_encrypt. cbn [ek_suite ek_keys]. specialize (S n p). destruct (seal A key n p) as [b|]; [exists b; reflexivity|congruence].
Qed.
Lemma encrypt_longer A k n p b : seal_longer A -> works A k -> ek_encrypt A k n p = Ok b -> nlen p <= nlen b.
Proof.
  intros SL [->|(suite & key & -> & S)] E; unfold ek_encrypt in E; cbn [ek_suite ek_keys unencrypted] in E; [inversion E; subst; lia|].
  destruct (seal A key n p) as [ct|] eqn:X; inversion E; subst. eapply SL. exact X.
Qed.
Lemma usable_is_some A k : usable A k -> ek_is_some k = true.
Proof. intros (suite & key & -> & _). reflexivity. Qed.
Lemma receive_kdf A av hc sm m body tok hc' b : receive A raw_parse hc sm (to_hresponse av (Answer m body tok) []) = (hc', Ok b) ->
  hc_kdf hc' = Some (match hc_kdf hc with Some x => x | None => negb av end).
Proof.
  unfold receive, to_hresponse. rewrite type_read. cbn [HttpClientModel.hr_auth HttpClientModel.hr_kdf hr_success HttpClientModel.hr_body hc_token hc_keys hc_last hc_kdf].
  assert (KD : (match hc_kdf hc with Some b => Some b | None => Some (match (if av then None else Some (HText KDF_TRUE)) with Some h => hval_eqb h KDF_TRUE | None => false end) end)
    = Some (match hc_kdf hc with Some x => x | None => negb av end)).
  { destruct (hc_kdf hc); [reflexivity|]. destruct av; reflexivity. }
  rewrite KD. destruct tok as [t|]; (destruct (negb (mtype_eqb m sm)); [intros X; discriminate|]); cbn [hc_keys]; (destruct (ek_decrypt A (hc_keys hc) body); cbn [raw_parse]; intros X; inversion X; subst; reflexivity).
Qed.

Section device.
Context (A : aead) (AR : aead_roundtrip A) (SLG : seal_longer A) (idt : str -> option str) (c : crypto) (chk : bool) (ko : kex_ops) (cf : owconf) {W : Type} (be : backend voucher W)
  (key : str) (v : voucher) (holds : W -> Prop) (KP : keeper be key v holds)
  (avail : bool) (wo : world) (url : str) (surr : list devent -> around W) (at_ : list devent -> sys (W:=W) (D:=owdata))
  (SD : served A idt (ow_server c chk ko cf be) (oc_kdf_avail cf) wo url surr at_)
  (id : str) (QU : forall h, quiet idt id holds (an_before (surr h))).
Notation sv := (ow_server c chk ko cf be).
Notation hnd := (ow_handle c chk ko cf be).

Definition env_at (h : list devent) : owenv :=
  let x := surr h in OwEnv (an_now x) (an_nonce x) (an_kex x) (an_guid x) (an_rnd x) (kdf_header avail) (an_api x) IoOk.

(** The device and its session at the server have come equally far. *)
Record synced (s : st) (ses : session owdata) : Prop := {
  sy_url : s_url s = url;
  sy_pend : y_pend (at_ (s_hist s)) = [];
  sy_holds : holds (y_world (at_ (s_hist s)));
  sy_store : aget id (y_store (at_ (s_hist s))) = Some (ses, Some (y_now (at_ (s_hist s)) / SES_SEC + SESSION_TTL_SECS));
  sy_token : exists t, hc_token (s_hc s) = Some (txt "Bearer " ++ t) /\ no_space t /\ idt t = Some id;
  sy_last : ses_last ses = hc_last (s_hc s);
  sy_keys : keys_of ses = hc_keys (s_hc s);
  sy_works : works A (hc_keys (s_hc s));
  sy_kdf : hc_kdf (s_hc s) = Some (negb (oc_kdf_avail cf)) }.
Record starting (s : st) : Prop := {
  sg_url : s_url s = url;
  sg_pend : y_pend (at_ (s_hist s)) = [];
  sg_holds : holds (y_world (at_ (s_hist s)));
  sg_new : s_hc s = client_new;
  sg_id : an_id (surr (s_hist s)) = id;
  sg_token : no_space (an_token (surr (s_hist s))) /\ idt (an_token (surr (s_hist s))) = Some id }.

Lemma ask_served om sm (pt : bytes) new s ses m d reply (P : W -> Prop) :
  synced s ses \/ starting s /\ ses = Ses None None ow_new ->
  valid_prev om (hc_last (s_hc s)) = true -> valid_prev sm (Some om) = true ->
  enc_violated (enc_req om) (ek_is_some (hc_keys (s_hc s))) = false ->
  enc_violated (enc_req sm) (ek_is_some (hc_keys (s_hc s)) || match new with Some _ => true | None => false end) = false ->
  route sv (mtype_num om) = Some (om, sm) ->
  (nlen pt <= 16384 -> ow_parse c chk om pt = Ok m) ->
  (forall w, holds w -> exists w', hnd om w ses m (env_at (s_hist s)) = (w', HReply d new reply) /\ P w') ->
  match new with Some k => usable A k | None => True end ->
  fits (s_hist (fst (ask A avail wo om sm (Ok pt) new s))) ->
  exists s' w, ask A avail wo om sm (Ok pt) new s = (s', Ok reply) /\ s_hist s' = s_hist s ++ [TWire url w] /\ wr_type w = mtype_num om /\
    hc_keys (s_hc s') = match new with Some k => k | None => hc_keys (s_hc s) end /\ hc_last (s_hc s') = Some sm /\
    synced s' (Ses (Some sm) (match new with Some _ => new | None => ses_keys ses end) d) /\ P (y_world (at_ (s_hist s'))).
Proof using KP AR SLG SD QU.
  intros SRC V1 V2 E1 E2 RT PA HD NK FT.
  assert (WK : works A (hc_keys (s_hc s))) by (destruct SRC as [[]|[[] _]]; [assumption|]; left; match goal with H : s_hc s = _ |- _ => rewrite H end; reflexivity).
  assert (U : s_url s = url) by (destruct SRC as [[]|[[] _]]; assumption).
  destruct (works_enc A (hc_keys (s_hc s)) (wo_rand wo (s_hist s) 1) pt WK) as [wb EN].
  set (wm := Wire (mtype_num om) (hc_token (s_hc s)) (negb avail) wb).
  set (c1 := HClient (hc_token (s_hc s)) (match new with Some k => k | None => hc_keys (s_hc s) end) (Some sm) (hc_kdf (s_hc s))).
  assert (PR : prepare A avail (s_hc s) om sm (Some pt) new (wo_rand wo (s_hist s) 1) = (c1, Ok wm)).
  { unfold prepare. rewrite V1, V2. cbn [negb hc_keys]. rewrite E1, E2. cbn [hc_token hc_keys hc_last hc_kdf]. rewrite EN. reflexivity. }
  assert (ASK : ask A avail wo om sm (Ok pt) new s =
    (let '(hc, r) := receive A raw_parse c1 sm (wo_resp wo (s_hist s ++ [TWire url wm])) in (St (s_hist s ++ [TWire url wm]) url hc, map_err (fun _ => tt) r))).
  { unfold ask. rewrite PR, U. reflexivity. }
  assert (LEN : nlen (wr_body wm) <= 16384).
  { rewrite ASK in FT. destruct (receive A raw_parse c1 sm (wo_resp wo (s_hist s ++ [TWire url wm]))) as [hc r]. cbn [fst s_hist] in FT. apply (FT url wm). apply in_or_app. right. left. reflexivity. }
  assert (PA' : ow_parse c chk om pt = Ok m) by (apply PA; pose proof (encrypt_longer _ _ _ _ _ SLG WK EN) as LG; cbn [wr_body wm] in LEN; lia). clear PA. rename PA' into PA.
  pose proof (sd_wire _ _ _ _ _ _ _ _ SD (s_hist s) wm) as LK. cbv zeta in LK.
  destruct (QU (s_hist s)) as [TK UN].
  assert (PH : y_pend (at_ (s_hist s)) = [] /\ holds (y_world (at_ (s_hist s)))) by (destruct SRC as [[]|[[] _]]; split; assumption).
  destruct PH as [PE HO].
  destruct (quiet_run A idt c chk ko cf be key v holds KP id (an_before (surr (s_hist s))) (at_ (s_hist s)) PE HO UN) as (PE1 & HO1 & NW1 & ST1).
  set (y := fst (sys_run A idt sv (at_ (s_hist s)) (sequential (an_before (surr (s_hist s)))))) in *. 
  destruct y as [now w st ps] eqn:EY. cbn [y_pend y_world y_now y_store] in *. subst ps.
  set (rq := owner_request (surr (s_hist s)) wm) in *.
  destruct (HD w HO1) as (w' & HDL & PW).
  assert (NEWK : works A (match new with Some k => k | None => hc_keys (s_hc s) end)) by (destruct new; [right; exact NK|exact WK]).
  destruct (works_enc A _ (an_iv (surr (s_hist s))) reply NEWK) as [rb RB].
  assert (SRC' : exists tok, (in_sync idt now st (s_hc s) id ses /\ tok = None) \/ (s_hc s = client_new /\ ses = Ses None None (sv_new sv) /\ id = rq_new_id rq /\ tok = Some (rq_new_token rq) /\ no_space (rq_new_token rq) /\ idt (rq_new_token rq) = Some id)).
  { clearbody wm c1. destruct SRC as [SY|[SG ES]]; [exists None|exists (Some (an_token (surr (s_hist s))))].
    - left. split; [|reflexivity]. destruct SY as [_ _ _ SS ST SL SK _ _]. split; [exact ST|]. split; [|split; [exact SL|exact SK]].
      pose proof (N.mul_succ_div_gt (y_now (at_ (s_hist s))) SES_SEC ltac:(discriminate)) as DV.
      assert (LT : y_now (at_ (s_hist s)) + ticks (an_before (surr (s_hist s))) < (y_now (at_ (s_hist s)) / SES_SEC + SESSION_TTL_SECS) * SES_SEC).
      { unfold SESSION_TTL_SECS. unfold SES_SEC in *. lia. }
      specialize (ST1 ses _ SS LT). unfold ses_load. rewrite ST1. rewrite NW1. destruct (N.ltb_spec ((y_now (at_ (s_hist s)) / SES_SEC + SESSION_TTL_SECS) * SES_SEC) (y_now (at_ (s_hist s)) + ticks (an_before (surr (s_hist s))))); [lia|reflexivity].
    - right. destruct SG as [_ _ _ SN SI [S1 S2]]. split; [exact SN|]. split; [exact ES|]. split; [symmetry; exact SI|]. split; [reflexivity|]. split; [exact S1|exact S2]. }
  destruct SRC' as [tok SRC'].
  destruct (exchange A AR idt sv raw_parse avail (oc_kdf_avail cf) (s_hc s) om sm pt new (wo_rand wo (s_hist s) 1) c1 wm now w st rq id ses tok m w' d new reply [])
    as (y' & body & c2 & RUN & YW & YN & YP & RC & IS); auto.
  { destruct new; [eapply usable_is_some; exact NK|exact Logic.I]. }
  { exists rb. exact RB. }
  destruct (run_stored A idt c chk ko cf be now w st rq y' id om sm _ _ _ _ RUN eq_refl) as [YS _].
  rewrite RUN in LK. cbn [fst snd responses flat_map app last] in LK. destruct LK as [LA LR].
  rewrite LR in ASK. rewrite RC in ASK. cbn [raw_parse map_err] in ASK.
  exists (St (s_hist s ++ [TWire url wm]) url c2), wm. split; [exact ASK|]. cbn [s_hist s_hc]. split; [reflexivity|]. split; [reflexivity|].
  cbn [raw_parse] in RC. destruct IS as (IT & IL & ISL & ISK). cbn [ses_last ses_keys] in ISL.
  assert (KEYS : hc_keys c2 = match new with Some k => k | None => hc_keys (s_hc s) end) by exact (proj1 (receive_ok A _ _ _ _ _ RC)).
  split; [exact KEYS|]. split; [symmetry; exact ISL|]. split.
  - constructor; cbn [s_hist s_url s_hc]; rewrite ?LA.
    + reflexivity.
    + exact YP.
    + rewrite YW. eapply (handle_holds c chk ko cf be key v holds KP); [exact HO1|exact HDL].
    + rewrite YS, YN. reflexivity.
    + exact IT.
    + exact ISL.
    + exact ISK.
    + rewrite KEYS. exact NEWK.
    + rewrite (receive_kdf _ _ _ _ _ _ _ _ _ RC). unfold c1. cbn [hc_kdf]. destruct SRC as [SY|[SG _]]; [rewrite (sy_kdf _ _ SY); reflexivity|rewrite (sg_new _ SG); reflexivity].
  - rewrite LA, YW. exact PW.
Qed.
End device.
