(** Lemmas: the owner server's registrations over HTTP. *)
From Verif Require Import Base BaseFacts CborModel CborSpec ValueModel ValueProofs Text Assoc Hex TypesModel CryptoSpec TypesProofs VoucherModel VoucherSpec VoucherProofs VoucherProofs2 RvModel StoreModel StoreSpec StoreProofs StoreProofs2 Backend
  MsgModel SessionModel SessionSpec HttpClientModel HttpClientSpec RvServerModel RvServerSpec RvServerRuns SiModel DevSiModel OwnerModel ClientModel To0Model To0Spec To0Accept To0ClientModel FindSpec To0ClientSpec ServeSpec OnboardSpec OnboardProofs2 OnboardProofs3 FindProofs.
From Verif Require P_Find P_To0 P_Rv ServeProofs CoseFacts DecFacts.
From Coq Require Import ZifyBool ZifyNat ZifyN.
Local Open Scope N_scope.
Set Default Proof Using "Type".
Local Opaque dec_top from_slice any_value.

Section plain.
Context (A : aead) (avail : bool) (wo : world).
(** One request of a client without keys *)
Lemma ask_plain om sm m s : hc_keys (s_hc s) = unencrypted -> valid_prev om (hc_last (s_hc s)) = true -> valid_prev sm (Some om) = true ->
  enc_violated (enc_req om) false = false -> enc_violated (enc_req sm) false = false ->
  exists s' o w, ask A avail wo om sm (Ok m) None s = (s', o) /\ s_hist s' = s_hist s ++ [TWire (s_url s) w] /\ s_url s' = s_url s /\
    hc_keys (s_hc s') = unencrypted /\ hc_last (s_hc s') = Some sm /\ wr_type w = mtype_num om /\ wr_body w = m /\ wr_auth w = hc_token (s_hc s) /\
    match o with
    | Ok b => exists r, wo_resp wo (s_hist s') = Some r /\ hr_body r = Some b
    | Err _ => True
    | Panic _ => exists r, wo_resp wo (s_hist s') = Some r /\ hr_auth r = Some HOpaque
    end.
Proof.
  intros K V1 V2 E1 E2. unfold ask. destruct s as [h u [tok keys last kdf]]. cbn [s_hc s_hist s_url hc_keys hc_last hc_token] in *. subst keys. unfold prepare. cbn [hc_last hc_keys hc_token hc_kdf].
  rewrite V1, V2. cbn [negb]. change (ek_is_some unencrypted) with false. cbn [orb]. rewrite E1, E2.
  change (ek_encrypt A unencrypted (wo_rand wo h 1) m) with (Ok (E:=unit) m). cbv beta iota zeta. set (w := Wire (mtype_num om) tok (negb avail) m).
  destruct (receive A raw_parse (HClient tok unencrypted (Some sm) kdf) sm (wo_resp wo (h ++ [TWire u w]))) as [hc r] eqn:RC.
  eexists _, _, w. split; [reflexivity|]. cbn [s_hist s_url s_hc]. split; [reflexivity|]. split; [reflexivity|]. unfold receive in RC. cbn [hc_keys hc_last hc_token hc_kdf] in RC.
  destruct (wo_resp wo (h ++ [TWire u w])) as [x|].
  2: { inversion RC; subst. cbn [hc_keys hc_last map_err]. auto 10. }
  destruct (response_type x) as [t|e|p] eqn:RT.
  - destruct (hr_auth x) as [[a|]|] eqn:AU.
    + destruct (negb (mtype_eqb _ _)); [inversion RC; subst; cbn [hc_keys hc_last map_err]; auto 10|]. destruct (hr_body x) as [b|] eqn:HB; [|inversion RC; subst; cbn [hc_keys hc_last map_err]; auto 10].
      destruct (hr_success x); [|inversion RC; subst; cbn [hc_keys hc_last map_err]; auto 10].
      change (ek_decrypt A unencrypted b) with (Ok (E:=unit) b) in RC. cbn [raw_parse] in RC. inversion RC; subst. cbn [hc_keys hc_last map_err]. repeat (split; [reflexivity|]). eexists; split; [reflexivity|assumption].
    + inversion RC; subst. cbn [hc_keys hc_last map_err]. repeat (split; [reflexivity|]). eexists; split; [reflexivity|assumption].
    + destruct (negb (mtype_eqb _ _)); [inversion RC; subst; cbn [hc_keys hc_last map_err]; auto 10|]. destruct (hr_body x) as [b|] eqn:HB; [|inversion RC; subst; cbn [hc_keys hc_last map_err]; auto 10].
      destruct (hr_success x); [|inversion RC; subst; cbn [hc_keys hc_last map_err]; auto 10].
      change (ek_decrypt A unencrypted b) with (Ok (E:=unit) b) in RC. cbn [raw_parse] in RC. inversion RC; subst. cbn [hc_keys hc_last map_err]. repeat (split; [reflexivity|]). eexists; split; [reflexivity|assumption].
  - inversion RC; subst. cbn [hc_keys hc_last map_err]. auto 10.
  - exfalso. clear -RT. unfold response_type in RT. destruct (hr_type x) as [[s|]|]; [|discriminate|destruct (hr_success x); discriminate].
    destruct (parse_u8 s); [|discriminate]. destruct (mtype_of_num n); discriminate.
Qed.
End plain.

(** ** Over HTTP as in To0Model *)
Section refines.
Context (A : aead) (c : crypto) (chk : bool) (avail : bool) (wo : world) (cf : to0conf).
Lemma try_urls_ext net net' rnd v urls : forall i, (forall j u, (i <= j)%nat -> net j u = net' j u) -> try_urls c chk cf net i rnd v urls = try_urls c chk cf net' i rnd v urls.
Proof.
  induction urls as [|u r IH]; intros i H; cbn [try_urls]; [reflexivity|]. rewrite <- (H i u (le_n i)). destruct (net i u) as [[n a]|x|p]; [reflexivity| |reflexivity].
  rewrite (IH (S i)); [reflexivity|]. intros j w L. apply H. lia.
Qed.
Lemma no_panic_from {B} (f : cval -> option B) b p : from_slice f b <> Panic p.
Proof. Local Transparent from_slice. unfold from_slice. destruct (dec_top b); [|discriminate]. destruct (f c0); discriminate. Qed.
Local Opaque from_slice.
Lemma urls_refine v urls : forall s i, exists net rnd cs l,
  s_hist (fst (to0_urls A c chk avail wo cf v urls s)) = s_hist s ++ l /\ Forall2 sent_as cs l /\
  match try_urls c chk cf net i rnd v urls with
  | (cs', Some o) => cs' = cs /\ snd (to0_urls A c chk avail wo cf v urls s) = o
  | (cs', None) => cs' = cs /\ snd (to0_urls A c chk avail wo cf v urls s) = Err tt
  end.
Proof.
  induction urls as [|u r IH]; intros s i.
  { exists (fun _ _ => Err tt), [], [], []. cbn [to0_urls try_urls fail fst snd]. rewrite app_nil_r. repeat (split; [first [reflexivity|constructor]|]). reflexivity. }
  cbn [to0_urls].
  destruct (ask_plain A avail wo TO0Hello TO0HelloAck (enc (VArr [])) (St (s_hist s) u client_new) eq_refl eq_refl eq_refl eq_refl eq_refl)
    as (s1 & o1 & w1 & AK & H1 & U1 & K1 & L1 & T1 & B1 & W1 & X1). cbn [s_hist s_url s_hc] in *.
  assert (WC : with_client u (to0_hello A avail wo) s = match o1 with Ok b => (s1, map_err (fun _ => tt) (from_slice as_helloack b)) | Err e => (s1, Err e) | Panic p => (s1, Panic p) end).
  { unfold with_client, to0_hello, dbind. rewrite AK. reflexivity. }
  rewrite WC.
  assert (S1 : sent_as (CHello u) (TWire u w1)) by (constructor; [exact T1|exact B1|exact W1]).
  assert (FAIL : exists net rnd cs l, s_hist (fst (to0_urls A c chk avail wo cf v r s1)) = s_hist s ++ l /\ Forall2 sent_as cs l /\
    match try_urls c chk cf net i rnd v (u :: r) with
    | (cs', Some o) => cs' = cs /\ snd (to0_urls A c chk avail wo cf v r s1) = o
    | (cs', None) => cs' = cs /\ snd (to0_urls A c chk avail wo cf v r s1) = Err tt
    end).
  { destruct (IH s1 (S i)) as (net & rnd & cs & l & HL & FL & TL).
    exists (fun j x => if Nat.eqb j i then Err tt else net j x), rnd, (CHello u :: cs), (TWire u w1 :: l). split; [rewrite HL, H1, <- app_assoc; reflexivity|].
    split; [constructor; assumption|]. cbn [try_urls]. rewrite Nat.eqb_refl.
    rewrite (try_urls_ext _ net rnd v r (S i)) by (intros j x LE; destruct (Nat.eqb_spec j i); [lia|reflexivity]).
    destruct (try_urls c chk cf net (S i) rnd v r) as [cs' [o|]]; destruct TL as [-> TL]; auto. }
  destruct o1 as [b| |p]; [|exact FAIL|].
  2: { exists (fun _ _ => Panic p), [], [CHello u], [TWire u w1]. cbn [fst snd]. split; [exact H1|]. split; [constructor; [exact S1|constructor]|]. cbn [try_urls]. auto. }
  destruct (from_slice as_helloack b) as [n|e|p] eqn:FS; cbn [map_err]; [|exact FAIL|exfalso; eapply no_panic_from; exact FS].
  set (rnd := wo_rand wo (s_hist s1) 2).
  assert (TS : to0_sign A c chk avail wo cf v n s1 = match sign_msg c chk cf v n rnd with Ok m => to0_ownersign A avail wo m s1 | Err _ => (s1, Err tt) | Panic p => (s1, Panic p) end).
  { unfold to0_sign, draw, lift, dbind at 1 2. fold rnd. destruct (sign_msg c chk cf v n rnd); reflexivity. }
  rewrite TS. exists (fun _ _ => Ok (n, fun m => snd (to0_ownersign A avail wo m s1))), rnd. cbn [try_urls].
  destruct (sign_msg c chk cf v n rnd) as [m|e|p] eqn:SM; cbn [map_err].
  2: { exists [CHello u], [TWire u w1]. cbn [fst snd]. split; [exact H1|]. split; [constructor; [exact S1|constructor]|]. destruct e; auto. }
  2: { exists [CHello u], [TWire u w1]. cbn [fst snd]. split; [exact H1|]. split; [constructor; [exact S1|constructor]|]. auto. }
  assert (V1 : valid_prev TO0OwnerSign (hc_last (s_hc s1)) = true) by (rewrite L1; reflexivity).
  destruct (ask_plain A avail wo TO0OwnerSign TO0AcceptOwner m s1 K1 V1 eq_refl eq_refl eq_refl) as (s2 & o2 & w2 & AK2 & H2 & U2 & K2 & L2 & T2 & B2 & W2 & X2).
  exists [CHello u; CSign u m], [TWire u w1; TWire u w2]. rewrite U1 in H2.
  assert (S2 : sent_as (CSign u m) (TWire u w2)) by (constructor; assumption).
  assert (HS : s_hist (fst (to0_ownersign A avail wo m s1)) = s_hist s2).
  { unfold to0_ownersign, dbind. rewrite AK2. destruct o2; reflexivity. }
  split; [rewrite HS, H2, H1, <- app_assoc; reflexivity|]. split; [repeat constructor; assumption|]. auto.
Qed.
Lemma report_refines sh v s : exists net rnd l, s_hist (fst (to0_report A c chk avail sh wo cf v s)) = s_hist s ++ l /\
  Forall2 sent_as (fst (report_ov c chk sh cf net rnd v)) l /\ snd (report_ov c chk sh cf net rnd v) = snd (to0_report A c chk avail sh wo cf v s).
Proof.
  assert (NONE : forall o, exists (net : rvnet) (rnd : bytes) l, s_hist s = s_hist s ++ l /\ Forall2 sent_as (fst ([], o)) l /\ snd (A:=list contact) (B:=outcome unit N) ([], o) = o).
  { intros o. exists (fun _ _ => Err tt), [], []. rewrite app_nil_r. repeat constructor. }
  unfold to0_report, report_ov. destruct (negb _); [apply (NONE (Err tt))|]. destruct (ov_chain v) as [ch|]; [|apply (NONE (Err tt))].
  unfold dbind at 1 2, lift at 1 3. destruct (match tc_trusted cf with Some bag => verify_from_x5bag c ch bag | None => insecure_verify c ch end) as [leaf|e|p]; cbn [map_err fst snd]; [|apply (NONE (Err tt))|apply (NONE (Panic p))].
  unfold dbind, lift. destruct (to_interpreted (hd_rv (ov_header v)) RvModel.Owner) as [l|e|p]; cbn [map_err fst snd]; [|apply (NONE (Err tt))|apply (NONE (Panic p))].
  destruct (urls_refine v (flat_map (get_urls sh) l) s 0%nat) as (net & rnd & cs & tr & H & F & T). exists net, rnd, tr. split; [exact H|].
  destruct (try_urls c chk cf net 0 rnd v (flat_map (get_urls sh) l)) as [cs' [o|]]; destruct T as [-> ->]; auto.
Qed.
End refines.

(** ** With a rendezvous server *)
Lemma hello_read : from_slice as_unit_struct (enc (VArr [])) = Ok tt.
Proof. rewrite from_slice_enc; [reflexivity|]. unfold MAX_DEPTH. apply vok_arr; [unfold two64, nlen; cbn [length]; lia|constructor]. Qed.
Lemma helloack_read n : nonce_ok n -> from_slice as_helloack (enc (VArr [bstr_val n])) = Ok n.
Proof.
  intros G. rewrite from_slice_enc.
  - unfold as_helloack. cbn [as_fields untag]. rewrite as_bstr16_val by apply G. reflexivity.
  - unfold MAX_DEPTH. apply vok_arr; [unfold two64, nlen; cbn [length]; lia|]. constructor; [apply vok_nonce; exact G|constructor].
Qed.
Lemma acceptowner_read n : n < 2 ^ 32 -> from_slice as_acceptowner (enc (VArr [VInt (Z.of_N n)])) = Ok n.
Proof.
  intros G. rewrite from_slice_enc.
  - unfold as_acceptowner. cbn [as_fields untag]. unfold as_u32. rewrite as_int_ok by lia. cbn [option_map of_option]. rewrite N2Z.id. reflexivity.
  - unfold MAX_DEPTH. apply vok_arr; [unfold two64, nlen; cbn [length]; lia|]. constructor; [cbn [vok]; unfold two64; lia|constructor].
Qed.
Lemma undisturbed_weaken {W D M E} A idt (sv : server W D M E) fair id holds l : undisturbed A idt sv fair id holds l -> undisturbed A idt sv (fun _ _ => True) id (fun _ => True) l.
Proof.
  intros [H F]. split; [exact H|]. eapply Forall_impl; [|exact F]. intros e. unfold apart. destruct e; auto. intros (X & Y & _). auto.
Qed.

Section growing.
Context (A : aead) (c : crypto) (chk : bool) (avail : bool) (wo : world) (cf : to0conf).
Lemma growing_hello : growing (to0_hello A avail wo).
Proof. unfold to0_hello. apply growing_dbind; [apply growing_ask|]. intros b. apply growing_lift. Qed.
Lemma growing_sign v n : growing (to0_sign A c chk avail wo cf v n).
Proof.
  unfold to0_sign. apply growing_dbind; [apply growing_draw|]. intros rnd. apply growing_dbind; [apply growing_lift|]. intros m. unfold to0_ownersign.
  apply growing_dbind; [apply growing_ask|]. intros x. apply growing_lift.
Qed.
Lemma growing_urls v us : growing (to0_urls A c chk avail wo cf v us).
Proof.
  induction us as [|u r IH]; intros s; cbn [to0_urls]; [apply growing_fail|]. destruct (growing_hello (St (s_hist s) u client_new)) as (l & HL). unfold with_client.
  destruct (to0_hello A avail wo (St (s_hist s) u client_new)) as [s1 [b|e|p]]; cbn [fst s_hist] in HL.
  - destruct (growing_sign v b s1) as (l2 & H2). exists (l ++ l2). rewrite H2, HL, app_assoc. reflexivity.
  - destruct (IH s1) as (l2 & H2). exists (l ++ l2). rewrite H2, HL, app_assoc. reflexivity.
  - exists l. exact HL.
Qed.
Lemma urls_vain v us : forall rest s, Forall (dead wo) us -> exists s' l, to0_urls A c chk avail wo cf v (us ++ rest) s = to0_urls A c chk avail wo cf v rest s' /\ s_hist s' = s_hist s ++ l /\ Forall (to_dead wo) l.
Proof.
  induction us as [|u us IH]; intros rest s F; cbn [app]; [exists s, []; rewrite app_nil_r; auto|]. inversion F as [|? ? D F']; subst.
  assert (HV : in_vain wo u (to0_hello A avail wo)) by (unfold to0_hello; apply dbind_vain, ask_vain; exact D).
  destruct (HV (St (s_hist s) u client_new) (conj eq_refl eq_refl)) as (s1 & l & E & _ & H & FL). cbn [s_hist] in H.
  destruct (IH rest s1 F') as (s2 & l2 & E2 & H2 & F2). exists s2, (l ++ l2). cbn [to0_urls]. unfold with_client at 1. rewrite E. split; [exact E2|]. rewrite H2, H, <- app_assoc. split; [reflexivity|apply Forall_app; auto].
Qed.
End growing.

Section registers.
Context (A : aead) (AR : aead_roundtrip A) (SLG : seal_longer A) (idt : str -> option str) (c : crypto) (HO : outputs_ok c) (HS : sign_correct c) (chk : bool)
  (kf : keyfns) (KF : keyfns_ok c kf) (rcf : rvconf) (cf : to0conf) {W : Type} (be : backend item W)
  (data : bytes) (v : voucher) (key : pubkey) (RG : registrable c chk kf rcf cf data v key)
  (fair : rvmsg -> rvenv -> Prop) (pre : W -> Prop) (post : N -> W -> Prop) (until : N) (UB : until / second + N.min (tc_period cf) (cf_max rcf) < 2 ^ 63)
  (KP : forall im w s m e w' r, fair m e -> pre w -> sv_handle (rv_server c chk kf rcf be) im w s m e = (w', r) -> pre w')
  (HANDLE : forall nonce rnd s e w, pre w -> P_To0.rightful_request c chk kf rcf cf data v key nonce s e -> exists m msg w',
     sign_msg c chk cf v nonce rnd = Ok m /\ rv_parse chk TO0OwnerSign m = Ok msg /\
     rv_handle c chk kf rcf be TO0OwnerSign w s msg e = (w', HReply (ses_data s) None (enc (VArr [VInt (Z.of_N (N.min (tc_period cf) (cf_max rcf)))]))) /\ post (e_now e) w')
  (avail av : bool) (wo : world) (url : str) (surr : list devent -> surround W rvenv) (at_ : list devent -> sys (W:=W) (D:=rvdata))
  (SD : reached A idt (rv_server c chk kf rcf be) av wo url surr at_)
  (id : str) (QU : forall h, undisturbed A idt (rv_server c chk kf rcf be) fair id pre (su_before (surr h)))
  (RR : forall h, rv_ready idt until (surr h)) (ID : forall h, su_id (surr h) = id).
Notation sv := (rv_server c chk kf rcf be).

(** What was so of the store is so when the next request comes in. *)
Lemma pre_later h : y_pend (at_ h) = [] -> pre (y_world (at_ h)) -> pre (y_world (fst (sys_run A idt sv (at_ h) (sequential (su_before (surr h)))))).
Proof using KP QU.
  intros YP PW. destruct (QU h) as [_ F]. destruct (ServeProofs.quiet_run A idt sv fair pre KP id (su_before (surr h)) (at_ h) YP PW F) as (_ & X & _). exact X.
Qed.
Lemma session_ok s : y_pend (at_ (s_hist s)) = [] -> pre (y_world (at_ (s_hist s))) -> 
  forall rest, fits (s_hist (fst (to0_urls A c chk avail wo cf v (url :: rest) s))) ->
  exists s' w20 w22, to0_urls A c chk avail wo cf v (url :: rest) s = (s', Ok (N.min (tc_period cf) (cf_max rcf))) /\
    s_hist s' = s_hist s ++ [TWire url w20; TWire url w22] /\ wr_type w20 = 20 /\ wr_type w22 = 22 /\
    post (e_now (su_env (surr (s_hist s ++ [TWire url w20])) w22)) (y_world (at_ (s_hist s'))) /\ y_pend (at_ (s_hist s')) = [].
Proof using AR SLG HO HS KF RG UB KP HANDLE SD QU RR ID.
  intros YP PW rest FT. set (s0 := St (s_hist s) url client_new).
  destruct (RR (s_hist s)) as [RE RT RS RTK]. set (w0 := Wire 0 None false []). destruct (RE w0) as (n & EN & NOK).
  destruct RG as [[DB DL] RD TG OW TL AD].
  assert (F1 : fits (s_hist (fst (with_client url (to0_hello A avail wo) s)))).
  { cbn [to0_urls] in FT. destruct (with_client url (to0_hello A avail wo) s) as [s1 [b|e|p]] eqn:WC; cbn [fst] in *; [|eapply P_Find.fits_grow; [apply growing_urls|exact FT]|exact FT].
    eapply P_Find.fits_grow; [apply growing_sign|exact FT]. }
  destruct (ServeProofs.ask_served_at A AR SLG idt sv (fun _ _ => True) (fun _ => True) (fun _ _ _ _ _ _ _ _ _ _ => Logic.I) avail av wo url surr at_ SD id (fun h => undisturbed_weaken _ _ _ _ _ _ _ (QU h))
     TO0Hello TO0HelloAck (enc (VArr [])) None s0 (Ses None None (RvData None None None)) MHello (RvData (Some (nonce_text n)) None None) (enc (VArr [bstr_val n])) pre)
    as (s1 & w20 & AK & H1 & T1 & K1 & L1 & SY & PW1).
  - right. split; [|reflexivity]. constructor; cbn [s0 s_url s_hist s_hc]; auto. destruct RTK as [X Y]. rewrite <- (ID (s_hist s)). auto.
  - reflexivity.
  - reflexivity.
  - reflexivity.
  - reflexivity.
  - reflexivity.
  - intros _. cbn [rv_server sv_parse]. unfold rv_parse. rewrite hello_read. reflexivity.
  - intros wm _ w _. exists w. cbn [s0 s_hist]. rewrite (RS wm w0). cbn [rv_server sv_handle rv_handle]. unfold RvServerModel.h_hello. rewrite EN. cbn [e_nonce ses_data sd_nonce4 sd_guid]. split; [reflexivity|]. split; [exact Logic.I|].
    apply pre_later; assumption.
  - exact Logic.I.
  - apply (fits_first (ask A avail wo TO0Hello TO0HelloAck (Ok (enc (VArr []))) None) (fun b => lift (from_slice as_helloack b)) s0); [intros x; apply growing_lift|exact F1].
  - cbn [s0 s_hist s_hc] in *.
    assert (WC : with_client url (to0_hello A avail wo) s = (s1, Ok n)).
    { unfold with_client, to0_hello. fold s0. rewrite (dbind_step _ _ _ _ _ AK). unfold lift. rewrite (helloack_read n NOK). reflexivity. }
    set (rnd := wo_rand wo (s_hist s1) 2).
    destruct (RR (s_hist s1)) as [RE2 RT2 RS2 RTK2]. destruct (RE2 w0) as (n2 & EN2 & NOK2).
    set (ses := Ses (Some TO0HelloAck) None (RvData (Some (nonce_text n)) None None)).
    assert (RQ : P_To0.rightful_request c chk kf rcf cf data v key n ses (su_env (surr (s_hist s1)) w0)).
    { unfold P_To0.rightful_request. repeat (split; [first [assumption|apply NOK|reflexivity]|]). rewrite EN2. cbn [e_fault e_now]. split; [reflexivity|].
      eapply N.le_lt_trans; [|exact UB]. apply N.add_le_mono_r. apply N.div_le_mono; [discriminate|apply RT2]. }
    destruct (P_To0.rightful_checked c chk kf rcf cf data v key n rnd ses _ HO HS KF RQ) as (m & o & SM & RP & _).
    assert (TS : to0_sign A c chk avail wo cf v n s1 = to0_ownersign A avail wo m s1).
    { unfold to0_sign, draw, lift, dbind at 1 2. fold rnd. rewrite SM. reflexivity. }
    assert (F2 : fits (s_hist (fst (to0_ownersign A avail wo m s1)))).
    { cbn [to0_urls] in FT. rewrite WC, TS in FT. exact FT. }
    assert (SP : y_pend (at_ (s_hist s1)) = []) by apply SY.
    destruct (ServeProofs.ask_served_at A AR SLG idt sv (fun _ _ => True) (fun _ => True) (fun _ _ _ _ _ _ _ _ _ _ => Logic.I) avail av wo url surr at_ SD id (fun h => undisturbed_weaken _ _ _ _ _ _ _ (QU h))
       TO0OwnerSign TO0AcceptOwner m None s1 ses (MOwnerSign o) (ses_data ses) (enc (VArr [VInt (Z.of_N (N.min (tc_period cf) (cf_max rcf)))])) (post (e_now (su_env (surr (s_hist s1)) w0))))
      as (s2 & w22 & AK2 & H2 & T2 & K2 & L2 & SY2 & PW2).
    + left. exact SY.
    + rewrite L1. reflexivity.
    + reflexivity.
    + rewrite K1. reflexivity.
    + rewrite K1. reflexivity.
    + reflexivity.
    + intros _. exact RP.
    + intros wm _ w _. rewrite (RS2 wm w0).
      destruct (HANDLE n rnd ses (su_env (surr (s_hist s1)) w0) w (pre_later _ SP PW1) RQ) as (m' & msg' & w' & SM' & RP' & HH & PO).
      assert (m' = m) by (rewrite SM in SM'; inversion SM'; reflexivity). subst m'. rewrite RP in RP'. inversion RP'; subst msg'.
      exists w'. cbn [rv_server sv_handle]. auto.
    + exact Logic.I.
    + eapply fits_first; [|exact F2]. intros x. apply growing_lift.
    + exists s2, w20, w22. split.
      { cbn [to0_urls]. rewrite WC, TS. unfold to0_ownersign. rewrite (dbind_step _ _ _ _ _ AK2). unfold lift. rewrite acceptowner_read; [reflexivity|]. destruct TL as (_ & _ & X & _). lia. }
      split; [rewrite H2, H1, <- app_assoc; reflexivity|]. split; [exact T1|]. split; [exact T2|]. split; [|apply SY2]. rewrite <- H1. rewrite (RS2 w22 w0). exact PW2.
Qed.
Lemma report_ok sh s il us rest : y_pend (at_ (s_hist s)) = [] -> pre (y_world (at_ (s_hist s))) -> reportable c cf v ->
  to_interpreted (hd_rv (ov_header v)) RvModel.Owner = Ok il -> flat_map (get_urls sh) il = us ++ url :: rest -> Forall (dead wo) us -> ~ dead wo url ->
  fits (s_hist (fst (to0_report A c chk avail sh wo cf v s))) ->
  exists s' l w20 w22, to0_report A c chk avail sh wo cf v s = (s', Ok (N.min (tc_period cf) (cf_max rcf))) /\
    s_hist s' = s_hist s ++ l ++ [TWire url w20; TWire url w22] /\ Forall (to_dead wo) l /\ wr_type w20 = 20 /\ wr_type w22 = 22 /\
    post (e_now (su_env (surr (s_hist s ++ l ++ [TWire url w20])) w22)) (y_world (at_ (s_hist s'))) /\ y_pend (at_ (s_hist s')) = [].
Proof using AR SLG HO HS KF RG UB KP HANDLE SD QU RR ID.
  intros YP PW (VS & ch & leaf & CH & LF) TI US DU ND FT.
  assert (EQ : to0_report A c chk avail sh wo cf v s = to0_urls A c chk avail wo cf v (us ++ url :: rest) s).
  { unfold to0_report. rewrite VS, CH. change (negb (101 =? V1_1)) with false. cbv iota. unfold dbind, lift. rewrite LF. cbn [map_err]. rewrite TI. cbn [map_err]. rewrite US. reflexivity. }
  rewrite EQ in *. destruct (urls_vain A c chk avail wo cf v us (url :: rest) s DU) as (s1 & l & E1 & H1 & FL). rewrite E1 in *.
  pose proof (P_Find.rv_untouched A idt sv av wo url surr at_ SD ND l (s_hist s) FL) as AT. rewrite <- H1 in AT.
  destruct (session_ok s1) with (rest := rest) as (s' & w20 & w22 & E & HH & T1 & T2 & PO & YP'); [rewrite AT; exact YP|rewrite AT; exact PW|exact FT|].
  exists s', l, w20, w22. split; [exact E|]. rewrite H1, <- !app_assoc in *. auto 10.
Qed.
End registers.

(** ** The two stores *)
Lemma rightful_item c chk kf rcf cf data v key nonce rnd s e : outputs_ok c -> sign_correct c -> keyfns_ok c kf -> P_To0.rightful_request c chk kf rcf cf data v key nonce s e ->
  exists m o ib, sign_msg c chk cf v nonce rnd = Ok m /\ rv_parse chk TO0OwnerSign m = Ok (MOwnerSign o) /\
    ownersign_check c chk kf rcf (nonce_text nonce) o = Ok (hd_guid (ov_header v), Item key (os_to1d o), N.min (tc_period cf) (cf_max rcf)) /\
    owners_record c chk cf key (Item key (os_to1d o)) /\ item_write (Item key (os_to1d o)) = Ok ib /\ item_read c chk ib = Ok (Item key (os_to1d o)).
Proof.
  intros HO HS KF RR.
  pose proof (P_To0.rightful_checked c chk kf rcf cf data v key nonce rnd s e HO HS KF RR) as (m & o & SM & RP & OC & GP & _ & ib & IW & IR).
  destruct RR as (B & L & D & TS & (ps & VE & PN & OW) & (FA & LA & LP & AL) & (MF & ch & leaf & CH & LF & PK) & NB & NL & N3 & EF & TB).
  destruct (sign_msg_accepted c chk cf kf rcf HO HS data v ps nonce rnd ch leaf key B L D TS FA LA LP AL NB NL VE PN OW MF CH LF PK) as (m' & o' & SM' & RP' & _ & _ & raw & RB & RL & RD).
  assert (m' = m) by (rewrite SM in SM'; inversion SM'; reflexivity). subst m'. rewrite RP in RP'. inversion RP'; subst o'. clear RP' SM'.
  exists m, o, ib. repeat (split; [assumption|]). split; [|auto]. split; [reflexivity|]. cbn [si_to1d]. split.
  - destruct (CoseFacts.cose_reread chk raw (os_to1d o) RB) as (b & SB & DB & _); [|exact RD|exists b; auto]. eapply N.lt_trans; [exact RL|]. vm_compute. reflexivity.
  - destruct GP as (h & GP). destruct (CoseFacts.cose_payload_signed _ _ _ _ _ GP) as [SG RP']. split; [exact SG|]. exists h. exact RP'.
Qed.
Section stores.
Context (c : crypto) (HO : outputs_ok c) (HS : sign_correct c) (chk : bool) (kf : keyfns) (KF : keyfns_ok c kf) (rcf : rvconf) (cf : to0conf)
  (data : bytes) (v : voucher) (key : pubkey) (k : str) (G : guid_text (hd_guid (ov_header v)) = Some k).
Definition dir_post (now : N) (d : dir) : Prop := exists it, owners_record c chk cf key it /\ dir_until (item_codec c chk) k it (registered_to cf rcf now) d.
Definition db_post (now : N) (t : table) : Prop := exists it, owners_record c chk cf key it /\ row_of (item_codec c chk) k it t.
Notation reply := (enc (VArr [VInt (Z.of_N (N.min (tc_period cf) (cf_max rcf)))])).
Lemma dir_handles nonce rnd s e w : True -> P_To0.rightful_request c chk kf rcf cf data v key nonce s e -> exists m msg w',
  sign_msg c chk cf v nonce rnd = Ok m /\ rv_parse chk TO0OwnerSign m = Ok msg /\
  rv_handle c chk kf rcf (rv_dir c chk) TO0OwnerSign w s msg e = (w', HReply (ses_data s) None reply) /\ dir_post (e_now e) w'.
Proof using HO HS KF G.
  intros _ RR. destruct (rightful_item c chk kf rcf cf data v key nonce rnd s e HO HS KF RR) as (m & o & ib & SM & RP & OC & OR & IW & IR).
  destruct RR as (_ & _ & _ & _ & _ & _ & _ & _ & _ & N3 & EF & TB).
  exists m, (MOwnerSign o). eexists. split; [exact SM|]. split; [exact RP|]. cbn [rv_handle]. split.
  - unfold h_ownersign. rewrite N3, OC, G, EF. unfold rv_dir. cbn [b_store dir_backend]. unfold dir_store. cbn [item_codec ser]. unfold to_serr. rewrite IW. cbn [map_err]. cbn [b_meta dir_backend].
    unfold dir_set_meta. rewrite rename_write, aget_aset_eq. reflexivity.
  - exists (Item key (os_to1d o)). split; [exact OR|]. eexists. split; [apply aget_aset_eq|]. cbn [f_data f_xattr item_codec de]. rewrite IR. split; [reflexivity|]. rewrite aget_aset_eq. cbn [to_stored]. rewrite deadline_eq.
    eexists. split; [apply ttl_disk; exact TB|]. apply N.le_refl.
Qed.
Lemma db_handles nonce rnd s e t : aget k t = None -> P_To0.rightful_request c chk kf rcf cf data v key nonce s e -> exists m msg w',
  sign_msg c chk cf v nonce rnd = Ok m /\ rv_parse chk TO0OwnerSign m = Ok msg /\
  rv_handle c chk kf rcf (rv_db c chk) TO0OwnerSign t s msg e = (w', HReply (ses_data s) None reply) /\ db_post (e_now e) w'.
Proof using HO HS KF G.
  intros NO RR. destruct (rightful_item c chk kf rcf cf data v key nonce rnd s e HO HS KF RR) as (m & o & ib & SM & RP & OC & OR & IW & IR).
  destruct RR as (_ & _ & _ & _ & _ & _ & _ & _ & _ & N3 & EF & TB).
  exists m, (MOwnerSign o). eexists. split; [exact SM|]. split; [exact RP|]. cbn [rv_handle]. split.
  - unfold h_ownersign. rewrite N3, OC, G, EF. unfold rv_db. cbn [b_store db_backend]. unfold db_store. cbn [item_codec ser]. unfold to_serr. rewrite IW. cbn [map_err]. rewrite NO. cbn [b_meta db_backend]. unfold db_set_meta. reflexivity.
  - exists (Item key (os_to1d o)). split; [exact OR|]. unfold row_of, update.
    assert (AG : aget k (t ++ [(k, Row ib None None None)]) = Some (Row ib None None None)) by (rewrite StoreProofs2.aget_app_new by exact NO; apply aget_aset_eq).
    rewrite AG. rewrite aget_aset_eq. eexists. split; [reflexivity|]. cbn [r_contents item_codec de]. rewrite IR. reflexivity.
Qed.
(** Others leave the table without this device. *)
Lemma db_absent until im w s m e w' r : of_others c chk k until m e -> aget k w = None -> sv_handle (rv_server c chk kf rcf (rv_db c chk)) im w s m e = (w', r) -> aget k w' = None.
Proof.
  clear G. intros [_ OF] NO H. cbn [rv_server sv_handle] in H. unfold rv_handle in H. destruct m as [|m|m|t].
  - unfold RvServerModel.h_hello in H. inversion H; subst. exact NO.
  - unfold h_ownersign in H. destruct (sd_nonce3 (ses_data s)) as [n|]; [|inversion H; subst; exact NO].
    destruct (ownersign_check c chk kf rcf n m) as [[[g x] wait]| |] eqn:CK; [|inversion H; subst; exact NO|inversion H; subst; exact NO].
    destruct (check_guid _ _ _ _ _ _ _ _ _ CK) as (t & TR & ->). destruct (OF t TR) as [BG NG].
    destruct (guid_text (hd_guid (ov_header (t0_voucher t)))) as [k'|] eqn:GT; [|inversion H; subst; exact NO].
    assert (NE : k' <> k) by congruence.
    assert (ST : forall w1 o1, b_store (rv_db c chk) w k' x = (w1, o1) -> aget k w1 = None).
    { intros w1 o1 S. cbn [rv_db b_store db_backend] in S. unfold db_store in S. destruct (ser (item_codec c chk) x); [|inversion S; subst; exact NO|inversion S; subst; exact NO].
      destruct (aget k' w) eqn:E; inversion S; subst; [exact NO|]. rewrite aget_app_new by exact E. rewrite aget_aset_ne by congruence. exact NO. }
    assert (MT : forall w1 w2 o2, aget k w1 = None -> b_meta (rv_db c chk) (e_now e) w1 k' Ttl (MDur wait) = (w2, o2) -> aget k w2 = None).
    { intros w1 w2 o2 N1 S. cbn [rv_db b_meta db_backend] in S. unfold db_set_meta, update in S. destruct (aget k' w1); inversion S; subst; [|exact N1]. rewrite aget_aset_ne by congruence. exact N1. }
    destruct (e_fault e);
      try (inversion H; subst; exact NO);
      destruct (b_store (rv_db c chk) w k' x) as [w1 o1] eqn:BS; pose proof (ST _ _ eq_refl) as N1;
      (destruct o1; [|inversion H; subst; exact N1|inversion H; subst; exact N1]);
      try (inversion H; subst; exact N1);
      destruct (b_meta (rv_db c chk) (e_now e) w1 k' Ttl (MDur wait)) as [w2 o2] eqn:BM; pose proof (MT _ _ _ N1 BM) as N2;
      destruct o2; inversion H; subst; exact N2.
  - unfold h_hellorv in H. destruct (negb _); [inversion H; subst; exact NO|]. destruct (negb _); [inversion H; subst; exact NO|].
    destruct (guid_text (RvServerModel.hr_guid m)) as [k'|]; [|inversion H; subst; exact NO].
    cbn [rv_db b_load db_backend] in H. destruct (db_load (item_codec c chk) w k') as [[]| |], (e_fault e); inversion H; subst; exact NO.
  - unfold RvServerModel.h_prove in H. destruct (sd_nonce4 (ses_data s)); [|inversion H; subst; exact NO]. destruct (nonce_parse _); [|inversion H; subst; exact NO].
    destruct (sd_guid (ses_data s)); [|inversion H; subst; exact NO]. destruct (guid_parse _); [|inversion H; subst; exact NO]. destruct (guid_text _) as [k'|]; [|inversion H; subst; exact NO].
    cbn [rv_db b_load db_backend] in H. destruct (e_fault e), (db_load (item_codec c chk) w k') as [[x|]| |]; try (inversion H; subst; exact NO);
      (destruct (get_eat c t (pk_key (si_key x))); [|inversion H; subst; assumption|inversion H; subst; assumption]);
      destruct (nonce_eq _ _) as [[]| |]; try (inversion H; subst; assumption); destruct (cose_serialize (si_to1d x)); inversion H; subst; assumption.
Qed.
End stores.

(** ** Panics *)
Lemma chain_no_panic c f ch w : (forall x, In x ch -> c_cert_key c x <> None) -> chain_verify c (fun x => Ok (f x)) ch <> Panic w.
Proof.
  intros HK. destruct ch as [|x [|y ch]]; cbn [chain_verify]; [discriminate|cbn [bind]; destruct (f x); discriminate|].
  generalize 0 as pos. generalize x at 1 as leaf. intros leaf. revert HK. generalize (x :: y :: ch) as l. clear. induction l as [|x l IH]; intros HK pos; [discriminate|]. destruct l as [|y l]; [discriminate|].
  cbn [chain_loop]. destruct (c_issued c y x); cbn [negb]; [|discriminate].
  pose proof (HK y (or_intror (or_introl eq_refl))) as KY. destruct (c_cert_key c y) as [k|]; [|congruence]. cbn [unwrap bind].
  destruct (c_cert_verify c x k) as [[|]|]; try discriminate. cbn [bind]. destruct (f y); [discriminate|]. apply IH. intros z I. apply HK. right. exact I.
Qed.
Lemma interpreted_no_panic sd r w : Forall P_Rv.wire r -> to_interpreted r sd <> Panic w.
Proof.
  induction 1 as [|d r W F IH]; cbn [to_interpreted]; [discriminate|]. pose proof (P_Rv.C15_no_panic sd d w W) as N. destruct (from_rv_directive d sd) as [o|e|p] eqn:E; cbn [bind]; [|discriminate|congruence].
  destruct (to_interpreted r sd); cbn [bind]; try discriminate. congruence.
Qed.
Lemma voucher_rv c chk data v : bytes_ok data -> voucher_deserialize c chk data = Ok v -> Forall P_Rv.wire (hd_rv (ov_header v)).
Proof.
  intros B D. destruct (voucher_deserialize_ok _ _ _ _ D) as (rest & P & COH). apply coherent_ok in COH. destruct COH as (_ & (hb & _ & H) & _).
  apply header_deserialize_ok in H. destruct H as (_ & _ & _ & G & _). unfold get in G. match type of G with bind ?e _ = _ => destruct e as [x| |]; cbn [bind] in G; try discriminate end. eapply P_Rv.C15_wire; exact G.
Qed.
Lemma helloack_ok b n : bytes_ok b -> from_slice as_helloack b = Ok n -> bytes_ok n /\ nlen n = 16.
Proof.
  intros B F. apply DecFacts.from_slice_ok in F. destruct F as (v & D & E). unfold as_helloack in E. pose proof (DecFacts.fields_octets v (DecFacts.dec_top_octets b v B D)) as FO.
  destruct (as_fields v) as [|x [|? ?]]; try discriminate. inversion FO; subst. split; [eapply DecFacts.bstr16_ok; eassumption|].
  unfold as_bstr16 in E. destruct (as_bytebuf x) as [b0|]; [|discriminate]. destruct (N.eqb_spec (nlen b0) 16); inversion E; subst; assumption.
Qed.
Section calm.
Context (A : aead) (c : crypto) (HO : outputs_ok c) (HS : sign_correct c) (chk : bool) (avail : bool) (wo : world) (cf : to0conf) (data : bytes) (v : voucher) (HL : harmless c chk cf data v) (PR : plain_responses wo).
Lemma urls_no_panic us : forall s p, snd (to0_urls A c chk avail wo cf v us s) <> Panic p.
Proof using HO HS HL PR.
  induction us as [|u r IH]; intros s p; cbn [to0_urls]; [discriminate|].
  destruct (ask_plain A avail wo TO0Hello TO0HelloAck (enc (VArr [])) (St (s_hist s) u client_new) eq_refl eq_refl eq_refl eq_refl eq_refl)
    as (s1 & o1 & w1 & AK & H1 & U1 & K1 & L1 & T1 & B1 & W1 & X1).
  assert (WC : with_client u (to0_hello A avail wo) s = match o1 with Ok b => (s1, map_err (fun _ => tt) (from_slice as_helloack b)) | Err e => (s1, Err e) | Panic p => (s1, Panic p) end).
  { unfold with_client, to0_hello, dbind. rewrite AK. reflexivity. }
  rewrite WC. destruct o1 as [b|e|q]; [|apply IH|].
  2: { destruct X1 as (x & RX & OX). destruct (PR _ _ RX) as [N _]. contradiction. }
  destruct X1 as (x & RX & BX). destruct (PR _ _ RX) as [_ BO]. specialize (BO _ BX).
  destruct (from_slice as_helloack b) as [n|e|q] eqn:FS; cbn [map_err]; [|apply IH|exfalso; eapply no_panic_from; exact FS].
  destruct (helloack_ok b n BO FS) as [NB NL]. destruct HL as [[DB DL] RD TG _ (FA & LA & LP & AL)].
  set (rnd := wo_rand wo (s_hist s1) 2).
  destruct (sign_msg_reads c chk cf HO HS data v n rnd DB DL RD TG FA LA LP AL NB NL) as (m & _ & _ & SM & _).
  assert (TS : to0_sign A c chk avail wo cf v n s1 = to0_ownersign A avail wo m s1).
  { unfold to0_sign, draw, lift, dbind at 1 2. fold rnd. rewrite SM. reflexivity. }
  rewrite TS. assert (V1 : valid_prev TO0OwnerSign (hc_last (s_hc s1)) = true) by (rewrite L1; reflexivity).
  destruct (ask_plain A avail wo TO0OwnerSign TO0AcceptOwner m s1 K1 V1 eq_refl eq_refl eq_refl) as (s2 & o2 & w2 & AK2 & H2 & U2 & K2 & L2 & T2 & B2 & W2 & X2).
  unfold to0_ownersign, dbind. rewrite AK2. destruct o2 as [b2|e|q]; cbn [snd lift].
  - destruct (from_slice as_acceptowner b2) as [y|e|q] eqn:F2; cbn [map_err]; try discriminate. exfalso. eapply no_panic_from. exact F2.
  - discriminate.
  - destruct X2 as (y & RY & OY). destruct (PR _ _ RY) as [N _]. contradiction.
Qed.
Lemma report_no_panic sh s p : snd (to0_report A c chk avail sh wo cf v s) <> Panic p.
Proof using HO HS HL PR.
  pose proof urls_no_panic as UN. destruct HL as [[DB DL] RD TG CE _]. unfold to0_report. destruct (negb _); [discriminate|]. destruct (ov_chain v) as [ch|] eqn:CH; [|discriminate].
  unfold dbind, lift. assert (NP : forall q, match tc_trusted cf with Some bag => verify_from_x5bag c ch bag | None => insecure_verify c ch end <> Panic q).
  { intros q. destruct (tc_trusted cf) as [bag|]; [apply (chain_no_panic c (bag_contains c bag))|apply (chain_no_panic c (fun _ => true))]; intros x I; eapply CE; [reflexivity|exact I|reflexivity|exact I]. }
  destruct (match tc_trusted cf with Some bag => verify_from_x5bag c ch bag | None => insecure_verify c ch end) as [leaf|e|q]; cbn [map_err snd]; [|discriminate|exfalso; exact (NP q eq_refl)].
  pose proof (interpreted_no_panic RvModel.Owner (hd_rv (ov_header v))) as NI.
  destruct (to_interpreted (hd_rv (ov_header v)) RvModel.Owner) as [il|e|q]; cbn [map_err snd]; [|discriminate|exfalso; exact (NI q (voucher_rv c chk data v DB RD) eq_refl)].
  apply UN.
Qed.
End calm.
