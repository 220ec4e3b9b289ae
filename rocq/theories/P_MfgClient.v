(** C60, C61, C62 and C63: the manufacturing client. *)
From Verif Require Import Base BaseFacts CborModel CborSpec CborProofs ValueModel Text TypesModel VoucherModel CryptoSpec VoucherSpec VoucherProofs VoucherProofs2 CoseFacts KexModel RvModel MsgModel SessionModel
  SessionSpec HttpClientModel RvServerModel RvServerRuns SiModel DevSiModel OwnerModel MfgModel MfgSpec ClientModel ClientSpec ClientProofs ClientProofs2 MfgClientModel MfgClientSpec MfgClientProofs MfgClientProofs2.
From Coq Require Import ZifyBool ZifyNat ZifyN.
Local Open Scope N_scope.
Local Opaque dec_top any_value.

(** * Headers that are read and written again *)
Lemma start_small m n b : encode_item_start m n = Ok b -> n <= 65535.
Proof. unfold encode_item_start. destruct (N.leb_spec n 23); [lia|]. destruct (N.leb_spec n 255); [lia|]. destruct (N.leb_spec n 65535); [lia|discriminate]. Qed.
Lemma header_reread c chk s hd hb : bytes_ok s -> nlen s < 2 ^ 62 -> header_deserialize c chk s = Ok hd -> header_serialize hd = Ok hb -> header_deserialize c chk hb = Ok hd.
Proof.
  intros B L D S. apply header_deserialize_ok in D. destruct D as (P & G0 & G1 & G2 & G3 & CD & G4 & G5).
  destruct (array_facts chk 6 s _ B ltac:(lia) P) as (rest & h & PA0 & ES & T & N6 & IO & ITS & LC).
  unfold header_serialize in S. rewrite CD in S. cbn [bind] in S. destruct (serialize_array (hd_contents hd)) as [data| |] eqn:SA; cbn [map_err] in S; try discriminate. inversion S; subst data.
  pose proof (serialize_len _ _ SA) as SL. change (2 ^ 62) with 4611686018427387904 in L.
  assert (TS : tag_small (pa_tag (hd_contents hd))).
  { unfold serialize_array in SA. destruct (pa_tag (hd_contents hd)) as [t|]; [|exact Logic.I]. destruct (encode_item_start MTag t) eqn:E; cbn [bind] in SA; try discriminate. apply start_small in E. exact E. }
  assert (PD : parse_array chk (Some 6) hb = Ok (hd_contents hd, [])).
  { destruct (hd_contents hd) as [tag xs] eqn:EC. cbn [CborModel.pa_items CborModel.pa_tag] in *.
    destruct (serialize_loop chk tag xs ltac:(lia) TS ITS) as (b' & E & TB). rewrite SA in E. inversion E; subst b'.
    rewrite <- (app_nil_r hb). apply parse_complete; [exact TB|right; split; [congruence|destruct xs; [discriminate|discriminate]]|unfold two63; lia]. }
  unfold header_deserialize, parse_array_data. rewrite PD. cbn [map_err bind]. rewrite G0. cbn [bind]. rewrite G1. cbn [bind]. rewrite G2. cbn [bind]. rewrite G3. cbn [bind]. rewrite CD. cbn [bind].
  rewrite G4. cbn [bind]. rewrite G5. cbn [bind]. destruct hd; reflexivity.
Qed.

Section client.
Context (A : aead) (c : crypto) (chk : bool) (ko : kex_ops) (avail : bool) (to_der : bytes -> bytes) (wo : world).
Context (newkey : list devent -> N -> N -> option (bytes * bytes)).
Local Notation mfg_main := (mfg_main A c chk ko avail to_der wo newkey).
Local Notation server_authenticated := (server_authenticated c chk ko avail wo).
Local Notation initialised := (initialised A c chk ko avail to_der wo).

(** A run with messages is one of the protocol. *)
Definition protocol (su : setup) (mi : minfo) : dm unit :=
  match su with
  | PlainDI stype keys => do! (secret, sk) := lift (of_option tt keys) in perform_di A c chk avail wo mi (Plain secret sk) stype
  | WithDiun m => do! (k, stype) := perform_diun A c chk ko avail to_der wo newkey m in perform_di A c chk avail wo mi k stype
  end.
Lemma main_runs present su mi url h x : mfg_main present su mi url = (h, x) -> (h = [] /\ x <> Initialised) \/ exists s r,
  will_initialise present /\ protocol su mi (St [] url client_new) = (s, r) /\ h = s_hist s /\ (x = Initialised -> r = Ok tt).
Proof.
  unfold MfgClientModel.mfg_main. assert (W : will_initialise present -> forall R : dm unit,
    (match with_client url R (St [] [] client_new) with (s, Ok _) => (s_hist s, Initialised) | (s, Err _) => (s_hist s, Failed) | (s, Panic p) => (s_hist s, MCrashed p) end) = (h, x) ->
    exists s r, will_initialise present /\ R (St [] url client_new) = (s, r) /\ h = s_hist s /\ (x = Initialised -> r = Ok tt)).
  { intros WI R. unfold with_client. cbn [s_hist]. destruct (R (St [] url client_new)) as [s r]. intros E. exists s, r. split; [exact WI|]. split; [reflexivity|].
    destruct r as [[]| |]; inversion E; subst; split; try reflexivity; intros X; congruence. }
  destruct present as [| |dc].
  - intros E. right. apply W in E; [exact E|left; reflexivity].
  - intros E. inversion E; subst. left. split; [reflexivity|discriminate].
  - destruct (dc_active dc) eqn:D; intros E; [inversion E; subst; left; split; [reflexivity|discriminate]|]. right. apply W in E; [exact E|]. right. exists dc. auto.
Qed.
Lemma gr_main P present su mi url h x p e q : gr P (protocol su mi) (St [] url client_new) -> mfg_main present su mi url = (h, x) -> h = p ++ e :: q -> P p e.
Proof.
  intros G M E. apply main_runs in M. destruct M as [[-> _]|(s & r & _ & R & -> & _)]; [destruct p; discriminate|]. apply G in R. destruct R as (l & EL & H). cbn [s_hist app] in EL, H.
  rewrite E in EL. exact (H _ _ _ (eq_sym EL)).
Qed.

(** * C60 *)
(** Whatever the network answers: the device's first message says nothing about it; each later message, and the credential,
    follows the server's proof that it is trusted, and the messages are encrypted with the keys agreed on with that server. *)
Theorem C60_trusted_server : forall present m mi url h x p e q, mfg_main present (WithDiun m) mi url = (h, x) -> h = p ++ e :: q ->
  (p = [] /\ first_contact e) \/ exists keys, server_authenticated m p keys /\ confidential A keys e.
Proof.
  intros present m mi url h x p e q M E. refine (gr_main (auth_ev A c chk ko avail wo m) _ _ _ _ _ _ _ _ _ _ M E). cbn [protocol].
  apply gr_dbind; [apply diun_gr|]. intros s1 [k st] M1. apply diun_end in M1. destruct M1 as (keys & AU & KE & _). exact (di_auth A c chk ko avail wo m keys mi k st s1 AU KE).
Qed.

(** * C61 *)
Lemma run_gr su mi url : sane_small wo -> opens_bytes A -> outputs_ok c -> hmac_bytes c -> good_keys c to_der newkey su ->
  gr (run_ev A c chk ko avail to_der wo su) (protocol su mi) (St [] url client_new).
Proof.
  intros SA OB OC HB GK. unfold protocol. destruct su as [stype keys|m].
  - apply gr_dbind; [apply gr_still; apply emits_lift|]. intros s1 [secret sk] M1. apply lift_ok in M1. destruct M1 as [-> EK].
    destruct keys as [[s' k']|]; inversion EK; subst. apply di_gr; auto. split; [reflexivity|]. split; [apply (proj2 (proj2 GK) stype); reflexivity|]. exists secret, sk. auto.
  - apply gr_dbind.
    + intros s' r M. pose proof (diun_gr A c chk ko avail to_der wo newkey m url _ _ M) as (l & EL & H).
      pose proof (diun_sends A c chk ko avail to_der wo newkey (di_ev A c chk ko avail to_der wo (WithDiun m)) m url) as DS.
      destruct (DS ltac:(intros p u w _ NT T; contradiction) _ _ M) as (l' & EL' & H'). exists l. split; [exact EL|]. intros p e q E. split; [exact (H _ _ _ E)|].
      assert (l' = l) as X by (cbn [s_hist app] in EL, EL'; congruence). rewrite X in H'. exact (H' _ _ _ E).
    + intros s1 [k st] M1. destruct (diun_ok A c chk ko avail to_der wo newkey m url (WithDiun m) s1 k st GK M1) as (keys & AU & KE & KO & KK). apply di_gr; auto. split; [cbn [session_keys]; rewrite KE; exact AU|].
      split; [exact KO|]. rewrite KE. exact KK.
Qed.
(** Whatever a run does besides sending messages is to write its credential; and when it does, it has its header from the
    server, and what it writes reads as an active credential for that header, with keys of the device that the server
    knows. *)
Theorem C61_credential : forall present su mi url h x p e q, sane_small wo -> opens_bytes A -> outputs_ok c -> hmac_bytes c -> good_keys c to_der newkey su ->
  mfg_main present su mi url = (h, x) -> h = p ++ e :: q -> ~ is_wire e ->
  exists data keys hd info dc, writes_credential e data /\ initialised su p data keys hd info dc.
Proof.
  intros present su mi url h x p e q SA OB OC HB GK M E NW. pose proof (gr_main _ _ _ _ _ _ _ _ _ _ (run_gr su mi url SA OB OC HB GK) M E) as [_ D].
  destruct e as [u w| | | | |]; [exfalso; apply NW; exists u, w; reflexivity| | | | |]; exact D.
Qed.
(** An HMAC is only sent right after that was written, and is the device's own over the header as it will appear in its
    voucher. *)
Theorem C61_hmac : forall present su mi url h x p u w q, sane_small wo -> opens_bytes A -> outputs_ok c -> hmac_bytes c -> good_keys c to_der newkey su ->
  mfg_main present su mi url = (h, x) -> h = p ++ TWire u w :: q -> wr_type w = 12 ->
  exists h1 data keys hd info dc nonce pt hb hmac, p = h1 ++ [TFx (EWrite CRED_PATH data 438)] /\ wo_fx wo p = Fine /\
    initialised su h1 data keys hd info dc /\ ek_encrypt A keys nonce pt = Ok (wr_body w) /\ names_hmac pt hmac /\
    header_serialize hd = Ok hb /\ own_hmac c dc hb hmac.
Proof.
  intros present su mi url h x p u w q SA OB OC HB GK M E T. pose proof (gr_main _ _ _ _ _ _ _ _ _ _ (run_gr su mi url SA OB OC HB GK) M E) as [_ D]. cbn [di_ev] in D.
  destruct (D T) as (h1 & data & keys & hd & info & dc & n & pt & hb & hmac & P & FX & IN & EN & NH & HS & OW & _). exists h1, data, keys, hd, info, dc, n, pt, hb, hmac. auto 10.
Qed.
(** And with that header and that HMAC, a proof from an owner passes the device's checks with the credential written. *)
Theorem C61_recognised : forall present su mi url h x p u w q, sane_small wo -> opens_bytes A -> outputs_ok c -> hmac_bytes c -> good_keys c to_der newkey su ->
  mfg_main present su mi url = (h, x) -> h = p ++ TWire u w :: q -> wr_type w = 12 ->
  exists h1 data info dc hb hmac hd keys nonce pt, p = h1 ++ [TFx (EWrite CRED_PATH data 438)] /\ from_slice as_cred data = Ok (info, dc) /\
    initialised su h1 data keys hd info dc /\ header_serialize hd = Ok hb /\ ek_encrypt A keys nonce pt = Ok (wr_body w) /\ names_hmac pt hmac /\
    (forall n5 tok ph, read_provehdr chk (cs_payload tok) = Ok ph -> ph_header ph = hb -> ph_hmac ph = hmac -> ph_nonce5 ph = n5 -> ph_sig ph = (ES384, []) ->
     check_hello c chk dc n5 tok = Ok ph).
Proof.
  intros present su mi url h x p u w q SA OB OC HB GK M E T. pose proof (gr_main _ _ _ _ _ _ _ _ _ _ (run_gr su mi url SA OB OC HB GK) M E) as [_ D]. cbn [di_ev] in D.
  destruct (D T) as (h1 & data & keys & hd & info & dc & n & pt & hb & hmac & P & FX & IN & EN & NH & HS & _ & VH). exists h1, data, info, dc, hb, hmac, hd, keys, n, pt.
  split; [exact P|]. pose proof IN as (h2 & u2 & w2 & b & _ & _ & _ & (ct & CB & DC) & HD & RC & CF & _). split; [exact RC|]. split; [exact IN|]. split; [exact HS|]. split; [exact EN|]. split; [exact NH|].
  intros n5 tok ph RP EH EM E5 ES.
  assert (BB : bytes_ok b /\ nlen b < 4294967296).
  { destruct CB as (r & ER & _ & EB). destruct (SA _ _ _ ER EB) as [B1 L1]. clear -OB B1 L1 DC. unfold ek_decrypt in DC.
    destruct (ek_suite _) as [su|]; [|inversion DC; subst; auto]. destruct (ek_keys _) as [[sevk|]|]; try discriminate. destruct (unseal A sevk ct) as [p|] eqn:U; cbn [of_option] in DC; [|discriminate].
    inversion DC; subst. destruct (OB _ _ _ B1 U). split; [assumption|lia]. }
  assert (RR : header_deserialize c chk hb = Ok hd) by (eapply header_reread; [apply BB| |exact HD|exact HS]; destruct BB as [_ BB]; change (2 ^ 62) with 4611686018427387904; lia).
  destruct CF as (_ & _ & _ & _ & _ & kraw & NK & MH).
  unfold check_hello, cose_get_payload_unverified. rewrite RP. cbn [bind]. rewrite E5. unfold nonce_eq, memcmp_eq. rewrite N.eqb_refl. cbn [negb bind].
  assert (bytes_eqb n5 n5 = true) as -> by (apply bytes_eqb_spec; reflexivity). cbn [negb]. rewrite ES. cbn [fst snd]. rewrite Z.eqb_refl. cbn [negb]. change (nlen (@nil N)) with 0. cbn [N.eqb negb].
  rewrite EH, EM, VH. cbn [bind]. rewrite RR. cbn [bind]. rewrite MH. cbn [h_type]. unfold mfg_key_hash, get_hash, get_raw. rewrite NK. cbn [map_err bind]. unfold hash_from_data. cbn [digestible bind].
  unfold hash_compare, hash_eq, memcmp_eq. cbn [h_value]. rewrite N.eqb_refl. cbn [negb h_type].
  cbn [bind]. assert (R : forall l, bytes_eqb l l = true) by (intros l; apply bytes_eqb_spec; reflexivity). rewrite R. reflexivity.
Qed.

(** * C63 *)
(** With DIUN the keys of the credential written are of the kind, and where, the authenticated server allows them. *)
Theorem C63_key_storage : forall present m mi url h x p e q, sane_small wo -> opens_bytes A -> outputs_ok c -> hmac_bytes c -> good_keys c to_der newkey (WithDiun m) ->
  mfg_main present (WithDiun m) mi url = (h, x) -> h = p ++ e :: q -> ~ is_wire e ->
  exists data info dc keys, writes_credential e data /\ from_slice as_cred data = Ok (info, dc) /\ server_authenticated m p keys /\ storage_allowed A wo keys p (dc_keys dc).
Proof.
  intros present m mi url h x p e q SA OB OC HB GK M E NW. destruct (C61_credential _ _ _ _ _ _ _ _ _ SA OB OC HB GK M E NW) as (data & keys & hd & info & dc & WC & h1 & u & w & b & _ & _ & SK & _ & _ & RC & _ & KK).
  exists data, info, dc, keys. cbn [session_keys keys_known] in SK, KK. destruct KK as (? & ? & ? & ? & _ & _ & _ & _ & ST). auto.
Qed.

(** * C62 *)
Lemma leave_app : forall l1 h old l2 new, may_leave wo h old (l1 ++ l2) new <-> exists mid, may_leave wo h old l1 mid /\ may_leave wo (h ++ l1) mid l2 new.
Proof.
  induction l1 as [|e l1 IH]; intros h old l2 new; cbn [may_leave app].
  - rewrite app_nil_r. split; [intros H; exists old; auto|]. intros (mid & -> & H). exact H.
  - split.
    + intros (mid & H & X). apply IH in H. destruct H as (m2 & H1 & H2). exists m2. split; [exists mid; auto|]. rewrite <- app_assoc in H2. exact H2.
    + intros (m2 & (mid & H1 & X) & H2). exists mid. split; [|exact X]. apply IH. exists m2. split; [exact H1|]. rewrite <- app_assoc. exact H2.
Qed.
Lemma leave_wires : forall l h old new, Forall is_wire l -> may_leave wo h old l new -> new = old.
Proof.
  induction l as [|e l IH]; intros h old new F H; cbn [may_leave] in H; [exact H|]. inversion F as [|? ? (u & w & ->) F']; subst. destruct H as (mid & H & ->). eapply IH; eassumption.
Qed.
Lemma shape_gr su mi url : gr (shape wo) (protocol su mi) (St [] url client_new).
Proof.
  unfold protocol. destruct su as [stype keys|m].
  - apply gr_dbind; [apply gr_still; apply emits_lift|]. intros s1 [secret sk] M1. apply lift_ok in M1. destruct M1 as [-> _]. apply di_shape. constructor.
  - apply gr_dbind; [apply diun_shape|]. intros s1 [k st] M1. apply di_shape. eapply diun_wires. exact M1.
Qed.
Lemma not_wire_app p e q : Forall is_wire (p ++ e :: q) -> is_wire e.
Proof. intros F. rewrite Forall_app in F. destruct F as [_ F]. inversion F; assumption. Qed.
(** A run sends messages, writes its credential once, and then sends one message at most. *)
Theorem C62_window_partial : forall present su mi url h x p e q, mfg_main present su mi url = (h, x) -> h = p ++ e :: q -> ~ is_wire e ->
  Forall is_wire p /\ (exists data, writes_credential e data) /\ (q = [] \/ exists u w, q = [TWire u w] /\ wr_type w = 12 /\ wo_fx wo (p ++ [e]) = Fine).
Proof.
  intros present su mi url h x p e q M E NW. pose proof (gr_main _ _ _ _ _ _ _ _ _ _ (shape_gr su mi url) M E) as S.
  assert (S' : (exists data, writes_credential e data) /\ Forall is_wire p) by (destruct e as [u w| | | | |]; [exfalso; apply NW; exists u, w; reflexivity| | | | |]; exact S).
  destruct S' as [WC F]. split; [exact F|]. split; [exact WC|]. destruct q as [|e2 q]; [left; reflexivity|]. right.
  assert (E2 : h = (p ++ [e]) ++ e2 :: q) by (rewrite <- app_assoc; exact E). pose proof (gr_main _ _ _ _ _ _ _ _ _ _ (shape_gr su mi url) M E2) as S2.
  assert (NF : ~ Forall is_wire (p ++ [e])) by (intros X; apply not_wire_app in X; contradiction).
  destruct e2 as [u w| | | | |]; cbn [shape] in S2; [|exfalso; apply NF, S2|exfalso; apply NF, S2|exfalso; apply NF, S2|exfalso; apply NF, S2|exfalso; apply NF, S2].
  destruct S2 as [[T (p2 & data & EP & _ & FX)]|[_ X]]; [|contradiction]. exists u, w. split; [|auto]. destruct q as [|e3 q]; [reflexivity|]. exfalso.
  assert (E3 : h = (p ++ [e; TWire u w]) ++ e3 :: q) by (rewrite <- app_assoc; exact E). pose proof (gr_main _ _ _ _ _ _ _ _ _ _ (shape_gr su mi url) M E3) as S3.
  assert (NF3 : ~ Forall is_wire (p ++ [e; TWire u w])) by (intros X; apply not_wire_app in X; contradiction).
  destruct e3 as [u3 w3| | | | |]; cbn [shape] in S3; [|apply NF3, S3|apply NF3, S3|apply NF3, S3|apply NF3, S3|apply NF3, S3].
  destruct S3 as [[_ (p3 & d3 & EP3 & _)]|[_ X]]; [|contradiction]. change (p ++ [e; TWire u w]) with (p ++ [e] ++ [TWire u w]) in EP3. rewrite app_assoc in EP3. apply app_inj_tail in EP3. destruct EP3. discriminate.
Qed.
(** Interrupted anywhere before that, the device will be initialised when it is started next. *)
Theorem C62_retry_partial : forall present su mi url h x p q new, mfg_main present su mi url = (h, x) -> h = p ++ q -> will_initialise present ->
  may_leave wo [] present p new ->
  will_initialise new \/ exists p1 e data p2, p = p1 ++ e :: p2 /\ writes_credential e data /\ Forall is_wire p1.
Proof.
  intros present su mi url h x p q new M E WI L.
  assert (D : Forall is_wire p \/ exists p1 e p2, p = p1 ++ e :: p2 /\ ~ is_wire e).
  { clear. induction p as [|e p IH]; [left; constructor|]. assert (X : is_wire e \/ ~ is_wire e).
    { destruct e as [u w| | | | |]; [left; exists u, w; reflexivity|right|right|right|right|right]; intros (? & ? & X); discriminate. }
    destruct X as [X|X]; [|right; exists [], e, p; auto]. destruct IH as [F|(p1 & e' & p2 & -> & NW)]; [left; constructor; auto|]. right. exists (e :: p1), e', p2. auto. }
  destruct D as [F|(p1 & e & p2 & -> & NW)]; [left; apply leave_wires in L; [rewrite L; exact WI|exact F]|]. right. rewrite <- app_assoc in E.
  destruct (C62_window_partial _ _ _ _ _ _ _ _ _ M E NW) as (F & (data & WC) & _). exists p1, e, data, p2. auto.
Qed.
(** A run that says it succeeded wrote its credential, and the server acknowledged its HMAC. *)
Theorem C62_success_partial : forall present su mi url h, mfg_main present su mi url = (h, Initialised) ->
  exists keys p data, session_keys c chk ko avail wo su h keys /\ acknowledged A wo keys h /\ Forall is_wire p /\
    wo_fx wo (p ++ [TFx (EWrite CRED_PATH data 438)]) = Fine /\ exists u w, h = p ++ [TFx (EWrite CRED_PATH data 438); TWire u w].
Proof.
  intros present su mi url h M. pose proof M as M0. apply main_runs in M. destruct M as [[_ X]|(s & r & _ & R & EH & X)]; [congruence|]. specialize (X eq_refl). subst r.
  assert (Y : exists s1 mi' k st, perform_di A c chk avail wo mi' k st s1 = (s, Ok tt) /\ session_keys c chk ko avail wo su (s_hist s1) (hc_keys (s_hc s1)) /\ Forall is_wire (s_hist s1)).
  { unfold protocol in R. destruct su as [stype keys|m]; apply dbind_ok in R; destruct R as (s1 & [k1 k2] & M1 & M2).
    - apply lift_ok in M1. destruct M1 as [-> _]. exists (St [] url client_new), mi, (Plain k1 k2), stype. split; [exact M2|]. split; [reflexivity|constructor].
    - exists s1, mi, k1, k2. split; [exact M2|]. split; [|eapply diun_wires; exact M1]. apply diun_end in M1. destruct M1 as (keys & AU & KE & _). cbn [session_keys]. rewrite KE. exact AU. }
  destruct Y as (s1 & mi' & k & st & P & SK & F). destruct (di_ok _ _ _ _ _ _ _ _ _ _ P) as (h1 & data & u & w & ct & pt & H & FX & T & CB & DC & RU).
  destruct (di_shape A c chk avail wo mi' k st s1 F _ _ P) as (l & EL & _).
  exists (hc_keys (s_hc s1)), h1, data. rewrite EH. split; [rewrite EL; apply session_keys_app; exact SK|]. split; [exists (h1 ++ [TFx (EWrite CRED_PATH data 438)]), u, w, pt; split; [exact H|split; [exact T|split; [exists ct; auto|exact RU]]]|].
  assert (E : h = h1 ++ TFx (EWrite CRED_PATH data 438) :: [TWire u w]) by (rewrite EH, H, <- app_assoc; reflexivity).
  destruct (C62_window_partial _ _ _ _ _ _ _ _ _ M0 E ltac:(intros (? & ? & Z); discriminate)) as (F1 & _). split; [exact F1|]. split; [exact FX|]. exists u, w. rewrite <- EH. exact E.
Qed.
(** After that it is initialised: when it is started again, nothing is sent and nothing written. *)
Theorem C62_settled : forall present su mi url h new su' mi' url', sane_small wo -> opens_bytes A -> outputs_ok c -> hmac_bytes c -> good_keys c to_der newkey su ->
  mfg_main present su mi url = (h, Initialised) -> may_leave wo [] present h new ->
  (exists dc, new = Cred dc /\ dc_active dc = true) /\ mfg_main new su' mi' url' = ([], Already).
Proof.
  intros present su mi url h new su' mi' url' SA OB OC HB GK M L. destruct (C62_success_partial _ _ _ _ _ M) as (keys & p & data & _ & _ & F & FX & u & w & E).
  assert (E' : h = p ++ TFx (EWrite CRED_PATH data 438) :: [TWire u w]) by exact E.
  destruct (C61_credential _ _ _ _ _ _ _ _ _ SA OB OC HB GK M E' ltac:(intros (? & ? & Z); discriminate)) as (data' & keys' & hd & info & dc & WC & h1 & u1 & w1 & b & _ & _ & _ & _ & _ & RC & CF & _).
  unfold writes_credential in WC. assert (data' = data) as -> by congruence. rewrite E' in L. apply leave_app in L. destruct L as (mid & L1 & L2). apply leave_wires in L1; [|exact F]. subst mid.
  cbn [may_leave app] in L2. destruct L2 as (mid & (mid2 & -> & ->) & L3). change (text_eqb CRED_PATH CRED_PATH) with true in L3. cbv iota in L3. rewrite FX, RC in L3. subst mid.
  assert (AC : dc_active dc = true) by apply CF. split; [exists dc; auto|]. unfold MfgClientModel.mfg_main. rewrite AC. reflexivity.
Qed.
End client.

(** What a failed run should mean.  It is false: the credential is active before the server has the HMAC. *)
Definition C62_statement : Prop := forall A c chk ko avail to_der wo newkey present su mi url h x new,
  sane_small wo -> opens_bytes A -> outputs_ok c -> hmac_bytes c -> good_keys c to_der newkey su ->
  mfg_main A c chk ko avail to_der wo newkey present su mi url = (h, x) -> will_initialise present -> x <> Initialised ->
  may_leave wo [] present h new -> will_initialise new.

(** * A device against the model of the manufacturing server *)
From Verif Require Import Assoc StoreModel Hex Backend ToyCrypto ToySession P_Voucher P_Rv P_Kex P_RvServer P_To0 P_Mfg.
From Verif Require Import ClientToy.

Definition dn_chain : x5chain := [[7; 6]; [6; 5]; [5; 5]].
Definition dn_cl : diunconf := DiunConf 1 10 [1; 0] [7] (Pubkey 10 ENC_X5CHAIN (enc (x5chain_val dn_chain)) [7] (Some dn_chain)).
Definition mcl_conf (plain : bool) : mfconf := MfConf [7; 7] (Some ([7], ex_key 8)) [43] [[43; 43]] ex_rv plain (if plain then None else Some dn_cl) true.
Definition mcl_env : mfenv := MfEnv t100 ex_guid (fun _ => Some kex384) [] [] None (fun i => Ok (Some [42])) IoOk.
Definition at_mfg (i : N) (w : HttpClientModel.wire) : list (event (W:=dir) (E:=mfenv)) :=
  one_request (Req (wr_type w) true (wr_auth w) (wr_body w) mcl_env [i] [i] [] true) NoFault.
Definition mcl_url : str := txt "http://mfg:8080".
Definition mcl_server (plain : bool) (h : list devent) :=
  sys_run toy_aead toy_idt (mf_server toy true toy_kex kf_toy mk_toy (mcl_conf plain) (mf_dir toy true)) (sys_init 0 []) (numbered at_mfg 5 (wires mcl_url h)).
Definition mcl_resp (plain : bool) (down : list N) (h : list devent) : option hresponse :=
  match rev h with
  | TWire url w :: _ => if existsb (N.eqb (wr_type w)) down then None else sift (to_hresponse true (last (sent (snd (mcl_server plain h))) Dropped) [])
  | _ => None
  end.
Definition mcl_world (plain : bool) (down : list N) : world := World (mcl_resp plain down) (fun _ => Fine) (fun _ => true)
  (fun h n => repeat (N.of_nat (length h) mod 256) 16) (fun h s => Some (Ecdh s [3; 4] (repeat 7 48))) None [] [].
(** There is no TPM. *)
Definition mcl_newkey (h : list devent) (kt stg : N) : option (bytes * bytes) := if stg =? 0 then Some (cl_secret, [42]) else None.
Definition mcl_info : minfo := MInfo None (Some (txt "serial")) (Some (txt "52:54:00:12:34:56")).
Definition mcl_root : hash := Hash Sha384 (c_hash toy Sha384 [5; 5]).
Definition mcl_der (k : bytes) : bytes := match k with [x] => if x <? 256 then [x] else [] | _ => [] end.
Definition mcl_run (su : setup) (down : list N) :=
  mfg_main toy_aead toy true toy_kex true mcl_der (mcl_world (match su with PlainDI _ _ => true | _ => false end) down) mcl_newkey NoCred su mcl_info mcl_url.
Definition mcl_plain : setup := PlainDI 0 (Some (cl_secret, [42])).
Example mcl_diun : map seen (fst (mcl_run (WithDiun (VHash mcl_root)) [])) = [210; 212; 214; 10; 1000; 12].
Proof. vm_compute. reflexivity. Qed.
Lemma mcl_sane plain down : sane_small (mcl_world plain down).
Proof.
  intros h r b E B. cbn [wo_resp mcl_world] in E. unfold mcl_resp in E. destruct (rev h) as [|[url w| | | | |] ?]; try discriminate. destruct (existsb _ down); [discriminate|].
  destruct (to_hresponse _ _ _) as [r0|]; [|discriminate]. cbn [sift] in E. destruct (HttpClientModel.hr_body r0) as [b0|] eqn:B0.
  - destruct (forallb _ b0 && _) eqn:F; [|discriminate]. inversion E; subst r0. rewrite B0 in B. inversion B; subst b0. apply andb_true_iff in F. destruct F as [F1 F2].
    split; [apply bytes_okb; exact F1|]. apply N.ltb_lt in F2. lia.
  - inversion E; subst r0. congruence.
Qed.
Lemma toy_hmac_bytes : hmac_bytes toy.
Proof. intros t s d. apply be_enc_ok. Qed.
Lemma mcl_der_ok k : key_bytes (mcl_der k).
Proof. destruct k as [|x [|? ?]]; try (split; [constructor|reflexivity]). cbn [mcl_der]. destruct (N.ltb_spec x 256); (split; [repeat constructor; assumption|reflexivity]). Qed.
Lemma mcl_good su : su = mcl_plain \/ (exists m, su = WithDiun m) -> good_keys toy mcl_der mcl_newkey su.
Proof.
  assert (K : key_bytes cl_secret /\ key_bytes [42]) by (split; (split; [repeat constructor|reflexivity])).
  intros S. split; [exact mcl_der_ok|]. split.
  - intros h kt st s sk E. unfold mcl_newkey in E. destruct (st =? 0); inversion E; subst. exact K.
  - intros stype s sk E. destruct S as [->|[m ->]]; [|discriminate]. unfold mcl_plain in E. inversion E; subst. exact K.
Qed.
(** The HMAC in the voucher at the server is one the device takes for its own. *)
Definition mcl_match (su : setup) : bool :=
  let h := fst (mcl_run su []) in
  match y_world (fst (mcl_server (match su with PlainDI _ _ => true | _ => false end) h)), nth_error (rev h) 1 with
  | [(_, f)], Some (TFx (EWrite _ data _)) =>
    match de (voucher_codec toy true) (f_data f), from_slice as_cred data with
    | Some v, Ok (_, dc) =>
      match get (from_slice as_bytebuf) (ov_contents v) 1 with
      | Ok hb => match verify_hmac toy dc hb (ov_hmac v) with Ok tt => bytes_eqb (dc_guid dc) (hd_guid (ov_header v)) | _ => false end
      | _ => false
      end
    | _, _ => false
    end
  | _, _ => false
  end.

Example mcl_exits : map (fun su => snd (mcl_run su [])) [mcl_plain; WithDiun (VHash mcl_root); WithDiun (VCerts [[5; 5]]); WithDiun VInsecure; WithDiun (VCerts [[5; 4]])] =
  [Initialised; Initialised; Initialised; Initialised; Failed] /\
  map seen (fst (mcl_run mcl_plain [])) = [10; 1000; 12] /\ map seen (fst (mcl_run (WithDiun (VCerts [[5; 4]])) [])) = [210] /\
  map mcl_match [mcl_plain; WithDiun (VHash mcl_root)] = [true; true] /\
  map seen (fst (mcl_run mcl_plain [12])) = [10; 1000; 12] /\ snd (mcl_run mcl_plain [12]) = Failed.
Proof. vm_compute. repeat split. Qed.

(** ** The theorems' hypotheses are met *)
Definition mcl_diun_run := mcl_run (WithDiun (VHash mcl_root)) [].
Lemma mcl_diun_is : mcl_diun_run = (fst mcl_diun_run, snd mcl_diun_run). Proof. apply surjective_pairing. Qed.
Definition wireb (e : devent) : bool := match e with TWire _ _ => true | _ => false end.
Lemma mcl_diun_exit : snd mcl_diun_run = Initialised. Proof. vm_compute. reflexivity. Qed.
Lemma mcl_kinds : map wireb (fst mcl_diun_run) = [true; true; true; true; false; true]. Proof. vm_compute. reflexivity. Qed.
Lemma mcl_split : exists p e u w, fst mcl_diun_run = p ++ [e; TWire u w] /\ ~ is_wire e /\ wr_type w = 12 /\ length p = 4%nat.
Proof.
  pose proof mcl_diun as E. pose proof mcl_kinds as K. change (fst (mcl_run (WithDiun (VHash mcl_root)) [])) with (fst mcl_diun_run) in E.
  destruct (fst mcl_diun_run) as [|e1 [|e2 [|e3 [|e4 [|e5 [|e6 [|? ?]]]]]]]; try discriminate E.
  cbn [map] in E, K. injection E as E1 E2 E3 E4 E5 E6. injection K as _ _ _ _ K5 K6. destruct e6 as [u w| | | | |]; try discriminate K6. exists [e1; e2; e3; e4], e5, u, w. split; [reflexivity|].
  split; [|split; [exact E6|reflexivity]]. intros (u5 & w5 & ->). discriminate K5.
Qed.
(** C60, C61 and C63: a run with DIUN against the server ends well; the theorems say of it what they say. *)
Example C60_case : exists p e u w keys, fst mcl_diun_run = p ++ [e; TWire u w] /\ ~ is_wire e /\ wr_type w = 12 /\
  server_authenticated toy true toy_kex true (mcl_world false []) (VHash mcl_root) p keys.
Proof.
  destruct mcl_split as (p & e & u & w & E & NW & T & L). pose proof mcl_diun_is as R. unfold mcl_diun_run, mcl_run in R.
  destruct (C60_trusted_server toy_aead toy true toy_kex true mcl_der (mcl_world false []) mcl_newkey _ _ _ _ _ _ p e [TWire u w] R E) as [[X _]|(keys & AU & _)]; [subst p; discriminate L|].
  exists p, e, u, w, keys. auto.
Qed.
Example C61_case : sane_small (mcl_world false []) /\ opens_bytes toy_aead /\ outputs_ok toy /\ hmac_bytes toy /\ good_keys toy mcl_der mcl_newkey (WithDiun (VHash mcl_root)) /\
  mfg_main toy_aead toy true toy_kex true mcl_der (mcl_world false []) mcl_newkey NoCred (WithDiun (VHash mcl_root)) mcl_info mcl_url = (fst mcl_diun_run, Initialised) /\
  exists p e u w, fst mcl_diun_run = p ++ [e; TWire u w] /\ ~ is_wire e /\ wr_type w = 12.
Proof.
  split; [apply mcl_sane|]. split; [exact toy_opens|]. split; [exact toy_outputs_ok|]. split; [exact toy_hmac_bytes|]. split; [apply mcl_good; right; eexists; reflexivity|].
  split; [|destruct mcl_split as (p & e & u & w & E & NW & T & _); exists p, e, u, w; auto].
  change (mcl_diun_run = (fst mcl_diun_run, Initialised)). rewrite <- mcl_diun_exit. apply surjective_pairing.
Qed.

(** ** The HMAC is lost *)
Definition mcl_lost := mcl_run mcl_plain [12].
Lemma mcl_lost_exit : snd mcl_lost = Failed. Proof. vm_compute. reflexivity. Qed.
Lemma mcl_lost_is : mcl_lost = (fst mcl_lost, Failed).
Proof. rewrite <- mcl_lost_exit. apply surjective_pairing. Qed.
Lemma mcl_lost_kinds : map wireb (fst mcl_lost) = [true; false; true]. Proof. vm_compute. reflexivity. Qed.
Lemma mcl_lost_cred : match nth_error (fst mcl_lost) 1 with
  | Some (TFx (EWrite path data _)) => text_eqb path CRED_PATH = true /\ match from_slice as_cred data with Ok (_, dc) => dc_active dc = true | _ => False end
  | _ => False end.
Proof. vm_compute. split; reflexivity. Qed.
Lemma mcl_left : exists dc, may_leave (mcl_world true [12]) [] NoCred (fst mcl_lost) (Cred dc) /\ dc_active dc = true.
Proof.
  pose proof mcl_lost_kinds as K. pose proof mcl_lost_cred as C. destruct (fst mcl_lost) as [|e1 [|e2 [|e3 [|? ?]]]]; try discriminate K. cbn [map nth_error] in K, C.
  injection K as K1 K2 K3. destruct e1 as [u1 w1| | | | |]; try discriminate K1. destruct e3 as [u3 w3| | | | |]; try discriminate K3.
  destruct e2 as [u2 w2|[]| | | |]; try contradiction C. destruct C as [P C]. destruct (from_slice as_cred _) as [[info dc]| |] eqn:F; try contradiction C. exists dc. split; [|exact C].
  cbn [may_leave app]. exists NoCred. split; [|reflexivity]. rewrite P, F. exists (Cred dc). split; [exists (Cred dc); split; reflexivity|reflexivity].
Qed.
Theorem C62_refuted : ~ C62_statement.
Proof.
  intros H. destruct mcl_left as (dc & L & AC). pose proof mcl_lost_is as R.
  pose proof (H toy_aead toy true toy_kex true mcl_der (mcl_world true [12]) mcl_newkey NoCred mcl_plain mcl_info mcl_url (fst mcl_lost) Failed (Cred dc)) as W.
  destruct (W (mcl_sane true [12]) toy_opens toy_outputs_ok toy_hmac_bytes (mcl_good mcl_plain (or_introl eq_refl)) R (or_introl eq_refl) ltac:(discriminate) L) as [X|(dc' & X & NA)]; [discriminate|].
  inversion X; subst. congruence.
Qed.

Print Assumptions C60_trusted_server.
Print Assumptions C61_credential.
Print Assumptions C61_hmac.
Print Assumptions C61_recognised.
Print Assumptions C62_window_partial.
Print Assumptions C62_retry_partial.
Print Assumptions C62_success_partial.
Print Assumptions C62_settled.
Print Assumptions C62_refuted.
Print Assumptions C63_key_storage.
