(** The manufacturing server: the credentials it makes, and what its runs have in common. *)
From Verif Require Import Base BaseFacts Text Assoc StoreModel StoreSpec StoreRun StoreProofs StoreProofs2 Hex Backend BackendSpec BackendProofs
  CborModel CborSpec CborProofs ValueModel ValueProofs TypesModel CryptoSpec TypesProofs VoucherModel
  VoucherSpec VoucherProofs VoucherProofs2 DecFacts DecSize CoseFacts KexModel MsgModel SessionModel SessionSpec SessionProofs SessionProofs2 SeqFacts
  RvServerModel RvServerProofs RvServerSpec RvServerRuns SiModel OwnerModel MfgModel MfgSpec.
From Coq Require Import ZifyBool ZifyNat ZifyN.
Local Open Scope N_scope.
Local Opaque dec_top.

(** * The messages *)
Lemma key_reads pt k t : from_slice as_providekey pt = Ok (k, t) -> names_key pt k.
Proof.
  intros F. apply from_slice_ok in F. destruct F as (v & D & R). unfold as_providekey in R. destruct (as_fields v) as [|x [|y [|z l]]] eqn:FV; try discriminate.
  destruct (as_vecu8 x) as [k'|] eqn:K; [|discriminate]. destruct (as_storage y); inversion R; subst. unfold as_vecu8, as_list in K.
  destruct (untag x) eqn:U; try discriminate. exists v, x, y, l. auto.
Qed.
Lemma exchange_reads body m : from_slice as_diunconnect body = Ok m -> names_exchange body (dc_kex m) (dc_cipher m) (dc_exchange m).
Proof.
  intros F. apply from_slice_ok in F. destruct F as (v & D & R). unfold as_diunconnect in R. destruct (as_fields v) as [|n [|k [|ci [|x [|z l]]]]] eqn:FV; try discriminate.
  destruct (as_bstr16 n); [|discriminate]. destruct (as_kexsuite k) as [su|] eqn:K; [|discriminate]. destruct (as_cipher ci) as [cp|] eqn:C; [|discriminate].
  destruct (as_vecu8 x) as [xb|] eqn:X; inversion R; subst. cbn [dc_kex dc_cipher dc_exchange]. unfold as_vecu8, as_list in X.
  destruct (untag x) eqn:U; try discriminate. exists v, n, k, ci, x, l. auto 8.
Qed.
Lemma hmac_reads pt h : bytes_ok pt -> from_slice as_sethmac pt = Ok h -> names_hmac pt h /\ bytes_ok (h_value h) /\ nlen (h_value h) <= nlen pt.
Proof.
  intros B F. apply from_slice_ok in F. destruct F as (v & D & R). unfold as_sethmac in R. destruct (as_fields v) as [|x [|y l]] eqn:FV; try discriminate.
  split; [exists v, x; auto|]. pose proof (fields_octets _ (dec_top_octets _ _ B D)) as O. pose proof (fields_sized _ _ (dec_top_sized _ _ D)) as Z.
  rewrite FV in O, Z. inversion O as [|? ? OX _]; subst. inversion Z as [|? ? ZX _]; subst.
  pose proof (fields_octets _ OX) as OX'. pose proof (fields_sized _ _ ZX) as ZX'. unfold as_hash in R.
  destruct (as_fields x) as [|x0 [|x1 [|x2 l]]]; try discriminate.
  inversion OX' as [|? ? _ O2]; subst. inversion O2 as [|? ? O3 _]; subst. inversion ZX' as [|? ? _ Z2]; subst. inversion Z2 as [|? ? Z3 _]; subst.
  repeat match type of R with (match ?x with _ => _ end) = _ => destruct x eqn:? end; inversion R; subst; cbn [h_value].
  split; [eapply bytebuf_ok; eassumption|]. pose proof (bytebuf_size _ _ _ Z3 ltac:(eassumption)). unfold nlen. lia.
Qed.
Lemma utf8_dec_len s : forall l, utf8_dec s = Some l -> nlen l <= nlen s.
Proof.
  intros l H. destruct (utf8_dec_enc _ _ H) as [<- _]. clear H. induction l as [|x l IH]; [reflexivity|].
  change (utf8_enc (x :: l)) with (utf8_char x ++ utf8_enc l). rewrite nlen_app. assert (1 <= nlen (utf8_char x)).
  { unfold utf8_char. repeat (destruct (_ <? _)); unfold nlen; cbn [length]; lia. }
  unfold nlen in *. cbn [length]. lia.
Qed.
Lemma info_reads pt raw info : from_slice as_appstart pt = Ok raw -> from_slice as_mfginfo raw = Ok info ->
  names_info pt info /\ forallb is_scalar info = true /\ nlen (utf8_enc info) <= nlen pt.
Proof.
  intros F G. apply from_slice_ok in F. destruct F as (v & D & R). unfold as_appstart in R. destruct (as_fields v) as [|x [|y l]] eqn:FV; try discriminate.
  apply from_slice_ok in G. destruct G as (u & D2 & R2). unfold as_mfginfo in R2. destruct (untag u) as [| |t| | | | |] eqn:U; try discriminate.
  destruct (utf8_dec_enc _ _ R2) as [EN SC]. split; [exists v, x, raw, u, t; auto 8|]. split; [exact SC|]. rewrite EN.
  pose proof (fields_sized _ _ (dec_top_sized _ _ D)) as Z. rewrite FV in Z. inversion Z as [|? ? ZX _]; subst.
  pose proof (bytebuf_size _ _ _ ZX R) as L1. pose proof (sized_untag _ _ (dec_top_sized _ _ D2)) as Z2. rewrite U in Z2. inversion Z2; subst.
  unfold nlen. lia.
Qed.

(** * The header *)
Lemma trim_scalar s : forallb is_scalar s = true -> forallb is_scalar (trim s) = true.
Proof. rewrite !forallb_forall. intros H x Hx. apply H. apply trim_incl. exact Hx. Qed.
Lemma utf8_enc_le s : nlen (utf8_enc s) <= 4 * nlen s.
Proof.
  induction s as [|x l IH]; [reflexivity|]. change (utf8_enc (x :: l)) with (utf8_char x ++ utf8_enc l). rewrite nlen_app.
  assert (nlen (utf8_char x) <= 4) by (unfold utf8_char; repeat (destruct (_ <? _)); unfold nlen; cbn [length]; lia).
  unfold nlen in *. cbn [length]. lia.
Qed.
(** Like [header_new_rt], for any device information that passes the check. *)
Lemma header_new_back c chk version guid rv devinfo mfg ch :
  (version = V1_0 \/ version = V1_1) -> bytes_ok guid -> nlen guid = 16 -> rv_ok rv ->
  forallb is_scalar (trim devinfo) = true -> nlen (utf8_enc (trim devinfo)) < 4294967296 -> check_device_info (trim devinfo) = Ok tt ->
  pubkey_valid c mfg -> nlen (pk_data mfg) < 4294967296 -> hash_small ch ->
  (nlen (concat (pa_items (hd_contents (header_new version guid rv devinfo mfg (Some ch))))) < 9223372036854775802) ->
  header_rt c chk (header_new version guid rv devinfo mfg (Some ch)).
Proof.
  intros Hv Hg Hgl Hrv HA2 Hdl HT Hm Hml [Hc1 Hc2] BIG.
  assert (V0 : vok MAX_DEPTH (VInt (Z.of_N version))).
  { unfold MAX_DEPTH; cbn [vok]. unfold V1_0, V1_1, two64 in *. lia. }
  assert (V1 : vok MAX_DEPTH (bstr_val guid)).
  { unfold MAX_DEPTH, bstr_val. apply vok_bytes; [auto|unfold two64; lia]. }
  assert (V2 : vok MAX_DEPTH (rv_info_val rv)) by (apply vok_rv; [unfold MAX_DEPTH; lia|exact Hrv]).
  assert (V3 : vok MAX_DEPTH (text_val (trim devinfo))).
  { unfold text_val. apply vok_text; [unfold MAX_DEPTH; lia|exact HA2|unfold two64; lia]. }
  assert (V4 : vok MAX_DEPTH (pubkey_val mfg)) by (eapply vok_pubkey; [unfold MAX_DEPTH; lia|exact Hm|unfold two64; lia]).
  assert (V5 : vok MAX_DEPTH (hash_val ch)) by (apply vok_hash; [unfold MAX_DEPTH; lia|exact Hc1|unfold two64; lia]).
  unfold header_rt, header_new in *. cbn [option_val hd_contents pa_items] in *.
  set (its := [enc (VInt (Z.of_N version)); enc (bstr_val guid); enc (rv_info_val rv);
               enc (text_val (trim devinfo)); enc (pubkey_val mfg); enc (hash_val ch)]) in *.
  assert (CI : cbor_items its).
  { unfold its. constructor; [eapply enc_item; [exact V0|reflexivity]|].
    constructor; [eapply enc_item; [exact V1|reflexivity]|].
    constructor; [eapply enc_item; [exact V2|]|].
    { unfold rv_info_val. cbn [plain]. apply forallb_forall. intros y Hy. apply in_map_iff in Hy. destruct Hy as (z & <- & _).
      cbn [plain]. apply forallb_forall. intros y Hy. apply in_map_iff in Hy. destruct Hy as (w & <- & _). reflexivity. }
    constructor; [eapply enc_item; [exact V3|reflexivity]|].
    constructor; [eapply enc_item; [exact V4|reflexivity]|].
    constructor; [eapply enc_item; [exact V5|reflexivity]|]. constructor. }
  destruct (serialize_spec None its) as (hb & SB & CB); [unfold its; unfold nlen; cbn; lia|discriminate|exact CI|].
  exists hb. unfold header_serialize. cbn [hd_devinfo hd_contents]. rewrite HT. cbn [bind]. rewrite SB.
  split; [reflexivity|]. split.
  - unfold header_deserialize, parse_array_data.
    pose proof (serialize_len _ _ SB) as SL. cbn [pa_items] in SL.
    rewrite <- (app_nil_r hb). rewrite (parse_std chk (Some 6) None its hb [] CB);
      [|right; split; [reflexivity|discriminate]|unfold two63, bytes in *; lia].
    cbn [bind map_err].
    assert (G : forall A (rd : bytes -> outcome ferr A) n x, nth_error its n = Some x -> get rd (PA None its) n = rd x).
    { intros A rd n x Hn. unfold get, get_raw. cbn [pa_items]. rewrite Hn. reflexivity. }
    rewrite (G _ _ 0%nat _ eq_refl), from_slice_enc by exact V0.
    assert (as_version (VInt (Z.of_N version)) = Some version) as ->.
    { unfold as_version, as_u16, as_int. cbn [untag]. destruct Hv as [-> | ->]; reflexivity. }
    cbn [of_option bind].
    rewrite (G _ _ 1%nat _ eq_refl), from_slice_enc by exact V1.
    assert (as_bstr16 (bstr_val guid) = Some guid) as ->.
    { unfold as_bstr16, bstr_val. cbn [as_bytebuf untag]. rewrite Hgl. reflexivity. }
    cbn [of_option bind].
    rewrite (G _ _ 2%nat _ eq_refl), from_slice_enc by exact V2. rewrite as_rv_info_val by exact Hrv. cbn [of_option bind].
    rewrite (G _ _ 3%nat _ eq_refl), from_slice_enc by exact V3.
    assert (as_string (text_val (trim devinfo)) = Some (trim devinfo)) as ->.
    { unfold as_string, text_val. cbn [untag]. apply utf8_roundtrip. exact HA2. }
    cbn [of_option bind]. rewrite HT. cbn [bind].
    rewrite (G _ _ 4%nat _ eq_refl), from_slice_enc by exact V4. rewrite as_pubkey_val by exact Hm. cbn [of_option bind].
    rewrite (G _ _ 5%nat _ eq_refl), from_slice_enc by exact V5.
    change (as_option as_hash (hash_val ch)) with (option_map Some (as_hash (hash_val ch))).
    rewrite as_hash_val. reflexivity.
  - inversion CB; subst. apply bytes_ok_app. split; [eapply head_ok; eauto|].
    assert (forall l, Forall bytes_ok l -> bytes_ok (concat l)) as CO.
    { induction 1; cbn [concat]; [constructor|]. apply bytes_ok_app. auto. }
    apply CO. unfold its. repeat (constructor; [eapply enc_bytes_ok; eassumption|]). constructor.
Qed.

(** What comes with a header that was made: it reads back, and it is small. *)
Definition good_header (c : crypto) (chk : bool) (cf : mfconf) (hb : bytes) (info : str) (guid leaf : bytes) : Prop :=
  exists h, header_serialize h = Ok hb /\ header_deserialize c chk hb = Ok h /\ bytes_ok hb /\ nlen hb < 17179869184 /\ header_for c cf h info guid leaf.
Lemma credentials_made c chk kf mkcert cf info key e hb ch :
  outputs_ok c -> keyfns_ok c kf -> certifies c mkcert -> mfconf_ok c cf -> bytes_ok (me_guid e) -> nlen (me_guid e) = 16 ->
  forallb is_scalar info = true -> nlen (utf8_enc info) <= 65536 ->
  new_credentials c kf mkcert cf info key e = Ok (hb, ch) ->
  exists signer rest leaf, mf_ca cf = signer :: rest /\ mkcert signer (mf_ca_sk cf) info key (me_cert e) = Some leaf /\ ch = leaf :: mf_ca cf /\
    good_header c chk cf hb info (me_guid e) leaf.
Proof.
  intros HO HK HC (CR & CS & _) BG LG SC LI H. unfold new_credentials in H. destruct (mf_ca cf) as [|signer rest] eqn:CA; [discriminate|].
  destruct (mkcert signer (mf_ca_sk cf) info key (me_cert e)) as [leaf|] eqn:MK; cbn [of_option bind] in H; [|discriminate].
  destruct (hash_from_data c Sha384 (concat (leaf :: signer :: rest))) as [hs| |] eqn:HF; cbn [bind code map_err] in H; try discriminate.
  apply hash_from_data_ok in HF. destruct HF as [_ ->].
  destruct (pubkey_of_cert c (kf_type kf) (kf_der kf) (mf_cert cf)) as [mk| |] eqn:PC; cbn [bind map_err] in H; try discriminate.
  destruct (header_serialize _) as [b| |] eqn:SB; cbn [bind map_err] in H; try discriminate. inversion H; subst b ch.
  exists signer, rest, leaf. split; [reflexivity|]. split; [exact MK|]. split; [reflexivity|].
  unfold pubkey_of_cert in PC. destruct (c_cert_key c (mf_cert cf)) as [k|] eqn:CK; cbn [of_option bind] in PC; [|discriminate].
  destruct (kf_type kf k) as [t|] eqn:KT; cbn [of_option bind] in PC; [|discriminate]. inversion PC; subst mk. clear PC.
  destruct (HK _ _ CK) as (K1 & K2 & K3 & K4). specialize (K1 _ KT). pose proof HO as (OH & _).
  set (mk := Pubkey t ENC_X509 (kf_der kf k) k None) in *.
  assert (MV : pubkey_valid c mk).
  { split; [exact K1|]. split; [reflexivity|]. split; [exact K2|]. unfold mk. cbn [pk_type pk_enc pk_data]. unfold pubkey_new, parse_key. cbn [N.eqb Pos.eqb ENC_X509].
    change (ENC_X509 =? ENC_X509) with true. cbn [negb andb orb]. rewrite K4. reflexivity. }
  set (hs := Hash Sha384 (c_hash c Sha384 (concat (leaf :: signer :: rest)))) in *.
  destruct (OH Sha384 (concat (leaf :: signer :: rest))) as [OB OL].
  assert (HS : hash_small hs) by (split; [exact OB|cbn [h_value hs]; lia]).
  assert (CD : check_device_info (trim info) = Ok tt).
  { unfold header_serialize in SB. cbn [hd_devinfo header_new] in SB. destruct (check_device_info (trim info)) as [[]| |]; [reflexivity|discriminate|discriminate]. }
  assert (TL : nlen (utf8_enc (trim info)) <= 262144).
  { pose proof (utf8_enc_le (trim info)). pose proof (trim_len info). pose proof (utf8_dec_len _ _ (utf8_roundtrip _ SC)). lia. }
  assert (SZ : nlen (concat (pa_items (hd_contents (header_new V1_1 (me_guid e) (mf_rv cf) info mk (Some hs))))) < 17179869000).
  { unfold header_new. cbn [hd_contents pa_items concat option_val]. rewrite !nlen_app. pose proof (enc_int_nlen (Z.of_N V1_1)).
    pose proof (enc_bytes_nlen (me_guid e)). unfold bstr_val.
    assert (nlen (enc (text_val (trim info))) <= 9 + 262144).
    { unfold text_val. cbn [enc]. rewrite nlen_app. pose proof (enc_head_nlen 3 (nlen (utf8_enc (trim info)))). lia. }
    assert (nlen (enc (pubkey_val mk)) <= 36 + 1048576).
    { unfold pubkey_val. cbn [enc map concat]. rewrite !nlen_app. pose proof (enc_head_nlen 4 (nlen [VInt (Z.of_N (pk_type mk)); VInt (Z.of_N (pk_enc mk)); VBytes (pk_data mk)])).
      pose proof (enc_int_nlen (Z.of_N (pk_type mk))). pose proof (enc_int_nlen (Z.of_N (pk_enc mk))). pose proof (enc_bytes_nlen (pk_data mk)). cbn [enc] in *. rewrite ?nlen_app in *.
      cbn [pk_data mk] in *. change (nlen (@nil N)) with 0. lia. }
    assert (nlen (enc (hash_val hs)) <= 36 + 1024).
    { unfold hash_val. cbn [enc map concat]. rewrite !nlen_app.
      match goal with |- context [enc_head 4 ?n] => pose proof (enc_head_nlen 4 n) end.
      match goal with |- context [enc_int ?z] => pose proof (enc_int_nlen z) end. pose proof (enc_bytes_nlen (h_value hs)). cbn [enc] in *. rewrite ?nlen_app in *.
      change (nlen (@nil N)) with 0. cbn [h_value hs] in *. lia. }
    change (nlen (@nil N)) with 0. lia. }
  destruct (header_new_back c chk V1_1 (me_guid e) (mf_rv cf) info mk hs) as (hb' & S1 & S2 & S3); auto; try lia.
  { apply trim_scalar. exact SC. }
  { cbn [pk_data mk]. lia. }
  rewrite SB in S1. inversion S1; subst hb'. eexists. split; [exact SB|]. split; [exact S2|]. split; [exact S3|].
  split.
  { unfold header_serialize in SB. rewrite CD in SB || (cbn [hd_devinfo header_new] in SB; rewrite CD in SB). cbn [bind] in SB.
    destruct (serialize_array _) as [b| |] eqn:SA; cbn [map_err] in SB; inversion SB; subst b. pose proof (serialize_len _ _ SA). unfold bytes in *. lia. }
  unfold header_for. rewrite CA. repeat split; try reflexivity. exists k. split; [exact CK|reflexivity].
Qed.

(** * The voucher *)
Lemma all_read c ch : chain_ok c ch -> all_some (map (c_cert_of_der c) ch) = Some ch.
Proof. intros [_ H]. induction H as [|x l (_ & _ & E) H IH]; [reflexivity|]. cbn [map all_some]. rewrite E, IH. reflexivity. Qed.
Lemma voucher_made c chk cf d hmac e g v hb info guid leaf mkcert key signer rnd :
  outputs_ok c -> sign_correct c -> certifies c mkcert -> mfconf_ok c cf ->
  mkcert signer (mf_ca_sk cf) info key rnd = Some leaf ->
  md_header d = Some (hex_enc hb) -> md_chain d = Some (leaf :: mf_ca cf) -> good_header c chk cf hb info guid leaf ->
  bytes_ok (h_value hmac) -> nlen (h_value hmac) <= 65536 ->
  new_voucher c chk cf d hmac e = Ok (g, v) ->
  exists h data, g = guid /\ header_raw v hb /\ header_deserialize c chk hb = Ok h /\ ov_header v = h /\ header_for c cf h info guid leaf /\ ov_hmac v = hmac /\
    ov_chain v = Some (leaf :: mf_ca cf) /\ c_cert_key c leaf = Some key /\
    match mf_owner cf with None => entries_raw v = [] | Some (_, owner) => exists p, verify_entries c chk v = Ok [p] /\ p_key p = owner end /\
    ser (voucher_codec c chk) v = Ok data /\ de (voucher_codec c chk) data = Some v.
Proof.
  intros HO HS HC (CR & CS & CCH & CL & CZ & CO) MK MH MC (h & S1 & S2 & BH & LH & HF) BM LM H.
  destruct (HC _ _ _ _ _ _ MK) as (LK & LD & LB & LL).
  assert (CHO : chain_ok c (leaf :: mf_ca cf)).
  { destruct CCH as [_ CF]. split; [unfold nlen in *; cbn [length]; lia|]. constructor; [|exact CF]. split; [exact LB|]. split; [lia|exact LD]. }
  unfold new_voucher in H. rewrite MH, hex_round in H by exact BH. cbn [of_option bind] in H. rewrite S2 in H. cbn [code map_err bind] in H.
  rewrite MC, (all_read _ _ CHO) in H.
  destruct (voucher_new h hmac (Some (leaf :: mf_ca cf))) as [v0| |] eqn:VN; cbn [code map_err bind] in H; try discriminate.
  assert (RT : header_rt c chk h) by (exists hb; auto).
  assert (HM : hash_small hmac) by (split; [exact BM|lia]).
  assert (VV := VN). unfold voucher_new in VV.
  assert (SA : serialize_array (hd_contents h) = Ok hb).
  { unfold header_serialize in S1. destruct (check_device_info (hd_devinfo h)); cbn [bind] in S1; try discriminate.
    destruct (serialize_array (hd_contents h)); cbn [map_err] in S1; congruence. }
  rewrite SA in VV. cbn [map_err bind] in VV. change (serialize_array (PA None [])) with (@Ok cerr bytes [128]) in VV. cbn [map_err bind option_val] in VV.
  assert (EV : v0 = Voucher (PA None [enc (VInt (Z.of_N V1_1)); enc (VBytes hb); enc (hash_val hmac); enc (x5chain_val (leaf :: mf_ca cf)); [128]]) V1_1 h hmac (Some (leaf :: mf_ca cf)) (PA None [])) by (inversion VV; reflexivity).
  clear VV.
  assert (Z4 : nlen (concat (firstn 4 (pa_items (ov_contents v0)))) < 34359738368).
  { rewrite EV. cbn [ov_contents pa_items concat firstn]. rewrite !nlen_app. pose proof (enc_int_nlen (Z.of_N V1_1)). pose proof (enc_bytes_nlen hb).
    assert (nlen (enc (hash_val hmac)) <= 36 + 65536).
    { unfold hash_val. cbn [enc map concat]. rewrite !nlen_app.
      match goal with |- context [enc_head 4 ?n] => pose proof (enc_head_nlen 4 n) end.
      match goal with |- context [enc_int ?z] => pose proof (enc_int_nlen z) end. pose proof (enc_bytes_nlen (h_value hmac)). cbn [enc] in *. rewrite ?nlen_app in *.
      change (nlen (@nil N)) with 0. lia. }
    assert (nlen (enc (x5chain_val (leaf :: mf_ca cf))) <= 9 + (9 + nlen leaf) + nlen (enc (x5chain_val (mf_ca cf)))).
    { unfold x5chain_val. cbn [enc map concat]. rewrite !nlen_app. match goal with |- nlen (enc_head 4 ?n) + _ <= _ => pose proof (enc_head_nlen 4 n) end.
      pose proof (enc_head_nlen 2 (nlen leaf)). unfold bytes in *. lia. }
    change (nlen (@nil N)) with 0. unfold bytes in *. lia. }
  assert (FM0 : fits_memory v0).
  { unfold fits_memory. rewrite EV in Z4 |- *. cbn [ov_contents pa_items concat firstn] in *. rewrite !nlen_app in *. change (nlen [128]) with 1. change (nlen (@nil N)) with 0 in *. lia. }
  assert (K0 : kept c chk v0) by (eapply new_kept; [exact RT|exact HM|exact CHO|exact VN|unfold fits_memory in FM0; unfold two63; lia]).
  assert (HR : forall v', nth_error (pa_items (ov_contents v')) 1 = nth_error (pa_items (ov_contents v0)) 1 -> header_raw v' hb).
  { intros v' E. exists (enc (VBytes hb)). split; [rewrite E, EV; reflexivity|]. rewrite from_slice_enc; [reflexivity|]. unfold MAX_DEPTH. apply vok_bytes; [exact BH|unfold two64; lia]. }
  assert (GD : hd_guid h = guid) by apply HF.
  assert (STO : forall v', kept c chk v' -> fits_memory v' -> pa_tag (ov_contents v') = None -> exists data, ser (voucher_codec c chk) v' = Ok data /\ de (voucher_codec c chk) data = Some v').
  { intros v' K F T. destruct (store_load c chk v' K F) as (b & SB & RB); [rewrite T; exact Logic.I|]. exists b. cbn [voucher_codec ser de]. unfold to_serr. rewrite SB. split; [reflexivity|].
    specialize (RB []). rewrite app_nil_r in RB. unfold voucher_deserialize. rewrite RB. reflexivity. }
  revert H CO. destruct (mf_owner cf) as [[sk owner]|] eqn:MO; intros H CO.
  - destruct (extend c chk v0 sk None owner (me_rnd e)) as [v1 [[]| |]] eqn:EX; try discriminate. inversion H; subst g v1. clear H.
    destruct CO as [CO1 CO2]. set (x := Ext sk None owner (me_rnd e)).
    assert (XO : ext_ok c x) by (split; [exact CO1|]; split; [exact CO2|exact Logic.I]).
    assert (SV : sound_voucher c chk v0) by (apply kept_sound; [exact K0|exact FM0|rewrite EV; exact Logic.I]).
    assert (VE : verify_entries c chk v0 = Ok []) by (rewrite EV; reflexivity).
    destruct (extend_shape _ _ _ _ _ _ _ _ EX) as (a & b & en & raw0 & eb & l' & EC & CN & _).
    destruct (cose_new_alg _ _ _ _ _ _ _ CN) as [alg AL].
    assert (OWN : c_pub c sk = pk_key (owner_after v0 [])).
    { unfold owner_after. cbn [map last]. unfold extend_check in EC. apply bind_ok in EC. destruct EC as (hi & _ & EC). rewrite EV in EC. cbn [ov_entries pa_items] in EC.
      apply bind_ok in EC. destruct EC as ([la ow] & E1 & EC). apply bind_ok in E1. destruct E1 as (hh & _ & E1). cbn [ov_header] in E1. assert (ow = hd_mfg h) as -> by congruence.
      unfold matches_pkey in EC. destruct (bytes_eqb (pk_key (hd_mfg h)) (c_pub c sk)) eqn:BE; [|discriminate]. apply bytes_eqb_spec in BE. rewrite EV. cbn [ov_header]. congruence. }
    destruct (extend_step c chk v0 [] x HO HS SV VE (or_introl eq_refl) XO OWN) as (v' & p & raw & EX' & VE' & PK & _ & SV' & _ & EH & EM & ECH & ET & ER & _ & _ & RL & NE & B4);
      [cbn [x_sk x]; rewrite AL; discriminate|rewrite EV; reflexivity|rewrite EV; reflexivity|].
    cbn [x_sk x_extra x_next x_rnd x] in EX'. rewrite EX in EX'. inversion EX'; subst v'. clear EX'.
    assert (K1 : kept c chk v) by (eapply (extended_kept c chk v0 v x); auto).
    assert (F1 : fits_memory v).
    { unfold fits_memory. destruct K1 as [KL _ _ _ _ _ _ _]. destruct B4 as (bb & N4 & SB).
      assert (EN : entries_raw v = [raw]) by (rewrite ER, EV; reflexivity).
      pose proof (serialize_len _ _ SB) as SL. unfold entries_raw in EN. rewrite EN in SL. cbn [concat] in SL. rewrite app_nil_r in SL.
      assert (F4 : firstn 4 (pa_items (ov_contents v)) = firstn 4 (pa_items (ov_contents v0))).
      { rewrite EV in NE |- *. cbn [ov_contents pa_items] in NE |- *. destruct (pa_items (ov_contents v)) as [|y0 [|y1 [|y2 [|y3 r]]]]; try discriminate KL.
        pose proof (NE 0%nat ltac:(lia)) as N0. pose proof (NE 1%nat ltac:(lia)) as N1. pose proof (NE 2%nat ltac:(lia)) as N2. pose proof (NE 3%nat ltac:(lia)) as N3.
        cbn [nth_error] in N0, N1, N2, N3. cbn [firstn]. congruence. }
      destruct (pa_items (ov_contents v)) as [|y0 [|y1 [|y2 [|y3 [|y4 [|y5 r]]]]]]; try discriminate KL. cbn [nth_error] in N4. inversion N4; subst y4.
      rewrite <- F4 in Z4. cbn [firstn concat] in Z4 |- *. rewrite !nlen_app in *. change (nlen (@nil N)) with 0 in *. unfold bytes in *. lia. }
    destruct (STO v K1 F1) as (data & SD & DD); [rewrite ET, EV; reflexivity|].
    exists h, data. split; [exact GD|]. split; [apply HR; apply NE; lia|]. split; [exact S2|]. split; [rewrite EH, EV; reflexivity|]. split; [exact HF|].
    split; [rewrite EM, EV; reflexivity|]. split; [rewrite ECH, EV; reflexivity|]. split; [exact LK|]. split; [exists p; auto|]. auto.
  - assert (g = hd_guid h /\ v = v0) as [-> ->] by (inversion H; auto). destruct (STO v0 K0 FM0) as (data & SD & DD); [rewrite EV; reflexivity|].
    exists h, data. split; [exact GD|]. split; [apply HR; reflexivity|]. split; [exact S2|]. split; [rewrite EV; reflexivity|].
    split; [exact HF|]. split; [rewrite EV; reflexivity|]. split; [rewrite EV; reflexivity|]. split; [exact LK|]. split; [rewrite EV; reflexivity|]. auto.
Qed.

(** * Runs *)
Section runs.
Context (c : crypto) (chk : bool) (ko : kex_ops) (kf : keyfns) (mkcert : bytes -> bytes -> str -> bytes -> bytes -> option bytes) (cf : mfconf).
Context {W : Type} (be : backend voucher W) (keeps : W -> key -> voucher -> Prop) (okv : key -> voucher -> Prop) (w0 : W) (A : aead) (idt : str -> option str).
Context (SL : store_laws be (voucher_codec c chk) keeps okv) (OK : forall k v, guid_text (hd_guid (ov_header v)) = Some k -> okv k v).
Context (HO : outputs_ok c) (HS : sign_correct c) (HK : keyfns_ok c kf) (HC : certifies c mkcert) (HF : mfconf_ok c cf) (HA : opens_bytes A).
Let sv := mf_server c chk ko kf mkcert cf be.
Let obs := obs (W:=W) (D:=mfdata) (M:=mfmsg) (E:=mfenv).
Notation exchanged := (exchanged ko cf).
Notation provisioned := (provisioned ko cf A).
Notation handed := (handed c chk ko kf mkcert cf A be).
Notation issued_in_session := (issued_in_session c chk ko kf mkcert cf A be).

Lemma exchanged_app os o id k : exchanged os id k -> exchanged (os ++ o : list obs) id k.
Proof. intros (s & body & m & w & e & su & ci & x & kx & raw & I & H). exists s, body, m, w, e, su, ci, x, kx, raw. split; [apply in_or_app; auto|exact H]. Qed.
Lemma provisioned_app os o id k : provisioned os id k -> provisioned (os ++ o : list obs) id k.
Proof.
  intros (pre & s & body & pt & m & w & e & post & ks & -> & H). exists pre, s, body, pt, m, w, e, (post ++ o), ks. split; [rewrite <- app_assoc; reflexivity|exact H].
Qed.
Lemma handed_app os o id hb i g l k : handed os id hb i g l k -> handed (os ++ o : list obs) id hb i g l k.
Proof.
  intros (pre & s & body & pt & m & w & e & post & der & sg & rest & -> & H). exists pre, s, body, pt, m, w, e, (post ++ o), der, sg, rest. split; [rewrite <- app_assoc; reflexivity|exact H].
Qed.
Lemma issued_app os o k v : issued_in_session os k v -> issued_in_session (os ++ o : list obs) k v.
Proof.
  intros (pre & id & s & body & pt & m & w & e & post & hm & hb & h & i & g & l & dk & -> & H).
  exists pre, id, s, body, pt, m, w, e, (post ++ o), hm, hb, h, i, g, l, dk. split; [rewrite <- app_assoc; reflexivity|exact H].
Qed.

Definition IWm (os : list obs) (w : W) : Prop := forall k v, plain_key k -> keeps w k v -> keeps w0 k v \/ issued_in_session os k v.
Definition given (os : list obs) (id : str) (t : str) (ch : x5chain) : Prop :=
  exists hb info guid leaf key signer rest rnd, t = hex_enc hb /\ ch = leaf :: mf_ca cf /\ handed os id hb info guid leaf key /\ good_header c chk cf hb info guid leaf /\
    mf_ca cf = signer :: rest /\ mkcert signer (mf_ca_sk cf) info key rnd = Some leaf /\ bytes_ok guid.
Definition IDm (os : list obs) (id : str) (s : session mfdata) : Prop :=
  let d := ses_data s in
  (forall k, ses_keys s = Some k -> exchanged os id k) /\
  (forall k, md_keys d = Some k -> exchanged os id k) /\
  (forall k, md_devkey d = Some k -> provisioned os id k) /\
  (md_diun d = true -> md_devkey d <> None) /\
  (forall t, md_header d = Some t -> exists ch, md_chain d = Some ch /\ given os id t ch).
Lemma given_app os o id t ch : given os id t ch -> given (os ++ o) id t ch.
Proof. intros (hb & i & g & l & k & sg & rest & rnd & X1 & X2 & X3 & X4). exists hb, i, g, l, k, sg, rest, rnd. split; [exact X1|]. split; [exact X2|]. split; [apply handed_app; exact X3|exact X4]. Qed.
Lemma IWm_app os o w : IWm os w -> IWm (os ++ o) w.
Proof. intros H k v PK KP. destruct (H k v PK KP) as [X|X]; [auto|]. right. apply issued_app. exact X. Qed.
Lemma IDm_app os o id s : IDm os id s -> IDm (os ++ o) id s.
Proof.
  intros (H1 & H2 & H3 & H4 & H5). split; [intros k E; apply exchanged_app; auto|]. split; [intros k E; apply exchanged_app; auto|].
  split; [intros k E; apply provisioned_app; auto|]. split; [exact H4|]. intros t E. destruct (H5 t E) as (ch & C & G). exists ch. split; [exact C|apply given_app; exact G].
Qed.
Lemma IWm_forget os w w' : forgets keeps w w' -> IWm os w -> IWm os w'.
Proof. intros F H k v PK KP. apply H; [exact PK|]. apply F; assumption. Qed.

Lemma mf_opened im s body m : parse_request A sv im s body = PMsg m -> exists pt, ek_decrypt A (keys_of s) body = Ok pt /\ mf_parse im pt = Ok m.
Proof.
  intros P. unfold parse_request in P. destruct (negb _); [discriminate|]. destruct (enc_violated _ _); [discriminate|].
  destruct (ek_decrypt A (keys_of s) body) as [pt| |]; try discriminate. exists pt. split; [reflexivity|]. unfold sv, mf_server in P. cbn [sv_parse] in P.
  destruct (mf_parse im pt); inversion P; reflexivity.
Qed.
Lemma mf_plain im s body m : enc_req im = Some MustNot -> parse_request A sv im s body = PMsg m -> mf_parse im body = Ok m.
Proof.
  intros EN P. unfold parse_request in P. destruct (negb _); [discriminate|]. rewrite EN in P. unfold enc_violated in P.
  destruct (ek_is_some (keys_of s)) eqn:K; [discriminate|]. unfold ek_is_some in K. unfold ek_decrypt in P.
  destruct (ek_suite (keys_of s)) as [su|]; [destruct (ek_keys (keys_of s)); discriminate|]. unfold sv, mf_server in P. cbn [sv_parse] in P.
  destruct (mf_parse im body); inversion P; reflexivity.
Qed.
Lemma mf_sealed im s body m : enc_req im = Some MustBe -> parse_request A sv im s body = PMsg m -> exists k, ses_keys s = Some k.
Proof.
  intros EN P. unfold parse_request in P. destruct (negb _); [discriminate|]. rewrite EN in P. unfold enc_violated in P.
  destruct (ses_keys s) as [k|] eqn:K; [eauto|]. unfold keys_of in P. rewrite K in P. discriminate.
Qed.
Lemma opened_small k body pt : bytes_ok body -> nlen body <= MAX_BODY -> ek_decrypt A k body = Ok pt -> bytes_ok pt /\ nlen pt <= 65536.
Proof.
  intros B L D. assert (MAX_BODY <= 65536) by (vm_compute; discriminate). unfold ek_decrypt in D. destruct (ek_suite k) as [su|]; [|inversion D; subst; split; [exact B|lia]].
  destruct (ek_keys k) as [[sevk|]|]; try discriminate. destruct (unseal A sevk body) as [p|] eqn:U; cbn [of_option] in D; [|discriminate]. inversion D; subst.
  destruct (HA _ _ _ B U). split; [assumption|lia].
Qed.

Lemma mf_step os id im om s body m w e w' r : IWm os w -> IDm os id s -> In (im, om) (sv_routes sv) ->
  parse_request A sv im s body = PMsg m -> nlen body <= MAX_BODY -> mf_request_ok body e -> sv_handle sv im w s m e = (w', r) ->
  let os' := os ++ [Ran id im s body m w e] in
  IWm os' w' /\ match r with HReply d ks reply => IDm os' id (Ses (Some om) (match ks with Some _ => ks | None => ses_keys s end) d) | _ => True end.
Proof.
  intros HW HD RI P LB (BB & BG & LG) H. cbn zeta.
  assert (HH : sv_handle (mf_server c chk ko kf mkcert cf be) im w s m e = (w', r)) by exact H.
  unfold sv, mf_server in RI, H. cbn [sv_routes sv_handle] in RI, H. unfold mf_routes in RI.
  assert (HW' := IWm_app os [Ran id im s body m w e] w HW). assert (HD' := IDm_app os [Ran id im s body m w e] id s HD).
  destruct RI as [RI|[RI|[RI|[RI|[RI|[]]]]]]; inversion RI; subst im om; clear RI.
  - (* AppStart *) destruct (mf_opened _ _ _ _ P) as (pt & OP & RP). destruct (opened_small _ _ _ BB LB OP) as [BP LP]. unfold mf_parse in RP.
    destruct (from_slice as_appstart pt) as [raw| |] eqn:RD; cbn [bind map_err] in RP; inversion RP; subst m. clear RP. cbn [mf_handle] in H. unfold h_appstart in H.
    destruct (di_refused cf (ses_data s)) eqn:DR; [inversion H; subst; split; [exact HW'|exact Logic.I]|].
    destruct (from_slice as_mfginfo raw) as [info| |] eqn:RI; cbn [code map_err bind] in H; [|inversion H; subst; split; [exact HW'|exact Logic.I]|inversion H; subst; split; [exact HW'|exact Logic.I]].
    destruct (device_key c (ses_data s) info e) as [key| |] eqn:DK; cbn [bind] in H; [|inversion H; subst; split; [exact HW'|exact Logic.I]|inversion H; subst; split; [exact HW'|exact Logic.I]].
    destruct (new_credentials c kf mkcert cf info key e) as [[hb ch]| |] eqn:NC; inversion H; subst; (split; [exact HW'|]); try exact Logic.I.
    destruct (info_reads _ _ _ RD RI) as (NI & SC & LI).
    destruct (credentials_made c chk kf mkcert cf info key e hb ch HO HK HC HF BG LG SC ltac:(lia) NC) as (signer & rest & leaf & CA & MK & -> & GH).
    destruct HD' as (H1 & H2 & H3 & H4 & _). split; [exact H1|]. split; [exact H2|]. split; [exact H3|]. split; [exact H4|]. cbn [ses_data md_header md_chain].
    intros t E. inversion E; subst t. eexists. split; [reflexivity|]. exists hb, info, (me_guid e), leaf, key, signer, rest, (me_cert e).
    split; [reflexivity|]. split; [reflexivity|]. split; [|split; [exact GH|]; auto].
    unfold device_key in DK. destruct HD as (_ & _ & D3 & D4 & _).
    assert (PV : exists der, (provisioned os id der \/ (mf_di cf = true /\ me_pubkeys e info = Ok (Some der))) /\ c_key_of_der c der = Some key).
    { unfold di_refused in DR. destruct (md_devkey (ses_data s)) as [der|] eqn:MD; cbn [bind] in DK.
      - exists der. split; [left; apply D3; reflexivity|]. destruct (c_key_of_der c der); inversion DK; reflexivity.
      - destruct (mf_di cf) eqn:DI.
        + destruct (me_pubkeys e info) as [[der|]| |] eqn:PK; cbn [code map_err bind] in DK; try discriminate. exists der. split; [right; auto|]. destruct (c_key_of_der c der); inversion DK; reflexivity.
        + destruct (md_diun (ses_data s)) eqn:DU; [|discriminate]. exfalso. apply D4; reflexivity. }
    destruct PV as (der & PV & KD). exists os, s, body, pt, (MAppStart raw), w', e, [], der, signer, rest. split; [reflexivity|]. split; [exact OP|]. split; [exact NI|]. split; [reflexivity|].
    split; [eexists; eexists; rewrite HH; reflexivity|]. auto.
  - (* SetHMAC *) destruct (mf_opened _ _ _ _ P) as (pt & OP & RP). destruct (opened_small _ _ _ BB LB OP) as [BP LP]. unfold mf_parse in RP.
    destruct (from_slice as_sethmac pt) as [hm| |] eqn:RD; cbn [bind map_err] in RP; inversion RP; subst m. clear RP. cbn [mf_handle] in H. unfold h_sethmac in H.
    destruct (di_refused cf (ses_data s)) eqn:DR; [inversion H; subst; split; [exact HW'|exact Logic.I]|].
    destruct (new_voucher c chk cf (ses_data s) hm e) as [[g v]| |] eqn:NV; [|inversion H; subst; split; [exact HW'|exact Logic.I]|inversion H; subst; split; [exact HW'|exact Logic.I]].
    destruct (guid_text g) as [k|] eqn:GT; [|inversion H; subst; split; [exact HW'|exact Logic.I]].
    destruct (hmac_reads _ _ BP RD) as (NH & BH & LH).
    assert (ISS : exists data, plain_key k /\ okv k v /\ ser (voucher_codec c chk) v = Ok data /\ de (voucher_codec c chk) data = Some v /\ issued_in_session (os ++ [Ran id DISetHMAC s body (MSetHmac hm) w e]) k v).
    { destruct HD as (_ & _ & _ & _ & D5). destruct (md_header (ses_data s)) as [t|] eqn:MH; [|unfold new_voucher in NV; rewrite MH in NV; discriminate].
      destruct (D5 t eq_refl) as (ch & MC & hb & info & guid & leaf & key & signer & rest & rnd & -> & -> & HN & GH & CA & MK & BGU).
      destruct (voucher_made c chk cf (ses_data s) hm e g v hb info guid leaf mkcert key signer rnd HO HS HC HF MK MH MC GH BH ltac:(lia) NV)
        as (h & data & -> & HR & HDS & OH & HFO & OM & OC & LK & OW & SE & DE).
      exists data. split; [eapply guid_text_plain; eassumption|]. split; [apply OK; rewrite OH; destruct HFO as (_ & -> & _); exact GT|]. split; [exact SE|]. split; [exact DE|].
      exists os, id, s, body, pt, (MSetHmac hm), w, e, [], hm, hb, h, info, guid, leaf, key. auto 20. }
    destruct ISS as (data & PK & OV & SE & DE & ISS).
    assert (ST : forall wx rx, b_store be w k v = (wx, rx) -> IWm (os ++ [Ran id DISetHMAC s body (MSetHmac hm) w e]) wx).
    { intros wx rx S k' v' PK' KP. destruct (sl_store _ _ _ _ SL _ _ _ _ _ PK OV S _ _ PK' KP) as [X1|(-> & d' & SE' & DE')]; [apply HW'; assumption|].
      right. assert (d' = data) as -> by congruence. assert (v' = v) as -> by congruence. exact ISS. }
    destruct (match me_fault e with DataFails => true | _ => false end) eqn:DF.
    { destruct (me_fault e); try discriminate. inversion H; subst. split; [exact HW'|exact Logic.I]. }
    assert (H' : match b_store be w k v with (w1, Err _) => (w1, HReject InternalServerError) | (w1, Panic _) => (w1, HPanic) | (w1, Ok _) => (w1, HReply (ses_data s) None (enc (VArr []))) end = (w', r))
      by (destruct (me_fault e); try discriminate; exact H).
    clear H. destruct (b_store be w k v) as [w1 [[]| |]] eqn:B; inversion H'; subst; (split; [eapply ST; exact eq_refl|]); try exact Logic.I. exact HD'.
  - (* Connect *) pose proof (mf_plain DIUNConnect _ _ _ eq_refl P) as RP. unfold mf_parse in RP.
    destruct (from_slice as_diunconnect body) as [m0| |] eqn:RD; cbn [bind map_err] in RP; inversion RP; subst m. clear RP. cbn [mf_handle] in H. unfold h_connect in H.
    destruct (mf_diun cf) as [dn|]; [|inversion H; subst; split; [exact HW'|exact Logic.I]].
    destruct (connect_reply c chk ko cf dn m0 e) as [[ks b]| |] eqn:CR; inversion H; subst; (split; [exact HW'|]); try exact Logic.I.
    destruct HD' as (H1 & H2 & H3 & H4 & H5). split; [exact H1|]. cbn [ses_data md_keys md_devkey md_diun md_header md_chain]. split; [|auto].
    intros k E. inversion E; subst k. clear E. unfold connect_reply in CR.
    destruct (me_kex e (dc_kex m0)) as [kx|] eqn:KX; cbn [of_option bind code map_err] in CR; [|discriminate].
    destruct (derive_key ko (mf_kdf_avail cf) OwnerService (dc_cipher m0) kx (dc_exchange m0) (read_kdf_header (me_kdf e))) as [raw| |] eqn:DK; cbn [bind map_err] in CR; try discriminate.
    destruct (get_public ko kx) as [pub| |]; cbn [bind map_err] in CR; try discriminate.
    destruct (cose_new_with_protected _ _ _ _ _ _ _) as [t| |]; cbn [bind map_err] in CR; try discriminate. destruct (cose_serialize t) as [b'| |]; cbn [bind map_err] in CR; inversion CR; subst.
    exists s, body, (MConnect m0), w', e, (dc_kex m0), (dc_cipher m0), (dc_exchange m0), kx, raw. split; [apply in_or_app; right; left; reflexivity|].
    split; [apply exchange_reads; exact RD|]. split; [exact KX|]. split; [exact DK|reflexivity].
  - (* RequestKeyParameters *) destruct (mf_opened _ _ _ _ P) as (pt & OP & RP). unfold mf_parse in RP.
    destruct (from_slice as_requestparams pt) as [tp| |]; cbn [bind map_err] in RP; inversion RP; subst m. cbn [mf_handle] in H. unfold h_requestparams in H.
    destruct (mf_diun cf) as [dn|]; [|inversion H; subst; split; [exact HW'|exact Logic.I]].
    destruct HD' as (H1 & H2 & H3 & H4 & H5).
    destruct (md_keys (ses_data s)) as [ks|] eqn:MK; inversion H; subst; (split; [exact HW'|]); [|exact Logic.I].
    split; [cbn [ses_keys]; exact H2|]. cbn [ses_data md_keys md_devkey md_diun md_header md_chain]. split; [discriminate|]. auto.
  - (* ProvideKey *) destruct (mf_opened _ _ _ _ P) as (pt & OP & RP). unfold mf_parse in RP.
    destruct (from_slice as_providekey pt) as [[k t]| |] eqn:RD; cbn [bind map_err] in RP; inversion RP; subst m. cbn [mf_handle fst snd] in H. unfold h_providekey in H.
    destruct (mf_diun cf) as [dn|] eqn:DN; [|inversion H; subst; split; [exact HW'|exact Logic.I]]. inversion H; subst; (split; [exact HW'|]).
    destruct HD' as (H1 & H2 & H3 & H4 & H5). split; [exact H1|]. cbn [ses_data md_keys md_devkey md_diun md_header md_chain]. split; [exact H2|]. split; [|split; [discriminate|exact H5]].
    intros k' E. inversion E; subst k'. destruct (mf_sealed DIUNProvideKey _ _ _ eq_refl P) as (ks & SK). cbn [fst snd].
    exists os, s, body, pt, (MProvideKey k t), w', e, [], ks. split; [reflexivity|]. split; [rewrite DN; discriminate|]. split; [exact SK|].
    split; [destruct HD as (D1 & _); apply D1; exact SK|]. split; [unfold keys_of in OP; rewrite SK in OP; exact OP|]. eapply key_reads. exact RD.
Qed.
Lemma mf_routes_ok : routes_ok sv.
Proof. unfold routes_ok, sv, mf_server. cbn [sv_routes]. repeat constructor. Qed.
Lemma IDm_new os id : IDm os id (Ses None None (sv_new sv)).
Proof. unfold IDm. cbn. split; [discriminate|]. split; [discriminate|]. split; [discriminate|]. split; [discriminate|]. discriminate. Qed.
Lemma mf_events_ok es : Forall (mf_event_ok keeps) es ->
  Forall (event_allowed (fun f => forall w, forgets keeps w (f w)) mf_request_ok) es.
Proof. intros H. eapply Forall_impl; [|exact H]. intros [rq|n ok|n ok|n|d| |f]; cbn; auto. Qed.
Definition mf_principle now es y o :=
  principle A idt sv mf_routes_ok IWm IDm (fun f => forall w, forgets keeps w (f w)) mf_request_ok IWm_app IDm_app IDm_new mf_step
    (fun os f w F H => IWm_forget os w (f w) (F w) H) now w0 es y o.

(** A device that is told it is done has its voucher stored. *)
Lemma mf_done os id s body m w e w' d ks b : IDm os id s -> parse_request A sv DISetHMAC s body = PMsg m -> nlen body <= MAX_BODY -> mf_request_ok body e ->
  sv_handle sv DISetHMAC w s m e = (w', HReply d ks b) ->
  exists k v, b_store be w k v = (w', Ok tt) /\ issued_in_session (os ++ [Ran id DISetHMAC s body m w e]) k v.
Proof.
  intros HD P LB (BB & BG & LG) H. unfold sv, mf_server in H. cbn [sv_handle] in H.
  destruct (mf_opened _ _ _ _ P) as (pt & OP & RP). destruct (opened_small _ _ _ BB LB OP) as [BP LP]. unfold mf_parse in RP.
  destruct (from_slice as_sethmac pt) as [hm| |] eqn:RD; cbn [bind map_err] in RP; inversion RP; subst m. clear RP. cbn [mf_handle] in H. unfold h_sethmac in H.
  destruct (di_refused cf (ses_data s)) eqn:DR; [discriminate|].
  destruct (new_voucher c chk cf (ses_data s) hm e) as [[g v]| |] eqn:NV; try discriminate. destruct (guid_text g) as [k|] eqn:GT; [|discriminate].
  destruct (hmac_reads _ _ BP RD) as (NH & BH & LH). exists k, v. split.
  { assert (H' : match b_store be w k v with (w1, Err _) => (w1, HReject InternalServerError) | (w1, Panic _) => (w1, HPanic) | (w1, Ok _) => (w1, HReply (ses_data s) None (enc (VArr []))) end = (w', HReply d ks b))
      by (destruct (me_fault e); try discriminate; exact H).
    destruct (b_store be w k v) as [w1 [[]| |]]; inversion H'; subst. reflexivity. }
  destruct HD as (_ & _ & _ & _ & D5). destruct (md_header (ses_data s)) as [t|] eqn:MH; [|unfold new_voucher in NV; rewrite MH in NV; discriminate].
  destruct (D5 t eq_refl) as (ch & MC & hb & info & guid & leaf & key & signer & rest & rnd & -> & -> & HN & GH & CA & MK & BGU).
  destruct (voucher_made c chk cf (ses_data s) hm e g v hb info guid leaf mkcert key signer rnd HO HS HC HF MK MH MC GH BH ltac:(lia) NV)
    as (h & data & -> & HR & HDS & OH & HFO & OM & OC & LK & OW & _).
  exists os, id, s, body, pt, (MSetHmac hm), w, e, [], hm, hb, h, info, guid, leaf, key. auto 20.
Qed.
(** Without plain DI, a session without a provisioned key gets no answer. *)
Lemma mf_no_plain os id im s body m w e w' d ks b : mf_di cf = false -> IDm os id s -> im = DIAppStart \/ im = DISetHMAC -> parse_request A sv im s body = PMsg m ->
  sv_handle sv im w s m e = (w', HReply d ks b) -> exists der, provisioned os id der.
Proof.
  intros DI (_ & _ & D3 & D4 & _) IM P H. unfold sv, mf_server in H. cbn [sv_handle] in H. destruct (mf_opened _ _ _ _ P) as (pt & _ & RP). unfold mf_parse in RP.
  assert (DR : di_refused cf (ses_data s) = false).
  { destruct IM as [-> | ->].
    - destruct (from_slice as_appstart pt) as [raw| |]; cbn [bind map_err] in RP; inversion RP; subst m. cbn [mf_handle] in H. unfold h_appstart in H.
      destruct (di_refused cf (ses_data s)); [discriminate|reflexivity].
    - destruct (from_slice as_sethmac pt) as [hm| |]; cbn [bind map_err] in RP; inversion RP; subst m. cbn [mf_handle] in H. unfold h_sethmac in H.
      destruct (di_refused cf (ses_data s)); [discriminate|reflexivity]. }
  unfold di_refused in DR. rewrite DI in DR. destruct (md_diun (ses_data s)) eqn:DU; [|discriminate].
  destruct (md_devkey (ses_data s)) as [k|]; [eauto|]. exfalso. apply D4; reflexivity.
Qed.
End runs.
