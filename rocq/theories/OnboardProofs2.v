(** Lemmas: what device and owner write, the other reads. *)
From Verif Require Import Base BaseFacts CborSpec CborModel CborProofs ValueModel ValueProofs Text Hex TypesModel CryptoSpec TypesProofs VoucherModel VoucherSpec VoucherProofs VoucherProofs2
  KexModel KexSpec KexProofs RvModel MsgModel SessionModel SessionSpec HttpClientModel RvServerModel CoseFacts To0Accept SiModel DevSiModel SiSpec SiApiModel SiApiSpec OwnerModel ClientModel ClientSpec ClientProofs ClientHonest
  StoreModel Backend OnboardSpec.
From Verif Require P_Kex P_Honest P_Servers.
From Coq Require Import ZifyBool ZifyNat ZifyN.
Local Open Scope N_scope.
Set Default Proof Using "Type".
Local Opaque dec_top from_slice any_value.

Lemma D99_ge : (4 <= S D99)%nat.
Proof. apply Nat.leb_le. vm_compute. reflexivity. Qed.
(** ** Signed objects with unprotected headers *)
Lemma cose_new_unprot c chk pl u sk rnd :
  outputs_ok c -> sign_correct c -> c_alg c (c_pub c sk) <> None ->
  bytes_ok pl -> nlen pl < 2305843009213693952 -> vok (S D99) (VMap u) -> plain (VMap u) = true -> nlen (enc (VMap u)) < 2305843009213693952 ->
  exists e raw, cose_new c chk pl u sk rnd = Ok e /\ cose_serialize e = Ok raw /\ cose_deserialize chk raw = Ok e /\ cs_payload e = pl /\ cs_unprot e = u /\ signed_by c (c_pub c sk) e.
Proof.
  intros (Hh & Hs & Ha) Hsc NA Hpl Hlen VU PU LU. destruct (c_alg c (c_pub c sk)) as [alg|] eqn:Halg; [clear NA|congruence].
  pose proof (Ha _ _ Halg) as Hr. destruct (alg_prot_ok alg Hr) as [Pok Plen].
  set (p := enc (VMap [(VInt 1, VInt alg)])) in *. set (sg := c_sign c sk (tbs p pl) rnd).
  destruct (Hs sk (tbs p pl) rnd) as [Sok Slen]. fold sg in Sok, Slen.
  assert (F : cose_fits p u pl sg).
  { split; [exact Pok|]. split; [exact Hpl|]. split; [exact Sok|]. split; [exact VU|]. split; [exact PU|].
    unfold cose_inner_val. set (U := VMap u) in *. cbn [enc map concat]. rewrite !nlen_app.
    pose proof (enc_head_nlen 4 (nlen [VBytes p; U; VBytes pl; VBytes sg])).
    pose proof (enc_head_nlen 2 (nlen p)). pose proof (enc_head_nlen 2 (nlen pl)). pose proof (enc_head_nlen 2 (nlen sg)).
    change (nlen (@nil N)) with 0. unfold two63. unfold bytes in *. lia. }
  eexists. exists (enc (VTag 18 (VArr (cose_inner_val p u pl sg)))).
  split; [|split; [|split; [|split; [|split]]]].
  - unfold cose_new, cose_new_with_protected. rewrite Halg. cbn [of_option bind app]. change (enc (VMap [(VInt 1, VInt alg)])) with p. fold sg. apply cose_from_inner_eq. exact F.
  - unfold cose_serialize. cbn [cs_contents]. rewrite cose_array_serialize. reflexivity.
  - apply cose_deserialize_built; [exact F|]. exists (VMap [(VInt 1, VInt alg)]). split; [apply alg_prot_dec; auto|discriminate].
  - reflexivity.
  - reflexivity.
  - exists alg, (VMap [(VInt 1, VInt alg)]), alg. split; [exact Halg|]. cbn [cs_prot cs_payload cs_sig]. split; [apply alg_prot_dec; auto|]. split; [|split; [reflexivity|apply Hsc]].
    exists [(VInt 1, VInt alg)], (VInt alg). split; [reflexivity|]. split; [reflexivity|reflexivity].
Qed.
Lemma as_bstr16_val b : nlen b = 16 -> as_bstr16 (bstr_val b) = Some b.
Proof. intros L. unfold as_bstr16, bstr_val. cbn [as_bytebuf untag]. rewrite L. reflexivity. Qed.
Lemma vok_nonce d n : nonce_ok n -> vok (S d) (bstr_val n).
Proof. intros [B L]. apply vok_bytes; [exact B|]. rewrite L. unfold two64. lia. Qed.
Ltac vint := cbn [vok]; vm_compute; split; [discriminate|reflexivity].
Ltac vk := unfold MAX_DEPTH; repeat first [apply vok_arr; [unfold two64, nlen; cbn [length]; lia|repeat constructor] | apply vok_nonce; assumption].

(** ** The first request *)
Lemma hello_read g n5 : nonce_ok g -> nonce_ok n5 -> from_slice as_hellodevice (enc (hello_val g n5)) = Ok (HelloDevice 17 g n5 Ecdh384 A256Gcm (ES384, [])).
Proof.
  intros G N5. rewrite from_slice_enc.
  - unfold hello_val, as_hellodevice. cbn [as_fields untag]. rewrite !as_bstr16_val by (apply G || apply N5). reflexivity.
  - unfold hello_val. unfold MAX_DEPTH. apply vok_arr; [unfold two64, nlen; cbn [length]; lia|].
    constructor; [vint|]. constructor; [apply vok_nonce; exact G|]. constructor; [apply vok_nonce; exact N5|].
    constructor; [apply vok_text; [lia|reflexivity|vm_compute; reflexivity]|]. constructor; [vint|]. constructor; [|constructor].
    unfold siginfo_val. apply vok_arr; [unfold two64, nlen; cbn [length]; lia|]. constructor; [vint|]. constructor; [|constructor].
    apply vok_bytes; [constructor|vm_compute; reflexivity].
Qed.

(** ** The owner's proof *)
Lemma item_enc chk v d : vok d v -> plain v = true -> nlen (enc v) < two63 -> CborSpec.item (map_count chk) (enc v).
Proof. intros V P L. apply (proj1 (std_to_loop chk)); [eapply enc_item; eassumption|exact L]. Qed.
Lemma payload_written chk hb n hm n5 kx rh :
  bytes_ok hb -> nlen hb < 4294967296 -> n <= 65535 -> hash_small hm -> nonce_ok n5 -> bytes_ok kx -> nlen kx <= 65536 -> bytes_ok (h_value rh) -> nlen (h_value rh) <= 1024 ->
  exists p, proveovhdr_payload hb n hm n5 (ES384, []) kx rh = Ok p /\ bytes_ok p /\ nlen p < 2305843009213693952 /\ read_provehdr chk p = Ok (ProveHdr hb n hm n5 (ES384, []) kx).
Proof.
  intros HB HL NB HM N5 KB KL RB RL. unfold proveovhdr_payload.
  set (vs := [VBytes hb; VInt (Z.of_N n); hash_val hm; bstr_val n5; siginfo_val (ES384, []); VBytes kx; hash_val rh; VInt (Z.of_N MAX_MESSAGE_SIZE)]).
  assert (VK : Forall (fun x => vok 100 x /\ plain x = true /\ nlen (enc x) <= 4294967400) vs).
  { unfold vs. repeat match goal with |- Forall _ (_ :: _) => constructor | |- Forall _ [] => constructor end.
    - split; [apply vok_bytes; [exact HB|unfold two64; lia]|]. split; [reflexivity|]. pose proof (enc_bytes_nlen hb). lia.
    - split; [cbn [vok]; unfold two64; lia|]. split; [reflexivity|]. pose proof (enc_int_nlen (Z.of_N n)). lia.
    - destruct HM as [M1 M2]. split; [apply vok_hash; [lia|exact M1|unfold two64; lia]|]. split; [reflexivity|].
      unfold hash_val. change (nlen (enc (VArr [VInt (hashtype_num (h_type hm)); VBytes (h_value hm)]))) with (nlen (enc_head 4 2 ++ concat [enc (VInt (hashtype_num (h_type hm))); enc (VBytes (h_value hm))])).
      cbn [concat]. rewrite !nlen_app. pose proof (enc_bytes_nlen (h_value hm)). pose proof (enc_int_nlen (hashtype_num (h_type hm))). pose proof (enc_head_nlen 4 2). change (nlen (@nil N)) with 0. lia.
    - split; [apply vok_nonce; exact N5|]. split; [reflexivity|]. unfold bstr_val. pose proof (enc_bytes_nlen n5). destruct N5 as [_ L5]. lia.
    - split; [|split; [reflexivity|vm_compute; discriminate]]. unfold siginfo_val. apply vok_arr; [unfold two64, nlen; cbn [length]; lia|]. constructor; [vint|]. constructor; [|constructor].
      apply vok_bytes; [constructor|vm_compute; reflexivity].
    - split; [apply vok_bytes; [exact KB|unfold two64; lia]|]. split; [reflexivity|]. pose proof (enc_bytes_nlen kx). lia.
    - split; [apply vok_hash; [lia|exact RB|unfold two64; lia]|]. split; [reflexivity|].
      unfold hash_val. change (nlen (enc (VArr [VInt (hashtype_num (h_type rh)); VBytes (h_value rh)]))) with (nlen (enc_head 4 2 ++ concat [enc (VInt (hashtype_num (h_type rh))); enc (VBytes (h_value rh))])).
      cbn [concat]. rewrite !nlen_app. pose proof (enc_bytes_nlen (h_value rh)). pose proof (enc_int_nlen (hashtype_num (h_type rh))). pose proof (enc_head_nlen 4 2). change (nlen (@nil N)) with 0. lia.
    - split; [vint|]. split; [reflexivity|vm_compute; discriminate]. }
  assert (LV : length vs = 8%nat) by reflexivity.
  assert (IT : CborSpec.items (map_count chk) (map enc vs)).
  { clear -VK. induction VK as [|x l (V & P & L) VK IH]; [constructor|]. cbn [map]. constructor; [eapply item_enc; [exact V|exact P|unfold two63; lia]|exact IH]. }
  assert (LC : nlen (concat (map enc vs)) <= 8 * 4294967400).
  { assert (G : forall l, Forall (fun x => vok 100 x /\ plain x = true /\ nlen (enc x) <= 4294967400) l -> nlen (concat (map enc l)) <= N.of_nat (length l) * 4294967400).
    { clear. intros l H. induction H as [|x l (_ & _ & L) H IH]; [cbn; lia|]. cbn [map concat length]. rewrite nlen_app. lia. }
    specialize (G vs VK). rewrite LV in G. exact G. }
  destruct (array_round chk 8 (map enc vs)) as (b & S1 & S2 & S3 & _); [unfold nlen; rewrite map_length, LV; reflexivity|lia|exact IT|lia|].
  exists b. fold vs. rewrite S1. split; [reflexivity|]. split.
  { eapply array_bytes with (xs := map enc vs) (tag := None) (chk := chk); [unfold nlen; rewrite map_length, LV; vm_compute; discriminate|exact Logic.I|exact IT| |exact S1].
    apply Forall_map. eapply Forall_impl; [|exact VK]. intros x (V & _). eapply enc_bytes_ok. exact V. }
  split; [unfold bytes in *; lia|].
  assert (GE : forall {T} (f : cval -> option T) i x y, nth_error vs i = Some x -> f x = Some y -> get (from_slice f) (PA None (map enc vs)) i = Ok y).
  { intros T f i x y NE FX. unfold get, get_raw. cbn [pa_items]. rewrite (map_nth_error enc _ _ NE). cbn [map_err bind]. rewrite Forall_forall in VK. destruct (VK x (nth_error_In _ _ NE)) as (V & _).
    rewrite from_slice_enc by (eapply vok_mono; [exact V|unfold MAX_DEPTH; lia]). rewrite FX. reflexivity. }
  unfold read_provehdr. rewrite S2. cbn [map_err bind].
  rewrite (GE _ as_bytebuf 0%nat _ hb eq_refl eq_refl). cbn [bind].
  rewrite (GE _ as_u16 1%nat _ n eq_refl) by (unfold as_u16; rewrite as_int_ok by lia; cbn [option_map]; f_equal; lia). cbn [bind].
  rewrite (GE _ as_hash 2%nat _ hm eq_refl) by apply as_hash_val. cbn [bind].
  rewrite (GE _ as_bstr16 3%nat _ n5 eq_refl) by (apply as_bstr16_val, N5). cbn [bind].
  rewrite (GE _ as_siginfo 4%nat _ (ES384, []) eq_refl) by reflexivity. cbn [bind].
  rewrite (GE _ as_bytebuf 5%nat _ kx eq_refl eq_refl). cbn [bind].
  rewrite (GE _ as_hash 6%nat _ rh eq_refl) by apply as_hash_val. cbn [bind].
  rewrite (GE _ as_u16 7%nat _ 17 eq_refl) by reflexivity. cbn [bind]. reflexivity.
Qed.
Lemma pubkey_len p : nlen (pk_data p) < 4294967296 -> nlen (enc (pubkey_val p)) < 4294967400.
Proof.
  intros L. unfold pubkey_val. cbn [enc map concat]. rewrite !nlen_app.
  pose proof (enc_head_nlen 4 (nlen [VInt (Z.of_N (pk_type p)); VInt (Z.of_N (pk_enc p)); VBytes (pk_data p)])).
  pose proof (enc_int_nlen (Z.of_N (pk_type p))). pose proof (enc_int_nlen (Z.of_N (pk_enc p))). pose proof (enc_bytes_nlen (pk_data p)). cbn [enc] in *. rewrite nlen_app in *. change (nlen (@nil N)) with 0. lia.
Qed.
Lemma issued_hmac c chk v : outputs_ok c -> sign_correct c -> issued c chk v -> hash_small (ov_hmac v).
Proof.
  intros HO HS I. induction I as [h hmac ch v HR HM HC HV HF|v v' x I IH XO HX].
  - unfold voucher_new in HV. destruct (serialize_array (hd_contents h)) as [hb| |]; cbn [map_err bind] in HV; try discriminate.
    destruct (serialize_array (PA None [])) as [eb| |]; cbn [map_err bind] in HV; inversion HV; subst. exact HM.
  - destruct (extend_shape _ _ _ _ _ _ _ _ HX) as (a & b & e & raw & eb & l' & _ & _ & _ & _ & _ & ->). exact IH.
Qed.
Lemma header_ok c chk v hb : outputs_ok c -> sign_correct c -> issued c chk v -> header_raw v hb -> bytes_ok hb /\ get (from_slice as_bytebuf) (ov_contents v) 1 = Ok hb.
Proof.
  intros HO HS I (raw & NE & FS). destruct (issued_rewrites _ _ _ HO HS I) as (_ & _ & _ & hb' & NE' & VK).
  assert (raw = enc (VBytes hb')) as -> by congruence. rewrite (from_slice_enc as_bytebuf _ VK) in FS. cbn [as_bytebuf untag of_option] in FS. injection FS as ->.
  split; [unfold MAX_DEPTH in VK; cbn [vok] in VK; apply VK|]. unfold get, get_raw. rewrite NE. cbn [map_err bind]. rewrite (from_slice_enc as_bytebuf _ VK). reflexivity.
Qed.

(** ** The key exchange *)
Lemma public_ok ko kx : curve_laws ko -> kex_ok ko (Some kx) -> exists pub, get_public ko kx = Ok pub /\ bytes_ok pub /\ nlen pub <= 65536.
Proof.
  intros L (key & r & E & RB & RL & P). injection E as ->. cbn [get_public ecdh_random_size bind]. destruct (ec_pub ko Ecdh384 key) as [[x y]|] eqn:EP; [|congruence]. cbn [of_option bind].
  eexists. split; [reflexivity|]. destruct (cl_small _ L _ _ _ _ EP) as [SX SY]. apply bn_len in SX, SY. unfold encode_ecdh_bstr. split.
  - rewrite !bytes_ok_app. repeat split; first [apply be_enc_ok|apply bn_ok|exact RB].
  - rewrite !nlen_app. assert (B2 : forall n, nlen (be_enc 2 n) = 2) by (intros n; unfold nlen; rewrite be_enc_length; reflexivity). rewrite !B2, RL. lia.
Qed.
Lemma derives ko kD kO pubD pubO avD avO : curve_laws ko -> kex_works ko -> kex_ok ko (Some kD) -> kex_ok ko (Some kO) -> get_public ko kD = Ok pubD -> get_public ko kO = Ok pubO ->
  exists raw, derive_key ko avD KDevice A256Gcm kD pubO (negb avO) = Ok raw /\ derive_key ko avO OwnerService A256Gcm kO pubD (read_kdf_header (kdf_header avD)) = Ok raw.
Proof.
  intros L [W1 W2] (keyD & rD & ED & _ & RD & PD) (keyO & rO & EO & _ & RO & PO) GD GO. injection ED as ->. injection EO as ->.
  pose proof (P_Kex.C18_ecdh_same_keys ko Ecdh384 keyD keyO rD rO pubD pubO A256Gcm avD avO L RD RO GD GO) as EQ.
  assert (RH : read_kdf_header (kdf_header avO) = negb avO) by (destruct avO; reflexivity). rewrite RH in EQ. rewrite <- EQ.
  assert (OKD : exists raw, derive_key ko avD KDevice A256Gcm (Ecdh Ecdh384 keyD rD) pubO (negb avO) = Ok raw); [|destruct OKD as [raw OKD]; exists raw; auto].
  cbn [get_public ecdh_random_size bind] in GO. destruct (ec_pub ko Ecdh384 keyO) as [[xo yo]|] eqn:EP; cbn [of_option bind] in GO; [|discriminate]. inversion GO; subst pubO.
  destruct (cl_small _ L _ _ _ _ EP) as [OX OY]. apply bn_len in OX, OY.
  unfold derive_key, derive_key_ecdh. cbn [ecdh_random_size bind]. rewrite (decode_complete (bn_to_vec xo) (bn_to_vec yo) rO) by (apply encode_is_kex; lia).
  cbn [bind]. rewrite RO. change (48 =? 48) with true. cbn [negb]. rewrite !bn_dec, (cl_valid _ L _ _ _ EP). cbn [negb].
  destruct (ec_mul ko Ecdh384 (xo, yo) keyD) as [[dx dy]|] eqn:EM; [|exfalso; eapply W1; [exact EP|exact PD|exact EM]]. cbn [bind].
  match goal with |- context [kdf ko ?b ?i ?s ?n] => destruct (kdf ko b i s n) as [k|] eqn:EK; [exists k; reflexivity|exfalso; eapply W2; exact EK] end.
Qed.

(** ** The owner's answer to the first request *)
Section owner.
Context (c : crypto) (HO : outputs_ok c) (HS : sign_correct c) (chk : bool) (ko : kex_ops) (CL : curve_laws ko) (cf : owconf) (v : voucher) (to1d : cose) (IO : its_owner c chk cf v to1d)
  (dc : devcred) (IV : its_voucher c chk dc v).
Lemma hello_answered e n5 req : nonce_ok n5 -> nonce_ok (oe_nonce e) -> kex_ok ko (oe_kex e Ecdh384) ->
  exists kx pub tok b ph, oe_kex e Ecdh384 = Some kx /\ get_public ko kx = Ok pub /\
    hello_reply c chk ko cf v (HelloDevice 17 (dc_guid dc) n5 Ecdh384 A256Gcm (ES384, [])) (Hash Sha256 (c_hash c Sha256 req)) e = Ok (kx, b) /\
    cose_deserialize chk b = Ok tok /\ signed_by c (c_pub c (oc_sk cf)) tok /\ read_provehdr chk (cs_payload tok) = Ok ph /\
    header_raw v (ph_header ph) /\ ph_hmac ph = ov_hmac v /\ ph_num ph = nlen (entries_raw v) /\ ph_kex ph = pub /\
    check_hello c chk dc n5 tok = Ok ph /\ cose_get_unprotected as_bstr16 tok CUPH_NONCE = Ok (Some (oe_nonce e)).
Proof using HO HS CL IO IV.
  intros N5 NO KX. destruct IO as [II LE _ _ [AL _] [[PV PL] _]]. destruct IV as [_ _ (hb & HR & HL & HD & HM) (kraw & NK & DG) _ _].
  destruct (header_ok _ _ _ _ HO HS II HR) as [HB HG]. pose proof (issued_hmac _ _ _ HO HS II) as HSM.
  pose proof KX as (key & r & EK & _ & _ & _). set (kx := Ecdh Ecdh384 key r) in *. rewrite EK in KX. destruct (public_ok ko kx CL KX) as (pub & GP & PB & PLN).
  pose proof HO as (OH & _ & _). destruct (OH Sha256 req) as [RB RL].
  assert (NUM : num_entries v = nlen (entries_raw v)) by (unfold num_entries; change (pa_items (ov_entries v)) with (entries_raw v); rewrite N.mod_small by lia; reflexivity).
  destruct (payload_written chk hb (nlen (entries_raw v)) (ov_hmac v) n5 pub (Hash Sha256 (c_hash c Sha256 req))) as (p & PW & PBO & PSZ & RP); auto; [lia|].
  set (u := [(VInt CUPH_NONCE, bstr_val (oe_nonce e)); (VInt CUPH_OWNERPUBKEY, pubkey_val (oc_pub cf))]).
  assert (VU : vok (S D99) (VMap u)).
  { apply vok_mono with (d := 4%nat); [|exact D99_ge]. unfold u. cbn [vok]. split; [unfold two64, nlen; cbn [length]; lia|]. constructor; [|constructor; [|constructor]]; cbn [fst snd].
    - split; [vint|exact (vok_nonce 2 _ NO)].
    - split; [vint|]. apply (vok_pubkey 3 c); [lia|exact PV|unfold two64; lia]. }
  assert (LU : nlen (enc (VMap u)) < 2305843009213693952).
  { pose proof (pubkey_len _ PL) as PKL. unfold u. set (K := pubkey_val (oc_pub cf)) in *. unfold bstr_val. cbn [enc map concat fst snd]. rewrite !nlen_app.
    pose proof (enc_head_nlen 5 (nlen [(VInt CUPH_NONCE, VBytes (oe_nonce e)); (VInt CUPH_OWNERPUBKEY, K)])). pose proof (enc_int_nlen CUPH_NONCE). pose proof (enc_int_nlen CUPH_OWNERPUBKEY).
    pose proof (enc_bytes_nlen (oe_nonce e)). destruct NO as [_ NO]. cbn [enc] in *. rewrite nlen_app in *. change (nlen (@nil N)) with 0. lia. }
  destruct (cose_new_unprot c chk p u (oc_sk cf) (oe_rnd e) HO HS AL PBO PSZ VU ltac:(reflexivity) LU) as (tok & raw & CN & CS & CD & CP & CU & SG).
  exists kx, pub, tok, raw, (ProveHdr hb (nlen (entries_raw v)) (ov_hmac v) n5 (ES384, []) pub). split; [exact EK|]. split; [exact GP|]. split.
  { unfold hello_reply. cbn [hd2_sig hd2_kex hd2_nonce5 fst snd]. change ((ES384 =? ES256)%Z || (ES384 =? ES384)%Z) with true. change (nlen (@nil N) =? 0) with true. cbn [negb].
    rewrite EK. cbn [of_option bind]. rewrite GP. cbn [bind]. rewrite HG. cbn [bind]. rewrite NUM, PW. cbn [bind]. fold u. rewrite CN. cbn [bind]. rewrite CS. reflexivity. }
  split; [exact CD|]. split; [exact SG|]. rewrite CP. split; [exact RP|]. cbn [ph_header ph_hmac ph_num ph_kex]. split; [exact HR|]. split; [reflexivity|]. split; [reflexivity|]. split; [reflexivity|]. split.
  - assert (R : forall l, bytes_eqb l l = true) by (intros l; apply bytes_eqb_spec; reflexivity).
    unfold check_hello, cose_get_payload_unverified. rewrite CP, RP. cbn [bind ph_nonce5 ph_sig ph_header ph_hmac fst snd]. unfold nonce_eq, memcmp_eq. rewrite N.eqb_refl. cbn [negb bind].
    rewrite R. cbn [negb]. rewrite Z.eqb_refl. cbn [negb]. change (nlen (@nil N)) with 0. cbn [N.eqb negb].
    unfold verify_hmac. rewrite HM. cbn [bind]. unfold hash_eq, memcmp_eq. rewrite N.eqb_refl. cbn [negb bind]. rewrite R. cbn [bind]. rewrite HD. cbn [bind].
    unfold mfg_key_hash, get_hash, get_raw. rewrite NK. cbn [map_err bind]. destruct DG as [DT DV]. unfold hash_from_data. replace (digestible (h_type (dc_mfg dc))) with true by (destruct DT as [->| ->]; reflexivity). cbn [bind].
    rewrite <- DV. replace (Hash (h_type (dc_mfg dc)) (h_value (dc_mfg dc))) with (dc_mfg dc) by (destruct (dc_mfg dc); reflexivity). rewrite hash_compare_refl. reflexivity.
  - unfold cose_get_unprotected. rewrite CU. unfold u. change (hdr_get CUPH_NONCE [(VInt CUPH_NONCE, bstr_val (oe_nonce e)); (VInt CUPH_OWNERPUBKEY, pubkey_val (oc_pub cf))]) with (Some (bstr_val (oe_nonce e))).
    cbv beta iota. rewrite (as_bstr16_val (oe_nonce e)) by apply NO. reflexivity.
Qed.

(** ** The device's proof, and the owner's answer *)
Lemma claims_read pub n6 : bytes_ok pub -> nlen pub <= 65536 -> nonce_ok n6 -> let cv := claims_val (Some (VArr [VBytes pub])) n6 (dc_guid dc) in
  bytes_ok (enc cv) /\ nlen (enc cv) < 2305843009213693952 /\
  from_slice as_claims (enc cv) = Ok [(VInt EAT_FDO, VArr [VBytes pub]); (VInt EAT_NONCE, bstr_val n6); (VInt EAT_UEID, VBytes (as_ueid (dc_guid dc)))].
Proof using IV.
  intros PB PL N6 cv. destruct IV as [_ [GB GL] _ _ _ _].
  assert (UB : bytes_ok (as_ueid (dc_guid dc)) /\ nlen (as_ueid (dc_guid dc)) = 17).
  { unfold as_ueid. split; [constructor; [vm_compute; reflexivity|exact GB]|]. unfold nlen in *. cbn [length]. lia. }
  assert (VK : vok 4 cv).
  { unfold cv, claims_val. cbn [app vok]. split; [unfold two64, nlen; cbn [length]; lia|]. 
    constructor; [|constructor; [|constructor; [|constructor]]]; cbn [fst snd]; (split; [vint|]).
    - split; [unfold two64, nlen; cbn [length]; lia|]. constructor; [|constructor]. apply (vok_bytes 1); [exact PB|unfold two64; lia].
    - exact (vok_nonce 2 _ N6).
    - apply (vok_bytes 2); [apply UB|]. destruct UB as [_ ->]. unfold two64; lia. }
  split; [eapply enc_bytes_ok; exact VK|]. split.
  - unfold cv, claims_val. cbn [app]. unfold bstr_val. cbn [enc map concat fst snd]. rewrite !nlen_app.
    match goal with |- context [enc_head 5 ?n] => pose proof (enc_head_nlen 5 n) end. pose proof (enc_head_nlen 4 (nlen [VBytes pub])). pose proof (enc_int_nlen EAT_FDO). pose proof (enc_int_nlen EAT_NONCE). pose proof (enc_int_nlen EAT_UEID).
    pose proof (enc_bytes_nlen n6). pose proof (enc_bytes_nlen pub). pose proof (enc_bytes_nlen (as_ueid (dc_guid dc))). destruct N6 as [_ N6]. destruct UB as [_ UB]. cbn [enc] in *. rewrite nlen_app in *. change (nlen (@nil N)) with 0. lia.
  - rewrite from_slice_enc by (eapply vok_mono; [exact VK|unfold MAX_DEPTH; lia]). reflexivity.
Qed.
Lemma token_made pub n6 n7 rnd : bytes_ok pub -> nlen pub <= 65536 -> nonce_ok n6 -> nonce_ok n7 ->
  exists t raw, cose_new c chk (enc (claims_val (Some (VArr [VBytes pub])) n6 (dc_guid dc))) [(VInt EUPH_NONCE, bstr_val n7)] (ks_sk (dc_keys dc)) rnd = Ok t /\ cose_serialize t = Ok raw /\
    cose_deserialize chk raw = Ok t /\ cs_payload t = enc (claims_val (Some (VArr [VBytes pub])) n6 (dc_guid dc)) /\ cs_unprot t = [(VInt EUPH_NONCE, bstr_val n7)] /\ signed_by c (c_pub c (ks_sk (dc_keys dc))) t.
Proof using HO HS IV.
  intros PB PL N6 N7. destruct (claims_read pub n6 PB PL N6) as (CB & CSZ & _).
  apply cose_new_unprot; auto.
  - apply (iv_alg _ _ _ _ IV).
  - apply vok_mono with (d := 4%nat); [|exact D99_ge]. cbn [vok]. split; [unfold two64, nlen; cbn [length]; lia|]. constructor; [|constructor]. cbn [fst snd]. split; [vint|exact (vok_nonce 2 _ N7)].
  - unfold bstr_val. cbn [enc map concat fst snd]. rewrite !nlen_app. pose proof (enc_head_nlen 5 (nlen [(VInt EUPH_NONCE, VBytes n7)])). pose proof (enc_int_nlen EUPH_NONCE). pose proof (enc_bytes_nlen n7). destruct N7 as [_ N7].
    cbn [enc] in *. rewrite nlen_app in *. change (nlen (@nil N)) with 0. lia.
Qed.
Lemma setup_ok e n7 : nonce_ok (oe_guid e) -> nonce_ok n7 -> let p := enc (setup_val (oe_guid e) n7 (oc_pub2 cf)) in bytes_ok p /\ nlen p < 2305843009213693952.
Proof using IO.
  intros G N7 p. destruct IO as [_ _ _ _ _ [_ [PV PL]]]. split.
  - unfold p. eapply enc_bytes_ok with (d := 100%nat). unfold setup_val. apply vok_arr; [unfold two64, nlen; cbn [length]; lia|].
    constructor; [apply (vok_rv 99); [lia|split; [vm_compute; reflexivity|constructor]]|]. constructor; [apply vok_nonce; exact G|]. constructor; [apply vok_nonce; exact N7|]. constructor; [|constructor].
    eapply vok_pubkey; [lia|exact PV|unfold two64; lia].
  - unfold p, setup_val. pose proof (pubkey_len _ PL) as PKL. set (K := pubkey_val (oc_pub2 cf)) in *. unfold bstr_val. set (R := rv_info_val []). assert (RL : nlen (enc R) = 1) by reflexivity. cbn [enc map concat]. rewrite !nlen_app.
    match goal with |- context [enc_head 4 ?n] => pose proof (enc_head_nlen 4 n) end. pose proof (enc_bytes_nlen (oe_guid e)). pose proof (enc_bytes_nlen n7). destruct G as [_ G]. destruct N7 as [_ N7].
    cbn [enc] in *. rewrite nlen_app in *. change (nlen (@nil N)) with 0. lia.
Qed.
Lemma prove_accepted KW e n6 n7 kD kO pubD pubO avD t :
  KW = kex_works ko -> kex_works ko -> nonce_ok n6 -> nonce_ok n7 -> nonce_ok (oe_guid e) -> kex_ok ko (Some kD) -> kex_ok ko (Some kO) -> get_public ko kD = Ok pubD -> get_public ko kO = Ok pubO -> oe_kdf e = kdf_header avD ->
  cs_payload t = enc (claims_val (Some (VArr [VBytes pubD])) n6 (dc_guid dc)) -> cs_unprot t = [(VInt EUPH_NONCE, bstr_val n7)] -> signed_by c (c_pub c (ks_sk (dc_keys dc))) t ->
  exists raw b st, derive_key ko avD KDevice A256Gcm kD pubO (negb (oc_kdf_avail cf)) = Ok raw /\
    prove_check c chk ko cf v n6 kO A256Gcm t e = Ok (n7, from_derived 3 (Combined raw), b) /\ cose_deserialize chk b = Ok st.
Proof using HO HS CL IO IV.
  intros _ KWK N6 N7 GU KD KO GD GO KH CP CU SG.
  destruct (derives ko kD kO pubD pubO avD (oc_kdf_avail cf) CL KWK KD KO GD GO) as (raw & D1 & D2).
  destruct (public_ok ko kD CL KD) as (pub' & GD' & PB & PL). rewrite GD in GD'. injection GD' as <-.
  destruct (claims_read pubD n6 PB PL N6) as (_ & _ & CR).
  destruct (setup_ok e n7 GU N7) as [SB SZ]. destruct IO as [_ _ _ _ [_ AL2] _]. destruct (c_alg c (c_pub c (oc_sk2 cf))) as [alg|] eqn:EA; [|congruence].
  destruct (cose_new_full c chk _ (oc_sk2 cf) (oe_rnd e) alg HO HS EA SB ltac:(lia)) as (st & b & CN & CS & CD & _).
  exists raw, b, st. split; [exact D1|]. split; [|exact CD].
  destruct IV as [_ _ _ _ (leaf & rest & CH & CK) _]. unfold prove_check. rewrite CH, CK. cbn [of_option bind].
  unfold cose_get_unprotected. rewrite CU. change (hdr_get EUPH_NONCE [(VInt EUPH_NONCE, bstr_val n7)]) with (Some (bstr_val n7)). cbv beta iota. rewrite (as_bstr16_val n7) by apply N7. cbn [of_option bind code].
  unfold get_eat. rewrite <- CP in CR. rewrite (P_Honest.signed_get _ _ _ (from_slice as_claims) _ SG CR). cbn [bind]. unfold eat_of_claims.
  change (hdr_get EAT_NONCE [(VInt EAT_FDO, VArr [VBytes pubD]); (VInt EAT_NONCE, bstr_val n6); (VInt EAT_UEID, VBytes (as_ueid (dc_guid dc)))]) with (Some (bstr_val n6)).
  cbv beta iota. rewrite (as_bstr16_val n6) by apply N6. cbn [of_option bind].
  change (hdr_get EAT_UEID [(VInt EAT_FDO, VArr [VBytes pubD]); (VInt EAT_NONCE, bstr_val n6); (VInt EAT_UEID, VBytes (as_ueid (dc_guid dc)))]) with (Some (VBytes (as_ueid (dc_guid dc)))).
  change (hdr_get EAT_FDO [(VInt EAT_FDO, VArr [VBytes pubD]); (VInt EAT_NONCE, bstr_val n6); (VInt EAT_UEID, VBytes (as_ueid (dc_guid dc)))]) with (Some (VArr [VBytes pubD])).
  cbn [as_bytebuf untag of_option bind]. unfold from_ueid, as_ueid. rewrite N.eqb_refl. cbn [negb]. unfold RvServerModel.code. cbn [map_err bind eat_payload eat_nonce]. change (as_provepayload (VArr [VBytes pubD])) with (Some pubD). cbn [of_option bind].
  assert (NE : @nonce_eq N n6 n6 = Ok true) by (apply nonce_eq_ok; reflexivity). rewrite NE. cbn [bind negb]. rewrite KH, D2. cbn [bind]. rewrite CN. cbn [bind]. rewrite CS. reflexivity.
Qed.
End owner.
