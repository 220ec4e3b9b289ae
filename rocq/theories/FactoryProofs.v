(** Lemmas: what the manufacturing server makes, and what device and server read of each other's messages. *)
From Verif Require Import Base BaseFacts CborModel CborProofs ValueModel ValueProofs Text Assoc Hex TypesModel CryptoSpec TypesProofs VoucherModel VoucherSpec VoucherProofs VoucherProofs2 KexModel KexSpec KexProofs RvModel StoreModel StoreSpec StoreProofs Backend
  MsgModel SessionModel SessionSpec HttpClientModel HttpClientSpec RvServerModel RvServerSpec SiModel DevSiModel OwnerModel MfgModel MfgSpec MfgProofs ClientModel ClientSpec ClientProofs MfgClientModel MfgClientSpec MfgClientProofs MfgClientProofs2
  To0Accept OnboardSpec OnboardProofs2 ServeSpec FactorySpec.
From Verif Require P_Servers P_Types.
From Coq Require Import ZifyBool ZifyNat ZifyN.
Local Open Scope N_scope.
Set Default Proof Using "Type".
Local Opaque dec_top from_slice any_value.

(** * Stores *)
Lemma dir_shelf cd : shelf (dir_backend cd) cd dir_free (fun d k v => dir_holds cd k v d).
Proof.
  constructor. intros w k v data G S D F. cbn [b_store dir_backend]. unfold dir_store. rewrite S. eexists. split; [reflexivity|].
  rewrite rename_write. eexists. split; [apply aget_aset_eq|]. cbn [f_data f_xattr]. split; [exact D|]. unfold tmp_attrs. unfold dir_free in F. rewrite F. reflexivity.
Qed.
Lemma aget_last {B} k (x : B) (l : list (name * B)) : aget k l = None -> aget k (l ++ [(k, x)]) = Some x.
Proof.
  induction l as [|[k' y] l IH]; cbn [app aget]; [intros _; rewrite name_eqb_refl; reflexivity|]. destruct (bytes_eqb k k'); [discriminate|exact IH].
Qed.
Lemma db_shelf cd guid_of : (forall v k, guid_text (hd_guid (ov_header v)) = Some k -> guid_of v = k) -> shelf (db_backend cd guid_of Manufacturer) cd db_free (fun t k v => db_holds cd k v t).
Proof.
  intros GO. constructor. intros w k v data G S D F. cbn [b_store db_backend]. unfold db_store. rewrite S, (GO _ _ G). unfold db_free in F. rewrite F. eexists. split; [reflexivity|].
  eexists. split; [apply aget_last; exact F|exact D].
Qed.

(** * What the server makes *)
Lemma info_checked info : good_info info -> check_device_info (trim info) = Ok tt.
Proof.
  intros (_ & _ & F). unfold check_device_info. assert (forallb (fun ch => (32 <=? ch mod 256) && (ch mod 256 <? 127)) (trim info) = true) as ->; [|reflexivity].
  apply forallb_forall. rewrite Forall_forall in F. intros x I. specialize (F x I). lia.
Qed.
Lemma credentials_progress c chk kf mkcert cf info secret sk e :
  outputs_ok c -> keyfns_ok c kf -> certifies c mkcert -> can_issue c kf cf -> nonce_ok (me_guid e) -> good_info info -> good_key c mkcert cf info secret sk ->
  exists hb signer rest leaf, new_credentials c kf mkcert cf info (c_pub c sk) e = Ok (hb, leaf :: mf_ca cf) /\ mf_ca cf = signer :: rest /\
    mkcert signer (mf_ca_sk cf) info (c_pub c sk) (me_cert e) = Some leaf /\ good_header c chk cf hb info (me_guid e) leaf /\ nlen hb < 4294967296.
Proof.
  intros HO HK HC [CF CRV CCA CC] NG GI GK.
  destruct (mf_ca cf) as [|signer rest] eqn:CA; [congruence|]. pose proof (gk_cert _ _ _ _ _ _ GK signer rest (me_cert e) CA) as MK.
  destruct (mkcert signer (mf_ca_sk cf) info (c_pub c sk) (me_cert e)) as [leaf|] eqn:EM; [clear MK|congruence].
  destruct CC as (k & t & CK & KT & _). destruct (HK _ _ CK) as (K1 & K2 & K3 & K4). specialize (K1 _ KT). pose proof HO as (OH & _).
  set (mk := Pubkey t ENC_X509 (kf_der kf k) k None).
  assert (MV : pubkey_valid c mk).
  { split; [exact K1|]. split; [reflexivity|]. split; [exact K2|]. unfold mk. cbn [pk_type pk_enc pk_data]. unfold pubkey_new, parse_key. cbn [N.eqb Pos.eqb ENC_X509].
    change (ENC_X509 =? ENC_X509) with true. cbn [negb andb orb]. rewrite K4. reflexivity. }
  set (hs := Hash Sha384 (c_hash c Sha384 (concat (leaf :: signer :: rest)))).
  destruct (OH Sha384 (concat (leaf :: signer :: rest))) as [OB OL].
  assert (HSM : hash_small hs) by (split; [exact OB|cbn [h_value hs]; lia]).
  pose proof (info_checked _ GI) as CD. destruct GI as (SC & LI & _). destruct NG as [BG LG]. destruct CF as (CR & CF).
  assert (TL : nlen (utf8_enc (trim info)) <= 262144).
  { pose proof (utf8_enc_le (trim info)). pose proof (trim_len info). pose proof (utf8_dec_len _ _ (utf8_roundtrip _ SC)). lia. }
  assert (SZ : nlen (concat (pa_items (hd_contents (header_new V1_1 (me_guid e) (mf_rv cf) info mk (Some hs))))) < 2147483648).
  { unfold header_new. cbn [hd_contents pa_items concat option_val]. rewrite !nlen_app. pose proof (enc_int_nlen (Z.of_N V1_1)).
    pose proof (enc_bytes_nlen (me_guid e)). unfold bstr_val.
    assert (nlen (enc (text_val (trim info))) <= 9 + 262144).
    { unfold text_val. cbn [enc]. rewrite nlen_app. pose proof (enc_head_nlen 3 (nlen (utf8_enc (trim info)))). lia. }
    assert (nlen (enc (pubkey_val mk)) <= 36 + 1048576).
    { unfold pubkey_val. cbn [enc map concat]. rewrite !nlen_app. pose proof (enc_head_nlen 4 (nlen [VInt (Z.of_N (pk_type mk)); VInt (Z.of_N (pk_enc mk)); VBytes (pk_data mk)])).
      pose proof (enc_int_nlen (Z.of_N (pk_type mk))). pose proof (enc_int_nlen (Z.of_N (pk_enc mk))). pose proof (enc_bytes_nlen (pk_data mk)). cbn [enc] in *. rewrite ?nlen_app in *.
      cbn [pk_data mk] in *. change (nlen (@nil N)) with 0. lia. }
    assert (nlen (enc (hash_val hs)) <= 36 + 1024).
    { unfold hash_val. cbn [enc map concat]. rewrite !nlen_app.
      match goal with |- context [enc_head 4 ?n] => pose proof (enc_head_nlen 4 n) end.
      match goal with |- context [enc_int ?z] => pose proof (enc_int_nlen z) end. pose proof (enc_bytes_nlen (h_value hs)). cbn [enc] in *. rewrite ?nlen_app in *.
      change (nlen (@nil N)) with 0. cbn [h_value hs] in *. lia. }
    change (nlen (@nil N)) with 0. lia. }
  destruct (header_new_back c chk V1_1 (me_guid e) (mf_rv cf) info mk hs) as (hb & S1 & S2 & S3); auto; try lia.
  { apply trim_scalar. exact SC. }
  { cbn [pk_data mk]. lia. }
  assert (NC : new_credentials c kf mkcert cf info (c_pub c sk) e = Ok (hb, leaf :: mf_ca cf)).
  { unfold new_credentials. rewrite CA, EM. cbn [of_option bind]. unfold hash_from_data. cbn [digestible bind]. unfold pubkey_of_cert. rewrite CK. cbn [of_option bind]. rewrite KT. cbn [of_option bind].
    fold mk hs. rewrite S1. reflexivity. }
  exists hb, signer, rest, leaf. rewrite CA in NC. split; [exact NC|]. split; [reflexivity|]. split; [exact EM|]. split.
  - assert (MC : mfconf_ok c cf) by (exact (conj CR CF)).
    rewrite <- CA in NC. destruct (credentials_made c chk kf mkcert cf info (c_pub c sk) e hb _ HO HK HC MC BG LG SC ltac:(lia) NC) as (sg & r & lf & E1 & E2 & E3 & GH).
    inversion E3; subst lf. exact GH.
  - unfold header_serialize in S1. cbn [hd_devinfo header_new] in S1. rewrite CD in S1. cbn [bind] in S1.
    destruct (serialize_array _) as [b| |] eqn:SA; cbn [map_err] in S1; inversion S1; subst b. pose proof (serialize_len _ _ SA). unfold bytes in *. lia.
Qed.

Lemma voucher_progress c chk cf kf d hmac e hb info guid leaf mkcert key signer rnd :
  outputs_ok c -> sign_correct c -> certifies c mkcert -> can_issue c kf cf ->
  mkcert signer (mf_ca_sk cf) info key rnd = Some leaf ->
  md_header d = Some (hex_enc hb) -> md_chain d = Some (leaf :: mf_ca cf) -> good_header c chk cf hb info guid leaf ->
  bytes_ok (h_value hmac) -> nlen (h_value hmac) <= 65536 ->
  exists v, new_voucher c chk cf d hmac e = Ok (guid, v) /\ issued c chk v /\ owned_as_configured c chk cf v.
Proof.
  intros HO HS HC [(CR & CS & CCH & CL & CZ & CO) CRV CCA (mk & mt & CK & KT & CM)] MK MH MC (h & S1 & S2 & BH & LH & HF) BM LM.
  destruct (HC _ _ _ _ _ _ MK) as (LK & LD & LB & LL).
  assert (CHO : chain_ok c (leaf :: mf_ca cf)).
  { destruct CCH as [_ CF]. split; [unfold nlen in *; cbn [length]; lia|]. constructor; [|exact CF]. split; [exact LB|]. split; [lia|exact LD]. }
  unfold new_voucher. rewrite MH, hex_round by exact BH. cbn [of_option bind]. rewrite S2. cbn [code map_err bind].
  rewrite MC, (all_read _ _ CHO).
  assert (RT : header_rt c chk h) by (exists hb; auto).
  assert (HM : hash_small hmac) by (split; [exact BM|lia]).
  assert (SA : serialize_array (hd_contents h) = Ok hb).
  { unfold header_serialize in S1. destruct (check_device_info (hd_devinfo h)); cbn [bind] in S1; try discriminate.
    destruct (serialize_array (hd_contents h)); cbn [map_err] in S1; congruence. }
  set (v0 := Voucher (PA None [enc (VInt (Z.of_N V1_1)); enc (VBytes hb); enc (hash_val hmac); enc (x5chain_val (leaf :: mf_ca cf)); [128]]) V1_1 h hmac (Some (leaf :: mf_ca cf)) (PA None [])).
  assert (VN : voucher_new h hmac (Some (leaf :: mf_ca cf)) = Ok v0).
  { unfold voucher_new. rewrite SA. cbn [map_err bind]. change (serialize_array (PA None [])) with (@Ok cerr bytes [128]). reflexivity. }
  assert (FM0 : fits_memory v0).
  { unfold fits_memory, v0. cbn [ov_contents pa_items concat]. rewrite !nlen_app. pose proof (enc_int_nlen (Z.of_N V1_1)). pose proof (enc_bytes_nlen hb).
    assert (nlen (enc (hash_val hmac)) <= 36 + 65536).
    { unfold hash_val. cbn [enc map concat]. rewrite !nlen_app.
      match goal with |- context [enc_head 4 ?n] => pose proof (enc_head_nlen 4 n) end.
      match goal with |- context [enc_int ?z] => pose proof (enc_int_nlen z) end. pose proof (enc_bytes_nlen (h_value hmac)). cbn [enc] in *. rewrite ?nlen_app in *.
      change (nlen (@nil N)) with 0. lia. }
    assert (nlen (enc (x5chain_val (leaf :: mf_ca cf))) <= 9 + (9 + nlen leaf) + nlen (enc (x5chain_val (mf_ca cf)))).
    { unfold x5chain_val. cbn [enc map concat]. rewrite !nlen_app. match goal with |- nlen (enc_head 4 ?n) + _ <= _ => pose proof (enc_head_nlen 4 n) end.
      pose proof (enc_head_nlen 2 (nlen leaf)). unfold bytes in *. lia. }
    change (nlen [128]) with 1. change (nlen (@nil N)) with 0. unfold bytes in *. lia. }
  assert (K0 : kept c chk v0) by (eapply new_kept; [exact RT|exact HM|exact CHO|exact VN|unfold fits_memory in FM0; unfold two63; lia]).
  assert (IS0 : issued c chk v0) by (eapply issued_new; eauto).
  assert (GD : hd_guid h = guid) by apply HF.
  rewrite VN. cbn [code map_err bind]. unfold owned_as_configured. revert CO CM. destruct (mf_owner cf) as [[sk owner]|] eqn:MO; intros CO CM.
  - destruct CO as [CO1 CO2]. destruct CM as [PUB ALG]. set (x := Ext sk None owner (me_rnd e)).
    assert (XO : ext_ok c x) by (split; [exact CO1|]; split; [exact CO2|exact Logic.I]).
    assert (SV : sound_voucher c chk v0) by (apply kept_sound; [exact K0|exact FM0|exact Logic.I]).
    assert (VE : verify_entries c chk v0 = Ok []) by reflexivity.
    assert (OWN : c_pub c sk = pk_key (owner_after v0 [])).
    { unfold owner_after. cbn [map last ov_header v0]. destruct HF as (_ & _ & _ & _ & (k & CK' & PK) & _). rewrite PUB, PK. congruence. }
    destruct (extend_step c chk v0 [] x HO HS SV VE (or_introl eq_refl) XO OWN) as (v' & p & raw & EX & VE' & PK & _ & _ & _ & _ & _ & _ & _ & ER & _);
      [cbn [x_sk x]; rewrite PUB; exact ALG|reflexivity|reflexivity|].
    cbn [x_sk x_extra x_next x_rnd x] in EX. rewrite EX. exists v'. rewrite GD. split; [reflexivity|]. split; [eapply issued_extended with (x := x); [exact IS0|exact XO|exact EX]|].
    split; [rewrite ER; reflexivity|]. exists p. split; [exact VE'|exact PK].
  - exists v0. rewrite GD. split; [reflexivity|]. split; [exact IS0|reflexivity].
Qed.

(** * What is read *)
Lemma connect_read n pub : nonce_ok n -> bytes_ok pub -> nlen pub <= 65536 ->
  from_slice as_diunconnect (enc (VArr [bstr_val n; text_val (kexsuite_name Ecdh384); VInt (cipher_num A256Gcm); vecu8_val pub])) = Ok (DiunConnect n Ecdh384 A256Gcm pub).
Proof.
  intros N PB PL. rewrite from_slice_enc.
  - unfold as_diunconnect. cbn [as_fields untag]. rewrite as_bstr16_val by apply N. rewrite as_vecu8_val by exact PB. reflexivity.
  - unfold MAX_DEPTH. apply vok_arr; [unfold two64, nlen; cbn [length]; lia|].
    constructor; [apply vok_nonce; exact N|]. constructor; [apply vok_text; [lia|reflexivity|vm_compute; reflexivity]|]. constructor; [vint|]. constructor; [|constructor]. apply vok_vecu8; [exact PB|unfold two64; lia].
Qed.
Lemma requestparams_read : from_slice as_requestparams (enc (VArr [VNull])) = Ok None. Proof. vm_compute. reflexivity. Qed.
Lemma unit_read : from_slice as_unit_struct (enc (VArr [])) = Ok tt. Proof. vm_compute. reflexivity. Qed.
Definition storages (l : list N) : cval := match l with [] => VNull | l => VArr (map (fun t => VInt (Z.of_N t)) l) end.
Lemma storages_read l : Forall (fun t => t <= 1) l -> as_option (as_list as_storage) (storages l) = Some (match l with [] => None | l => Some l end).
Proof.
  intros F. destruct l as [|x l]; [reflexivity|]. unfold storages, as_option. cbn [untag]. unfold as_list. cbn [untag].
  assert (E : all_some (map as_storage (map (fun t => VInt (Z.of_N t)) (x :: l))) = Some (x :: l)).
  { revert F. generalize (x :: l). clear. intros l F. induction F as [|y l Y F IH]; [reflexivity|]. cbn [map all_some]. unfold as_storage at 1. rewrite as_int_ok by lia. cbn [option_map]. rewrite IH, N2Z.id. reflexivity. }
  rewrite E. reflexivity.
Qed.
Lemma keyparams_read kt l : kt = 10 \/ kt = 11 -> Forall (fun t => t <= 1) l -> nlen l < 4294967296 ->
  from_slice as_keyparams (enc (VArr [VInt (Z.of_N kt); storages l])) = Ok (kt, match l with [] => None | l => Some l end).
Proof.
  intros K F L. rewrite from_slice_enc.
  - unfold as_keyparams. cbn [as_fields untag]. rewrite storages_read by exact F. destruct K as [-> | ->]; reflexivity.
  - unfold MAX_DEPTH. apply vok_arr; [unfold two64, nlen; cbn [length]; lia|]. constructor; [destruct K as [-> | ->]; vint|]. constructor; [|constructor].
    destruct l as [|x l]; [exact Logic.I|]. unfold storages. apply vok_arr; [unfold nlen in *; rewrite map_length; unfold two64; lia|].
    apply Forall_map. eapply Forall_impl; [|exact F]. intros a Ha. cbn beta in Ha. cbn [vok]. unfold two64. lia.
Qed.
Lemma providekey_read der n : key_bytes der -> n <= 1 -> from_slice as_providekey (enc (VArr [vecu8_val der; VInt (Z.of_N n)])) = Ok (der, n).
Proof.
  intros [B L] N. rewrite from_slice_enc.
  - unfold as_providekey. cbn [as_fields untag]. rewrite as_vecu8_val by exact B. unfold as_storage. rewrite as_int_ok by lia. cbn [option_map]. rewrite N2Z.id. reflexivity.
  - unfold MAX_DEPTH. apply vok_arr; [unfold two64, nlen; cbn [length]; lia|]. constructor; [apply vok_vecu8; [exact B|unfold two64; lia]|]. constructor; [|constructor]. cbn [vok]. unfold two64. lia.
Qed.
Lemma diundone_read n : n <= 1 -> from_slice as_diundone (enc (VArr [VInt (Z.of_N n)])) = Ok n.
Proof. intros N. assert (n = 0 \/ n = 1) as [-> | ->] by lia; vm_compute; reflexivity. Qed.
Lemma text_vok d info : good_info info -> vok (S d) (text_val info).
Proof. intros (S & L & _). apply vok_text; [lia|exact S|unfold two64; lia]. Qed.
Lemma appstart_read info : good_info info -> from_slice as_appstart (enc (VArr [VBytes (enc (text_val info))])) = Ok (enc (text_val info)).
Proof.
  intros G. pose proof (text_vok 0 info G) as V. rewrite from_slice_enc; [reflexivity|]. unfold MAX_DEPTH. apply vok_arr; [unfold two64, nlen; cbn [length]; lia|]. constructor; [|constructor].
  apply vok_bytes; [eapply enc_bytes_ok; exact V|]. unfold text_val. cbn [enc]. rewrite nlen_app. pose proof (enc_head_nlen 3 (nlen (utf8_enc info))). destruct G as (_ & L & _). unfold two64. lia.
Qed.
Lemma mfginfo_read info : good_info info -> from_slice as_mfginfo (enc (text_val info)) = Ok info.
Proof.
  intros G. rewrite from_slice_enc by (unfold MAX_DEPTH; apply text_vok; exact G). unfold as_mfginfo, text_val. cbn [untag]. destruct G as (S & _). rewrite (utf8_roundtrip _ S). reflexivity.
Qed.
Lemma sethmac_read h : bytes_ok (h_value h) -> nlen (h_value h) <= 512 -> from_slice as_sethmac (enc (VArr [hash_val h])) = Ok h.
Proof.
  intros B L. rewrite from_slice_enc.
  - unfold as_sethmac. cbn [as_fields untag]. rewrite as_hash_val. reflexivity.
  - unfold MAX_DEPTH. apply vok_arr; [unfold two64, nlen; cbn [length]; lia|]. constructor; [|constructor]. apply vok_hash; [lia|exact B|unfold two64; lia].
Qed.

(** * DIUN's first answer *)
Lemma prot_made nonce alg : nonce_ok nonce -> (-2147483648 <= alg < 2147483648)%Z ->
  let m := VMap [(VInt CUPH_NONCE, bstr_val nonce); (VInt 1, VInt alg)] in
  bytes_ok (enc m) /\ nlen (enc m) <= 100 /\ dec_top (enc m) = Some m.
Proof.
  intros NB AL m.
  assert (V : vok 3 m).
  { unfold m. apply vok_map; [unfold two64, nlen; cbn [length]; lia|]. constructor; [split; [vint|apply vok_nonce; exact NB]|]. constructor; [split; [vint|cbn [fst snd vok]; unfold two64; lia]|constructor]. }
  split; [eapply enc_bytes_ok; exact V|]. split; [|apply dec_top_enc; eapply vok_mono; [exact V|unfold MAX_DEPTH; lia]].
  unfold m. cbn [enc map concat fst snd]. rewrite app_nil_r, !nlen_app. pose proof (enc_int_nlen CUPH_NONCE). pose proof (enc_int_nlen 1). pose proof (enc_int_nlen alg).
  pose proof (enc_bytes_nlen nonce). unfold bstr_val. cbn [enc] in *. rewrite ?nlen_app in *. pose proof (enc_head_nlen 5 (nlen [(VInt CUPH_NONCE, bstr_val nonce); (VInt 1, VInt alg)])). destruct NB as [_ NL]. unfold bstr_val in *. lia.
Qed.
Lemma cose_new_prot c chk pl nonce u sk rnd :
  outputs_ok c -> sign_correct c -> c_alg c (c_pub c sk) <> None -> nonce_ok nonce ->
  bytes_ok pl -> nlen pl < 2305843009213693952 -> vok (S D99) (VMap u) -> plain (VMap u) = true -> nlen (enc (VMap u)) < 2305843009213693952 ->
  exists e raw, cose_new_with_protected c chk pl [(VInt CUPH_NONCE, bstr_val nonce)] u sk rnd = Ok e /\ cose_serialize e = Ok raw /\ cose_deserialize chk raw = Ok e /\ cs_payload e = pl /\ cs_unprot e = u /\
    signed_by c (c_pub c sk) e /\ cose_get_protected c as_bstr16 e CUPH_NONCE (c_pub c sk) = Ok (Some nonce).
Proof.
  intros (Hh & Hs & Ha) Hsc NA NB Hpl Hlen VU PU LU. destruct (c_alg c (c_pub c sk)) as [alg|] eqn:Halg; [clear NA|congruence].
  pose proof (Ha _ _ Halg) as Hr. destruct (prot_made nonce alg NB Hr) as (Pok & Plen & Pdec).
  set (m := VMap [(VInt CUPH_NONCE, bstr_val nonce); (VInt 1, VInt alg)]) in *. set (p := enc m) in *. set (sg := c_sign c sk (tbs p pl) rnd).
  destruct (Hs sk (tbs p pl) rnd) as [Sok Slen]. fold sg in Sok, Slen.
  assert (F : cose_fits p u pl sg).
  { split; [exact Pok|]. split; [exact Hpl|]. split; [exact Sok|]. split; [exact VU|]. split; [exact PU|].
    unfold cose_inner_val. set (U := VMap u) in *. clearbody p. cbn [enc map concat]. rewrite !nlen_app.
    pose proof (enc_head_nlen 4 (nlen [VBytes p; U; VBytes pl; VBytes sg])).
    pose proof (enc_head_nlen 2 (nlen p)). pose proof (enc_head_nlen 2 (nlen pl)). pose proof (enc_head_nlen 2 (nlen sg)).
    change (nlen (@nil N)) with 0. unfold two63. unfold bytes in *. lia. }
  set (e := Cose (PA (Some COSESIGN_TAG) (map enc (cose_inner_val p u pl sg))) p u pl sg).
  assert (SG : signed_by c (c_pub c sk) e).
  { exists alg, m, alg. split; [exact Halg|]. cbn [cs_prot cs_payload cs_sig e]. split; [exact Pdec|]. split; [|split; [reflexivity|apply Hsc]].
    exists [(VInt CUPH_NONCE, bstr_val nonce); (VInt 1, VInt alg)], (VInt alg). split; [reflexivity|]. split; [reflexivity|reflexivity]. }
  exists e, (enc (VTag 18 (VArr (cose_inner_val p u pl sg)))).
  split; [|split; [|split; [|split; [|split; [|split]]]]].
  - unfold cose_new_with_protected. rewrite Halg. cbn [of_option bind app]. fold m. fold p. fold sg. apply cose_from_inner_eq. exact F.
  - unfold cose_serialize. cbn [cs_contents e]. rewrite cose_array_serialize. reflexivity.
  - apply cose_deserialize_built; [exact F|]. exists m. split; [exact Pdec|discriminate].
  - reflexivity.
  - reflexivity.
  - exact SG.
  - unfold cose_get_protected. pose proof (proj2 (verified_payload_ok c e (c_pub c sk) (cs_payload e)) (conj SG eq_refl)) as VP. rewrite VP. cbn [bind cs_prot e]. rewrite Pdec. cbn [of_option bind as_map untag m].
    change (hdr_get CUPH_NONCE [(VInt CUPH_NONCE, bstr_val nonce); (VInt 1, VInt alg)]) with (Some (bstr_val nonce)). cbv iota. rewrite as_bstr16_val by apply NB. reflexivity.
Qed.
Lemma trusted_verifies c m ch leaf : trusted c m ch leaf -> match m with VHash d => forall x, In x ch -> nlen (c_hash c (h_type d) x) = nlen (h_value d) | _ => True end -> verify_chain c m ch = Ok leaf.
Proof.
  destruct m as [d|bag|]; cbn [trusted verify_chain].
  - intros [T R] L. apply P_Types.C14_digest_accepts_iff; [destruct T as [-> | ->]; reflexivity|exact L|exact R].
  - intros R _. apply P_Types.C14_bag_accepts_iff. exact R.
  - intros R _. apply P_Types.C14_insecure_accepts_iff. exact R.
Qed.
Lemma pubkey_vok c d p : writable c p -> vok (S (S d)) (pubkey_val p) /\ plain (pubkey_val p) = true /\ nlen (enc (pubkey_val p)) < 4294967400.
Proof.
  intros [(T & E & B & _) L]. split; [|split; [reflexivity|apply pubkey_len; exact L]]. unfold pubkey_val. apply vok_arr; [unfold two64, nlen; cbn [length]; lia|].
  assert (pk_type p < 256 /\ pk_enc p < 256) as [T' E'].
  { unfold is_pk_type, is_pk_enc in *. cbn [existsb] in T. lia. }
  constructor; [cbn [vok]; unfold two64; lia|]. constructor; [cbn [vok]; unfold two64; lia|]. constructor; [apply vok_bytes; [exact B|unfold two64; lia]|constructor].
Qed.
