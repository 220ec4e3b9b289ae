(** A registration made by the owner server is accepted by a rendezvous server that trusts the voucher. *)
From Verif Require Import Base BaseFacts Text Assoc RvModel StoreModel StoreSpec StoreProofs Hex Backend RvServerModel
  CborSpec CborModel CborProofs ValueModel ValueProofs TypesModel CryptoSpec TypesProofs VoucherModel
  VoucherSpec VoucherProofs VoucherProofs2 DecFacts CoseFacts MsgModel SessionModel OwnerModel To0Model To0Spec.
From Coq Require Import ZifyBool ZifyNat ZifyN.
Local Open Scope N_scope.
Local Opaque dec_top.

Lemma as_int_ok lo hi z : (lo <= z <= hi)%Z -> as_int lo hi (VInt z) = Some z.
Proof. intros H. unfold as_int. cbn [untag]. destruct ((lo <=? z)%Z && (z <=? hi)%Z) eqn:E; [reflexivity|]. lia. Qed.
Lemma as_addr_val a : addr_ok a -> as_to2_addr (to2_addr_val a) = Some a.
Proof.
  destruct a as [ip dns port pr]. unfold addr_ok. cbn [ta_ip ta_dns ta_port ta_protocol]. intros (HI & HD & HP & HR).
  unfold as_to2_addr, to2_addr_val, as_fields. cbn [ta_ip ta_dns ta_port ta_protocol untag].
  assert (EI : as_option as_ip (option_val VBytes ip) = Some ip).
  { destruct ip as [b|]; [|reflexivity]. cbn [option_val]. destruct HI as [_ L]. unfold as_option, as_ip. cbn [untag]. destruct L as [->| ->]; reflexivity. }
  assert (ED : as_option as_string (option_val text_val dns) = Some dns).
  { destruct dns as [s|]; [|reflexivity]. cbn [option_val]. destruct HD as [H _]. unfold as_option, as_string, text_val. cbn [untag]. rewrite utf8_roundtrip by exact H. reflexivity. }
  rewrite EI, ED. unfold as_u16. rewrite as_int_ok by lia. cbn [option_map]. rewrite as_int_ok by lia. rewrite !N2Z.id. reflexivity.
Qed.
Lemma vok_addr a d : addr_ok a -> vok (S (S d)) (to2_addr_val a).
Proof.
  destruct a as [ip dns port pr]. unfold addr_ok, to2_addr_val. cbn [ta_ip ta_dns ta_port ta_protocol]. intros (HI & HD & HP & HR).
  apply vok_arr; [unfold nlen, two64; cbn; lia|]. constructor; [|constructor; [|constructor; [|constructor; [|constructor]]]].
  - destruct ip as [b|]; cbn; [|exact Logic.I]. destruct HI as [B L]. split; [exact B|unfold two64; lia].
  - destruct dns as [s|]; cbn; [|exact Logic.I]. destruct HD as [B L]. split; [apply utf8_enc_ok; exact B|unfold two64; lia].
  - cbn. unfold two64. lia.
  - cbn. unfold two64. lia.
Qed.
Lemma addr_len a : addr_ok a -> nlen (enc (to2_addr_val a)) <= 66000.
Proof.
  destruct a as [ip dns port pr]. unfold addr_ok, to2_addr_val. cbn [ta_ip ta_dns ta_port ta_protocol]. intros (HI & HD & HP & HR).
  cbn [enc map concat]. rewrite !nlen_app. change (nlen (@nil N)) with 0.
  pose proof (enc_int_nlen (Z.of_N port)). pose proof (enc_int_nlen (Z.of_N pr)). cbn [enc] in *.
  pose proof (enc_head_nlen 4 (nlen [option_val VBytes ip; option_val text_val dns; VInt (Z.of_N port); VInt (Z.of_N pr)])).
  assert (nlen (enc (option_val VBytes ip)) <= 25).
  { destruct ip as [b|]; cbn [option_val]; [|vm_compute; discriminate]. pose proof (enc_bytes_nlen b). lia. }
  assert (nlen (enc (option_val text_val dns)) <= 65544).
  { destruct dns as [s|]; cbn [option_val]; [|vm_compute; discriminate]. unfold text_val. cbn [enc]. rewrite nlen_app. pose proof (enc_head_nlen 3 (nlen (utf8_enc s))). lia. }
  lia.
Qed.
Lemma addrs_len l : Forall addr_ok l -> nlen (concat (map enc (map to2_addr_val l))) <= 66000 * nlen l.
Proof.
  induction 1 as [|a l H F IH]; [cbn; lia|]. cbn [map concat]. rewrite nlen_app. pose proof (addr_len a H). replace (nlen (a :: l)) with (1 + nlen l) by (unfold nlen; cbn [length]; lia). lia.
Qed.
Lemma payload_read l h : Forall addr_ok l -> nlen l <= 65535 -> bytes_ok (h_value h) -> nlen (h_value h) <= 1024 ->
  from_slice as_to1payload (to1payload_bytes l h) = Ok (To1p l h) /\ bytes_ok (to1payload_bytes l h) /\ nlen (to1payload_bytes l h) < 8589934592.
Proof.
  intros F L HB HL. unfold to1payload_bytes.
  assert (V : vok 4 (VArr [VArr (map to2_addr_val l); hash_val h])).
  { apply vok_arr; [unfold nlen, two64; cbn; lia|]. constructor; [|constructor; [|constructor]].
    - apply vok_arr; [rewrite nlen_map; unfold two64; lia|]. apply Forall_forall. intros v I. apply in_map_iff in I. destruct I as (a & <- & I). rewrite Forall_forall in F. apply vok_addr. apply F. exact I.
    - apply vok_hash; [lia|exact HB|unfold two64; lia]. }
  split; [|split].
  - rewrite from_slice_enc by (eapply vok_mono; [exact V|unfold MAX_DEPTH; lia]). unfold as_to1payload, as_fields. cbn [untag].
    unfold as_list. cbn [untag]. rewrite map_map.
    assert (A : all_some (map (fun x => as_to2_addr (to2_addr_val x)) l) = Some l).
    { clear L V. induction F as [|a l H F IH]; [reflexivity|]. cbn [map all_some]. rewrite as_addr_val by exact H. rewrite IH. reflexivity. }
    rewrite A. rewrite as_hash_val. reflexivity.
  - eapply enc_bytes_ok. exact V.
  - cbn [enc map concat]. rewrite !nlen_app. change (nlen (@nil N)) with 0. pose proof (addrs_len l F).
    pose proof (enc_head_nlen 4 (nlen [VArr (map to2_addr_val l); hash_val h])). pose proof (enc_head_nlen 4 (nlen (map to2_addr_val l))).
    unfold hash_val. cbn [enc map concat]. rewrite !nlen_app. pose proof (enc_head_nlen 4 (nlen [VInt (hashtype_num (h_type h)); VBytes (h_value h)])).
    pose proof (enc_int_nlen (hashtype_num (h_type h))). pose proof (enc_head_nlen 2 (nlen (h_value h))). cbn [enc] in *. change (nlen (@nil N)) with 0. unfold hash_val in *. lia.
Qed.

(** Arrays of given items read back. *)
Lemma array_round chk n xs : nlen xs = n -> 0 < n <= 65535 -> items (map_count chk) xs -> nlen (concat xs) < 9223372036854775802 ->
  exists b, serialize_array (PA None xs) = Ok b /\ parse_array_data chk (Some n) b = Ok (PA None xs) /\ nlen b <= nlen (concat xs) + 6 /\ item (map_count chk) b.
Proof.
  intros E NB I L. destruct (serialize_loop chk None xs ltac:(lia) Logic.I I) as (b & S & T). exists b. split; [exact S|].
  pose proof (serialize_len _ _ S) as SL. cbn [CborModel.pa_items] in SL. split; [|split; [lia|apply (array_item chk (PA None xs)); [exact I|exact S]]]. unfold parse_array_data.
  assert (P : parse_array chk (Some n) b = Ok (PA None xs, [])).
  { rewrite <- (app_nil_r b). apply parse_complete; [exact T|right; split; [congruence|destruct xs; [cbn in E; lia|discriminate]]|unfold two63; lia]. }
  rewrite P. reflexivity.
Qed.
Lemma array_bytes chk tag xs b : nlen xs <= 65535 -> tag_small tag -> items (map_count chk) xs -> Forall bytes_ok xs -> serialize_array (PA tag xs) = Ok b -> bytes_ok b.
Proof.
  intros L TS I F S. destruct (serialize_loop chk tag xs L TS I) as (b' & S' & T). rewrite S in S'. inversion S'; subst b'.
  destruct T; repeat (apply bytes_ok_app; split); try (eapply head_ok; eassumption); apply bytes_ok_concat; exact F.
Qed.
Lemma collect_last c chk v : forall fuel it acc ps, iter_collect c chk v it fuel = Ok ps ->
  iter_last c chk v it fuel acc = match rev ps with [] => acc | p :: _ => Some (Ok p) end.
Proof.
  induction fuel as [|fuel IH]; intros it acc ps C; cbn [iter_last iter_collect] in *.
  - destruct (iter_next c chk v it) as [[[x|x|x]|] it']; try discriminate. inversion C; reflexivity.
  - destruct (iter_next c chk v it) as [[[x|x|x]|] it']; try discriminate; [|inversion C; reflexivity].
    destruct (iter_collect c chk v it' fuel) as [l| |] eqn:CL; cbn [bind] in C; try discriminate. inversion C; subst.
    rewrite (IH _ _ _ CL). cbn [rev]. destruct (rev l); reflexivity.
Qed.

Lemma hash_compare_refl h : hash_compare h h = Ok tt.
Proof. unfold hash_compare, hash_eq, memcmp_eq. rewrite N.eqb_refl, bytes_eqb_refl. reflexivity. Qed.

Section accept.
Context (c : crypto) (chk : bool) (cf : to0conf) (kf : keyfns) (rcf : rvconf).
Hypothesis (HO : outputs_ok c) (HS : sign_correct c).

(** The message as built, and how it reads *)
Lemma sign_msg_reads s v nonce rnd : bytes_ok s -> nlen s < 2 ^ 32 -> voucher_deserialize c chk s = Ok v -> tag_small (pa_tag (ov_contents v)) ->
  Forall addr_ok (tc_addrs cf) -> nlen (tc_addrs cf) <= 65535 -> tc_period cf < 2 ^ 32 -> c_alg c (c_pub c (tc_sk cf)) <> None ->
  bytes_ok nonce -> nlen nonce = 16 ->
  exists m to0d to1d, sign_msg c chk cf v nonce rnd = Ok m /\ ownersign_read chk m = Ok (OwnerSign to0d to1d) /\
    to0data_read c chk to0d = Ok (To0d v (tc_period cf) nonce) /\
    cose_get_payload c (from_slice as_to1payload) to1d (c_pub c (tc_sk cf)) = Ok (To1p (tc_addrs cf) (Hash Sha384 (c_hash c Sha384 to0d))) /\
    exists raw, bytes_ok raw /\ nlen raw < 2 ^ 61 /\ cose_deserialize chk raw = Ok to1d.
Proof.
  intros B L D TS FA LA LP ALG NB NL. change (2 ^ 32) with 4294967296 in *.
  pose proof (loaded_kept c chk s v B D) as K. destruct (voucher_deserialize_ok _ _ _ _ D) as (rest & P & COH).
  destruct (parse_sound chk (Some 5) s _ rest ltac:(discriminate) B P) as (h & ES & T & SZ).
  assert (BH : bytes_ok h) by (rewrite ES in B; apply bytes_ok_app in B; tauto). pose proof (top_items_ok _ _ _ _ T BH) as IO.
  pose proof (top_array_tag_bytes _ _ _ _ T) as LH. assert (LC : nlen (concat (pa_items (ov_contents v))) < 4294967296) by (rewrite ES, nlen_app in L; lia).
  destruct (store_load c chk v K) as (vb & VS & VR); [unfold fits_memory; lia|exact TS|].
  assert (VD : voucher_deserialize c chk vb = Ok v) by (unfold voucher_deserialize; specialize (VR []); rewrite app_nil_r in VR; rewrite VR; reflexivity).
  assert (N5 : nlen (pa_items (ov_contents v)) <= 65535) by (destruct K as [KL _ _ _ _ _ _ _]; unfold nlen; rewrite KL; lia).
  assert (EV : serialize_array (ov_contents v) = Ok vb).
  { unfold voucher_serialize in VS. destruct (serialize_array (ov_contents v)); cbn [map_err] in VS; inversion VS; reflexivity. }
  assert (VI : item (map_count chk) vb).
  { destruct K as [_ KI _ _ _ _ _ _]. exact (array_item chk (ov_contents v) vb KI EV). }
  assert (VB : bytes_ok vb).
  { destruct K as [_ KI _ _ _ _ _ _]. destruct (ov_contents v) as [tg xs]. cbn [CborModel.pa_items CborModel.pa_tag] in *. eapply array_bytes; eassumption. }
  pose proof (serialize_len _ _ EV) as VL.
  set (pb := enc (VInt (Z.of_N (tc_period cf)))). set (nb := enc (bstr_val nonce)).
  assert (PV : vok 1 (VInt (Z.of_N (tc_period cf)))) by (cbn; unfold two64; lia).
  assert (NV : vok 1 (bstr_val nonce)) by (cbn; split; [exact NB|unfold two64; lia]).
  assert (PL : nlen pb <= 9) by apply enc_int_nlen. assert (NBL : nlen nb <= 25) by (unfold nb, bstr_val; pose proof (enc_bytes_nlen nonce); lia).
  assert (PI : item (map_count chk) pb) by (apply std_to_loop; [eapply enc_item; [exact PV|reflexivity]|unfold two63; lia]).
  assert (NI : item (map_count chk) nb) by (apply std_to_loop; [eapply enc_item; [exact NV|reflexivity]|unfold two63; lia]).
  assert (I3 : items (map_count chk) [vb; pb; nb]) by (repeat (apply items_cons; [assumption|]); apply items_nil).
  assert (C3 : nlen (concat [vb; pb; nb]) < 4294967400) by (cbn [concat]; rewrite !nlen_app; change (nlen (@nil N)) with 0; lia).
  destruct (array_round chk 3 [vb; pb; nb] eq_refl ltac:(lia) I3 ltac:(lia)) as (to0d & S0 & P0 & L0 & _).
  assert (B0 : bytes_ok to0d).
  { eapply (array_bytes chk None [vb; pb; nb]); [unfold nlen; cbn; lia|exact Logic.I|exact I3| |exact S0].
    constructor; [exact VB|]. constructor; [eapply enc_bytes_ok; exact PV|]. constructor; [eapply enc_bytes_ok; exact NV|constructor]. }
  pose proof HO as (OH & _ & _). destruct (OH Sha384 to0d) as [HB HL].
  destruct (payload_read (tc_addrs cf) (Hash Sha384 (c_hash c Sha384 to0d)) FA LA HB HL) as (PR & PB & PLN).
  destruct (c_alg c (c_pub c (tc_sk cf))) as [alg|] eqn:EA; [|congruence].
  destruct (cose_new_full c chk _ (tc_sk cf) rnd alg HO HS EA PB ltac:(lia)) as (e & raw & CN & CS & CD & CP & CC & CI & CB & CL).
  assert (RI : item (map_count chk) raw) by (apply std_to_loop; [exact CI|unfold two63; lia]).
  set (tb := enc (VBytes to0d)).
  assert (TV : vok 1 (VBytes to0d)) by (cbn; split; [exact B0|unfold two64; lia]).
  assert (TL : nlen tb <= 9 + nlen to0d) by apply enc_bytes_nlen.
  assert (TI : item (map_count chk) tb) by (apply std_to_loop; [eapply enc_item; [exact TV|reflexivity]|unfold two63; lia]).
  assert (I2 : items (map_count chk) [tb; raw]) by (repeat (apply items_cons; [assumption|]); apply items_nil).
  destruct (array_round chk 2 [tb; raw] eq_refl ltac:(lia) I2) as (m & SM & PM & _ & _).
  { cbn [concat]. rewrite !nlen_app. change (nlen (@nil N)) with 0. lia. }
  exists m, to0d, e. split; [|split; [|split; [|split; [|exists raw; split; [exact CB|split; [change (2 ^ 61) with 2305843009213693952; lia|exact CD]]]]]].
  - unfold sign_msg, to0data_bytes. rewrite VS. cbn [bind]. fold pb nb. rewrite S0. cbn [map_err bind]. unfold hash_from_data. cbn [digestible bind].
    rewrite CN. cbn [bind]. unfold ownersign_bytes. rewrite CS. cbn [bind]. fold tb. rewrite SM. reflexivity.
  - unfold ownersign_read. rewrite PM. cbn [map_err bind]. unfold get, get_raw. cbn [CborModel.pa_items nth_error of_option map_err bind].
    unfold tb. rewrite from_slice_enc by (eapply vok_mono; [exact TV|unfold MAX_DEPTH; lia]). unfold as_bytebuf. cbn [untag of_option map_err bind]. rewrite CD. reflexivity.
  - unfold to0data_read. rewrite P0. cbn [map_err bind]. unfold get, get_raw. cbn [CborModel.pa_items nth_error of_option map_err bind]. rewrite VD. cbn [bind].
    unfold pb, nb. rewrite from_slice_enc by (eapply vok_mono; [exact PV|unfold MAX_DEPTH; lia]). unfold as_u32. rewrite as_int_ok by lia. cbn [option_map of_option map_err bind]. rewrite N2Z.id.
    rewrite from_slice_enc by (eapply vok_mono; [exact NV|unfold MAX_DEPTH; lia]). unfold as_bstr16, bstr_val, as_bytebuf. cbn [untag]. rewrite NL. reflexivity.
  - unfold cose_get_payload, cose_verified_payload. rewrite CC. cbn [bind]. rewrite CP. exact PR.
Qed.

(** The rendezvous server's checks *)
Lemma sign_msg_accepted s v ps nonce rnd ch leaf key : bytes_ok s -> nlen s < 2 ^ 32 -> voucher_deserialize c chk s = Ok v -> tag_small (pa_tag (ov_contents v)) ->
  Forall addr_ok (tc_addrs cf) -> nlen (tc_addrs cf) <= 65535 -> tc_period cf < 2 ^ 32 -> c_alg c (c_pub c (tc_sk cf)) <> None ->
  bytes_ok nonce -> nlen nonce = 16 ->
  verify_entries c chk v = Ok ps -> ps <> [] -> pk_key (owner_after v ps) = c_pub c (tc_sk cf) ->
  match cf_mfg rcf with None => True | Some bag => bag_contains_key c bag (pk_key (hd_mfg (ov_header v))) = Ok true end ->
  ov_chain v = Some ch -> match cf_dev rcf with Some bag => verify_from_x5bag c ch bag | None => insecure_verify c ch end = Ok leaf ->
  pubkey_of_cert c (kf_type kf) (kf_der kf) leaf = Ok key ->
  exists m o, sign_msg c chk cf v nonce rnd = Ok m /\ rv_parse chk TO0OwnerSign m = Ok (MOwnerSign o) /\
    ownersign_check c chk kf rcf (nonce_text nonce) o = Ok (hd_guid (ov_header v), Item key (os_to1d o), N.min (tc_period cf) (cf_max rcf)) /\
    cose_get_payload c (from_slice as_to1payload) (os_to1d o) (c_pub c (tc_sk cf)) = Ok (To1p (tc_addrs cf) (Hash Sha384 (c_hash c Sha384 (os_to0d o)))) /\
    exists raw, bytes_ok raw /\ nlen raw < 2 ^ 61 /\ cose_deserialize chk raw = Ok (os_to1d o).
Proof.
  intros B L D TS FA LA LP ALG NB NL VE PN OW MF CH LF PK.
  destruct (sign_msg_reads s v nonce rnd B L D TS FA LA LP ALG NB NL) as (m & to0d & to1d & SM & OR & TR & GP & RW).
  exists m, (OwnerSign to0d to1d). split; [exact SM|]. split; [unfold rv_parse; rewrite OR; reflexivity|]. cbn [os_to1d os_to0d]. split; [|split; [exact GP|exact RW]].
  unfold ownersign_check. cbn [os_to0d os_to1d]. rewrite TR. cbn [code map_err bind]. rewrite nonce_round by assumption. cbn [unwrap bind t0_nonce t0_voucher t0_wait].
  assert (NE : @nonce_eq N nonce nonce = Ok true) by (apply nonce_eq_ok; reflexivity). rewrite NE. cbn [bind negb].
  assert (MF' : match cf_mfg rcf with None => Ok true | Some bag => bag_contains_key c bag (pk_key (hd_mfg (ov_header v))) end = Ok true) by (destruct (cf_mfg rcf); [exact MF|reflexivity]).
  rewrite MF'. cbn [bind negb]. unfold verify_entries in VE. apply collect_fuel in VE.
  rewrite (collect_last c chk v _ _ None ps VE).
  destruct (rev ps) as [|p r] eqn:RV; [apply (f_equal (@rev payload)) in RV; rewrite rev_involutive in RV; contradiction|].
  assert (EL : owner_after v ps = p_key p).
  { apply (f_equal (@rev payload)) in RV. rewrite rev_involutive in RV. subst ps. cbn [rev]. unfold owner_after. rewrite map_app. cbn [map]. generalize (map p_key (rev r)). intros l.
    induction l as [|y l IH]; [reflexivity|]. cbn [app last]. destruct (l ++ [p_key p]) eqn:E; [destruct l; discriminate|]. exact IH. }
  rewrite EL in OW. rewrite OW. rewrite GP. unfold code. cbn [map_err bind t1_hash h_type]. unfold hash_from_data. cbn [digestible map_err bind].
  rewrite hash_compare_refl. cbn [map_err bind]. rewrite CH. rewrite LF. cbn [map_err bind]. rewrite PK. cbn [map_err bind].
  assert (MN : (if cf_max rcf <? tc_period cf then cf_max rcf else tc_period cf) = N.min (tc_period cf) (cf_max rcf)) by (destruct (N.ltb_spec (cf_max rcf) (tc_period cf)); lia).
  rewrite MN. reflexivity.
Qed.
End accept.
