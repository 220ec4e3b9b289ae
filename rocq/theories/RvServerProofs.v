(** Lemmas for P_RvServer.v. *)
From Verif Require Import Base BaseFacts Text Assoc RvModel StoreModel StoreSpec StoreRun StoreProofs StoreProofs2 Hex Backend BackendSpec BackendProofs RvServerModel
  CborSpec CborModel CborProofs ValueModel ValueProofs TypesModel CryptoSpec TypesProofs VoucherModel
  VoucherSpec VoucherProofs VoucherProofs2 ChainSpec ChainProofs DecFacts CoseFacts MsgModel SessionModel SessionSpec SessionProofs SessionProofs2 RvServerSpec.
From Coq Require Import ZifyBool ZifyNat ZifyN.
Local Open Scope N_scope.
Local Opaque dec_top.

(** * What is stored reads back *)
Lemma item_round c chk k t s : pubkey_valid c k -> nlen (pk_data k) <= 1048576 -> bytes_ok s -> nlen s < 2 ^ 61 -> cose_deserialize chk s = Ok t ->
  exists data, item_write (Item k t) = Ok data /\ item_read c chk data = Ok (Item k t).
Proof.
  intros KV KL B L D. change (2 ^ 61) with 2305843009213693952 in L.
  destruct (cose_reread chk s t B ltac:(change (2 ^ 62) with 4611686018427387904; lia) D) as (b & CS & CD & CI & CL).
  unfold item_write. cbn [si_to1d si_key]. rewrite CS. cbn [bind].
  assert (VK : vok MAX_DEPTH (pubkey_val k)) by (eapply vok_pubkey; [unfold MAX_DEPTH; lia|exact KV|unfold two64; lia]).
  set (kb := enc (pubkey_val k)).
  assert (LK : nlen kb <= 1048676).
  { unfold kb, pubkey_val. cbn [enc map concat]. rewrite !nlen_app. pose proof (enc_head_nlen 4 (nlen [VInt (Z.of_N (pk_type k)); VInt (Z.of_N (pk_enc k)); VBytes (pk_data k)])).
    pose proof (enc_int_nlen (Z.of_N (pk_type k))). pose proof (enc_int_nlen (Z.of_N (pk_enc k))). pose proof (enc_head_nlen 2 (nlen (pk_data k))). cbn [enc] in *.
    change (nlen (@nil N)) with 0. lia. }
  assert (KI : item (map_count chk) kb).
  { apply std_to_loop; [|unfold two63; lia]. unfold kb. eapply enc_item; [exact VK|reflexivity]. }
  assert (KBI : items (map_count chk) [kb; b]) by (apply items_cons; [exact KI|]; apply items_cons; [exact CI|apply items_nil]).
  destruct (serialize_loop chk None [kb; b] ltac:(unfold nlen; cbn; lia) Logic.I KBI) as (data & S & T).
  rewrite S. cbn [map_err]. exists data. split; [reflexivity|].
  pose proof (serialize_len _ _ S) as SL. cbn [CborModel.pa_items concat] in SL. rewrite !nlen_app in SL. change (nlen (@nil N)) with 0 in SL.
  assert (P : parse_array chk (Some 2) data = Ok (PA None [kb; b], [])).
  { rewrite <- (app_nil_r data). apply parse_complete; [exact T|right; split; [reflexivity|discriminate]|unfold two63; lia]. }
  unfold item_read, parse_array_data. rewrite P. cbn [bind map_err]. unfold get, get_raw. cbn [CborModel.pa_items nth_error of_option map_err bind].
  unfold kb. rewrite from_slice_enc by exact VK. rewrite as_pubkey_val by exact KV. cbn [of_option map_err bind]. rewrite CD. reflexivity.
Qed.

(** * A registration *)
Lemma two_items (a : parsed_array) : nlen (pa_items a) = 2 -> exists r0 r1, a = PA (pa_tag a) [r0; r1].
Proof. destruct a as [tg [|r0 [|r1 [|r2 l]]]]; cbn [CborModel.pa_items CborModel.pa_tag]; unfold nlen; cbn [length]; intros H; try lia. eauto. Qed.
Lemma three_items (a : parsed_array) : nlen (pa_items a) = 3 -> exists r0 r1 r2, a = PA (pa_tag a) [r0; r1; r2].
Proof. destruct a as [tg [|r0 [|r1 [|r2 [|r3 l]]]]]; cbn [CborModel.pa_items CborModel.pa_tag]; unfold nlen; cbn [length]; intros H; try lia. eauto. Qed.

Lemma ownersign_parts chk body m : bytes_ok body -> ownersign_read chk body = Ok m ->
  request_parts chk body (os_to0d m) (os_to1d m) /\ bytes_ok (os_to0d m) /\
  exists s, bytes_ok s /\ nlen s <= nlen body /\ cose_deserialize chk s = Ok (os_to1d m).
Proof.
  intros B R. unfold ownersign_read in R. destruct (parse_array_data chk (Some 2) body) as [a| |] eqn:P; cbn [map_err bind] in R; try discriminate.
  destruct (array_facts chk 2 body a B ltac:(lia) P) as (rest & h & PA0 & _ & _ & N2 & IO & _ & LC).
  destruct (two_items a N2) as (r0 & r1 & EA). remember (pa_tag a) as tg. rewrite EA in *. clear EA Heqtg.
  unfold get, get_raw in R. cbn [CborModel.pa_items nth_error of_option map_err bind] in *.
  destruct (from_slice as_bytebuf r0) as [d| |] eqn:F; cbn [bind] in R; try discriminate.
  destruct (cose_deserialize chk r1) as [t| |] eqn:C; cbn [bind] in R; try discriminate. inversion R; subst; cbn [os_to0d os_to1d].
  inversion IO as [|? ? B0 IO1]; subst. inversion IO1 as [|? ? B1 _]; subst.
  split; [exists tg, r0, r1, rest; auto|]. split; [exact (from_slice_bytebuf_ok _ _ B0 F)|]. exists r1. split; [exact B1|]. split; [|exact C].
  cbn [concat] in LC. rewrite !nlen_app in LC. lia.
Qed.
Lemma to0data_parts c chk s t : bytes_ok s -> to0data_read c chk s = Ok t ->
  to0d_parts c chk s (t0_voucher t) (t0_wait t) (t0_nonce t) /\ exists vs, bytes_ok vs /\ voucher_deserialize c chk vs = Ok (t0_voucher t).
Proof.
  intros B R. unfold to0data_read in R. destruct (parse_array_data chk (Some 3) s) as [a| |] eqn:P; cbn [map_err bind] in R; try discriminate.
  destruct (array_facts chk 3 s a B ltac:(lia) P) as (rest & h & PA0 & _ & _ & N3 & IO & _ & LC).
  destruct (three_items a N3) as (r0 & r1 & r2 & EA). remember (pa_tag a) as tg. rewrite EA in *. clear EA Heqtg.
  unfold get, get_raw in R. cbn [CborModel.pa_items nth_error of_option map_err bind] in *.
  destruct (voucher_deserialize c chk r0) as [v| |] eqn:V; cbn [bind] in R; try discriminate.
  destruct (from_slice as_u32 r1) as [w| |] eqn:F1; cbn [bind] in R; try discriminate.
  destruct (from_slice as_bstr16 r2) as [n| |] eqn:F2; cbn [bind] in R; try discriminate.
  inversion R; subst; cbn [t0_voucher t0_wait t0_nonce]. inversion IO as [|? ? B0 _]; subst.
  split; [exists tg, r0, r1, r2, rest; auto|eauto].
Qed.
Lemma bag_key_in c bag key : bag_contains_key c bag key = Ok true -> exists cert, In cert bag /\ c_cert_key c cert = Some key.
Proof.
  induction bag as [|cert bag IH]; cbn [bag_contains_key]; [discriminate|].
  destruct (c_cert_key c cert) as [k|] eqn:K; cbn [unwrap bind]; [|discriminate].
  destruct (bytes_eqb k key) eqn:E; [|intros H; destruct (IH H) as (x & I & X); exists x; split; [right; exact I|exact X]].
  apply bytes_eqb_spec in E. subst. intros _. exists cert. split; [left; reflexivity|exact K].
Qed.
Lemma last_snoc {A} (l : list A) x d : last (l ++ [x]) d = x.
Proof. induction l as [|y l IH]; [reflexivity|]. cbn [app last]. destruct (l ++ [x]) eqn:E; [destruct l; discriminate|]. exact IH. Qed.
Lemma voucher_guid c chk s v : bytes_ok s -> voucher_deserialize c chk s = Ok v -> bytes_ok (hd_guid (ov_header v)) /\ nlen (hd_guid (ov_header v)) = 16.
Proof.
  intros B V. destruct (voucher_deserialize_ok _ _ _ _ V) as (rest & P & COH).
  destruct (array_facts chk 5 s (ov_contents v) B ltac:(lia) ltac:(unfold parse_array_data; rewrite P; reflexivity)) as (_ & _ & _ & _ & _ & _ & IO & _ & _).
  apply coherent_ok in COH. destruct COH as (_ & (hb & G & H) & _). apply get_ok in G. destruct G as (raw & NE & F).
  rewrite Forall_forall in IO. pose proof (from_slice_bytebuf_ok _ _ (IO _ (nth_error_In _ _ NE)) F) as BH.
  apply header_deserialize_ok in H. destruct H as (PH & _ & GG & _).
  destruct (array_facts chk 6 hb _ BH ltac:(lia) PH) as (_ & _ & _ & _ & _ & _ & IO2 & _ & _).
  apply get_ok in GG. destruct GG as (raw2 & NE2 & F2). rewrite Forall_forall in IO2. eapply from_slice_bstr16_ok; [apply IO2; eapply nth_error_In; exact NE2|exact F2].
Qed.
Lemma reaches_ext c (T T' : bytes -> Prop) ch leaf : (forall x, T x -> T' x) -> reaches c T ch leaf -> reaches c T' ch leaf.
Proof. intros H [[E X]|(k & root & K & E & R & X & L)]; [left; auto|right; exists k, root; auto 8]. Qed.

Lemma check_registers c chk kf cf n m body g it wait : keyfns_ok c kf -> bytes_ok body -> nlen body <= MAX_BODY -> bytes_ok n -> nlen n = 16 ->
  ownersign_read chk body = Ok m -> ownersign_check c chk kf cf (nonce_text n) m = Ok (g, it, wait) ->
  exists asked, registers c chk cf body n g (pk_key (si_key it)) (si_to1d it) asked /\ wait = N.min asked (cf_max cf) /\ bytes_ok g /\ nlen g = 16 /\
    exists data, item_write it = Ok data /\ item_read c chk data = Ok it.
Proof.
  intros KF B LB BN LN R C. destruct (ownersign_parts _ _ _ B R) as (RP & B0 & s & BS & LS & CD).
  unfold ownersign_check, code in C. destruct (to0data_read c chk (os_to0d m)) as [t| |] eqn:T0; cbn [map_err bind] in C; try discriminate.
  destruct (to0data_parts _ _ _ _ B0 T0) as (TP & vs & BV & V). rewrite (nonce_round n BN LN) in C. cbn [unwrap bind] in C.
  destruct (nonce_eq n (t0_nonce t)) as [[|]| |] eqn:NQ; cbn [bind negb] in C; try discriminate. apply nonce_eq_ok in NQ.
  set (v := t0_voucher t) in *.
  destruct (match cf_mfg cf with None => Ok true | Some bag => bag_contains_key c bag (pk_key (hd_mfg (ov_header v))) end) as [[|]| |] eqn:MF; cbn [bind negb] in C; try discriminate.
  destruct (iter_last c chk v (iter_entries v) (S (length (pa_items (ov_entries v)))) None) as [[owner| |]|] eqn:IL; try discriminate.
  destruct (last_collect _ _ _ _ _ _ _ IL) as (ps & IC & EP). destruct EP as [[_ EP]|(qs & EP)]; [discriminate|].
  assert (VE : verify_entries c chk v = Ok ps).
  { unfold verify_entries. destruct (iter_collect c chk v (iter_entries v) (length (pa_items (ov_entries v)))) as [l| |] eqn:IC0.
    - rewrite (collect_fuel _ _ _ _ _ _ IC0) in IC. exact IC.
    - exfalso. pose proof (iter_walk c chk v (pa_items (ov_entries v)) [] (hd_mfg (ov_header v)) (length (pa_items (ov_entries v))) eq_refl (le_n _)) as W1.
      pose proof (iter_walk c chk v (pa_items (ov_entries v)) [] (hd_mfg (ov_header v)) (S (length (pa_items (ov_entries v)))) eq_refl (le_S _ _ (le_n _))) as W2.
      cbn [length] in W1, W2. unfold iter_entries in *. rewrite IC0 in W1. rewrite IC in W2. rewrite <- W1 in W2. discriminate.
    - exfalso. pose proof (iter_walk c chk v (pa_items (ov_entries v)) [] (hd_mfg (ov_header v)) (length (pa_items (ov_entries v))) eq_refl (le_n _)) as W1.
      pose proof (iter_walk c chk v (pa_items (ov_entries v)) [] (hd_mfg (ov_header v)) (S (length (pa_items (ov_entries v)))) eq_refl (le_S _ _ (le_n _))) as W2.
      cbn [length] in W1, W2. unfold iter_entries in *. rewrite IC0 in W1. rewrite IC in W2. rewrite <- W1 in W2. discriminate. }
  destruct (cose_get_payload c (from_slice as_to1payload) (os_to1d m) (pk_key (p_key owner))) as [p| |] eqn:GP; cbn [map_err bind] in C; try discriminate.
  apply cose_payload_signed in GP. destruct GP as [SG PL].
  destruct (hash_from_data c (h_type (t1_hash p)) (os_to0d m)) as [h| |] eqn:HD; cbn [map_err bind] in C; try discriminate.
  destruct (hash_compare (t1_hash p) h) as [[]| |] eqn:HC; cbn [map_err bind] in C; try discriminate.
  apply hash_compare_ok in HC. apply hash_from_data_ok in HD. destruct HD as [HT ->]. cbn [h_value] in HC.
  destruct (ov_chain v) as [ch|] eqn:CH; [|discriminate].
  destruct (match cf_dev cf with Some bag => verify_from_x5bag c ch bag | None => insecure_verify c ch end) as [leaf| |] eqn:LF; cbn [map_err bind] in C; try discriminate.
  destruct (pubkey_of_cert c (kf_type kf) (kf_der kf) leaf) as [key| |] eqn:PK; cbn [map_err bind] in C; try discriminate.
  unfold pubkey_of_cert in PK. destruct (c_cert_key c leaf) as [k|] eqn:CK; cbn [of_option bind] in PK; [|discriminate].
  destruct (kf_type kf k) as [kt|] eqn:KTy; cbn [of_option bind] in PK; [|discriminate]. inversion PK; subst key; clear PK.
  injection C as <- <- <-. cbn [si_key si_to1d pk_key].
  destruct (voucher_deserialize_ok _ _ _ _ V) as (rest & _ & COH). destruct (coherent_raws _ _ _ COH) as (hb & hm & HB & HM & _).
  exists (t0_wait t). split; [|split; [|split; [|split]]].
  - exists (os_to0d m), v, ps, (t1_addrs p), (t1_hash p). split; [exact RP|]. split; [rewrite NQ; exact TP|]. split; [reflexivity|].
    split; [exists hb, hm; split; [exact HB|split; [exact HM|]]; apply verify_custody; assumption|].
    split; [rewrite EP; destruct qs; discriminate|].
    split; [unfold owner_after; rewrite EP, map_app; cbn [map]; rewrite last_snoc; exact SG|].
    split; [destruct p; exact PL|]. split; [split; assumption|]. split.
    + intros bag EB. rewrite EB in MF. apply bag_key_in. exact MF.
    + exists ch, leaf. split; [exact CH|]. split; [exact CK|]. destruct (cf_dev cf) as [bag|].
      * unfold verify_from_x5bag in LF. apply (verify_reaches c (bag_contains c bag)) in LF. eapply reaches_ext; [|exact LF].
        cbn beta. intros x TX bag' EB. inversion EB; subst bag'. unfold bag_contains in TX. apply existsb_exists in TX. destruct TX as (b & IB & EQ). apply bytes_eqb_spec in EQ. eauto.
      * unfold insecure_verify in LF. apply (verify_reaches c (fun _ => true)) in LF. eapply reaches_ext; [|exact LF]. intros x _ bag EB. discriminate.
  - destruct (N.ltb_spec (cf_max cf) (t0_wait t)); lia.
  - eapply voucher_guid; eassumption.
  - eapply voucher_guid; eassumption.
  - eapply item_round; [| |exact BS| |exact CD].
    + destruct (KF _ _ CK) as (KT & D1 & D2 & D3). repeat split; cbn [pk_type pk_enc pk_data]; auto.
      unfold pubkey_new, parse_key. change (ENC_X509 =? ENC_X509) with true. cbv iota. rewrite D3. reflexivity.
    + cbn [pk_data]. apply (KF _ _ CK).
    + unfold MAX_BODY in LB. change (2 ^ 61) with 2305843009213693952. lia.
Qed.
