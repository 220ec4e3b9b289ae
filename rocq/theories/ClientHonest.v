(** Lemmas: a device and an honest owner understand each other. *)
From Verif Require Import Base BaseFacts CborSpec CborModel CborProofs ValueModel ValueProofs Text TypesModel CryptoSpec TypesProofs VoucherModel VoucherSpec VoucherProofs VoucherProofs2
  KexModel RvModel MsgModel SessionModel HttpClientModel RvServerModel CoseFacts SiModel DevSiModel OwnerModel To0Accept ClientModel ClientSpec ClientProofs.
From Coq Require Import ZifyBool ZifyNat ZifyN.
Local Open Scope N_scope.
Set Default Proof Using "Type".
Local Opaque dec_top any_value.

(** ** Vouchers of this implementation are written the same way again. *)
Definition rewrites (chk : bool) (raw : bytes) : Prop := exists e, cose_deserialize chk raw = Ok e /\ cose_serialize e = Ok raw.
Lemma issued_made c chk v : issued c chk v -> made c chk v.
Proof. intros H. induction H; [eapply made_new|eapply made_extended]; eassumption. Qed.
Lemma issued_rewrites c chk v : outputs_ok c -> sign_correct c -> issued c chk v ->
  Forall (rewrites chk) (entries_raw v) /\ hmac_raw v (enc (hash_val (ov_hmac v))) /\ pa_tag (ov_entries v) = None /\
  (exists hb, nth_error (pa_items (ov_contents v)) 1 = Some (enc (VBytes hb)) /\ vok MAX_DEPTH (VBytes hb)).
Proof.
  intros HO HS H. induction H as [h hmac ch v HR HM HC HV HF|v v' x I IH (XK & XL & XE) HX].
  - unfold voucher_new in HV. destruct (serialize_array (hd_contents h)) as [hb| |] eqn:E0; cbn [map_err bind] in HV; try discriminate.
    destruct (serialize_array (PA None [])) as [eb| |]; cbn [map_err bind] in HV; inversion HV; subst. split; [constructor|]. split; [reflexivity|]. split; [reflexivity|].
    exists hb. split; [reflexivity|]. destruct HR as (hb' & SE & _ & BO). unfold header_serialize in SE. destruct (check_device_info (hd_devinfo h)); cbn [bind] in SE; try discriminate.
    assert (hb' = hb) by (rewrite E0 in SE; cbn [map_err] in SE; congruence). subst hb'. unfold MAX_DEPTH. apply vok_bytes; [exact BO|].
    assert (LT : nlen (enc (VBytes hb)) < 9223372036854775802) by (eapply N.le_lt_trans; [apply nlen_concat_in|exact HF]; cbn [ov_contents pa_items In]; auto).
    pose proof (bytes_in_size hb). unfold two64. unfold bytes in *. lia.
  - destruct IH as (IH1 & IH2 & IH3 & hb & IH4 & IH5).
    destruct (extend_shape _ _ _ _ _ _ _ _ HX) as (a & b & e & raw & eb & l' & EC & CN & CS & SA & LS & ->).
    destruct (extend_check_hashes _ _ _ _ _ _ _ EC) as [[d1 H1] [d2 H2]]. pose proof HO as (OH & OS & OA).
    destruct (vok_payload c (Payload a b (x_extra x) (x_next x))) as [PV PL]; cbn [p_prev p_hdr p_extra p_key]; auto; try (rewrite H1; apply OH); try (rewrite H2; apply OH).
    destruct (cose_new_alg _ _ _ _ _ _ _ CN) as [alg AL].
    destruct (cose_new_full c chk _ (x_sk x) (x_rnd x) alg HO HS AL (enc_bytes_ok _ _ PV) ltac:(lia)) as (e' & raw' & CN' & CS' & CD & _).
    rewrite CN in CN'. inversion CN'; subst e'. rewrite CS in CS'. inversion CS'; subst raw'.
    destruct (list_set_some (pa_items (ov_contents v)) 4 eb) as (l2 & LS2 & LL & LN & LM).
    { destruct (made_kept c chk v HO HS (issued_made _ _ _ I)) as [KL _ _ _ _ _ _ _]. rewrite KL. lia. }
    rewrite LS in LS2. inversion LS2; subst l2. unfold entries_raw, hmac_raw in *. cbn [ov_entries ov_contents ov_hmac pa_items pa_tag].
    split; [apply Forall_app; split; [exact IH1|constructor; [exists e; auto|constructor]]|]. split; [rewrite LM by lia; exact IH2|]. split; [exact IH3|]. exists hb. rewrite LM by lia. auto.
Qed.

Lemma issued_size c chk v : outputs_ok c -> sign_correct c -> issued c chk v -> nlen (concat (entries_raw v)) <= nlen (entries_raw v) * 8796093022208.
Proof.
  intros HO HS H. induction H as [h hmac ch v HR HM HC HV HF|v v' x I IH (XK & XL & XE) HX].
  - unfold voucher_new in HV. destruct (serialize_array (hd_contents h)) as [hb| |] eqn:E0; cbn [map_err bind] in HV; try discriminate.
    destruct (serialize_array (PA None [])) as [eb| |]; cbn [map_err bind] in HV; inversion HV; subst. reflexivity.
  - destruct (extend_shape _ _ _ _ _ _ _ _ HX) as (a & b & e & raw & eb & l' & EC & CN & CS & SA & LS & ->).
    destruct (extend_check_hashes _ _ _ _ _ _ _ EC) as [[d1 H1] [d2 H2]]. pose proof HO as (OH & OS & OA).
    destruct (vok_payload c (Payload a b (x_extra x) (x_next x))) as [PV PL]; cbn [p_prev p_hdr p_extra p_key]; auto; try (rewrite H1; apply OH); try (rewrite H2; apply OH).
    destruct (cose_new_alg _ _ _ _ _ _ _ CN) as [alg AL].
    destruct (cose_new_full c chk _ (x_sk x) (x_rnd x) alg HO HS AL (enc_bytes_ok _ _ PV) ltac:(lia)) as (e' & raw' & CN' & CS' & CD & _ & _ & _ & _ & RL).
    rewrite CN in CN'. inversion CN'; subst e'. rewrite CS in CS'. inversion CS'; subst raw'.
    unfold entries_raw in *. cbn [ov_entries pa_items]. rewrite concat_app, !nlen_app. cbn [concat]. rewrite app_nil_r. change (nlen [raw]) with 1. unfold bytes in *. lia.
Qed.
(** What an extension leaves as it was *)
Lemma extend_all_keeps c chk : outputs_ok c -> sign_correct c -> forall l v v', issued c chk v -> Forall (ext_ok c) l -> extend_all c chk v l = (v', Ok tt) ->
  issued c chk v' /\ ov_hmac v' = ov_hmac v /\ (forall hb, header_raw v hb -> header_raw v' hb) /\ nlen (entries_raw v') = nlen (entries_raw v) + nlen l.
Proof.
  intros HO HS. induction l as [|x l IH]; intros v v' I F E; cbn [extend_all] in E; [inversion E; subst; repeat split; auto; change (nlen (@nil ext)) with 0; lia|].
  destruct (extend c chk v (x_sk x) (x_extra x) (x_next x) (x_rnd x)) as [v1 [[]| |]] eqn:EX; try discriminate. inversion F; subst.
  assert (I1 : issued c chk v1) by (eapply issued_extended; eassumption). destruct (IH v1 v' I1 H2 E) as (I2 & M & HB & N).
  destruct (extend_shape _ _ _ _ _ _ _ _ EX) as (a & b & e & raw & eb & l' & EC & CN & CS & SA & LS & V1). subst v1. split; [exact I2|]. split; [exact M|].
  destruct (list_set_some (pa_items (ov_contents v)) 4 eb) as (l2 & LS2 & LL & LN & LM).
  { destruct (made_kept c chk v HO HS (issued_made _ _ _ I)) as [KL _ _ _ _ _ _ _]. rewrite KL. lia. }
  rewrite LS in LS2. inversion LS2; subst l2. split.
  - intros hb (r & R1 & R2). apply HB. exists r. cbn [ov_contents pa_items]. rewrite LM by lia. auto.
  - rewrite N. unfold entries_raw. cbn [ov_entries pa_items]. rewrite nlen_app. change (nlen [raw]) with 1. change (nlen (x :: l)) with (nlen ([x] ++ l)). rewrite nlen_app. change (nlen [x]) with 1. lia.
Qed.

Lemma type_read m kdf tok b : response_type (HResp true kdf (Some (HText (dec_str (mtype_num m)))) tok b) = Ok m.
Proof. destruct m; reflexivity. Qed.
Lemma mtype_eqb_refl m : mtype_eqb m m = true. Proof. destruct m; reflexivity. Qed.

Section honest.
Context (A : aead) (c : crypto) (chk : bool) (ko : kex_ops) (avail : bool) (wo : world).

Lemma ask_answered av om sm bd new s body b ct tok :
  valid_prev om (hc_last (s_hc s)) = true -> valid_prev sm (Some om) = true ->
  enc_violated (enc_req om) (ek_is_some (hc_keys (s_hc s))) = false ->
  enc_violated (enc_req sm) (ek_is_some (hc_keys (s_hc s)) || match new with Some _ => true | None => false end) = false ->
  bd = Ok body ->
  forall wb, ek_encrypt A (hc_keys (s_hc s)) (wo_rand wo (s_hist s) 1) body = Ok wb ->
  let w := Wire (mtype_num om) (hc_token (s_hc s)) (negb avail) wb in
  answers av wo (s_hist s) (s_url s) w sm ct tok ->
  ek_decrypt A (match new with Some k => k | None => hc_keys (s_hc s) end) ct = Ok b ->
  exists hc', ask A avail wo om sm bd new s = (St (s_hist s ++ [TWire (s_url s) w]) (s_url s) hc', Ok b) /\
    hc_keys hc' = match new with Some k => k | None => hc_keys (s_hc s) end /\ hc_last hc' = Some sm /\
    hc_kdf hc' = Some (match hc_kdf (s_hc s) with Some x => x | None => negb av end) /\
    hc_token hc' = match tok with Some t => Some (txt "Bearer " ++ t) | None => hc_token (s_hc s) end.
Proof.
  intros VP VS E1 E2 -> wb EN w AN DE. unfold answers in AN. unfold ask. unfold prepare. rewrite VP, VS. cbn [negb hc_keys]. rewrite E1, E2. cbn [hc_token hc_keys hc_last hc_kdf].
  rewrite EN. cbn [hc_token hc_keys hc_last hc_kdf]. change (Wire (mtype_num om) (hc_token (s_hc s)) (negb avail) wb) with w. rewrite AN. unfold to_hresponse, receive.
  rewrite type_read. cbn [HttpClientModel.hr_auth HttpClientModel.hr_kdf hr_success HttpClientModel.hr_body hc_token hc_keys hc_last hc_kdf].
  assert (KD : (match hc_kdf (s_hc s) with Some b => Some b | None => Some (match (if av then None else Some (HText KDF_TRUE)) with Some h => hval_eqb h KDF_TRUE | None => false end) end)
    = Some (match hc_kdf (s_hc s) with Some x => x | None => negb av end)).
  { destruct (hc_kdf (s_hc s)); [reflexivity|]. destruct av; reflexivity. }
  rewrite KD. rewrite mtype_eqb_refl. cbn [negb].
  destruct tok as [t|]; cbn [hc_keys]; rewrite DE; cbn [raw_parse map_err]; eexists; (split; [reflexivity|]); cbn [hc_keys hc_last hc_kdf hc_token];
    repeat split.
Qed.

(** ** Entries *)
Lemma entry_read v i raw : Forall (rewrites chk) (entries_raw v) -> items (map_count chk) (entries_raw v) -> nlen (concat (entries_raw v)) < 9223372036854775000 ->
  nth_error (entries_raw v) (N.to_nat i) = Some raw -> i <= 65535 -> exists e b, entry chk v (N.to_nat i) = Ok e /\ ovnextentry i e = Ok b /\ read_ovnext chk b = Ok (i, e) /\ cose_serialize e = Ok raw.
Proof.
  intros RW IT SZ NT LI. assert (IN : In raw (entries_raw v)) by (eapply nth_error_In; exact NT). rewrite Forall_forall in RW. destruct (RW _ IN) as (e & CD & CS).
  assert (V : vok MAX_DEPTH (VInt (Z.of_N i))) by (unfold MAX_DEPTH; cbn [vok]; unfold two64; lia).
  assert (L1 : nlen (enc (VInt (Z.of_N i))) <= 9) by apply enc_int_nlen.
  assert (I1 : CborSpec.item (map_count chk) (enc (VInt (Z.of_N i)))) by (apply std_to_loop; [eapply enc_item; [exact V|reflexivity]|unfold two63; lia]).
  assert (I2 : CborSpec.item (map_count chk) raw) by exact (proj1 (items_nth _ _) IT _ IN).
  pose proof (nlen_concat_in _ _ IN) as LR.
  destruct (array_round chk 2 [enc (VInt (Z.of_N i)); raw] eq_refl ltac:(lia)) as (b & SA & PA & _).
  { constructor; [exact I1|]. constructor; [exact I2|constructor]. }
  { cbn [concat]. rewrite !nlen_app, app_nil_r || rewrite !nlen_app. cbn [concat]. change (nlen (@nil N)) with 0. unfold bytes in *. lia. }
  exists e, b. split; [apply get_ok; exists raw; auto|]. split; [unfold ovnextentry; rewrite CS; cbn [bind]; rewrite SA; reflexivity|]. split; [|exact CS].
  unfold read_ovnext. rewrite PA. cbn [map_err bind].
  assert (G0 : get (from_slice as_u16) (CborModel.PA None [enc (VInt (Z.of_N i)); raw]) 0 = Ok i).
  { apply get_ok. eexists. split; [reflexivity|]. rewrite from_slice_enc by exact V. unfold as_u16, as_int. cbn [untag]. destruct (Z.leb_spec 0 (Z.of_N i)); [|lia]. destruct (Z.leb_spec (Z.of_N i) 65535); [|lia]. cbn. rewrite N2Z.id. reflexivity. }
  rewrite G0. cbn [bind]. assert (G1 : get (cose_deserialize chk) (CborModel.PA None [enc (VInt (Z.of_N i)); raw]) 1 = Ok e) by (apply get_ok; exists raw; auto).
  rewrite G1. reflexivity.
Qed.

Definition asks_entry (url : str) (ev : devent) : Prop := exists w', ev = TWire url w' /\ wr_type w' = 62.
Lemma getentry_read n : n <= 255 -> from_slice as_getentry (enc (VArr [VInt (Z.of_N n)])) = Ok n.
Proof.
  intros L. assert (V : vok MAX_DEPTH (VArr [VInt (Z.of_N n)])).
  { unfold MAX_DEPTH. apply vok_arr; [reflexivity|]. constructor; [cbn [vok]; unfold two64; lia|constructor]. }
  rewrite from_slice_enc by exact V.
  unfold as_getentry, as_fields. cbn [untag]. unfold as_u8, as_int. cbn [untag]. destruct (Z.leb_spec 0 (Z.of_N n)); [|lia]. destruct (Z.leb_spec (Z.of_N n) 255); [|lia]. cbn. rewrite N2Z.id. reflexivity.
Qed.
Lemma one_entry av v url h0 i s l raw : Forall (rewrites chk) (entries_raw v) -> items (map_count chk) (entries_raw v) -> nlen (concat (entries_raw v)) < 9223372036854775000 ->
  serves_entries chk av wo url v h0 -> s_hist s = h0 ++ l -> Forall (asks_entry url) l -> s_url s = url -> hc_keys (s_hc s) = unencrypted ->
  (hc_last (s_hc s) = Some TO2ProveOVHdr \/ hc_last (s_hc s) = Some TO2OVNextEntry) -> nth_error (entries_raw v) (N.to_nat (i mod 256)) = Some raw ->
  exists s1 w, (forall n es, get_entries A chk avail wo i (S n) es s = if i <? 256 then get_entries A chk avail wo (i + 1) n (es ++ [raw]) s1 else (s1, Err tt)) /\
    asks_entry url (TWire url w) /\ s_hist s1 = h0 ++ (l ++ [TWire url w]) /\ s_url s1 = url /\ hc_keys (s_hc s1) = unencrypted /\ hc_last (s_hc s1) = Some TO2OVNextEntry /\
    hc_kdf (s_hc s1) = Some (match hc_kdf (s_hc s) with Some x => x | None => negb av end) /\ hc_token (s_hc s1) = hc_token (s_hc s).
Proof.
  intros RW IT SZ SE H FL U K LA NT. pose proof (N.mod_lt i 256 ltac:(lia)) as ML.
  destruct (entry_read v (i mod 256) raw RW IT SZ NT ltac:(lia)) as (e & b & EE & OE & RE & CS).
  set (w := Wire 62 (hc_token (s_hc s)) (negb avail) (enc (VArr [VInt (Z.of_N (i mod 256))]))).
  assert (AN : answers av wo (s_hist s) (s_url s) w TO2OVNextEntry b None).
  { rewrite U, H. apply (SE l w (i mod 256) e b); [exact FL|reflexivity|apply getentry_read; lia|exact EE|exact OE]. }
  destruct (ask_answered av TO2GetOVNextEntry TO2OVNextEntry (Ok (enc (VArr [VInt (Z.of_N (i mod 256))]))) None s (enc (VArr [VInt (Z.of_N (i mod 256))])) b b None) with (wb := enc (VArr [VInt (Z.of_N (i mod 256))]))
    as (hc' & AS & K' & L' & D' & T').
  { destruct LA as [-> | ->]; reflexivity. } { reflexivity. } { rewrite K; reflexivity. } { rewrite K; reflexivity. } { reflexivity. } { rewrite K; reflexivity. } { exact AN. } { rewrite K; reflexivity. }
  exists (St (s_hist s ++ [TWire (s_url s) w]) (s_url s) hc'), w. split.
  { intros n es. cbn [get_entries]. unfold dbind at 1. rewrite AS. fold (mtype_num TO2GetOVNextEntry). unfold dbind at 1, lift. rewrite RE. cbn [map_err].
    destruct (N.ltb_spec i 256) as [LI|LI].
    - destruct (N.eqb_spec (i mod 256) i) as [_|NE]; [|exfalso; apply NE; apply N.mod_small; exact LI]. cbn [negb]. unfold dbind at 1. rewrite CS. reflexivity.
    - destruct (N.eqb_spec (i mod 256) i); [lia|]. reflexivity. }
  cbn [s_hist s_url s_hc]. split; [exists w; auto|]. split; [rewrite H, U, <- app_assoc; reflexivity|]. split; [exact U|]. rewrite K in K'. auto.
Qed.
(** Every entry up to number 255 arrives. *)
Lemma entries_get av v url h0 : Forall (rewrites chk) (entries_raw v) -> items (map_count chk) (entries_raw v) -> nlen (concat (entries_raw v)) < 9223372036854775000 ->
  serves_entries chk av wo url v h0 -> forall n i es s l, s_hist s = h0 ++ l -> Forall (asks_entry url) l -> s_url s = url -> hc_keys (s_hc s) = unencrypted ->
  (hc_last (s_hc s) = Some TO2ProveOVHdr \/ hc_last (s_hc s) = Some TO2OVNextEntry) -> (N.to_nat i + n <= length (entries_raw v))%nat -> i + N.of_nat n <= 256 ->
  exists s1 l1, (forall m, get_entries A chk avail wo i (n + m) es s = get_entries A chk avail wo (i + N.of_nat n) m (es ++ firstn n (skipn (N.to_nat i) (entries_raw v))) s1) /\
    s_hist s1 = h0 ++ (l ++ l1) /\ Forall (asks_entry url) (l ++ l1) /\ length l1 = n /\ s_url s1 = url /\ hc_keys (s_hc s1) = unencrypted /\
    hc_last (s_hc s1) = match n with O => hc_last (s_hc s) | _ => Some TO2OVNextEntry end /\
    hc_kdf (s_hc s1) = match n with O => hc_kdf (s_hc s) | _ => Some (match hc_kdf (s_hc s) with Some x => x | None => negb av end) end /\ hc_token (s_hc s1) = hc_token (s_hc s).
Proof.
  intros RW IT SZ SE. induction n as [|n IH]; intros i es s l H FL U K LA LN LI.
  - exists s, []. cbn [Nat.add firstn]. split; [intros m; rewrite !app_nil_r, N.add_0_r; reflexivity|]. rewrite !app_nil_r. auto 10.
  - destruct (nth_error (entries_raw v) (N.to_nat i)) as [raw|] eqn:NT; [|apply nth_error_None in NT; lia].
    destruct (one_entry av v url h0 i s l raw RW IT SZ SE H FL U K LA) as (s1 & w & G1 & AE & H1 & U1 & K1 & L1 & D1 & T1); [rewrite N.mod_small by lia; exact NT|].
    assert (F1 : Forall (asks_entry url) (l ++ [TWire url w])) by (apply Forall_app; split; [exact FL|constructor; [exact AE|constructor]]).
    destruct (IH (i + 1) (es ++ [raw]) s1 (l ++ [TWire url w]) H1 F1 U1 K1 (or_intror L1) ltac:(lia) ltac:(lia)) as (s2 & l2 & G & H2 & F2 & N2 & U2 & K2 & L2 & D2 & T2).
    exists s2, (TWire url w :: l2). split.
    { intros m. cbn [Nat.add].
      rewrite G1. destruct (N.ltb_spec i 256); [|lia]. rewrite G. f_equal; [lia|].
      rewrite <- app_assoc. f_equal. replace (N.to_nat (i + 1)) with (S (N.to_nat i)) by lia. clear -NT. revert NT. generalize (N.to_nat i). generalize (entries_raw v).
      induction l as [|y l IHl]; intros [|k] NT; cbn in NT; try discriminate; [inversion NT; reflexivity|]. exact (IHl k NT). }
    rewrite <- app_assoc in H2, F2. cbn [app] in H2, F2. split; [exact H2|]. split; [exact F2|]. split; [cbn [length]; lia|]. split; [exact U2|]. split; [exact K2|].
    split; [rewrite L2; destruct n; [exact L1|reflexivity]|]. split; [|congruence]. rewrite D2, D1. destruct n; reflexivity.
Qed.

(** ** Verification *)
Lemma check_owner_accepts v hb ps q tok ph to1d p' : outputs_ok c -> sign_correct c -> issued c chk v -> header_raw v hb -> nlen (entries_raw v) <= 65535 ->
  verify_entries c chk v = Ok (ps ++ [q]) -> ph_header ph = hb -> ph_hmac ph = ov_hmac v ->
  cose_get_payload c (read_provehdr chk) tok (pk_key (p_key q)) = Ok p' -> cose_verify c to1d (pk_key (p_key q)) = Ok tt ->
  check_owner c chk tok ph to1d (entries_raw v) = Ok p'.
Proof.
  intros HO HS I HB LE VE EH EM CG CV. destruct (issued_rewrites _ _ _ HO HS I) as (_ & HM & _ & hb' & N1 & VB).
  pose proof (issued_made _ _ _ I) as MK. pose proof (made_kept _ _ _ HO HS MK) as K.
  assert (hb' = hb). { destruct HB as (r & N & F). rewrite N1 in N. assert (ER : r = enc (VBytes hb')) by congruence. subst r. rewrite from_slice_enc in F by exact VB. cbn in F. congruence. } subst hb'.
  destruct (serialize_loop chk None (entries_raw v) LE Logic.I (k_entries _ _ _ K)) as (eb & SB & _).
  destruct (k_header _ _ _ K) as (hb2 & G1 & HD). assert (hb2 = hb).
  { apply get_ok in G1. destruct G1 as (r & N & F). rewrite N1 in N. assert (ER : r = enc (VBytes hb)) by congruence. subst r. rewrite from_slice_enc in F by exact VB. cbn in F. congruence. } subst hb2.
  unfold check_owner, voucher_from_parts. rewrite SB, EH, EM, HD. cbn [map_err bind].
  set (v2 := Voucher _ _ _ _ _ _).
  assert (V2 : verify_entries c chk v2 = Ok (ps ++ [q])).
  { rewrite <- VE, !verify_walk. apply walk_ext; intros t; [|reflexivity]. unfold hdr_hash. rewrite G1. unfold v2 at 1. cbn [ov_contents].
    assert (GB : get (from_slice as_bytebuf) (PA None [enc (VInt (Z.of_N V1_1)); enc (VBytes hb); enc (hash_val (ov_hmac v)); enc VNull; eb]) 1 = Ok hb) by (apply get_ok; exists (enc (VBytes hb)); split; [reflexivity|rewrite from_slice_enc by exact VB; reflexivity]).
    rewrite GB. cbn [bind]. unfold hmac_raw in HM. unfold get_raw. rewrite HM. reflexivity. }
  change (iter_last c chk v2 (iter_entries v2) (length (entries_raw v)) None) with (iter_last c chk v2 (iter_entries v2) (length (pa_items (ov_entries v2))) None).
  unfold verify_entries in V2. rewrite (collect_last _ _ _ _ _ None _ V2). rewrite rev_app_distr. cbn [rev app bind]. rewrite CG. cbn [bind]. rewrite CV. reflexivity.
Qed.
(** The whole exchange: entries, then the two signatures *)
Lemma get_and_verify_completes av v hb ps q tok ph to1d p' s : outputs_ok c -> sign_correct c -> issued c chk v -> header_raw v hb ->
  1 <= nlen (entries_raw v) <= 256 -> nlen (concat (entries_raw v)) < 9223372036854775000 -> verify_entries c chk v = Ok (ps ++ [q]) ->
  ph_header ph = hb -> ph_hmac ph = ov_hmac v -> ph_num ph = nlen (entries_raw v) ->
  cose_get_payload c (read_provehdr chk) tok (pk_key (p_key q)) = Ok p' -> cose_verify c to1d (pk_key (p_key q)) = Ok tt ->
  after_proof s -> serves_entries chk av wo (s_url s) v (s_hist s) ->
  exists s' l, get_and_verify A c chk avail wo tok ph to1d s = (s', Ok p') /\ s_hist s' = s_hist s ++ l /\ Forall (asks_entry (s_url s)) l /\ nlen l = nlen (entries_raw v) /\
    s_url s' = s_url s /\ hc_keys (s_hc s') = unencrypted /\ hc_last (s_hc s') = Some TO2OVNextEntry /\ hc_token (s_hc s') = hc_token (s_hc s) /\
    hc_kdf (s_hc s') = Some (match hc_kdf (s_hc s) with Some x => x | None => negb av end).
Proof.
  intros HO HS I HB LE SZ VE EH EM EN CG CV [AK AL] SE. destruct (issued_rewrites _ _ _ HO HS I) as (RW & _).
  pose proof (k_entries _ _ _ (made_kept _ _ _ HO HS (issued_made _ _ _ I))) as IT.
  destruct (entries_get av v (s_url s) (s_hist s) RW IT SZ SE (length (entries_raw v)) 0 [] s []) as (s1 & l1 & G & H1 & F1 & N1 & U1 & K1 & L1 & D1 & T1); auto;
    try (rewrite app_nil_r; reflexivity); try (cbn; lia); try (unfold nlen in LE; lia).
  exists s1, l1. split.
  - unfold get_and_verify, dbind. rewrite EN. replace (N.to_nat (nlen (entries_raw v))) with (length (entries_raw v) + 0)%nat by (unfold nlen; lia). rewrite G.
    cbn [get_entries app N.to_nat skipn]. rewrite firstn_all. unfold ret, lift. rewrite (check_owner_accepts v hb ps q tok ph to1d p' HO HS I HB ltac:(lia) VE EH EM CG CV). reflexivity.
  - cbn [app] in H1, F1. split; [exact H1|]. split; [exact F1|]. split; [unfold nlen; lia|]. split; [exact U1|]. split; [exact K1|].
    destruct (length (entries_raw v)) eqn:LL; [unfold nlen in LE; lia|]. auto.
Qed.
(** Number 256 comes back as 0. *)
Lemma entry_256 av v es s i : Forall (rewrites chk) (entries_raw v) -> items (map_count chk) (entries_raw v) -> nlen (concat (entries_raw v)) < 9223372036854775000 ->
  serves_entries chk av wo (s_url s) v (s_hist s) -> after_proof s -> 256 < i -> i <= nlen (entries_raw v) ->
  exists s1, get_entries A chk avail wo 0 (N.to_nat i) es s = (s1, Err tt).
Proof.
  intros RW IT SZ SE [AK AL] L1 L2.
  destruct (entries_get av v (s_url s) (s_hist s) RW IT SZ SE 256 0 es s []) as (s1 & l1 & G & H1 & F1 & N1 & U1 & K1 & La1 & D1 & T1); auto;
    try (rewrite app_nil_r; reflexivity); try (unfold nlen in L2; lia).
  replace (N.to_nat i) with (256 + S (N.to_nat i - 257))%nat by lia. rewrite G.
  destruct (entries_raw v) as [|raw rs] eqn:ER; [cbn in L2; lia|]. rewrite <- ER in *.
  destruct (one_entry av v (s_url s) (s_hist s) 256 s1 l1 raw RW IT SZ SE) as (s2 & w & G2 & _); auto.
  { change (256 mod 256) with 0. rewrite ER. reflexivity. }
  exists s2. change (0 + N.of_nat 256) with 256. rewrite G2. reflexivity.
Qed.
End honest.
