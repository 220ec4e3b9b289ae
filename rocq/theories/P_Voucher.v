(** C04 (vouchers), C07-C13: ownership vouchers. *)
From Verif Require Import Base BaseFacts CborSpec CborModel CborProofs ValueModel ValueProofs
  TypesModel CryptoSpec TypesProofs VoucherModel VoucherSpec VoucherProofs VoucherProofs2 ToyCrypto.
From Coq Require Import ZifyBool ZifyNat ZifyN.
Local Open Scope N_scope.

(** * Concrete vouchers *)
Definition ex_key (k : N) : pubkey := Pubkey 10 1 [k] [k] None.
Definition ex_guid : bytes := [1;2;3;4;5;6;7;8;9;10;11;12;13;14;15;16].
Definition ex_rv : rv_info := [[(0, [246]); (5, [101; 97; 46; 98; 46; 99])]].
Definition ex_chain_hash : hash := Hash Sha384 [9; 9; 9].
Definition ex_header : header := header_new V1_1 ex_guid ex_rv [32; 112; 105; 32] (ex_key 7) (Some ex_chain_hash).
Definition ex_hmac : hash := Hash HmacSha384 [1; 2; 3; 4].
Definition ex_voucher : voucher :=
  match voucher_new ex_header ex_hmac (Some [[42; 43]; [43; 43]]) with Ok v => v | _ => Voucher (PA None []) 0 ex_header ex_hmac None (PA None []) end.
Definition ex_exts : list ext :=
  [Ext [7] None (ex_key 8) []; Ext [8] (Some [(5, [1; 2])]) (ex_key 9) [3]; Ext [9] None (ex_key 7) []].
Definition ex_extended : voucher := fst (extend_all toy true ex_voucher ex_exts).

Lemma ex_key_valid k : k < 256 -> pubkey_valid toy (ex_key k).
Proof. intros H. repeat split; repeat constructor; auto. Qed.
Lemma ex_header_ok : header_args_ok toy V1_1 ex_guid ex_rv [32; 112; 105; 32] (ex_key 7) ex_chain_hash.
Proof.
  unfold header_args_ok. repeat split; try (right; reflexivity); repeat constructor; cbn; try lia; repeat constructor; cbn; lia.
Qed.
Lemma ex_header_rt chk : header_rt toy chk ex_header.
Proof. apply header_new_rt; [exact ex_header_ok|]. vm_compute. reflexivity. Qed.
Lemma ex_made chk : made toy chk ex_voucher.
Proof.
  eapply made_new with (h := ex_header) (hmac := ex_hmac) (ch := [[42; 43]; [43; 43]]).
  - apply ex_header_rt.
  - split; repeat constructor; cbn; lia.
  - split; [reflexivity|]. repeat constructor; cbn; try lia.
  - vm_compute. reflexivity.
  - vm_compute. reflexivity.
Qed.
Lemma ex_exts_ok : Forall (ext_ok toy) ex_exts.
Proof. repeat constructor; cbn; try lia; repeat constructor; cbn; try lia; auto. Qed.

(** * C04: a four-element voucher is reported as a 1.0 voucher *)
Theorem C04_four_elements_are_v10 : forall c chk tag xs b rest,
  cbor_array tag xs b -> nlen xs = 4 ->
  voucher_read c chk (b ++ rest) = Err (FUnsupportedVersion V1_0) /\
  voucher_deserialize c chk (b ++ rest) = Err (FUnsupportedVersion V1_0).
Proof.
  intros c chk tag xs b rest H N.
  assert (E : parse_array chk (Some 5) (b ++ rest) = Err (EInvalidNumberOfElements 4 5)).
  { rewrite (parse_wrong_size chk tag xs b rest 5 H); [rewrite N; reflexivity|lia]. }
  unfold voucher_deserialize, voucher_read. rewrite E. auto.
Qed.

(** Whatever else the announced count is, the voucher is refused with that count. *)
Theorem C04_voucher_wrong_size : forall c chk tag xs b rest,
  cbor_array tag xs b -> nlen xs <> 5 -> nlen xs <> 4 ->
  voucher_read c chk (b ++ rest) = Err (FArray (EInvalidNumberOfElements (nlen xs) 5)).
Proof.
  intros c chk tag xs b rest H N5 N4. unfold voucher_read.
  rewrite (parse_wrong_size chk tag xs b rest 5 H N5).
  destruct (nlen xs) as [|[[?|?|]|[?|[?|?|]|]|]] eqn:E; cbn; try reflexivity; exfalso; apply N4; congruence.
Qed.

Example C04_voucher_inhabited : cbor_array None [[1]; [2]; [3]; [4]] [132; 1; 2; 3; 4] /\ nlen [[1]; [2]; [3]; [4]] = 4.
Proof.
  split; [|reflexivity]. change [132; 1; 2; 3; 4] with ([132] ++ concat [[1]; [2]; [3]; [4]]).
  constructor; [change [132] with [4 * 32 + 4]; constructor; cbn; lia|].
  repeat (constructor; [eapply item_int with (m := 0); [left; reflexivity|]; try (apply (head_short 0); lia)|]). constructor.
Qed.

(** * C07 *)

(** For every voucher the program made that verifies, and every list of extensions each signed with
    the key of the owner at that point, all extensions succeed and the result verifies: the old
    entries, then one entry per extension, naming the new owners and carrying the extra data in
    order. *)
Theorem C07_rightful_extensions_verify : forall c chk v ps l,
  outputs_ok c -> sign_correct c ->
  made c chk v -> fits_memory v -> tag_small (pa_tag (ov_entries v)) ->
  verify_entries c chk v = Ok ps ->
  (V1_1 <= ov_version v \/ Forall (fun x => x_extra x = None) l) ->
  Forall (ext_ok c) l -> Forall (fun x => c_alg c (c_pub c (x_sk x)) <> None) l ->
  rightful c (pk_key (owner_after v ps)) l ->
  nlen (entries_raw v) + nlen l <= 65535 -> nlen (concat (entries_raw v)) < 1152921504606846976 ->
  exists v' qs, extend_all c chk v l = (v', Ok tt) /\ verify_entries c chk v' = Ok (ps ++ qs) /\
    map p_key qs = map x_next l /\ map p_extra qs = map x_extra l /\
    ov_header v' = ov_header v /\ ov_hmac v' = ov_hmac v /\ ov_chain v' = ov_chain v.
Proof.
  intros c chk v ps l HO HS HM HF HT HV HX HE HA HR HN HC.
  destruct (extend_all_ok c chk HO HS l v ps) as (v' & qs & H); auto.
  - apply kept_sound; auto. apply made_kept; auto.
  - lia.
  - exists v', qs. tauto.
Qed.

(** The same for a new voucher: as many entries as extensions, starting from the manufacturer. *)
Theorem C07_new_voucher : forall c chk h hmac ch v l,
  outputs_ok c -> sign_correct c ->
  header_rt c chk h -> hash_small hmac -> chain_ok c ch ->
  voucher_new h hmac (Some ch) = Ok v -> fits_memory v ->
  Forall (ext_ok c) l -> Forall (fun x => c_alg c (c_pub c (x_sk x)) <> None) l ->
  rightful c (pk_key (hd_mfg h)) l -> nlen l <= 65535 ->
  exists v' ps, extend_all c chk v l = (v', Ok tt) /\ verify_entries c chk v' = Ok ps /\
    length ps = length l /\ map p_key ps = map x_next l /\ map p_extra ps = map x_extra l /\
    owner_after v' ps = last (map x_next l) (hd_mfg h).
Proof.
  intros c chk h hmac ch v l HO HS HH HM HC HV HF HE HA HR HN.
  assert (SH : ov_entries v = PA None [] /\ ov_header v = h /\ ov_version v = V1_1).
  { unfold voucher_new in HV. destruct (serialize_array (hd_contents h)); cbn [map_err bind] in HV; try discriminate.
    destruct (serialize_array (PA None [])); cbn [map_err bind] in HV; inversion HV; auto. }
  destruct SH as (SE & SH & SV).
  destruct (C07_rightful_extensions_verify c chk v [] l HO HS) as (v' & qs & EA & VE & MK & ME & EH & _); auto.
  - eapply made_new; eauto.
  - rewrite SE. exact I.
  - unfold verify_entries. rewrite SE. cbn [pa_items length iter_collect]. unfold iter_next. rewrite SE. reflexivity.
  - left. rewrite SV. lia.
  - unfold owner_after. cbn [map last]. rewrite SH. exact HR.
  - unfold entries_raw. rewrite SE. cbn [pa_items nlen length]. change (nlen (@nil bytes)) with 0. lia.
  - unfold entries_raw. rewrite SE. reflexivity.
  - exists v', qs. cbn [app] in VE. repeat split; auto.
    + apply (f_equal (@length pubkey)) in MK. rewrite !map_length in MK. exact MK.
    + unfold owner_after. rewrite MK, EH, SH. reflexivity.
Qed.

Example C07_inhabited :
  rightful toy (pk_key (hd_mfg ex_header)) ex_exts /\ Forall (ext_ok toy) ex_exts /\
  Forall (fun x => c_alg toy (c_pub toy (x_sk x)) <> None) ex_exts /\ made toy true ex_voucher /\ fits_memory ex_voucher /\
  snd (extend_all toy true ex_voucher ex_exts) = Ok tt /\
  (exists ps, verify_entries toy true ex_extended = Ok ps /\ length ps = 3%nat).
Proof.
  split; [cbn; auto|]. split; [exact ex_exts_ok|]. split; [repeat constructor; discriminate|].
  split; [apply ex_made|]. split; [vm_compute; reflexivity|]. split; [vm_compute; reflexivity|].
  destruct (verify_entries toy true ex_extended) as [ps| |] eqn:E; [|vm_compute in E; discriminate|vm_compute in E; discriminate].
  exists ps. split; [reflexivity|]. vm_compute in E. inversion E. reflexivity.
Qed.

(** * C08 *)

(** An error leaves the voucher as it was: for every voucher, key and argument. *)
Theorem C08_failed_extension_unchanged : forall c chk v sk extra next rnd v' e,
  extend c chk v sk extra next rnd = (v', Err e) -> v' = v.
Proof. exact extend_err. Qed.

(** On a voucher that verifies, only the current owner's key succeeds, and any other key is refused
    with NonOwnerKey. *)
Theorem C08_only_owner_extends : forall c chk v ps sk extra next rnd v',
  outputs_ok c -> sign_correct c -> made c chk v -> fits_memory v -> verify_entries c chk v = Ok ps ->
  extend c chk v sk extra next rnd = (v', Ok tt) -> c_pub c sk = pk_key (owner_after v ps).
Proof. intros c chk v ps sk extra next rnd v' HO HS HM HF B D. pose proof (made_coherent _ _ _ HO HS HM HF) as A. exact (extend_ok_owner c chk v sk extra next rnd v' ps A B D). Qed.

Theorem C08_other_keys_refused : forall c chk v ps sk extra next rnd,
  outputs_ok c -> sign_correct c -> made c chk v -> fits_memory v -> verify_entries c chk v = Ok ps ->
  c_pub c sk <> pk_key (owner_after v ps) -> (extra = None \/ V1_1 <= ov_version v) ->
  extend c chk v sk extra next rnd = (v, Err FNonOwnerKey).
Proof. intros c chk v ps sk extra next rnd HO HS HM HF B D E. pose proof (made_coherent _ _ _ HO HS HM HF) as A. exact (extend_nonowner c chk v sk extra next rnd ps A B D E). Qed.

Lemma unverified_eq {A} (rd : bytes -> outcome ferr A) e : cose_get_payload_unverified rd e = rd (cs_payload e).
Proof. reflexivity. Qed.
Lemma last_item {A} (l : list A) (x : A) : nth_error l (length l - 1) = Some x -> exists r, l = r ++ [x].
Proof.
  destruct l as [|y r] using rev_ind; [discriminate|]. clear IHr.
  rewrite app_length. cbn [length]. rewrite nth_error_app2 by lia.
  replace (length r + 1 - 1 - length r)%nat with 0%nat by lia. cbn. intros H; inversion H; subst. eauto.
Qed.

(** Even on vouchers that do not verify: success means the key is the one the last entry names (the
    manufacturer's when there is none). *)
Theorem C08_unverified_voucher : forall c chk v sk extra next rnd v',
  extend c chk v sk extra next rnd = (v', Ok tt) ->
  (entries_raw v = [] /\ pk_key (hd_mfg (ov_header v)) = c_pub c sk) \/
  (exists raws raw e p, entries_raw v = raws ++ [raw] /\ cose_deserialize chk raw = Ok e /\
     read_payload c (cs_payload e) = Ok p /\ pk_key (p_key p) = c_pub c sk).
Proof.
  intros c chk v sk extra next rnd v' H. destruct (extend_shape _ _ _ _ _ _ _ _ H) as (a & b & _ & _ & _ & _ & EC & _).
  unfold extend_check in EC. destruct (match extra with Some _ => ov_version v <? V1_1 | None => false end); [discriminate|].
  apply bind_ok in EC. destruct EC as (hi & _ & EC). apply bind_ok in EC. destruct EC as ([l o] & RE & EC).
  destruct (matches_pkey o (c_pub c sk)) eqn:M; cbn [negb] in EC; [|discriminate].
  unfold matches_pkey in M. apply bytes_eqb_spec in M. unfold entries_raw.
  destruct (pa_items (ov_entries v)) as [|r0 rs] eqn:ER.
  - left. split; [reflexivity|]. apply bind_ok in RE. destruct RE as (x & _ & RE). inversion RE; subst. exact M.
  - right. apply bind_ok in RE. destruct RE as (x & _ & RE). apply bind_ok in RE. destruct RE as (e & GE & RE).
    apply bind_ok in RE. destruct RE as (p & GP & RE). rewrite unverified_eq in GP. inversion RE; subst.
    apply get_ok in GE. destruct GE as (raw & N & D).
    rewrite <- ER in N. destruct (last_item _ _ N) as [r Er].
    exists r, raw, e, p. rewrite <- ER. split; [exact Er|]. split; [exact D|]. split; [exact GP|exact M].
Qed.

Example C08_inhabited :
  verify_entries toy true ex_extended <> Err FNonOwnerKey /\ (exists ps, verify_entries toy true ex_extended = Ok ps /\
    pk_key (owner_after ex_extended ps) = [7] /\
    snd (extend toy true ex_extended [7] None (ex_key 1) []) = Ok tt /\
    snd (extend toy true ex_extended [8] None (ex_key 1) []) = Err FNonOwnerKey).
Proof.
  split; [vm_compute; discriminate|].
  destruct (verify_entries toy true ex_extended) as [ps| |] eqn:E; [|vm_compute in E; discriminate|vm_compute in E; discriminate].
  exists ps. split; [reflexivity|]. vm_compute in E. inversion E. repeat split; vm_compute; reflexivity.
Qed.

(** * C09 *)

(** For every voucher as read: iteration yields [ps] without error exactly when the entries are an
    unbroken chain of custody from the manufacturer with contents [ps]. *)
Theorem C09_verified_iff_custody : forall c chk s v hb hm ps,
  voucher_deserialize c chk s = Ok v -> header_raw v hb -> hmac_raw v hm ->
  (verify_entries c chk v = Ok ps <->
   custody c chk (device_identity (ov_header v)) (hb ++ hm) (pk_key (hd_mfg (ov_header v))) (entries_raw v) ps).
Proof.
  intros c chk s v hb hm ps H HB HM. destruct (voucher_deserialize_ok _ _ _ _ H) as (_ & _ & C).
  apply verify_custody; auto.
Qed.

(** The same for vouchers made by the program, and the parts exist. *)
Theorem C09_made_vouchers : forall c chk v,
  outputs_ok c -> sign_correct c -> made c chk v -> fits_memory v ->
  exists hb hm, header_raw v hb /\ hmac_raw v hm /\ forall ps,
  (verify_entries c chk v = Ok ps <->
   custody c chk (device_identity (ov_header v)) (hb ++ hm) (pk_key (hd_mfg (ov_header v))) (entries_raw v) ps).
Proof.
  intros c chk v HO HS HM HF.
  pose proof (made_coherent _ _ _ HO HS HM HF) as C.
  destruct (coherent_raws _ _ _ C) as (hb & hm & HB & HR & _). exists hb, hm. split; [exact HB|]. split; [exact HR|].
  intros ps. apply verify_custody; auto.
Qed.

(** Read off one by one: entry [i] is signed by the key the entry before names (the manufacturer's
    for the first), carries the digest of the encoded entry before (of header and HMAC for the first)
    and of the device's identity. *)
Theorem C09_each_entry : forall c chk s v hb hm ps i p,
  voucher_deserialize c chk s = Ok v -> header_raw v hb -> hmac_raw v hm ->
  verify_entries c chk v = Ok ps -> nth_error ps i = Some p ->
  exists raw e key prev,
    nth_error (entries_raw v) i = Some raw /\ cose_deserialize chk raw = Ok e /\ read_payload c (cs_payload e) = Ok p /\
    signed_by c key e /\ digest_of c (p_prev p) prev /\ digest_of c (p_hdr p) (device_identity (ov_header v)) /\
    match i with
    | O => key = pk_key (hd_mfg (ov_header v)) /\ prev = hb ++ hm
    | S j => (exists q, nth_error ps j = Some q /\ key = pk_key (p_key q)) /\ nth_error (entries_raw v) j = Some prev
    end.
Proof.
  intros c chk s v hb hm ps i p H HB HM HV HI.
  apply (proj1 (C09_verified_iff_custody c chk s v hb hm ps H HB HM)) in HV. clear H HB HM.
  generalize dependent (pk_key (hd_mfg (ov_header v))). generalize dependent (hb ++ hm).
  generalize dependent (entries_raw v). revert i p HI.
  induction ps as [|q ps IH]; intros i p HI raws prev key HC; [destruct i; discriminate|].
  inversion HC as [|? ? raw e ? raws' ? D S R A B K]; subst.
  destruct i as [|i]; cbn [nth_error] in HI.
  - inversion HI; subst. exists raw, e, key, prev. repeat split; auto; apply A || apply B.
  - destruct (IH _ _ HI _ _ _ K) as (raw' & e' & key' & prev' & N & D' & R' & S' & A' & B' & M).
    exists raw', e', key', prev'. cbn [nth_error]. split; [exact N|]. split; [exact D'|]. split; [exact R'|]. split; [exact S'|].
    split; [exact A'|]. split; [exact B'|].
    destruct i as [|i].
    + destruct M as [-> ->]. split; [exists q; auto|reflexivity].
    + exact M.
Qed.

Definition ex_bytes : bytes := match voucher_serialize ex_extended with Ok b => b | _ => [] end.
Example C09_inhabited : voucher_deserialize toy true ex_bytes = Ok ex_extended /\
  (exists hb hm, header_raw ex_extended hb /\ hmac_raw ex_extended hm) /\ length (entries_raw ex_extended) = 3%nat.
Proof.
  assert (D : voucher_deserialize toy true ex_bytes = Ok ex_extended) by (vm_compute; reflexivity).
  split; [exact D|]. split; [|vm_compute; reflexivity].
  destruct (voucher_deserialize_ok _ _ _ _ D) as (_ & _ & C). destruct (coherent_raws _ _ _ C) as (hb & hm & HB & HM & _). eauto.
Qed.

(** * C10 *)

(** Full statement: two verifying vouchers ending in the same encoded entry agree in entries, header
    and HMAC, unless a hash collision is at hand. *)
Definition C10_statement : Prop := forall c chk s1 s2 v1 v2 ps1 ps2 r1 r2 x,
  voucher_deserialize c chk s1 = Ok v1 -> voucher_deserialize c chk s2 = Ok v2 ->
  verify_entries c chk v1 = Ok ps1 -> verify_entries c chk v2 = Ok ps2 ->
  entries_raw v1 = r1 ++ [x] -> entries_raw v2 = r2 ++ [x] ->
  collision c \/ (entries_raw v1 = entries_raw v2 /\ ov_header v1 = ov_header v2 /\ ov_hmac v1 = ov_hmac v2).

(** Proved: entries, their contents and headers agree (no assumption on the numbers of entries), and so does the
    concatenation of header bytes and HMAC; the HMACs agree if the header byte strings hold nothing
    behind the header.  Missing: the HMACs in general (refuted below). *)
Theorem C10_last_entry_commits_partial : forall c chk s1 s2 v1 v2 ps1 ps2 r1 r2 x,
  voucher_deserialize c chk s1 = Ok v1 -> voucher_deserialize c chk s2 = Ok v2 ->
  verify_entries c chk v1 = Ok ps1 -> verify_entries c chk v2 = Ok ps2 ->
  entries_raw v1 = r1 ++ [x] -> entries_raw v2 = r2 ++ [x] ->
  collision c \/
  (entries_raw v1 = entries_raw v2 /\ ps1 = ps2 /\ ov_header v1 = ov_header v2 /\
   (forall hb1 hm1 hb2 hm2, header_raw v1 hb1 -> hmac_raw v1 hm1 -> header_raw v2 hb2 -> hmac_raw v2 hm2 ->
      hb1 ++ hm1 = hb2 ++ hm2) /\
   (header_exact chk v1 -> header_exact chk v2 -> ov_hmac v1 = ov_hmac v2)).
Proof.
  intros c chk s1 s2 v1 v2 ps1 ps2 r1 r2 x D1 D2 V1 V2 E1 E2.
  destruct (voucher_deserialize_ok _ _ _ _ D1) as (_ & _ & C1). destruct (voucher_deserialize_ok _ _ _ _ D2) as (_ & _ & C2).
  destruct (commitment c chk v1 v2 ps1 ps2 x r1 r2 C1 C2 V1 V2 E1 E2) as [C|(-> & -> & EH & hb1 & hm1 & hb2 & hm2 & HB1 & HM1 & HB2 & HM2 & EQ & _)];
    [auto|right].
  split; [congruence|]. split; [reflexivity|]. split; [exact EH|]. split.
  - intros b1 m1 b2 m2 B1 M1 B2 M2. rewrite (raws_fun _ _ _ B1 HB1), (raws_fun _ _ _ B2 HB2).
    unfold hmac_raw in *. congruence.
  - intros X1 X2. destruct (X1 _ HB1) as [a1 P1]. destruct (X2 _ HB2) as [a2 P2].
    destruct (exact_split _ _ _ _ _ _ _ P1 P2 EQ) as [_ ->].
    pose proof (hmac_of_raw _ _ _ _ C1 HM1) as F1. pose proof (hmac_of_raw _ _ _ _ C2 HM2) as F2. congruence.
Qed.

(** The witness: the second voucher moves the front of the first one's HMAC item behind its header,
    so that what is left is another, shorter HMAC. *)
Definition alt_hmac : hash := Hash HmacSha256 [170; 187].
Definition alt_inner : bytes := enc (hash_val alt_hmac).
Definition big_hmac : hash := Hash HmacSha256 (1 :: alt_inner).
Definition alt_header_bytes : bytes := match header_serialize ex_header with Ok b => b | _ => [] end.
Definition alt_prefix : bytes := firstn (length (enc (hash_val big_hmac)) - length alt_inner) (enc (hash_val big_hmac)).
Definition alt_v1 : voucher :=
  match voucher_new ex_header big_hmac (Some [[42; 43]]) with
  | Ok v => fst (extend idc true v [7] None (ex_key 8) [])
  | _ => ex_voucher
  end.
Definition alt_b1 : bytes := match voucher_serialize alt_v1 with Ok b => b | _ => [] end.
Definition alt_b2 : bytes :=
  [133] ++ enc (VInt 101) ++ enc (VBytes (alt_header_bytes ++ alt_prefix)) ++ alt_inner ++ enc (x5chain_val [[42; 43]]) ++
  match serialize_array (ov_entries alt_v1) with Ok b => b | _ => [] end.

Theorem C10_hmac_refuted : ~ C10_statement.
Proof.
  intros H.
  destruct (voucher_deserialize idc true alt_b1) as [v1| |] eqn:D1; [|vm_compute in D1; discriminate|vm_compute in D1; discriminate].
  destruct (voucher_deserialize idc true alt_b2) as [v2| |] eqn:D2; [|vm_compute in D2; discriminate|vm_compute in D2; discriminate].
  destruct (verify_entries idc true v1) as [p1| |] eqn:V1;
    [|exfalso; vm_compute in D1; inversion D1; subst; vm_compute in V1; discriminate
     |exfalso; vm_compute in D1; inversion D1; subst; vm_compute in V1; discriminate].
  destruct (verify_entries idc true v2) as [p2| |] eqn:V2;
    [|exfalso; vm_compute in D2; inversion D2; subst; vm_compute in V2; discriminate
     |exfalso; vm_compute in D2; inversion D2; subst; vm_compute in V2; discriminate].
  destruct (H idc true _ _ v1 v2 p1 p2 [] [] (hd [] (entries_raw v1)) D1 D2 V1 V2) as [C|(_ & _ & E)].
  - vm_compute in D1. inversion D1; subst. reflexivity.
  - vm_compute in D1. inversion D1; subst. vm_compute in D2. inversion D2; subst. reflexivity.
  - exact (idc_no_collision C).
  - vm_compute in D1. inversion D1; subst. vm_compute in D2. inversion D2; subst. discriminate E.
Qed.

Example C10_inhabited : header_exact true ex_extended /\ entries_raw ex_extended <> [].
Proof.
  split; [|vm_compute; discriminate]. intros hb (raw & N & F). vm_compute in N. inversion N; subst.
  vm_compute in F. inversion F; subst. eexists. vm_compute. reflexivity.
Qed.

(** * C11 *)

(** In every sequence of calls of [next], after an error (or the end) every further call returns the end. *)
Theorem C11_stops_at_first_error : forall c chk v k i j e,
  nth_error (iter_calls c chk v (iter_entries v) k) i = Some (Some (Err e)) -> (i < j < k)%nat ->
  nth_error (iter_calls c chk v (iter_entries v) k) j = Some None.
Proof. intros. eapply iter_calls_stop; eauto. Qed.

Theorem C11_end_is_final : forall c chk v k i j,
  nth_error (iter_calls c chk v (iter_entries v) k) i = Some None -> (i < j < k)%nat ->
  nth_error (iter_calls c chk v (iter_entries v) k) j = Some None.
Proof. intros. eapply iter_calls_stop; eauto. Qed.

(** And a verifying voucher yields exactly its entries' contents, then the end. *)
Theorem C11_yields_all : forall c chk v ps,
  verify_entries c chk v = Ok ps ->
  iter_calls c chk v (iter_entries v) (S (length ps)) = map (fun p => Some (Ok p)) ps ++ [None].
Proof. intros c chk v ps H. eapply collect_calls. exact H. Qed.

(** A voucher whose second entry was replaced: one entry, one error, then nothing. *)
Definition ex_broken : voucher :=
  Voucher (ov_contents ex_extended) (ov_version ex_extended) (ov_header ex_extended) (ov_hmac ex_extended) (ov_chain ex_extended)
    (PA None match entries_raw ex_extended with a :: _ :: r => a :: a :: r | l => l end).
Example C11_inhabited :
  match iter_calls toy true ex_broken (iter_entries ex_broken) 4 with
  | [Some (Ok _); Some (Err _); None; None] => True
  | _ => False
  end.
Proof. vm_compute. exact I. Qed.

(** * C12 *)

(** Every voucher the program makes (with a device certificate chain) or loads is written and read
    back to the same voucher, from a stream that continues with any further bytes. *)
Theorem C12_store_then_load : forall c chk v,
  outputs_ok c -> sign_correct c -> made c chk v -> fits_memory v -> tag_small (pa_tag (ov_contents v)) ->
  exists b, voucher_serialize v = Ok b /\ voucher_deserialize c chk b = Ok v /\
    forall rest, voucher_read c chk (b ++ rest) = Ok (v, rest).
Proof.
  intros c chk v HO HS HM HF HT.
  destruct (store_load c chk v (made_kept _ _ _ HO HS HM) HF HT) as (b & S & R).
  exists b. split; [exact S|]. split; [|exact R].
  specialize (R []). rewrite app_nil_r in R. unfold voucher_deserialize. rewrite R. reflexivity.
Qed.

(** As text: the PEM form reads back, whether or not the caller says it is PEM. *)
Theorem C12_pem_round_trip : forall pm c chk v b,
  (forall tag d, pem_parse pm (pem_encode pm tag d) = Some (tag, d)) ->
  (forall tag d, exists t, pem_encode pm tag d = 45 :: 45 :: t) ->
  voucher_serialize v = Ok b -> voucher_deserialize c chk b = Ok v ->
  exists t, to_pem pm v = Ok t /\ from_pem pm c chk t = Ok v /\ from_pem_or_raw pm c chk t = Ok v.
Proof.
  intros pm c chk v b HP HD HS HL. unfold to_pem. rewrite HS. cbn [bind]. eexists. split; [reflexivity|].
  assert (F : from_pem pm c chk (pem_encode pm PEM_TAG b) = Ok v).
  { unfold from_pem. destruct (HD PEM_TAG b) as [t E]. rewrite HP. rewrite E. rewrite bytes_eqb_refl. exact HL. }
  split; [exact F|]. unfold from_pem_or_raw. destruct (HD PEM_TAG b) as [t E]. rewrite E in *. cbn. exact F.
Qed.

(** Raw vouchers are recognised as such: their first byte is never a dash. *)
Theorem C12_raw_or_pem : forall pm c chk v b,
  voucher_serialize v = Ok b -> voucher_deserialize c chk b = Ok v -> from_pem_or_raw pm c chk b = Ok v.
Proof.
  intros pm c chk v b HS HL.
  destruct b as [|b0 [|b1 b']]; [vm_compute in HL; discriminate| |].
  - exfalso. destruct (voucher_deserialize_ok _ _ _ _ HL) as (r & P & CO).
    pose proof (serialize_len (ov_contents v) [b0]) as L.
    unfold voucher_serialize in HS. destruct (serialize_array (ov_contents v)) eqn:SA; cbn [map_err] in HS; inversion HS; subst.
    specialize (L eq_refl). change (nlen [b0]) with 1 in L.
    apply coherent_ok in CO. destruct CO as (G0 & _ & G2 & _). apply get_ok in G0, G2.
    destruct G0 as (i0 & N0 & F0), G2 as (i2 & N2 & F2).
    assert (Z0 : i0 <> []) by (intros ->; vm_compute in F0; discriminate).
    assert (Z2 : i2 <> []) by (intros ->; vm_compute in F2; discriminate).
    destruct (pa_items (ov_contents v)) as [|x [|y [|z l]]]; try discriminate. cbn in N0, N2. inversion N0; inversion N2; subst.
    cbn [concat] in L. rewrite !nlen_app in L. destruct i0, i2; try congruence. unfold nlen in L. cbn [length] in L. lia.
  - unfold from_pem_or_raw. destruct (N.eqb_spec b0 45) as [->|].
    + exfalso. destruct (voucher_deserialize_ok _ _ _ _ HL) as (r & P & _). cbn in P. discriminate.
    + rewrite andb_false_r. exact HL.
Qed.

(** Several vouchers written one after another are read back one by one. *)
Theorem C12_many_vouchers : forall c chk vs bs,
  outputs_ok c -> sign_correct c ->
  Forall2 (fun v b => made c chk v /\ fits_memory v /\ tag_small (pa_tag (ov_contents v)) /\ voucher_serialize v = Ok b) vs bs ->
  voucher_read_many c chk (concat bs) = Ok vs.
Proof.
  intros c chk vs bs HO HS H. unfold voucher_read_many.
  assert (K : forall fuel, (length bs <= fuel)%nat -> many_loop (voucher_read c chk) is_nodata_f fuel (concat bs) = Ok vs).
  { induction H as [|v b vs bs (HM & HF & HT & HB) _ IH]; intros fuel Hf.
    - destruct fuel; reflexivity.
    - cbn [length] in Hf. destruct fuel as [|fuel]; [lia|]. cbn [concat many_loop].
      destruct (C12_store_then_load c chk v HO HS HM HF HT) as (b' & S & _ & R). rewrite HB in S. inversion S; subst b'.
      rewrite R. rewrite IH by lia. reflexivity. }
  apply K.
  assert (L : (length bs <= length (concat bs))%nat).
  { clear K. induction H as [|v b vs bs (HM & HF & HT & HB) _ IH]; [reflexivity|]. cbn [concat length]. rewrite app_length.
    assert (b <> []).
    { intros ->. destruct (C12_store_then_load c chk v HO HS HM HF HT) as (b' & S & R & _). rewrite HB in S. inversion S; subst b'.
      vm_compute in R. discriminate. }
    destruct b; [congruence|]. cbn [length]. lia. }
  lia.
Qed.

(** The headers the manufacturer makes are of the kind meant. *)
Theorem C12_new_headers_read_back : forall c chk version guid rv devinfo mfg ch,
  header_args_ok c version guid rv devinfo mfg ch ->
  nlen (concat (pa_items (hd_contents (header_new version guid rv devinfo mfg (Some ch))))) < 9223372036854775802 ->
  header_rt c chk (header_new version guid rv devinfo mfg (Some ch)).
Proof. intros. apply header_new_rt; auto. Qed.

(** Without a certificate chain, or without its hash in the header, what is written cannot be read. *)
Example C12_no_chain_unreadable :
  match voucher_new ex_header ex_hmac None with
  | Ok v => match voucher_serialize v with Ok b => voucher_deserialize toy true b = Err (FArray (EUnsupportedMajorType 7)) | _ => False end
  | _ => False
  end.
Proof. vm_compute. reflexivity. Qed.
Example C12_no_chain_hash_unreadable :
  match voucher_new (header_new V1_1 ex_guid ex_rv [112; 105] (ex_key 7) None) ex_hmac (Some [[42; 43]]) with
  | Ok v => match voucher_serialize v with Ok b => voucher_deserialize toy true b = Err (FArray (EUnsupportedMajorType 7)) | _ => False end
  | _ => False
  end.
Proof. vm_compute. reflexivity. Qed.
Example C12_one_byte_panics : forall pm b, from_pem_or_raw pm toy true [b] = Panic P_INDEX.
Proof. reflexivity. Qed.
Example C12_inhabited : made toy true ex_extended /\ fits_memory ex_extended /\ tag_small (pa_tag (ov_contents ex_extended)).
Proof.
  split; [|split; [vm_compute; reflexivity|exact I]].
  assert (E : exists v1 v2, extend toy true ex_voucher [7] None (ex_key 8) [] = (v1, Ok tt) /\
     extend toy true v1 [8] (Some [(5, [1; 2])]) (ex_key 9) [3] = (v2, Ok tt) /\
     extend toy true v2 [9] None (ex_key 7) [] = (ex_extended, Ok tt)).
  { eexists. eexists. split; [vm_compute; reflexivity|]. split; [vm_compute; reflexivity|]. vm_compute. reflexivity. }
  destruct E as (v1 & v2 & E1 & E2 & E3). pose proof ex_exts_ok as X. inversion X as [|? ? X1 X']; subst.
  inversion X' as [|? ? X2 X'']; subst. inversion X'' as [|? ? X3 _]; subst.
  eapply made_extended; [|exact X3|exact E3]. eapply made_extended; [|exact X2|exact E2].
  eapply made_extended; [|exact X1|exact E1]. apply ex_made.
Qed.

(** * C13 *)
Definition printable (s : str) : Prop := Forall (fun ch => 32 <= ch <= 126) s.
Definition C13_statement : Prop := forall c chk s h, header_deserialize c chk s = Ok h -> printable (hd_devinfo h).

(** Proved: every character's code is printable modulo 256; so headers whose device info stays below
    U+0100 are right.  Missing: larger code points, which are cut to their low byte by the check. *)
Theorem C13_low_bytes_printable_partial : forall c chk s h,
  header_deserialize c chk s = Ok h ->
  Forall (fun ch => 32 <= ch mod 256 <= 126) (hd_devinfo h) /\
  (Forall (fun ch => ch < 256) (hd_devinfo h) -> printable (hd_devinfo h)).
Proof.
  intros c chk s h H. apply header_deserialize_ok in H. destruct H as (_ & _ & _ & _ & _ & H & _).
  unfold check_device_info in H. destruct (forallb _ (hd_devinfo h)) eqn:F; [|discriminate].
  rewrite forallb_forall in F.
  assert (A : Forall (fun ch => 32 <= ch mod 256 <= 126) (hd_devinfo h)).
  { apply Forall_forall. intros x Hx. apply F in Hx. lia. }
  split; [exact A|]. intros B. unfold printable. rewrite Forall_forall in *. intros x Hx.
  specialize (A _ Hx). specialize (B _ Hx). rewrite N.mod_small in A by lia. exact A.
Qed.

(** Written headers passed the same check. *)
Theorem C13_written_headers_partial : forall h b, header_serialize h = Ok b ->
  Forall (fun ch => 32 <= ch mod 256 <= 126) (hd_devinfo h).
Proof.
  intros h b H. unfold header_serialize in H. destruct (check_device_info (hd_devinfo h)) eqn:C; cbn [bind] in H; try discriminate.
  unfold check_device_info in C. destruct (forallb _ (hd_devinfo h)) eqn:F; [|discriminate].
  rewrite forallb_forall in F. apply Forall_forall. intros x Hx. apply F in Hx. lia.
Qed.

(** U+0141 passes as "A" (0x41). *)
Definition bad_header : header := header_new V1_1 ex_guid ex_rv [321] (ex_key 7) (Some ex_chain_hash).
Definition bad_bytes : bytes := match header_serialize bad_header with Ok b => b | _ => [] end.
Theorem C13_printable_refuted : ~ C13_statement.
Proof.
  intros H.
  assert (D : header_deserialize toy true bad_bytes = Ok bad_header) by (vm_compute; reflexivity).
  pose proof (H toy true _ _ D) as P. assert (E : hd_devinfo bad_header = [321]) by (vm_compute; reflexivity).
  rewrite E in P. inversion P as [|? ? [_ B] _]; subst. vm_compute in B. apply B. reflexivity.
Qed.

(** And making a voucher does not check at all: a line break goes through (but cannot be read back). *)
Theorem C13_new_voucher_unchecked : exists h hmac ch v,
  voucher_new h hmac ch = Ok v /\ ~ printable (hd_devinfo (ov_header v)).
Proof.
  exists (header_new V1_1 ex_guid ex_rv [65; 10; 66] (ex_key 7) (Some ex_chain_hash)), ex_hmac, (Some [[42; 43]]).
  eexists. split; [vm_compute; reflexivity|]. intros H. inversion H as [|? ? _ H2]; subst. inversion H2 as [|? ? [A _] _]; subst.
  vm_compute in A. apply A. reflexivity.
Qed.
Example C13_inhabited : match header_serialize ex_header with Ok b => header_deserialize toy true b = Ok ex_header | _ => False end.
Proof. vm_compute. reflexivity. Qed.

Print Assumptions C04_four_elements_are_v10.
Print Assumptions C04_voucher_wrong_size.
Print Assumptions C07_rightful_extensions_verify.
Print Assumptions C07_new_voucher.
Print Assumptions C08_failed_extension_unchanged.
Print Assumptions C08_only_owner_extends.
Print Assumptions C08_other_keys_refused.
Print Assumptions C08_unverified_voucher.
Print Assumptions C09_verified_iff_custody.
Print Assumptions C09_made_vouchers.
Print Assumptions C09_each_entry.
Print Assumptions C10_last_entry_commits_partial.
Print Assumptions C10_hmac_refuted.
Print Assumptions C11_stops_at_first_error.
Print Assumptions C11_end_is_final.
Print Assumptions C11_yields_all.
Print Assumptions C12_store_then_load.
Print Assumptions C12_pem_round_trip.
Print Assumptions C12_raw_or_pem.
Print Assumptions C12_many_vouchers.
Print Assumptions C12_new_headers_read_back.
Print Assumptions C13_low_bytes_printable_partial.
Print Assumptions C13_written_headers_partial.
Print Assumptions C13_printable_refuted.
Print Assumptions C13_new_voucher_unchecked.
