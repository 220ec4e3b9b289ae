(** Proofs about the owner tool. *)
From Verif Require Import Base BaseFacts CborModel CborSpec CborProofs ValueModel ValueProofs Text Assoc RvSpec Hex TypesModel TypesProofs VoucherModel CryptoSpec CoseFacts VoucherSpec VoucherProofs VoucherProofs2
  RvModel StoreModel StoreSpec MsgModel SessionModel RvServerModel RvServerSpec RvServerProofs OwnerModel MfgModel MfgSpec MfgProofs ClientModel ClientSpec MfgClientModel MfgClientSpec MfgClientProofs MfgClientProofs2 OtModel OtSpec.
From Coq Require Import ZifyBool ZifyNat ZifyN.
Local Open Scope N_scope.
Local Opaque dec_top from_slice.

(** * Files *)
Lemma get_append_eq n b d f : aget n d = Some f -> aget n (fs_append n b d) = Some (File (f_data f ++ b) (f_xattr f)).
Proof. intros H. unfold fs_append. rewrite H. apply aget_aset_eq. Qed.
Lemma get_append_ne n m b d : m <> n -> aget m (fs_append n b d) = aget m d.
Proof. intros H. unfold fs_append. destruct (aget n d); [apply aget_aset_ne; exact H|reflexivity]. Qed.
Lemma get_create_ne n m d : m <> n -> aget m (fs_create n d) = aget m d.
Proof. intros H. apply aget_aset_ne. exact H. Qed.
Lemma get_create_eq n d : exists x, aget n (fs_create n d) = Some (File [] x).
Proof. unfold fs_create. rewrite aget_aset_eq. eauto. Qed.
(** Writing a file: others stay; the file begins what is to be written. *)
Lemma cut_write n b d l d' : cut d (write_file n b ++ l) d' ->
  d' = d \/ (exists p q, b = p ++ q /\ (forall m, m <> n -> aget m d' = aget m d) /\ exists x, aget n d' = Some (File p x)) \/
  cut (fs_ops (write_file n b) d) l d'.
Proof.
  unfold write_file. cbn [app]. intros H. inversion H; subst; clear H; [left; reflexivity|]. cbn [fs_op] in H4. destruct (get_create_eq n d) as [x GX].
  inversion H4; subst; clear H4.
  - right. left. exists [], b. split; [reflexivity|]. split; [intros m N; apply get_create_ne; exact N|]. eauto.
  - right. left. exists written, rest. split; [reflexivity|]. split; [intros m N; rewrite get_append_ne by exact N; apply get_create_ne; exact N|].
    rewrite (get_append_eq _ _ _ _ GX). cbn [f_data app f_xattr]. eauto.
  - right. right. assumption.
Qed.
Lemma write_done n b d : (forall m, m <> n -> aget m (fs_ops (write_file n b) d) = aget m d) /\ exists x, aget n (fs_ops (write_file n b) d) = Some (File b x).
Proof.
  unfold write_file, fs_ops. cbn [fold_left fs_op]. destruct (get_create_eq n d) as [x GX]. split; [intros m N; rewrite get_append_ne by exact N; apply get_create_ne; exact N|].
  rewrite (get_append_eq _ _ _ _ GX). cbn [f_data app f_xattr]. eauto.
Qed.
Lemma fs_ops_app l1 l2 d : fs_ops (l1 ++ l2) d = fs_ops l2 (fs_ops l1 d).
Proof. apply fold_left_app. Qed.
Lemma cut_all l d : cut d l (fs_ops l d).
Proof. revert d. induction l as [|o l IH]; intros d; [constructor|]. constructor. apply IH. Qed.
Lemma get_rename_ne a b m d : m <> a -> m <> b -> aget m (fs_rename a b d) = aget m d.
Proof. intros A B. unfold fs_rename. destruct (aget a d); [|reflexivity]. rewrite aget_aset_ne by exact B. apply aget_adel_ne. exact A. Qed.
Lemma get_rename_to a b d f : aget a d = Some f -> aget b (fs_rename a b d) = Some f.
Proof. intros A. unfold fs_rename. rewrite A. apply aget_aset_eq. Qed.
Lemma new_name_ne p : new_name p <> p.
Proof. unfold new_name. intros H. apply (f_equal (@length N)) in H. rewrite app_length in H. cbn in H. lia. Qed.

(** Write beside and rename: the file is the old one or the new one. *)
Lemma cut_replace p n b d d' : n <> p -> cut d (write_file n b ++ [ORename n p]) d' ->
  (forall m, m <> p -> m <> n -> aget m d' = aget m d) /\ (aget p d' = aget p d \/ exists x, aget p d' = Some (File b x)).
Proof.
  intros N H. apply cut_write in H. destruct H as [->|[(q & r & _ & O & _)|H]].
  - auto.
  - split; [intros m _ M; apply O; exact M|]. left. apply O. auto.
  - destruct (write_done n b d) as [O [x W]]. inversion H; subst; clear H.
    + split; [intros m _ M; apply O; exact M|]. left. apply O. auto.
    + match goal with HC : cut _ [] _ |- _ => inversion HC; subst; clear HC end. cbn [fs_op]. split.
      * intros m M1 M2. rewrite get_rename_ne by auto. apply O. exact M2.
      * right. exists x. apply get_rename_to. exact W.
Qed.

(** * Vouchers *)
Lemma read_file pm c chk b v : pem_ok pm -> file_ok b -> from_pem_or_raw pm c chk b = Ok v -> exists s, bytes_ok s /\ nlen s <= nlen b /\ voucher_deserialize c chk s = Ok v.
Proof.
  intros (_ & _ & _ & PB) [B L] H. unfold from_pem_or_raw in H. destruct b as [|x [|y r]]; try discriminate.
  destruct ((x =? y) && (x =? 45)); [|exists (x :: y :: r); split; [exact B|]; split; [lia|exact H]].
  unfold from_pem in H. destruct (pem_parse pm (x :: y :: r)) as [[tag d]|] eqn:P; [|discriminate].
  destruct (negb (bytes_eqb tag PEM_TAG)); [discriminate|]. destruct (PB _ _ _ B P) as [B2 L2]. exists d. auto.
Qed.
Lemma loaded_fits c chk s v : bytes_ok s -> nlen s < 1152921504606846976 -> voucher_deserialize c chk s = Ok v -> kept c chk v /\ fits_memory v /\ nlen (concat (pa_items (ov_contents v))) <= nlen s.
Proof.
  intros B L D. split; [eapply loaded_kept; eassumption|]. destruct (voucher_deserialize_ok _ _ _ _ D) as (rest & P & _).
  assert (PD : parse_array_data chk (Some 5) s = Ok (ov_contents v)) by (unfold parse_array_data; rewrite P; reflexivity).
  destruct (array_facts chk 5 s _ B ltac:(lia) PD) as (_ & _ & _ & _ & _ & _ & _ & _ & LC). split; [unfold fits_memory; unfold bytes in *; lia|exact LC].
Qed.
Lemma list_set_in {A} : forall (l : list A) n x l', list_set l n x = Some l' -> nth_error l' n = Some x.
Proof.
  induction l as [|y l IH]; intros [|n] x l' H; cbn [list_set] in H; try discriminate.
  - inversion H; reflexivity.
  - destruct (list_set l n x) as [l2|] eqn:E; cbn [option_map] in H; inversion H; subst. cbn [nth_error]. eapply IH. exact E.
Qed.
(** A voucher that was extended and written out. *)
Lemma extended_written c chk v sk next rnd v' b : outputs_ok c -> sign_correct c -> kept c chk v -> fits_memory v ->
  pubkey_valid c next -> nlen (pk_data next) < 4294967296 ->
  extend c chk v sk None next rnd = (v', Ok tt) -> voucher_serialize v' = Ok b -> nlen b < 1152921504606846976 ->
  voucher_deserialize c chk b = Ok v' /\ handed_on c chk sk next v v'.
Proof.
  intros HO HS K F PV PL EX SV BL.
  set (x := Ext sk None next rnd). assert (XO : ext_ok c x) by (split; [exact PV|]; split; [exact PL|exact Logic.I]).
  assert (K' : kept c chk v') by (eapply (extended_kept c chk v v' x); auto).
  unfold voucher_serialize in SV. destruct (serialize_array (ov_contents v')) as [b'| |] eqn:SA; cbn [map_err] in SV; inversion SV; subst b'.
  destruct (serialize_ok_small _ _ SA) as [TS _]. pose proof (serialize_len _ _ SA) as SL.
  assert (F' : fits_memory v') by (unfold fits_memory; unfold bytes in *; lia).
  destruct (store_load c chk v' K' F' TS) as (b2 & S2 & R2). unfold voucher_serialize in S2. rewrite SA in S2. inversion S2; subst b2.
  split. { specialize (R2 []). rewrite app_nil_r in R2. unfold voucher_deserialize. rewrite R2. reflexivity. }
  destruct (extend_shape _ _ _ _ _ _ _ _ EX) as (a1 & b1 & e & raw & eb & l' & EC & CN & CS & SE & LS & ->). cbn [ov_contents pa_items] in *.
  assert (IE : In eb l') by (eapply nth_error_In; eapply list_set_in; exact LS).
  pose proof (nlen_concat_in _ _ IE) as NE. pose proof (serialize_len _ _ SE) as SEL. destruct (serialize_ok_small _ _ SE) as [ET EN]. cbn [pa_tag pa_items] in ET, EN, SEL.
  split; [reflexivity|]. split; [reflexivity|]. split; [reflexivity|]. split; [reflexivity|]. split; [exists raw; reflexivity|].
  intros ps VE. assert (SV0 : sound_voucher c chk v) by (apply kept_sound; [exact K|exact F|exact ET]).
  assert (CO : coherent c chk v) by apply SV0. pose proof (extend_ok_owner c chk v sk None next rnd _ ps CO VE EX) as OW. split; [exact OW|].
  destruct (cose_new_alg _ _ _ _ _ _ _ CN) as [alg AL].
  rewrite concat_app, nlen_app in SEL. rewrite nlen_app in EN.
  destruct (extend_step c chk v ps x HO HS SV0 VE (or_introl eq_refl) XO OW) as (v2 & p & raw2 & EX' & VE' & PK & PX & _).
  { cbn [x_sk x]. rewrite AL. discriminate. }
  { unfold entries_raw, nlen in *. cbn [length] in EN. lia. }
  { unfold entries_raw. unfold bytes in *. lia. }
  cbn [x_sk x_extra x_next x_rnd x] in EX', PX, PK. rewrite EX in EX'. inversion EX'; subst v2. exists p. auto.
Qed.

(** A certificate's key makes a usable public key. *)
Lemma of_cert c kf cert mk : keyfns_ok c kf -> pubkey_of_cert c (kf_type kf) (kf_der kf) cert = Ok mk ->
  c_cert_key c cert = Some (pk_key mk) /\ pubkey_valid c mk /\ nlen (pk_data mk) <= 1048576.
Proof.
  intros HK PC. unfold pubkey_of_cert in PC. destruct (c_cert_key c cert) as [k|] eqn:CK; cbn [of_option bind] in PC; [|discriminate].
  destruct (kf_type kf k) as [t|] eqn:KT; cbn [of_option bind] in PC; [|discriminate]. inversion PC; subst mk. clear PC.
  destruct (HK _ _ CK) as (K1 & K2 & K3 & K4). specialize (K1 _ KT). split; [reflexivity|]. split; [|exact K3].
  split; [exact K1|]. split; [reflexivity|]. split; [exact K2|]. cbn [pk_type pk_enc pk_data]. unfold pubkey_new, parse_key.
  change (ENC_X509 =? ENC_X509) with true. cbn [negb andb orb]. rewrite K4. reflexivity.
Qed.
Lemma plain_ok {E A} (x : outcome E A) a : plain_err x = Ok a -> x = Ok a.
Proof. destruct x; intros H; inversion H; reflexivity. Qed.
Lemma of_option_ok {E A} (e : E) (o : option A) a : of_option e o = Ok a -> o = Some a.
Proof. destruct o; intros H; inversion H; reflexivity. Qed.
Lemma read_path_ok d p b : read_path d p = Ok b -> exists f, aget p d = Some f /\ f_data f = b.
Proof. unfold read_path. destruct (aget p d) as [f|]; intros H; inversion H; eauto. Qed.
Lemma pem_reads pm c chk v t b : pem_ok pm -> to_pem pm v = Ok t -> voucher_serialize v = Ok b -> voucher_deserialize c chk b = Ok v -> from_pem_or_raw pm c chk t = Ok v.
Proof.
  intros (HP & HD & _) T S D. unfold to_pem in T. rewrite S in T. cbn [bind] in T. inversion T; subst t. clear T. destruct (HD PEM_TAG b) as [t E].
  assert (F : from_pem pm c chk (pem_encode pm PEM_TAG b) = Ok v). { unfold from_pem. rewrite HP. rewrite E. rewrite bytes_eqb_refl. exact D. }
  unfold from_pem_or_raw. rewrite E in *. cbn. exact F.
Qed.

Lemma extend_text_ok pm c chk kf rd d path keyfile certfile rnd t : outputs_ok c -> sign_correct c -> keyfns_ok c kf -> pem_ok pm -> files_ok d ->
  extend_text pm c chk kf rd d path keyfile certfile rnd = Ok t -> file_ok t ->
  exists v v' sk next, holds_voucher pm c chk d path v /\ holds_key rd d keyfile sk /\ names_owner c rd d certfile next /\ from_pem_or_raw pm c chk t = Ok v' /\ handed_on c chk sk next v v'.
Proof.
  intros HO HS HK HP HF H HT. unfold extend_text in H. apply bind_ok in H. destruct H as (raw & R & H). apply bind_ok in H. destruct H as (v & V & H). apply plain_ok in V.
  destruct (negb (hd_version (ov_header v) =? V1_1)); [discriminate|]. apply bind_ok in H. destruct H as (sk & SK & H). apply bind_ok in H. destruct H as (cert & CT & H).
  apply bind_ok in H. destruct H as (next & NX & H). apply plain_ok in NX.
  destruct (extend c chk v sk None next rnd) as [v' [[]| |]] eqn:EX; try discriminate. apply plain_ok in H.
  apply read_path_ok in R. destruct R as (f & AF & FD). rewrite <- FD in V.
  destruct (read_file pm c chk _ _ HP (HF _ _ AF) V) as (s & BS & LS & DV). destruct (HF _ _ AF) as [_ LF].
  destruct (loaded_fits c chk s v BS ltac:(lia) DV) as (K & FM & _). destruct (of_cert _ _ _ _ HK NX) as (CK & NV & NL).
  assert (T0 := H). unfold to_pem in T0. destruct (voucher_serialize v') as [b| |] eqn:SV; cbn [bind] in T0; try discriminate. inversion T0; subst t. clear T0.
  assert (BL : nlen b < 1152921504606846976). { destruct HP as (_ & _ & PL & _). specialize (PL PEM_TAG b). destruct HT as [_ HT]. lia. }
  destruct (extended_written c chk v sk next rnd v' b HO HS K FM NV ltac:(lia) EX SV BL) as [DV' HD]. exists v, v', sk, next.
  split; [exists f; auto|].
  split. { unfold load_private_key in SK. apply bind_ok in SK. destruct SK as (kb & RK & SK). apply of_option_ok in SK. apply read_path_ok in RK. destruct RK as (fk & AK & <-). exists fk. auto. }
  split. { unfold load_x509 in CT. apply bind_ok in CT. destruct CT as (cb & RC & CT). apply of_option_ok in CT. apply read_path_ok in RC. destruct RC as (fc & AC & <-). exists fc, cert. auto. }
  split; [|exact HD]. eapply pem_reads; eassumption.
Qed.

(** The owner can always extend. *)
Lemma owner_extends pm c chk kf rd d path keyfile certfile rnd v ps sk next : outputs_ok c -> sign_correct c -> keyfns_ok c kf -> pem_ok pm -> files_ok d ->
  holds_voucher pm c chk d path v -> hd_version (ov_header v) = V1_1 -> verify_entries c chk v = Ok ps -> nlen (entries_raw v) < 65535 ->
  tag_small (pa_tag (ov_contents v)) -> tag_small (pa_tag (ov_entries v)) ->
  holds_key rd d keyfile sk -> c_pub c sk = pk_key (owner_after v ps) -> c_alg c (c_pub c sk) <> None ->
  (exists cert, load_x509 rd d certfile = Ok cert /\ pubkey_of_cert c (kf_type kf) (kf_der kf) cert = Ok next) ->
  exists v' b, extend_text pm c chk kf rd d path keyfile certfile rnd = Ok (pem_encode pm PEM_TAG b) /\ voucher_serialize v' = Ok b /\
    from_pem_or_raw pm c chk (pem_encode pm PEM_TAG b) = Ok v' /\ handed_on c chk sk next v v'.
Proof.
  intros HO HS HK HP HF (f & AF & FV) VV VE NE TC TE (fk & AK & RK) OW AL (cert & LC & PK).
  destruct (read_file pm c chk _ _ HP (HF _ _ AF) FV) as (s & BS & LS & DV). destruct (HF _ _ AF) as [_ LF].
  destruct (loaded_fits c chk s v BS ltac:(lia) DV) as (K & FM & CL). destruct (of_cert _ _ _ _ HK PK) as (CK & NV & NL).
  assert (SV0 : sound_voucher c chk v) by (apply kept_sound; auto). set (x := Ext sk None next rnd).
  assert (XO : ext_ok c x) by (split; [exact NV|]; split; [cbn [x_next x]; lia|exact Logic.I]).
  assert (CE : nlen (concat (entries_raw v)) < 1152921504606846976).
  { assert (E4 : exists i4, nth_error (pa_items (ov_contents v)) 4 = Some i4) by (destruct K as [KL _ _ _ _ _ _ _]; destruct (pa_items (ov_contents v)) as [|? [|? [|? [|? [|i4 ?]]]]]; try discriminate KL; eexists; reflexivity).
    destruct E4 as [i4 E4]. pose proof (nlen_concat_in _ _ (nth_error_In _ _ E4)) as L4. destruct K as [_ KI _ _ _ _ _ KR]. 
    assert (B4 : bytes_ok i4).
    { destruct (voucher_deserialize_ok _ _ _ _ DV) as (rest & P & _).
      assert (PD : parse_array_data chk (Some 5) s = Ok (ov_contents v)) by (unfold parse_array_data; rewrite P; reflexivity).
      destruct (array_facts chk 5 s _ BS ltac:(lia) PD) as (_ & _ & _ & _ & _ & _ & IO & _ & _). rewrite Forall_forall in IO. apply IO. eapply nth_error_In. exact E4. }
    unfold bytes in *. specialize (KR _ E4 ltac:(unfold two63; lia)). unfold parse_array_data in KR. destruct (parse_array chk None i4) as [[es r4]| |] eqn:P4; cbn [bind] in KR; try discriminate. inversion KR; subst es.
    destruct (parse_sound chk None i4 _ r4 ltac:(discriminate) B4 P4) as (h & -> & T & _). clear -T L4 CL LS LF. unfold entries_raw.
    rewrite nlen_app in L4. pose proof (top_array_tag_bytes _ _ _ _ T). unfold bytes in *. lia. }
  destruct (extend_step c chk v ps x HO HS SV0 VE (or_introl eq_refl) XO OW AL NE ltac:(lia)) as (v' & p & raw & EX & VE' & PK' & PX & SV' & EV & EH & EM & ECH & ET & ER & _ & _ & RL & N4 & b4 & B4 & S4).
  cbn [x_sk x_extra x_next x_rnd x] in EX.
  assert (K' : kept c chk v') by (eapply (extended_kept c chk v v' x); auto).
  assert (SZ : nlen (concat (pa_items (ov_contents v'))) < 4611686018427387904).
  { pose proof (serialize_len _ _ S4) as SL. change (pa_items (ov_entries v')) with (entries_raw v') in SL. rewrite ER, concat_app, nlen_app in SL. cbn [concat] in SL. rewrite app_nil_r in SL.
    destruct K as [KL _ _ _ _ _ _ _], K' as [KL' _ _ _ _ _ _ _].
    pose proof (N4 0%nat ltac:(lia)) as E0. pose proof (N4 1%nat ltac:(lia)) as E1. pose proof (N4 2%nat ltac:(lia)) as E2. pose proof (N4 3%nat ltac:(lia)) as E3. clear -KL KL' E0 E1 E2 E3 B4 SL CL CE LS LF RL.
    destruct (pa_items (ov_contents v)) as [|? [|? [|? [|? [|? [|? ?]]]]]]; try discriminate KL. destruct (pa_items (ov_contents v')) as [|? [|? [|? [|? [|? [|? ?]]]]]]; try discriminate KL'.
    cbn [nth_error] in *. inversion E0; inversion E1; inversion E2; inversion E3; inversion B4; subst. cbn [concat] in *. rewrite !nlen_app in *. unfold bytes in *. lia. }
  destruct (store_load c chk v' K' ltac:(unfold fits_memory; lia) ltac:(rewrite ET; exact TC)) as (b & S2 & R2).
  assert (DV' : voucher_deserialize c chk b = Ok v') by (specialize (R2 []); rewrite app_nil_r in R2; unfold voucher_deserialize; rewrite R2; reflexivity).
  assert (TP : to_pem pm v' = Ok (pem_encode pm PEM_TAG b)) by (unfold to_pem; rewrite S2; reflexivity).
  exists v', b. split.
  { unfold extend_text, read_path. rewrite AF. cbn [bind]. rewrite FV. cbn [plain_err map_err bind]. rewrite VV. cbn [N.eqb]. rewrite N.eqb_refl. cbn [negb].
    unfold load_private_key, read_path. rewrite AK. cbn [bind]. rewrite RK. cbn [of_option bind]. rewrite LC. cbn [bind]. rewrite PK. cbn [map_err plain_err bind]. rewrite EX, TP. reflexivity. }
  split; [exact S2|]. split; [eapply pem_reads; eassumption|].
  split; [exact EV|]. split; [exact EH|]. split; [exact EM|]. split; [exact ECH|]. split; [exists raw; exact ER|].
  intros ps' VE2. rewrite VE in VE2. inversion VE2; subst ps'. split; [exact OW|]. exists p. auto.
Qed.

(** * Initialising a device *)
Lemma header_made c chk guid rv info mk d hb : outputs_ok c -> pubkey_valid c mk -> nlen (pk_data mk) <= 1048576 -> rv_ok rv -> nlen (enc (rv_info_val rv)) < 4294967296 -> bytes_ok guid -> nlen guid = 16 -> id_ok info ->
  header_serialize (header_new V1_1 guid rv info mk (Some (Hash Sha384 (c_hash c Sha384 d)))) = Ok hb ->
  header_deserialize c chk hb = Ok (header_new V1_1 guid rv info mk (Some (Hash Sha384 (c_hash c Sha384 d)))) /\ bytes_ok hb /\ nlen hb < 17179869184.
Proof.
  intros HO MV ML CR CS BG LG (SC & LI) SB. pose proof HO as (OH & _). set (hs := Hash Sha384 (c_hash c Sha384 d)) in *.
  destruct (OH Sha384 d) as [OB OL].
  assert (HS : hash_small hs) by (split; [exact OB|cbn [h_value hs]; lia]).
  assert (CD : check_device_info (trim info) = Ok tt).
  { unfold header_serialize in SB. cbn [hd_devinfo header_new] in SB. destruct (check_device_info (trim info)) as [[]| |]; [reflexivity|discriminate|discriminate]. }
  assert (TL : nlen (utf8_enc (trim info)) <= 524288).
  { pose proof (utf8_enc_le (trim info)). pose proof (trim_len info). pose proof (utf8_dec_len _ _ (utf8_roundtrip _ SC)). lia. }
  assert (SZ : nlen (concat (pa_items (hd_contents (header_new V1_1 guid rv info mk (Some hs))))) < 17179869000).
  { unfold header_new. cbn [hd_contents pa_items concat option_val]. rewrite !nlen_app. pose proof (enc_int_nlen (Z.of_N V1_1)).
    pose proof (enc_bytes_nlen guid). unfold bstr_val.
    assert (nlen (enc (text_val (trim info))) <= 9 + 524288).
    { unfold text_val. cbn [enc]. rewrite nlen_app. pose proof (enc_head_nlen 3 (nlen (utf8_enc (trim info)))). lia. }
    assert (nlen (enc (pubkey_val mk)) <= 36 + 1048576).
    { unfold pubkey_val. cbn [enc map concat]. rewrite !nlen_app. pose proof (enc_head_nlen 4 (nlen [VInt (Z.of_N (pk_type mk)); VInt (Z.of_N (pk_enc mk)); VBytes (pk_data mk)])).
      pose proof (enc_int_nlen (Z.of_N (pk_type mk))). pose proof (enc_int_nlen (Z.of_N (pk_enc mk))). pose proof (enc_bytes_nlen (pk_data mk)). cbn [enc] in *. rewrite ?nlen_app in *.
      change (nlen (@nil N)) with 0. lia. }
    assert (nlen (enc (hash_val hs)) <= 36 + 1024).
    { unfold hash_val. cbn [enc map concat]. rewrite !nlen_app.
      match goal with |- context [enc_head 4 ?n] => pose proof (enc_head_nlen 4 n) end.
      match goal with |- context [enc_int ?z] => pose proof (enc_int_nlen z) end. pose proof (enc_bytes_nlen (h_value hs)). cbn [enc] in *. rewrite ?nlen_app in *.
      change (nlen (@nil N)) with 0. cbn [h_value hs] in *. lia. }
    change (nlen (@nil N)) with 0. lia. }
  destruct (header_new_back c chk V1_1 guid rv info mk hs) as (hb' & S1 & S2 & S3); auto; try lia.
  { apply trim_scalar. exact SC. }
  rewrite SB in S1. inversion S1; subst hb'. split; [exact S2|]. split; [exact S3|].
  unfold header_serialize in SB. cbn [hd_devinfo header_new] in SB. rewrite CD in SB. cbn [bind] in SB.
  destruct (serialize_array _) as [b| |] eqn:SA; cbn [map_err] in SB; inversion SB; subst b. pose proof (serialize_len _ _ SA). unfold bytes in *. lia.
Qed.

(** The two files *)
Lemma init_made pm c chk mkcert a dr mfg ca_sk ca rv ov dcb : outputs_ok c -> hmac_bytes c -> certifies c mkcert -> pem_ok pm ->
  pubkey_valid c mfg -> nlen (pk_data mfg) <= 1048576 -> chain_ok c ca -> nlen ca < 4294967295 -> nlen (enc (x5chain_val ca)) < 4294967296 -> rv_ok rv -> nlen (enc (rv_info_val rv)) < 4294967296 ->
  id_ok (ia_id a) -> draws_ok dr ->
  init_files pm c mkcert a dr mfg ca_sk ca rv = Ok (ov, dcb) ->
  exists v dc, from_pem_or_raw pm c chk ov = Ok v /\ from_slice as_cred dcb = Ok (ia_id a, dc) /\ belong_together c chk v (ia_id a) dc /\
    hd_version (ov_header v) = V1_1 /\ hd_guid (ov_header v) = dr_guid dr /\ hd_rv (ov_header v) = rv /\ pk_key (hd_mfg (ov_header v)) = pk_key mfg /\ dc_keys dc = Plain (dr_secret dr) (dr_sk dr) /\
    pa_tag (ov_contents v) = None /\ pa_tag (ov_entries v) = None.
Proof.
  intros HO HB HC HP MV ML CO CN CZ RO RZ IO (K1 & K2 & BG & LG) H. unfold init_files in H. destruct ca as [|signer rest] eqn:ECA; [discriminate|]. rewrite <- ECA in *.
  destruct (mkcert signer ca_sk (ia_id a) (c_pub c (dr_sk dr)) (dr_cert dr)) as [leaf|] eqn:MK; cbn [of_option bind] in H; [|discriminate]. apply plain_ok in H.
  destruct (HC _ _ _ _ _ _ MK) as (LK & LD & LB & LL).
  apply bind_ok in H. destruct H as (chh & CH & H). apply hash_from_data_ok in CH. destruct CH as [_ ->].
  apply bind_ok in H. destruct H as (hb & SB & H). apply bind_ok in H. destruct H as (kh & KH & H). apply bind_ok in H. destruct H as (hm & HM & H).
  apply bind_ok in H. destruct H as (v & VN & H). apply bind_ok in H. destruct H as (t & TP & H).
  assert (E1 : t = ov) by congruence. assert (E2 : dcb = enc (cred_val (ia_id a) (DevCred true V1_1 (dr_guid dr) rv kh (Plain (dr_secret dr) (dr_sk dr))))) by congruence. clear H. subst t dcb.
  destruct (header_made c chk _ _ _ _ _ _ HO MV ML RO RZ BG LG IO SB) as (HD & BH & LH).
  set (h := header_new V1_1 (dr_guid dr) rv (ia_id a) mfg (Some (Hash Sha384 (c_hash c Sha384 (concat (leaf :: ca)))))) in *.
  assert (EM : hm = Hash HmacSha384 (c_hmac c Sha384 (dr_secret dr) hb)) by (unfold hash_from_digest in HM; destruct (negb _) in HM; [discriminate|]; inversion HM; reflexivity).
  assert (HMS : hash_small hm).
  { split; [rewrite EM; apply HB|]. unfold hash_from_digest in HM. destruct (negb _) eqn:Z in HM; [discriminate|]. apply negb_false_iff, N.eqb_eq in Z. rewrite EM. cbn [h_value]. rewrite Z. cbn. lia. }
  assert (CHO : chain_ok c (leaf :: ca)).
  { destruct CO as [_ CF]. split; [unfold nlen in *; cbn [length]; lia|]. constructor; [|exact CF]. split; [exact LB|]. split; [lia|exact LD]. }
  assert (RT : header_rt c chk h) by (exists hb; auto).
  assert (SA : serialize_array (hd_contents h) = Ok hb).
  { unfold header_serialize in SB. destruct (check_device_info (hd_devinfo h)); cbn [bind] in SB; try discriminate.
    destruct (serialize_array (hd_contents h)); cbn [map_err] in SB; congruence. }
  assert (VV := VN). unfold voucher_new in VV. rewrite SA in VV. cbn [map_err bind] in VV. change (serialize_array (PA None [])) with (@Ok cerr bytes [128]) in VV. cbn [map_err bind option_val] in VV.
  assert (EV : v = Voucher (PA None [enc (VInt (Z.of_N V1_1)); enc (VBytes hb); enc (hash_val hm); enc (x5chain_val (leaf :: ca)); [128]]) V1_1 h hm (Some (leaf :: ca)) (PA None [])) by (inversion VV; reflexivity).
  clear VV.
  assert (FM : fits_memory v).
  { unfold fits_memory. rewrite EV. cbn [ov_contents pa_items concat]. rewrite !nlen_app. pose proof (enc_int_nlen (Z.of_N V1_1)). pose proof (enc_bytes_nlen hb).
    assert (nlen (enc (hash_val hm)) <= 36 + 4294967296).
    { unfold hash_val. cbn [enc map concat]. rewrite !nlen_app.
      match goal with |- context [enc_head 4 ?n] => pose proof (enc_head_nlen 4 n) end.
      match goal with |- context [enc_int ?z] => pose proof (enc_int_nlen z) end. pose proof (enc_bytes_nlen (h_value hm)). destruct HMS as [_ HMS]. cbn [enc] in *. rewrite ?nlen_app in *.
      change (nlen (@nil N)) with 0. lia. }
    assert (nlen (enc (x5chain_val (leaf :: ca))) <= 9 + (9 + nlen leaf) + nlen (enc (x5chain_val ca))).
    { unfold x5chain_val. cbn [enc map concat]. rewrite !nlen_app. match goal with |- nlen (enc_head 4 ?n) + _ <= _ => pose proof (enc_head_nlen 4 n) end.
      pose proof (enc_head_nlen 2 (nlen leaf)). unfold bytes in *. lia. }
    change (nlen (@nil N)) with 0. change (nlen [128]) with 1. unfold bytes in *. lia. }
  assert (K0 : kept c chk v) by (eapply new_kept; [exact RT|exact HMS|exact CHO|exact VN|unfold fits_memory in FM; unfold two63; lia]).
  destruct (store_load c chk v K0 FM ltac:(rewrite EV; exact Logic.I)) as (b & S2 & R2).
  assert (DV : voucher_deserialize c chk b = Ok v) by (specialize (R2 []); rewrite app_nil_r in R2; unfold voucher_deserialize; rewrite R2; reflexivity).
  unfold mfg_key_hash, get_hash, get_raw in KH. cbn [h hd_contents header_new pa_items nth_error map_err bind] in KH. apply hash_from_data_ok in KH. destruct KH as [_ ->].
  set (dc := DevCred true V1_1 (dr_guid dr) rv (Hash Sha384 (c_hash c Sha384 (enc (pubkey_val mfg)))) (Plain (dr_secret dr) (dr_sk dr))). exists v, dc.
  split; [eapply pem_reads; eassumption|]. destruct IO as [IO1 IO2].
  split. { apply cred_reads; cbn [dc dc_version dc_guid dc_rv dc_mfg dc_keys h_value keys_ok]; auto; try (unfold two64; lia). - apply HO. - destruct HO as (OH & _). destruct (OH Sha384 (enc (pubkey_val mfg))). unfold two64. lia. }
  split.
  { exists hb, (dr_secret dr), (dr_sk dr), leaf, ca. rewrite EV. cbn [ov_header ov_hmac ov_chain]. split.
    { exists (enc (VBytes hb)). split; [reflexivity|]. rewrite from_slice_enc; [reflexivity|]. unfold MAX_DEPTH. apply vok_bytes; [exact BH|unfold two64; lia]. }
    split; [exact HD|]. split; [reflexivity|]. split; [reflexivity|]. split; [reflexivity|]. split; [reflexivity|]. split; [reflexivity|]. split; [exists (enc (pubkey_val mfg)); split; reflexivity|].
    split; [reflexivity|]. split; [exact EM|]. split; [reflexivity|]. split; [exact LK|]. split; reflexivity. }
  rewrite EV. cbn [ov_header ov_contents ov_entries pa_tag]. repeat split.
Qed.

(** * Importing *)
Lemma insert_ok t v s t' : insert_ov t v s = (t', Ok tt) ->
  exists k b, guid_text (hd_guid (ov_header v)) = Some k /\ voucher_serialize v = Ok b /\ s = Works /\ aget k t = None /\ t' = t ++ [(k, Row b None None None)].
Proof.
  unfold insert_ov. destruct (guid_text _) as [k|]; [|discriminate]. destruct (voucher_serialize v) as [b| |]; try discriminate.
  destruct s; destruct (aget k t) eqn:A; intros H; inversion H. exists k, b. auto.
Qed.
Lemma insert_not t v s t' e : insert_ov t v s = (t', e) -> e <> Ok tt -> t' = t.
Proof.
  unfold insert_ov. destruct (guid_text _) as [k|]; [|intros H; inversion H; auto]. destruct (voucher_serialize v) as [b| |]; try (intros H; inversion H; auto; fail).
  destruct s; destruct (aget k t) eqn:A; intros H; inversion H; subst; auto. intros X. contradiction.
Qed.
Lemma import_one_cases pm c chk t b s t' e : import_one pm c chk t b s = (t', e) ->
  match e with
  | Ok _ => exists v k d, from_pem_or_raw pm c chk b = Ok v /\ guid_text (hd_guid (ov_header v)) = Some k /\ voucher_serialize v = Ok d /\ s = Works /\ aget k t = None /\ t' = t ++ [(k, Row d None None None)]
  | _ => t' = t
  end.
Proof.
  unfold import_one. destruct (from_pem_or_raw pm c chk b) as [v| |]; [|intros H; inversion H; auto..].
  destruct s; try (intros H; inversion H; auto; fail); intros H; (destruct e as [[]| |]; [destruct (insert_ok _ _ _ _ H) as (k & d & ?); exists v, k, d; tauto|eapply insert_not; [exact H|discriminate]..]).
Qed.
Lemma aget_app_l {V} k (t u : list (name * V)) r : aget k t = Some r -> aget k (t ++ u) = Some r.
Proof. induction t as [|[k' r'] t IH]; [discriminate|]. cbn [app aget]. destruct (bytes_eqb k k'); auto. Qed.
Lemma aget_app_r {V} k (t u : list (name * V)) : aget k t = None -> aget k (t ++ u) = aget k u.
Proof. induction t as [|[k' r'] t IH]; [reflexivity|]. cbn [app aget]. destruct (bytes_eqb k k'); [discriminate|auto]. Qed.
(** Read from a file and written again *)
Lemma reread pm c chk b v d : pem_ok pm -> file_ok b -> from_pem_or_raw pm c chk b = Ok v -> voucher_serialize v = Ok d -> voucher_deserialize c chk d = Ok v.
Proof.
  intros HP HF FV SV. destruct (read_file pm c chk _ _ HP HF FV) as (s & BS & LS & DV). destruct HF as [_ LF].
  destruct (loaded_fits c chk s v BS ltac:(lia) DV) as (K & FM & _). unfold voucher_serialize in SV. destruct (serialize_array (ov_contents v)) as [b'| |] eqn:SA; cbn [map_err] in SV; inversion SV; subst b'.
  destruct (serialize_ok_small _ _ SA) as [TS _]. destruct (store_load c chk v K FM TS) as (b2 & S2 & R2). unfold voucher_serialize in S2. rewrite SA in S2. inversion S2; subst b2.
  specialize (R2 []). rewrite app_nil_r in R2. unfold voucher_deserialize. rewrite R2. reflexivity.
Qed.

Lemma import_keeps pm c chk : forall l t i t' r, import_dir pm c chk t i l = (t', r) -> exists new, t' = t ++ new.
Proof.
  induction l as [|[f s] l IH]; intros t i t' r H; cbn [import_dir] in H; [inversion H; subst; exists []; rewrite app_nil_r; reflexivity|].
  destruct (match f with Contents b => import_one pm c chk t b s | _ => (t, Err tt) end) as [t1 x] eqn:E1.
  assert (exists n1, t1 = t ++ n1) as [n1 ->].
  { destruct f as [| |b]; [inversion E1; exists []; rewrite app_nil_r; reflexivity..|]. apply import_one_cases in E1. destruct x; [destruct E1 as (v & k & d & _ & _ & _ & _ & _ & ->); eauto|exists []; rewrite app_nil_r; auto..]. }
  destruct x as [u|e|w].
  - destruct (IH _ _ _ _ H) as [n2 ->]. exists (n1 ++ n2). apply app_assoc_reverse.
  - destruct (import_dir pm c chk (t ++ n1) (S i) l) as [t2 [errs| |]] eqn:E2; inversion H; subst; destruct (IH _ _ _ _ E2) as [n2 ->]; exists (n1 ++ n2); apply app_assoc_reverse.
  - inversion H; subst. eauto.
Qed.

(** The file at [i] came in as the row [r] under [k]. *)
Definition came_in (pm : pem_codec) (c : crypto) (chk : bool) (l : list (found * dbstate)) (i : nat) (k : str) (r : row) : Prop :=
  exists b v, nth_error l i = Some (Contents b, Works) /\ from_pem_or_raw pm c chk b = Ok v /\ guid_text (hd_guid (ov_header v)) = Some k /\ row_for c chk v r.
Lemma came_in_later pm c chk x l i k r : came_in pm c chk l i k r -> came_in pm c chk (x :: l) (S i) k r.
Proof. intros (b & v & H). exists b, v. exact H. Qed.
Lemma import_accounts pm c chk : pem_ok pm -> forall l t i t' errs,
  (forall b s, In (Contents b, s) l -> file_ok b) -> import_dir pm c chk t i l = (t', Ok errs) ->
  exists new, t' = t ++ new /\ (length new + length errs = length l)%nat /\ (forall e, In e errs -> (i <= e < i + length l)%nat) /\ NoDup errs /\
    (forall j, (j < length l)%nat -> ~ In (i + j)%nat errs -> exists k r, In (k, r) new /\ aget k t' = Some r /\ aget k t = None /\ came_in pm c chk l j k r) /\
    (forall k r, In (k, r) new -> aget k t' = Some r /\ aget k t = None /\ exists j, ~ In (i + j)%nat errs /\ came_in pm c chk l j k r).
Proof.
  intros HP. induction l as [|[f s] l IH]; intros t i t' errs HF H; cbn [import_dir] in H.
  { inversion H; subst. exists []. rewrite app_nil_r. split; [reflexivity|]. split; [reflexivity|]. split; [intros e []|]. split; [constructor|]. split; [intros j L; cbn in L; lia|intros k r []]. }
  destruct (match f with Contents b => import_one pm c chk t b s | _ => (t, Err tt) end) as [t1 x] eqn:E1.
  assert (HF' : forall b s, In (Contents b, s) l -> file_ok b) by (intros b s' I; apply (HF b s'); right; exact I).
  destruct x as [u|e|w]; [| |discriminate].
  - destruct f as [| |b]; [discriminate..|]. apply import_one_cases in E1. destruct E1 as (v & k & d & FV & GT & SV & -> & AN & ->).
    pose proof (reread pm c chk b v d HP (HF _ _ (or_introl eq_refl)) FV SV) as DV. set (r := Row d None None None) in *.
    destruct (IH _ _ _ _ HF' H) as (new & -> & LN & BE & ND & A1 & A2). exists ((k, r) :: new).
    assert (CI : came_in pm c chk ((Contents b, Works) :: l) 0 k r) by (exists b, v; split; [reflexivity|]; split; [exact FV|]; split; [exact GT|]; split; [exact DV|]; split; reflexivity).
    assert (G0 : aget k ((t ++ [(k, r)]) ++ new) = Some r) by (apply aget_app_l; rewrite aget_app_r by exact AN; cbn [aget]; rewrite (proj2 (bytes_eqb_spec k k)) by reflexivity; reflexivity).
    assert (NE : ~ In (i + 0)%nat errs) by (intros I; apply BE in I; lia).
    split; [apply app_assoc_reverse|]. split; [cbn [length]; lia|]. split; [intros z I; apply BE in I; cbn [length]; lia|]. split; [exact ND|]. split.
    + intros j L NI. destruct j as [|j]; [exists k, r; split; [left; reflexivity|auto]|].
      destruct (A1 j ltac:(cbn in L; lia)) as (k2 & r2 & I2 & G2 & N2 & C2); [replace (S i + j)%nat with (i + S j)%nat by lia; exact NI|].
      exists k2, r2. split; [right; exact I2|]. split; [exact G2|]. split; [|apply came_in_later; exact C2].
      destruct (aget k2 t) as [r3|] eqn:G3; [|reflexivity]. rewrite (aget_app_l _ _ [(k, r)] _ G3) in N2. discriminate.
    + intros k2 r2 [EQ|I2]; [inversion EQ; subst k2 r2; split; [exact G0|]; split; [exact AN|]; exists 0%nat; auto|].
      destruct (A2 _ _ I2) as (G2 & N2 & j & NJ & C2). split; [exact G2|]. split; [|exists (S j); split; [replace (i + S j)%nat with (S i + j)%nat by lia; exact NJ|apply came_in_later; exact C2]].
      destruct (aget k2 t) as [r3|] eqn:G3; [|reflexivity]. rewrite (aget_app_l _ _ [(k, r)] _ G3) in N2. discriminate.
  - assert (T1 : t1 = t) by (destruct f as [| |b]; [inversion E1; reflexivity..|]; apply import_one_cases in E1; exact E1). subst t1.
    destruct (import_dir pm c chk t (S i) l) as [t2 [errs'| |]] eqn:E2; inversion H; subst t2 errs. clear H.
    destruct (IH _ _ _ _ HF' E2) as (new & -> & LN & BE & ND & A1 & A2). exists new.
    split; [reflexivity|]. split; [cbn [length]; lia|]. split; [intros z [<-|I]; [cbn [length]; lia|]; apply BE in I; cbn [length]; lia|].
    split; [constructor; [intros I; apply BE in I; lia|exact ND]|]. split.
    + intros j L NI. destruct j as [|j]; [exfalso; apply NI; left; lia|].
      destruct (A1 j ltac:(cbn in L; lia)) as (k2 & r2 & I2 & G2 & N2 & C2); [intros I; apply NI; right; replace (i + S j)%nat with (S i + j)%nat by lia; exact I|].
      exists k2, r2. split; [exact I2|]. split; [exact G2|]. split; [exact N2|apply came_in_later; exact C2].
    + intros k2 r2 I2. destruct (A2 _ _ I2) as (G2 & N2 & j & NJ & C2). split; [exact G2|]. split; [exact N2|]. exists (S j). split; [|apply came_in_later; exact C2].
      intros [EQ|I]; [lia|]. apply NJ. replace (S i + j)%nat with (i + S j)%nat by lia. exact I.
Qed.

Lemma serialize_no_err v e : voucher_serialize v <> Err e.
Proof.
  assert (K : forall m n e, encode_item_start m n <> Err e).
  { intros m n x. unfold encode_item_start. destruct (n <=? 23); [discriminate|]. destruct (n <=? 255); [discriminate|]. destruct (n <=? 65535); discriminate. }
  unfold voucher_serialize, serialize_array. destruct (ov_contents v) as [[t|] xs]; cbn [pa_tag pa_items].
  - destruct (encode_item_start _ t) eqn:E1; cbn [bind map_err]; try discriminate; [|exfalso; eapply K; exact E1]. destruct (encode_item_start _ (nlen xs)) eqn:E2; cbn [bind map_err]; try discriminate. exfalso. eapply K. exact E2.
  - cbn [bind]. destruct (encode_item_start _ (nlen xs)) eqn:E2; cbn [bind map_err]; try discriminate. exfalso. eapply K. exact E2.
Qed.
(** What is refused, for a database that works: unreadable files and GUIDs that are there already. *)
Lemma import_refused pm c chk : forall l t i t' errs j b v k,
  import_dir pm c chk t i l = (t', Ok errs) -> nth_error l j = Some (Contents b, Works) -> from_pem_or_raw pm c chk b = Ok v -> guid_text (hd_guid (ov_header v)) = Some k ->
  In (i + j)%nat errs -> (exists r, aget k t = Some r) \/ exists m b2 v2 s, (m < j)%nat /\ nth_error l m = Some (Contents b2, s) /\ from_pem_or_raw pm c chk b2 = Ok v2 /\ guid_text (hd_guid (ov_header v2)) = Some k.
Proof.
  induction l as [|[f s] l IH]; intros t i t' errs j b v k H NJ FV GT IE; [destruct j; discriminate|]. cbn [import_dir] in H.
  destruct (match f with Contents b => import_one pm c chk t b s | _ => (t, Err tt) end) as [t1 x] eqn:E1.
  assert (SH : forall t1 errs', import_dir pm c chk t1 (S i) l = (t', Ok errs') -> forall m, In m errs' -> (S i <= m)%nat).
  { clear. intros t1 errs'. revert t1 t' errs'. generalize (S i) as n. clear i. induction l as [|[f s] l IH]; intros n t1 t' errs H m I; cbn [import_dir] in H; [inversion H; subst; destruct I|].
    destruct (match f with Contents b => import_one pm c chk t1 b s | _ => (t1, Err tt) end) as [t2 [u|e|w]]; [| |discriminate].
    - apply (IH _ _ _ _ H) in I. lia.
    - destruct (import_dir pm c chk t2 (S n) l) as [t3 [es| |]] eqn:E; inversion H; subst. destruct I as [<-|I]; [lia|]. apply (IH _ _ _ _ E) in I. lia. }
  destruct j as [|j].
  - cbn [nth_error] in NJ. inversion NJ; subst f s. clear NJ. unfold import_one in E1. rewrite FV in E1. unfold insert_ov in E1. rewrite GT in E1.
    destruct (voucher_serialize v) as [d|e|w] eqn:SV.
    + destruct (aget k t) as [r|] eqn:A; [left; exists r; reflexivity|]. inversion E1; subst x t1. apply (SH _ _ H) in IE. lia.
    + exfalso. exact (serialize_no_err _ _ SV).
    + inversion E1; subst x. discriminate.
  - cbn [nth_error] in NJ. replace (i + S j)%nat with (S i + j)%nat in IE by lia.
    assert (LIFT : forall t1 errs', import_dir pm c chk t1 (S i) l = (t', Ok errs') -> In (S i + j)%nat errs' -> ((exists r, aget k t1 = Some r) -> (exists r, aget k t = Some r) \/ exists m b2 v2 s0, (m < S j)%nat /\ nth_error ((f, s) :: l) m = Some (Contents b2, s0) /\ from_pem_or_raw pm c chk b2 = Ok v2 /\ guid_text (hd_guid (ov_header v2)) = Some k) ->
      (exists r, aget k t = Some r) \/ exists m b2 v2 s0, (m < S j)%nat /\ nth_error ((f, s) :: l) m = Some (Contents b2, s0) /\ from_pem_or_raw pm c chk b2 = Ok v2 /\ guid_text (hd_guid (ov_header v2)) = Some k).
    { intros t2 errs' HH II C. destruct (IH _ _ _ _ _ _ _ _ HH NJ FV GT II) as [X|(m & b2 & v2 & s2 & L & N2 & R2)]; [auto|]. right. exists (S m), b2, v2, s2. split; [lia|]. auto. }
    destruct x as [u|e|w]; [| |discriminate].
    + apply (LIFT _ _ H IE). intros [r R]. destruct f as [| |b1]; [discriminate..|]. apply import_one_cases in E1. destruct E1 as (v1 & k1 & d & FV1 & GT1 & _ & -> & AN & ->).
      destruct (aget k t) as [r0|] eqn:A; [left; eauto|]. rewrite aget_app_r in R by exact A. cbn [aget] in R. destruct (bytes_eqb k k1) eqn:E; [|discriminate]. apply bytes_eqb_spec in E. subst k1.
      right. exists 0%nat, b1, v1, Works. split; [lia|]. auto.
    + assert (T1 : t1 = t) by (destruct f as [| |b1]; [inversion E1; reflexivity..|]; apply import_one_cases in E1; exact E1). subst t1.
      destruct (import_dir pm c chk t (S i) l) as [t2 [errs'| |]] eqn:E2; inversion H; subst t2 errs. apply (LIFT _ _ E2); [|auto].
      destruct IE as [EQ|IE]; [lia|exact IE].
Qed.

Lemma import_all pm c chk : forall files ks t i, Forall2 (fun b k => exists v d, from_pem_or_raw pm c chk b = Ok v /\ guid_text (hd_guid (ov_header v)) = Some k /\ voucher_serialize v = Ok d) files ks ->
  NoDup ks -> (forall k, In k ks -> aget k t = None) -> exists t', import_dir pm c chk t i (map (fun b => (Contents b, Works)) files) = (t', Ok []).
Proof.
  intros files ks t i H. revert t i. induction H as [|b k files ks (v & d & FV & GT & SV) _ IH]; intros t i ND A; cbn [map import_dir]; [eauto|].
  unfold import_one. rewrite FV. unfold insert_ov. rewrite GT, SV, (A k (or_introl eq_refl)). inversion ND as [|? ? NI ND']; subst. apply IH; [exact ND'|].
  intros k2 I2. rewrite aget_app_r by (apply A; right; exact I2). cbn [aget]. destruct (bytes_eqb k2 k) eqn:E; [apply bytes_eqb_spec in E; subst; contradiction|reflexivity].
Qed.

(** * Exporting *)
Lemma export_some : forall l acc fs, export_files l acc = Ok fs -> NoDup (adom acc) ->
  NoDup (adom fs) /\
  (forall k b, aget k fs = Some b -> aget k acc = Some b \/ exists v, In v l /\ guid_text (hd_guid (ov_header v)) = Some k /\ voucher_serialize v = Ok b) /\
  (forall k b, aget k acc = Some b -> exists b', aget k fs = Some b') /\
  (forall v k, In v l -> guid_text (hd_guid (ov_header v)) = Some k -> exists b, aget k fs = Some b).
Proof.
  induction l as [|v l IH]; intros acc fs H ND; cbn [export_files] in H.
  { inversion H; subst. split; [exact ND|]. split; [auto|]. split; [eauto|intros v k []]. }
  destruct (guid_text (hd_guid (ov_header v))) as [k|] eqn:GT; [|discriminate]. destruct (voucher_serialize v) as [b| |] eqn:SV; try discriminate.
  destruct (IH _ _ H (nodup_aset k b acc ND)) as (N1 & A1 & A2 & A3). split; [exact N1|]. split; [|split].
  - intros k2 b2 G. apply A1 in G. destruct G as [G|(v2 & I2 & G2)]; [|right; exists v2; split; [right; exact I2|exact G2]].
    destruct (name_dec k2 k) as [->|NE]; [|left; rewrite aget_aset_ne in G by exact NE; exact G]. rewrite aget_aset_eq in G. inversion G; subst b2. right. exists v. split; [left; reflexivity|auto].
  - intros k2 b2 G. destruct (name_dec k2 k) as [->|NE]; [apply (A2 k b); apply aget_aset_eq|apply (A2 k2 b2); rewrite aget_aset_ne by exact NE; exact G].
  - intros v2 k2 [<-|I2] G2; [|eapply A3; eassumption]. assert (k2 = k) as -> by congruence. apply (A2 k b). apply aget_aset_eq.
Qed.
Lemma export_works : forall l acc, (forall v, In v l -> exists k b, guid_text (hd_guid (ov_header v)) = Some k /\ voucher_serialize v = Ok b) -> exists fs, export_files l acc = Ok fs.
Proof.
  induction l as [|v l IH]; intros acc H; cbn [export_files]; [eauto|]. destruct (H v (or_introl eq_refl)) as (k & b & -> & ->). apply IH. intros v2 I2. apply H. right. exact I2.
Qed.
(** A voucher that was read can be written, and read again. *)
Lemma loaded_written c chk s v : bytes_ok s -> nlen s < 1152921504606846976 -> voucher_deserialize c chk s = Ok v -> tag_small (pa_tag (ov_contents v)) ->
  exists b, voucher_serialize v = Ok b /\ voucher_deserialize c chk b = Ok v /\ bytes_ok b /\ nlen b <= nlen s + 6.
Proof.
  intros B L D T. destruct (loaded_fits c chk s v B L D) as (K & FM & LC). destruct (store_load c chk v K FM T) as (b & S2 & R2). exists b. split; [exact S2|].
  split; [specialize (R2 []); rewrite app_nil_r in R2; unfold voucher_deserialize; rewrite R2; reflexivity|].
  destruct (voucher_deserialize_ok _ _ _ _ D) as (rest & P & _).
  assert (PD : parse_array_data chk (Some 5) s = Ok (ov_contents v)) by (unfold parse_array_data; rewrite P; reflexivity).
  destruct (array_facts chk 5 s _ B ltac:(lia) PD) as (_ & _ & _ & _ & _ & N5 & IO & IT & _).
  destruct (ov_contents v) as [tag xs] eqn:EC. cbn [pa_items pa_tag] in *. destruct (serialize_loop chk tag xs ltac:(lia) T IT) as (b' & SB & TB).
  unfold voucher_serialize in S2. rewrite EC, SB in S2. inversion S2; subst b'. pose proof (serialize_len _ _ SB) as SL. cbn [pa_items] in SL. split; [|unfold bytes in *; lia].
  assert (CO : bytes_ok (concat xs)) by (clear -IO; induction IO; cbn [concat]; [constructor|]; apply bytes_ok_app; auto).
  inversion TB; subst; rewrite ?bytes_ok_app; repeat split; try exact CO; eapply head_ok; eassumption.
Qed.
