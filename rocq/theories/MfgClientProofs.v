(** Lemmas about the manufacturing client. *)
From Verif Require Import Base BaseFacts CborModel ValueModel ValueProofs TypesModel CryptoSpec TypesProofs Text VoucherModel ChainSpec ChainProofs
  VoucherSpec VoucherProofs DecFacts DecSize CoseFacts KexModel RvModel RvProofs MsgModel SessionModel HttpClientModel RvServerModel
  SiModel DevSiModel OwnerModel MfgModel MfgSpec MfgProofs ClientModel ClientSpec ClientProofs ClientProofs2 MfgClientModel MfgClientSpec.
From Coq Require Import ZifyBool ZifyNat ZifyN.
Local Open Scope N_scope.
Local Opaque dec_top any_value.
Implicit Types (P : list devent -> devent -> Prop).

(** * Chains *)
Lemma loop_reaches c tr leaf : forall ch pos x, chain_loop c tr leaf pos ch = Ok x -> x = leaf /\
  exists k root, (1 <= k)%nat /\ nth_error ch k = Some root /\ tr root = Ok true /\
    forall i a b, (i < k)%nat -> nth_error ch i = Some a -> nth_error ch (S i) = Some b -> linked c a b.
Proof.
  induction ch as [|cert ch IH]; intros pos x H; [discriminate|]. destruct ch as [|issuer ch]; [discriminate|]. cbn [chain_loop] in H.
  destruct (c_issued c issuer cert) eqn:I; cbn [negb] in H; [|discriminate]. destruct (c_cert_key c issuer) as [k|] eqn:K; cbn [unwrap bind] in H; [|discriminate].
  destruct (c_cert_verify c cert k) as [[]|] eqn:V; try discriminate. destruct (tr issuer) as [[]| |] eqn:T; cbn [bind] in H; try discriminate.
  - inversion H; subst x. split; [reflexivity|]. exists 1%nat, issuer. split; [lia|]. split; [reflexivity|]. split; [exact T|].
    intros i a b L A B. assert (i = 0)%nat as -> by lia. cbn in A, B. inversion A; inversion B; subst. split; [exact I|eauto].
  - destruct (IH _ _ H) as (-> & k' & root & L & N & TR & R). split; [reflexivity|]. exists (S k'), root. split; [lia|]. split; [exact N|]. split; [exact TR|].
    intros i a b Li A B. destruct i as [|i]; [cbn in A, B; inversion A; inversion B; subst; split; [exact I|eauto]|]. apply (R i a b); [lia|exact A|exact B].
Qed.
Lemma verify_reaches' c tr ch leaf : chain_verify c tr ch = Ok leaf -> reaches c (fun x => tr x = Ok true) ch leaf.
Proof.
  destruct ch as [|x [|y ch]]; cbn [chain_verify]; intros H; [discriminate| |].
  - destruct (tr x) as [[]| |] eqn:T; cbn [bind] in H; try discriminate. inversion H; subst. left. auto.
  - apply loop_reaches in H. destruct H as (-> & k & root & L & N & TR & R). right. exists k, root. repeat (split; [first [assumption|reflexivity]|]). exact R.
Qed.
Lemma verify_chain_trusted c m ch leaf : verify_chain c m ch = Ok leaf -> trusted c m ch leaf.
Proof.
  assert (W : forall T T' : bytes -> Prop, (forall x, T x -> T' x) -> reaches c T ch leaf -> reaches c T' ch leaf).
  { intros T T' I [[E H]|(k & root & K & L & N & TR & R)]; [left; auto|right; exists k, root; auto 10]. }
  destruct m as [d|bag|]; cbn [verify_chain trusted]; intros H.
  - unfold verify_from_digest in H. destruct (digestible (h_type d)) eqn:D; [|discriminate]. split; [destruct (h_type d); try discriminate; auto|].
    apply verify_reaches' in H. eapply W; [|exact H]. intros x E. apply nonce_eq_ok in E. auto.
  - unfold verify_from_x5bag in H. apply verify_reaches' in H. eapply W; [|exact H]. intros x E. inversion E as [E']. unfold bag_contains in E'.
    apply existsb_exists in E'. destruct E' as (t & I & EQ). apply bytes_eqb_spec in EQ. eauto.
  - unfold insecure_verify in H. apply verify_reaches' in H. destruct H as [[-> _]|(k & root & K & L & N & _ & R)]; [left; reflexivity|].
    destruct ch as [|x [|y ch]]; [discriminate| |]; cbn in L; inversion L; subst.
    + destruct k; [lia|destruct k; discriminate].
    + right. exists y, ch. split; [reflexivity|]. apply (R 0%nat); [lia|reflexivity|reflexivity].
Qed.

(** * The server's proof *)
Lemma check_accept_ok c m nonce tok other : check_accept c m nonce tok = Ok other ->
  exists x p ch leaf key, hdr_get 257 (cs_unprot tok) = Some x /\ as_pubkey c x = Some p /\ pk_certs p = Some ch /\ trusted c m ch leaf /\
    c_cert_key c leaf = Some key /\ signed_by c key tok /\ protects tok 256 nonce /\
    exists v y l, dec_top (cs_payload tok) = Some v /\ as_fields v = [y] /\ untag y = VArr l /\ all_some (map as_u8 l) = Some other.
Proof.
  unfold check_accept. intros H. inv_get H o. destruct o as [p|]; cbn [of_option bind] in H; [|discriminate].
  unfold cose_get_unprotected in G. change CUPH_OWNERPUBKEY with 257%Z in G. destruct (hdr_get 257 (cs_unprot tok)) as [x|] eqn:HX; [|discriminate].
  destruct (as_pubkey c x) as [p'|] eqn:AP; cbn [of_option bind] in G; [|discriminate]. inversion G; subst p'.
  destruct (pk_certs p) as [ch|] eqn:PC; cbn [of_option bind] in H; [|discriminate]. inv_get H leaf. destruct (c_cert_key c leaf) as [key|] eqn:CK; cbn [of_option bind] in H; [|discriminate].
  inv_get H on. destruct on as [n|]; cbn [of_option bind] in H; [|discriminate]. destruct (nonce_eq nonce n) as [[]| |] eqn:NE; cbn [bind] in H; try discriminate. cbn [negb] in H.
  apply nonce_eq_ok in NE. subst n. apply cose_payload_signed in H. destruct H as [SG RP].
  exists x, p, ch, leaf, key. split; [reflexivity|]. split; [exact AP|]. split; [exact PC|]. split; [apply verify_chain_trusted; exact G0|]. split; [exact CK|]. split; [exact SG|].
  split.
  - unfold cose_get_protected in G1. destruct (cose_verified_payload c tok key); cbn [bind] in G1; try discriminate.
    destruct (dec_top (cs_prot tok)) as [hv|] eqn:DP; cbn [of_option bind] in G1; [|discriminate]. destruct (as_map hv) as [hm|] eqn:AM; cbn [of_option bind] in G1; [|discriminate].
    change CUPH_NONCE with 256%Z in G1. destruct (hdr_get 256 hm) as [y|] eqn:HY; [|discriminate]. destruct (as_bstr16 y) eqn:AB; cbn [of_option bind] in G1; [|discriminate].
    inversion G1; subst. exists hv, hm, y. split; [exact DP|]. split; [|auto]. unfold as_map in AM. destruct (untag hv); inversion AM; reflexivity.
  - apply from_slice_ok in RP. destruct RP as (v & D & F). unfold as_acceptpayload in F. destruct (as_fields v) as [|y [|? ?]] eqn:AF; try discriminate.
    unfold as_vecu8, as_list in F. destruct (untag y) as [| | |l| | | |] eqn:U; try discriminate. exists v, y, l. auto.
Qed.

(** * Reading a credential back *)
Lemma all_u8 l : bytes_ok l -> all_some (map as_u8 (map (fun x => VInt (Z.of_N x)) l)) = Some l.
Proof.
  induction 1 as [|x l X F IH]; [reflexivity|]. cbn [map all_some]. assert (as_u8 (VInt (Z.of_N x)) = Some x) as ->.
  { unfold as_u8, as_int. cbn [untag]. assert (((0 <=? Z.of_N x) && (Z.of_N x <=? 255))%Z = true) as -> by lia. cbn [option_map]. f_equal. lia. }
  rewrite IH. reflexivity.
Qed.
Lemma as_vecu8_val b : bytes_ok b -> as_vecu8 (vecu8_val b) = Some b.
Proof. intros H. unfold as_vecu8, as_list, vecu8_val. cbn [untag]. apply all_u8. exact H. Qed.
Lemma vok_vecu8 d b : bytes_ok b -> nlen b < two64 -> vok (S (S d)) (vecu8_val b).
Proof.
  intros B L. unfold vecu8_val. apply vok_arr; [unfold nlen in *; rewrite map_length; exact L|]. apply Forall_forall. intros v I. apply in_map_iff in I.
  destruct I as (x & <- & I). unfold bytes_ok in B. rewrite Forall_forall in B. specialize (B x I). cbn [vok]. unfold two64. lia.
Qed.
Definition keys_ok (k : keystore) : Prop :=
  match k with Plain s sk => key_bytes s /\ key_bytes sk | Tpm t s sk => digestible t = true /\ key_bytes s /\ key_bytes sk end.
Lemma as_keystore_val k : keys_ok k -> as_keystore (keystore_val k) = Some k.
Proof.
  destruct k as [s sk|t s sk]; cbn [keys_ok]; unfold key_bytes.
  - intros ((B1 & _) & B2 & _). unfold as_keystore, keystore_val. cbn [untag].
    change (as_string (text_val (txt "Plain"))) with (Some (txt "Plain")). cbv iota. change (text_eqb (txt "Plain") (txt "Plain")) with true. cbv iota.
    unfold bytes_field.
    match goal with |- context [field (txt "hmac_secret") ?m] => change (field (txt "hmac_secret") m) with (Some (vecu8_val s)); change (field (txt "private_key") m) with (Some (vecu8_val sk)) end.
    cbv iota. rewrite !as_vecu8_val by assumption. reflexivity.
  - intros (D & (B1 & _) & B2 & _). unfold as_keystore, keystore_val. cbn [untag].
    change (as_string (text_val (txt "Tpm"))) with (Some (txt "Tpm")). cbv iota. change (text_eqb (txt "Tpm") (txt "Plain")) with false. change (text_eqb (txt "Tpm") (txt "Tpm")) with true. cbv iota.
    unfold bytes_field. set (hp := vecu8_val [match t with Sha256 => 1 | Sha384 => 2 | _ => 0 end]).
    match goal with |- context [field (txt "signing_public") ?m] => change (field (txt "signing_public") m) with (Some (vecu8_val [])); change (field (txt "signing_private") m) with (Some (vecu8_val sk));
      change (field (txt "hmac_public") m) with (Some hp); change (field (txt "hmac_private") m) with (Some (vecu8_val s)) end.
    cbv iota. unfold hp. rewrite !as_vecu8_val by (try assumption; repeat constructor; destruct t; reflexivity). destruct t; try discriminate; reflexivity.
Qed.
Lemma vok_key_text d s : (forallb is_scalar s && (nlen (utf8_enc s) <? 100)) = true -> vok (S d) (text_val s).
Proof. intros H. apply vok_text; [lia| |unfold two64; lia]. destruct (forallb is_scalar s); [reflexivity|discriminate]. Qed.
Lemma vok_map d l : nlen l < two64 -> Forall (fun kv => vok d (fst kv) /\ vok d (snd kv)) l -> vok (S d) (VMap l).
Proof. intros A B. cbn [vok]. auto. Qed.
Lemma vok_keystore d k : (4 <= d)%nat -> keys_ok k -> vok d (keystore_val k).
Proof.
  intros L K. destruct d as [|[|[|[|d]]]]; try lia. destruct k as [s sk|t s sk]; cbn [keys_ok] in K; unfold key_bytes in K; unfold keystore_val;
    (apply vok_map; [cbn; unfold two64; lia|]; constructor; [|constructor]; cbn [fst snd]; split; [apply vok_key_text; reflexivity|]; apply vok_map; [cbn; unfold two64; lia|]);
    repeat (constructor; [cbn [fst snd]; split; [apply vok_key_text; reflexivity|apply vok_vecu8; [|]]|]); try (constructor); try (unfold two64; lia); try tauto; repeat constructor; try (destruct t; reflexivity).
Qed.
Lemma cred_reads info dc : forallb is_scalar info = true -> nlen (utf8_enc info) < two64 -> (dc_version dc = V1_0 \/ dc_version dc = V1_1) -> bytes_ok (dc_guid dc) -> nlen (dc_guid dc) = 16 ->
  rv_ok (dc_rv dc) -> bytes_ok (h_value (dc_mfg dc)) -> nlen (h_value (dc_mfg dc)) < two64 -> keys_ok (dc_keys dc) -> from_slice as_cred (enc (cred_val info dc)) = Ok (info, dc).
Proof.
  intros S L V BG LG RV BH LH KO. rewrite from_slice_enc.
  2:{ unfold cred_val. change MAX_DEPTH with (Datatypes.S (MAX_DEPTH - 1)). apply vok_arr; [cbn; unfold two64; lia|]. unfold MAX_DEPTH. cbn [Nat.sub].
      constructor; [exact Logic.I|]. constructor; [cbn [vok]; unfold two64, V1_0, V1_1 in *; lia|]. constructor; [apply vok_text; [lia|exact S|exact L]|].
      constructor; [apply vok_bytes; [exact BG|rewrite LG; unfold two64; lia]|]. constructor; [apply vok_rv; [lia|exact RV]|]. constructor; [apply vok_hash; [lia|exact BH|exact LH]|].
      constructor; [apply vok_keystore; [lia|exact KO]|constructor]. }
  unfold as_cred, cred_val, as_fields. cbn [untag]. change (as_bool (VBool (dc_active dc))) with (Some (dc_active dc)). cbv iota.
  assert (as_version (VInt (Z.of_N (dc_version dc))) = Some (dc_version dc)) as -> by (destruct V as [-> | ->]; reflexivity).
  assert (as_string (text_val info) = Some info) as -> by (unfold as_string, text_val; cbn [untag]; apply utf8_roundtrip; exact S).
  assert (as_bstr16 (bstr_val (dc_guid dc)) = Some (dc_guid dc)) as -> by (unfold as_bstr16, bstr_val, as_bytebuf; cbn [untag]; rewrite LG; reflexivity).
  rewrite as_rv_info_val by exact RV. rewrite as_hash_val. rewrite as_keystore_val by exact KO. cbn [of_option]. destruct dc; reflexivity.
Qed.

(** * Headers *)
Lemma all_some_forall {A B} (f : A -> option B) (R : B -> Prop) l : forall r, all_some (map f l) = Some r -> (forall x y, In x l -> f x = Some y -> R y) -> Forall R r.
Proof.
  induction l as [|x l IH]; intros r E H; cbn [map all_some] in E; [inversion E; constructor|]. destruct (f x) as [y|] eqn:F; [|discriminate].
  destruct (all_some (map f l)) as [z|]; [|discriminate]. inversion E; subst. constructor; [apply (H x); [left; reflexivity|exact F]|]. apply IH; [reflexivity|]. intros x' y' I. apply H. right. exact I.
Qed.
Lemma rv_reads_ok s r : bytes_ok s -> nlen s < 4294967296 -> from_slice as_rv_info s = Ok r -> rv_ok r.
Proof.
  intros B L F. apply from_slice_ok in F. destruct F as (v & D & E). pose proof (dec_top_octets _ _ B D) as O. pose proof (dec_top_sized _ _ D) as Z.
  assert (K : (N.of_nat (length s) < 4294967296)) by exact L. clear D B L. set (n := length s) in *. clearbody n.
  pose proof (as_rv_info_vars _ _ E) as V. unfold as_rv_info, as_list in E. apply octets_untag in O. apply sized_untag in Z.
  destruct (untag v) as [| | |l| | | |]; try discriminate. inversion O as [| | |? OL| | | |]; subst. inversion Z as [| | |? ZL ZF| | | |]; subst.
  split; [apply all_some_len in E; rewrite map_length in E; unfold nlen; lia|].
  assert (W : Forall (fun d => nlen d < 4294967296 /\ Forall (fun i : rv_instruction => bytes_ok (snd i) /\ nlen (snd i) < 4294967296) d) r).
  { eapply all_some_forall; [exact E|]. intros x d I F. cbv beta in F. rewrite Forall_forall in OL, ZF. specialize (OL x I). specialize (ZF x I). apply octets_untag in OL. apply sized_untag in ZF.
    destruct (untag x) as [| | |m| | | |]; try discriminate. inversion OL as [| | |? OM| | | |]; subst. inversion ZF as [| | |? ZM ZG| | | |]; subst.
    split; [apply all_some_len in F; rewrite map_length in F; unfold nlen; lia|]. eapply all_some_forall; [exact F|]. intros y i J G.
    rewrite Forall_forall in OM, ZG. specialize (OM y J). specialize (ZG y J). apply fields_octets in OM. apply fields_sized in ZG. unfold as_rv_instruction in G.
    destruct (as_fields y) as [|a [|b [|? ?]]]; try discriminate. destruct (as_rv_variable a); [|discriminate]. destruct (as_bytebuf b) as [bb|] eqn:AB; [|discriminate]. inversion G; subst. cbn [snd].
    inversion OM as [|? ? _ O2]; subst. inversion O2 as [|? ? O3 _]; subst. inversion ZG as [|? ? _ Z2]; subst. inversion Z2 as [|? ? Z3 _]; subst.
    split; [eapply bytebuf_ok; eassumption|]. pose proof (bytebuf_size _ _ _ Z3 AB). unfold nlen. lia. }
  rewrite Forall_forall in *. intros d I. specialize (W d I). specialize (V d I). destruct W as [W1 W2]. split; [exact W1|]. rewrite Forall_forall in *. intros i J. auto.
Qed.
Lemma header_parts c chk s hd : bytes_ok s -> nlen s < 4294967296 -> header_deserialize c chk s = Ok hd ->
  bytes_ok (hd_guid hd) /\ nlen (hd_guid hd) = 16 /\ rv_ok (hd_rv hd) /\ forallb is_scalar (hd_devinfo hd) = true /\ nlen (utf8_enc (hd_devinfo hd)) < two64.
Proof.
  intros B L H. apply header_deserialize_ok in H. destruct H as (P & _ & G1 & G2 & G3 & _). destruct (array_facts chk 6 s _ B ltac:(lia) P) as (? & ? & _ & _ & _ & _ & IO & _ & LC).
  assert (S : forall n raw, nth_error (pa_items (hd_contents hd)) n = Some raw -> bytes_ok raw /\ nlen raw < 4294967296).
  { intros n raw E. pose proof (nth_error_In _ _ E) as I. rewrite Forall_forall in IO. split; [apply IO; exact I|]. apply in_split in I. destruct I as (p & q & EQ). rewrite EQ, concat_app in LC.
    cbn [concat] in LC. rewrite !nlen_app in LC. lia. }
  apply get_ok in G1, G2, G3. destruct G1 as (r1 & N1 & F1), G2 as (r2 & N2 & F2), G3 as (r3 & N3 & F3). destruct (S _ _ N1) as [B1 L1], (S _ _ N2) as [B2 L2], (S _ _ N3) as [B3 L3].
  destruct (from_slice_bstr16_ok _ _ B1 F1) as [BG LG]. split; [exact BG|]. split; [exact LG|]. split; [exact (rv_reads_ok _ _ B2 L2 F2)|].
  apply from_slice_ok in F3. destruct F3 as (v & D & E). pose proof (dec_top_sized _ _ D) as Z. apply sized_untag in Z. unfold as_string in E.
  destruct (untag v) as [|b|b| | | | |]; try discriminate; (apply utf8_dec_enc in E; destruct E as [E1 E2]; split; [exact E2|]; rewrite E1; inversion Z; subst; unfold nlen, two64 in *; lia).
Qed.
