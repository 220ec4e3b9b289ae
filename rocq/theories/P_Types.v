(** C14: certificate chains; C49: nonces and GUIDs; C50: hash comparison; C51: public keys. *)
From Verif Require Import Base BaseFacts CborModel ValueModel ValueProofs TypesModel VoucherModel CryptoSpec TypesProofs ChainSpec ChainProofs ToyCrypto.
From Coq Require Import ZifyBool ZifyNat ZifyN.
Local Open Scope N_scope.
Local Opaque dec_top.

(** * C14 *)

(** Against a bag of trusted certificates (told apart by their SHA-256 digests): accepted exactly when
    the chain reaches one of them; the result is the leaf. *)
Theorem C14_bag_accepts_iff : forall c ch bag leaf,
  verify_from_x5bag c ch bag = Ok leaf <->
  reaches c (fun cert => exists t, In t bag /\ c_hash c Sha256 t = c_hash c Sha256 cert) ch leaf.
Proof.
  intros c ch bag leaf. unfold verify_from_x5bag. rewrite verify_reaches.
  assert (E : forall x, bag_contains c bag x = true <-> exists t, In t bag /\ c_hash c Sha256 t = c_hash c Sha256 x).
  { intros x. unfold bag_contains. rewrite existsb_exists. split; intros (t & I & H); exists t; split; auto; apply bytes_eqb_spec; auto. }
  unfold reaches. split; (intros [[A B]|(k & root & K & L & N & TR & R)];
    [left; split; [exact A|]; apply E; exact B | right; exists k, root; repeat (split; [first [assumption|apply E; assumption]|]); exact R]).
Qed.

(** Against the digest of one certificate of the expected length. *)
Theorem C14_digest_accepts_iff : forall c ch d leaf,
  digestible (h_type d) = true ->
  (forall x, In x ch -> nlen (c_hash c (h_type d) x) = nlen (h_value d)) ->
  (verify_from_digest c ch d = Ok leaf <-> reaches c (fun cert => c_hash c (h_type d) cert = h_value d) ch leaf).
Proof.
  intros c ch d leaf HD HL. unfold verify_from_digest. rewrite HD.
  rewrite (verify_ext _ _ (fun x => Ok (bytes_eqb (h_value d) (c_hash c (h_type d) x)))).
  2:{ intros x Hx. unfold memcmp_eq. rewrite (HL x Hx), N.eqb_refl. reflexivity. }
  rewrite verify_reaches.
  assert (E : forall x, bytes_eqb (h_value d) (c_hash c (h_type d) x) = true <-> c_hash c (h_type d) x = h_value d).
  { intros x. rewrite bytes_eqb_spec. split; congruence. }
  unfold reaches. split; (intros [[A B]|(k & root & K & L & N & TR & R)];
    [left; split; [exact A|]; apply E; exact B | right; exists k, root; repeat (split; [first [assumption|apply E; assumption]|]); exact R]).
Qed.

(** Without a trusted root: the first link alone must hold (or the chain be a single certificate). *)
Theorem C14_insecure_accepts_iff : forall c ch leaf,
  insecure_verify c ch = Ok leaf <->
  (ch = [leaf] \/ exists issuer rest, ch = leaf :: issuer :: rest /\ linked c leaf issuer).
Proof.
  intros c ch leaf. unfold insecure_verify.
  rewrite (verify_reaches c (fun _ => true) ch leaf). unfold reaches. split.
  - intros [[A _]|(k & root & K & L & N & _ & R)]; [left; exact A|].
    destruct ch as [|x [|y ch]]; [discriminate| |].
    + cbn in L. inversion L; subst. left; reflexivity.
    + right. cbn in L. inversion L; subst. exists y, ch. split; [reflexivity|]. apply (R 0%nat); [lia|reflexivity|reflexivity].
  - intros [->|(i & r & -> & L)]; [left; auto|]. right. exists 1%nat, i. split; [lia|]. split; [reflexivity|]. split; [reflexivity|]. split; [reflexivity|].
    intros j a b Hj A B. assert (j = 0)%nat as -> by lia. cbn in A, B. inversion A; inversion B; subst. exact L.
Qed.

(** Every chain error names the first position that fails, and everything before is in order but
    reaches nothing trusted. *)
Theorem C14_first_failure : forall c (trusted : bytes -> bool) ch e,
  chain_verify c (fun x => Ok (trusted x)) ch = Err (FInvalidChain e) ->
  match e with
  | ChEmpty => ch = []
  | ChNoTrustedRoot => (exists x, ch = [x] /\ trusted x = false) \/
      ((2 <= length ch)%nat /\ inconclusive c (fun x => trusted x = true) ch (length ch - 1))
  | ChNonIssuer q => exists a b, inconclusive c (fun x => trusted x = true) ch (N.to_nat q) /\
      link_at ch (N.to_nat q) a b /\ c_issued c b a = false
  | ChInvalidSignedCert q => exists a b k, inconclusive c (fun x => trusted x = true) ch (N.to_nat q) /\
      link_at ch (N.to_nat q) a b /\ c_issued c b a = true /\ c_cert_key c b = Some k /\ c_cert_verify c a k = Some false
  end.
Proof.
  intros c trusted ch e H. destruct ch as [|x [|y ch]]; cbn [chain_verify] in H.
  - inversion H; subst. reflexivity.
  - cbn [bind] in H. destruct (trusted x) eqn:F; [discriminate|]. inversion H; subst. left. eauto.
  - apply loop_errors in H. destruct e.
    + destruct H.
    + destruct H as (p & a & b & k & -> & P & L & Q). exists a, b, k. replace (N.to_nat (0 + N.of_nat p)) with p by lia. auto.
    + right. split; [cbn; lia|exact H].
    + destruct H as (p & a & b & -> & P & L & Q). exists a, b. replace (N.to_nat (0 + N.of_nat p)) with p by lia. auto.
Qed.

(** If every certificate has a readable key there is no panic. *)
Theorem C14_no_panic : forall c (trusted : bytes -> bool) ch w,
  (forall x, c_cert_key c x <> None) -> chain_verify c (fun x => Ok (trusted x)) ch <> Panic w.
Proof.
  intros c trusted ch w HK. destruct ch as [|x [|y ch]]; cbn [chain_verify]; [discriminate| |].
  - cbn [bind]. destruct (trusted x); discriminate.
  - apply loop_no_panic. exact HK.
Qed.

(** Leaf 3, issued by 2, issued by the trusted 1. *)
Example C14_inhabited :
  verify_from_x5bag toy [[3; 2]; [2; 1]; [1; 1]] [[1; 1]] = Ok [3; 2] /\
  verify_from_x5bag toy [[3; 2]; [2; 1]; [1; 1]] [[4; 4]] = Err (FInvalidChain ChNoTrustedRoot) /\
  verify_from_x5bag toy [[3; 2]; [2; 5]; [1; 1]] [[1; 1]] = Err (FInvalidChain (ChNonIssuer 1)).
Proof. repeat split; vm_compute; reflexivity. Qed.

(** A certificate is not trusted because its issuer's issuer is broken: a trusted certificate in the
    middle ends the walk before later, broken links. *)
Example C14_trusted_middle :
  verify_from_x5bag toy [[3; 2]; [2; 5]; [1; 1]] [[2; 5]] = Ok [3; 2].
Proof. vm_compute. reflexivity. Qed.

(** * C49 *)

(** Nonces and GUIDs read from CBOR have 16 bytes, and whatever is written is read back. *)
Lemma from_slice_some {A} (f : cval -> option A) s x : from_slice f s = Ok x -> exists v, f v = Some x.
Proof.
  unfold from_slice. destruct (dec_top s) as [v|]; [|discriminate]. destruct (f v) as [y|] eqn:E; [|discriminate].
  intros H. inversion H; subst. eauto.
Qed.
Lemma as_bstr16_len v b : as_bstr16 v = Some b -> nlen b = 16.
Proof.
  unfold as_bstr16. destruct (as_bytebuf v) as [x|]; [|discriminate]. destruct (N.eqb_spec (nlen x) 16) as [E|]; [|discriminate].
  intros H. inversion H; subst. exact E.
Qed.
Theorem C49_read_has_16_bytes : forall s b, from_slice as_bstr16 s = Ok b -> nlen b = 16.
Proof. intros s b H. apply from_slice_some in H. destruct H as [v H]. exact (as_bstr16_len v b H). Qed.
Theorem C49_write_then_read : forall b, bytes_ok b -> nlen b = 16 -> from_slice as_bstr16 (enc (bstr_val b)) = Ok b.
Proof.
  intros b Hb Hl. unfold from_slice. rewrite dec_top_enc.
  - unfold bstr_val, as_bstr16. cbn [as_bytebuf untag]. rewrite Hl. reflexivity.
  - apply vok_bytes; [exact Hb|]. rewrite Hl. reflexivity.
Qed.

(** Two of them are equal exactly when all bytes are; the comparison never panics. *)
Theorem C49_compare_exact : forall a b, nlen a = 16 -> nlen b = 16 ->
  exists r, @nonce_eq ferr a b = Ok r /\ (r = true <-> a = b).
Proof.
  intros a b Ha Hb. unfold nonce_eq, memcmp_eq. rewrite Ha, Hb. cbn. exists (bytes_eqb a b). split; [reflexivity|apply bytes_eqb_spec].
Qed.

(** UEIDs: both directions. *)
Theorem C49_ueid_round_trip : forall g, from_ueid (as_ueid g) = Ok g.
Proof. reflexivity. Qed.
Theorem C49_ueid_exact : forall u g, from_ueid u = Ok g -> u = as_ueid g.
Proof.
  intros u g H. destruct u as [|b r]; [discriminate|]. cbn [from_ueid] in H. destruct (N.eqb_spec b EAT_RAND) as [->|]; [|discriminate].
  cbn in H. inversion H; subst. reflexivity.
Qed.

(** But a GUID taken from a UEID may have any length, and an empty UEID panics. *)
Definition C49_ueid_statement : Prop := forall u, (exists e, from_ueid u = Err e) \/ (exists g, from_ueid u = Ok g /\ nlen g = 16).
Theorem C49_ueid_length_refuted : ~ C49_ueid_statement.
Proof.
  intros H. destruct (H [1; 5]) as [(e & E)|(g & E & L)]; [discriminate|]. cbn in E. inversion E; subst. discriminate L.
Qed.
Theorem C49_empty_ueid_panics : from_ueid [] = Panic P_INDEX.
Proof. reflexivity. Qed.
(** Any other non-empty UEID is refused without a panic. *)
Theorem C49_ueid_refused_partial : forall b r, b <> EAT_RAND -> from_ueid (b :: r) = Err (FInconsistent I_UEID).
Proof. intros b r H. cbn [from_ueid]. destruct (N.eqb_spec b EAT_RAND); [congruence|reflexivity]. Qed.

Example C49_inhabited : nlen [1;2;3;4;5;6;7;8;9;10;11;12;13;14;15;16] = 16 /\
  from_slice as_bstr16 (80 :: [1;2;3;4;5;6;7;8;9;10;11;12;13;14;15;16]) = Ok [1;2;3;4;5;6;7;8;9;10;11;12;13;14;15;16].
Proof. split; vm_compute; reflexivity. Qed.

(** * C50 *)
Definition C50_statement : Prop := forall a b,
  (hash_compare a b = Ok tt /\ h_type a = h_type b /\ h_value a = h_value b) \/
  (exists e, hash_compare a b = Err e) /\ (h_type a <> h_type b \/ h_value a <> h_value b).

(** Proved: success means equal digests; digests of the same length never panic and unequal ones give
    an error; [compare_data] succeeds exactly when the value is the data's digest under the hash's own
    type, for hashes of the right length.  Missing: the types are not compared, and digests of
    different length panic. *)
Theorem C50_compare_partial : forall a b,
  (hash_compare a b = Ok tt <-> h_value a = h_value b) /\
  (nlen (h_value a) = nlen (h_value b) -> h_value a <> h_value b -> hash_compare a b = Err FIncorrectHash) /\
  (nlen (h_value a) <> nlen (h_value b) -> hash_compare a b = Panic P_MEMCMP).
Proof.
  intros a b. unfold hash_compare, hash_eq, memcmp_eq. repeat split.
  - intros H. destruct (nlen (h_value a) =? nlen (h_value b)); cbn in H; [|discriminate].
    destruct (bytes_eqb (h_value a) (h_value b)) eqn:E; [|discriminate]. apply bytes_eqb_spec. exact E.
  - intros ->. rewrite N.eqb_refl, bytes_eqb_refl. reflexivity.
  - intros L N. rewrite L, N.eqb_refl. cbn. destruct (bytes_eqb (h_value a) (h_value b)) eqn:E; [|reflexivity].
    apply bytes_eqb_spec in E. congruence.
  - intros L. destruct (N.eqb_spec (nlen (h_value a)) (nlen (h_value b))); [congruence|reflexivity].
Qed.

Theorem C50_compare_data_partial : forall c h data,
  (hash_compare_data c h data = Ok tt <-> digestible (h_type h) = true /\ h_value h = c_hash c (h_type h) data) /\
  (nlen (h_value h) = nlen (c_hash c (h_type h) data) ->
   hash_compare_data c h data = Ok tt \/ exists e, hash_compare_data c h data = Err e).
Proof.
  intros c h data. unfold hash_compare_data, memcmp_eq. destruct (digestible (h_type h)).
  - repeat split.
    + destruct (nlen (h_value h) =? nlen (c_hash c (h_type h) data)); cbn in H; [|discriminate].
      destruct (bytes_eqb (h_value h) (c_hash c (h_type h) data)) eqn:E; [|discriminate]. apply bytes_eqb_spec. exact E.
    + intros [_ ->]. rewrite N.eqb_refl, bytes_eqb_refl. reflexivity.
    + intros ->. rewrite N.eqb_refl. cbn. destruct (bytes_eqb _ _); eauto.
  - split; [|eauto]. split; [discriminate|]. intros [H _]. discriminate.
Qed.

Theorem C50_refuted : ~ C50_statement.
Proof.
  intros H. destruct (H (Hash Sha256 [1]) (Hash Sha384 [1])) as [(_ & E & _)|[(e & E) _]]; discriminate.
Qed.
Theorem C50_lengths_refuted : ~ (forall a b, exists r, r <> Panic P_MEMCMP /\ hash_compare a b = r).
Proof. intros H. destruct (H (Hash Sha256 [1]) (Hash Sha256 [1; 2])) as (r & N & E). apply N. rewrite <- E. reflexivity. Qed.

(** Hashes built from digest strings have the size of their type. *)
Theorem C50_from_digest_size : forall t v h, hash_from_digest t v = Ok h <-> h = Hash t v /\ nlen v = digest_size t.
Proof.
  intros t v h. unfold hash_from_digest. destruct (N.eqb_spec (nlen v) (digest_size t)) as [E|E]; cbn.
  - split; [intros H; inversion H; auto|]. intros [-> _]. reflexivity.
  - split; [discriminate|]. intros [_ H]. congruence.
Qed.

Example C50_inhabited : hash_compare (Hash Sha256 [1; 2]) (Hash Sha256 [1; 2]) = Ok tt /\
  hash_compare (Hash Sha256 [1; 2]) (Hash Sha256 [1; 3]) = Err FIncorrectHash /\
  hash_compare_data toy (Hash Sha384 (c_hash toy Sha384 [7])) [7] = Ok tt.
Proof. repeat split; vm_compute; reflexivity. Qed.

(** * C51 *)
Lemma pubkey_new_encodes c t e d p : pubkey_new c t e d = Ok p ->
  pk_type p = t /\ pk_enc p = e /\ pk_data p = d /\ encodes_key c e d (pk_certs p) (pk_key p).
Proof.
  unfold pubkey_new, parse_key, encodes_key. destruct (N.eqb_spec e ENC_X509) as [->|].
  { destruct (c_key_of_der c d) as [k|] eqn:K; [|discriminate]. cbn [of_option bind]. intros H. inversion H; subst. cbn. auto 8. }
  destruct (N.eqb_spec e ENC_X5CHAIN) as [->|]; [|discriminate].
  destruct d as [|b d]; [discriminate|]. destruct (from_slice (as_x5chain c) (b :: d)) as [ch| |] eqn:F; try discriminate.
  cbn [bind]. destruct ch as [|leaf rest]; [discriminate|]. destruct (c_cert_key c leaf) as [k|] eqn:K; [|discriminate].
  cbn [of_option bind]. intros H. inversion H; subst. cbn [pk_type pk_enc pk_data pk_certs pk_key]. repeat (split; [reflexivity|]).
  right. split; [reflexivity|]. exists leaf, rest. auto.
Qed.

Lemma as_pubkey_encodes c v p : as_pubkey c v = Some p ->
  In (pk_type p) [1; 5; 6; 10; 11] /\ encodes_key c (pk_enc p) (pk_data p) (pk_certs p) (pk_key p).
Proof.
  intros H. unfold as_pubkey in H.
  destruct (as_fields v) as [|t [|e [|d [|? ?]]]]; try discriminate.
  destruct (as_u8 t) as [tn|]; [|discriminate]. destruct (as_u8 e) as [en|]; [|discriminate]. destruct (as_bytebuf d) as [db|]; [|discriminate].
  destruct (is_pk_type tn && is_pk_enc en) eqn:B; [|discriminate]. destruct (pubkey_new c tn en db) as [q| |] eqn:P; try discriminate.
  inversion H; subst. apply pubkey_new_encodes in P. destruct P as (<- & <- & <- & E). split; [|exact E].
  apply andb_true_iff in B. destruct B as [B _]. unfold is_pk_type in B. apply existsb_exists in B. destruct B as (x & I & X).
  apply N.eqb_eq in X. rewrite X. exact I.
Qed.

(** A public key read from anywhere is the key its data encodes, and of a known type. *)
Theorem C51_read_key : forall c s p, from_slice (as_pubkey c) s = Ok p ->
  In (pk_type p) [1; 5; 6; 10; 11] /\ encodes_key c (pk_enc p) (pk_data p) (pk_certs p) (pk_key p).
Proof. intros c s p H. apply from_slice_some in H. destruct H as [v H]. exact (as_pubkey_encodes c v p H). Qed.

(** So the key a voucher entry names is the one its payload encodes, and the manufacturer's key the
    one the voucher's header encodes. *)
Theorem C51_entry_key : forall c s p, read_payload c s = Ok p ->
  encodes_key c (pk_enc (p_key p)) (pk_data (p_key p)) (pk_certs (p_key p)) (pk_key (p_key p)).
Proof.
  intros c s p H. apply from_slice_some in H. destruct H as [v H]. unfold as_payload in H.
  destruct (as_fields v) as [|a [|b [|e [|k [|? ?]]]]]; try discriminate.
  destruct (as_hash a), (as_hash b), (as_option as_extra e); try discriminate. destruct (as_pubkey c k) as [q|] eqn:K; [|discriminate].
  inversion H; subst. exact (proj2 (as_pubkey_encodes c k q K)).
Qed.
Theorem C51_manufacturer_key : forall c chk s v, voucher_deserialize c chk s = Ok v ->
  let m := hd_mfg (ov_header v) in
  encodes_key c (pk_enc m) (pk_data m) (pk_certs m) (pk_key m).
Proof.
  intros c chk s v H. unfold voucher_deserialize in H. destruct (voucher_read c chk s) as [[v' rest]| |] eqn:R; try discriminate.
  cbn [bind] in H. inversion H; subst v'. clear H. unfold voucher_read in R.
  assert (A : exists a, voucher_of_array c chk a = Ok v).
  { destruct (parse_array chk (Some 5) s) as [[a r]|e|w].
    - exists a. destruct (voucher_of_array c chk a) as [x| |]; cbn [bind] in R; [|discriminate|discriminate]. congruence.
    - exfalso. destruct e; try discriminate. repeat (match type of R with context[match ?x with _ => _ end] => destruct x; try discriminate end).
    - discriminate. }
  destruct A as [a A]. clear R. unfold voucher_of_array in A.
  destruct (get (from_slice as_version) a 0); cbn [bind] in A; try discriminate.
  destruct (get (from_slice as_bytebuf) a 1) as [hb| |]; cbn [bind] in A; try discriminate.
  destruct (header_deserialize c chk hb) as [h| |] eqn:HH; cbn [bind] in A; try discriminate.
  destruct (get (from_slice as_hash) a 2); cbn [bind] in A; try discriminate.
  destruct (get (from_slice (as_option (as_x5chain c))) a 3); cbn [bind] in A; try discriminate.
  destruct (get _ a 4); cbn [bind] in A; try discriminate. inversion A; subst. cbn [ov_header]. clear A.
  unfold header_deserialize in HH. destruct (map_err FArray (parse_array_data chk (Some 6) hb)) as [ha| |]; cbn [bind] in HH; try discriminate.
  destruct (get (from_slice as_version) ha 0); cbn [bind] in HH; try discriminate.
  destruct (get (from_slice as_bstr16) ha 1); cbn [bind] in HH; try discriminate.
  destruct (get (from_slice as_rv_info) ha 2); cbn [bind] in HH; try discriminate.
  destruct (get (from_slice as_string) ha 3) as [di| |]; cbn [bind] in HH; try discriminate.
  destruct (check_device_info di); cbn [bind] in HH; try discriminate.
  destruct (get (from_slice (as_pubkey c)) ha 4) as [m| |] eqn:M; cbn [bind] in HH; try discriminate.
  destruct (get (from_slice (as_option as_hash)) ha 5); cbn [bind] in HH; try discriminate. inversion HH; subst. cbn [hd_mfg].
  unfold get in M. destruct (map_err FArray (get_raw ha 4)) as [raw| |]; cbn [bind] in M; try discriminate.
  exact (proj2 (C51_read_key c raw m M)).
Qed.

(** What is written is read back. *)
Theorem C51_write_then_read : forall c p, pubkey_valid c p -> nlen (pk_data p) < two64 ->
  from_slice (as_pubkey c) (enc (pubkey_val p)) = Ok p.
Proof.
  intros c p V L. unfold from_slice. rewrite dec_top_enc by (apply (vok_pubkey MAX_DEPTH c); [unfold MAX_DEPTH; lia|exact V|exact L]).
  rewrite as_pubkey_val by exact V. reflexivity.
Qed.

(** Keys made from certificates and chains are the certificate's (the leaf's). *)
Theorem C51_from_chain : forall c ktype ch p, chain_ok c ch -> pubkey_of_chain c ktype ch = Ok p ->
  exists leaf rest, ch = leaf :: rest /\ c_cert_key c leaf = Some (pk_key p) /\ ktype (pk_key p) = Some (pk_type p) /\
    encodes_key c (pk_enc p) (pk_data p) (pk_certs p) (pk_key p).
Proof.
  intros c ktype ch p V H.
  assert (D : from_slice (as_x5chain c) (enc (x5chain_val ch)) = Ok ch).
  { unfold from_slice. rewrite dec_top_enc by (apply (vok_chain MAX_DEPTH c); [unfold MAX_DEPTH; lia|exact V]).
    rewrite as_x5chain_val by exact V. reflexivity. }
  unfold pubkey_of_chain in H. remember (enc (x5chain_val ch)) as data eqn:ED. clear ED. destruct ch as [|leaf rest]; [discriminate|].
  destruct (c_cert_key c leaf) as [k|] eqn:K; [|discriminate]. cbn [of_option bind] in H.
  destruct (ktype k) as [t|] eqn:T; [|discriminate]. cbn [of_option bind] in H. inversion H; subst. exists leaf, rest.
  cbn [pk_type pk_enc pk_data pk_certs pk_key]. split; [reflexivity|]. split; [exact K|]. split; [exact T|]. right.
  split; [reflexivity|]. exists leaf, rest. auto.
Qed.
Theorem C51_from_cert : forall c ktype to_der cert p, (forall k, c_key_of_der c (to_der k) = Some k) ->
  pubkey_of_cert c ktype to_der cert = Ok p ->
  c_cert_key c cert = Some (pk_key p) /\ ktype (pk_key p) = Some (pk_type p) /\
  encodes_key c (pk_enc p) (pk_data p) (pk_certs p) (pk_key p).
Proof.
  intros c ktype to_der cert p L H. unfold pubkey_of_cert in H. destruct (c_cert_key c cert) as [k|] eqn:K; [|discriminate].
  cbn [of_option bind] in H. destruct (ktype k) as [t|] eqn:T; [|discriminate]. cbn [of_option bind] in H. inversion H; subst.
  cbn [pk_type pk_enc pk_data pk_certs pk_key]. split; [reflexivity|]. split; [exact T|]. left. auto.
Qed.

Example C51_inhabited : from_slice (as_pubkey toy) [131; 10; 1; 66; 7; 8] = Ok (Pubkey 10 1 [7; 8] [7; 8] None) /\
  exists p, pubkey_of_chain toy (fun _ => Some 10) [[3; 2]; [2; 5]] = Ok p /\ pk_key p <> pk_data p.
Proof.
  split; [vm_compute; reflexivity|]. eexists. split; [reflexivity|]. vm_compute. discriminate.
Qed.

Print Assumptions C14_bag_accepts_iff.
Print Assumptions C14_digest_accepts_iff.
Print Assumptions C14_insecure_accepts_iff.
Print Assumptions C14_first_failure.
Print Assumptions C14_no_panic.
Print Assumptions C49_read_has_16_bytes.
Print Assumptions C49_write_then_read.
Print Assumptions C49_compare_exact.
Print Assumptions C49_ueid_round_trip.
Print Assumptions C49_ueid_exact.
Print Assumptions C49_ueid_length_refuted.
Print Assumptions C49_empty_ueid_panics.
Print Assumptions C49_ueid_refused_partial.
Print Assumptions C50_compare_partial.
Print Assumptions C50_compare_data_partial.
Print Assumptions C50_refuted.
Print Assumptions C50_lengths_refuted.
Print Assumptions C50_from_digest_size.
Print Assumptions C51_read_key.
Print Assumptions C51_entry_key.
Print Assumptions C51_manufacturer_key.
Print Assumptions C51_write_then_read.
Print Assumptions C51_from_chain.
Print Assumptions C51_from_cert.
