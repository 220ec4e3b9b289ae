(** C17: key-exchange strings; C18: both sides derive the same keys; C19: EC signatures. *)
From Verif Require Import Base BaseFacts ValueModel TypesModel Text KexModel KexSpec KexProofs.
From Coq Require Import ZifyBool ZifyNat ZifyN.
Local Open Scope N_scope.

(** * C17 *)
Theorem C17_round_trip : forall x y r, nlen x < 65536 -> nlen y < 65536 -> nlen r < 65536 ->
  decode_ecdh_bstr (encode_ecdh_bstr x y r) = Ok (x, y, r) /\ is_kex_string x y r (encode_ecdh_bstr x y r).
Proof.
  intros x y r H1 H2 H3. pose proof (encode_is_kex x y r H1 H2 H3) as K. split; [apply decode_complete; exact K|exact K].
Qed.

(** Accepted exactly when it is three strings with their lengths, and then it is the encoding. *)
Theorem C17_accepts_iff : forall s x y r, bytes_ok s -> (decode_ecdh_bstr s = Ok (x, y, r) <-> is_kex_string x y r s).
Proof. intros s x y r B. split; [apply decode_sound; exact B|apply decode_complete]. Qed.
Theorem C17_accepted_is_encoding : forall s x y r, bytes_ok s -> decode_ecdh_bstr s = Ok (x, y, r) -> s = encode_ecdh_bstr x y r.
Proof. intros s x y r B H. apply decode_sound in H; [|exact B]. apply is_kex_encode in H. tauto. Qed.

(** The full statement, with an error for every malformed string, is false: truncated strings panic. *)
Definition C17_statement : Prop := forall s, bytes_ok s ->
  (exists x y r, decode_ecdh_bstr s = Ok (x, y, r)) \/ (exists e, decode_ecdh_bstr s = Err e).
Theorem C17_truncated_refuted : ~ C17_statement.
Proof.
  intros H. destruct (H [0; 5; 1]) as [(x & y & r & E)|(e & E)]; [repeat constructor; lia| |]; vm_compute in E; discriminate.
Qed.
(** Proved: strings with something after the three fields are an error, and every other malformed
    string panics. *)
Theorem C17_malformed_partial : forall s, bytes_ok s ->
  (decode_ecdh_bstr s = Err FKeyExchange <-> exists x y r k extra, is_kex_string x y r k /\ extra <> [] /\ s = k ++ extra) /\
  (decode_ecdh_bstr s = Panic P_SPLIT <-> forall x y r k extra, is_kex_string x y r k -> s <> k ++ extra) /\
  (forall w, decode_ecdh_bstr s = Panic w -> w = P_SPLIT) /\ (forall e, decode_ecdh_bstr s = Err e -> e = FKeyExchange).
Proof.
  intros s B. split; [apply decode_err; exact B|].
  assert (X : decode_ecdh_bstr s = Panic P_SPLIT <-> forall x y r k extra, is_kex_string x y r k -> s <> k ++ extra).
  { split.
    - intros H x y r k extra K ->. destruct extra as [|z extra].
      + rewrite app_nil_r in H. rewrite (decode_complete _ _ _ _ K) in H. discriminate.
      + assert (E : decode_ecdh_bstr (k ++ z :: extra) = Err FKeyExchange).
        { apply decode_err; [exact B|]. exists x, y, r, k, (z :: extra). split; [exact K|]. split; [discriminate|reflexivity]. }
        congruence.
    - intros H. destruct (decode_cases s) as [([[x y] r] & E)|[E|E]]; [| |exact E].
      + exfalso. apply decode_sound in E; [|exact B]. apply (H x y r s []); [exact E|rewrite app_nil_r; reflexivity].
      + exfalso. apply decode_err in E; [|exact B]. destruct E as (x & y & r & k & extra & K & _ & ->). apply (H x y r k extra K eq_refl). }
  split; [exact X|]. destruct (decode_cases s) as [([[x y] r] & E)|[E|E]]; rewrite E; split; intros; congruence.
Qed.

Example C17_ex : decode_ecdh_bstr [0; 1; 7; 0; 2; 8; 9; 0; 0] = Ok ([7], [8; 9], []) /\
  encode_ecdh_bstr [7] [8; 9] [] = [0; 1; 7; 0; 2; 8; 9; 0; 0] /\ decode_ecdh_bstr [0; 1; 7; 0; 2; 8; 9; 0; 0; 1] = Err FKeyExchange.
Proof. repeat split; vm_compute; reflexivity. Qed.

(** * C18 *)
(** Elliptic curves: if the curve has the laws of [curve_laws], the two sides compute the same outcome
    (keys or error), whichever suite and cipher, and whichever of them lacks the interoperable KDF. *)
Theorem C18_ecdh_same_keys : forall o s keyD keyO rD rO pubD pubO c availD availO,
  curve_laws o -> fresh (Ecdh s keyD rD) -> fresh (Ecdh s keyO rO) ->
  get_public o (Ecdh s keyD rD) = Ok pubD -> get_public o (Ecdh s keyO rO) = Ok pubO ->
  derive_key o availD KDevice c (Ecdh s keyD rD) pubO (read_kdf_header (kdf_header availO)) =
  derive_key o availO OwnerService c (Ecdh s keyO rO) pubD (read_kdf_header (kdf_header availD)).
Proof.
  intros o s keyD keyO rD rO pubD pubO c availD availO L FD FO GD GO. cbn [get_public] in GD, GO.
  destruct (ecdh_random_size s) as [size| |] eqn:S; cbn [bind] in GD, GO; try discriminate.
  destruct (ec_pub o s keyD) as [[xd yd]|] eqn:PD; cbn [of_option bind] in GD; [|discriminate]. inversion GD; subst pubD. clear GD.
  destruct (ec_pub o s keyO) as [[xo yo]|] eqn:PO; cbn [of_option bind] in GO; [|discriminate]. inversion GO; subst pubO. clear GO.
  destruct (cl_small o L _ _ _ _ PD) as [SX SY]. destruct (cl_small o L _ _ _ _ PO) as [OX OY].
  assert (RS : nlen rD = size /\ nlen rO = size /\ size < 65536).
  { destruct s; cbn in FD, FO, S; try contradiction; inversion S; subst; rewrite FD, FO; repeat split; lia. }
  destruct RS as (RD & RO & RL).
  assert (BL : forall n, n < 256 ^ 66 -> nlen (bn_to_vec n) < 65536).
  { intros n H. apply bn_len in H. eapply N.le_lt_trans; [exact H|lia]. }
  unfold derive_key, derive_key_ecdh. rewrite S. cbn [bind].
  rewrite (decode_complete (bn_to_vec xo) (bn_to_vec yo) rO) by (apply encode_is_kex; [auto|auto|lia]).
  rewrite (decode_complete (bn_to_vec xd) (bn_to_vec yd) rD) by (apply encode_is_kex; [auto|auto|lia]).
  cbn [bind]. rewrite RD, RO, N.eqb_refl. cbn [negb]. rewrite !bn_dec.
  rewrite (cl_valid o L _ _ _ PO), (cl_valid o L _ _ _ PD). cbn [negb].
  rewrite (cl_commute o L s keyD keyO (xd, yd) (xo, yo) PD PO).
  destruct (ec_mul o s (xd, yd) keyO) as [[dx dy]|]; [|reflexivity]. cbn [bind].
  destruct availD, availO; reflexivity.
Qed.

(** Finite fields, with no assumption on arithmetic: if each side accepts the other's value, the keys
    are the same. *)
Theorem C18_dh_same_keys : forall o s keyD keyO pubD pubO c availD availO k1 k2,
  get_public o (Dhkex s keyD) = Ok pubD -> get_public o (Dhkex s keyO) = Ok pubO ->
  derive_key o availD KDevice c (Dhkex s keyD) pubO (read_kdf_header (kdf_header availO)) = Ok k1 ->
  derive_key o availO OwnerService c (Dhkex s keyO) pubD (read_kdf_header (kdf_header availD)) = Ok k2 -> k1 = k2.
Proof.
  intros o s keyD keyO pubD pubO c availD availO k1 k2 GD GO HD HO. cbn [get_public] in GD, GO.
  destruct (dh_prime s) as [p| |] eqn:P; cbn [bind] in GD, GO; try discriminate. inversion GD; subst pubD. inversion GO; subst pubO.
  assert (NZ : p <> 0). { destruct s; cbn [dh_prime] in P; try discriminate; inversion P; unfold prime14, prime15; lia. }
  unfold derive_key, derive_key_dh in HD, HO. rewrite P in HD, HO. cbn [bind] in HD, HO. rewrite !bn_dec in HD, HO.
  destruct (dh_accepts o p (pow_mod 2 (be_dec keyO) p) _); cbn [bind] in HD; [|discriminate].
  destruct (dh_accepts o p (pow_mod 2 (be_dec keyD) p) _); cbn [bind] in HO; [|discriminate].
  rewrite (pow_mod_commute 2 (be_dec keyO) (be_dec keyD) p NZ) in HD.
  destruct availD, availO; cbn [negb read_kdf_header kdf_header] in HD, HO; try (vm_compute (str_eqb _ _) in HD, HO); congruence.
Qed.
(** Neither side fails where the other succeeds, when openssl treats both values alike. *)
Theorem C18_dh_same_outcome : forall o s keyD keyO pubD pubO c availD availO,
  get_public o (Dhkex s keyD) = Ok pubD -> get_public o (Dhkex s keyO) = Ok pubO ->
  (forall p z, dh_accepts o p (be_dec pubO) z = dh_accepts o p (be_dec pubD) z) ->
  derive_key o availD KDevice c (Dhkex s keyD) pubO (read_kdf_header (kdf_header availO)) =
  derive_key o availO OwnerService c (Dhkex s keyO) pubD (read_kdf_header (kdf_header availD)).
Proof.
  intros o s keyD keyO pubD pubO c availD availO GD GO A. cbn [get_public] in GD, GO.
  destruct (dh_prime s) as [p| |] eqn:P; cbn [bind] in GD, GO; try discriminate. inversion GD; subst pubD. inversion GO; subst pubO.
  assert (NZ : p <> 0). { destruct s; cbn [dh_prime] in P; try discriminate; inversion P; unfold prime14, prime15; lia. }
  unfold derive_key, derive_key_dh. rewrite P. cbn [bind]. rewrite A, !bn_dec.
  rewrite (pow_mod_commute 2 (be_dec keyO) (be_dec keyD) p NZ).
  destruct (dh_accepts o p _ _); cbn [bind]; [|reflexivity]. destruct availD, availO; reflexivity.
Qed.

(** Parties with different ECDH suites never agree on anything: both get an error. *)
Theorem C18_suite_mismatch : forall o c avail side s s' key r key' r' pub nonint,
  fresh (Ecdh s key r) -> fresh (Ecdh s' key' r') -> s <> s' ->
  (forall s k x y, ec_pub o s k = Some (x, y) -> x < 256 ^ 66 /\ y < 256 ^ 66) ->
  get_public o (Ecdh s' key' r') = Ok pub ->
  derive_key o avail side c (Ecdh s key r) pub nonint = Err FKeyExchange.
Proof.
  intros o c avail side s s' key r key' r' pub nonint F F' NE SM G. cbn [get_public] in G.
  destruct (ecdh_random_size s') as [size'| |] eqn:S'; cbn [bind] in G; try discriminate.
  destruct (ec_pub o s' key') as [[x y]|] eqn:P; cbn [of_option bind] in G; [|discriminate]. inversion G; subst pub. clear G.
  destruct (SM _ _ _ _ P) as [SX SY].
  assert (BL : forall n, n < 256 ^ 66 -> nlen (bn_to_vec n) < 65536).
  { intros n H. apply bn_len in H. eapply N.le_lt_trans; [exact H|lia]. }
  assert (R' : nlen r' < 65536). { destruct s'; cbn in F'; try contradiction; rewrite F'; lia. }
  unfold derive_key, derive_key_ecdh.
  destruct (ecdh_random_size s) as [size| |] eqn:S; [|destruct s; discriminate|destruct s; try discriminate; contradiction].
  cbn [bind]. rewrite (decode_complete (bn_to_vec x) (bn_to_vec y) r') by (apply encode_is_kex; auto). cbn [bind].
  assert (NN : nlen r' <> size). { destruct s, s'; cbn in *; try contradiction; try congruence; inversion S; subst; rewrite F'; lia. }
  destruct (N.eqb_spec (nlen r') size); [congruence|]. reflexivity.
Qed.

(** Suites travel by name: reading back what is written, and nothing else. *)
Theorem C18_suite_names : forall s n, kexsuite_of n = Ok s <-> n = kexsuite_name s.
Proof. intros s n. split; [apply kexsuite_of_name|intros ->; apply kexsuite_name_of]. Qed.

(** A toy curve: points (a, 1) with a the key's number modulo 251; multiplication in the first coordinate. *)
Definition toy_kex : kex_ops := KexOps
  (fun _ k => Some (be_dec k mod 251, 1)) (fun _ _ => true)
  (fun _ P k => Some ((fst P * (be_dec k mod 251)) mod 251, 1))
  (fun p y z => (1 <? y) && (y <? p - 1) && (1 <? z))
  (fun b i s n => Some ((if b then 1 else 0) :: i ++ s)).
Lemma toy_curve_laws : curve_laws toy_kex.
Proof.
  constructor.
  - reflexivity.
  - intros s k x y H. cbn in H. injection H as <- <-. split; [|lia]. eapply N.lt_trans; [apply N.mod_lt; discriminate|lia].
  - intros s k1 k2 P1 P2 H1 H2. cbn in H1, H2. injection H1 as <-. injection H2 as <-. cbn [ec_mul toy_kex fst]. f_equal. f_equal. f_equal. lia.
Qed.
Definition ex_r16 : bytes := repeat 7 16.
Definition ex_r16' : bytes := repeat 8 16.
Example C18_ex_ecdh : exists pubD pubO k,
  get_public toy_kex (Ecdh Ecdh256 [3; 4] ex_r16) = Ok pubD /\ get_public toy_kex (Ecdh Ecdh256 [5; 6] ex_r16') = Ok pubO /\
  derive_key toy_kex true KDevice A128Gcm (Ecdh Ecdh256 [3; 4] ex_r16) pubO true = Ok k /\
  derive_key toy_kex false OwnerService A128Gcm (Ecdh Ecdh256 [5; 6] ex_r16') pubD false = Ok k.
Proof.
  assert (A : exists pubD, get_public toy_kex (Ecdh Ecdh256 [3; 4] ex_r16) = Ok pubD) by (eexists; cbn [get_public]; reflexivity).
  assert (B : exists pubO, get_public toy_kex (Ecdh Ecdh256 [5; 6] ex_r16') = Ok pubO) by (eexists; cbn [get_public]; reflexivity).
  destruct A as [pubD GD], B as [pubO GO]. exists pubD, pubO.
  assert (ED : pubD = [0; 1; 19; 0; 1; 1; 0; 16] ++ ex_r16) by (vm_compute in GD; inversion GD; reflexivity). subst pubD.
  assert (EO : pubO = [0; 1; 31; 0; 1; 1; 0; 16] ++ ex_r16') by (vm_compute in GO; inversion GO; reflexivity). subst pubO.
  eexists. split; [exact GD|]. split; [exact GO|]. split; vm_compute; reflexivity.
Qed.
Example C18_ex_dh : derive_key toy_kex true KDevice A256Gcm (Dhkex DhkexId14 [3]) (bn_to_vec (2 ^ 5)) false =
  derive_key toy_kex true OwnerService A256Gcm (Dhkex DhkexId14 [5]) (bn_to_vec (2 ^ 3)) false /\
  get_public toy_kex (Dhkex DhkexId14 [3]) = Ok (bn_to_vec (2 ^ 3)) /\ get_public toy_kex (Dhkex DhkexId14 [5]) = Ok (bn_to_vec (2 ^ 5)) /\
  exists k, derive_key toy_kex true OwnerService A256Gcm (Dhkex DhkexId14 [5]) (bn_to_vec (2 ^ 3)) false = Ok k.
Proof.
  split; [vm_compute; reflexivity|]. split; [vm_compute; reflexivity|]. split; [vm_compute; reflexivity|].
  destruct (derive_key toy_kex true OwnerService A256Gcm (Dhkex DhkexId14 [5]) (bn_to_vec (2 ^ 3)) false) eqn:E; [eauto| |]; vm_compute in E; discriminate.
Qed.
(** The two KDFs really are kept apart: if one party ignored the other's header the keys would differ. *)
Example C18_ex_header_matters : derive_key toy_kex true KDevice A256Gcm (Dhkex DhkexId14 [3]) (bn_to_vec (2 ^ 5)) false <>
  derive_key toy_kex false OwnerService A256Gcm (Dhkex DhkexId14 [5]) (bn_to_vec (2 ^ 3)) false.
Proof. vm_compute. discriminate. Qed.

(** * C19 *)
(** Two halves of the key's length, each holding the number in big endian. *)
Theorem C19_layout : forall r s n, (length r <= n)%nat -> (length s <= n)%nat ->
  exists a b, merge_ec_signature r s n = Ok (a ++ b) /\ length a = n /\ length b = n /\ be_dec a = be_dec r /\ be_dec b = be_dec s.
Proof.
  intros r s n Hr Hs. exists (repeat 0 (n - length r) ++ r), (repeat 0 (n - length s) ++ s).
  assert (Z : forall k x, be_dec (repeat 0 k ++ x) = be_dec x).
  { intros k x. rewrite be_dec_app. replace (be_dec (repeat 0 k)) with 0; [reflexivity|].
    induction k as [|k IH]; [reflexivity|]. unfold be_dec in *. cbn [repeat fold_left]. exact IH. }
  unfold merge_ec_signature. destruct (Nat.leb_spec (length r) n); [|lia]. destruct (Nat.leb_spec (length s) n); [|lia]. cbn [andb].
  split; [rewrite <- !app_assoc; reflexivity|]. rewrite !app_length, !repeat_length, !Z. repeat split; lia.
Qed.
(** Different pairs of numbers never give the same signature. *)
Theorem C19_injective : forall r s r' s' n sig, merge_ec_signature r s n = Ok sig -> merge_ec_signature r' s' n = Ok sig ->
  be_dec r = be_dec r' /\ be_dec s = be_dec s'.
Proof.
  intros r s r' s' n sig H H'.
  assert (L : forall a b sg, merge_ec_signature a b n = Ok sg -> (length a <= n)%nat /\ (length b <= n)%nat).
  { intros a b sg M. unfold merge_ec_signature in M. destruct (Nat.leb_spec (length a) n), (Nat.leb_spec (length b) n); cbn in M; try discriminate; auto. }
  destruct (L _ _ _ H) as [H1 H2], (L _ _ _ H') as [H3 H4].
  destruct (C19_layout r s n H1 H2) as (a & b & E & La & Lb & Da & Db), (C19_layout r' s' n H3 H4) as (a' & b' & E' & La' & Lb' & Da' & Db').
  rewrite H in E. rewrite H' in E'. injection E as E. injection E' as E'. rewrite E in E'.
  assert (a = a' /\ b = b') as [-> ->].
  { clear - La La' E'. revert a' La' E'. revert n La. induction a as [|z a IH]; intros n La [|z' a'] La' E'; cbn in *; try (subst n; discriminate); [auto|].
    injection E' as -> E'. destruct n; [discriminate|]. destruct (IH n ltac:(lia) a' ltac:(lia) E') as [-> ->]. auto. }
  split; congruence.
Qed.
(** It panics exactly when a number does not fit. *)
Theorem C19_panics_iff : forall r s n, (exists w, merge_ec_signature r s n = Panic w) <-> (n < length r)%nat \/ (n < length s)%nat.
Proof.
  intros r s n. unfold merge_ec_signature. destruct (Nat.leb_spec (length r) n), (Nat.leb_spec (length s) n); cbn [andb]; split; try (intros [w H1]; discriminate); try lia; try (intros _; eauto).
Qed.
Example C19_ex : merge_ec_signature [5] [1; 2; 3] 4 = Ok [0; 0; 0; 5; 0; 1; 2; 3].
Proof. reflexivity. Qed.

Print Assumptions C17_round_trip.
Print Assumptions C17_accepts_iff.
Print Assumptions C17_accepted_is_encoding.
Print Assumptions C17_truncated_refuted.
Print Assumptions C17_malformed_partial.
Print Assumptions C18_ecdh_same_keys.
Print Assumptions C18_dh_same_keys.
Print Assumptions C18_dh_same_outcome.
Print Assumptions C18_suite_mismatch.
Print Assumptions C18_suite_names.
Print Assumptions C19_layout.
Print Assumptions C19_injective.
Print Assumptions C19_panics_iff.
