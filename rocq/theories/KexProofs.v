(** Lemmas for P_Kex.v. *)
From Verif Require Import Base BaseFacts ValueModel TypesModel Text KexModel KexSpec.
From Coq Require Import ZifyBool ZifyNat ZifyN Zpow_facts.
Local Open Scope N_scope.

Lemma be_dec_2 a b : be_dec [a; b] = a * 256 + b.
Proof. unfold be_dec. cbn. lia. Qed.

Lemma split_at_app {E} a b : @split_at E (nlen a) (a ++ b) = Ok (a, b).
Proof.
  unfold split_at. rewrite nlen_app. destruct (N.leb_spec (nlen a) (nlen a + nlen b)); [|lia].
  unfold nlen. rewrite Nat2N.id, firstn_app, Nat.sub_diag, firstn_all, firstn_O, app_nil_r, skipn_app, Nat.sub_diag, skipn_all. reflexivity.
Qed.
Lemma split_at_ok {E} n s a b : @split_at E n s = Ok (a, b) -> s = a ++ b /\ nlen a = n.
Proof.
  unfold split_at. destruct (N.leb_spec n (nlen s)); [|discriminate]. intros H0. inversion H0; subst. rewrite firstn_skipn.
  split; [reflexivity|]. unfold nlen in *. rewrite firstn_length. lia.
Qed.
Lemma split_at_cases {E} n s :
  (exists a b, @split_at E n s = Ok (a, b) /\ s = a ++ b /\ nlen a = n) \/ (@split_at E n s = Panic P_SPLIT /\ nlen s < n).
Proof.
  destruct (@split_at E n s) as [[a b]|e|w] eqn:H.
  - left. exists a, b. split; [reflexivity|]. eapply split_at_ok; exact H.
  - unfold split_at in H. destruct (n <=? nlen s); discriminate.
  - right. unfold split_at in H. destruct (N.leb_spec n (nlen s)); [discriminate|]. inversion H; subst. auto.
Qed.

(** Reading one field. *)
Lemma field_read {E} s a rest : is_field s a ->
  (let! (l, t) := @split_at E 2 (a ++ rest) in split_at (be_dec l) t) = Ok (s, rest).
Proof.
  intros [hi lo t H1 H2 L]. change ((hi :: lo :: t) ++ rest) with ([hi; lo] ++ (t ++ rest)).
  change 2 with (nlen [hi; lo]) at 1. rewrite split_at_app. cbn [bind]. rewrite be_dec_2, <- L. apply split_at_app.
Qed.
Lemma field_of_read {E} l s t u rest : bytes_ok t -> @split_at E 2 t = Ok (l, u) -> @split_at E (be_dec l) u = Ok (s, rest) ->
  exists a, is_field s a /\ t = a ++ rest.
Proof.
  intros B H1 H2. apply split_at_ok in H1, H2. destruct H1 as [-> L1], H2 as [-> L2].
  destruct l as [|hi [|lo [|? l]]]; try (unfold nlen in L1; cbn in L1; lia).
  exists (hi :: lo :: s). split; [|reflexivity]. apply bytes_ok_app in B. destruct B as [B _]. inversion B as [|? ? B1 B2]; subst. inversion B2; subst.
  constructor; auto.
Qed.
Lemma field_len s a : is_field s a -> nlen a = 2 + nlen s.
Proof. intros [hi lo t _ _ _]. unfold nlen. cbn [length]. lia. Qed.

Lemma decode_complete x y r s : is_kex_string x y r s -> decode_ecdh_bstr s = Ok (x, y, r).
Proof.
  intros (a & b & c & HA & HB & HC & ->). unfold decode_ecdh_bstr.
  pose proof (@field_read ferr x a (b ++ c) HA) as R1. pose proof (@field_read ferr y b c HB) as R2.
  pose proof (@field_read ferr r c [] HC) as R3. rewrite app_nil_r in R3.
  destruct (split_at 2 (a ++ b ++ c)) as [[l1 t1]| |]; cbn [bind] in *; try discriminate. rewrite R1. cbn [bind].
  destruct (split_at 2 (b ++ c)) as [[l2 t2]| |]; cbn [bind] in *; try discriminate. rewrite R2. cbn [bind].
  destruct (split_at 2 c) as [[l3 t3]| |]; cbn [bind] in *; try discriminate. rewrite R3. reflexivity.
Qed.
Lemma decode_sound x y r s : bytes_ok s -> decode_ecdh_bstr s = Ok (x, y, r) -> is_kex_string x y r s.
Proof.
  intros B H. unfold decode_ecdh_bstr in H.
  destruct (split_at 2 s) as [[l1 t1]| |] eqn:E1; cbn [bind] in H; try discriminate.
  destruct (split_at (be_dec l1) t1) as [[ax u1]| |] eqn:E2; cbn [bind] in H; try discriminate.
  destruct (field_of_read _ _ _ _ _ B E1 E2) as (a & HA & ->). apply bytes_ok_app in B. destruct B as [_ B].
  destruct (split_at 2 u1) as [[l2 t2]| |] eqn:E3; cbn [bind] in H; try discriminate.
  destruct (split_at (be_dec l2) t2) as [[ay u2]| |] eqn:E4; cbn [bind] in H; try discriminate.
  destruct (field_of_read _ _ _ _ _ B E3 E4) as (b & HB & ->). apply bytes_ok_app in B. destruct B as [_ B].
  destruct (split_at 2 u2) as [[l3 t3]| |] eqn:E5; cbn [bind] in H; try discriminate.
  destruct (split_at (be_dec l3) t3) as [[rr u3]| |] eqn:E6; cbn [bind] in H; try discriminate.
  destruct (field_of_read _ _ _ _ _ B E5 E6) as (c & HC & ->). destruct u3; [|discriminate]. inversion H; subst.
  exists a, b, c. rewrite app_nil_r. auto.
Qed.

Lemma be_enc_2 n : n < 65536 -> be_enc 2 n = [n / 256; n mod 256].
Proof. intros H. cbn [be_enc app]. f_equal. apply N.mod_small. apply N.div_lt_upper_bound; lia. Qed.
Lemma enc_field s : nlen s < 65536 -> is_field s (be_enc 2 (nlen s mod 65536) ++ s).
Proof.
  intros H. rewrite N.mod_small by exact H. rewrite be_enc_2 by exact H. cbn [app]. constructor.
  - apply N.div_lt_upper_bound; lia.
  - apply N.mod_lt. lia.
  - pose proof (N.div_mod (nlen s) 256). lia.
Qed.
Lemma encode_is_kex x y r : nlen x < 65536 -> nlen y < 65536 -> nlen r < 65536 -> is_kex_string x y r (encode_ecdh_bstr x y r).
Proof.
  intros H1 H2 H3. exists (be_enc 2 (nlen x mod 65536) ++ x), (be_enc 2 (nlen y mod 65536) ++ y), (be_enc 2 (nlen r mod 65536) ++ r).
  do 3 (split; [apply enc_field; assumption|]). unfold encode_ecdh_bstr. rewrite <- !app_assoc. reflexivity.
Qed.
Lemma is_field_enc s a : is_field s a -> nlen s < 65536 /\ a = be_enc 2 (nlen s mod 65536) ++ s.
Proof.
  intros [hi lo t H1 H2 L]. assert (nlen t < 65536) by lia. split; [assumption|].
  rewrite N.mod_small by assumption. rewrite be_enc_2 by assumption. rewrite L. cbn [app].
  replace ((hi * 256 + lo) / 256) with hi by lia. replace ((hi * 256 + lo) mod 256) with lo by lia. reflexivity.
Qed.
Lemma is_kex_encode x y r s : is_kex_string x y r s -> s = encode_ecdh_bstr x y r /\ nlen x < 65536 /\ nlen y < 65536 /\ nlen r < 65536.
Proof.
  intros (a & b & c & HA & HB & HC & ->). apply is_field_enc in HA, HB, HC. destruct HA as [? ->], HB as [? ->], HC as [? ->].
  split; [|auto]. unfold encode_ecdh_bstr. rewrite <- !app_assoc. reflexivity.
Qed.

(** [decode] never gives any error but the key exchange error. *)
Lemma decode_cases s : (exists t, decode_ecdh_bstr s = Ok t) \/ decode_ecdh_bstr s = Err FKeyExchange \/ decode_ecdh_bstr s = Panic P_SPLIT.
Proof.
  unfold decode_ecdh_bstr.
  destruct (@split_at_cases ferr 2 s) as [(l1 & t1 & -> & _)|[-> _]]; cbn [bind]; [|auto].
  destruct (@split_at_cases ferr (be_dec l1) t1) as [(ax & u1 & -> & _)|[-> _]]; cbn [bind]; [|auto].
  destruct (@split_at_cases ferr 2 u1) as [(l2 & t2 & -> & _)|[-> _]]; cbn [bind]; [|auto].
  destruct (@split_at_cases ferr (be_dec l2) t2) as [(ay & u2 & -> & _)|[-> _]]; cbn [bind]; [|auto].
  destruct (@split_at_cases ferr 2 u2) as [(l3 & t3 & -> & _)|[-> _]]; cbn [bind]; [|auto].
  destruct (@split_at_cases ferr (be_dec l3) t3) as [(rr & u3 & -> & _)|[-> _]]; cbn [bind]; [|auto].
  destruct u3; eauto.
Qed.
Lemma decode_err s : bytes_ok s ->
  (decode_ecdh_bstr s = Err FKeyExchange <-> exists x y r k extra, is_kex_string x y r k /\ extra <> [] /\ s = k ++ extra).
Proof.
  intros B. split.
  - intros H. unfold decode_ecdh_bstr in H.
    destruct (@split_at_cases ferr 2 s) as [(l1 & t1 & E1 & _)|[E1 _]]; rewrite E1 in H; cbn [bind] in H; [|discriminate].
    destruct (@split_at_cases ferr (be_dec l1) t1) as [(ax & u1 & E2 & _)|[E2 _]]; rewrite E2 in H; cbn [bind] in H; [|discriminate].
    destruct (field_of_read _ _ _ _ _ B E1 E2) as (a & HA & ->). apply bytes_ok_app in B. destruct B as [_ B].
    destruct (@split_at_cases ferr 2 u1) as [(l2 & t2 & E3 & _)|[E3 _]]; rewrite E3 in H; cbn [bind] in H; [|discriminate].
    destruct (@split_at_cases ferr (be_dec l2) t2) as [(ay & u2 & E4 & _)|[E4 _]]; rewrite E4 in H; cbn [bind] in H; [|discriminate].
    destruct (field_of_read _ _ _ _ _ B E3 E4) as (b & HB & ->). apply bytes_ok_app in B. destruct B as [_ B].
    destruct (@split_at_cases ferr 2 u2) as [(l3 & t3 & E5 & _)|[E5 _]]; rewrite E5 in H; cbn [bind] in H; [|discriminate].
    destruct (@split_at_cases ferr (be_dec l3) t3) as [(rr & u3 & E6 & _)|[E6 _]]; rewrite E6 in H; cbn [bind] in H; [|discriminate].
    destruct (field_of_read _ _ _ _ _ B E5 E6) as (c & HC & ->). destruct u3 as [|z u3]; [discriminate|].
    exists ax, ay, rr, (a ++ b ++ c), (z :: u3). split; [exists a, b, c; auto|]. split; [discriminate|]. rewrite <- !app_assoc. reflexivity.
  - intros (x & y & r & k & extra & (a & b & c & HA & HB & HC & ->) & NE & ->). rewrite <- !app_assoc. unfold decode_ecdh_bstr.
    pose proof (@field_read ferr x a (b ++ c ++ extra) HA) as R1. pose proof (@field_read ferr y b (c ++ extra) HB) as R2.
    pose proof (@field_read ferr r c extra HC) as R3.
    destruct (split_at 2 (a ++ b ++ c ++ extra)) as [[l1 t1]| |]; cbn [bind] in *; try discriminate. rewrite R1. cbn [bind].
    destruct (split_at 2 (b ++ c ++ extra)) as [[l2 t2]| |]; cbn [bind] in *; try discriminate. rewrite R2. cbn [bind].
    destruct (split_at 2 (c ++ extra)) as [[l3 t3]| |]; cbn [bind] in *; try discriminate. rewrite R3. cbn [bind].
    destruct extra; [congruence|reflexivity].
Qed.

(** * Big numbers *)
Lemma size_pow n : n < 2 ^ N.size n.
Proof. apply N.size_gt. Qed.
Lemma bn_dec n : be_dec (bn_to_vec n) = n.
Proof.
  unfold bn_to_vec. apply be_dec_enc. rewrite N2Nat.id. eapply N.lt_le_trans; [apply size_pow|].
  change 256 with (2 ^ 8). rewrite <- N.pow_mul_r. apply N.pow_le_mono_r; lia.
Qed.
Lemma bn_len n k : n < 256 ^ k -> nlen (bn_to_vec n) <= k.
Proof.
  intros H. unfold bn_to_vec, nlen. rewrite be_enc_length, N2Nat.id.
  destruct (N.eq_dec n 0) as [->|NZ]; [cbn; lia|].
  assert (N.size n <= 8 * k); [|lia].
  destruct (N.le_gt_cases (N.size n) (8 * k)) as [L|L]; [exact L|]. exfalso.
  pose proof (N.size_le n) as S.
  assert (2 ^ (8 * k + 1) <= 2 ^ N.size n) by (apply N.pow_le_mono_r; lia).
  rewrite N.pow_add_r, N.pow_mul_r in H0. change (2 ^ 8) with 256 in H0. change (2 ^ 1) with 2 in H0.
  rewrite N.succ_double_spec in S. lia.
Qed.
Lemma bn_ok n : bytes_ok (bn_to_vec n).
Proof. apply be_enc_ok. Qed.

(** * Modular powers *)
Lemma pow_mod_spec b e p : p <> 0 -> pow_mod b e p = (b ^ e) mod p.
Proof.
  intros H. unfold pow_mod. rewrite Zpow_mod_correct by lia. rewrite <- N2Z.inj_pow, <- N2Z.inj_mod, N2Z.id. reflexivity.
Qed.
Lemma pow_mod_mod b e p : p <> 0 -> ((b mod p) ^ e) mod p = (b ^ e) mod p.
Proof.
  intros H. induction e as [|e IH] using N.peano_ind; [rewrite !N.pow_0_r; reflexivity|].
  rewrite !N.pow_succ_r'. rewrite N.mul_mod, IH, N.mod_mod by exact H. rewrite <- N.mul_mod by exact H. reflexivity.
Qed.
Lemma pow_mod_commute g a b p : p <> 0 -> pow_mod (pow_mod g a p) b p = pow_mod (pow_mod g b p) a p.
Proof.
  intros H. rewrite !pow_mod_spec by exact H. rewrite !pow_mod_mod by exact H. rewrite <- !N.pow_mul_r, N.mul_comm. reflexivity.
Qed.

(** * Suites by name *)
Lemma kexsuite_name_of s : kexsuite_of (kexsuite_name s) = Ok s.
Proof. destruct s; vm_compute; reflexivity. Qed.
Lemma str_eqb_eq a b : str_eqb a b = true <-> a = b.
Proof. apply list_eqb_spec. intros; apply N.eqb_eq. Qed.
Lemma kexsuite_of_name n s : kexsuite_of n = Ok s -> n = kexsuite_name s.
Proof.
  unfold kexsuite_of. intros H.
  destruct (str_eqb n (txt "ECDH256")) eqn:E1; [apply str_eqb_eq in E1; inversion H; subst s n; reflexivity|].
  destruct (str_eqb n (txt "ECDH384")) eqn:E2; [apply str_eqb_eq in E2; inversion H; subst s n; reflexivity|].
  destruct (str_eqb n (txt "DHKEXid14")) eqn:E3; [apply str_eqb_eq in E3; inversion H; subst s n; reflexivity|].
  destruct (str_eqb n (txt "DHKEXid15")) eqn:E4; [apply str_eqb_eq in E4; inversion H; subst s n; reflexivity|].
  discriminate.
Qed.
