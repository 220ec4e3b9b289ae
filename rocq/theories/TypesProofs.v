(** Round trips of the typed values, COSE objects, prefix stability of the array reader. *)
From Verif Require Import Base BaseFacts CborSpec CborModel CborProofs ValueModel ValueProofs TypesModel CryptoSpec.
From Coq Require Import ZifyBool ZifyNat ZifyN.
Ltac Zify.zify_post_hook ::= Z.div_mod_to_equations.
Local Open Scope N_scope.

(** * The reader is stable under appending input *)

Lemma read_exact_more n s a b x : read_exact n s = Some (a, b) -> read_exact n (s ++ x) = Some (a, b ++ x).
Proof.
  intros H. apply read_exact_some in H. destruct H as [-> H]. rewrite <- app_assoc, <- H. apply read_exact_app.
Qed.

Lemma read_len_more s b v raw rest x :
  read_len s b = Ok (v, raw, rest) -> read_len (s ++ x) b = Ok (v, raw, rest ++ x).
Proof.
  rewrite !read_len_eq. destruct (arg_size b) as [k|]; [|discriminate].
  destruct (k =? 0); [intros E; inversion E; subst; reflexivity|].
  destruct (read_exact k s) as [[buf r]|] eqn:E; [|discriminate].
  rewrite (read_exact_more _ _ _ _ x E). intros E'; inversion E'; subst; reflexivity.
Qed.

Ltac rl := match goal with
  | H : bind (read_len ?s ?b) _ = Ok _ |- _ =>
    let v := fresh "v" in let raw := fresh "raw" in let r := fresh "r" in let E := fresh "RL" in
    destruct (read_len s b) as [[[v raw] r]| |] eqn:E; cbn [bind] in H; [|discriminate|discriminate];
    rewrite (read_len_more _ _ _ _ _ _ E); cbn [bind]
  end.

Lemma round_more chk st buf acc s st' buf' acc' s' x :
  round chk st buf acc s = Ok (st', buf', acc', s') ->
  round chk st buf acc (s ++ x) = Ok (st', buf', acc', s' ++ x).
Proof.
  unfold round. destruct s as [|b s1]; [discriminate|]. cbn [app].
  destruct (mtype_of (N.land b MASK_TYPE)) as [m| |]; cbn [bind]; [|discriminate|discriminate].
  intros H. destruct m; try discriminate.
  - rl. destruct (finish_item st _ _) as [[[a0 b0] c0]| |]; cbn [bind] in *; try discriminate. inversion H; subst; reflexivity.
  - rl. destruct (finish_item st _ _) as [[[a0 b0] c0]| |]; cbn [bind] in *; try discriminate. inversion H; subst; reflexivity.
  - rl. destruct (two63 <=? v); [discriminate|].
    destruct (read_exact v r) as [[bd s3]|] eqn:RE; [|discriminate].
    rewrite (read_exact_more _ _ _ _ x RE).
    destruct (finish_item st _ _) as [[[a0 b0] c0]| |]; cbn [bind] in *; try discriminate. inversion H; subst; reflexivity.
  - rl. destruct (two63 <=? v); [discriminate|].
    destruct (read_exact v r) as [[bd s3]|] eqn:RE; [|discriminate].
    rewrite (read_exact_more _ _ _ _ x RE).
    destruct (finish_item st _ _) as [[[a0 b0] c0]| |]; cbn [bind] in *; try discriminate. inversion H; subst; reflexivity.
  - rl. destruct (finish_item _ _ _) as [[[a0 b0] c0]| |]; cbn [bind] in *; try discriminate. inversion H; subst; reflexivity.
  - rl. destruct (if v =? 0 then Ok st else _) as [st1| |]; cbn [bind] in *; try discriminate.
    destruct (finish_item _ _ _) as [[[a0 b0] c0]| |]; cbn [bind] in *; try discriminate. inversion H; subst; reflexivity.
  - rl. inversion H; subst; reflexivity.
Qed.

Lemma loop_more chk fuel : forall st buf acc s its rest x fuel',
  items_loop chk fuel st buf acc s = Ok (its, rest) -> (fuel <= fuel')%nat ->
  items_loop chk fuel' st buf acc (s ++ x) = Ok (its, rest ++ x).
Proof.
  induction fuel as [|fuel IH]; intros st buf acc s its rest x fuel' H Hf; destruct st as [|a st].
  - destruct fuel'; cbn in *; inversion H; subst; reflexivity.
  - discriminate.
  - destruct fuel'; cbn in *; inversion H; subst; reflexivity.
  - destruct fuel' as [|fuel']; [lia|]. cbn [items_loop] in *.
    destruct (round chk (a :: st) buf acc s) as [[[[st' buf'] acc'] s']| |] eqn:R; cbn [bind] in *; try discriminate.
    rewrite (round_more _ _ _ _ _ _ _ _ _ x R). cbn [bind]. apply IH; auto. lia.
Qed.

Lemma parse_more chk size s a rest x :
  parse_array chk size s = Ok (a, rest) -> parse_array chk size (s ++ x) = Ok (a, rest ++ x).
Proof.
  unfold parse_array. destruct s as [|b0 s1]; [discriminate|]. cbn [app].
  destruct (mtype_of (N.land b0 MASK_TYPE)) as [m0| |]; cbn [bind]; [|discriminate|discriminate].
  assert (K : forall tag b1 s2,
    (let! m1 := mtype_of (N.land b1 MASK_TYPE) in
     if negb (mtype_eqb m1 MArray) then Err (EInvalidTopLevelType m1)
     else
      let! (len, _, s3) := read_len s2 b1 in
      match size with
      | Some expected =>
        if negb (len =? expected) then Err (EInvalidNumberOfElements len expected)
        else
          let! (its, s4) := items_loop chk (S (length s3)) [len] [] [] s3 in
          if negb (nlen its =? expected) then Err EParseFailure
          else Ok (PA tag its, s4)
      | None =>
        if len =? 0 then Ok (PA tag [], s3)
        else
          let! (its, s4) := items_loop chk (S (length s3)) [len] [] [] s3 in
          Ok (PA tag its, s4)
      end) = Ok (a, rest) ->
    (let! m1 := mtype_of (N.land b1 MASK_TYPE) in
     if negb (mtype_eqb m1 MArray) then Err (EInvalidTopLevelType m1)
     else
      let! (len, _, s3) := read_len (s2 ++ x) b1 in
      match size with
      | Some expected =>
        if negb (len =? expected) then Err (EInvalidNumberOfElements len expected)
        else
          let! (its, s4) := items_loop chk (S (length s3)) [len] [] [] s3 in
          if negb (nlen its =? expected) then Err EParseFailure
          else Ok (PA tag its, s4)
      | None =>
        if len =? 0 then Ok (PA tag [], s3)
        else
          let! (its, s4) := items_loop chk (S (length s3)) [len] [] [] s3 in
          Ok (PA tag its, s4)
      end) = Ok (a, rest ++ x)).
  { intros tag b1 s2 H.
    destruct (mtype_of (N.land b1 MASK_TYPE)) as [m1| |]; cbn [bind] in *; try discriminate.
    destruct (negb (mtype_eqb m1 MArray)); [discriminate|].
    rl.
    assert (L : forall its s4, items_loop chk (S (length r)) [v] [] [] r = Ok (its, s4) ->
       items_loop chk (S (length (r ++ x))) [v] [] [] (r ++ x) = Ok (its, s4 ++ x)).
    { intros its s4 E. eapply loop_more; [exact E|]. rewrite app_length. lia. }
    destruct size as [e|].
    - destruct (negb (v =? e)); [discriminate|].
      destruct (items_loop chk (S (length r)) [v] [] [] r) as [[its s4]| |]; cbn [bind] in H; try discriminate.
      rewrite (L _ _ eq_refl). cbn [bind]. destruct (negb (nlen its =? e)); [discriminate|]. inversion H; subst; reflexivity.
    - destruct (v =? 0); [inversion H; subst; reflexivity|].
      destruct (items_loop chk (S (length r)) [v] [] [] r) as [[its s4]| |]; cbn [bind] in H; try discriminate.
      rewrite (L _ _ eq_refl). cbn [bind]. inversion H; subst; reflexivity. }
  intros H. destruct m0; try discriminate.
  - cbn [bind] in *. apply K. exact H.
  - destruct (read_len s1 b0) as [[[t raw] r]| |] eqn:RL; cbn [bind] in H; try discriminate.
    rewrite (read_len_more _ _ _ _ _ x RL). cbn [bind].
    destruct r as [|b1 s3]; [discriminate|]. cbn [app bind] in *. apply K. exact H.
Qed.

Lemma parse_data_more chk size s a x :
  parse_array_data chk size s = Ok a -> parse_array_data chk size (s ++ x) = Ok a.
Proof.
  unfold parse_array_data. destruct (parse_array chk size s) as [[a' r]| |] eqn:E; cbn [bind]; try discriminate.
  intros H. rewrite (parse_more _ _ _ _ _ x E). cbn [bind]. exact H.
Qed.

(** The announced number of elements does not depend on the size asked for. *)
Lemma parse_size_unique chk n m s a b :
  parse_array_data chk (Some n) s = Ok a -> parse_array_data chk (Some m) s = Ok b -> n = m.
Proof.
  unfold parse_array_data, parse_array. destruct s as [|b0 s1]; [discriminate|].
  destruct (mtype_of (N.land b0 MASK_TYPE)) as [m0| |]; cbn [bind]; try discriminate.
  assert (K : forall tag b1 s2,
    (let! (a, _) := (let! m1 := mtype_of (N.land b1 MASK_TYPE) in
     if negb (mtype_eqb m1 MArray) then Err (EInvalidTopLevelType m1)
     else
      let! (len, _, s3) := read_len s2 b1 in
        if negb (len =? n) then Err (EInvalidNumberOfElements len n)
        else
          let! (its, s4) := items_loop chk (S (length s3)) [len] [] [] s3 in
          if negb (nlen its =? n) then Err EParseFailure
          else Ok (PA tag its, s4)) in Ok a) = Ok a ->
    (let! (a, _) := (let! m1 := mtype_of (N.land b1 MASK_TYPE) in
     if negb (mtype_eqb m1 MArray) then Err (EInvalidTopLevelType m1)
     else
      let! (len, _, s3) := read_len s2 b1 in
        if negb (len =? m) then Err (EInvalidNumberOfElements len m)
        else
          let! (its, s4) := items_loop chk (S (length s3)) [len] [] [] s3 in
          if negb (nlen its =? m) then Err EParseFailure
          else Ok (PA tag its, s4)) in Ok a) = Ok b -> n = m).
  { intros tag b1 s2.
    destruct (mtype_of (N.land b1 MASK_TYPE)) as [m1| |]; cbn [bind]; try discriminate.
    destruct (negb (mtype_eqb m1 MArray)); [discriminate|].
    destruct (read_len s2 b1) as [[[v raw] r]| |]; cbn [bind]; try discriminate.
    destruct (N.eqb_spec v n); cbn [negb bind]; [|discriminate].
    destruct (N.eqb_spec v m); cbn [negb bind]; [|discriminate]. congruence. }
  destruct m0; try discriminate; cbn [bind].
  - apply K.
  - destruct (read_len s1 b0) as [[[t raw] r]| |]; cbn [bind]; try discriminate.
    destruct r as [|b1 s3]; [discriminate|]. cbn [bind]. apply K.
Qed.

(** * Sizes *)
Lemma enc_head_nlen m v : nlen (enc_head m v) <= 9.
Proof.
  unfold enc_head, nlen. repeat (destruct (_ <? _)); cbn [length]; rewrite ?be_enc_length; lia.
Qed.
Lemma enc_bytes_nlen b : nlen (enc (VBytes b)) <= 9 + nlen b.
Proof. cbn [enc]. rewrite nlen_app. pose proof (enc_head_nlen 2 (nlen b)). lia. Qed.
Lemma enc_int_nlen z : nlen (enc (VInt z)) <= 9.
Proof. cbn [enc]. unfold enc_int. destruct (0 <=? z)%Z; apply enc_head_nlen. Qed.

(** * Arrays written by the serde side read by the array reader *)
Lemma enc_arr_cbor l d : vok d (VArr l) -> forallb plain l = true -> cbor_array None (map enc l) (enc (VArr l)).
Proof.
  intros H Hp. destruct d as [|d]; [contradiction|]. cbn [vok] in H. destruct H as [Hl Hv].
  cbn [enc]. constructor.
  - unfold nlen in *. rewrite map_length. apply enc_head_head; [lia|auto].
  - apply items_of_forall, Forall_map. rewrite Forall_forall in *. rewrite forallb_forall in Hp.
    intros x Hx. eapply enc_item; [apply Hv|]; auto.
Qed.

(** * Typed round trips *)
Lemma as_hash_val h : as_hash (hash_val h) = Some h.
Proof. destruct h as [[] b]; reflexivity. Qed.

Lemma hashtype_of_num t : hashtype_of (hashtype_num t) = Some t.
Proof. destruct t; reflexivity. Qed.


Lemma as_pubkey_val c p : pubkey_valid c p -> as_pubkey c (pubkey_val p) = Some p.
Proof.
  intros (Ht & He & _ & Hn). unfold as_pubkey, pubkey_val, as_fields. cbn [untag].
  unfold as_u8, as_int. cbn [untag as_bytebuf].
  assert (Hte : pk_type p <= 11).
  { unfold is_pk_type in Ht. cbn [existsb] in Ht. lia. }
  unfold is_pk_enc in He.
  assert (((0 <=? Z.of_N (pk_type p)) && (Z.of_N (pk_type p) <=? 255))%Z = true) as -> by lia.
  assert (((0 <=? Z.of_N (pk_enc p)) && (Z.of_N (pk_enc p) <=? 255))%Z = true) as -> by lia.
  cbn [option_map]. rewrite !N2Z.id, Ht. unfold is_pk_enc. rewrite He. cbn [andb]. rewrite Hn. reflexivity.
Qed.

Lemma all_some_map {A B} (f : B -> option A) (g : A -> B) l :
  (forall x, In x l -> f (g x) = Some x) -> all_some (map f (map g l)) = Some l.
Proof.
  induction l as [|x l IH]; intros H; cbn [map all_some]; [reflexivity|].
  rewrite H by (left; auto). rewrite IH; [reflexivity|]. intros y Hy. apply H. right; auto.
Qed.


Lemma as_rv_info_val r : rv_ok r -> as_rv_info (rv_info_val r) = Some r.
Proof.
  intros [_ H]. unfold as_rv_info, rv_info_val, as_list at 1. cbn [untag].
  apply all_some_map. intros d Hd. rewrite Forall_forall in H. destruct (H _ Hd) as [_ H'].
  unfold as_list. cbn [untag]. apply all_some_map. intros [k b] Hi. rewrite Forall_forall in H'.
  destruct (H' _ Hi) as [Hk _]. cbn [fst snd] in *. unfold as_rv_instruction, as_fields. cbn [untag].
  unfold as_rv_variable, as_int. cbn [untag].
  assert (((0 <=? Z.of_N k) && (Z.of_N k <=? 14))%Z = true) as -> by lia. cbn [option_map as_bytebuf untag].
  rewrite N2Z.id. reflexivity.
Qed.


Lemma as_x5chain_val c ch : chain_ok c ch -> as_x5chain c (x5chain_val ch) = Some ch.
Proof.
  intros [_ H]. unfold as_x5chain, x5chain_val, as_list. cbn [untag]. apply all_some_map.
  intros b Hb. cbn [as_bytebuf untag]. rewrite Forall_forall in H. apply H; auto.
Qed.

Lemma vok_mono v : forall d d', vok d v -> (d <= d')%nat -> vok d' v.
Proof.
  induction v as [z|b|b|l IH|l IH|t v IH|b|] using cval_ind2; intros [|d] [|d'] H Hd; try contradiction; try lia;
    cbn [vok] in *; auto.
  - destruct H as [H1 H2]. split; [auto|]. rewrite Forall_forall in *. intros x Hx. eapply IH; [auto|apply H2; auto|lia].
  - destruct H as [H1 H2]. split; [auto|]. rewrite Forall_forall in *. intros x Hx.
    destruct (IH _ Hx), (H2 _ Hx). split; [eapply H|eapply H0]; eauto; lia.
  - destruct H as [H1 H2]. split; [auto|]. eapply IH; eauto. lia.
Qed.

Lemma hashtype_num_range t : (-128 <= hashtype_num t <= 127)%Z.
Proof. destruct t; cbn; lia. Qed.

Lemma vok_hash d h : (2 <= d)%nat -> bytes_ok (h_value h) -> nlen (h_value h) < two64 -> vok d (hash_val h).
Proof.
  intros Hd Hb Hl. eapply vok_mono with (d := 2%nat); [|auto]. unfold hash_val. cbn [vok].
  split; [unfold nlen, two64; cbn; lia|]. constructor.
  - pose proof (hashtype_num_range (h_type h)). unfold two64. cbn. lia.
  - constructor; [split; auto|constructor].
Qed.

Lemma vok_pubkey d c p : (2 <= d)%nat -> pubkey_valid c p -> nlen (pk_data p) < two64 -> vok d (pubkey_val p).
Proof.
  intros Hd (Ht & He & Hb & _) Hl. eapply vok_mono with (d := 2%nat); [|auto]. unfold pubkey_val. cbn [vok].
  unfold is_pk_type, is_pk_enc in *. cbn [existsb] in Ht.
  assert (pk_type p <= 11) by lia.
  split; [unfold nlen, two64; cbn; lia|]. constructor; [unfold two64; lia|].
  constructor; [unfold two64; lia|]. constructor; [split; auto|constructor].
Qed.

Lemma nlen_map {A B} (f : A -> B) l : nlen (map f l) = nlen l.
Proof. unfold nlen. rewrite map_length. reflexivity. Qed.

Lemma vok_rv d r : (4 <= d)%nat -> rv_ok r -> vok d (rv_info_val r).
Proof.
  intros Hd [H1 H2]. eapply vok_mono with (d := 4%nat); [|auto]. unfold rv_info_val. cbn [vok].
  split; [rewrite nlen_map; eapply N.lt_trans; [exact H1|reflexivity]|]. apply Forall_map.
  rewrite Forall_forall in *. intros x Hx. destruct (H2 _ Hx) as [H3 H4].
  split; [rewrite nlen_map; eapply N.lt_trans; [exact H3|reflexivity]|]. apply Forall_map.
  rewrite Forall_forall in *. intros [k b] Hi. destruct (H4 _ Hi) as (H5 & H6 & H7). cbn [fst snd] in *.
  split; [unfold nlen, two64; cbn; lia|]. constructor; [unfold two64; lia|].
  constructor; [split; [auto|unfold two64; lia]|constructor].
Qed.

Lemma vok_chain d c ch : (2 <= d)%nat -> chain_ok c ch -> vok d (x5chain_val ch).
Proof.
  intros Hd [H1 H2]. eapply vok_mono with (d := 2%nat); [|auto]. unfold x5chain_val. cbn [vok].
  split; [rewrite nlen_map; eapply N.lt_trans; [exact H1|reflexivity]|]. apply Forall_map.
  rewrite Forall_forall in *. intros b Hb. destruct (H2 _ Hb) as (H5 & H6 & _).
  split; auto. unfold two64. lia.
Qed.

Lemma vok_text d s : (1 <= d)%nat -> forallb is_scalar s = true -> nlen (utf8_enc s) < two64 -> vok d (VText (utf8_enc s)).
Proof. intros Hd Hs Hl. destruct d; [lia|]. cbn [vok]. split; [apply utf8_enc_ok|]; auto. Qed.

Lemma from_slice_enc {A} (f : cval -> option A) v : vok MAX_DEPTH v -> from_slice f (enc v) = of_option FSerde (f v).
Proof. intros H. unfold from_slice. rewrite dec_top_enc; auto. Qed.

(** * COSE *)
Definition cose_inner_val (p : bytes) (u : list (cval * cval)) (pl sg : bytes) : list cval :=
  [VBytes p; VMap u; VBytes pl; VBytes sg].

(** Sizes that fit any machine. *)
Definition D99 : nat := 99.
Definition D101 : nat := S (S D99).
Definition D102 : nat := S D101.
Lemma D102_le : (D102 <= MAX_DEPTH)%nat.
Proof. unfold D102, D101, D99, MAX_DEPTH. lia. Qed.
Global Opaque D99.

Definition cose_fits (p : bytes) (u : list (cval * cval)) (pl sg : bytes) : Prop :=
  bytes_ok p /\ bytes_ok pl /\ bytes_ok sg /\ vok (S D99) (VMap u) /\ plain (VMap u) = true /\
  nlen (enc (VArr (cose_inner_val p u pl sg))) + 2 < two63.

Lemma bytes_in_size b : nlen b <= nlen (enc (VBytes b)).
Proof. cbn [enc]. rewrite nlen_app. lia. Qed.

Lemma vok_arr d l : nlen l < two64 -> Forall (vok d) l -> vok (S d) (VArr l).
Proof. cbn [vok]. auto. Qed.
Lemma vok_arr_inv d l : vok (S d) (VArr l) -> Forall (vok d) l.
Proof. cbn [vok]. tauto. Qed.
Lemma vok_tag d t v : t < two64 -> vok d v -> vok (S d) (VTag t v).
Proof. cbn [vok]. auto. Qed.
Lemma vok_bytes d b : bytes_ok b -> nlen b < two64 -> vok (S d) (VBytes b).
Proof. cbn [vok]. auto. Qed.
Lemma vok_S d : d <> O -> exists d', d = S d'.
Proof. destruct d; [congruence|eauto]. Qed.


Lemma cose_fits_vok p u pl sg : cose_fits p u pl sg -> vok D101 (VArr (cose_inner_val p u pl sg)).
Proof.
  intros (Hp & Hpl & Hsg & Hu & Hpu & Hs).
  pose proof (bytes_in_size p). pose proof (bytes_in_size pl). pose proof (bytes_in_size sg).
  unfold cose_inner_val in *. cbn [enc] in Hs. cbn [map concat] in Hs. rewrite !nlen_app in Hs.
  cbn [enc] in *. rewrite ?nlen_app in *. unfold two63 in Hs.
  apply vok_arr; [unfold nlen, two64; cbn; lia|].
  constructor; [apply vok_bytes; [auto|unfold two64; lia]|].
  constructor; [exact Hu|].
  constructor; [apply vok_bytes; [auto|unfold two64; lia]|].
  constructor; [apply vok_bytes; [auto|unfold two64; lia]|constructor].
Qed.

Lemma cose_fits_item p u pl sg : cose_fits p u pl sg -> cbor_item (enc (VTag 18 (VArr (cose_inner_val p u pl sg)))).
Proof.
  intros H. pose proof (cose_fits_vok _ _ _ _ H) as V. destruct H as (_ & _ & _ & _ & Hpl & _).
  eapply enc_item with (d := D102).
  - apply vok_tag; [unfold two64; lia|exact V].
  - cbn [plain forallb cose_inner_val andb]. cbn [plain] in Hpl. rewrite Hpl. reflexivity.
Qed.

Lemma cose_from_inner_eq chk p u pl sg :
  cose_fits p u pl sg ->
  cose_from_inner chk p u pl sg
  = Ok (Cose (PA (Some COSESIGN_TAG) (map enc (cose_inner_val p u pl sg))) p u pl sg).
Proof.
  intros H. pose proof (cose_fits_vok _ _ _ _ H) as V. destruct H as (_ & _ & _ & _ & Hpl & Hs).
  unfold cose_from_inner, parse_array_data.
  assert (C : cbor_array None (map enc (cose_inner_val p u pl sg)) (enc (VArr (cose_inner_val p u pl sg)))).
  { eapply enc_arr_cbor; [exact V|]. cbn [forallb cose_inner_val]. rewrite Hpl. reflexivity. }
  change (VArr [VBytes p; VMap u; VBytes pl; VBytes sg]) with (VArr (cose_inner_val p u pl sg)).
  rewrite <- (app_nil_r (enc (VArr (cose_inner_val p u pl sg)))).
  rewrite (parse_std chk (Some 4) None _ _ [] C).
  - reflexivity.
  - right. split; [reflexivity|discriminate].
  - lia.
Qed.

Lemma cose_array_serialize p u pl sg :
  serialize_array (PA (Some COSESIGN_TAG) (map enc (cose_inner_val p u pl sg)))
  = Ok (enc (VTag 18 (VArr (cose_inner_val p u pl sg)))).
Proof. reflexivity. Qed.

Lemma cose_deserialize_built chk p u pl sg :
  cose_fits p u pl sg ->
  (exists pv, dec_top p = Some pv /\ as_map pv <> None) ->
  cose_deserialize chk (enc (VTag 18 (VArr (cose_inner_val p u pl sg))))
  = Ok (Cose (PA (Some COSESIGN_TAG) (map enc (cose_inner_val p u pl sg))) p u pl sg).
Proof.
  intros H [pv [Dp Hm]]. pose proof (cose_fits_vok _ _ _ _ H) as V. destruct H as (_ & _ & _ & _ & Hpl & Hs).
  unfold cose_deserialize, parse_array_data.
  assert (C : cbor_array (Some 18) (map enc (cose_inner_val p u pl sg))
                (enc (VTag 18 (VArr (cose_inner_val p u pl sg))))).
  { change (enc (VTag 18 (VArr (cose_inner_val p u pl sg))))
      with (enc_head 6 18 ++ enc_head 4 (nlen (map enc (cose_inner_val p u pl sg)))
            ++ concat (map enc (cose_inner_val p u pl sg))).
    constructor; [apply enc_head_head; unfold two64; lia|apply enc_head_head; unfold two64, nlen; cbn; lia|].
    apply items_of_forall, Forall_map. rewrite Forall_forall. intros x Hx.
    apply vok_arr_inv in V. rewrite Forall_forall in V.
    eapply enc_item; [apply V; auto|]. destruct Hx as [<-|[<-|[<-|[<-|[]]]]]; auto. }
  rewrite <- (app_nil_r (enc (VTag 18 _))).
  rewrite (parse_std chk (Some 4) (Some 18) _ _ [] C).
  2:{ right. split; [reflexivity|discriminate]. }
  2:{ change (nlen (enc (VTag 18 (VArr (cose_inner_val p u pl sg)))))
        with (nlen ([210] ++ enc (VArr (cose_inner_val p u pl sg)))).
      rewrite nlen_app. change (nlen [210]) with 1. unfold bytes in *. lia. }
  cbn [bind map_err pa_tag]. change (negb (18 =? COSESIGN_TAG)) with false. cbv iota.
  change (PA (Some 18) (map enc (cose_inner_val p u pl sg)))
    with (PA (Some COSESIGN_TAG) (map enc (cose_inner_val p u pl sg))).
  rewrite cose_array_serialize. cbn [map_err bind].
  unfold cose_inner_of_bytes. rewrite dec_top_enc.
  2:{ eapply vok_mono with (d := D102); [|exact D102_le]. apply vok_tag; [unfold two64; lia|exact V]. }
  unfold cose_inner_val. cbn [as_bytebuf untag as_map]. rewrite Dp.
  destruct (as_map pv); [|congruence]. reflexivity.
Qed.

Lemma alg_prot_dec alg :
  (-2147483648 <= alg < 2147483648)%Z -> dec_top (enc (VMap [(VInt 1, VInt alg)])) = Some (VMap [(VInt 1, VInt alg)]).
Proof.
  intros H. apply dec_top_enc. eapply vok_mono with (d := 2%nat); [|unfold MAX_DEPTH; lia]. cbn [vok].
  split; [unfold nlen, two64; cbn; lia|]. repeat constructor; cbn [fst snd]; unfold two64; lia.
Qed.

Lemma alg_prot_ok alg : (-2147483648 <= alg < 2147483648)%Z ->
  bytes_ok (enc (VMap [(VInt 1, VInt alg)])) /\ nlen (enc (VMap [(VInt 1, VInt alg)])) <= 27.
Proof.
  intros H. split.
  - eapply enc_bytes_ok with (d := 2%nat). cbn [vok].
    split; [unfold nlen, two64; cbn; lia|]. repeat constructor; cbn [fst snd]; unfold two64; lia.
  - cbn [enc map concat fst snd]. rewrite app_nil_r, !nlen_app.
    pose proof (enc_int_nlen 1). pose proof (enc_int_nlen alg). cbn [enc] in *.
    pose proof (enc_head_nlen 5 (nlen [(VInt 1, VInt alg)])). lia.
Qed.

(** A freshly signed object: what it is, and that it reads back and verifies. *)
Lemma cose_new_full c chk pl sk rnd alg :
  outputs_ok c -> sign_correct c -> c_alg c (c_pub c sk) = Some alg ->
  bytes_ok pl -> nlen pl < 4611686018427387904 ->
  exists e raw, cose_new c chk pl [] sk rnd = Ok e /\ cose_serialize e = Ok raw /\
    cose_deserialize chk raw = Ok e /\ cs_payload e = pl /\
    cose_check c e (c_pub c sk) = Ok true /\ cbor_item raw /\ bytes_ok raw /\
    nlen raw <= nlen pl + 131072.
Proof.
  intros (Hh & Hs & Ha) Hsc Halg Hpl Hlen.
  pose proof (Ha _ _ Halg) as Hr.
  destruct (alg_prot_ok alg Hr) as [Pok Plen].
  set (p := enc (VMap [(VInt 1, VInt alg)])) in *.
  set (sg := c_sign c sk (tbs p pl) rnd).
  destruct (Hs sk (tbs p pl) rnd) as [Sok Slen]. fold sg in Sok, Slen.
  assert (BIG : nlen (enc (VArr (cose_inner_val p [] pl sg))) <= nlen pl + 131000).
  { unfold cose_inner_val. cbn [enc map concat]. rewrite !nlen_app.
    pose proof (enc_head_nlen 4 (nlen [VBytes p; VMap []; VBytes pl; VBytes sg])).
    pose proof (enc_head_nlen 2 (nlen p)). pose proof (enc_head_nlen 2 (nlen pl)).
    pose proof (enc_head_nlen 2 (nlen sg)). pose proof (enc_head_nlen 5 (nlen (@nil (cval*cval)))).
    change (nlen (@nil N)) with 0. lia. }
  assert (F : cose_fits p [] pl sg).
  { repeat split; auto; try (cbn; constructor; fail).
    unfold two63. lia. }
  eexists. exists (enc (VTag 18 (VArr (cose_inner_val p [] pl sg)))).
  split; [|split; [|split; [|split; [|split; [|split; [|split]]]]]].
  - unfold cose_new, cose_new_with_protected. rewrite Halg. cbn [of_option bind app].
    change (enc (VMap [(VInt 1, VInt alg)])) with p. fold sg.
    apply cose_from_inner_eq. exact F.
  - unfold cose_serialize. cbn [cs_contents]. rewrite cose_array_serialize. reflexivity.
  - apply cose_deserialize_built; [exact F|]. exists (VMap [(VInt 1, VInt alg)]).
    split; [apply alg_prot_dec; auto|discriminate].
  - reflexivity.
  - unfold cose_check. cbn [cs_prot cs_payload cs_sig]. rewrite Halg. unfold p at 1. rewrite alg_prot_dec by auto.
    cbn [of_option bind as_map untag hdr_get]. rewrite !Z.eqb_refl. cbn [untag]. rewrite Z.eqb_refl. f_equal. apply Hsc.
  - apply cose_fits_item. exact F.
  - eapply enc_bytes_ok with (d := D102). apply vok_tag; [unfold two64; lia|]. apply cose_fits_vok. exact F.
  - change (nlen (enc (VTag 18 (VArr (cose_inner_val p [] pl sg)))))
        with (nlen ([210] ++ enc (VArr (cose_inner_val p [] pl sg)))).
    rewrite nlen_app. change (nlen [210]) with 1. unfold bytes in *. lia.
Qed.
