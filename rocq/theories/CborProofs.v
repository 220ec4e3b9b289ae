(** Proofs about the array reader and writer. *)
From Verif Require Import Base BaseFacts CborSpec CborModel.
From Coq Require Import ZifyBool ZifyNat ZifyN.
Ltac Zify.zify_post_hook ::= Z.div_mod_to_equations.
Local Open Scope N_scope.

(** * Bit operations *)

Lemma land_val b : N.land b MASK_VAL = b mod 32.
Proof. change MASK_VAL with (N.ones 5). rewrite N.land_ones. reflexivity. Qed.

Lemma land_type b : N.shiftr (N.land b MASK_TYPE) 5 = (b / 32) mod 8.
Proof.
  rewrite N.shiftr_land. change (N.shiftr MASK_TYPE 5) with (N.ones 3).
  rewrite N.land_ones, N.shiftr_div_pow2. reflexivity.
Qed.

Lemma mtype_of_land b : exists m, mtype_of (N.land b MASK_TYPE) = Ok m /\ mtype_num m = (b / 32) mod 8.
Proof.
  unfold mtype_of. rewrite land_type.
  assert (H : (b / 32) mod 8 < 8) by (apply N.mod_lt; lia).
  destruct ((b / 32) mod 8) as [|p]; [eexists; split; reflexivity|].
  do 3 (destruct p as [p|p|]; try (eexists; split; reflexivity)); lia.
Qed.

Lemma mtype_num_inj a b : mtype_num a = mtype_num b -> a = b.
Proof. destruct a, b; cbn; congruence. Qed.

Lemma mtype_of_head m k b : mtype_num m = k -> b / 32 = k -> mtype_of (N.land b MASK_TYPE) = Ok m.
Proof.
  intros Hm Hb. destruct (mtype_of_land b) as [m' [E E']].
  rewrite E. f_equal. apply mtype_num_inj. rewrite E', Hm, Hb.
  subst k. destruct m; reflexivity.
Qed.

Lemma lor_shift5 a b : b < 32 -> N.lor (N.shiftl a 5) b = a * 32 + b.
Proof.
  intros Hb. rewrite N.lor_comm.
  assert (E : N.land b (N.shiftl a 5) = 0).
  { apply N.bits_inj. intros i. rewrite N.land_spec, N.bits_0.
    destruct (N.ltb_spec i 5) as [Hi|Hi].
    - rewrite N.shiftl_spec_low by auto. apply andb_false_r.
    - assert (N.testbit b i = false) as ->; [|reflexivity].
      destruct (N.eq_dec b 0) as [->|Hn]; [apply N.bits_0|].
      apply N.bits_above_log2.
      assert (N.log2 b < 5); [|lia].
      apply N.log2_lt_pow2; [lia|]. cbn. lia. }
  rewrite <- N.lxor_lor by exact E.
  rewrite <- N.add_nocarry_lxor by exact E.
  rewrite N.shiftl_mul_pow2. change (2 ^ 5) with 32. lia.
Qed.

(** * Heads *)

Lemma read_len_minor s b : read_len s (N.land b MASK_VAL) = read_len s b.
Proof.
  unfold read_len. replace (N.land (N.land b MASK_VAL) MASK_VAL) with (N.land b MASK_VAL); [reflexivity|].
  rewrite <- N.land_assoc. reflexivity.
Qed.

Lemma read_exact_app a b : read_exact (nlen a) (a ++ b) = Some (a, b).
Proof.
  unfold read_exact. rewrite nlen_app.
  destruct (N.leb_spec (nlen a) (nlen a + nlen b)); [|lia].
  unfold nlen. rewrite Nat2N.id, firstn_app, skipn_app, Nat.sub_diag, firstn_all, skipn_all.
  cbn. rewrite app_nil_r. reflexivity.
Qed.

Lemma read_exact_some n s a b : read_exact n s = Some (a, b) -> s = a ++ b /\ nlen a = n.
Proof.
  unfold read_exact. destruct (N.leb_spec n (nlen s)) as [H|H]; [|discriminate].
  intros E; inversion E; subst. split; [symmetry; apply firstn_skipn|].
  unfold nlen in *. rewrite firstn_length. lia.
Qed.

Lemma read_exact_none n s : read_exact n s = None -> nlen s < n.
Proof. unfold read_exact. destruct (N.leb_spec n (nlen s)); [discriminate|auto]. Qed.

(** The size of the argument announced by a first byte. *)
Definition arg_size (b : N) : option N :=
  if b mod 32 <? 24 then Some 0
  else if b mod 32 =? 24 then Some 1
  else if b mod 32 =? 25 then Some 2
  else if b mod 32 =? 26 then Some 4
  else if b mod 32 =? 27 then Some 8
  else None.

Lemma read_len_eq s b :
  read_len s b =
  match arg_size b with
  | None => Err ELengthParseFailure
  | Some k => if k =? 0 then Ok (b mod 32, [], s)
              else match read_exact k s with
                   | None => Panic P_READ_LEN
                   | Some (buf, rest) => Ok (be_dec buf, buf, rest)
                   end
  end.
Proof.
  unfold read_len, arg_size. rewrite land_val.
  assert (Hlt : b mod 32 < 32) by (apply N.mod_lt; lia).
  destruct (N.leb_spec (b mod 32) 23) as [H|H].
  - assert (b mod 32 <? 24 = true) as -> by lia. reflexivity.
  - assert (b mod 32 <? 24 = false) as -> by lia.
    assert (C : b mod 32 = 24 \/ b mod 32 = 25 \/ b mod 32 = 26 \/ b mod 32 = 27 \/ b mod 32 = 28
            \/ b mod 32 = 29 \/ b mod 32 = 30 \/ b mod 32 = 31) by lia.
    destruct C as [->|[->|[->|[->|[->|[->|[->| ->]]]]]]]; reflexivity.
Qed.

Lemma read_len_head m v h rest :
  head m v h -> exists b t, h = b :: t /\ b / 32 = m /\ b < 256 /\ read_len (t ++ rest) b = Ok (v, t, rest).
Proof.
  intros H. destruct H as [Hm Hv|Hm Hv|Hm Hv|Hm Hv|Hm Hv];
    eexists; eexists; (split; [reflexivity|]);
    (split; [lia|]); (split; [lia|]); rewrite read_len_eq; unfold arg_size.
  - assert ((m * 32 + v) mod 32 = v) as -> by lia.
    assert (v <? 24 = true) as -> by lia. reflexivity.
  - assert ((m * 32 + 24) mod 32 = 24) as -> by lia. cbn [N.ltb N.eqb N.compare Pos.compare Pos.compare_cont Pos.eqb].
    change 1 with (nlen (be_enc 1 v)) at 1. rewrite read_exact_app, be_dec_enc; [reflexivity|cbn; lia].
  - assert ((m * 32 + 25) mod 32 = 25) as -> by lia. cbn [N.ltb N.eqb N.compare Pos.compare Pos.compare_cont Pos.eqb].
    change 2 with (nlen (be_enc 2 v)) at 1. rewrite read_exact_app, be_dec_enc; [reflexivity|cbn; lia].
  - assert ((m * 32 + 26) mod 32 = 26) as -> by lia. cbn [N.ltb N.eqb N.compare Pos.compare Pos.compare_cont Pos.eqb].
    change 4 with (nlen (be_enc 4 v)) at 1. rewrite read_exact_app, be_dec_enc; [reflexivity|cbn; lia].
  - assert ((m * 32 + 27) mod 32 = 27) as -> by lia. cbn [N.ltb N.eqb N.compare Pos.compare Pos.compare_cont Pos.eqb].
    change 8 with (nlen (be_enc 8 v)) at 1. rewrite read_exact_app, be_dec_enc; [reflexivity|cbn; lia].
Qed.

Lemma read_len_ok s b v raw rest :
  b < 256 -> bytes_ok s -> read_len s b = Ok (v, raw, rest) ->
  s = raw ++ rest /\ head (b / 32) v (b :: raw).
Proof.
  intros Hb Hs E. rewrite read_len_eq in E.
  unfold arg_size in E.
  pose proof (N.div_mod b 32 ltac:(lia)) as DM.
  assert (Hm : b / 32 < 8) by lia.
  destruct (N.ltb_spec (b mod 32) 24) as [H|H].
  - cbn in E. injection E as <- <- <-. split; [reflexivity|].
    replace b with (b / 32 * 32 + b mod 32) at 3 by lia. apply head_short; lia.
  - assert (forall k rest', read_exact k s = Some (raw, rest') -> v = be_dec raw ->
              bytes_ok raw /\ (forall kk, N.of_nat kk = k -> raw = be_enc kk v /\ v < 256 ^ k)) as Raw.
    { intros k rest' R Ev. apply read_exact_some in R. destruct R as [Es El].
      subst s. apply bytes_ok_app in Hs. destruct Hs as [Hr _]. split; [auto|].
      intros kk Ek. unfold nlen in El. assert (length raw = kk) by lia. subst kk v.
      split; [symmetry; apply be_enc_dec; auto|]. rewrite <- El. apply be_dec_lt. auto. }
    destruct (N.eqb_spec (b mod 32) 24) as [H1|H1]; [|
    destruct (N.eqb_spec (b mod 32) 25) as [H2|H2]; [|
    destruct (N.eqb_spec (b mod 32) 26) as [H3|H3]; [|
    destruct (N.eqb_spec (b mod 32) 27) as [H4|H4]; [|discriminate]]]].
    all: cbn [N.eqb Pos.eqb] in E.
    all: match type of E with context[read_exact ?k ?ss] => destruct (read_exact k ss) as [[r1 r2]|] eqn:R; [|discriminate] end.
    all: injection E as <- <- <-.
    all: pose proof (read_exact_some _ _ _ _ R) as [Es El]; split; [exact Es|].
    all: destruct (Raw _ _ R eq_refl) as [Hr Henc].
    + destruct (Henc 1%nat eq_refl) as [E1 E2]. rewrite E1 at 2.
      replace b with (b / 32 * 32 + 24) at 2 by lia. apply head_8; [lia|exact E2].
    + destruct (Henc 2%nat eq_refl) as [E1 E2]. rewrite E1 at 2.
      replace b with (b / 32 * 32 + 25) at 2 by lia. apply head_16; [lia|exact E2].
    + destruct (Henc 4%nat eq_refl) as [E1 E2]. rewrite E1 at 2.
      replace b with (b / 32 * 32 + 26) at 2 by lia. apply head_32; [lia|exact E2].
    + destruct (Henc 8%nat eq_refl) as [E1 E2]. rewrite E1 at 2.
      replace b with (b / 32 * 32 + 27) at 2 by lia. apply head_64; [lia|exact E2].
Qed.

Lemma head_nonempty m v h : head m v h -> exists b t, h = b :: t.
Proof. intros H; destruct H; eauto. Qed.

Lemma head_ok m v h : head m v h -> bytes_ok h.
Proof.
  intros H; destruct H; (constructor; [lia|]); try (apply be_enc_ok). constructor.
Qed.

Lemma head_bound m v h : head m v h -> v < two64 /\ m < 8.
Proof. unfold two64. intros H; destruct H; lia. Qed.

Lemma encode_item_start_head m v : v <= 65535 -> exists h, encode_item_start m v = Ok h /\ head (mtype_num m) v h.
Proof.
  intros Hv. unfold encode_item_start.
  assert (Hm : mtype_num m < 8) by (destruct m; cbn; lia).
  destruct (N.leb_spec v 23) as [H|H].
  - eexists; split; [reflexivity|]. rewrite land_val, lor_shift5 by lia.
    replace (v mod 32) with v by lia. apply head_short; lia.
  - destruct (N.leb_spec v 255) as [H1|H1].
    + eexists; split; [reflexivity|]. rewrite lor_shift5 by lia.
      replace [mtype_num m * 32 + 24; v] with (mtype_num m * 32 + 24 :: be_enc 1 v).
      * apply head_8; lia.
      * cbn. f_equal. f_equal. lia.
    + destruct (N.leb_spec v 65535) as [H2|H2]; [|lia].
      eexists; split; [reflexivity|]. rewrite lor_shift5 by lia. apply head_16; lia.
Qed.

Lemma encode_item_start_panic m v : 65535 < v -> encode_item_start m v = Panic P_WRITE.
Proof.
  intros H. unfold encode_item_start.
  destruct (N.leb_spec v 23); [lia|]. destruct (N.leb_spec v 255); [lia|].
  destruct (N.leb_spec v 65535); [lia|]. reflexivity.
Qed.

(** * The loop against the grammar *)

(** How many items a map announcing [p] pairs makes the loop read. *)
Definition map_count (chk : bool) (p n : N) : Prop :=
  (p = 0 /\ n = 0) \/ (p <> 0 /\ double chk p = Ok n /\ n <> 0).

Lemma map_count_chk p n : p < two64 -> (map_count true p n <-> n = 2 * p /\ 2 * p < two64).
Proof.
  unfold map_count, double. intros Hp.
  destruct (N.leb_spec two64 (2 * p)) as [H|H].
  - split.
    + intros [[-> ->]|[_ [E _]]]; [unfold two64 in *; lia|discriminate].
    + intros [_ ?]. lia.
  - split.
    + intros [[-> ->]|[_ [E _]]]; [unfold two64; lia|]. assert (n = 2 * p) by congruence. lia.
    + intros [-> _]. destruct (N.eq_dec p 0); [left; subst; lia|right; repeat split; auto; lia].
Qed.

Lemma map_count_small chk p n : 2 * p < two64 -> (map_count chk p n <-> n = 2 * p).
Proof.
  unfold map_count, double. intros Hp.
  destruct (N.leb_spec two64 (2 * p)) as [H|H]; [lia|]. split.
  - intros [[-> ->]|[_ [E _]]]; [lia|]. congruence.
  - intros ->. destruct (N.eq_dec p 0); [left; subst; lia|right; repeat split; auto; lia].
Qed.

(** The state after one complete item [x] was read at counters [a :: st]. *)
Definition after (stack : list N) (buf : bytes) (acc : list bytes) : list N * bytes * list bytes :=
  match stack with
  | [] => ([], buf, acc)
  | a :: st =>
    let st' := if a =? 1 then st else a - 1 :: st in
    match st with
    | [] => (st', [], acc ++ [buf])
    | _ => (st', buf, acc)
    end
  end.

Lemma finish_item_after a st buf acc :
  a <> 0 -> finish_item (a :: st) buf acc = Ok (after (a :: st) buf acc).
Proof.
  intros Ha. unfold finish_item, after.
  destruct st as [|a2 st].
  - cbn [nlen length N.of_nat]. change (N.pos (Pos.of_succ_nat 0) =? 1) with true. cbv iota.
    destruct (N.eqb_spec a 1); [reflexivity|]. destruct (N.eqb_spec a 0); [lia|reflexivity].
  - assert (nlen (a :: a2 :: st) =? 1 = false) as ->.
    { unfold nlen. cbn [length]. lia. }
    destruct (N.eqb_spec a 1); [reflexivity|]. destruct (N.eqb_spec a 0); [lia|reflexivity].
Qed.

(** [runs chk st buf acc x st' buf' acc']: reading [x] takes the loop from one state to the other,
    whatever follows and with any sufficient fuel. *)
Definition runs chk (s1 : list N * bytes * list bytes) (x : bytes) (s2 : list N * bytes * list bytes) : Prop :=
  exists n, (n <= length x)%nat /\ forall fuel rest,
    items_loop chk (n + fuel) (fst (fst s1)) (snd (fst s1)) (snd s1) (x ++ rest)
    = items_loop chk fuel (fst (fst s2)) (snd (fst s2)) (snd s2) rest.

Lemma runs_trans chk s1 x s2 y s3 : runs chk s1 x s2 -> runs chk s2 y s3 -> runs chk s1 (x ++ y) s3.
Proof.
  intros [n [Hn H1]] [k [Hk H2]]. exists (n + k)%nat. split.
  - rewrite app_length. lia.
  - intros fuel rest. rewrite <- Nat.add_assoc, <- app_assoc, H1, H2. reflexivity.
Qed.

Lemma runs_nil chk s : runs chk s [] s.
Proof. exists 0%nat. split; [cbn; lia|]. reflexivity. Qed.

Lemma runs_round chk a st buf acc x s2 :
  (1 <= length x)%nat ->
  (forall rest, round chk (a :: st) buf acc (x ++ rest)
                = Ok (fst (fst s2), snd (fst s2), snd s2, rest)) ->
  runs chk (a :: st, buf, acc) x s2.
Proof.
  intros Hx H. exists 1%nat. split; [auto|]. intros fuel rest.
  cbn [fst snd Nat.add items_loop]. rewrite H. reflexivity.
Qed.

Scheme item_ind2 := Induction for item Sort Prop
  with items_ind2 := Induction for items Sort Prop.
Combined Scheme item_items_ind from item_ind2, items_ind2.

Lemma head_first m v h (rest : bytes) : head m v h -> m < 8 ->
  exists b t, h = b :: t /\ b / 32 = m /\ b < 256 /\
    (forall r, read_len (t ++ r) b = Ok (v, t, r)).
Proof.
  intros H Hm. destruct (read_len_head m v h rest H) as [b [t [E1 [E2 [E3 _]]]]].
  exists b, t. repeat split; auto. intros r.
  destruct (read_len_head m v h r H) as [b' [t' [E1' [_ [_ R]]]]]. congruence.
Qed.

Lemma two_lt : two63 < two64. Proof. unfold two63, two64. lia. Qed.

(** What the loop can read: the grammar with the loop's map counting and allocatable strings.
    [str_small] rules out strings of 2^63 bytes or more, which no memory can hold. *)
Lemma loop_item chk :
  (forall x, item (map_count chk) x -> (forall y : bytes, In y [x] -> nlen y < two63) ->
     forall a st buf acc, a <> 0 ->
       runs chk (a :: st, buf, acc) x (after (a :: st) (buf ++ x) acc)) /\
  (forall xs : list bytes, items (map_count chk) xs -> nlen (concat xs) < two63 ->
     forall (a : N) st buf acc, xs <> [] -> (a :: st) <> [] -> a <> 0 ->
       (* [length xs - 1] inner items, then the last one, which counts for the level above *)
       runs chk ((if nlen xs =? 1 then a :: st else nlen xs - 1 :: a :: st), buf, acc)
            (concat xs) (after (a :: st) (buf ++ concat xs) acc)).
Proof.
  apply item_items_ind with
    (P := fun x _ => (forall y : bytes, In y [x] -> nlen y < two63) ->
       forall a st buf acc, a <> 0 ->
       runs chk (a :: st, buf, acc) x (after (a :: st) (buf ++ x) acc))
    (P0 := fun (xs : list bytes) _ => nlen (concat xs) < two63 ->
       forall (a : N) st buf acc, xs <> [] -> (a :: st) <> [] -> a <> 0 ->
       runs chk ((if nlen xs =? 1 then a :: st else nlen xs - 1 :: a :: st), buf, acc)
            (concat xs) (after (a :: st) (buf ++ concat xs) acc)).
  - (* integer *)
    intros m v h Hm Hh _ a st buf acc Ha.
    destruct (head_first m v h [] Hh ltac:(lia)) as [b [t [-> [Hb [_ R]]]]].
    apply runs_round; [cbn; lia|]. intros rest. cbn [app round].
    rewrite read_len_minor, R.
    assert (M : mtype_of (N.land b MASK_TYPE) = Ok MUnsigned \/ mtype_of (N.land b MASK_TYPE) = Ok MNegative).
    { destruct Hm; [left|right]; eapply mtype_of_head; eauto; cbn; lia. }
    destruct M as [-> | ->]; cbn [bind]; rewrite finish_item_after by auto;
      rewrite <- app_assoc; cbn [app];
      destruct (after (a :: st) (buf ++ b :: t) acc) as [[? ?] ?]; reflexivity.
  - (* string *)
    intros m h s Hm Hh Hs a st buf acc Ha.
    destruct (head_first m _ h [] Hh ltac:(lia)) as [b [t [-> [Hb [_ R]]]]].
    apply runs_round; [cbn; lia|]. intros rest. cbn [app round].
    rewrite <- app_assoc, read_len_minor, R.
    assert (L : nlen s < two63).
    { specialize (Hs _ (or_introl eq_refl)). rewrite nlen_app in Hs. lia. }
    assert (M : mtype_of (N.land b MASK_TYPE) = Ok MBytes \/ mtype_of (N.land b MASK_TYPE) = Ok MText).
    { destruct Hm; [left|right]; eapply mtype_of_head; eauto; cbn; lia. }
    assert (EE : (two63 <=? nlen s) = false) by lia.
    destruct M as [-> | ->]; cbn [bind]; rewrite EE, read_exact_app, finish_item_after by auto; cbn [bind].
    all: rewrite <- !app_assoc; cbn [app].
    all: destruct (after (a :: st) (buf ++ b :: t ++ s) acc) as [[? ?] ?]; reflexivity.
  - (* array *)
    intros h xs Hh Hxs IH Hs a st buf acc Ha.
    destruct (head_first 4 _ h [] Hh ltac:(lia)) as [b [t [-> [Hb [_ R]]]]].
    assert (L : nlen (concat xs) < two63).
    { specialize (Hs _ (or_introl eq_refl)). rewrite nlen_app in Hs. lia. }
    assert (M : mtype_of (N.land b MASK_TYPE) = Ok MArray) by (eapply mtype_of_head; eauto; cbn; lia).
    destruct xs as [|x0 xs0].
    + cbn [concat]. rewrite !app_nil_r.
      apply runs_round; [cbn; lia|]. intros rest. cbn [app round].
      rewrite M, read_len_minor, R. cbn [bind nlen length N.of_nat N.eqb].
      rewrite finish_item_after by auto. rewrite <- app_assoc; cbn [app bind].
      destruct (after (a :: st) (buf ++ b :: t) acc) as [[? ?] ?]; reflexivity.
    + set (xs := x0 :: xs0) in *.
      assert (Hne : nlen xs <> 0) by (unfold nlen, xs; cbn [length]; lia).
      eapply runs_trans.
      * apply runs_round with (s2 := ((if nlen xs =? 1 then a :: st else nlen xs - 1 :: a :: st), buf ++ b :: t, acc)).
        { cbn; lia. }
        intros rest. cbn [app round].
        rewrite M, read_len_minor, R. cbn [bind].
        assert (nlen xs =? 0 = false) as -> by lia.
        rewrite finish_item_after by auto. unfold after. rewrite <- app_assoc; cbn [app bind fst snd].
        reflexivity.
      * rewrite app_assoc. apply IH; auto; unfold xs; congruence.
  - (* map *)
    intros p h xs Hh Hc Hxs IH Hs a st buf acc Ha.
    destruct (head_first 5 _ h [] Hh ltac:(lia)) as [b [t [-> [Hb [_ R]]]]].
    assert (L : nlen (concat xs) < two63).
    { specialize (Hs _ (or_introl eq_refl)). rewrite nlen_app in Hs. lia. }
    assert (M : mtype_of (N.land b MASK_TYPE) = Ok MMap) by (eapply mtype_of_head; eauto; cbn; lia).
    destruct xs as [|x0 xs0].
    + assert (p = 0).
      { destruct Hc as [[? _]|[_ [_ HH]]]; [auto|]. exfalso; apply HH; reflexivity. }
      subst p. cbn [concat]. rewrite !app_nil_r.
      apply runs_round; [cbn; lia|]. intros rest. cbn [app round].
      rewrite M, read_len_minor, R. cbn [bind N.eqb].
      rewrite finish_item_after by auto. rewrite <- app_assoc; cbn [app bind].
      destruct (after (a :: st) (buf ++ b :: t) acc) as [[? ?] ?]; reflexivity.
    + set (xs := x0 :: xs0) in *.
      assert (Hne : nlen xs <> 0) by (unfold nlen, xs; cbn [length]; lia).
      destruct Hc as [[? ?]|[Hp [Hd _]]]; [lia|].
      eapply runs_trans.
      * apply runs_round with (s2 := ((if nlen xs =? 1 then a :: st else nlen xs - 1 :: a :: st), buf ++ b :: t, acc)).
        { cbn; lia. }
        intros rest. cbn [app round].
        rewrite M, read_len_minor, R. cbn [bind].
        assert (p =? 0 = false) as -> by lia.
        rewrite Hd. cbn [bind].
        rewrite finish_item_after by auto. unfold after. rewrite <- app_assoc; cbn [app bind fst snd].
        reflexivity.
      * rewrite app_assoc. apply IH; auto; unfold xs; congruence.
  - (* tag *)
    intros tg h x Hh Hx IH Hs a st buf acc Ha.
    destruct (head_first 6 _ h [] Hh ltac:(lia)) as [b [t [-> [Hb [_ R]]]]].
    assert (M : mtype_of (N.land b MASK_TYPE) = Ok MTag) by (eapply mtype_of_head; eauto; cbn; lia).
    eapply runs_trans.
    + apply runs_round with (s2 := (a :: st, buf ++ b :: t, acc)).
      { cbn; lia. }
      intros rest. cbn [app round]. rewrite M, read_len_minor, R. cbn [bind].
      rewrite <- app_assoc. reflexivity.
    + rewrite app_assoc. apply IH; auto.
      intros y [<-|[]]. specialize (Hs _ (or_introl eq_refl)). rewrite nlen_app in Hs. lia.
  - intros _ a st buf acc H. congruence.
  - (* items *)
    intros x xs Hx IHx Hxs IH Hs a st buf acc _ _ Ha.
    cbn [concat] in *. rewrite nlen_app in Hs.
    assert (Hsx : forall y, In y [x] -> nlen y < two63) by (intros y [<-|[]]; lia).
    destruct xs as [|x1 xs1].
    + cbn [concat]. rewrite app_nil_r.
      change (nlen [x] =? 1) with true. cbv iota. apply IHx; auto.
    + set (xs := x1 :: xs1) in *.
      assert (E1 : nlen (x :: xs) = nlen xs + 1) by (unfold nlen; cbn [length]; lia).
      assert (E2 : nlen xs <> 0) by (unfold nlen, xs; cbn [length]; lia).
      assert (nlen (x :: xs) =? 1 = false) as -> by lia.
      eapply runs_trans.
      * apply IHx; auto. lia.
      * rewrite app_assoc.
        assert (E3 : after (nlen (x :: xs) - 1 :: a :: st) (buf ++ x) acc
                = ((if nlen xs =? 1 then a :: st else nlen xs - 1 :: a :: st), buf ++ x, acc)).
        { unfold after. rewrite E1. replace (nlen xs + 1 - 1) with (nlen xs) by lia. reflexivity. }
        rewrite E3. apply IH; auto; try lia; unfold xs; congruence.
Qed.

Lemma loop_top chk (xs : list bytes) :
  items (map_count chk) xs -> nlen (concat xs) < two63 -> xs <> [] ->
  forall acc, runs chk ([nlen xs], [], acc) (concat xs) ([], [], acc ++ xs).
Proof.
  intros H; induction H as [|x xs Hx Hxs IH]; intros Hs Hne acc; [congruence|].
  cbn [concat] in *. rewrite nlen_app in Hs.
  eapply runs_trans.
  - apply (proj1 (loop_item chk)); auto.
    + intros y [<-|[]]. lia.
    + unfold nlen. cbn [length]. lia.
  - unfold after. destruct xs as [|x1 xs1].
    + cbn. apply runs_nil.
    + set (ys := x1 :: xs1) in *.
      assert (E1 : nlen (x :: ys) = nlen ys + 1) by (unfold nlen; cbn [length]; lia).
      assert (E2 : nlen ys <> 0) by (unfold nlen, ys; cbn [length]; lia).
      assert (nlen (x :: ys) =? 1 = false) as -> by lia.
      rewrite E1. replace (nlen ys + 1 - 1) with (nlen ys) by lia.
      cbn [app]. replace (acc ++ x :: ys) with ((acc ++ [x]) ++ ys) by (rewrite <- app_assoc; reflexivity).
      apply IH; [lia|unfold ys; congruence].
Qed.

Lemma loop_top_full chk (xs : list bytes) rest :
  items (map_count chk) xs -> nlen (concat xs) < two63 -> xs <> [] ->
  items_loop chk (S (length (concat xs ++ rest))) [nlen xs] [] [] (concat xs ++ rest) = Ok (xs, rest).
Proof.
  intros H1 H2 H3. destruct (loop_top chk xs H1 H2 H3 []) as [n [Hn R]].
  rewrite app_length.
  replace (S (length (concat xs) + length rest)) with (n + (S (length (concat xs) - n + length rest)))%nat by lia.
  specialize (R (S (length (concat xs) - n + length rest)) rest). cbn [fst snd] in R.
  rewrite R. reflexivity.
Qed.

(** The array bodies the reader accepts: with a static size the array may not be empty (there is no
    [ParsedArraySize0]). *)
Definition size_fits (size : option N) (xs : list bytes) : Prop :=
  size = None \/ (size = Some (nlen xs) /\ xs <> []).

Lemma parse_complete chk size tag xs h rest :
  top_array (map_count chk) tag xs h -> size_fits size xs -> nlen h < two63 ->
  parse_array chk size (h ++ rest) = Ok (PA tag xs, rest).
Proof.
  intros H Hsz Hlen.
  assert (Body : forall b1 t1 rest, b1 / 32 = 4 -> nlen (concat xs) < two63 ->
      items (map_count chk) xs -> (forall r, read_len (t1 ++ r) b1 = Ok (nlen xs, t1, r)) -> forall tg : option N,
      (let! m1 := mtype_of (N.land b1 MASK_TYPE) in
       if negb (mtype_eqb m1 MArray) then Err (EInvalidTopLevelType m1)
       else
         let! (len, _, s3) := read_len (t1 ++ concat xs ++ rest) b1 in
         match size with
         | Some expected =>
           if negb (len =? expected) then Err (EInvalidNumberOfElements len expected)
           else let! (its, s4) := items_loop chk (S (length s3)) [len] [] [] s3 in
                if negb (nlen its =? expected) then Err EParseFailure else Ok (PA tg its, s4)
         | None =>
           if len =? 0 then Ok (PA tg [], s3)
           else let! (its, s4) := items_loop chk (S (length s3)) [len] [] [] s3 in Ok (PA tg its, s4)
         end) = Ok (PA tg xs, rest)).
  { intros b1 t1 rest' Hb Hl Hits R tg.
    rewrite (mtype_of_head MArray 4 b1 eq_refl Hb). cbn [bind].
    change (mtype_eqb MArray MArray) with true. cbn [negb]. rewrite R. cbn [bind].
    destruct Hsz as [-> | [-> Hne]].
    - destruct (N.eqb_spec (nlen xs) 0) as [E|E].
      + destruct xs; [reflexivity|]. unfold nlen in E. cbn [length] in E. lia.
      + rewrite loop_top_full; auto. destruct xs; [cbn in E; lia|congruence].
    - rewrite N.eqb_refl. cbn [negb]. rewrite loop_top_full by auto. cbn [bind].
      rewrite N.eqb_refl. reflexivity. }
  destruct H as [xs h Hh Hits | t ht xs h Hht Hh Hits].
  - rewrite nlen_app in Hlen.
    destruct (head_first 4 _ h [] Hh ltac:(lia)) as [b [tl [-> [Hb [Hb2 R]]]]].
    rewrite <- app_assoc. cbn [app]. unfold parse_array.
    rewrite (mtype_of_head MArray 4 b eq_refl Hb) at 1. cbn [bind].
    apply Body; auto. lia.
  - rewrite !nlen_app in Hlen.
    destruct (head_first 4 _ h [] Hh ltac:(lia)) as [b [tl [-> [Hb [Hb2 R]]]]].
    destruct (head_first 6 _ ht [] Hht ltac:(lia)) as [b0 [tl0 [-> [Hb0 [Hb02 R0]]]]].
    rewrite <- !app_assoc. cbn [app]. unfold parse_array.
    rewrite (mtype_of_head MTag 6 b0 eq_refl Hb0). cbn [bind]. rewrite R0. cbn [bind].
    apply Body; auto. lia.
Qed.

(** * Soundness of the loop *)

Fixpoint sumn (l : list N) : nat := match l with [] => 0%nat | a :: l' => (N.to_nat a + sumn l')%nat end.

Definition Concl chk (stack : list N) (buf : bytes) (acc : list bytes) (s : bytes)
  (its : list bytes) (rest : bytes) : Prop :=
  match stack with
  | [] => its = acc /\ s = rest
  | _ => exists xs : list bytes,
      items (map_count chk) xs /\ length xs = sumn stack /\ s = concat xs ++ rest /\
      its = acc ++ [buf ++ concat (firstn (S (sumn (removelast stack))) xs)]
                ++ skipn (S (sumn (removelast stack))) xs
  end.

Definition Concl3 chk (st : list N * bytes * list bytes) s its rest :=
  Concl chk (fst (fst st)) (snd (fst st)) (snd st) s its rest.

Lemma items_firstn cnt n (xs : list bytes) : items cnt xs -> items cnt (firstn n xs).
Proof.
  intros H; revert n; induction H; intros [|n]; cbn; constructor; auto.
Qed.
Lemma items_skipn cnt n (xs : list bytes) : items cnt xs -> items cnt (skipn n xs).
Proof.
  intros H; revert n; induction H; intros [|n]; cbn; auto; constructor; auto.
Qed.

Lemma Concl_item chk a st buf acc x s its rest :
  item (map_count chk) x -> a <> 0 ->
  Concl3 chk (after (a :: st) (buf ++ x) acc) s its rest ->
  Concl chk (a :: st) buf acc (x ++ s) its rest.
Proof.
  intros Hx Ha H. unfold Concl3, after in H. unfold Concl.
  destruct st as [|a2 st].
  - cbn [removelast sumn]. destruct (N.eqb_spec a 1) as [E|E]; cbn [fst snd] in H.
    + destruct H as [-> ->]. exists [x]. subst a. cbn. rewrite !app_nil_r.
      repeat split; auto. repeat constructor; auto.
    + cbn in H. destruct H as [xs [Hi [Hl [-> ->]]]].
      destruct xs as [|x1 xs]; [cbn in Hl; lia|].
      exists (x :: x1 :: xs). repeat split.
      * constructor; auto.
      * cbn [length] in *. lia.
      * cbn [concat]. rewrite <- !app_assoc. reflexivity.
      * cbn. rewrite !app_nil_r, <- app_assoc. reflexivity.
  - assert (Hrl : removelast (a :: a2 :: st) = a :: removelast (a2 :: st)) by reflexivity.
    rewrite Hrl. cbn [sumn].
    destruct (N.eqb_spec a 1) as [E|E]; cbn [fst snd] in H; unfold Concl in H.
    + destruct H as [xs [Hi [Hl [-> ->]]]]. exists (x :: xs). subst a.
      change (N.to_nat 1) with 1%nat. cbn [sumn] in *.
      repeat split.
      * constructor; auto.
      * cbn [length]. lia.
      * cbn [concat]. rewrite <- app_assoc. reflexivity.
      * cbn [Nat.add firstn skipn concat]. rewrite <- !app_assoc. reflexivity.
    + destruct H as [xs [Hi [Hl [-> ->]]]]. exists (x :: xs).
      replace (removelast (a - 1 :: a2 :: st)) with (a - 1 :: removelast (a2 :: st)) by reflexivity.
      cbn [sumn] in *.
      replace (N.to_nat a) with (S (N.to_nat (a - 1))) by lia.
      repeat split.
      * constructor; auto.
      * cbn [length]. lia.
      * cbn [concat]. rewrite <- app_assoc. reflexivity.
      * cbn [Nat.add firstn skipn concat]. rewrite <- !app_assoc. reflexivity.
Qed.

Lemma firstn_plus {A} n m (xs : list A) : firstn (n + m) xs = firstn n xs ++ firstn m (skipn n xs).
Proof.
  revert xs; induction n as [|n IH]; intros [|x xs]; cbn; auto.
  - destruct m; reflexivity.
  - rewrite IH. reflexivity.
Qed.
Lemma skipn_plus {A} n m (xs : list A) : skipn (n + m) xs = skipn m (skipn n xs).
Proof.
  revert xs; induction n as [|n IH]; intros [|x xs]; cbn; auto. destruct m; reflexivity.
Qed.

Lemma Concl_nested chk L a st buf acc h s its rest :
  (forall xs : list bytes, items (map_count chk) xs -> nlen xs = L -> item (map_count chk) (h ++ concat xs)) ->
  L <> 0 -> a <> 0 ->
  Concl3 chk (after (L :: a :: st) (buf ++ h) acc) s its rest ->
  Concl chk (a :: st) buf acc (h ++ s) its rest.
Proof.
  intros Hh HL Ha H. unfold Concl3, after in H. cbn [fst snd] in H.
  (* both shapes of the new stack hold [L - 1] more items *)
  assert (E : exists xs : list bytes, items (map_count chk) xs
       /\ length xs = (N.to_nat L - 1 + sumn (a :: st))%nat /\ s = concat xs ++ rest
       /\ its = acc ++ [(buf ++ h) ++ concat (firstn (S (N.to_nat L - 1 + sumn (removelast (a :: st)))) xs)]
                ++ skipn (S (N.to_nat L - 1 + sumn (removelast (a :: st)))) xs).
  { destruct (N.eqb_spec L 1) as [E|E]; unfold Concl in H.
    - subst L. change (N.to_nat 1) with 1%nat. cbn [Nat.sub Nat.add]. exact H.
    - replace (removelast (L - 1 :: a :: st)) with (L - 1 :: removelast (a :: st)) in H by reflexivity.
      cbn [sumn] in H. replace (N.to_nat (L - 1)) with (N.to_nat L - 1)%nat in H by lia.
      exact H. }
  clear H. destruct E as [xs [Hi [Hl [-> ->]]]].
  remember (sumn (removelast (a :: st))) as p eqn:Hp.
  assert (Hpos : (sumn (a :: st) <> 0)%nat) by (cbn [sumn]; lia).
  unfold Concl. rewrite <- Hp.
  replace (S (N.to_nat L - 1 + p)) with (N.to_nat L + p)%nat by lia.
  exists ((h ++ concat (firstn (N.to_nat L) xs)) :: skipn (N.to_nat L) xs).
  repeat split.
  - constructor.
    + apply Hh; [apply items_firstn; auto|]. unfold nlen. rewrite firstn_length. lia.
    + apply items_skipn; auto.
  - cbn [length]. rewrite skipn_length. lia.
  - cbn [concat]. rewrite <- !app_assoc. f_equal. rewrite app_assoc. f_equal.
    rewrite <- concat_app, firstn_skipn. reflexivity.
  - cbn [firstn skipn concat]. rewrite <- !app_assoc. f_equal. cbn [app]. f_equal.
    + do 2 f_equal. rewrite <- concat_app. f_equal.
      apply firstn_plus.
    + apply skipn_plus.
Qed.

Lemma Concl_tag chk tg a st buf acc h s its rest :
  head 6 tg h -> a <> 0 ->
  Concl chk (a :: st) (buf ++ h) acc s its rest -> Concl chk (a :: st) buf acc (h ++ s) its rest.
Proof.
  intros Hh Ha. unfold Concl. remember (sumn (removelast (a :: st))) as k.
  intros [xs [Hi [Hl [-> ->]]]].
  destruct xs as [|x xs]; [cbn [sumn length] in Hl; lia|].
  exists ((h ++ x) :: xs). inversion Hi; subst. repeat split.
  - constructor; auto. eapply item_tag; eauto.
  - exact Hl.
  - cbn [concat]. rewrite <- !app_assoc. reflexivity.
  - cbn [firstn skipn concat]. rewrite <- !app_assoc. reflexivity.
Qed.

Lemma finish_item_ok a st buf acc r :
  finish_item (a :: st) buf acc = Ok r -> a <> 0 /\ r = after (a :: st) buf acc.
Proof.
  destruct (N.eq_dec a 0) as [->|Ha].
  - unfold finish_item. destruct (nlen (0 :: st) =? 1); cbn; discriminate.
  - rewrite finish_item_after by auto. intros E; inversion E; auto.
Qed.

Lemma bytes_ok_cons x s : bytes_ok (x :: s) <-> x < 256 /\ bytes_ok s.
Proof. unfold bytes_ok. split; [intros H; inversion H; auto|intros []; constructor; auto]. Qed.

Lemma loop_sound chk fuel : forall stack buf acc s its rest,
  bytes_ok s -> items_loop chk fuel stack buf acc s = Ok (its, rest) ->
  (stack = [] \/ Forall (fun a => a <> 0) stack) ->
  Concl chk stack buf acc s its rest.
Proof.
  induction fuel as [|fuel IH]; intros stack buf acc s its rest Hok E Hst.
  - destruct stack; [|discriminate E]. cbn in E. inversion E; subst. split; reflexivity.
  - destruct stack as [|a st]; [cbn in E; inversion E; subst; split; reflexivity|].
    destruct Hst as [Hst|Hst]; [discriminate|]. inversion Hst as [|? ? Ha Hst']; subst.
    cbn [items_loop] in E. apply bind_ok in E. destruct E as [[[[st' buf'] acc'] s'] [R E]].
    unfold round in R. destruct s as [|b s1]; [discriminate|].
    apply bytes_ok_cons in Hok. destruct Hok as [Hb Hok].
    destruct (mtype_of_land b) as [m [Em Enum]]. rewrite Em in R. cbn [bind] in R.
    assert (Hmod : (b / 32) mod 8 = b / 32) by (apply N.mod_small; lia).
    rewrite Hmod in Enum.
    assert (Aft : forall a0 st0 bf, Forall (fun x => x <> 0) (a0 :: st0) ->
      Forall (fun x => x <> 0) (fst (fst (after (a0 :: st0) bf acc)))).
    { intros a0 st0 bf HF. inversion HF; subst. unfold after.
      destruct st0; destruct (N.eqb_spec a0 1); cbn [fst snd]; auto; constructor; auto; lia. }
    assert (Next : forall st2 bf2 s2, Forall (fun x => x <> 0) st2 -> bytes_ok s2 ->
       items_loop chk fuel (fst (fst (after st2 bf2 acc))) (snd (fst (after st2 bf2 acc)))
                  (snd (after st2 bf2 acc)) s2 = Ok (its, rest) -> st2 <> [] ->
       Concl3 chk (after st2 bf2 acc) s2 its rest).
    { intros st2 bf2 s2 HF Hs2 E2 Hne. unfold Concl3. apply IH; auto.
      right. destruct st2; [congruence|]. apply Aft. auto. }
    destruct m; cbn [mtype_num] in Enum.
    all: try (apply bind_ok in R; destruct R as [[[v raw] s2] [RL R]];
      rewrite read_len_minor in RL; apply read_len_ok in RL; auto;
      destruct RL as [-> RL]; rewrite <- Enum in RL;
      apply bytes_ok_app in Hok; destruct Hok as [Hraw Hs2]).
    + (* unsigned *)
      apply bind_ok in R. destruct R as [[[st3 bf3] ac3] [F R]]. inversion R; subst; clear R.
      apply finish_item_ok in F. destruct F as [_ F].
      replace (b :: raw ++ s') with ((b :: raw) ++ s') by reflexivity.
      apply Concl_item; auto. { eapply item_int with (m := 0); [auto|exact RL]. }
      rewrite <- app_assoc in F. cbn [app] in F.
      apply Next; auto; [|congruence]. rewrite <- F. exact E.
    + (* negative *)
      apply bind_ok in R. destruct R as [[[st3 bf3] ac3] [F R]]. inversion R; subst; clear R.
      apply finish_item_ok in F. destruct F as [_ F].
      replace (b :: raw ++ s') with ((b :: raw) ++ s') by reflexivity.
      apply Concl_item; auto. { eapply item_int with (m := 1); [auto|exact RL]. }
      rewrite <- app_assoc in F. cbn [app] in F.
      apply Next; auto; [|congruence]. rewrite <- F. exact E.
    + (* bytes *)
      destruct (two63 <=? v); [discriminate|].
      destruct (read_exact v s2) as [[body s3]|] eqn:RE; [|discriminate].
      apply bind_ok in R. destruct R as [[[st3 bf3] ac3] [F R]]. inversion R; subst; clear R.
      apply finish_item_ok in F. destruct F as [_ F].
      apply read_exact_some in RE. destruct RE as [-> Hl]. subst v.
      apply bytes_ok_app in Hs2. destruct Hs2 as [Hbody Hs3].
      replace (b :: raw ++ body ++ s') with (((b :: raw) ++ body) ++ s') by (rewrite <- !app_assoc; reflexivity).
      apply Concl_item; auto. { apply item_str with (m := 2); auto. }
      rewrite <- !app_assoc in F. cbn [app] in F.
      apply Next; auto; [|congruence]. cbn [app]. rewrite <- F. exact E.
    + (* text *)
      destruct (two63 <=? v); [discriminate|].
      destruct (read_exact v s2) as [[body s3]|] eqn:RE; [|discriminate].
      apply bind_ok in R. destruct R as [[[st3 bf3] ac3] [F R]]. inversion R; subst; clear R.
      apply finish_item_ok in F. destruct F as [_ F].
      apply read_exact_some in RE. destruct RE as [-> Hl]. subst v.
      apply bytes_ok_app in Hs2. destruct Hs2 as [Hbody Hs3].
      replace (b :: raw ++ body ++ s') with (((b :: raw) ++ body) ++ s') by (rewrite <- !app_assoc; reflexivity).
      apply Concl_item; auto. { apply item_str with (m := 3); auto. }
      rewrite <- !app_assoc in F. cbn [app] in F.
      apply Next; auto; [|congruence]. cbn [app]. rewrite <- F. exact E.
    + (* array *)
      apply bind_ok in R. destruct R as [[[st3 bf3] ac3] [F R]]. inversion R; subst; clear R.
      replace (b :: raw ++ s') with ((b :: raw) ++ s') by reflexivity.
      destruct (N.eqb_spec v 0) as [Ev|Ev].
      * subst v. apply finish_item_ok in F. destruct F as [_ F].
        apply Concl_item; auto.
        { rewrite <- (app_nil_r (b :: raw)). change (@nil N) with (@concat N []).
          apply item_arr; [exact RL|constructor]. }
        rewrite <- app_assoc in F. cbn [app] in F.
        apply Next; auto; [|congruence]. rewrite <- F. exact E.
      * apply finish_item_ok in F. destruct F as [_ F].
        eapply Concl_nested with (L := v); auto.
        { intros xs Hi Hl. apply item_arr; auto. rewrite Hl. exact RL. }
        rewrite <- app_assoc in F. cbn [app] in F.
        apply Next; auto; [|congruence]. rewrite <- F. exact E.
    + (* map *)
      replace (b :: raw ++ s2) with ((b :: raw) ++ s2) by reflexivity.
      destruct (N.eqb_spec v 0) as [Ev|Ev].
      * cbn [bind] in R.
        apply bind_ok in R. destruct R as [[[st3 bf3] ac3] [F R]]. inversion R; subst; clear R.
        apply finish_item_ok in F. destruct F as [_ F].
        apply Concl_item; auto.
        { rewrite <- (app_nil_r (b :: raw)). change (@nil N) with (@concat N []).
          eapply item_map; [exact RL| |constructor]. left. split; reflexivity. }
        rewrite <- app_assoc in F. cbn [app] in F.
        apply Next; auto; [|congruence]. rewrite <- F. exact E.
      * apply bind_ok in R. destruct R as [stk [D R]].
        apply bind_ok in D. destruct D as [d [D Dst]]. inversion Dst; subst stk; clear Dst.
        apply bind_ok in R. destruct R as [[[st3 bf3] ac3] [F R]]. inversion R; subst; clear R.
        apply finish_item_ok in F. destruct F as [Hd F].
        eapply Concl_nested with (L := d); auto.
        { intros xs Hi Hl. eapply item_map; eauto. rewrite Hl. right. auto. }
        rewrite <- app_assoc in F. cbn [app] in F.
        apply Next; auto; [|congruence]. rewrite <- F. exact E.
    + (* tag *)
      inversion R; subst; clear R.
      replace (b :: raw ++ s') with ((b :: raw) ++ s') by reflexivity.
      eapply Concl_tag; eauto. rewrite <- app_assoc in E. cbn [app] in E.
      apply IH; auto.
    + discriminate.
Qed.

Lemma parse_sound chk size s a rest :
  size <> Some 0 -> bytes_ok s -> parse_array chk size s = Ok (a, rest) ->
  exists h, s = h ++ rest /\ top_array (map_count chk) (pa_tag a) (pa_items a) h
    /\ (size = None \/ size = Some (nlen (pa_items a))).
Proof.
  intros Hsz Hok E. unfold parse_array in E. destruct s as [|b0 s1]; [discriminate|].
  apply bytes_ok_cons in Hok. destruct Hok as [Hb0 Hok].
  destruct (mtype_of_land b0) as [m0 [Em0 En0]]. rewrite Em0 in E. cbn [bind] in E.
  rewrite N.mod_small in En0 by lia.
  (* the body, from the array head on *)
  assert (Body : forall tg b1 s2, b1 < 256 -> bytes_ok s2 ->
    (let! m1 := mtype_of (N.land b1 MASK_TYPE) in
       if negb (mtype_eqb m1 MArray) then Err (EInvalidTopLevelType m1)
       else
         let! (len, _, s3) := read_len s2 b1 in
         match size with
         | Some expected =>
           if negb (len =? expected) then Err (EInvalidNumberOfElements len expected)
           else let! (its, s4) := items_loop chk (S (length s3)) [len] [] [] s3 in
                if negb (nlen its =? expected) then Err EParseFailure else Ok (PA tg its, s4)
         | None =>
           if len =? 0 then Ok (PA tg [], s3)
           else let! (its, s4) := items_loop chk (S (length s3)) [len] [] [] s3 in Ok (PA tg its, s4)
         end) = Ok (a, rest) ->
    exists h, b1 :: s2 = h ++ concat (pa_items a) ++ rest /\ head 4 (nlen (pa_items a)) h
      /\ items (map_count chk) (pa_items a) /\ pa_tag a = tg /\ (size = None \/ size = Some (nlen (pa_items a)))).
  { clear E. intros tg b1 s2 Hb1 Hs2 E.
    destruct (mtype_of_land b1) as [m1 [Em1 En1]]. rewrite Em1 in E. cbn [bind] in E.
    rewrite N.mod_small in En1 by lia.
    destruct m1; try discriminate E. cbn [mtype_num] in En1.
    change (mtype_eqb MArray MArray) with true in E. cbn [negb] in E.
    apply bind_ok in E. destruct E as [[[len raw] s3] [RL E]].
    apply read_len_ok in RL; auto. destruct RL as [-> RL]. rewrite <- En1 in RL.
    apply bytes_ok_app in Hs2. destruct Hs2 as [_ Hs3].
    assert (Lp : forall its s4, len <> 0 ->
      items_loop chk (S (length s3)) [len] [] [] s3 = Ok (its, s4) ->
      s3 = concat its ++ s4 /\ nlen its = len /\ items (map_count chk) its).
    { intros its s4 Hl EL. apply loop_sound in EL; auto.
      unfold Concl in EL. cbn [removelast sumn] in EL.
      destruct EL as [xs [Hi [Hlen [-> ->]]]].
      destruct xs as [|x xs]; [cbn in Hlen; lia|].
      cbn [firstn skipn concat app]. rewrite app_nil_r. repeat split; auto.
      unfold nlen. cbn [length] in *. lia. }
    destruct size as [ex|].
    - destruct (N.eqb_spec len ex) as [->|]; cbn [negb] in E; [|discriminate].
      apply bind_ok in E. destruct E as [[its s4] [EL E]].
      destruct (N.eqb_spec (nlen its) ex) as [Hn|]; cbn [negb] in E; [|discriminate].
      inversion E; subst. cbn [pa_items pa_tag].
      destruct (N.eq_dec (nlen its) 0) as [Hz|Hz].
      + exfalso. apply Hsz. congruence.
      + destruct (Lp its rest Hz EL) as [-> [Hl Hi]].
        exists (b1 :: raw). repeat split; auto.
    - destruct (N.eqb_spec len 0) as [->|Hz].
      + inversion E; subst. cbn [pa_items pa_tag concat app nlen length N.of_nat].
        exists (b1 :: raw). repeat split; auto. constructor.
      + apply bind_ok in E. destruct E as [[its s4] [EL E]]. inversion E; subst.
        destruct (Lp its rest Hz EL) as [-> [Hl Hi]]. cbn [pa_items pa_tag].
        exists (b1 :: raw). rewrite Hl. repeat split; auto. }
  destruct m0; try discriminate E; cbn [mtype_num] in En0.
  - cbn [bind] in E. destruct (Body _ _ _ Hb0 Hok E) as [h [-> [Hh [Hi [Ht Hs]]]]].
    exists (h ++ concat (pa_items a)). rewrite <- app_assoc, Ht.
    repeat split; auto. constructor; auto.
  - apply bind_ok in E. destruct E as [[[tag b1] s2] [R E]].
    apply bind_ok in R. destruct R as [[[t raw] s3] [RL R]].
    apply read_len_ok in RL; auto. destruct RL as [-> RL]. rewrite <- En0 in RL.
    apply bytes_ok_app in Hok. destruct Hok as [_ Hs3].
    destruct s3 as [|b1' s4]; [discriminate|]. inversion R; subst; clear R.
    apply bytes_ok_cons in Hs3. destruct Hs3 as [Hb1 Hs2].
    destruct (Body _ _ _ Hb1 Hs2 E) as [h [Es [Hh [Hi [Ht Hs]]]]].
    exists ((b0 :: raw) ++ h ++ concat (pa_items a)). rewrite Es, Ht.
    rewrite <- !app_assoc. repeat split; auto. constructor; auto.
Qed.

(** * From the standard grammar to the loop's grammar and back *)

Lemma item_nonempty cnt x : item cnt x -> (1 <= length x)%nat.
Proof.
  intros H; destruct H as [m v h _ Hh|m h s _ Hh|h xs Hh _|p h xs Hh _ _|t h x Hh _];
    destruct (head_nonempty _ _ _ Hh) as [b [tl ->]]; cbn [app length]; lia.
Qed.

Lemma items_length cnt (xs : list bytes) : items cnt xs -> (length xs <= length (concat xs))%nat.
Proof.
  intros H; induction H; cbn [concat length]; [lia|]. rewrite app_length.
  pose proof (item_nonempty cnt x H). lia.
Qed.

Lemma std_to_loop chk :
  (forall x, cbor_item x -> nlen x < two63 -> item (map_count chk) x) /\
  (forall xs : list bytes, cbor_items xs -> nlen (concat xs) < two63 -> items (map_count chk) xs).
Proof.
  apply item_items_ind with
    (P := fun x _ => nlen x < two63 -> item (map_count chk) x)
    (P0 := fun (xs : list bytes) _ => nlen (concat xs) < two63 -> items (map_count chk) xs).
  - intros m v h Hm Hh _. eapply item_int; eauto.
  - intros m h s Hm Hh _. eapply item_str; eauto.
  - intros h xs Hh Hxs IH Hl. rewrite nlen_app in Hl. apply item_arr; auto. apply IH. lia.
  - intros p h xs Hh Hc Hxs IH Hl. rewrite nlen_app in Hl.
    eapply item_map; eauto; [|apply IH; lia].
    apply map_count_small; [|exact Hc].
    unfold std_map in Hc. pose proof (items_length _ _ Hxs). unfold nlen in *.
    unfold two63, two64 in *. lia.
  - intros t h x Hh Hx IH Hl. rewrite nlen_app in Hl. eapply item_tag; eauto. apply IH. lia.
  - constructor.
  - intros x xs Hx IHx Hxs IH Hl. cbn [concat] in Hl. rewrite nlen_app in Hl.
    constructor; [apply IHx|apply IH]; lia.
Qed.

Lemma loop_to_std :
  (forall x, item (map_count true) x -> cbor_item x) /\
  (forall xs : list bytes, items (map_count true) xs -> cbor_items xs).
Proof.
  apply item_items_ind with
    (P := fun x _ => cbor_item x) (P0 := fun (xs : list bytes) _ => cbor_items xs).
  - intros m v h Hm Hh. eapply item_int; eauto.
  - intros m h s Hm Hh. eapply item_str; eauto.
  - intros h xs Hh Hxs IH. apply item_arr; auto.
  - intros p h xs Hh Hc Hxs IH. eapply item_map; eauto.
    apply map_count_chk in Hc; [exact (proj1 Hc)|]. exact (proj1 (head_bound _ _ _ Hh)).
  - intros t h x Hh Hx IH. eapply item_tag; eauto.
  - constructor.
  - intros x xs Hx IHx Hxs IH. constructor; auto.
Qed.

Lemma top_std_to_loop chk tag xs h : cbor_array tag xs h -> nlen h < two63 -> top_array (map_count chk) tag xs h.
Proof.
  intros H Hl. destruct H.
  - rewrite nlen_app in Hl. constructor; auto. apply std_to_loop; auto. lia.
  - rewrite !nlen_app in Hl. constructor; auto. apply std_to_loop; auto. lia.
Qed.

Lemma top_loop_to_std tag xs h : top_array (map_count true) tag xs h -> cbor_array tag xs h.
Proof. intros H; destruct H; constructor; auto; apply loop_to_std; auto. Qed.

Lemma parse_std chk size tag xs h rest :
  cbor_array tag xs h -> size_fits size xs -> nlen h < two63 ->
  parse_array chk size (h ++ rest) = Ok (PA tag xs, rest).
Proof. intros H ? ?. apply parse_complete; auto. apply top_std_to_loop; auto. Qed.

(** * Fuel *)

Definition no_fuel {E A} (x : outcome E A) : Prop := x <> Panic P_FUEL.

Lemma read_len_no_fuel s b : no_fuel (read_len s b).
Proof.
  unfold no_fuel. rewrite read_len_eq. destruct (arg_size b) as [k|]; [|discriminate].
  destruct (k =? 0); [discriminate|]. destruct (read_exact k s) as [[? ?]|]; discriminate.
Qed.

Lemma read_len_rest s b v raw rest : read_len s b = Ok (v, raw, rest) -> (length rest <= length s)%nat.
Proof.
  rewrite read_len_eq. destruct (arg_size b) as [k|]; [|discriminate].
  destruct (k =? 0); [intros E; inversion E; subst; lia|].
  destruct (read_exact k s) as [[? ?]|] eqn:R; [|discriminate].
  intros E; inversion E; subst. apply read_exact_some in R. destruct R as [-> _].
  rewrite app_length. lia.
Qed.

Lemma finish_item_no_fuel a st buf acc : no_fuel (finish_item (a :: st) buf acc).
Proof.
  unfold no_fuel, finish_item. destruct (nlen (a :: st) =? 1); destruct (a =? 1); try discriminate;
    destruct (a =? 0); discriminate.
Qed.

Lemma no_fuel_bind {E A B} (x : outcome E A) (f : A -> outcome E B) :
  no_fuel x -> (forall a, x = Ok a -> no_fuel (f a)) -> no_fuel (bind x f).
Proof.
  unfold no_fuel. intros Hx Hf. destruct x; cbn; [apply Hf; reflexivity|discriminate|].
  intros E'. apply Hx. congruence.
Qed.

Lemma round_no_fuel chk a st buf acc s : no_fuel (round chk (a :: st) buf acc s).
Proof.
  unfold round. destruct s as [|b s1]; [discriminate|].
  destruct (mtype_of_land b) as [m [-> _]]. cbn [bind].
  destruct m; try (apply no_fuel_bind; [apply read_len_no_fuel|intros [[v raw] s2] _]); try discriminate.
  1,2,5: apply no_fuel_bind; [|intros [[? ?] ?] _; discriminate].
  1,2: apply finish_item_no_fuel.
  - destruct (v =? 0); apply finish_item_no_fuel.
  - destruct (two63 <=? v); [discriminate|]. destruct (read_exact v s2) as [[? ?]|]; [|discriminate].
    apply no_fuel_bind; [apply finish_item_no_fuel|intros [[? ?] ?] _; discriminate].
  - destruct (two63 <=? v); [discriminate|]. destruct (read_exact v s2) as [[? ?]|]; [|discriminate].
    apply no_fuel_bind; [apply finish_item_no_fuel|intros [[? ?] ?] _; discriminate].
  - destruct (v =? 0); cbn [bind].
    + apply no_fuel_bind; [apply finish_item_no_fuel|intros [[? ?] ?] _; discriminate].
    + unfold double. destruct (two64 <=? 2 * v); [destruct chk|]; cbn [bind]; try discriminate;
        (apply no_fuel_bind; [apply finish_item_no_fuel|intros [[? ?] ?] _; discriminate]).
Qed.

Lemma round_consumes chk st buf acc s st' buf' acc' s' :
  round chk st buf acc s = Ok (st', buf', acc', s') -> (length s' < length s)%nat.
Proof.
  unfold round. destruct s as [|b s1]; [discriminate|]. cbn [length].
  destruct (mtype_of_land b) as [m [-> _]]. cbn [bind].
  destruct m; try discriminate;
    intros E; apply bind_ok in E; destruct E as [[[v raw] s2] [R E]];
    pose proof (read_len_rest _ _ _ _ _ R) as HR.
  1,2,5: apply bind_ok in E; destruct E as [[[? ?] ?] [_ E]]; inversion E; subst; lia.
  - destruct (two63 <=? v); [discriminate|]. destruct (read_exact v s2) as [[? ?]|] eqn:X; [|discriminate].
    apply bind_ok in E; destruct E as [[[? ?] ?] [_ E]]; inversion E; subst.
    apply read_exact_some in X. destruct X as [-> _]. rewrite app_length in HR. lia.
  - destruct (two63 <=? v); [discriminate|]. destruct (read_exact v s2) as [[? ?]|] eqn:X; [|discriminate].
    apply bind_ok in E; destruct E as [[[? ?] ?] [_ E]]; inversion E; subst.
    apply read_exact_some in X. destruct X as [-> _]. rewrite app_length in HR. lia.
  - apply bind_ok in E; destruct E as [? [_ E]].
    apply bind_ok in E; destruct E as [[[? ?] ?] [_ E]]; inversion E; subst; lia.
  - inversion E; subst; lia.
Qed.

Lemma loop_no_fuel chk fuel : forall st buf acc s,
  (length s < fuel)%nat -> no_fuel (items_loop chk fuel st buf acc s).
Proof.
  induction fuel as [|fuel IH]; intros st buf acc s H; [lia|].
  cbn [items_loop]. destruct st as [|a st]; [discriminate|].
  apply no_fuel_bind; [apply round_no_fuel|].
  intros [[[st' buf'] acc'] s'] R. apply IH. apply round_consumes in R. lia.
Qed.

Lemma parse_no_fuel chk size s : no_fuel (parse_array chk size s).
Proof.
  unfold parse_array. destruct s as [|b0 s1]; [discriminate|].
  destruct (mtype_of_land b0) as [m0 [-> _]]. cbn [bind].
  apply no_fuel_bind.
  - destruct m0; try discriminate.
    apply no_fuel_bind; [apply read_len_no_fuel|]. intros [[t r] s2] _.
    destruct s2; discriminate.
  - intros [[tag b1] s2] _. destruct (mtype_of_land b1) as [m1 [-> _]]. cbn [bind].
    destruct (negb (mtype_eqb m1 MArray)); [discriminate|].
    apply no_fuel_bind; [apply read_len_no_fuel|]. intros [[len r] s3] _.
    destruct size as [ex|].
    + destruct (negb (len =? ex)); [discriminate|].
      apply no_fuel_bind; [apply loop_no_fuel; lia|]. intros [its s4] _.
      destruct (negb (nlen its =? ex)); discriminate.
    + destruct (len =? 0); [discriminate|].
      apply no_fuel_bind; [apply loop_no_fuel; lia|]. intros [its s4] _. discriminate.
Qed.

(** * When reading panics *)

Definition panic_reason (chk : bool) (s : bytes) (p : N) : Prop :=
  (p = P_READ_LEN /\ ends_in_head s) \/
  (p = P_CAPACITY /\ exists m v, (m = 2 \/ m = 3) /\ two63 <= v /\ has_head m v s) \/
  (p = P_MUL /\ chk = true /\ exists v, two63 <= v /\ has_head 5 v s).

Lemma panic_reason_app chk a s p : panic_reason chk s p -> panic_reason chk (a ++ s) p.
Proof.
  intros [[-> [pre [b [arg [k [-> [H1 H2]]]]]]]|[[-> [m [v [Hm [Hv [pre [h [post [-> Hh]]]]]]]]]|[-> [-> [v [Hv [pre [h [post [-> Hh]]]]]]]]]].
  - left. split; auto. exists (a ++ pre), b, arg, k. rewrite <- app_assoc. auto.
  - right; left. split; auto. exists m, v. repeat split; auto. exists (a ++ pre), h, post. rewrite <- app_assoc. auto.
  - right; right. split; auto. split; auto. exists v. split; auto. exists (a ++ pre), h, post. rewrite <- app_assoc. auto.
Qed.

Lemma read_len_panic s b p chk : read_len s b = Panic p -> panic_reason chk (b :: s) p.
Proof.
  rewrite read_len_eq. destruct (arg_size b) as [k|] eqn:A; [|discriminate].
  destruct (N.eqb_spec k 0) as [|Hk]; [discriminate|].
  destruct (read_exact k s) as [[? ?]|] eqn:R; [discriminate|].
  intros E; inversion E; subst. left. split; auto.
  exists [], b, s, k. split; [reflexivity|]. split; [apply read_exact_none; auto|].
  unfold arg_size in A.
  destruct (b mod 32 <? 24); [inversion A; lia|].
  destruct (N.eqb_spec (b mod 32) 24); [inversion A; auto|].
  destruct (N.eqb_spec (b mod 32) 25); [inversion A; auto|].
  destruct (N.eqb_spec (b mod 32) 26); [inversion A; auto|].
  destruct (N.eqb_spec (b mod 32) 27); [inversion A; auto 6|]. discriminate.
Qed.

Lemma finish_item_no_panic a st buf acc p : finish_item (a :: st) buf acc <> Panic p.
Proof.
  unfold finish_item. destruct (nlen (a :: st) =? 1); destruct (a =? 1); try discriminate;
    destruct (a =? 0); discriminate.
Qed.

Lemma bind_panic {E A B} (x : outcome E A) (f : A -> outcome E B) p :
  bind x f = Panic p -> x = Panic p \/ exists a, x = Ok a /\ f a = Panic p.
Proof. destruct x; cbn; intros H; try discriminate; eauto. left. congruence. Qed.

Lemma round_panic chk a st buf acc s p :
  bytes_ok s -> round chk (a :: st) buf acc s = Panic p -> panic_reason chk s p.
Proof.
  intros Hok. unfold round. destruct s as [|b s1]; [discriminate|].
  apply bytes_ok_cons in Hok. destruct Hok as [Hb Hok].
  destruct (mtype_of_land b) as [m [-> Em]]. cbn [bind]. rewrite N.mod_small in Em by lia.
  assert (RL : forall f, bind (read_len s1 (N.land b MASK_VAL)) f = Panic p ->
     panic_reason chk (b :: s1) p \/ exists v raw s2, s1 = raw ++ s2 /\ head (mtype_num m) v (b :: raw)
        /\ (f (v, raw, s2) : outcome cerr (list N * bytes * list bytes * bytes)) = Panic p).
  { intros f E. apply bind_panic in E. rewrite read_len_minor in E.
    destruct E as [E|[[[v raw] s2] [E1 E2]]]; [left; eapply read_len_panic; eauto|right].
    apply read_len_ok in E1; auto. rewrite Em. exists v, raw, s2. intuition. }
  destruct m; try discriminate; intros E; apply RL in E; destruct E as [E|[v [raw [s2 [-> [Hh E]]]]]]; auto.
  - apply bind_panic in E. destruct E as [E|[[[? ?] ?] [_ E]]]; [|discriminate].
    apply finish_item_no_panic in E. contradiction.
  - apply bind_panic in E. destruct E as [E|[[[? ?] ?] [_ E]]]; [|discriminate].
    apply finish_item_no_panic in E. contradiction.
  - destruct (N.leb_spec two63 v) as [H|H].
    + inversion E; subst. right; left. split; auto. exists 2, v. repeat split; auto.
      exists [], (b :: raw), s2. split; auto.
    + destruct (read_exact v s2) as [[? ?]|]; [|discriminate].
      apply bind_panic in E. destruct E as [E|[[[? ?] ?] [_ E]]]; [|discriminate].
      apply finish_item_no_panic in E. contradiction.
  - destruct (N.leb_spec two63 v) as [H|H].
    + inversion E; subst. right; left. split; auto. exists 3, v. repeat split; auto.
      exists [], (b :: raw), s2. split; auto.
    + destruct (read_exact v s2) as [[? ?]|]; [|discriminate].
      apply bind_panic in E. destruct E as [E|[[[? ?] ?] [_ E]]]; [|discriminate].
      apply finish_item_no_panic in E. contradiction.
  - apply bind_panic in E. destruct E as [E|[[[? ?] ?] [_ E]]]; [|discriminate].
    destruct (v =? 0); apply finish_item_no_panic in E; contradiction.
  - apply bind_panic in E. destruct E as [E|[stk [Es E]]].
    + destruct (v =? 0); [discriminate|]. apply bind_panic in E. destruct E as [E|[d [_ E]]]; [|discriminate].
      unfold double in E. destruct (N.leb_spec two64 (2 * v)) as [H|H]; [|discriminate].
      destruct chk; [|discriminate]. inversion E; subst. right; right. split; auto. split; auto.
      exists v. split; [unfold two63, two64 in *; lia|]. exists [], (b :: raw), s2. split; auto.
    + apply bind_panic in E. destruct E as [E|[[[? ?] ?] [_ E]]]; [|discriminate].
      destruct stk; [|apply finish_item_no_panic in E; contradiction].
      destruct (v =? 0); [inversion Es|]. apply bind_ok in Es. destruct Es as [? [_ Es]]. inversion Es.
  - discriminate.
Qed.

Lemma round_suffix chk st buf acc s st' buf' acc' s' :
  bytes_ok s -> round chk st buf acc s = Ok (st', buf', acc', s') -> exists pre, s = pre ++ s'.
Proof.
  intros Hok. unfold round. destruct s as [|b s1]; [discriminate|].
  apply bytes_ok_cons in Hok. destruct Hok as [Hb Hok].
  destruct (mtype_of_land b) as [m [-> _]]. cbn [bind].
  destruct m; try discriminate;
    intros E; apply bind_ok in E; destruct E as [[[v raw] s2] [R E]];
    rewrite read_len_minor in R; apply read_len_ok in R; auto; destruct R as [-> _].
  1,2,5: apply bind_ok in E; destruct E as [[[? ?] ?] [_ E]]; inversion E; subst; exists (b :: raw); reflexivity.
  - destruct (two63 <=? v); [discriminate|]. destruct (read_exact v s2) as [[? ?]|] eqn:X; [|discriminate].
    apply bind_ok in E; destruct E as [[[? ?] ?] [_ E]]; inversion E; subst.
    apply read_exact_some in X. destruct X as [-> _]. exists (b :: raw ++ b0). cbn. rewrite <- app_assoc. reflexivity.
  - destruct (two63 <=? v); [discriminate|]. destruct (read_exact v s2) as [[? ?]|] eqn:X; [|discriminate].
    apply bind_ok in E; destruct E as [[[? ?] ?] [_ E]]; inversion E; subst.
    apply read_exact_some in X. destruct X as [-> _]. exists (b :: raw ++ b0). cbn. rewrite <- app_assoc. reflexivity.
  - apply bind_ok in E; destruct E as [? [_ E]].
    apply bind_ok in E; destruct E as [[[? ?] ?] [_ E]]; inversion E; subst. exists (b :: raw); reflexivity.
  - inversion E; subst. exists (b :: raw); reflexivity.
Qed.

Lemma loop_panic chk fuel : forall st buf acc s p,
  (length s < fuel)%nat -> bytes_ok s ->
  items_loop chk fuel st buf acc s = Panic p -> panic_reason chk s p.
Proof.
  induction fuel as [|fuel IH]; intros st buf acc s p Hl Hok E; [lia|].
  cbn [items_loop] in E. destruct st as [|a st]; [discriminate|].
  apply bind_panic in E. destruct E as [E|[[[[st' buf'] acc'] s'] [R E]]].
  - eapply round_panic; eauto.
  - pose proof (round_consumes _ _ _ _ _ _ _ _ _ R).
    destruct (round_suffix _ _ _ _ _ _ _ _ _ Hok R) as [pre ->].
    apply bytes_ok_app in Hok. apply panic_reason_app. eapply IH; [| |exact E]; [lia|tauto].
Qed.

Lemma parse_panic chk size s p :
  bytes_ok s -> parse_array chk size s = Panic p -> panic_reason chk s p.
Proof.
  intros Hok. unfold parse_array. destruct s as [|b0 s1]; [discriminate|].
  apply bytes_ok_cons in Hok. destruct Hok as [Hb0 Hok].
  destruct (mtype_of_land b0) as [m0 [-> _]]. cbn [bind].
  assert (Body : forall tg b1 s2, b1 < 256 -> bytes_ok s2 ->
    (let! m1 := mtype_of (N.land b1 MASK_TYPE) in
       if negb (mtype_eqb m1 MArray) then Err (EInvalidTopLevelType m1)
       else
         let! (len, _, s3) := read_len s2 b1 in
         match size with
         | Some expected =>
           if negb (len =? expected) then Err (EInvalidNumberOfElements len expected)
           else let! (its, s4) := items_loop chk (S (length s3)) [len] [] [] s3 in
                if negb (nlen its =? expected) then Err EParseFailure else Ok (PA tg its, s4)
         | None =>
           if len =? 0 then Ok (PA tg [], s3)
           else let! (its, s4) := items_loop chk (S (length s3)) [len] [] [] s3 in Ok (PA tg its, s4)
         end) = Panic p -> panic_reason chk (b1 :: s2) p).
  { intros tg b1 s2 Hb1 Hs2 E. destruct (mtype_of_land b1) as [m1 [Em _]]. rewrite Em in E. cbn [bind] in E.
    destruct (negb (mtype_eqb m1 MArray)); [discriminate|].
    apply bind_panic in E. destruct E as [E|[[[len raw] s3] [R E]]].
    - eapply read_len_panic; eauto.
    - apply read_len_ok in R; auto. destruct R as [-> _].
      change (b1 :: raw ++ s3) with ((b1 :: raw) ++ s3). apply panic_reason_app.
      apply bytes_ok_app in Hs2. destruct Hs2 as [_ Hs3].
      destruct size as [ex|].
      + destruct (negb (len =? ex)); [discriminate|].
        apply bind_panic in E. destruct E as [E|[[its s4] [_ E]]].
        * eapply loop_panic; [| |exact E]; auto; lia.
        * destruct (negb (nlen its =? ex)); discriminate.
      + destruct (len =? 0); [discriminate|].
        apply bind_panic in E. destruct E as [E|[[its s4] [_ E]]]; [|discriminate].
        eapply loop_panic; [| |exact E]; auto; lia. }
  intros E. apply bind_panic in E. destruct E as [E|[[[tag b1] s2] [R E]]].
  - destruct m0; try discriminate E.
    apply bind_panic in E. destruct E as [E|[[[t r] s2] [_ E]]].
    + eapply read_len_panic; eauto.
    + destruct s2; discriminate.
  - destruct m0; try discriminate R.
    + inversion R; subst. eapply Body; eauto.
    + apply bind_ok in R. destruct R as [[[t raw] s3] [RL R]].
      apply read_len_ok in RL; auto. destruct RL as [-> _].
      destruct s3 as [|b s4]; [discriminate|]. inversion R; subst.
      apply bytes_ok_app in Hok. destruct Hok as [_ Hok]. apply bytes_ok_cons in Hok.
      change (b0 :: raw ++ b1 :: s2) with ((b0 :: raw) ++ b1 :: s2). apply panic_reason_app.
      eapply Body; [tauto|tauto|eauto].
Qed.

(** * Writing *)

Lemma serialize_spec tag xs :
  nlen xs <= 65535 -> (forall t, tag = Some t -> t <= 65535) -> cbor_items xs ->
  exists b, serialize_array (PA tag xs) = Ok b /\ cbor_array tag xs b.
Proof.
  intros Hn Ht Hi. unfold serialize_array. cbn [pa_tag pa_items].
  destruct (encode_item_start_head MArray (nlen xs) Hn) as [h [E Hh]].
  destruct tag as [t|].
  - destruct (encode_item_start_head MTag t (Ht t eq_refl)) as [ht [E' Hht]].
    rewrite E', E. cbn [bind]. eexists. split; [reflexivity|]. constructor; auto.
  - rewrite E. cbn [bind app]. eexists. split; [reflexivity|]. constructor; auto.
Qed.

Lemma serialize_panic tag xs :
  (65535 < nlen xs \/ exists t, tag = Some t /\ 65535 < t) ->
  serialize_array (PA tag xs) = Panic P_WRITE.
Proof.
  intros H. unfold serialize_array. cbn [pa_tag pa_items].
  destruct tag as [t|].
  - destruct (N.leb_spec t 65535) as [L|L].
    + destruct (encode_item_start_head MTag t L) as [h [-> _]]. cbn [bind].
      destruct H as [H|[t' [E H]]]; [rewrite encode_item_start_panic by auto; reflexivity|].
      inversion E; subst; lia.
    + rewrite encode_item_start_panic by auto. reflexivity.
  - cbn [bind]. destruct H as [H|[t' [E H]]]; [|discriminate].
    rewrite encode_item_start_panic by auto. reflexivity.
Qed.

(** * Many arrays *)

Lemma top_nonempty cnt tag xs h : top_array cnt tag xs h -> (1 <= length h)%nat.
Proof.
  intros H; destruct H as [xs h Hh _|t ht xs h Hh _ _];
    destruct (head_nonempty _ _ _ Hh) as [b [tl ->]]; cbn [app length]; lia.
Qed.

Inductive arrays (cnt : N -> N -> Prop) (P : list bytes -> Prop) : list parsed_array -> bytes -> Prop :=
| arrays_nil : arrays cnt P [] []
| arrays_cons a h l s : top_array cnt (pa_tag a) (pa_items a) h -> P (pa_items a) ->
    arrays cnt P l s -> arrays cnt P (a :: l) (h ++ s).

Lemma many_complete chk size l s :
  arrays std_map (size_fits size) l s -> nlen s < two63 ->
  forall fuel, (length s < fuel)%nat -> many_loop (parse_array chk size) is_nodata fuel s = Ok l.
Proof.
  intros H; induction H as [|a h l s Ht Hf Hl IH]; intros Hlen fuel Hfuel.
  - destruct fuel; reflexivity.
  - rewrite nlen_app in Hlen. rewrite app_length in Hfuel.
    pose proof (top_nonempty _ _ _ _ Ht).
    destruct fuel as [|fuel]; [lia|]. cbn [many_loop].
    rewrite (parse_std chk size _ _ h s Ht Hf ltac:(lia)).
    rewrite IH by lia. cbn [bind]. destruct a; reflexivity.
Qed.

Lemma parse_err_nodata chk size s : parse_array chk size s = Err ENoData -> s = [].
Proof.
  unfold parse_array. destruct s as [|b0 s1]; [reflexivity|].
  destruct (mtype_of_land b0) as [m0 [-> _]]. cbn [bind].
  assert (RL : forall s b, read_len s b <> Err ENoData).
  { intros s b. rewrite read_len_eq. destruct (arg_size b) as [k|]; [|discriminate].
    destruct (k =? 0); [discriminate|]. destruct (read_exact k s) as [[? ?]|]; discriminate. }
  assert (BE : forall A B (x : outcome cerr A) (f : A -> outcome cerr B) e,
    bind x f = Err e -> x = Err e \/ exists a, x = Ok a /\ f a = Err e).
  { intros A B x f e. destruct x; cbn; intros HH; try discriminate; eauto. left; congruence. }
  assert (FI : forall st bf ac, finish_item st bf ac <> Err ENoData).
  { intros st bf ac. unfold finish_item.
    destruct (nlen st =? 1); destruct st as [|a st]; try discriminate; destruct (a =? 1); try discriminate;
      destruct (a =? 0); discriminate. }
  assert (RD : forall st bf ac s, round chk st bf ac s <> Err ENoData).
  { intros st bf ac s. unfold round. destruct s as [|b s2]; [discriminate|].
    destruct (mtype_of_land b) as [m [-> _]]. cbn [bind].
    destruct m; try discriminate; intros E; apply BE in E;
      destruct E as [E|[[[v raw] s3] [_ E]]]; try (apply RL in E; contradiction).
    1,2: apply BE in E; destruct E as [E|[[[? ?] ?] [_ E]]]; [apply FI in E; contradiction|discriminate].
    1,2: destruct (two63 <=? v); [discriminate|]; destruct (read_exact v s3) as [[? ?]|]; [|discriminate];
      apply BE in E; destruct E as [E|[[[? ?] ?] [_ E]]]; [apply FI in E; contradiction|discriminate].
    - apply BE in E; destruct E as [E|[[[? ?] ?] [_ E]]]; [apply FI in E; contradiction|discriminate].
    - apply BE in E; destruct E as [E|[? [_ E]]].
      + destruct (v =? 0); [discriminate|]. apply BE in E. destruct E as [E|[? [_ E]]]; [|discriminate].
        unfold double in E. destruct (two64 <=? 2 * v); [destruct chk|]; discriminate.
      + apply BE in E; destruct E as [E|[[[? ?] ?] [_ E]]]; [apply FI in E; contradiction|discriminate].
    - discriminate. }
  assert (LP : forall fuel st bf ac s, items_loop chk fuel st bf ac s <> Err ENoData).
  { induction fuel as [|fuel IH]; intros [|a st] bf ac s; try discriminate.
    cbn [items_loop]. intros E. apply BE in E. destruct E as [E|[[[[? ?] ?] ?] [_ E]]].
    - apply RD in E; contradiction.
    - apply IH in E; contradiction. }
  intros E. apply BE in E. destruct E as [E|[[[tag b1] s2] [_ E]]].
  - destruct m0; try discriminate E. apply BE in E. destruct E as [E|[[[t r] s2] [_ E]]].
    + apply RL in E; contradiction.
    + destruct s2; discriminate.
  - destruct (mtype_of_land b1) as [m1 [Em _]]. rewrite Em in E. cbn [bind] in E.
    destruct (negb (mtype_eqb m1 MArray)); [discriminate|].
    apply BE in E. destruct E as [E|[[[len raw] s3] [_ E]]]; [apply RL in E; contradiction|].
    destruct size as [ex|].
    + destruct (negb (len =? ex)); [discriminate|].
      apply BE in E. destruct E as [E|[[its s4] [_ E]]]; [apply LP in E; contradiction|].
      destruct (negb (nlen its =? ex)); discriminate.
    + destruct (len =? 0); [discriminate|].
      apply BE in E. destruct E as [E|[[its s4] [_ E]]]; [apply LP in E; contradiction|discriminate].
Qed.

Lemma many_sound chk size fuel : forall s l,
  size <> Some 0 -> bytes_ok s ->
  many_loop (parse_array chk size) is_nodata fuel s = Ok l ->
  arrays (map_count chk) (fun xs => size = None \/ size = Some (nlen xs)) l s.
Proof.
  induction fuel as [|fuel IH]; intros s l Hsz Hok E; cbn [many_loop] in E.
  - destruct (parse_array chk size s) as [[a s']|e|w] eqn:P; try discriminate.
    destruct e; cbn in E; try discriminate. inversion E; subst.
    apply parse_err_nodata in P. subst. constructor.
  - destruct (parse_array chk size s) as [[a s']|e|w] eqn:P; try discriminate.
    + apply bind_ok in E. destruct E as [l' [E1 E2]]. inversion E2; subst.
      destruct (parse_sound _ _ _ _ _ Hsz Hok P) as [h [-> [Ht Hs]]].
      apply bytes_ok_app in Hok. constructor; auto. apply IH; tauto.
    + destruct e; cbn in E; try discriminate. inversion E; subst.
      apply parse_err_nodata in P. subst. constructor.
Qed.

Definition as_pair (a : parsed_array) : option N * list bytes := (pa_tag a, pa_items a).

Lemma arrays_seq cnt P l s :
  arrays cnt P l s <-> array_seq cnt (map as_pair l) s /\ Forall (fun a => P (pa_items a)) l.
Proof.
  split.
  - intros H; induction H as [|a h l s Ht Hp Hl [IH1 IH2]]; cbn [map].
    + split; constructor.
    + split; [|constructor; auto]. unfold as_pair at 1. constructor; auto.
  - intros [H1 H2]. revert s H1. induction H2 as [|a l Ha Hl IH]; intros s H1; cbn [map] in H1.
    + inversion H1; subst. constructor.
    + inversion H1; subst. constructor; auto.
Qed.

(** * Debug and release builds *)

Lemma round_release st bf ac s :
  round true st bf ac s <> Panic P_MUL -> round false st bf ac s = round true st bf ac s.
Proof.
  unfold round. destruct s as [|b s1]; [reflexivity|].
  destruct (mtype_of_land b) as [m [-> _]]. cbn [bind].
  destruct m; try reflexivity.
  destruct (read_len s1 (N.land b MASK_VAL)) as [[[v raw] s2]|e|w]; try reflexivity. cbn [bind].
  destruct (v =? 0); [reflexivity|]. unfold double.
  destruct (two64 <=? 2 * v); [|reflexivity]. cbn [bind]. congruence.
Qed.

Lemma loop_release fuel : forall st bf ac s,
  items_loop true fuel st bf ac s <> Panic P_MUL ->
  items_loop false fuel st bf ac s = items_loop true fuel st bf ac s.
Proof.
  induction fuel as [|fuel IH]; intros [|a st] bf ac s H; try reflexivity.
  cbn [items_loop] in *. rewrite round_release.
  - destruct (round true (a :: st) bf ac s) as [[[[? ?] ?] ?]|e|w]; try reflexivity.
    cbn [bind] in *. apply IH. exact H.
  - intros E. apply H. rewrite E. reflexivity.
Qed.

Lemma parse_release size s :
  parse_array true size s <> Panic P_MUL -> parse_array false size s = parse_array true size s.
Proof.
  unfold parse_array. destruct s as [|b0 s1]; [reflexivity|].
  destruct (mtype_of_land b0) as [m0 [-> _]]. cbn [bind].
  match goal with |- context[bind ?x _] => destruct x as [[[tag b1] s2]|e|w]; try reflexivity end.
  cbn [bind]. destruct (mtype_of_land b1) as [m1 [-> _]]. cbn [bind].
  destruct (negb (mtype_eqb m1 MArray)); [reflexivity|].
  destruct (read_len s2 b1) as [[[len raw] s3]|e|w]; try reflexivity. cbn [bind].
  intros H. destruct size as [ex|].
  - destruct (negb (len =? ex)); [reflexivity|]. rewrite loop_release; [reflexivity|].
    intros E. apply H. rewrite E. reflexivity.
  - destruct (len =? 0); [reflexivity|]. rewrite loop_release; [reflexivity|].
    intros E. apply H. rewrite E. reflexivity.
Qed.

(** * Wrong number of elements *)

Lemma parse_wrong_size chk tag xs h rest n :
  cbor_array tag xs h -> nlen xs <> n ->
  parse_array chk (Some n) (h ++ rest) = Err (EInvalidNumberOfElements (nlen xs) n).
Proof.
  intros H Hn.
  assert (Body : forall b1 t1 r, b1 / 32 = 4 ->
      (forall r, read_len (t1 ++ r) b1 = Ok (nlen xs, t1, r)) -> forall tg : option N,
      (let! m1 := mtype_of (N.land b1 MASK_TYPE) in
       if negb (mtype_eqb m1 MArray) then Err (EInvalidTopLevelType m1)
       else
         let! (len, _, s3) := read_len (t1 ++ r) b1 in
           if negb (len =? n) then Err (EInvalidNumberOfElements len n)
           else let! (its, s4) := items_loop chk (S (length s3)) [len] [] [] s3 in
                if negb (nlen its =? n) then Err EParseFailure else Ok (PA tg its, s4))
      = Err (EInvalidNumberOfElements (nlen xs) n)).
  { intros b1 t1 r Hb R tg.
    rewrite (mtype_of_head MArray 4 b1 eq_refl Hb). cbn [bind].
    change (mtype_eqb MArray MArray) with true. cbn [negb]. rewrite R. cbn [bind].
    destruct (N.eqb_spec (nlen xs) n); [contradiction|]. reflexivity. }
  destruct H as [xs h Hh Hits | t ht xs h Hht Hh Hits].
  - destruct (head_first 4 _ h [] Hh ltac:(lia)) as [b [tl [-> [Hb [Hb2 R]]]]].
    rewrite <- app_assoc. cbn [app]. unfold parse_array.
    rewrite (mtype_of_head MArray 4 b eq_refl Hb) at 1. cbn [bind].
    apply Body; auto.
  - destruct (head_first 4 _ h [] Hh ltac:(lia)) as [b [tl [-> [Hb [Hb2 R]]]]].
    destruct (head_first 6 _ ht [] Hht ltac:(lia)) as [b0 [tl0 [-> [Hb0 [Hb02 R0]]]]].
    rewrite <- !app_assoc. cbn [app]. unfold parse_array.
    rewrite (mtype_of_head MTag 6 b0 eq_refl Hb0). cbn [bind]. rewrite R0. cbn [bind].
    apply Body; auto.
Qed.

(** * Truncation panics *)

Lemma lone_head_panics chk size b :
  (b / 32 = 4 \/ b / 32 = 6) -> 24 <= b mod 32 < 28 -> parse_array chk size [b] = Panic P_READ_LEN.
Proof.
  intros Hb Hm.
  assert (R : read_len [] b = Panic P_READ_LEN).
  { rewrite read_len_eq. unfold arg_size. assert (b mod 32 <? 24 = false) as -> by lia.
    assert (C : b mod 32 = 24 \/ b mod 32 = 25 \/ b mod 32 = 26 \/ b mod 32 = 27) by lia.
    destruct C as [->|[->|[->| ->]]]; reflexivity. }
  unfold parse_array. destruct Hb as [Hb|Hb].
  - rewrite (mtype_of_head MArray 4 b eq_refl Hb). cbn [bind].
    rewrite (mtype_of_head MArray 4 b eq_refl Hb). cbn [bind].
    change (mtype_eqb MArray MArray) with true. cbn [negb]. rewrite R. reflexivity.
  - rewrite (mtype_of_head MTag 6 b eq_refl Hb). cbn [bind]. rewrite R. reflexivity.
Qed.

Lemma head_len m v h : head m v h -> nlen h <= 9.
Proof. intros H; destruct H; unfold nlen; cbn [length]; rewrite ?be_enc_length; lia. Qed.

Lemma cbor_array_len tag xs h : cbor_array tag xs h -> nlen h <= 18 + nlen (concat xs).
Proof.
  intros H; destruct H as [xs h Hh _|t ht xs h Hht Hh _]; rewrite !nlen_app;
    try pose proof (head_len _ _ _ Hht); pose proof (head_len _ _ _ Hh); lia.
Qed.

Lemma serialize_many l s : (forall a, In a l -> nlen (pa_items a) <= 65535 /\ (forall t, pa_tag a = Some t -> t <= 65535)
     /\ cbor_items (pa_items a)) ->
  (fix go l := match l with
               | [] => Ok []
               | a :: l' => let! b := serialize_array a in let! r := go l' in Ok (b ++ r)
               end) l = Ok s ->
  array_seq std_map (map as_pair l) s.
Proof.
  revert s; induction l as [|a l IH]; intros s Ha E.
  - inversion E; subst. constructor.
  - destruct (Ha a (or_introl eq_refl)) as [H1 [H2 H3]].
    destruct (serialize_spec (pa_tag a) (pa_items a) H1 H2 H3) as [b [Eb Hb]].
    destruct a as [tg its]. cbn [pa_tag pa_items] in *. rewrite Eb in E. cbn [bind] in E.
    apply bind_ok in E. destruct E as [r [Er E]]. inversion E; subst.
    cbn [map as_pair]. constructor; auto. apply IH; auto. intros a' Hin. apply Ha. right; auto.
Qed.
