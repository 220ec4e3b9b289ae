(** Round-trip of values and strings; encodings without simple values are items of the grammar. *)
From Verif Require Import Base BaseFacts CborSpec CborModel CborProofs ValueModel.
From Coq Require Import ZifyBool ZifyNat ZifyN.
Ltac Zify.zify_post_hook ::= Z.div_mod_to_equations.
Local Open Scope N_scope.

Lemma take_app a b : take (nlen a) (a ++ b) = Some (a, b).
Proof. exact (read_exact_app a b). Qed.

Lemma take_some n s a b : take n s = Some (a, b) -> s = a ++ b /\ nlen a = n.
Proof. exact (read_exact_some n s a b). Qed.

Lemma enc_head_head m v : m < 8 -> v < two64 -> head m v (enc_head m v).
Proof.
  unfold two64, enc_head. intros Hm Hv.
  destruct (N.ltb_spec v 24); [apply head_short; auto|].
  destruct (N.ltb_spec v 256); [apply head_8; auto|].
  destruct (N.ltb_spec v 65536); [apply head_16; auto|].
  destruct (N.ltb_spec v 4294967296); [apply head_32; auto|].
  apply head_64; auto.
Qed.

Lemma dec_head_enc m v rest : m < 8 -> v < two64 -> dec_head (enc_head m v ++ rest) = Some (m, v, rest).
Proof.
  intros Hm Hv. pose proof (enc_head_head m v Hm Hv) as H.
  revert H. generalize (enc_head m v). intros h H.
  destruct H as [_ H|_ H|_ H|_ H|_ H]; cbn [app dec_head].
  - assert ((m * 32 + v) / 32 = m) as -> by lia. assert ((m * 32 + v) mod 32 = v) as -> by lia.
    assert (v <? 24 = true) as -> by lia. reflexivity.
  - assert ((m * 32 + 24) / 32 = m) as -> by lia. assert ((m * 32 + 24) mod 32 = 24) as -> by lia.
    change (24 <? 24) with false. change (24 =? 24) with true. cbv iota.
    change 1 with (nlen (be_enc 1 v)) at 1. rewrite take_app, be_dec_enc; [reflexivity|cbn; lia].
  - assert ((m * 32 + 25) / 32 = m) as -> by lia. assert ((m * 32 + 25) mod 32 = 25) as -> by lia.
    change (25 <? 24) with false. change (25 =? 24) with false. change (25 =? 25) with true. cbv iota.
    change 2 with (nlen (be_enc 2 v)) at 1. rewrite take_app, be_dec_enc; [reflexivity|cbn; lia].
  - assert ((m * 32 + 26) / 32 = m) as -> by lia. assert ((m * 32 + 26) mod 32 = 26) as -> by lia.
    change (26 <? 24) with false. change (26 =? 24) with false. change (26 =? 25) with false.
    change (26 =? 26) with true. cbv iota.
    change 4 with (nlen (be_enc 4 v)) at 1. rewrite take_app, be_dec_enc; [reflexivity|cbn; lia].
  - assert ((m * 32 + 27) / 32 = m) as -> by lia. assert ((m * 32 + 27) mod 32 = 27) as -> by lia.
    change (27 <? 24) with false. change (27 =? 24) with false. change (27 =? 25) with false.
    change (27 =? 26) with false. change (27 =? 27) with true. cbv iota.
    change 8 with (nlen (be_enc 8 v)) at 1. rewrite take_app, be_dec_enc; [reflexivity|cbn; lia].
Qed.

(** * Well-formed values *)

Section Nested.
  Variable P : cval -> Prop.
  Hypothesis HInt : forall z, P (VInt z).
  Hypothesis HBytes : forall b, P (VBytes b).
  Hypothesis HText : forall b, P (VText b).
  Hypothesis HArr : forall l, Forall P l -> P (VArr l).
  Hypothesis HMap : forall l, Forall (fun kv => P (fst kv) /\ P (snd kv)) l -> P (VMap l).
  Hypothesis HTag : forall t v, P v -> P (VTag t v).
  Hypothesis HBool : forall b, P (VBool b).
  Hypothesis HNull : P VNull.
  Fixpoint cval_ind2 (v : cval) : P v :=
    match v with
    | VInt z => HInt z
    | VBytes b => HBytes b
    | VText b => HText b
    | VArr l => HArr l ((fix go l := match l return Forall P l with
                                     | [] => Forall_nil _
                                     | x :: r => Forall_cons x (cval_ind2 x) (go r)
                                     end) l)
    | VMap l => HMap l ((fix go l := match l return Forall (fun kv => P (fst kv) /\ P (snd kv)) l with
                                     | [] => Forall_nil _
                                     | x :: r => Forall_cons x (conj (cval_ind2 (fst x)) (cval_ind2 (snd x))) (go r)
                                     end) l)
    | VTag t v => HTag t v (cval_ind2 v)
    | VBool b => HBool b
    | VNull => HNull
    end.
End Nested.

(** Encodable with [d] levels of nesting. *)
Fixpoint vok (d : nat) (v : cval) : Prop :=
  match d with
  | O => False
  | S d' =>
    match v with
    | VInt z => (- Z.of_N two64 <= z < Z.of_N two64)%Z
    | VBytes b => bytes_ok b /\ nlen b < two64
    | VText b => bytes_ok b /\ nlen b < two64
    | VArr l => nlen l < two64 /\ Forall (vok d') l
    | VMap l => nlen l < two64 /\ Forall (fun kv => vok d' (fst kv) /\ vok d' (snd kv)) l
    | VTag t v => t < two64 /\ vok d' v
    | VBool _ => True
    | VNull => True
    end
  end.

(** No simple values (null, booleans) outside byte strings: what the array reader can skip over. *)
Fixpoint plain (v : cval) : bool :=
  match v with
  | VInt _ | VBytes _ | VText _ => true
  | VArr l => forallb plain l
  | VMap l => forallb (fun kv => plain (fst kv) && plain (snd kv)) l
  | VTag _ v => plain v
  | VBool _ | VNull => false
  end.

Lemma enc_head_len m v : (1 <= length (enc_head m v))%nat.
Proof. unfold enc_head. repeat (destruct (_ <? _)); cbn [length]; lia. Qed.

Lemma enc_len v : (1 <= length (enc v))%nat.
Proof.
  destruct v; cbn [enc]; rewrite ?app_length; try (cbn; lia);
    try (match goal with |- context[enc_head ?m ?k] => pose proof (enc_head_len m k) end; lia).
  unfold enc_int. destruct (0 <=? z)%Z; apply enc_head_len.
Qed.

Lemma dec_list_enc {A} (f : bytes -> option (A * bytes)) (e : A -> bytes) (l : list A) :
  forall k rest, (length l <= k)%nat ->
  (forall x r, In x l -> f (e x ++ r) = Some (x, r)) ->
  dec_list f k (nlen l) (concat (map e l) ++ rest) = Some (l, rest).
Proof.
  induction l as [|x l IH]; intros k rest Hk Hf.
  - destruct k; reflexivity.
  - cbn [length] in Hk. destruct k as [|k]; [lia|].
    cbn [map concat]. rewrite <- app_assoc. cbn [dec_list].
    assert (nlen (x :: l) =? 0 = false) as -> by (unfold nlen; cbn [length]; lia).
    rewrite Hf by (left; reflexivity).
    replace (nlen (x :: l) - 1) with (nlen l) by (unfold nlen; cbn [length]; lia).
    rewrite IH; [reflexivity|lia|]. intros y r Hy. apply Hf. right. auto.
Qed.

Lemma concat_map_len {A} (e : A -> bytes) l :
  (forall x, In x l -> (1 <= length (e x))%nat) -> (length l <= length (concat (map e l)))%nat.
Proof.
  induction l as [|x l IH]; intros H; cbn [map concat length]; [lia|].
  rewrite app_length. pose proof (H x (or_introl eq_refl)).
  assert (length l <= length (concat (map e l)))%nat; [|lia]. apply IH. intros y Hy. apply H. right. auto.
Qed.

Lemma dec_enc v : forall d rest, vok d v -> dec d (enc v ++ rest) = Some (v, rest).
Proof.
  induction v as [z|b|b|l IH|l IH|t v IH|b|] using cval_ind2; intros [|d] rest H; try contradiction.
  - cbn [vok] in H. cbn [enc]. unfold enc_int. unfold two64 in H.
    destruct (Z.leb_spec 0 z) as [Hz|Hz]; cbn [dec]; rewrite dec_head_enc; try lia; try (unfold two64; lia).
    + rewrite Z2N.id by lia. reflexivity.
    + rewrite Z2N.id by lia. do 2 f_equal. f_equal. lia.
  - cbn [vok] in H. destruct H as [Hb Hl]. cbn [enc]. rewrite <- app_assoc. cbn [dec].
    rewrite dec_head_enc by lia. rewrite take_app. reflexivity.
  - cbn [vok] in H. destruct H as [Hb Hl]. cbn [enc]. rewrite <- app_assoc. cbn [dec].
    rewrite dec_head_enc by lia. rewrite take_app. reflexivity.
  - cbn [vok] in H. destruct H as [Hl Hv]. cbn [enc]. rewrite <- app_assoc. cbn [dec].
    rewrite dec_head_enc by lia.
    rewrite (dec_list_enc (dec d) enc).
    + reflexivity.
    + rewrite app_length. pose proof (concat_map_len enc l (fun x _ => enc_len x)). lia.
    + intros x r Hx. rewrite Forall_forall in IH, Hv. apply IH; auto.
  - cbn [vok] in H. destruct H as [Hl Hv]. cbn [enc]. rewrite <- app_assoc. cbn [dec].
    rewrite dec_head_enc by lia.
    rewrite (dec_list_enc (dec_pair (dec d)) (fun kv => enc (fst kv) ++ enc (snd kv))).
    + reflexivity.
    + rewrite app_length.
      pose proof (concat_map_len (fun kv => enc (fst kv) ++ enc (snd kv)) l) as HH.
      assert (length l <= length (concat (map (fun kv => enc (fst kv) ++ enc (snd kv)) l)))%nat; [|lia].
      apply HH. intros x _. rewrite app_length. pose proof (enc_len (fst x)). lia.
    + intros [k v] r Hx. rewrite Forall_forall in IH, Hv. cbn [fst snd].
      destruct (IH _ Hx) as [I1 I2]. destruct (Hv _ Hx) as [O1 O2]. cbn [fst snd] in *.
      unfold dec_pair. rewrite <- app_assoc, I1 by auto. rewrite I2 by auto. reflexivity.
  - cbn [vok] in H. destruct H as [Ht Hv]. cbn [enc]. rewrite <- app_assoc. cbn [dec].
    rewrite dec_head_enc by lia. rewrite IH by auto. reflexivity.
  - destruct b; reflexivity.
  - reflexivity.
Qed.

Lemma dec_top_enc v : vok MAX_DEPTH v -> dec_top (enc v) = Some v.
Proof.
  intros H. unfold dec_top. rewrite <- (app_nil_r (enc v)). rewrite dec_enc; auto.
Qed.

Lemma enc_head_ok m v : m < 8 -> v < two64 -> bytes_ok (enc_head m v).
Proof. intros. eapply head_ok, enc_head_head; auto. Qed.

Lemma bytes_ok_concat l : Forall bytes_ok l -> bytes_ok (concat l).
Proof.
  intros H; induction H; cbn [concat]; [constructor|]. apply bytes_ok_app; auto.
Qed.

Lemma enc_bytes_ok v : forall d, vok d v -> bytes_ok (enc v).
Proof.
  induction v as [z|b|b|l IH|l IH|t v IH|b|] using cval_ind2; intros [|d] H; try contradiction;
    cbn [vok enc] in *.
  - unfold enc_int. unfold two64 in H. destruct (Z.leb_spec 0 z); apply enc_head_ok; unfold two64; lia.
  - apply bytes_ok_app. split; [apply enc_head_ok; lia|tauto].
  - apply bytes_ok_app. split; [apply enc_head_ok; lia|tauto].
  - apply bytes_ok_app. split; [apply enc_head_ok; lia|]. apply bytes_ok_concat.
    apply Forall_map. rewrite Forall_forall in *. intros x Hx. destruct H as [_ H].
    eauto.
  - apply bytes_ok_app. split; [apply enc_head_ok; lia|]. apply bytes_ok_concat.
    apply Forall_map. rewrite Forall_forall in *. intros x Hx. destruct H as [_ H].
    destruct (IH _ Hx), (H _ Hx). apply bytes_ok_app; eauto.
  - apply bytes_ok_app. split; [apply enc_head_ok; lia|]. eapply IH. apply H.
  - repeat constructor. destruct b; lia.
  - repeat constructor.
Qed.

Lemma items_of_forall cnt (l : list bytes) : Forall (item cnt) l -> items cnt l.
Proof. intros H; induction H; constructor; auto. Qed.

Lemma enc_item v : forall d, vok d v -> plain v = true -> cbor_item (enc v).
Proof.
  unfold cbor_item.
  induction v as [z|b|b|l IH|l IH|t v IH|b|] using cval_ind2; intros [|d] H Hp; try contradiction;
    cbn [vok enc plain] in *; try discriminate.
  - unfold enc_int, two64 in *. destruct (Z.leb_spec 0 z).
    + eapply item_int with (m := 0); [auto|]. apply enc_head_head; unfold two64; lia.
    + eapply item_int with (m := 1); [auto|]. apply enc_head_head; unfold two64; lia.
  - eapply item_str with (m := 2); [auto|]. apply enc_head_head; [lia|tauto].
  - eapply item_str with (m := 3); [auto|]. apply enc_head_head; [lia|tauto].
  - apply item_arr.
    + unfold nlen in *. rewrite map_length. apply enc_head_head; [lia|tauto].
    + apply items_of_forall, Forall_map. rewrite Forall_forall in *. intros x Hx.
      destruct H as [_ H]. rewrite forallb_forall in Hp. eauto.
  - replace (concat (map (fun kv => enc (fst kv) ++ enc (snd kv)) l))
      with (concat (concat (map (fun kv => [enc (fst kv); enc (snd kv)]) l))).
    2:{ clear. induction l as [|[a b] l IHl]; [reflexivity|]. cbn [map concat fst snd app].
        rewrite IHl, app_assoc. reflexivity. }
    eapply item_map with (p := nlen l).
    + apply enc_head_head; [lia|tauto].
    + unfold std_map, nlen. clear. induction l as [|x l IHl]; [reflexivity|].
      cbn [map concat app length]. cbn [length] in IHl. lia.
    + apply items_of_forall. apply Forall_concat. apply Forall_map. rewrite Forall_forall in *.
      intros x Hx. destruct H as [_ H]. rewrite forallb_forall in Hp.
      specialize (Hp _ Hx). apply andb_true_iff in Hp. destruct Hp.
      destruct (IH _ Hx), (H _ Hx). constructor; [eauto|]. constructor; [eauto|constructor].
  - eapply item_tag; [apply enc_head_head; [lia|tauto]|]. eapply IH; [apply H|auto].
Qed.

(** * UTF-8 *)

Lemma utf8_char_ok c : is_scalar c = true -> bytes_ok (utf8_char c).
Proof.
  unfold is_scalar, utf8_char. intros H.
  destruct (N.ltb_spec c 128); [repeat constructor; lia|].
  destruct (N.ltb_spec c 2048); [repeat constructor; lia|].
  destruct (N.ltb_spec c 65536); repeat constructor; lia.
Qed.

Lemma utf8_dec_char c r : is_scalar c = true -> utf8_dec (utf8_char c ++ r) = option_map (cons c) (utf8_dec r).
Proof.
  intros Hs. unfold utf8_char.
  destruct (N.ltb_spec c 128) as [H|H].
  - cbn [app utf8_dec]. assert (c <? 128 = true) as -> by lia. reflexivity.
  - destruct (N.ltb_spec c 2048) as [H1|H1]; [|destruct (N.ltb_spec c 65536) as [H2|H2]]; cbn [app utf8_dec].
    + assert (192 + c / 64 <? 128 = false) as -> by lia.
      assert (is_cont (128 + c mod 64) = true) as -> by (unfold is_cont; lia). cbn [negb].
      assert ((192 <=? 192 + c / 64) && (192 + c / 64 <? 224) = true) as -> by lia.
      replace ((192 + c / 64 - 192) * 64 + (128 + c mod 64 - 128)) with c by lia.
      assert (128 <=? c = true) as -> by lia. reflexivity.
    + assert (224 + c / 4096 <? 128 = false) as -> by lia.
      assert (is_cont (128 + (c / 64) mod 64) = true) as -> by (unfold is_cont; lia).
      assert (is_cont (128 + c mod 64) = true) as -> by (unfold is_cont; lia). cbn [negb].
      assert ((192 <=? 224 + c / 4096) && (224 + c / 4096 <? 224) = false) as -> by lia.
      assert ((224 <=? 224 + c / 4096) && (224 + c / 4096 <? 240) = true) as -> by lia.
      replace ((224 + c / 4096 - 224) * 4096 + (128 + (c / 64) mod 64 - 128) * 64 + (128 + c mod 64 - 128)) with c by lia.
      rewrite Hs. assert (2048 <=? c = true) as -> by lia. reflexivity.
    + assert (c < 1114112) by (unfold is_scalar in Hs; lia).
      assert (240 + c / 262144 <? 128 = false) as -> by lia.
      assert (is_cont (128 + (c / 4096) mod 64) = true) as -> by (unfold is_cont; lia).
      assert (is_cont (128 + (c / 64) mod 64) = true) as -> by (unfold is_cont; lia).
      assert (is_cont (128 + c mod 64) = true) as -> by (unfold is_cont; lia). cbn [negb].
      assert ((192 <=? 240 + c / 262144) && (240 + c / 262144 <? 224) = false) as -> by lia.
      assert ((224 <=? 240 + c / 262144) && (240 + c / 262144 <? 240) = false) as -> by lia.
      assert ((240 <=? 240 + c / 262144) && (240 + c / 262144 <? 248) = true) as -> by lia.
      replace ((240 + c / 262144 - 240) * 262144 + (128 + (c / 4096) mod 64 - 128) * 4096
               + (128 + (c / 64) mod 64 - 128) * 64 + (128 + c mod 64 - 128)) with c by lia.
      rewrite Hs. assert (65536 <=? c = true) as -> by lia. reflexivity.
Qed.

Lemma utf8_roundtrip s : forallb is_scalar s = true -> utf8_dec (utf8_enc s) = Some s.
Proof.
  unfold utf8_enc. induction s as [|c s IH]; cbn [forallb map concat]; intros H; [reflexivity|].
  apply andb_true_iff in H. destruct H as [Hc Hs].
  rewrite utf8_dec_char by auto. rewrite IH by auto. reflexivity.
Qed.

Lemma utf8_enc_ok s : forallb is_scalar s = true -> bytes_ok (utf8_enc s).
Proof.
  unfold utf8_enc. intros H. apply bytes_ok_concat, Forall_map, Forall_forall. intros c Hc.
  apply utf8_char_ok. rewrite forallb_forall in H. auto.
Qed.

(** Decoding is unambiguous in the other direction too. *)
Lemma utf8_dec_enc s : forall l, utf8_dec s = Some l -> utf8_enc l = s /\ forallb is_scalar l = true.
Proof.
  assert (OM : forall (x : N) (o : option str) l, option_map (cons x) o = Some l -> exists l', o = Some l' /\ l = x :: l').
  { intros x [o|] l E; cbn in E; [inversion E; eauto|discriminate]. }
  induction s as [s IH] using (well_founded_induction (well_founded_ltof _ (@length N))).
  unfold ltof in IH. intros l E.
  destruct s as [|b0 r]; [inversion E; subst; split; reflexivity|].
  cbn [utf8_dec] in E. destruct (N.ltb_spec b0 128) as [H|H].
  - apply OM in E. destruct E as [l' [E ->]]. destruct (IH r ltac:(cbn; lia) l' E) as [E1 E2].
    unfold utf8_enc in *. cbn [map concat forallb]. rewrite E1, E2. unfold utf8_char.
    assert (b0 <? 128 = true) as -> by lia. split; [reflexivity|]. unfold is_scalar. lia.
  - destruct r as [|b1 r1]; [discriminate|].
    destruct (is_cont b1) eqn:C1; cbn [negb] in E; [|discriminate]. unfold is_cont in C1.
    destruct ((192 <=? b0) && (b0 <? 224)) eqn:R1.
    + destruct (N.leb_spec 128 ((b0 - 192) * 64 + (b1 - 128))) as [G|G]; [|discriminate].
      apply OM in E. destruct E as [l' [E ->]]. destruct (IH r1 ltac:(cbn; lia) l' E) as [E1 E2].
      unfold utf8_enc in *. cbn [map concat forallb]. rewrite E1, E2. unfold utf8_char, is_scalar.
      remember ((b0 - 192) * 64 + (b1 - 128)) as c.
      assert (c <? 128 = false) as -> by lia. assert (c <? 2048 = true) as -> by lia.
      assert (192 + c / 64 = b0) as -> by lia. assert (128 + c mod 64 = b1) as -> by lia.
      split; [reflexivity|lia].
    + destruct r1 as [|b2 r2]; [discriminate|].
      destruct (is_cont b2) eqn:C2; cbn [negb] in E; [|discriminate]. unfold is_cont in C2.
      destruct ((224 <=? b0) && (b0 <? 240)) eqn:R2.
      * remember ((b0 - 224) * 4096 + (b1 - 128) * 64 + (b2 - 128)) as c.
        destruct ((2048 <=? c) && is_scalar c) eqn:G; [|discriminate]. apply andb_true_iff in G. destruct G as [G1 G2].
        apply OM in E. destruct E as [l' [E ->]]. destruct (IH r2 ltac:(cbn; lia) l' E) as [E1 E2].
        unfold utf8_enc in *. cbn [map concat forallb]. rewrite E1, E2, G2. unfold utf8_char.
        assert (c <? 128 = false) as -> by lia. assert (c <? 2048 = false) as -> by lia.
        assert (c <? 65536 = true) as -> by lia.
        assert (224 + c / 4096 = b0) as -> by lia. assert (128 + (c / 64) mod 64 = b1) as -> by lia.
        assert (128 + c mod 64 = b2) as -> by lia. split; reflexivity.
      * destruct r2 as [|b3 r3]; [discriminate|].
        destruct (is_cont b3) eqn:C3; cbn [negb] in E; [|discriminate]. unfold is_cont in C3.
        destruct ((240 <=? b0) && (b0 <? 248)) eqn:R3; [|discriminate].
        remember ((b0 - 240) * 262144 + (b1 - 128) * 4096 + (b2 - 128) * 64 + (b3 - 128)) as c.
        destruct ((65536 <=? c) && is_scalar c) eqn:G; [|discriminate]. apply andb_true_iff in G. destruct G as [G1 G2].
        apply OM in E. destruct E as [l' [E ->]]. destruct (IH r3 ltac:(cbn; lia) l' E) as [E1 E2].
        unfold utf8_enc in *. cbn [map concat forallb]. rewrite E1, E2, G2. unfold utf8_char.
        assert (c <? 128 = false) as -> by lia. assert (c <? 2048 = false) as -> by lia.
        assert (c <? 65536 = false) as -> by lia.
        assert (240 + c / 262144 = b0) as -> by lia. assert (128 + (c / 4096) mod 64 = b1) as -> by lia.
        assert (128 + (c / 64) mod 64 = b2) as -> by lia.
        assert (128 + c mod 64 = b3) as -> by lia. split; reflexivity.
Qed.
