(** Hexadecimal text of nonces and the text form of GUIDs. *)
From Verif Require Import Base BaseFacts ValueModel Text StoreSpec.
From Coq Require Import ZifyBool ZifyNat ZifyN.
Local Open Scope N_scope.

(** The hex crate: encode (lower case), decode (either case; [None] is an error). *)
Definition hex_digit (n : N) : N := if n <? 10 then 48 + n else 87 + n.
Definition hex_enc (b : bytes) : str := flat_map (fun x => [hex_digit (x / 16); hex_digit (x mod 16)]) b.
Definition hex_val (c : N) : option N :=
  if (48 <=? c) && (c <=? 57) then Some (c - 48)
  else if (97 <=? c) && (c <=? 102) then Some (c - 87)
  else if (65 <=? c) && (c <=? 70) then Some (c - 55)
  else None.
Fixpoint hex_dec (s : str) : option bytes :=
  match s with
  | [] => Some []
  | a :: b :: r =>
    match hex_val a, hex_val b, hex_dec r with
    | Some x, Some y, Some l => Some (x * 16 + y :: l)
    | _, _, _ => None
    end
  | [_] => None
  end.

(** data-formats/src/types.rs:277-281 (Display), 283-292 (FromStr: unwraps the decoding and the length) *)
Definition nonce_text (n : bytes) : str := hex_enc n.
Definition nonce_parse (s : str) : option bytes :=
  match hex_dec s with Some b => if nlen b =? 16 then Some b else None | None => None end.

(** types.rs:343-347: hyphenated lower-case UUID text; [None]: not 16 bytes, a panic (types.rs:313-316). *)
Definition guid_text (g : bytes) : option str :=
  match g with
  | [b0; b1; b2; b3; b4; b5; b6; b7; b8; b9; b10; b11; b12; b13; b14; b15] =>
    Some (hex_enc [b0; b1; b2; b3] ++ 45 :: hex_enc [b4; b5] ++ 45 :: hex_enc [b6; b7] ++ 45 :: hex_enc [b8; b9] ++ 45 ::
          hex_enc [b10; b11; b12; b13; b14; b15])
  | _ => None
  end.
(** types.rs:335-341 (the uuid crate).  Simplified: hyphens are skipped wherever they are; braces and the urn: form are not read. *)
Definition guid_parse (s : str) : option bytes :=
  match hex_dec (filter (fun c => negb (c =? 45)) s) with Some b => if nlen b =? 16 then Some b else None | None => None end.

Lemma hex_digit_val n : n < 16 -> hex_val (hex_digit n) = Some n.
Proof.
  intros H. unfold hex_digit, hex_val. destruct (n <? 10) eqn:E; apply N.ltb_lt in E || apply N.ltb_ge in E.
  - replace ((48 <=? 48 + n) && (48 + n <=? 57)) with true by lia. f_equal. lia.
  - replace ((48 <=? 87 + n) && (87 + n <=? 57)) with false by lia. replace ((97 <=? 87 + n) && (87 + n <=? 102)) with true by lia. f_equal. lia.
Qed.
Lemma hex_digit_range n : n < 16 -> 48 <= hex_digit n <= 57 \/ 97 <= hex_digit n <= 102.
Proof. intros H. unfold hex_digit. destruct (N.ltb_spec n 10); lia. Qed.
Lemma nib_lt x : x < 256 -> x / 16 < 16 /\ x mod 16 < 16.
Proof. intros H. split; [apply N.div_lt_upper_bound; lia|apply N.mod_lt; lia]. Qed.
Lemma hex_round b : bytes_ok b -> hex_dec (hex_enc b) = Some b.
Proof.
  induction b as [|x b IH]; intros H; [reflexivity|]. inversion H as [|? ? Hx Hb]; subst. destruct (nib_lt _ Hx).
  unfold hex_enc in *. cbn [flat_map app hex_dec]. rewrite !hex_digit_val by assumption. rewrite (IH Hb).
  f_equal. f_equal. pose proof (N.div_mod x 16). lia.
Qed.
Lemma nonce_round n : bytes_ok n -> nlen n = 16 -> nonce_parse (nonce_text n) = Some n.
Proof. intros H L. unfold nonce_parse, nonce_text. rewrite hex_round by exact H. rewrite L. reflexivity. Qed.
Lemma nonce_parse_len s n : nonce_parse s = Some n -> nlen n = 16.
Proof. unfold nonce_parse. destruct (hex_dec s); [|discriminate]. destruct (N.eqb_spec (nlen b) 16); [|discriminate]. intros H; inversion H; subst; assumption. Qed.

Lemma hex_no45 b : bytes_ok b -> filter (fun c => negb (c =? 45)) (hex_enc b) = hex_enc b.
Proof.
  induction b as [|x b IH]; intros H; [reflexivity|]. inversion H as [|? ? Hx Hb]; subst. destruct (nib_lt _ Hx) as [A B].
  unfold hex_enc in *. cbn [flat_map app filter]. apply hex_digit_range in A. apply hex_digit_range in B.
  replace (hex_digit (x / 16) =? 45) with false by lia. replace (hex_digit (x mod 16) =? 45) with false by lia. cbn [negb]. rewrite (IH Hb). reflexivity.
Qed.
Lemma hex_app a b : hex_enc (a ++ b) = hex_enc a ++ hex_enc b.
Proof. unfold hex_enc. rewrite flat_map_app. reflexivity. Qed.
Lemma list16 (g : bytes) : nlen g = 16 -> exists b0 b1 b2 b3 b4 b5 b6 b7 b8 b9 b10 b11 b12 b13 b14 b15,
  g = [b0; b1; b2; b3; b4; b5; b6; b7; b8; b9; b10; b11; b12; b13; b14; b15].
Proof.
  intros L. unfold nlen in L. do 16 (destruct g as [|? g]; [cbn [length] in L; lia|]). destruct g; [|cbn [length] in L; lia]. repeat eexists.
Qed.
Lemma guid_text_some g : nlen g = 16 -> exists s, guid_text g = Some s.
Proof. intros L. destruct (list16 g L) as (b0 & b1 & b2 & b3 & b4 & b5 & b6 & b7 & b8 & b9 & b10 & b11 & b12 & b13 & b14 & b15 & ->). eexists. reflexivity. Qed.
Lemma guid_text_len g s : guid_text g = Some s -> nlen g = 16.
Proof. unfold guid_text. do 16 (destruct g as [|? g]; [discriminate|]). destruct g; [reflexivity|discriminate]. Qed.
Lemma guid_round g s : bytes_ok g -> guid_text g = Some s -> guid_parse s = Some g.
Proof.
  intros H T. pose proof (guid_text_len _ _ T) as L. destruct (list16 g L) as (b0 & b1 & b2 & b3 & b4 & b5 & b6 & b7 & b8 & b9 & b10 & b11 & b12 & b13 & b14 & b15 & ->).
  cbn [guid_text] in T. injection T as <-. unfold guid_parse.
  change [b0; b1; b2; b3; b4; b5; b6; b7; b8; b9; b10; b11; b12; b13; b14; b15]
    with ([b0; b1; b2; b3] ++ [b4; b5] ++ [b6; b7] ++ [b8; b9] ++ [b10; b11; b12; b13; b14; b15]) in *.
  apply bytes_ok_app in H. destruct H as [H1 H]. apply bytes_ok_app in H. destruct H as [H2 H]. apply bytes_ok_app in H. destruct H as [H3 H].
  apply bytes_ok_app in H. destruct H as [H4 H5].
  assert (X : filter (fun c => negb (c =? 45)) (hex_enc [b0; b1; b2; b3] ++ 45 :: hex_enc [b4; b5] ++ 45 :: hex_enc [b6; b7] ++ 45 :: hex_enc [b8; b9] ++ 45 ::
          hex_enc [b10; b11; b12; b13; b14; b15]) = hex_enc ([b0; b1; b2; b3] ++ [b4; b5] ++ [b6; b7] ++ [b8; b9] ++ [b10; b11; b12; b13; b14; b15])).
  { repeat (rewrite filter_app; cbn [filter]; change (45 =? 45) with true; cbn [negb]). rewrite !hex_no45 by assumption. rewrite <- !hex_app. reflexivity. }
  match goal with |- context [hex_dec ?x] => replace x with (hex_enc ([b0; b1; b2; b3] ++ [b4; b5] ++ [b6; b7] ++ [b8; b9] ++ [b10; b11; b12; b13; b14; b15])) by (symmetry; exact X) end.
  rewrite hex_round; [rewrite L; reflexivity|]. repeat (apply bytes_ok_app; split; [assumption|]). assumption.
Qed.
Lemma guid_text_inj g g' s : bytes_ok g -> bytes_ok g' -> guid_text g = Some s -> guid_text g' = Some s -> g = g'.
Proof. intros H H' T T'. apply guid_round in T; [|exact H]. apply guid_round in T'; [|exact H']. congruence. Qed.
Lemma plain_hex b : bytes_ok b -> plain_key (hex_enc b).
Proof.
  unfold plain_key. induction b as [|x b IH]; intros H; [constructor|]. inversion H as [|? ? Hx Hb]; subst. destruct (nib_lt _ Hx) as [A B].
  apply hex_digit_range in A. apply hex_digit_range in B. unfold hex_enc in *. cbn [flat_map app]. constructor; [lia|]. constructor; [lia|]. auto.
Qed.
Lemma guid_text_plain g s : bytes_ok g -> guid_text g = Some s -> plain_key s.
Proof.
  intros H T. pose proof (guid_text_len _ _ T) as L. destruct (list16 g L) as (b0 & b1 & b2 & b3 & b4 & b5 & b6 & b7 & b8 & b9 & b10 & b11 & b12 & b13 & b14 & b15 & ->).
  cbn [guid_text] in T. injection T as <-.
  change [b0; b1; b2; b3; b4; b5; b6; b7; b8; b9; b10; b11; b12; b13; b14; b15]
    with ([b0; b1; b2; b3] ++ [b4; b5] ++ [b6; b7] ++ [b8; b9] ++ [b10; b11; b12; b13; b14; b15]) in *.
  apply bytes_ok_app in H. destruct H as [H1 H]. apply bytes_ok_app in H. destruct H as [H2 H]. apply bytes_ok_app in H. destruct H as [H3 H].
  apply bytes_ok_app in H. destruct H as [H4 H5].
  assert (AP : forall a b, plain_key (hex_enc a) -> plain_key b -> plain_key (hex_enc a ++ 45 :: b)).
  { intros a b X Y. unfold plain_key in *. apply Forall_app. split; [exact X|]. constructor; [split; discriminate|exact Y]. }
  change (plain_key (hex_enc [b0; b1; b2; b3] ++ 45 :: hex_enc [b4; b5] ++ 45 :: hex_enc [b6; b7] ++ 45 :: hex_enc [b8; b9] ++ 45 ::
          hex_enc [b10; b11; b12; b13; b14; b15])).
  do 4 (apply AP; [apply plain_hex; assumption|]). apply plain_hex. assumption.
Qed.
