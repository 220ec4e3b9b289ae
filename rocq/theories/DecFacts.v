(** Values read from bytes contain bytes. *)
From Verif Require Import Base BaseFacts ValueModel ValueProofs TypesModel.
From Coq Require Import ZifyBool ZifyNat ZifyN.
Local Open Scope N_scope.

Inductive octets : cval -> Prop :=
| OcInt z : octets (VInt z)
| OcBytes b : bytes_ok b -> octets (VBytes b)
| OcText b : bytes_ok b -> octets (VText b)
| OcArr l : Forall octets l -> octets (VArr l)
| OcMap l : Forall (fun kv => octets (fst kv) /\ octets (snd kv)) l -> octets (VMap l)
| OcTag t v : octets v -> octets (VTag t v)
| OcBool b : octets (VBool b)
| OcNull : octets VNull.

Lemma take_ok n s a b : bytes_ok s -> take n s = Some (a, b) -> bytes_ok a /\ bytes_ok b.
Proof. intros H T. apply take_some in T. destruct T as [-> _]. apply bytes_ok_app in H. exact H. Qed.
Lemma dec_head_rest s m v r : bytes_ok s -> dec_head s = Some (m, v, r) -> bytes_ok r.
Proof.
  intros H. unfold dec_head. destruct s as [|b s]; [discriminate|]. inversion H as [|? ? _ Hs]; subst.
  assert (K : forall k, match take k s with Some (a, s2) => Some (b / 32, be_dec a, s2) | None => None end = Some (m, v, r) -> bytes_ok r).
  { intros k. destruct (take k s) as [[a s2]|] eqn:T; [|discriminate]. intros E. inversion E; subst. eapply take_ok in T; [|exact Hs]. apply T. }
  destruct (b mod 32 <? 24); [intros E; inversion E; subst; exact Hs|].
  destruct (b mod 32 =? 24); [apply K|]. destruct (b mod 32 =? 25); [apply K|]. destruct (b mod 32 =? 26); [apply K|].
  destruct (b mod 32 =? 27); [apply K|discriminate].
Qed.
Lemma dec_list_ok {A} (P : A -> Prop) (f : bytes -> option (A * bytes)) :
  (forall s v r, bytes_ok s -> f s = Some (v, r) -> P v /\ bytes_ok r) ->
  forall k n s l r, bytes_ok s -> dec_list f k n s = Some (l, r) -> Forall P l /\ bytes_ok r.
Proof.
  intros F. induction k as [|k IH]; intros n s l r H D; cbn [dec_list] in D; destruct (n =? 0); try discriminate; try (inversion D; subst; auto; fail).
  destruct (f s) as [[v s1]|] eqn:E; [|discriminate]. destruct (dec_list f k (n - 1) s1) as [[l' s2]|] eqn:D2; [|discriminate].
  inversion D; subst. destruct (F _ _ _ H E) as [P1 B1]. destruct (IH _ _ _ _ B1 D2). auto.
Qed.
Lemma dec_octets d : forall s v r, bytes_ok s -> dec d s = Some (v, r) -> octets v /\ bytes_ok r.
Proof.
  induction d as [|d IH]; intros s v r H D; [discriminate|]. cbn [dec] in D.
  destruct (dec_head s) as [[[m a] s1]|] eqn:HD; [|discriminate]. pose proof (dec_head_rest _ _ _ _ H HD) as H1.
  destruct m as [|[[[?|?|]|[?|?|]|]|[[?|?|]|[?|?|]|]|]]; cbn beta iota in D.
  all: try (inversion D; subst; split; [constructor|assumption]; fail).
  all: try (destruct (take a s1) as [[b s2]|] eqn:T; [|discriminate]; inversion D; subst; destruct (take_ok _ _ _ _ H1 T); split; [constructor; assumption|assumption]).
  all: try (destruct (dec_list (dec d) (length s1) a s1) as [[l s2]|] eqn:L; [|discriminate]; inversion D; subst;
            destruct (dec_list_ok octets _ IH _ _ _ _ _ H1 L); split; [constructor; assumption|assumption]).
  all: try (destruct (dec_list (dec_pair (dec d)) (length s1) a s1) as [[l s2]|] eqn:L; [|discriminate]; inversion D; subst).
  all: try (destruct (dec d s1) as [[x s2]|] eqn:X; [|discriminate]; inversion D; subst; destruct (IH _ _ _ H1 X); split; [constructor; assumption|assumption]).
  all: try match type of D with ?X = Some (_, _) =>
    assert (SM : X = Some (VBool true, s1) \/ X = Some (VBool false, s1) \/ X = Some (VNull, s1) \/ X = None)
      by (clear; destruct s as [|x s]; [auto|]; repeat match goal with |- context [match ?y with _ => _ end] => is_var y; destruct y; auto end; auto);
    rewrite D in SM; destruct SM as [SM|[SM|[SM|SM]]]; inversion SM; subst; split; [constructor|assumption|constructor|assumption|constructor|assumption] end.
  assert (PR : forall s v r, bytes_ok s -> dec_pair (dec d) s = Some (v, r) -> (octets (fst v) /\ octets (snd v)) /\ bytes_ok r).
  { clear D HD. intros s0 [va vb] r0 B E. unfold dec_pair in E. destruct (dec d s0) as [[x s3]|] eqn:X; [|discriminate]. destruct (dec d s3) as [[y s4]|] eqn:Y; [|discriminate].
    inversion E; subst. destruct (IH _ _ _ B X) as [O1 B1]. destruct (IH _ _ _ B1 Y). cbn [fst snd]. auto. }
  destruct (dec_list_ok _ _ PR _ _ _ _ _ H1 L). split; [constructor; assumption|assumption].
Qed.
Lemma dec_top_octets s v : bytes_ok s -> dec_top s = Some v -> octets v.
Proof.
  unfold dec_top. intros H D. destruct (dec MAX_DEPTH s) as [[x [|? ?]]|] eqn:E; try discriminate. inversion D; subst.
  eapply dec_octets; eassumption.
Qed.
Lemma octets_untag v : octets v -> octets (untag v).
Proof. induction 1; cbn [untag]; try (constructor; assumption); assumption. Qed.
Lemma bytebuf_ok v b : octets v -> as_bytebuf v = Some b -> bytes_ok b.
Proof.
  intros H E. apply octets_untag in H. unfold as_bytebuf in E. destruct (untag v) as [| |s|l| | | |] eqn:U; try discriminate.
  - inversion E; subst; inversion H; assumption.
  - destruct (utf8_dec s); inversion E; subst. inversion H; assumption.
  - clear H U. revert b E. induction l as [|x l IH]; intros b E; cbn [map all_some] in E; [inversion E; constructor|].
    destruct (as_u8 x) as [y|] eqn:X; [|discriminate]. destruct (all_some (map as_u8 l)) as [z|] eqn:Y; [|discriminate]. inversion E; subst.
    constructor; [|apply IH; reflexivity]. unfold as_u8, as_int in X. destruct (untag x); try discriminate.
    destruct ((0 <=? z0) && (z0 <=? 255))%Z eqn:R; cbn [option_map] in X; [|discriminate]. inversion X; subst. lia.
Qed.
Lemma bstr16_ok v b : octets v -> as_bstr16 v = Some b -> bytes_ok b.
Proof. unfold as_bstr16. intros H E. destruct (as_bytebuf v) eqn:B; [|discriminate]. destruct (nlen b0 =? 16); inversion E; subst. eapply bytebuf_ok; eassumption. Qed.
Lemma from_slice_ok {A} (f : cval -> option A) s x : from_slice f s = Ok x -> exists v, dec_top s = Some v /\ f v = Some x.
Proof.
  unfold from_slice. destruct (dec_top s) as [v|]; cbn [of_option bind]; [|discriminate]. destruct (f v) eqn:E; cbn [of_option]; intros H; inversion H; subst. eauto.
Qed.
Lemma fields_octets v : octets v -> Forall octets (as_fields v).
Proof. intros H. apply octets_untag in H. unfold as_fields. destruct (untag v); try constructor. inversion H; assumption. Qed.
