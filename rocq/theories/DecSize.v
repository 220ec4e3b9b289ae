(** Values read from bytes are no longer than the bytes. *)
From Verif Require Import Base BaseFacts ValueModel ValueProofs TypesModel DecFacts.
From Coq Require Import ZifyBool ZifyNat ZifyN.
Local Open Scope N_scope.

Inductive sized (n : nat) : cval -> Prop :=
| SzInt z : sized n (VInt z)
| SzBytes b : (length b <= n)%nat -> sized n (VBytes b)
| SzText b : (length b <= n)%nat -> sized n (VText b)
| SzArr l : (length l <= n)%nat -> Forall (sized n) l -> sized n (VArr l)
| SzMap l : Forall (fun kv => sized n (fst kv) /\ sized n (snd kv)) l -> sized n (VMap l)
| SzTag t v : sized n v -> sized n (VTag t v)
| SzBool b : sized n (VBool b)
| SzNull : sized n VNull.

Fixpoint sized_mono n m v (H : sized n v) {struct H} : (n <= m)%nat -> sized m v.
Proof.
  intros L. destruct H as [z|b E|b E|l E F|l F|t v H|b|].
  - constructor.
  - constructor; lia.
  - constructor; lia.
  - constructor; [lia|]. induction F as [|x l H F IH]; constructor; [exact (sized_mono _ _ _ H L)|apply IH; cbn [length] in E; lia].
  - constructor. induction F as [|x l [H1 H2] F IH]; constructor; [split; [exact (sized_mono _ _ _ H1 L)|exact (sized_mono _ _ _ H2 L)]|exact IH].
  - constructor. exact (sized_mono _ _ _ H L).
  - constructor.
  - constructor.
Qed.
Lemma take_size n s a b : take n s = Some (a, b) -> (length a + length b = length s)%nat.
Proof. intros T. apply take_some in T. destruct T as [-> _]. rewrite app_length. reflexivity. Qed.
Lemma dec_head_size s m v r : dec_head s = Some (m, v, r) -> (length r < length s)%nat.
Proof.
  unfold dec_head. destruct s as [|b s]; [discriminate|]. cbn [length].
  assert (K : forall k, match take k s with Some (a, s2) => Some (b / 32, be_dec a, s2) | None => None end = Some (m, v, r) -> (length r < S (length s))%nat).
  { intros k. destruct (take k s) as [[a s2]|] eqn:T; [|discriminate]. intros E. inversion E; subst. apply take_size in T. lia. }
  destruct (b mod 32 <? 24); [intros E; inversion E; subst; lia|].
  destruct (b mod 32 =? 24); [apply K|]. destruct (b mod 32 =? 25); [apply K|]. destruct (b mod 32 =? 26); [apply K|].
  destruct (b mod 32 =? 27); [apply K|discriminate].
Qed.
Lemma dec_list_size {A} (P : nat -> A -> Prop) (f : bytes -> option (A * bytes)) :
  (forall n m v, P n v -> (n <= m)%nat -> P m v) ->
  (forall s v r, f s = Some (v, r) -> P (length s) v /\ (length r < length s)%nat) ->
  forall k n s l r, dec_list f k n s = Some (l, r) -> Forall (P (length s)) l /\ (length l + length r <= length s)%nat.
Proof.
  intros M F. induction k as [|k IH]; intros n s l r D; cbn [dec_list] in D; destruct (n =? 0); try discriminate; try (inversion D; subst; auto; fail).
  destruct (f s) as [[v s1]|] eqn:E; [|discriminate]. destruct (dec_list f k (n - 1) s1) as [[l' s2]|] eqn:D2; [|discriminate].
  inversion D; subst. destruct (F _ _ _ E) as [P1 B1]. destruct (IH _ _ _ _ D2) as [P2 B2]. cbn [length]. split; [|lia].
  constructor; [exact P1|]. revert P2. apply Forall_impl. intros a H. eapply M; [exact H|lia].
Qed.
Lemma dec_sized d : forall s v r, dec d s = Some (v, r) -> sized (length s) v /\ (length r < length s)%nat.
Proof.
  induction d as [|d IH]; intros s v r D; [discriminate|]. cbn [dec] in D.
  destruct (dec_head s) as [[[m a] s1]|] eqn:HD; [|discriminate]. pose proof (dec_head_size _ _ _ _ HD) as H1.
  destruct m as [|[[[?|?|]|[?|?|]|]|[[?|?|]|[?|?|]|]|]]; cbn beta iota in D.
  all: try (inversion D; subst; split; [constructor|assumption]; fail).
  all: try (destruct (take a s1) as [[b s2]|] eqn:T; [|discriminate]; inversion D; subst; apply take_size in T; split; [constructor; lia|lia]).
  all: try (destruct (dec_list (dec d) (length s1) a s1) as [[l s2]|] eqn:L; [|discriminate]; inversion D; subst;
            destruct (dec_list_size sized _ sized_mono IH _ _ _ _ _ L) as [F1 F2]; split; [|lia]; constructor; [lia|];
            revert F1; apply Forall_impl; intros x X; eapply sized_mono; [exact X|lia]).
  all: try (destruct (dec_list (dec_pair (dec d)) (length s1) a s1) as [[l s2]|] eqn:L; [|discriminate]; inversion D; subst).
  all: try (destruct (dec d s1) as [[x s2]|] eqn:X; [|discriminate]; inversion D; subst; destruct (IH _ _ _ X) as [X1 X2]; split; [constructor; eapply sized_mono; [exact X1|lia]|lia]).
  all: try match type of D with ?X = Some (_, _) =>
    assert (SM : X = Some (VBool true, s1) \/ X = Some (VBool false, s1) \/ X = Some (VNull, s1) \/ X = None)
      by (clear; destruct s as [|x s]; [auto|]; repeat match goal with |- context [match ?y with _ => _ end] => is_var y; destruct y; auto end; auto);
    rewrite D in SM; destruct SM as [SM|[SM|[SM|SM]]]; inversion SM; subst; split; [constructor|assumption|constructor|assumption|constructor|assumption] end.
  pose (P := fun n (kv : cval * cval) => sized n (fst kv) /\ sized n (snd kv)).
  assert (PM : forall n m v, P n v -> (n <= m)%nat -> P m v) by (intros n m v [X Y] LE; split; eapply sized_mono; eassumption).
  assert (PR : forall s v r, dec_pair (dec d) s = Some (v, r) -> P (length s) v /\ (length r < length s)%nat).
  { clear D HD. intros s0 [va vb] r0 E. unfold dec_pair in E. destruct (dec d s0) as [[x s3]|] eqn:X; [|discriminate]. destruct (dec d s3) as [[y s4]|] eqn:Y; [|discriminate].
    inversion E; subst. destruct (IH _ _ _ X) as [O1 B1]. destruct (IH _ _ _ Y) as [O2 B2]. split; [|lia]. split; [exact O1|]. cbn [snd]. eapply sized_mono; [exact O2|lia]. }
  destruct (dec_list_size P _ PM PR _ _ _ _ _ L) as [F1 F2]. split; [|lia]. constructor. revert F1. apply Forall_impl. intros x X. eapply PM; [exact X|lia].
Qed.
Lemma dec_top_sized s v : dec_top s = Some v -> sized (length s) v.
Proof.
  unfold dec_top. intros D. destruct (dec MAX_DEPTH s) as [[x [|? ?]]|] eqn:E; try discriminate. inversion D; subst.
  eapply dec_sized; eassumption.
Qed.
Lemma sized_untag n v : sized n v -> sized n (untag v).
Proof. induction 1; cbn [untag]; try (constructor; assumption); assumption. Qed.
Lemma all_some_len {A} (l : list (option A)) : forall r, all_some l = Some r -> length r = length l.
Proof.
  induction l as [|[x|] l IH]; cbn [all_some]; intros r E; [inversion E; reflexivity| |discriminate].
  destruct (all_some l); [|discriminate]. inversion E; subst. cbn [length]. f_equal. apply IH. reflexivity.
Qed.
Lemma bytebuf_size n v b : sized n v -> as_bytebuf v = Some b -> (length b <= n)%nat.
Proof.
  intros H E. apply sized_untag in H. unfold as_bytebuf in E. destruct (untag v) as [| |s|l| | | |]; try discriminate.
  - inversion E; subst; inversion H; assumption.
  - destruct (utf8_dec s); inversion E; subst. inversion H; assumption.
  - apply all_some_len in E. rewrite map_length in E. inversion H; subst. lia.
Qed.
Lemma fields_sized n v : sized n v -> Forall (sized n) (as_fields v).
Proof. intros H. apply sized_untag in H. unfold as_fields. destruct (untag v); try constructor. inversion H; assumption. Qed.
Lemma read_bytebuf_size s b : from_slice as_bytebuf s = Ok b -> nlen b <= nlen s.
Proof. intros F. apply from_slice_ok in F. destruct F as (v & D & E). pose proof (bytebuf_size _ _ _ (dec_top_sized _ _ D) E). unfold nlen. lia. Qed.
Lemma read_hash_size s h : from_slice as_hash s = Ok h -> nlen (h_value h) <= nlen s.
Proof.
  intros F. apply from_slice_ok in F. destruct F as (v & D & E). pose proof (fields_sized _ _ (dec_top_sized _ _ D)) as FS.
  unfold as_hash in E. destruct (as_fields v) as [|t [|b [|? ?]]]; try discriminate. destruct (as_int (-128) 127 t); [|discriminate].
  destruct (hashtype_of z); [|discriminate]. destruct (as_bytebuf b) eqn:B; [|discriminate]. inversion E; subst. cbn [h_value].
  inversion FS as [|? ? _ F2]; subst. inversion F2; subst. pose proof (bytebuf_size _ _ _ H1 B). unfold nlen. lia.
Qed.
Lemma read_hash_ok s h : bytes_ok s -> from_slice as_hash s = Ok h -> bytes_ok (h_value h).
Proof.
  intros BO F. apply from_slice_ok in F. destruct F as (v & D & E). pose proof (fields_octets _ (dec_top_octets _ _ BO D)) as FS.
  unfold as_hash in E. destruct (as_fields v) as [|t [|b [|? ?]]]; try discriminate. destruct (as_int (-128) 127 t); [|discriminate].
  destruct (hashtype_of z); [|discriminate]. destruct (as_bytebuf b) eqn:B; [|discriminate]. inversion E; subst. cbn [h_value].
  inversion FS as [|? ? _ F2]; subst. inversion F2; subst. eapply bytebuf_ok; eassumption.
Qed.
