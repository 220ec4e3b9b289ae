(** Lemmas for P_Types.v: certificate chains. *)
From Verif Require Import Base BaseFacts TypesModel ChainSpec.
From Coq Require Import ZifyBool ZifyNat ZifyN.
Local Open Scope N_scope.

Section Chain.
Context (c : crypto) (f : bytes -> bool).
Let tr (x : bytes) : outcome ferr bool := Ok (f x).
Let T (x : bytes) : Prop := f x = true.

Lemma linked_dec a b : {linked c a b} + {~ linked c a b}.
Proof.
  unfold linked. destruct (c_issued c b a); [|right; intros [H _]; discriminate].
  destruct (c_cert_key c b) as [k|]; [|right; intros [_ (k & H & _)]; discriminate].
  destruct (c_cert_verify c a k) as [[|]|] eqn:V; [left; eauto| |];
    right; intros [_ (k' & E & W)]; inversion E; subst; congruence.
Qed.

(** Sound and complete for the loop, from any position. *)
Lemma loop_reaches leaf : forall ch pos,
  chain_loop c tr leaf pos ch = Ok leaf <->
  exists k root, (1 <= k)%nat /\ nth_error ch k = Some root /\ T root /\
    forall i a b, (i < k)%nat -> nth_error ch i = Some a -> nth_error ch (S i) = Some b -> linked c a b.
Proof.
  induction ch as [|x ch IH]; intros pos.
  - split; [discriminate|]. intros (k & root & K & E & _). destruct k; discriminate.
  - destruct ch as [|y ch].
    + split; [discriminate|]. intros (k & root & K & E & _). destruct k as [|[|k]]; [lia|discriminate|discriminate].
    + cbn [chain_loop]. specialize (IH (pos + 1)).
      destruct (c_issued c y x) eqn:I; cbn [negb].
      2:{ split; [discriminate|]. intros (k & root & K & E & _ & L).
          destruct (L 0%nat x y ltac:(lia) eq_refl eq_refl) as [H _]. congruence. }
      destruct (c_cert_key c y) as [key|] eqn:CK; cbn [unwrap bind].
      2:{ split; [discriminate|]. intros (k & root & K & E & _ & L).
          destruct (L 0%nat x y ltac:(lia) eq_refl eq_refl) as [_ (key & H & _)]. congruence. }
      destruct (c_cert_verify c x key) as [[|]|] eqn:V.
      2,3: split; [discriminate|]; intros (k & root & K & E & _ & L);
          destruct (L 0%nat x y ltac:(lia) eq_refl eq_refl) as [_ (key' & H & W)]; congruence.
      assert (LK : linked c x y) by (split; eauto).
      unfold tr at 1. cbn [bind]. destruct (f y) eqn:FY.
      * split; [|reflexivity]. intros _. exists 1%nat, y. split; [lia|]. split; [reflexivity|]. split; [exact FY|].
        intros i a b Hi A B. assert (i = 0)%nat as -> by lia. cbn in A, B. inversion A; inversion B; subst; auto.
      * rewrite IH. split.
        -- intros (k & root & K & E & TR & L). exists (S k), root. split; [lia|]. split; [exact E|]. split; [exact TR|].
           intros [|i] a b Hi A B; [cbn in A, B; inversion A; inversion B; subst; auto|]. apply (L i); [lia|exact A|exact B].
        -- intros (k & root & K & E & TR & L). destruct k as [|[|k]]; [lia| |].
           ++ cbn in E. inversion E; subst. unfold T in TR. congruence.
           ++ exists (S k), root. split; [lia|]. split; [exact E|]. split; [exact TR|].
              intros i a b Hi A B. apply (L (S i)); [lia|exact A|exact B].
Qed.

Lemma loop_ok_leaf leaf : forall ch pos x, chain_loop c tr leaf pos ch = Ok x -> x = leaf.
Proof.
  induction ch as [|x ch IH]; intros pos y H; [discriminate|]. destruct ch as [|z ch]; [discriminate|].
  cbn [chain_loop] in H. destruct (c_issued c z x); cbn [negb] in H; [|discriminate].
  destruct (c_cert_key c z); cbn [unwrap bind] in H; [|discriminate].
  destruct (c_cert_verify c x b) as [[|]|]; try discriminate. unfold tr at 1 in H. cbn [bind] in H.
  destruct (f z); [inversion H; auto|]. eapply IH; exact H.
Qed.

Lemma verify_reaches ch leaf : chain_verify c tr ch = Ok leaf <-> reaches c T ch leaf.
Proof.
  unfold chain_verify, reaches. destruct ch as [|x [|y ch]].
  - split; [discriminate|]. intros [[H _]|(k & root & K & E & _)]; discriminate.
  - unfold tr at 1. cbn [bind]. split.
    + destruct (f x) eqn:F; [|discriminate]. intros H; inversion H; subst. left; auto.
    + intros [[H TR]|(k & root & K & E & N & _)].
      * inversion H; subst. unfold T in TR. rewrite TR. reflexivity.
      * destruct k as [|[|k]]; [lia|discriminate|discriminate].
  - split.
    + intros H. pose proof (loop_ok_leaf _ _ _ _ H) as ->. apply loop_reaches in H.
      destruct H as (k & root & K & E & TR & L). right. exists k, root. repeat split; auto; apply (L i a b); auto.
    + intros [[H _]|(k & root & K & E & N & TR & L)]; [discriminate|].
      cbn [nth_error] in E. inversion E; subst. apply loop_reaches. exists k, root. auto.
Qed.

(** What each error means. *)
Lemma loop_errors leaf : forall ch pos e,
  chain_loop c tr leaf pos ch = Err (FInvalidChain e) ->
  match e with
  | ChEmpty => False
  | ChNoTrustedRoot => inconclusive c T ch (length ch - 1)
  | ChNonIssuer q => exists p a b, q = pos + N.of_nat p /\ inconclusive c T ch p /\ link_at ch p a b /\ c_issued c b a = false
  | ChInvalidSignedCert q => exists p a b k, q = pos + N.of_nat p /\ inconclusive c T ch p /\ link_at ch p a b /\
      c_issued c b a = true /\ c_cert_key c b = Some k /\ c_cert_verify c a k = Some false
  end.
Proof.
  assert (I0 : forall ch, inconclusive c T ch 0) by (intros ch i a b H; lia).
  induction ch as [|x ch IH]; intros pos e H.
  - inversion H; subst. apply I0.
  - destruct ch as [|y ch].
    + inversion H; subst. apply I0.
    + cbn [chain_loop] in H. specialize (IH (pos + 1) e).
      destruct (c_issued c y x) eqn:I; cbn [negb] in H.
      2:{ inversion H; subst. exists 0%nat, x, y. split; [lia|]. split; [apply I0|]. split; [split; reflexivity|exact I]. }
      destruct (c_cert_key c y) as [key|] eqn:CK; cbn [unwrap bind] in H; [|discriminate].
      destruct (c_cert_verify c x key) as [[|]|] eqn:V; [| |discriminate].
      2:{ inversion H; subst. exists 0%nat, x, y, key. split; [lia|]. split; [apply I0|]. split; [split; reflexivity|auto]. }
      assert (LK : linked c x y) by (split; eauto).
      unfold tr at 1 in H. cbn [bind] in H. destruct (f y) eqn:FY; [discriminate|]. specialize (IH H).
      assert (SH : forall p, inconclusive c T (y :: ch) p -> inconclusive c T (x :: y :: ch) (S p)).
      { intros p HP [|i] a b Hi A B.
        - cbn in A, B. inversion A; inversion B; subst. split; [exact LK|]. unfold T. congruence.
        - apply (HP i); [lia|exact A|exact B]. }
      destruct e.
      * exact IH.
      * destruct IH as (p & a & b & k & -> & P & [A B] & Q). exists (S p), a, b, k. split; [lia|]. split; [apply SH; exact P|]. split; [split; auto|auto].
      * cbn [length] in *. replace (S (S (length ch)) - 1)%nat with (S (S (length ch) - 1))%nat by lia. apply SH. exact IH.
      * destruct IH as (p & a & b & -> & P & [A B] & Q). exists (S p), a, b. split; [lia|]. split; [apply SH; exact P|]. split; [split; auto|auto].
Qed.

Lemma loop_no_panic leaf : (forall x, c_cert_key c x <> None) -> forall ch pos w, chain_loop c tr leaf pos ch <> Panic w.
Proof.
  intros HK. induction ch as [|x ch IH]; intros pos w; [discriminate|]. destruct ch as [|y ch]; [discriminate|].
  cbn [chain_loop]. destruct (c_issued c y x); cbn [negb]; [|discriminate].
  specialize (HK y). destruct (c_cert_key c y) as [k|]; [|congruence]. cbn [unwrap bind].
  destruct (c_cert_verify c x k) as [[|]|]; try discriminate. unfold tr at 1. cbn [bind]. destruct (f y); [discriminate|]. apply IH.
Qed.
End Chain.

(** The loop depends on the trust test only through its results on the chain. *)
Lemma loop_ext c f g leaf : forall ch pos, (forall x, In x ch -> f x = g x) -> chain_loop c f leaf pos ch = chain_loop c g leaf pos ch.
Proof.
  induction ch as [|x ch IH]; intros pos H; [reflexivity|]. destruct ch as [|y ch]; [reflexivity|].
  cbn [chain_loop]. destruct (c_issued c y x); cbn [negb]; [|reflexivity]. destruct (c_cert_key c y) as [k|]; [|reflexivity].
  cbn [unwrap bind]. destruct (c_cert_verify c x k) as [[|]|]; try reflexivity.
  rewrite (H y) by (right; left; reflexivity). destruct (g y) as [[|]| |]; cbn [bind]; try reflexivity.
  apply IH. intros z Hz. apply H. right. exact Hz.
Qed.
Lemma verify_ext c f g ch : (forall x, In x ch -> f x = g x) -> chain_verify c f ch = chain_verify c g ch.
Proof.
  intros H. destruct ch as [|x [|y ch]]; cbn [chain_verify]; [reflexivity| |].
  - rewrite (H x) by (left; reflexivity). reflexivity.
  - apply loop_ext. exact H.
Qed.
