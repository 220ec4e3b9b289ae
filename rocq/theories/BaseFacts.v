(** Lemmas about the common vocabulary. *)
From Verif Require Export Base.
From Coq Require Import ZifyBool ZifyNat ZifyN.
Ltac Zify.zify_post_hook ::= Z.div_mod_to_equations.
Local Open Scope N_scope.

Lemma bytes_ok_app a b : bytes_ok (a ++ b) <-> bytes_ok a /\ bytes_ok b.
Proof. unfold bytes_ok. apply Forall_app. Qed.

Lemma be_dec_app a b : be_dec (a ++ b) = fold_left (fun acc x => acc * 256 + x) b (be_dec a).
Proof. unfold be_dec. apply fold_left_app. Qed.

Lemma be_dec_snoc a x : be_dec (a ++ [x]) = be_dec a * 256 + x.
Proof. rewrite be_dec_app. reflexivity. Qed.

Lemma be_enc_length k v : length (be_enc k v) = k.
Proof.
  revert v; induction k as [|k IH]; intros v; cbn [be_enc]; [reflexivity|].
  rewrite app_length, IH. cbn. lia.
Qed.

Lemma be_enc_ok k v : bytes_ok (be_enc k v).
Proof.
  revert v; induction k as [|k IH]; intros v; cbn [be_enc].
  - constructor.
  - apply bytes_ok_app; split; [apply IH|]. constructor; [|constructor].
    apply N.mod_lt. lia.
Qed.

Lemma pow256_S k : 256 ^ N.of_nat (S k) = 256 ^ N.of_nat k * 256.
Proof. rewrite Nat2N.inj_succ, N.pow_succ_r'. lia. Qed.

Lemma be_dec_enc k v : v < 256 ^ N.of_nat k -> be_dec (be_enc k v) = v.
Proof.
  revert v; induction k as [|k IH]; intros v Hv; cbn [be_enc].
  - cbn in Hv. assert (v = 0) by lia. subst. reflexivity.
  - rewrite be_dec_snoc, IH.
    + pose proof (N.div_mod v 256). lia.
    + rewrite pow256_S in Hv. apply N.div_lt_upper_bound; lia.
Qed.

Lemma be_dec_lt b : bytes_ok b -> be_dec b < 256 ^ N.of_nat (length b).
Proof.
  induction b as [|x b IH] using rev_ind; intros Hb.
  - cbn. lia.
  - apply bytes_ok_app in Hb. destruct Hb as [Hb Hx].
    inversion Hx as [|? ? Hx1 _]; subst.
    rewrite be_dec_snoc, app_length. cbn [length].
    replace (length b + 1)%nat with (S (length b)) by lia.
    rewrite pow256_S. specialize (IH Hb). nia.
Qed.

Lemma be_enc_dec b : bytes_ok b -> be_enc (length b) (be_dec b) = b.
Proof.
  induction b as [|x b IH] using rev_ind; intros Hb.
  - reflexivity.
  - apply bytes_ok_app in Hb. destruct Hb as [Hb Hx].
    inversion Hx as [|? ? Hx1 _]; subst.
    rewrite be_dec_snoc, app_length. cbn [length].
    replace (length b + 1)%nat with (S (length b)) by lia.
    cbn [be_enc].
    assert (E1 : (be_dec b * 256 + x) / 256 = be_dec b) by lia.
    assert (E2 : (be_dec b * 256 + x) mod 256 = x) by lia.
    rewrite E1, E2, IH; auto.
Qed.

Lemma list_eqb_spec {A} (eqb : A -> A -> bool) :
  (forall a b, eqb a b = true <-> a = b) ->
  forall x y, list_eqb eqb x y = true <-> x = y.
Proof.
  intros H x; induction x as [|a x IH]; intros [|b y]; cbn; try (split; congruence).
  rewrite andb_true_iff, H, IH. split; [intros []; congruence | intros E; inversion E; auto].
Qed.

Lemma bytes_eqb_spec x y : bytes_eqb x y = true <-> x = y.
Proof. apply list_eqb_spec. intros a b. apply N.eqb_eq. Qed.

Lemma bytes_eqb_refl x : bytes_eqb x x = true.
Proof. apply bytes_eqb_spec. reflexivity. Qed.

Lemma bytes_eqb_neq x y : bytes_eqb x y = false <-> x <> y.
Proof.
  destruct (bytes_eqb x y) eqn:E.
  - apply bytes_eqb_spec in E. split; congruence.
  - split; [intros _ H|auto]. subst. rewrite bytes_eqb_refl in E. congruence.
Qed.

Lemma bytes_eq_dec (x y : bytes) : {x = y} + {x <> y}.
Proof. apply list_eq_dec, N.eq_dec. Qed.

Lemma nlen_app {A} (a b : list A) : nlen (a ++ b) = nlen a + nlen b.
Proof. unfold nlen. rewrite app_length. lia. Qed.

Lemma bind_ok {E A B} (x : outcome E A) (f : A -> outcome E B) b :
  bind x f = Ok b -> exists a, x = Ok a /\ f a = Ok b.
Proof. destruct x; cbn; try discriminate; eauto. Qed.
