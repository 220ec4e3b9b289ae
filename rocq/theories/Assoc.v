(** Finite maps keyed by strings: association lists. *)
From Verif Require Import Base BaseFacts.
Local Open Scope N_scope.

Definition name := list N.

Fixpoint aget {A} (k : name) (l : list (name * A)) : option A :=
  match l with
  | [] => None
  | (k', v) :: r => if bytes_eqb k k' then Some v else aget k r
  end.
Definition adel {A} (k : name) (l : list (name * A)) : list (name * A) :=
  filter (fun e => negb (bytes_eqb k (fst e))) l.
(** Replaces in place, else adds at the end. *)
Fixpoint aset {A} (k : name) (v : A) (l : list (name * A)) : list (name * A) :=
  match l with
  | [] => [(k, v)]
  | (k', w) :: r => if bytes_eqb k k' then (k, v) :: r else (k', w) :: aset k v r
  end.
Definition adom {A} (l : list (name * A)) : list name := map fst l.

Lemma name_eqb_refl (k : name) : bytes_eqb k k = true.
Proof. apply bytes_eqb_refl. Qed.
Lemma name_dec (a b : name) : a = b \/ a <> b.
Proof. destruct (bytes_eqb a b) eqn:E; [left; apply bytes_eqb_spec; exact E|right; apply bytes_eqb_neq; exact E]. Qed.

Section facts.
Context {A : Type}.
Implicit Types (l : list (name * A)) (k : name) (v : A).

Lemma aget_aset_eq k v l : aget k (aset k v l) = Some v.
Proof.
  induction l as [|[k' w] r IH]; cbn [aset aget]; [rewrite name_eqb_refl; reflexivity|].
  destruct (bytes_eqb k k') eqn:E; cbn [aget]; [rewrite name_eqb_refl; reflexivity|rewrite E; exact IH].
Qed.
Lemma aget_aset_ne k k' v l : k <> k' -> aget k (aset k' v l) = aget k l.
Proof.
  intros N. induction l as [|[k2 w] r IH]; cbn [aset aget].
  - destruct (bytes_eqb k k') eqn:E; [apply bytes_eqb_spec in E; contradiction|reflexivity].
  - destruct (bytes_eqb k' k2) eqn:E; cbn [aget].
    + apply bytes_eqb_spec in E. subst k2. destruct (bytes_eqb k k') eqn:E2; [apply bytes_eqb_spec in E2; contradiction|reflexivity].
    + rewrite IH. reflexivity.
Qed.
Lemma aget_adel_eq k l : aget k (adel k l) = None.
Proof.
  induction l as [|[k' w] r IH]; [reflexivity|]. unfold adel in *. cbn [filter fst].
  destruct (bytes_eqb k k') eqn:E; cbn [negb]; [exact IH|]. cbn [aget]. rewrite E. exact IH.
Qed.
Lemma aget_adel_ne k k' l : k <> k' -> aget k (adel k' l) = aget k l.
Proof.
  intros N. induction l as [|[k2 w] r IH]; [reflexivity|]. unfold adel in *. cbn [filter fst].
  destruct (bytes_eqb k' k2) eqn:E; cbn [negb]; cbn [aget].
  - apply bytes_eqb_spec in E. subst k2. destruct (bytes_eqb k k') eqn:E2; [apply bytes_eqb_spec in E2; contradiction|exact IH].
  - rewrite IH. reflexivity.
Qed.
Lemma aget_in k v l : aget k l = Some v -> In (k, v) l.
Proof.
  induction l as [|[k' w] r IH]; [discriminate|]. cbn [aget]. destruct (bytes_eqb k k') eqn:E.
  - apply bytes_eqb_spec in E. intros H. inversion H; subst. left. reflexivity.
  - intros H. right. auto.
Qed.
Lemma in_aget k v l : NoDup (adom l) -> In (k, v) l -> aget k l = Some v.
Proof.
  unfold adom. induction l as [|[k' w] r IH]; intros D H; [destruct H|]. cbn [map fst] in D. inversion D as [|? ? NI D']; subst.
  cbn [aget]. destruct H as [H|H].
  - inversion H; subst. rewrite name_eqb_refl. reflexivity.
  - destruct (bytes_eqb k k') eqn:E; [|auto]. apply bytes_eqb_spec in E. subst k'. exfalso. apply NI. apply (in_map fst) in H. exact H.
Qed.
Lemma aget_none k l : aget k l = None <-> ~ In k (adom l).
Proof.
  unfold adom. induction l as [|[k' w] r IH]; cbn [aget map fst In]; [tauto|]. destruct (bytes_eqb k k') eqn:E.
  - apply bytes_eqb_spec in E. split; [discriminate|]. intros H. exfalso. apply H. left. congruence.
  - apply bytes_eqb_neq in E. rewrite IH. split; [intros H [H1|H1]; [congruence|auto]|tauto].
Qed.
Lemma adom_aset k v l x : In x (adom (aset k v l)) <-> x = k \/ In x (adom l).
Proof.
  unfold adom. induction l as [|[k' w] r IH]; cbn [aset map fst In].
  - split; [intros [H|[]]; auto|intros [H|[]]; auto].
  - destruct (bytes_eqb k k') eqn:E; cbn [map fst In].
    + apply bytes_eqb_spec in E. subst k'. split; [intros [H|H]; auto|intros [H|[H|H]]; auto].
    + rewrite IH. tauto.
Qed.
Lemma nodup_aset k v l : NoDup (adom l) -> NoDup (adom (aset k v l)).
Proof.
  unfold adom. induction l as [|[k' w] r IH]; cbn [aset map fst]; intros D; [constructor; [intros []|constructor]|].
  inversion D as [|? ? NI D']; subst. destruct (bytes_eqb k k') eqn:E; cbn [map fst].
  - apply bytes_eqb_spec in E. subst k'. constructor; assumption.
  - constructor; [|auto]. intros H. apply adom_aset in H. destruct H as [H|H]; [subst k'; rewrite name_eqb_refl in E; discriminate|contradiction].
Qed.
Lemma nodup_filter (f : name * A -> bool) l : NoDup (adom l) -> NoDup (adom (filter f l)).
Proof.
  unfold adom. induction l as [|[k' w] r IH]; cbn [filter map fst]; intros D; [constructor|].
  inversion D as [|? ? NI D']; subst. destruct (f (k', w)); cbn [map fst]; [|auto].
  constructor; [|auto]. intros H. apply NI. apply in_map_iff in H. destruct H as ([k2 w2] & E & H). cbn in E. subst k2.
  apply filter_In in H. destruct H as [H _]. apply (in_map fst) in H. exact H.
Qed.
Lemma nodup_adel k l : NoDup (adom l) -> NoDup (adom (adel k l)).
Proof. apply nodup_filter. Qed.
Lemma aget_filter (f : name * A -> bool) k l : NoDup (adom l) ->
  aget k (filter f l) = match aget k l with Some v => if f (k, v) then Some v else None | None => None end.
Proof.
  unfold adom. induction l as [|[k' w] r IH]; cbn [filter map fst]; intros D; [reflexivity|].
  inversion D as [|? ? NI D']; subst. cbn [aget]. destruct (bytes_eqb k k') eqn:E.
  - apply bytes_eqb_spec in E. subst k'. destruct (f (k, w)); cbn [aget]; [rewrite name_eqb_refl; reflexivity|].
    rewrite (IH D'). destruct (aget k r) eqn:G; [|reflexivity]. exfalso. apply NI. apply aget_in in G. apply (in_map fst) in G. exact G.
  - destruct (f (k', w)); cbn [aget]; [rewrite E|]; apply IH; exact D'.
Qed.
End facts.
