(** The Go package: invariant over programs. *)
From Coq Require Import Lia ZifyBool ZifyNat ZifyN.
From Verif Require Import Base ValueModel Text Hex CborModel TypesModel VoucherModel VoucherProofs LibModel LibSpec LibProofs GoModel GoSpec.
Local Open Scope N_scope.
Local Opaque voucher_deserialize voucher_read_many.

Section Go.
Context (c : crypto) (chk : bool) (et : ferr -> str).
Let deser := voucher_deserialize c chk.
Let many := voucher_read_many c chk.

Definition owned (h : ghistory) (a : N) (o : obj) : Prop :=
  match o with OVoucher _ => g_voucher h (At a) true | OList _ => g_list h (At a) | OText _ => False end.
Definition item (h : ghistory) (k : gcall) (p : ptr) : Prop :=
  exists a i vs v, k = GGet (At a) i /\ p = Inside a (Z.to_N i) /\ (0 <= i)%Z /\ g_stands_list c chk h (At a) vs /\ nth_error vs (Z.to_nat i) = Some v.
(** What a reply says about the state *)
Definition backed (h : ghistory) (l : lib) (k : gcall) (r : greply) : Prop :=
  match r with
  | GVoucher p true => exists d a v, k = GParse d /\ p = At a /\ a < l_next l /\ deser d = Ok v /\ (~ gmade h (GFree p true) -> l_heap l a = Some (OVoucher v))
  | GVoucher p false => item h k p
  | GList p => exists d a vs, k = GParseMany d /\ p = At a /\ a < l_next l /\ many d = Ok vs /\ (~ gmade h (GListFree p) -> l_heap l a = Some (OList vs))
  | _ => True
  end.
Definition below (l : lib) (k : gcall) : Prop := match k with GFree (At a) _ | GListFree (At a) => a < l_next l | GParseMany d => nlen d < 2 ^ 63 | _ => True end.
Record GInv (h : ghistory) (l : lib) : Prop := {
  n_next : forall a o, l_heap l a = Some o -> a < l_next l;
  n_owned : forall a o, l_heap l a = Some o -> owned h a o;
  n_backed : forall k r, In (k, r) h -> backed h l k r;
  n_below : forall k r, In (k, r) h -> below l k }.
Lemma ginv_start : GInv [] fresh_lib.
Proof. split; [intros a o X; discriminate X|intros a o X; discriminate X|intros k r []|intros k r []]. Qed.

Definition gfrees (a : N) (o : obj) : gcall := match o with OList _ => GListFree (At a) | _ => GFree (At a) true end.
Lemma gmade_more h x k : ~ gmade (h ++ [x]) k -> ~ gmade h k.
Proof. intros N0 [r I]. apply N0. exists r. apply in_or_app. left. exact I. Qed.
Lemma stands_list_more h x p vs : g_stands_list c chk h p vs -> g_stands_list c chk (h ++ [x]) p vs.
Proof. intros (d & I & E). exists d. split; [apply in_or_app; left; exact I|exact E]. Qed.
Lemma item_more h x k p : item h k p -> item (h ++ [x]) k p.
Proof. intros (a & i & vs & v & A & B & C & D & E). exists a, i, vs, v. repeat (split; [assumption|]). split; [apply stands_list_more; exact D|exact E]. Qed.
Lemma grow h l k r l' : GInv h l -> l_next l <= l_next l' -> (forall a o, l_heap l' a = Some o -> a < l_next l') ->
  (forall a o, l_heap l' a = Some o -> owned (h ++ [(k, r)]) a o) ->
  (forall a o, l_heap l a = Some o -> l_heap l' a = Some o \/ k = gfrees a o) ->
  backed (h ++ [(k, r)]) l' k r -> below l k -> GInv (h ++ [(k, r)]) l'.
Proof.
  intros IV NX NN OW KE BK BL. split; [exact NN|exact OW| |].
  2:{ intros k0 r0 I. assert (B : below l k0) by (apply in_app_or in I; destruct I as [I|[I|[]]]; [exact (n_below _ _ IV _ _ I)|injection I as <- _; exact BL]).
      revert B. destruct k0 as [| |[]| | |[] ?| | |]; cbn [below]; try (intros X; exact X); lia. }
  intros k0 r0 I. apply in_app_or in I. destruct I as [I|[I|[]]]; [|injection I as <- <-; exact BK].
  pose proof (n_backed _ _ IV _ _ I) as B. destruct r0 as [p|p [|]|?|?|?|]; cbn [backed] in *; try exact Logic.I.
  - destruct B as (d & a & vs & -> & -> & L & E & H). exists d, a, vs. split; [reflexivity|]. split; [reflexivity|]. split; [lia|]. split; [exact E|]. intros NF.
    destruct (KE _ _ (H (gmade_more _ _ _ NF))) as [X|X]; [exact X|]. exfalso. apply NF. cbn [gfrees] in X. subst k. exists r. apply in_or_app. right. left. reflexivity.
  - destruct B as (d & a & v & -> & -> & L & E & H). exists d, a, v. split; [reflexivity|]. split; [reflexivity|]. split; [lia|]. split; [exact E|]. intros NF.
    destruct (KE _ _ (H (gmade_more _ _ _ NF))) as [X|X]; [exact X|]. exfalso. apply NF. cbn [gfrees] in X. subst k. exists r. apply in_or_app. right. left. reflexivity.
  - apply item_more. exact B.
Qed.
(** Nothing that is owned is lost by a call that does not free it. *)
Lemma owned_more h k r a o : owned h a o -> k <> gfrees a o -> owned (h ++ [(k, r)]) a o.
Proof.
  destruct o as [v|vs|s]; cbn [owned gfrees]; [| |intros []]; intros [(d & I) N0] K; (split; [exists d; apply in_or_app; left; exact I|]).
  - intros [r0 J]. apply in_app_or in J. destruct J as [J|[J|[]]]; [apply N0; exists r0; exact J|]. injection J as J _. congruence.
  - intros [r0 J]. apply in_app_or in J. destruct J as [J|[J|[]]]; [apply N0; exists r0; exact J|]. injection J as J _. congruence.
Qed.
Definition frees_none (k : gcall) : Prop := forall a o, k <> gfrees a o.
(** A call that leaves the blocks as they are *)
Lemma quiet h l k r l' : GInv h l -> l_next l <= l_next l' -> (forall a, l_heap l' a = l_heap l a) -> frees_none k -> backed (h ++ [(k, r)]) l' k r -> below l k -> GInv (h ++ [(k, r)]) l'.
Proof.
  intros IV NX HE FN BK BL. apply (grow h l); try assumption.
  - intros a o X. rewrite HE in X. pose proof (n_next _ _ IV _ _ X). lia.
  - intros a o X. rewrite HE in X. apply owned_more; [exact (n_owned _ _ IV _ _ X)|apply FN].
  - intros a o X. left. rewrite HE. exact X.
Qed.
(** ** What is live *)
Lemma live_glist h l p : GInv h l -> g_list h p -> exists a vs, p = At a /\ l_heap l a = Some (OList vs) /\ only (g_stands_list c chk h p) vs.
Proof.
  intros IV [(d & I) NF]. destruct (n_backed _ _ IV _ _ I) as (d' & a & vs & K & -> & _ & E & H). injection K as <-. exists a, vs. split; [reflexivity|]. split; [exact (H NF)|]. split.
  - exists d. split; [exact I|exact E].
  - intros vs' (d' & I' & E'). destruct (n_backed _ _ IV _ _ I') as (d2 & a2 & vs2 & K & A & _ & E2 & H2). injection K as <-. injection A as <-. specialize (H NF). specialize (H2 NF). unfold many in E2. congruence.
Qed.
Lemma live_gvoucher h l p f : GInv h l -> g_voucher h p f \/ g_element h p f -> exists v, voucher_of l p = Some v /\ only (g_stands c chk h p f) v /\
  p <> Null /\ exists d vs, deser d = Ok v \/ (many d = Ok vs /\ In v vs).
Proof.
  intros IV [[(d & I) NF]|(q & i & I & ML)].
  - pose proof (n_backed _ _ IV _ _ I) as B. destruct f; cbn [backed] in B; [|destruct B as (? & ? & ? & ? & X & _); discriminate X].
    destruct B as (d' & a & v & K & -> & _ & E & H). injection K as <-. exists v. cbn [voucher_of]. rewrite (H NF). split; [reflexivity|]. split; [|split; [discriminate|exists d, []; left; exact E]]. split.
    + left. exists d. split; [exact I|exact E].
    + intros v' [(d2 & I2 & E2)|(q & i & vs & I2 & _)].
      * destruct (n_backed _ _ IV _ _ I2) as (d3 & a3 & v3 & K & A & _ & E3 & H3). injection K as <-. injection A as <-. specialize (H NF). specialize (H3 NF). unfold deser in E3. congruence.
      * destruct (n_backed _ _ IV _ _ I2) as (d3 & a3 & v3 & K & _). discriminate K.
  - pose proof (n_backed _ _ IV _ _ I) as B. destruct f; cbn [backed] in B; [destruct B as (? & ? & ? & X & _); discriminate X|].
    destruct B as (a & i' & vs & v & K & -> & I0 & SL & NE). injection K as -> <-. destruct (live_glist _ _ _ IV ML) as (a' & vs' & A & H & SL' & U). injection A as <-. pose proof (U _ SL). subst vs'.
    exists v. cbn [voucher_of]. rewrite H. split; [rewrite <- NE; f_equal; lia|]. split; [|split; [discriminate|destruct SL as (d & _ & E); exists d, vs; right; split; [exact E|exact (nth_error_In _ _ NE)]]]. split.
    + right. exists (At a), i, vs. auto.
    + intros v' [(d2 & I2 & _)|(q2 & i2 & vs2 & I2 & S2 & I02 & N2)].
      * destruct (n_backed _ _ IV _ _ I2) as (? & ? & ? & ? & X & _). discriminate X.
      * destruct (n_backed _ _ IV _ _ I2) as (a2 & i3 & ? & ? & K & X & _). injection K as -> <-. injection X as <- X. pose proof (U _ S2). subst vs2. assert (i2 = i) by lia. subst i2. congruence.
Qed.
End Go.
