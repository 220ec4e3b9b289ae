(** Text literals and decimal numbers, as lists of code points. *)
From Coq Require Export String Ascii.
From Coq Require Export List NArith.
From Coq Require Decimal DecimalN DecimalPos DecimalFacts.
From Verif Require Export Base.
From Verif Require Import BaseFacts ValueModel.
Local Open Scope N_scope.

Definition txt (s : string) : str := map N_of_ascii (list_ascii_of_string s).
Arguments txt s%string.

Fixpoint uint_str (u : Decimal.uint) : str :=
  match u with
  | Decimal.Nil => []
  | Decimal.D0 u => 48 :: uint_str u
  | Decimal.D1 u => 49 :: uint_str u
  | Decimal.D2 u => 50 :: uint_str u
  | Decimal.D3 u => 51 :: uint_str u
  | Decimal.D4 u => 52 :: uint_str u
  | Decimal.D5 u => 53 :: uint_str u
  | Decimal.D6 u => 54 :: uint_str u
  | Decimal.D7 u => 55 :: uint_str u
  | Decimal.D8 u => 56 :: uint_str u
  | Decimal.D9 u => 57 :: uint_str u
  end.

(** [Display] of unsigned integers. *)
Definition dec_str (n : N) : str := uint_str (N.to_uint n).

Lemma uint_str_inj : forall u v, uint_str u = uint_str v -> u = v.
Proof.
  induction u; destruct v; intros H; inversion H; auto; f_equal; auto.
Qed.
Lemma dec_str_inj m n : dec_str m = dec_str n -> m = n.
Proof.
  intros H. apply uint_str_inj in H. rewrite <- (DecimalN.Unsigned.of_to m), <- (DecimalN.Unsigned.of_to n). congruence.
Qed.
