(** Specification of rounding to an integer, independent of the model.
    [one] is the number of units in 1.0. *)
From Coq Require Import ZArith.
Open Scope Z_scope.

(** [n] is the integer nearest to [x / one], the even one of two nearest. *)
Definition nearest_integer_ties_even (one x n : Z) : Prop :=
  (forall k, Z.abs (n * one - x) <= Z.abs (k * one - x)) /\
  (forall k, k <> n -> Z.abs (k * one - x) = Z.abs (n * one - x) -> Z.even n = true).
