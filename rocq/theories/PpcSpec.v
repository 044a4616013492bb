(** Specification vocabulary for the POWER operators. *)
From Coq Require Import ZArith List Bool.
From Verif Require Import CInt ScalarOps ScalarSpec X86Deg234 X86ArithSpec Ppc.
Open Scope Z_scope.

(** [r] is a vector of 128 bits whose every element, read in type [t], satisfies [P i]. *)
Definition pvector (t : ity) (r : Z) (P : Z -> Z -> Prop) : Prop :=
  in_reg 128 r /\ forall i, 0 <= i < 128 / bits t -> P i (elt t r i).

(** [l] is a well-formed logical holding the truth value [p i] in element [i]: all ones or all zeros. *)
Definition plogical (t : ity) (l : Z) (p : Z -> bool) : Prop :=
  in_reg 128 l /\
  forall i, 0 <= i < 128 / bits t -> (l / 2 ^ (bits t * i)) mod 2 ^ bits t = if p i then 2 ^ bits t - 1 else 0.

(** fma, fms, fnma and fnms: [neg] takes the opposite of the product, [sub] subtracts the addend *)
Definition p_fma_family (neg sub : bool) : pext -> ity -> Z -> Z -> Z -> option Z :=
  if sub then (if neg then p_fnms else p_fms) else (if neg then p_fnma else p_fma).
(** the values computed on the way by the scalar C code of these operators *)
Definition p_fma_steps (neg sub : bool) (x y z : Z) : list Z :=
  let x' := if neg then - x else x in x' :: x' * y :: (if sub then x' * y - z else x' * y + z) :: nil.
(** a * b + c with the signs of the operator *)
Definition p_fma_value (neg sub : bool) (x y z : Z) : Z :=
  (if neg then - (x * y) else x * y) + (if sub then - z else z).
