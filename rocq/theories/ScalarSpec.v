(** Specification vocabulary for integer operators. *)
From Coq Require Import ZArith List.
From Verif Require Import ScalarOps.
Open Scope Z_scope.

(** Values of a type. *)
Definition in_ty (t : ity) (z : Z) : Prop := ty_min t <= z <= ty_max t.

(** [r] is the value of type [t] congruent to [z] modulo 2^bits. *)
Definition wraps_to (t : ity) (z r : Z) : Prop := in_ty t r /\ (2 ^ bits t | z - r).

(** Saturation: the value of the type closest to [z]. *)
Definition clamp (t : ity) (z : Z) : Z := Z.max (ty_min t) (Z.min z (ty_max t)).

(** Number of one bits among the [n] lowest bits. *)
Definition ones_below (n : nat) (a : Z) : Z :=
  Z.of_nat (length (filter (fun i => Z.testbit a (Z.of_nat i)) (seq 0 n))).
