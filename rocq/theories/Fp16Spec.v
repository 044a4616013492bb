(** Specification of conversions between binary16 and binary32, in terms of the
    decoded values only. *)
From Coq Require Import ZArith.
From Verif Require Import CInt FloatSpec.
Open Scope Z_scope.

(** One unit of binary16 (2^-24) is 2^125 units of binary32 (2^-149). *)
Definition widen (v : fval) : fval :=
  match v with
  | FNaN => FNaN
  | FInf s => FInf s
  | FFin s m => FFin s (m * 2 ^ 125)
  end.

(** Distance, in binary32 units, between the half [(s,h)] and the single [(t,x)]. *)
Definition dist (s : bool) (h : Z) (t : bool) (x : Z) : Z :=
  Z.abs (sval s h * 2 ^ 125 - sval t x).

(** [r] is a finite half nearest to the single of sign [s] and magnitude [x],
    of the same sign, and is even if another half is at the same distance. *)
Definition nearest_half_ties_even (s : bool) (x : Z) (r : Z) : Prop :=
  exists h, decode binary16 r = FFin s h /\
    forall r' s' h', in_u 16 r' -> decode binary16 r' = FFin s' h' ->
      dist s h s x <= dist s' h' s x /\
      (dist s' h' s x = dist s h s x -> sval s' h' <> sval s h -> Z.even r = true).

(** The magnitude 65520 in binary32 units: half-way between the largest finite
    half 65504 and 2^16. *)
Definition overflow_threshold : Z := 65520 * 2 ^ 149.
