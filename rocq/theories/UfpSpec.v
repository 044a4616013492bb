(** Specification of ufp, on the fields of the patterns (FloatSpec). *)
From Coq Require Import ZArith.
From Verif Require Import FloatSpec.
Open Scope Z_scope.

(** Number of binary digits of a non-negative integer. *)
Definition bitlen (d : Z) : Z := if d =? 0 then 0 else Z.log2 d + 1.

(** Significand with the leading one. *)
Definition significand (f : fmt) (b : Z) : Z := 2 ^ mbits f + man_of f b.

(** Distance of the significands once both are scaled to the smaller of the
    two exponents. *)
Definition scaled_gap (f : fmt) (a b : Z) : Z :=
  let e := Z.min (exp_of f a) (exp_of f b) in
  Z.abs (significand f a * 2 ^ (exp_of f a - e) - significand f b * 2 ^ (exp_of f b - e)).

(** Exponents equal or adjacent. *)
Definition comparable (f : fmt) (a b : Z) : Prop := Z.abs (exp_of f a - exp_of f b) <= 1.

(** Pattern without its sign bit. *)
Definition strip_sign (f : fmt) (b : Z) : Z := b mod 2 ^ (ebits f + mbits f).

Definition supported (f : fmt) : Prop := f = binary16 \/ f = binary32 \/ f = binary64.
