(** Specification vocabulary for IEEE-754 binary interchange formats.

    A format has [ebits] exponent bits and [mbits] stored significand bits.
    The value of a finite pattern is given as an integer magnitude in units of
    the smallest positive subnormal number of the format:
      binary16: 2^-24, binary32: 2^-149, binary64: 2^-1074.
    This is the text-book decoding; it does not depend on the modelled code. *)
From Coq Require Import ZArith Lia Bool.
Open Scope Z_scope.

Record fmt := Fmt { ebits : Z; mbits : Z }.

Definition binary16 := Fmt 5 10.
Definition binary32 := Fmt 8 23.
Definition binary64 := Fmt 11 52.

Definition width (f : fmt) : Z := 1 + ebits f + mbits f.

Inductive fval :=
| FNaN                              (* not a number *)
| FInf (neg : bool)                 (* signed infinity *)
| FFin (neg : bool) (mag : Z).      (* +/- mag smallest subnormals *)

(** The three fields of a pattern. *)
Definition sign_of (f : fmt) (b : Z) : bool := Z.odd (b / 2 ^ (ebits f + mbits f)).
Definition exp_of  (f : fmt) (b : Z) : Z := (b / 2 ^ mbits f) mod 2 ^ ebits f.
Definition man_of  (f : fmt) (b : Z) : Z := b mod 2 ^ mbits f.

(** Magnitude of a finite pattern with exponent field [e] and significand
    field [m]: subnormals when [e = 0], implicit leading one otherwise. *)
Definition magnitude (f : fmt) (e m : Z) : Z :=
  if e =? 0 then m else (2 ^ mbits f + m) * 2 ^ (e - 1).

Definition decode (f : fmt) (b : Z) : fval :=
  let s := sign_of f b in
  let e := exp_of f b in
  let m := man_of f b in
  if e =? 2 ^ ebits f - 1 then
    if m =? 0 then FInf s else FNaN
  else FFin s (magnitude f e m).

(** Signed integer value of a finite number. *)
Definition sval (neg : bool) (mag : Z) : Z := if neg then - mag else mag.

(** IEEE comparisons [x <= y], [x < y] on decoded values (same format):
    false when an operand is NaN. *)
Definition fle (x y : fval) : bool :=
  match x, y with
  | FNaN, _ | _, FNaN => false
  | FInf true, _ => true
  | _, FInf false => true
  | FInf false, _ => false
  | _, FInf true => false
  | FFin sx mx, FFin sy my => sval sx mx <=? sval sy my
  end.

Definition flt (x y : fval) : bool :=
  match x, y with
  | FNaN, _ | _, FNaN => false
  | _, _ => negb (fle y x)
  end.

(** Round [x / 2^k] to the nearest integer, ties to even ([k >= 0]). *)
Definition rne (x k : Z) : Z :=
  let q := x / 2 ^ k in
  let r := x mod 2 ^ k in
  if 2 * r <? 2 ^ k then q
  else if 2 ^ k <? 2 * r then q + 1
  else if Z.even q then q else q + 1.

(** Round-to-nearest-even encoding of the magnitude [x / 2^d] (in units of the
    smallest subnormal of the format) into the exponent and significand fields
    of the format, overflowing to infinity. *)
Definition round_mag (f : fmt) (x d : Z) : Z :=
  let k := Z.max d (Z.log2 x - mbits f) in
  rne x k + (k - d) * 2 ^ mbits f.

Definition inf_bits (f : fmt) : Z := (2 ^ ebits f - 1) * 2 ^ mbits f.
Definition nan_bits (f : fmt) : Z := inf_bits f + 2 ^ (mbits f - 1).
Definition sign_bit (f : fmt) (neg : bool) : Z :=
  if neg then 2 ^ (ebits f + mbits f) else 0.

Definition encode (f : fmt) (neg : bool) (x d : Z) : Z :=
  sign_bit f neg + Z.min (round_mag f x d) (inf_bits f).

(** IEEE-754 addition on patterns, rounding to nearest even.  This is the
    assumed behaviour of the C [+] on float/double. *)
Definition fadd (f : fmt) (a b : Z) : Z :=
  match decode f a, decode f b with
  | FNaN, _ | _, FNaN => nan_bits f
  | FInf s, FInf s' => if Bool.eqb s s' then sign_bit f s + inf_bits f else nan_bits f
  | FInf s, _ => sign_bit f s + inf_bits f
  | _, FInf s => sign_bit f s + inf_bits f
  | FFin sa ma, FFin sb mb =>
      let v := sval sa ma + sval sb mb in
      if v =? 0 then sign_bit f (sa && sb) else encode f (v <? 0) (Z.abs v) 0
  end.

(** The value denoted by the finite pattern [b], as a rational number
    [n / 2^d]: used to compare patterns of different formats. A finite
    magnitude of binary16 equals 2^125 times as many binary32 units. *)
Definition half_unit_in_single_units : Z := 2 ^ 125.
