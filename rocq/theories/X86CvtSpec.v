(** Specification vocabulary for the conversions. *)
From Coq Require Import ZArith Bool.
From Verif Require Import CInt FloatSpec ScalarOps ScalarSpec X86Deg234 X86Arith X86ArithSpec X86Mem X86MemSpec.
Open Scope Z_scope.

(** 1.0 in units of the smallest subnormal number of the format. *)
Definition one (f : fmt) : Z := 2 ^ (2 ^ (ebits f - 1) - 2 + mbits f).

(** The float nearest to the integer [z] (ties to even). *)
Definition nearest_float (f : fmt) (z : Z) : Z := encode f (z <? 0) (Z.abs z * one f) 0.
(** The finite float [b] truncated toward zero is the integer [z]. *)
Definition truncates (f : fmt) (b z : Z) : Prop :=
  exists s m, decode f b = FFin s m /\ z = sval s (m / one f).
(** [z] is the integer nearest to the finite float [b], the even one of two. *)
Definition rounds (f : fmt) (b z : Z) : Prop :=
  exists s m, decode f b = FFin s m /\
    2 * Z.abs (z * one f - sval s m) <= one f /\
    (2 * Z.abs (z * one f - sval s m) = one f -> Z.even z = true).

(** The extensions on which cvt from a float type to the integer type [t] of the same width rounds
    to the nearest integer instead of truncating. *)
Definition cvt_rounds (e : ext) (t : ity) : bool :=
  if bits t =? 64 then match e with Avx512Skylake => true | _ => false end
  else is_signed t || is512 e.
Definition to_int (e : ext) (t : ity) (f : fmt) (b z : Z) : Prop :=
  if cvt_rounds e t then rounds f b z else truncates f b z.

(** Element [i] of two registers in a row. *)
Definition pick (k : Z) (x y : Z -> Z) (i : Z) : Z := if i <? k then x i else y (i - k).

(** The format of the float types. *)
Definition format (t : mty) : fmt := match t with MF64 => binary64 | _ => binary32 end.

(** ** Between the float types *)

(** One unit of binary32 (2^-149) is 2^925 units of binary64 (2^-1074). *)
Definition widen64 (v : fval) : fval :=
  match v with FNaN => FNaN | FInf s => FInf s | FFin s m => FFin s (m * 2 ^ 925) end.

(** Half way between the largest finite binary32 number and the next power of two, in units of
    binary64. *)
Definition overflow32 : Z := (2 ^ 25 - 1) * 2 ^ 1177.

(** The binary32 pattern [r] is the double [b] in single precision: the nearest number, of two the one
    with the even pattern; infinite from the middle of the last gap on. *)
Definition nearest_single (b r : Z) : Prop :=
  match decode binary64 b with
  | FNaN => decode binary32 r = FNaN
  | FInf s => decode binary32 r = FInf s
  | FFin s x =>
      if overflow32 <=? x then decode binary32 r = FInf s
      else exists m, decode binary32 r = FFin s m /\
        forall b' s' m', 0 <= b' < 2 ^ 32 -> decode binary32 b' = FFin s' m' ->
          Z.abs (m * 2 ^ 925 - x) <= Z.abs (m' * 2 ^ 925 - x) /\
          (m' <> m -> Z.abs (m * 2 ^ 925 - x) = Z.abs (m' * 2 ^ 925 - x) -> Z.even r = true)
  end.

(** The 32-bit type through which floats are widened to the 64-bit type [u]. *)
Definition narrow (u : ity) : ity := if is_signed u then i32 else u32.
