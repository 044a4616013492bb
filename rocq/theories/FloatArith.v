(** IEEE-754 multiplication, division, square root and fused multiply-add on
    bit patterns, rounding to nearest, ties to even.

    Like [fadd] of FloatSpec.v these are the assumed meaning of the C
    operators and libm calls, and of the processor instructions, that the
    generated code relies on: the scalar operators of egg/scalar.py:26-41 and
    :105-172, the intrinsics of egg/platform_x86.py and egg/platform_arm.py.
    They are no part of nsimd itself.  PropFloatArith.v shows that each of
    them is the correctly rounded operation, against a specification that
    knows neither [encode] nor the way the digits are found here. *)
Require Import ZArith Bool.
Require Import Verif.FloatSpec Verif.RoundEven Verif.X86Cvt.
Local Open Scope Z_scope.

(** C [*] on float/double.  A magnitude counts smallest subnormals and
    1.0 is 2^scale of them, so the product of two magnitudes has to be
    divided by 2^scale. *)
Definition fmul (f : fmt) (a b : Z) : Z :=
  match decode f a, decode f b with
  | FNaN, _ | _, FNaN => nan_bits f
  | FInf s, FInf s' => sign_bit f (xorb s s') + inf_bits f
  | FInf s, FFin s' m => if m =? 0 then nan_bits f else sign_bit f (xorb s s') + inf_bits f
  | FFin s m, FInf s' => if m =? 0 then nan_bits f else sign_bit f (xorb s s') + inf_bits f
  | FFin s m, FFin s' m' => encode f (xorb s s') (m * m') (scale f)
  end.

(** [n / d] to one binary digit after the point, followed by a digit telling
    whether something was cut: four times the quotient, near enough to round it. *)
Definition sticky_quotient (n d : Z) : Z := 2 * (2 * n / d) + (if (2 * n) mod d =? 0 then 0 else 1).

(** C [/] on float/double. *)
Definition fdiv (f : fmt) (a b : Z) : Z :=
  match decode f a, decode f b with
  | FNaN, _ | _, FNaN => nan_bits f
  | FInf s, FInf s' => nan_bits f
  | FInf s, FFin s' m => sign_bit f (xorb s s') + inf_bits f
  | FFin s m, FInf s' => sign_bit f (xorb s s')
  | FFin s m, FFin s' m' =>
      if m' =? 0 then if m =? 0 then nan_bits f else sign_bit f (xorb s s') + inf_bits f
      else encode f (xorb s s') (sticky_quotient (m * 2 ^ scale f) m') 2
  end.

(** the square root of [n] to one binary digit after the point, followed by
    a digit telling whether something was cut *)
Definition sticky_root (n : Z) : Z := 2 * Z.sqrt (4 * n) + (if Z.sqrt (4 * n) * Z.sqrt (4 * n) =? 4 * n then 0 else 1).

(** C [sqrt] and [sqrtf]. *)
Definition fsqrt (f : fmt) (a : Z) : Z :=
  match decode f a with
  | FNaN => nan_bits f
  | FInf s => if s then nan_bits f else inf_bits f
  | FFin s m =>
      if m =? 0 then sign_bit f s
      else if s then nan_bits f
      else encode f false (sticky_root (m * 2 ^ scale f)) 2
  end.

(** C [fma] and [fmaf]: one rounding of a * b + c. *)
Definition ffma (f : fmt) (a b c : Z) : Z :=
  match decode f a, decode f b, decode f c with
  | FNaN, _, _ | _, FNaN, _ | _, _, FNaN => nan_bits f
  | FFin s m, FFin s' m', FFin s'' m'' =>
      let v := sval (xorb s s') (m * m') + sval s'' (m'' * 2 ^ scale f) in
      if v =? 0 then sign_bit f (xorb s s' && s'') else encode f (v <? 0) (Z.abs v) (scale f)
  | FFin s m, FFin s' m', FInf s'' => sign_bit f s'' + inf_bits f
  | v, w, x =>
      let zero u := match u with FFin _ m => m =? 0 | _ => false end in
      let sign u := match u with FFin s _ => s | FInf s => s | FNaN => false end in
      if zero v || zero w then nan_bits f
      else match x with
           | FInf s'' => if Bool.eqb s'' (xorb (sign v) (sign w)) then sign_bit f s'' + inf_bits f else nan_bits f
           | _ => sign_bit f (xorb (sign v) (sign w)) + inf_bits f
           end
  end.

(** 1.0 *)
Definition fone (f : fmt) : Z := encode f false (2 ^ scale f) 0.
