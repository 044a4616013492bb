(** The vocabulary of SLEEF's scalar sources (src/sleefsp.c): the C operators on
    float, the conversions, and the bit-level helpers of lines 36-147.

    Numbers are bit patterns.  The C operators on float and double are the
    correctly rounded operations of FloatSpec.v and FloatArith.v, unfused
    (the file is compiled with -ffp-contract=off, src/sleefsp.c:6).  A NaN
    produced by an operator is one particular quiet NaN: the theorems never
    look at its payload or sign.

    Integers are unbounded: an [int] is a Z, and it is reduced modulo 2^32
    where its bits become a float.  C leaves signed overflow undefined; the
    model gives it the value without overflow.

    A conversion of a float to [int] is undefined in C when the truncated value
    does not fit.  The model then answers [U x], for an arbitrary [U] that the
    theorems quantify over. *)
Require Import ZArith List Bool.
Require Import Verif.FloatSpec Verif.FloatArith Verif.RoundEven Verif.X86Cvt.
Import ListNotations.
Local Open Scope Z_scope.

(** the C operators on float *)
Definition addf (x y : Z) : Z := fadd binary32 x y.
Definition subf (x y : Z) : Z := fsub binary32 x y.
Definition mulf (x y : Z) : Z := fmul binary32 x y.
Definition divf (x y : Z) : Z := fdiv binary32 x y.
Definition negf (x : Z) : Z := fopp binary32 x.
Definition ltf (x y : Z) : bool := flt (decode binary32 x) (decode binary32 y).
Definition lef (x y : Z) : bool := fle (decode binary32 x) (decode binary32 y).
Definition eqf (x y : Z) : bool := feqb (decode binary32 x) (decode binary32 y).

(** the C operators on double, where a constant without the suffix f makes the
    expression one *)
Definition addd (x y : Z) : Z := fadd binary64 x y.
Definition subd (x y : Z) : Z := fsub binary64 x y.
Definition muld (x y : Z) : Z := fmul binary64 x y.
Definition divd (x y : Z) : Z := fdiv binary64 x y.
Definition negd (x : Z) : Z := fopp binary64 x.
Definition ltd (x y : Z) : bool := flt (decode binary64 x) (decode binary64 y).
Definition led (x y : Z) : bool := fle (decode binary64 x) (decode binary64 y).
Definition eqd (x y : Z) : bool := feqb (decode binary64 x) (decode binary64 y).

(** conversions between the types *)
Definition d2f (x : Z) : Z := single_of_double x.
Definition f2d (x : Z) : Z := double_of_single x.
Definition of_int (f : fmt) (n : Z) : Z := encode f (n <? 0) (Z.abs n * 2 ^ scale f) 0.
Definition fint (n : Z) : Z := of_int binary32 n.
Definition dint (n : Z) : Z := of_int binary64 n.
Definition to_int (f : fmt) (U : Z -> Z) (x : Z) : Z :=
  match decode f x with
  | FFin s m => let n := sval s (m / 2 ^ scale f) in
                if (- 2 ^ 31 <=? n) && (n <? 2 ^ 31) then n else U x
  | _ => U x
  end.
Definition b2z (b : bool) : Z := if b then 1 else 0.

(** the decimal constant m / 10^k, with and without the suffix f *)
Definition decimal (f : fmt) (m k : Z) : Z := encode f false (sticky_quotient (m * 2 ^ scale f) (10 ^ k)) 2.
Definition fdec (m k : Z) : Z := decimal binary32 m k.
Definition ddec (m k : Z) : Z := decimal binary64 m k.

(** src/misc.h:274-277 and float.h *)
Definition SLEEF_INFINITYf : Z := inf_bits binary32.
Definition SLEEF_NANf : Z := nan_bits binary32.
Definition FLT_MIN : Z := 2 ^ 23.
(** 0.5f, 0, 1, -0.0, 5.421010862427522E-20f and 1.8446744073709552E19f *)
Definition c_half : Z := Eval vm_compute in fdec 5 1.
Definition c_zero : Z := Eval vm_compute in fint 0.
Definition c_one : Z := Eval vm_compute in fint 1.
Definition c_negzero : Z := Eval vm_compute in negf (fdec 0 1).
Definition c_tiny : Z := Eval vm_compute in fdec 5421010862427522 35.
Definition c_huge : Z := Eval vm_compute in fdec 18446744073709552000 0.
(** a member of a structure that has not been assigned yet *)
Definition unset : Z := 0.

(** the structures: Sleef_float2, and fi_t, dfi_t (src/sleefsp.c:415-423), df2 (:2245-2247) *)
Record f2 := F2 { fx : Z; fy : Z }.
Record fi := FI { fid : Z; fii : Z }.
Record dfi := DFI { dfidf : f2; dfii : Z }.
Record df2 := DF2 { dfa : f2; dfb : f2 }.

(** src/sleefsp.c:36-52: floatToRawIntBits and intBitsToFloat are the identity on patterns, modulo 2^32 *)
Definition bits32 (n : Z) : Z := n mod 2 ^ 32.
Definition floatToRawIntBits (d : Z) : Z := d.
Definition intBitsToFloat (i : Z) : Z := bits32 i.
(** :54-56 *)
Definition fabsfk (x : Z) : Z := Z.land 0x7fffffff x.
(** :58-60 *)
Definition mulsignf (x y : Z) : Z := Z.lxor x (Z.land y (2 ^ 31)).
(** :62-64 *)
Definition copysignfk (x y : Z) : Z := Z.lxor (Z.land x 0x7fffffff) (Z.land y (2 ^ 31)).
(** :66 *)
Definition signf (d : Z) : Z := mulsignf c_one d.
(** :67 *)
Definition mlaf (x y z : Z) : Z := addf (mulf x y) z.
(** SQRTF, :14-19 *)
Definition SQRTF (x : Z) : Z := fsqrt binary32 x.
(** :70-71 *)
Definition fminfk (x y : Z) : Z := if ltf x y then x else y.
Definition fmaxfk (x y : Z) : Z := if ltf y x then x else y.
(** :74-79 *)
Definition xisnanf (x : Z) : bool := negb (eqf x x).
Definition xisinff (x : Z) : bool := eqf x SLEEF_INFINITYf || eqf x (negf SLEEF_INFINITYf).
Definition xisnegzerof (x : Z) : bool := x =? c_negzero.
Definition xisnumberf (x : Z) : bool := negb (xisinff x) && negb (xisnanf x).

(** :81-87 *)
Definition ilogbkf (d : Z) : Z :=
  let m := ltf d c_tiny in
  let d := if m then mulf c_huge d else d in
  let q := Z.land (Z.shiftr d 23) 0xff in
  if m then q - (64 + 0x7f) else q - 0x7f.
(** :91-93 *)
Definition ilogb2kf (d : Z) : Z := Z.land (Z.shiftr d 23) 0xff - 0x7f.
(** :104-106 *)
Definition pow2if (q : Z) : Z := bits32 (Z.shiftl (q + 0x7f) 23).
(** :108-121 *)
Definition ldexpkf (x q : Z) : Z :=
  let m := Z.shiftr q 31 in
  let m := Z.shiftl (Z.shiftr (m + q) 6 - m) 4 in
  let q := q - Z.shiftl m 2 in
  let m := m + 127 in
  let m := if m <? 0 then 0 else m in
  let m := if 255 <? m then 255 else m in
  let u := bits32 (Z.shiftl m 23) in
  let x := mulf (mulf (mulf (mulf x u) u) u) u in
  let u := bits32 (Z.shiftl (q + 0x7f) 23) in
  mulf x u.
(** :123-125 *)
Definition ldexp2kf (d e : Z) : Z := mulf (mulf d (pow2if (Z.shiftr e 1))) (pow2if (e - Z.shiftr e 1)).
(** :127-129 *)
Definition ldexp3kf (d e : Z) : Z := bits32 (d + Z.shiftl e 23).
(** :140-142 *)
Definition upperf (d : Z) : Z := Z.land d 0xfffff000.

(** src/estrin.h:8-14 *)
Definition POLY2 (x c1 c0 : Z) : Z := mlaf x c1 c0.
Definition POLY4 (x x2 c3 c2 c1 c0 : Z) : Z := mlaf x2 (mlaf x c3 c2) (mlaf x c1 c0).
Definition POLY6 (x x2 x4 c5 c4 c3 c2 c1 c0 : Z) : Z := mlaf x4 (POLY2 x c5 c4) (POLY4 x x2 c3 c2 c1 c0).
Definition POLY8 (x x2 x4 c7 c6 c5 c4 c3 c2 c1 c0 : Z) : Z := mlaf x4 (POLY4 x x2 c7 c6 c5 c4) (POLY4 x x2 c3 c2 c1 c0).

Section Conversions.
  Variable U : Z -> Z.
  Definition toint (x : Z) : Z := to_int binary32 U x.
  Definition dtoint (x : Z) : Z := to_int binary64 U x.
  (** :68 *)
  Definition rintfk (x : Z) : Z :=
    if ltf x c_zero then fint (toint (subf x c_half)) else fint (toint (addf x c_half)).
  (** :69 *)
  Definition ceilfk (x : Z) : Z := toint x + (if ltf x c_zero then 0 else 1).
  (** :72 *)
  Definition xisintf (x : Z) : bool := eqf x (fint (toint x)).
End Conversions.
