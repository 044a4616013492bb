(** Model of egg/scalar.py:176-213 [round_to_even] and 355-370 [trunc] (C89
    branch) on bit patterns of a binary format.  [floor]/[ceil] are the libm
    functions: the exact integer, with the sign of the argument (so that
    floor(-0) = -0 and ceil(-0.5) = -0).  Subtraction and the multiplication by
    0.5 round to nearest even ([encode]). *)
From Coq Require Import ZArith Bool.
From Verif Require Import CInt FloatSpec Fp16.
Open Scope Z_scope.

(** log2 of the number of units (smallest subnormals) in 1.0. *)
Definition one_exp (f : fmt) : Z := 2 ^ (ebits f - 1) - 2 + mbits f.

(** libm floor and ceil *)
Definition ffloor (f : fmt) (b : Z) : Z :=
  match decode f b with
  | FFin s m => encode f s (Z.abs (sval s m / 2 ^ one_exp f * 2 ^ one_exp f)) 0
  | _ => b
  end.
Definition fceil (f : fmt) (b : Z) : Z :=
  match decode f b with
  | FFin s m => encode f s (Z.abs (- (- sval s m / 2 ^ one_exp f) * 2 ^ one_exp f)) 0
  | _ => b
  end.

(** IEEE subtraction, as addition of the opposite. *)
Definition fopp (f : fmt) (b : Z) : Z :=
  if sign_of f b then b - 2 ^ (ebits f + mbits f) else b + 2 ^ (ebits f + mbits f).
Definition fsub (f : fmt) (a b : Z) : Z := fadd f a (fopp f b).

(** [x * 0.5]: the exact half [m / 2^1] of the magnitude, rounded. *)
Definition fhalf (f : fmt) (b : Z) : Z :=
  match decode f b with
  | FFin s m => encode f s m 1
  | _ => b
  end.

Definition feqb (x y : fval) : bool := fle x y && fle y x.

(** egg/scalar.py:178-195 *)
Definition round_to_even (f : fmt) (in0 : Z) : Z :=
  let fl := ffloor f in0 in
  let ce := fceil f in0 in
  let df := fsub f in0 fl in
  let dc := fsub f ce in0 in
  if flt (decode f df) (decode f dc) then fl
  else if flt (decode f dc) (decode f df) then ce
  else
    let fld2 := fhalf f fl in
    if feqb (decode f fld2) (decode f (ffloor f fld2)) then fl else ce.

(** egg/scalar.py:196-210: the f16 version works in f32 and converts back. *)
Definition round_to_even_f16 (in0 : Z) : option Z :=
  match u16_to_f32 in0 with
  | None => None
  | Some x => Some (f32_to_u16 (round_to_even binary32 x))
  end.

(** egg/scalar.py:366-369: [in0 >= 0.0 ? floor(in0) : ceil(in0)]. *)
Definition ftrunc (f : fmt) (in0 : Z) : Z :=
  if fle (decode f 0) (decode f in0) then ffloor f in0 else fceil f in0.
