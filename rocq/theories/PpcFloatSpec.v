(** Specification vocabulary for the operators of the POWER back ends on floating-point vectors; [fpat], [fvalue], [frel]
    and the vectors of f16 are those of ArmFloatSpec.v. *)
From Coq Require Import ZArith List Bool.
From Verif Require Import CInt FloatSpec ScalarOps X86Deg234 X86Arith X86ArithSpec X86Cvt X86CvtSpec X86FloatSpec Arm ArmFloat ArmFloatSpec FloatArithSpec FloatVecSpec Ppc PpcFloat.
Import ListNotations.
Open Scope Z_scope.

(** A vector of 128 bits of floats whose patterns satisfy [P]. *)
Definition pfvector (t : fty) (r : Z) (P : Z -> Z -> Prop) : Prop :=
  in_reg 128 r /\ forall i, 0 <= i < 128 / fw t -> P i (fpat t r i).
(** The doubles of vmx, a structure of two C doubles. *)
Definition vmx_double (e : pext) (t : fty) : Prop := e = Vmx /\ t = F64.

(** A NaN whose most significant fraction bit is 0. *)
Definition signaling (f : fmt) (x : Z) : bool :=
  match decode f x with FNaN => (x / 2 ^ (mbits f - 1)) mod 2 =? 0 | _ => false end.
(** IEEE 754-2008 minNum and maxNum, -0 being less than +0. *)
Definition least_number (f : fmt) (x y : Z) : fval :=
  if signaling f x || signaling f y then FNaN
  else match decode f x, decode f y with FNaN, w => w | v, FNaN => v | v, w => least v w end.
Definition greatest_number (f : fmt) (x y : Z) : fval :=
  if signaling f x || signaling f y then FNaN
  else match decode f x, decode f y with FNaN, w => w | v, FNaN => v | v, w => greatest v w end.

(** From left to right. *)
Definition left_to_right (t : fty) : tree :=
  match t with F32 => Node (Node (Node (Leaf 0) (Leaf 1)) (Leaf 2)) (Leaf 3) | _ => Node (Leaf 0) (Leaf 1) end.
Definition left_to_right16 : tree := Node (left_to_right F32) (shift 4 (left_to_right F32)).

(** v w + x is an exact zero and v w and x are of opposite signs. *)
Definition cancels (f : fmt) (v w x : fval) : Prop :=
  match v, w, x with
  | FFin s m, FFin s' m', FFin s'' m'' => sval (xorb s s') (m * m') + sval s'' (m'' * one f) = 0 /\ xorb s s' <> s''
  | _, _, _ => False
  end.
(** v w + x rounded once, except that the zero of a cancellation is negative. *)
Definition fused_negated (f : fmt) (v w x : fval) (r : Z) : Prop :=
  (~ cancels f v w x -> fused_is f v w x r) /\ (cancels f v w x -> zero f true r).

(** Operators by name. *)
Definition p_arith (o : arith) : pext -> fty -> Z -> Z -> Z :=
  match o with Add => p_addf | Sub => p_subf | Mul => p_mulf | Div => p_divf end.
Definition p_arith16 (o : arith) : pext -> Z * Z -> Z * Z -> Z * Z :=
  match o with Add => p_add16 | Sub => p_sub16 | Mul => p_mul16 | Div => p_div16 end.
Definition p_muladd (o : muladd) : bool -> pext -> fty -> Z -> Z -> Z -> Z :=
  match o with Fma => p_fmaf | Fms => p_fmsf | Fnma => p_fnmaf | Fnms => p_fnmsf end.
Definition p_muladd16 (o : muladd) : bool -> pext -> Z * Z -> Z * Z -> Z * Z -> Z * Z :=
  match o with Fma => p_fma16 | Fms => p_fms16 | Fnma => p_fnma16 | Fnms => p_fnms16 end.
(** What the instructions give for fma, fms and for fnma, fnms. *)
Definition muladd_is (o : muladd) (f : fmt) (v w x : fval) (r : Z) : Prop :=
  match o with
  | Fma | Fms => fused_is f (factor o v) w (addend o x) r
  | Fnma | Fnms => fused_negated f (factor o v) w (addend o x) r
  end.
(** the operations -(a b) + c and -(a b) - c *)
Definition negates (o : muladd) : bool := match o with Fnma | Fnms => true | _ => false end.
