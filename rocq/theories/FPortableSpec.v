(** What a program of FPortable.v means for ONE element: the operators of egg/scalar.py (ScalarFloat.v) on bit patterns.
    [None]: one of its operators gives different numbers on different back ends. *)
From Coq Require Import ZArith List Bool.
From Verif Require Import CInt FloatSpec ScalarOps X86Cvt X86CvtSpec X86FloatSpec ArmFloat FloatArith FloatArithSpec ScalarFloat FloatVecSpec FloatVecOps PpcFloatSpec Portable PortableSpec FPortable.
Open Scope Z_scope.

(** abs of -0 is not portable (C65, C91) *)
Definition scalar_f1 (t : fty) (o : fop1) (x : Z) : option Z :=
  match o with
  | FNeg => sf_neg t x | FAbs => if x =? 2 ^ (fw t - 1) then None else sf_abs t x
  | FSqrt => sf_sqrt true t x | FRec => sf_rec t x | FFloor => sf_floor true t x | FCeil => sf_ceil true t x | FTrunc => sf_trunc true true t x
  end.
(** min and max of a NaN, or of +0 and -0, are not portable (C65, C85, C110) *)
Definition scalar_f2 (t : fty) (o : fop2) (x y : Z) : option Z :=
  match o with
  | FArith o => s_arith o t x y
  | FMin | FMax =>
      match compare (decode (ff t) x) (decode (ff t) y) with
      | Unordered => None
      | Equal => if x =? y then Some x else None
      | _ => match o with FMin => sf_min t x y | _ => sf_max t x y end
      end
  end.
(** the exact value of v w + x is zero and its terms have opposite signs *)
Definition cancelling (f : fmt) (v w x : fval) : bool :=
  match v, w, x with
  | FFin s m, FFin s' m', FFin s'' m'' => (sval (xorb s s') (m * m') + sval s'' (m'' * one f) =? 0) && xorb (xorb s s') s''
  | _, _, _ => false
  end.
(** fnma and fnms that cancel are not portable (C115) *)
Definition scalar_f3 (t : fty) (o : muladd) (x y z : Z) : option Z :=
  if negates o && cancelling (ff t) (factor o (decode (ff t) x)) (decode (ff t) y) (addend o (decode (ff t) z)) then None else s_muladd o true t x y z.
Definition scalar_frel (t : fty) (r : rel) (x y : Z) : option bool :=
  match r with Eq => sf_eq t x y | Ne => sf_ne t x y | Lt => sf_lt t x y | Le => sf_le t x y | Gt => sf_gt t x y | Ge => sf_ge t x y end.

(** [env k]: the element of argument [k] *)
Fixpoint felement (t : fty) (env : nat -> Z) (e : fexp) : option Z :=
  match e with
  | FArg k => Some (env k)
  | FSplat x => if (0 <=? x) && (x <? 2 ^ fw t) then Some x else None
  | FOp1 o a => match felement t env a with Some x => scalar_f1 t o x | None => None end
  | FOp2 o a b => match felement t env a, felement t env b with Some x, Some y => scalar_f2 t o x y | _, _ => None end
  | FOp3 o a b c => match felement t env a, felement t env b, felement t env c with Some x, Some y, Some z => scalar_f3 t o x y z | _, _, _ => None end
  | FIfElse l a b => match flogical_element t env l, felement t env a, felement t env b with Some c, Some x, Some y => Some (if c then x else y) | _, _, _ => None end
  end
with flogical_element (t : fty) (env : nat -> Z) (e : flexp) : option bool :=
  match e with
  | FSplatl x => Some (negb (x =? 0))
  | FCmp r a b => match felement t env a, felement t env b with Some x, Some y => scalar_frel t r x y | _, _ => None end
  | FLogic o a b => match flogical_element t env a, flogical_element t env b with Some x, Some y => Some (scalar_lop o x y) | _, _ => None end
  | FNotl a => match flogical_element t env a with Some x => Some (negb x) | None => None end
  | FToLogical a => match felement t env a with Some x => Some (negb (x =? 0)) | None => None end
  end.

(** the program uses one of fma, fms, fnma, fnms *)
Fixpoint uses_fma (e : fexp) : bool :=
  match e with
  | FArg _ | FSplat _ => false
  | FOp1 _ a => uses_fma a
  | FOp2 _ a b => uses_fma a || uses_fma b
  | FOp3 _ _ _ _ => true
  | FIfElse l a b => uses_fmal l || uses_fma a || uses_fma b
  end
with uses_fmal (e : flexp) : bool :=
  match e with
  | FSplatl _ => false
  | FCmp _ a b => uses_fma a || uses_fma b
  | FLogic _ a b => uses_fmal a || uses_fmal b
  | FNotl a => uses_fmal a
  | FToLogical a => uses_fma a
  end.
