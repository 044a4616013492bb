(** The scalar operators on f16, f32 and f64: egg/scalar.py.

    Values are IEEE patterns.  An f16 operator converts its arguments to f32,
    works there and converts back ([opnum], egg/scalar.py:26-41); with
    NSIMD_ARM_FP16 the code is the plain C expression on __fp16, which C
    evaluates in float as well, so that the model covers both.
    [None] is undefined behaviour of the conversions of Fp16.v; no theorem
    about these operators leaves it possible.

    Simplifications: C float and double expressions are evaluated in the
    precision of their type (FLT_EVAL_METHOD 0), the compiler does not
    contract a * b + c to a fused operation, nothing is claimed about the
    payload of a NaN, rounding is to nearest even. *)
From Coq Require Import ZArith Bool.
From Verif Require Import FloatSpec Fp16 ScalarOps RoundEven X86Cvt X86Float ArmFloat FloatArith.
Open Scope Z_scope.

(** egg/scalar.py:26-41 [opnum]: one, two and three arguments *)
Definition opnum1 (op : fmt -> Z -> Z) (t : fty) (a : Z) : option Z :=
  match t with
  | F16 => bind (u16_to_f32 a) (fun x => Some (f32_to_u16 (op binary32 x)))
  | _ => Some (op (ff t) a)
  end.
Definition opnum2 (op : fmt -> Z -> Z -> Z) (t : fty) (a b : Z) : option Z :=
  match t with
  | F16 => bind (u16_to_f32 a) (fun x => bind (u16_to_f32 b) (fun y => Some (f32_to_u16 (op binary32 x y))))
  | _ => Some (op (ff t) a b)
  end.
Definition opnum3 (op : fmt -> Z -> Z -> Z -> Z) (t : fty) (a b c : Z) : option Z :=
  match t with
  | F16 => bind (u16_to_f32 a) (fun x => bind (u16_to_f32 b) (fun y => bind (u16_to_f32 c) (fun z =>
      Some (f32_to_u16 (op binary32 x y z)))))
  | _ => Some (op (ff t) a b c)
  end.

(** egg/scalar.py:45-59 [cmp] *)
Definition cmpnum (p : fval -> fval -> bool) (t : fty) (a b : Z) : option bool :=
  match t with
  | F16 => bind (u16_to_f32 a) (fun x => bind (u16_to_f32 b) (fun y => Some (p (decode binary32 x) (decode binary32 y))))
  | _ => Some (p (decode (ff t) a) (decode (ff t) b))
  end.

(** egg/scalar.py:456-459, 461-466; adds and subs are add and sub on floats (:288-289, :326-327) *)
Definition sf_add := opnum2 fadd.
Definition sf_sub := opnum2 fsub.
Definition sf_mul := opnum2 fmul.
Definition sf_div := opnum2 fdiv.
Definition sf_neg := opnum1 fopp.
Definition sf_adds := sf_add.
Definition sf_subs := sf_sub.
Definition sf_lt := cmpnum flt.
Definition sf_gt := cmpnum (fun x y => flt y x).
Definition sf_le := cmpnum fle.
Definition sf_ge := cmpnum (fun x y => fle y x).
Definition sf_ne := cmpnum (fun x y => negb (feqb x y)).
Definition sf_eq := cmpnum feqb.

(** egg/scalar.py:105-172 [libm_opn], one argument.  [c99] tells that the C99
    functions with the suffix f are there; the C89 code calls the double one.
    An f64 operator calls the double function in both cases. *)
Definition libm1_f32 (c99 : bool) (op : fmt -> Z -> Z) (x : Z) : Z :=
  if c99 then op binary32 x else single_of_double (op binary64 (double_of_single x)).
Definition libm1 (c99 : bool) (op : fmt -> Z -> Z) (t : fty) (a : Z) : option Z :=
  match t with
  | F16 => bind (u16_to_f32 a) (fun x => Some (f32_to_u16 (libm1_f32 c99 op x)))
  | F32 => Some (libm1_f32 c99 op a)
  | F64 => Some (op binary64 a)
  end.

(** egg/scalar.py:404-407 *)
Definition sf_floor (c99 : bool) := libm1 c99 ffloor.
Definition sf_ceil (c99 : bool) := libm1 c99 fceil.
Definition sf_sqrt (c99 : bool) := libm1 c99 fsqrt.

(** egg/scalar.py:355-370, on f32 and f64: [in0 >= 0.0 ? floor(in0) : ceil(in0)] with the operators above *)
Definition trunc_c89 (c99 : bool) (t : fty) (a : Z) : option Z :=
  if fle (decode (ff t) 0) (decode (ff t) a) then sf_floor c99 t a else sf_ceil c99 t a.
(** [new] tells that C99 or C++11 has trunc (:370), [c99] that floor and ceil have the suffix f *)
Definition sf_trunc (new c99 : bool) (t : fty) (a : Z) : option Z :=
  match t with
  | F16 => bind (u16_to_f32 a) (fun x =>
      if new then Some (f32_to_u16 (hw_trunc binary32 x)) else bind (trunc_c89 c99 F32 x) (fun y => Some (f32_to_u16 y)))
  | _ => if new then Some (hw_trunc (ff t) a) else trunc_c89 c99 t a
  end.

(** egg/scalar.py:371-381 *)
Definition sf_abs : fty -> Z -> option Z :=
  opnum1 (fun f x => if fle (decode f 0) (decode f x) then x else fopp f x).
(** egg/scalar.py:382-393 *)
Definition sf_min : fty -> Z -> Z -> option Z := opnum2 (fun f x y => if flt (decode f x) (decode f y) then x else y).
Definition sf_max : fty -> Z -> Z -> option Z := opnum2 (fun f x y => if flt (decode f y) (decode f x) then x else y).

(** egg/scalar.py:408-420: C99 fma, C89 [in0 * in1 + in2] *)
Definition fma_std (c99 : bool) (f : fmt) (a b c : Z) : Z := if c99 then ffma f a b c else fadd f (fmul f a b) c.
Definition sf_fma (c99 : bool) := opnum3 (fma_std c99).
(** egg/scalar.py:421-431: nsimd_scalar_fma with opposite arguments *)
Definition sf_fms (c99 : bool) := opnum3 (fun f a b c => fma_std c99 f a b (fopp f c)).
Definition sf_fnma (c99 : bool) := opnum3 (fun f a b c => fma_std c99 f (fopp f a) b c).
Definition sf_fnms (c99 : bool) := opnum3 (fun f a b c => fma_std c99 f (fopp f a) b (fopp f c)).

(** egg/scalar.py:478-480 *)
Definition sf_rec : fty -> Z -> option Z := opnum1 (fun f x => fdiv f (fone f) x).
Definition sf_rec8 := sf_rec.
Definition sf_rec11 := sf_rec.
(** egg/scalar.py:481-489: [1 / nsimd_scalar_sqrt] *)
Definition sqrt_std (c99 : bool) (f : fmt) (x : Z) : Z :=
  if mbits f =? mbits binary32 then libm1_f32 c99 fsqrt x else fsqrt f x.
Definition sf_rsqrt (c99 : bool) : fty -> Z -> option Z := opnum1 (fun f x => fdiv f (fone f) (sqrt_std c99 f x)).
Definition sf_rsqrt8 := sf_rsqrt.
Definition sf_rsqrt11 := sf_rsqrt.
