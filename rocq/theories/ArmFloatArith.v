(** The arithmetic operators of the ARM back ends on float and f16 vectors:
    egg/platform_arm.py.

    A lane of vaddq, svadd, ... is the IEEE operation of FloatArith.v
    (rounding to nearest, subnormal numbers honoured: on neon128 this leaves
    out the flush-to-zero mode that 32-bit cores use for f32); NaN payloads
    are not modelled.  [F16] is the native f16 of SVE and of NSIMD_ARM_FP16.
    [c99] tells which scalar functions the CPU back end calls. rec8 and
    rsqrt8 are hardware estimates and not modelled. *)
From Coq Require Import ZArith Bool.
From Verif Require Import FloatSpec Fp16 ScalarOps RoundEven X86Deg234 X86Arith X86Mem X86Cvt X86Float Arm ArmFloat FloatArith ScalarFloat X86FloatArith.
Open Scope Z_scope.

Section Operators.
(** the lanes an instruction leaves unspecified *)
Variable u : Z.

(** :759-768 [addsub], :773-786 [mul2], :791-803 [div2]: instructions, or C operators on the lanes (f64 of
    neon128: :368-391 [emulate_f64_neon]; / of f32 on neon128: :317-327 [emulate_op2]) *)
Definition a_addf (e : aext) (t : fty) (a b : Z) : Z := both2 u e (fu t) (fadd (ff t)) a b.
Definition a_subf (e : aext) (t : fty) (a b : Z) : Z := both2 u e (fu t) (fsub (ff t)) a b.
Definition a_mulf (e : aext) (t : fty) (a b : Z) : Z := both2 u e (fu t) (fmul (ff t)) a b.
Definition a_divf (e : aext) (t : fty) (a b : Z) : Z := both2 u e (fu t) (fdiv (ff t)) a b.
(** :956-973 [sqrt1]; neon128 calls the CPU back end *)
Definition a_sqrtf (c99 : bool) (e : aext) (t : fty) (a : Z) : Z :=
  match e, t with
  | Neon128, F32 => v_1 32 (libm1_f32 c99 fsqrt) a
  | _, _ => both1 u e (fu t) (fsqrt (ff t)) a
  end.
(** :1356-1370 [recs1]: rec, rec11, rsqrt11; the constant is (typ)1, nsimd_f32_to_f16(1.0f) on f16 *)
Definition a_recf (e : aext) (t : fty) (a : Z) : Z := a_divf e t (a_set1f e t (float_const t 1)) a.
Definition a_rec11f := a_recf.
Definition a_rsqrt11f (c99 : bool) (e : aext) (t : fty) (a : Z) : Z := a_divf e t (a_set1f e t (float_const t 1)) (a_sqrtf c99 e t a).

(** a lane of the CPU back end's fma on native f16: loaded as f32, stored as f16 (:353-366 [emulate_op3_neon]) *)
Definition lane16 (o : option Z) : Z := match o with Some x => x | None => 0 end.
(** :1257-1292 [fmafnma3]: vfmaq and svmla round once, vmlaq rounds twice; the addend is the first argument *)
Definition a_fmaf (c99 : bool) (e : aext) (t : fty) (a b c : Z) : Z :=
  match e, t with
  | Neon128, F32 => v_3 32 (fun z y x => fadd binary32 z (fmul binary32 y x)) c b a
  | Neon128, F64 => v_3 64 (fun x y z => fma_std c99 binary64 x y z) a b c
  | Aarch64, F16 => v_3 16 (fun x y z => lane16 (sf_fma c99 F16 x y z)) a b c
  | _, _ => both3 u e (fu t) (fun z y x => ffma (ff t) y x z) c b a
  end.
Definition a_fnmaf (c99 : bool) (e : aext) (t : fty) (a b c : Z) : Z :=
  match e, t with
  | Neon128, F32 => v_3 32 (fun z y x => fsub binary32 z (fmul binary32 y x)) c b a
  | Neon128, F64 => v_3 64 (fun x y z => fma_std c99 binary64 (fopp binary64 x) y z) a b c
  | Aarch64, F16 => v_3 16 (fun x y z => lane16 (sf_fnma c99 F16 x y z)) a b c
  | _, _ => both3 u e (fu t) (fun z y x => ffma (ff t) (fopp (ff t) y) x z) c b a
  end.
(** :1296-1311 [fmsfnms3]: on NEON the addend is negated; svnmls, svnmla *)
Definition a_fmsf (c99 : bool) (e : aext) (t : fty) (a b c : Z) : Z :=
  match e with
  | Sve _ _ => both3 u e (fu t) (fun z y x => ffma (ff t) y x (fopp (ff t) z)) c b a
  | _ => a_fmaf c99 e t a b (a_negf u e t c)
  end.
Definition a_fnmsf (c99 : bool) (e : aext) (t : fty) (a b c : Z) : Z :=
  match e with
  | Sve _ _ => both3 u e (fu t) (fun z y x => ffma (ff t) (fopp (ff t) y) x (fopp (ff t) z)) c b a
  | _ => a_fnmaf c99 e t a b (a_negf u e t c)
  end.

(** f16 on NEON without NSIMD_ARM_FP16: the f32 operators on each half (:410-417, :957-961, :1266-1270); rec sets
    the constant as a half *)
Definition a_add16 e := on_halves2 (a_addf e F32).
Definition a_sub16 e := on_halves2 (a_subf e F32).
Definition a_mul16 e := on_halves2 (a_mulf e F32).
Definition a_div16 e := on_halves2 (a_divf e F32).
Definition a_sqrt16 c99 e := on_halves1 (a_sqrtf c99 e F32).
Definition a_rec16 (e : aext) (v : Z * Z) : option (Z * Z) :=
  bind (a_set16 e (float_const F16 1)) (fun one => Some (a_div16 e one v)).
Definition a_rsqrt16 (c99 : bool) (e : aext) (v : Z * Z) : option (Z * Z) :=
  bind (a_set16 e (float_const F16 1)) (fun one => Some (a_div16 e one (a_sqrt16 c99 e v))).
Definition a_fma16 c99 e := on_halves3 (a_fmaf c99 e F32).
Definition a_fnma16 c99 e := on_halves3 (a_fnmaf c99 e F32).
(** :1303-1307 on f16: the negation is that of f16 vectors *)
Definition a_fms16 c99 e (a b c : Z * Z) := a_fma16 c99 e a b (a_neg16 u e c).
Definition a_fnms16 c99 e (a b c : Z * Z) := a_fnma16 c99 e a b (a_neg16 u e c).
End Operators.
