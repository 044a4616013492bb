(** The mathematical functions behind the API: the 48 operators of egg/operators.py:1293-1745, the scalar f32 and
    f16 functions, the vectors of the CPU back end and the POWER vectors of f32 and f16, whose functions are emulated.
    Vectors of the CPU are lists of lanes; a lane of an f16 vector is an f32 pattern (CpuSimd.v).  POWER vectors of f32
    are lists of 4 lanes. *)
From Coq Require Import ZArith List.
From Verif Require Import Fp16 CpuSimd SleefBase Sleef SleefRem.
Import ListNotations. Open Scope Z_scope.

(** the operators of one argument and of two: egg/operators.py:1293-1745, the classes derived from SrcOperator *)
Inductive unary :=
  | sin_u35 | cos_u35 | tan_u35 | asin_u35 | acos_u35 | atan_u35 | log_u35 | cbrt_u35 | sin_u10 | cos_u10 |
  tan_u10 | asin_u10 | acos_u10 | atan_u10 | log_u10 | cbrt_u10 | exp_u10 | sinh_u10 | cosh_u10 | tanh_u10 |
  sinh_u35 | cosh_u35 | tanh_u35 | asinh_u10 | acosh_u10 | atanh_u10 | exp2_u10 | exp2_u35 | exp10_u10 |
  exp10_u35 | expm1_u10 | log10_u10 | log2_u10 | log2_u35 | log1p_u10 | sinpi_u05 | cospi_u05 | lgamma_u10 |
  tgamma_u10 | erf_u10 | erfc_u15.
Inductive binary :=
  | atan2_u35 | atan2_u10 | pow_u10 | hypot_u05 | hypot_u35 | remainder | fmod.

Section Functions.
(** results of the undefined conversions, of the reads outside of the table of rempif, and what a vector that is not
    initialised holds *)
Variables (U W : Z -> Z) (g : list Z).

(** src/rename.h:168-317 (DETERMINISTIC not defined) names the functions of src/sleefsp.c nsimd_sleef_<op>_scalar_f32 *)
Definition sleef1 (o : unary) : Z -> Z :=
  match o with
  | sin_u35 => xsinf U W
  | cos_u35 => xcosf U W
  | tan_u35 => xtanf U W
  | asin_u35 => xasinf
  | acos_u35 => xacosf
  | atan_u35 => xatanf
  | log_u35 => xlogf
  | cbrt_u35 => xcbrtf
  | sin_u10 => xsinf_u1 U W
  | cos_u10 => xcosf_u1 U W
  | tan_u10 => xtanf_u1 U W
  | asin_u10 => xasinf_u1
  | acos_u10 => xacosf_u1
  | atan_u10 => xatanf_u1
  | log_u10 => xlogf_u1
  | cbrt_u10 => xcbrtf_u1
  | exp_u10 => xexpf U
  | sinh_u10 => xsinhf U
  | cosh_u10 => xcoshf U
  | tanh_u10 => xtanhf U
  | sinh_u35 => xsinhf_u35 U
  | cosh_u35 => xcoshf_u35 U
  | tanh_u35 => xtanhf_u35 U
  | asinh_u10 => xasinhf
  | acosh_u10 => xacoshf
  | atanh_u10 => xatanhf
  | exp2_u10 => xexp2f U
  | exp2_u35 => xexp2f_u35 U
  | exp10_u10 => xexp10f U
  | exp10_u35 => xexp10f_u35 U
  | expm1_u10 => xexpm1f U
  | log10_u10 => xlog10f
  | log2_u10 => xlog2f
  | log2_u35 => xlog2f_u35
  | log1p_u10 => xlog1pf
  | sinpi_u05 => xsinpif_u05 U
  | cospi_u05 => xcospif_u05 U
  | lgamma_u10 => xlgammaf_u1 U
  | tgamma_u10 => xtgammaf_u1 U
  | erf_u10 => xerff_u1 U
  | erfc_u15 => xerfcf_u15 U
  end.
Definition sleef2 (o : binary) : Z -> Z -> Z :=
  match o with
  | atan2_u35 => xatan2f
  | atan2_u10 => xatan2f_u1
  | pow_u10 => xpowf U
  | hypot_u05 => xhypotf_u05
  | hypot_u35 => xhypotf_u35
  | remainder => xremainderf U
  | fmod => xfmodf U
  end.

(** egg/scalar.py:443-447, f32: nsimd_scalar_<op>_f32.  A result of type f32 is a pattern of 32 bits: [bits32] *)
Definition scalar1_f32 (o : unary) (x : Z) : Z := bits32 (sleef1 o x).
Definition scalar2_f32 (o : binary) (x y : Z) : Z := bits32 (sleef2 o x y).
(** egg/scalar.py:433-442, f16 *)
Definition scalar1_f16 (o : unary) (x : Z) : option Z :=
  match u16_to_f32 x with Some x => Some (f32_to_u16 (scalar1_f32 o x)) | None => None end.
Definition scalar2_f16 (o : binary) (x y : Z) : option Z :=
  match u16_to_f32 x, u16_to_f32 y with Some x, Some y => Some (f32_to_u16 (scalar2_f32 o x y)) | _, _ => None end.

(** egg/gen_archis.py:32-54, CPU: ret.v<i> = nsimd_scalar_<op>_<typ2>(a0.v<i>, ...) for each i below vlen; typ2 is f32
    for f16 *)
Definition cpu1 (t : ety) (o : unary) (a0 : list Z) : list Z := map (fun i => scalar1_f32 o (nth i a0 0)) (seq 0 (nb_el t)).
Definition cpu2 (t : ety) (o : binary) (a0 a1 : list Z) : list Z := map (fun i => scalar2_f32 o (nth i a0 0) (nth i a1 0)) (seq 0 (nb_el t)).

(** src/sleefsimdsp_emulation.c:30-38: get<i> is vec_extract, set0 is vec_splats, the others vec_insert *)
Definition get (i : nat) (a : list Z) : Z := nth i a 0.
Definition set0 (a : list Z) (b : Z) : list Z := [b; b; b; b].
Definition set1 (a : list Z) (b : Z) : list Z := [get 0 a; b; get 2 a; get 3 a].
Definition set2 (a : list Z) (b : Z) : list Z := [get 0 a; get 1 a; b; get 3 a].
Definition set3 (a : list Z) (b : Z) : list Z := [get 0 a; get 1 a; get 2 a; b].
(** :41-55 and the 47 functions that follow, all of this form; the first set0 takes the uninitialised ret_ *)
Definition vmx_in (a : list Z) : list Z := [get 0 a; get 1 a; get 2 a; get 3 a].
Definition vmx_out (ret : list Z) : list Z := set3 (set2 (set1 (set0 g (get 0 ret)) (get 1 ret)) (get 2 ret)) (get 3 ret).
Definition vmx1 (o : unary) (a0 : list Z) : list Z := vmx_out (cpu1 EF32 o (vmx_in a0)).
Definition vmx2 (o : binary) (a0 a1 : list Z) : list Z := vmx_out (cpu2 EF32 o (vmx_in a0) (vmx_in a1)).
(** egg/gen_archis.py:73-104: f16 by upcvt, the f32 function on each half and downcvt; on POWER a vector of f16 is a
    pair of vectors of floats and upcvt and downcvt copy the members (egg/platform_ppc.py:1347-1351, 1445-1450) *)
Definition vmx1_f16 (o : unary) (a0 : list Z * list Z) : list Z * list Z := (vmx1 o (fst a0), vmx1 o (snd a0)).
Definition vmx2_f16 (o : binary) (a0 a1 : list Z * list Z) : list Z * list Z :=
  (vmx2 o (fst a0) (fst a1), vmx2 o (snd a0) (snd a1)).
End Functions.
