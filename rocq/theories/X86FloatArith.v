(** The arithmetic operators of the x86 back ends on float and f16 vectors:
    egg/platform_x86.py.

    A lane of _mm*_add_ps, _mm*_mul_ps, ... is the IEEE operation of
    FloatArith.v (rounding to nearest, default MXCSR: neither flush-to-zero
    nor denormals-are-zero); NaN payloads are not modelled.  rec8, rec11,
    rsqrt8 and rsqrt11 on f32 and f16, and on f64 with AVX-512, are hardware
    approximations and not modelled. *)
From Coq Require Import ZArith Bool.
From Verif Require Import CInt FloatSpec RoundEven X86Deg234 X86Arith X86Mem X86Cvt X86Float FloatArith.
Open Scope Z_scope.

(** :619-627 [how_it_should_be_op2], called by :1301-1308 [addsub], :1320-1322 [div2], :1329-1333 [mul2] *)
Definition x_addf (e : ext) (t : mty) (a b : Z) : Z := mm_addf (nb e) t a b.
Definition x_subf (e : ext) (t : mty) (a b : Z) : Z := lanewise2 (nb e) (mw t) (fsub (mfmt t)) a b.
Definition x_mulf (e : ext) (t : mty) (a b : Z) : Z := lanewise2 (nb e) (mw t) (fmul (mfmt t)) a b.
Definition x_divf (e : ext) (t : mty) (a b : Z) : Z := lanewise2 (nb e) (mw t) (fdiv (mfmt t)) a b.
(** :3084-3088 [adds], :3216-3220 [subs] *)
Definition x_addsf := x_addf.
Definition x_subsf := x_subf.
(** :1848-1854 [sqrt1] *)
Definition x_sqrtf (e : ext) (t : mty) (a : Z) : Z := lanewise1 (nb e) (mw t) (fsqrt (mfmt t)) a.
(** :2411-2420 [rec1] *)
Definition x_recf (e : ext) (t : mty) (a : Z) : Z := x_divf e t (mm_set1 (nb e) (mw t) (fone (mfmt t))) a.
(** :2395-2402 [rec11_rsqrt11], f64 on SSE and AVX *)
Definition x_rec11d (e : ext) (a : Z) : Z := x_divf e MF64 (mm_set1 (nb e) 64 (fone binary64)) a.
Definition x_rsqrt11d (e : ext) (a : Z) : Z := x_divf e MF64 (mm_set1 (nb e) 64 (fone binary64)) (x_sqrtf e MF64 a).

(** _mm*_fmadd, fmsub, fnmadd, fnmsub: a b + c, a b - c, - a b + c, - a b - c with one rounding *)
Definition mm_fma3 (n : Z) (t : mty) (g : Z -> Z -> Z -> Z) (a b c : Z) : Z :=
  build (mw t) (nlanes n (mw t)) (fun i => g (lane (mw t) i a) (lane (mw t) i b) (lane (mw t) i c)).
Definition mm_fmadd n t := mm_fma3 n t (fun x y z => ffma (mfmt t) x y z).
Definition mm_fmsub n t := mm_fma3 n t (fun x y z => ffma (mfmt t) x y (fopp (mfmt t) z)).
Definition mm_fnmadd n t := mm_fma3 n t (fun x y z => ffma (mfmt t) (fopp (mfmt t) x) y z).
Definition mm_fnmsub n t := mm_fma3 n t (fun x y z => ffma (mfmt t) (fopp (mfmt t) x) y (fopp (mfmt t) z)).
(** :1999-2041 [fma_fms]; [fma] tells that NSIMD_FMA is defined *)
Definition x_fmaf (fma : bool) (e : ext) (t : mty) (a b c : Z) : Z :=
  if is512 e || fma then mm_fmadd (nb e) t a b c else x_addf e t (x_mulf e t a b) c.
Definition x_fmsf (fma : bool) (e : ext) (t : mty) (a b c : Z) : Z :=
  if is512 e || fma then mm_fmsub (nb e) t a b c else x_subf e t (x_mulf e t a b) c.
Definition x_fnmaf (fma : bool) (e : ext) (t : mty) (a b c : Z) : Z :=
  if is512 e || fma then mm_fnmadd (nb e) t a b c else x_addf e t (x_mulf e t (x_negf e t a) b) c.
Definition x_fnmsf (fma : bool) (e : ext) (t : mty) (a b c : Z) : Z :=
  if is512 e || fma then mm_fnmsub (nb e) t a b c else x_subf e t (x_mulf e t (x_negf e t a) b) c.

(** f16: the same on two registers of f32 (:620-624, :1849-1853, :2002-2007, :2414-2419) *)
Definition x_add16 e := on_halves2 (x_addf e MF32).
Definition x_sub16 e := on_halves2 (x_subf e MF32).
Definition x_mul16 e := on_halves2 (x_mulf e MF32).
Definition x_div16 e := on_halves2 (x_divf e MF32).
Definition x_sqrt16 e := on_halves1 (x_sqrtf e MF32).
Definition x_rec16 e := on_halves1 (x_recf e MF32).
Definition on_halves3 (f : Z -> Z -> Z -> Z) (a b c : Z * Z) : Z * Z := (f (fst a) (fst b) (fst c), f (snd a) (snd b) (snd c)).
Definition x_fma16 fma e := on_halves3 (x_fmaf fma e MF32).
Definition x_fms16 fma e := on_halves3 (x_fmsf fma e MF32).
Definition x_fnma16 fma e := on_halves3 (x_fnmaf fma e MF32).
Definition x_fnms16 fma e := on_halves3 (x_fnmsf fma e MF32).
