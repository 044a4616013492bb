(** The operators on single values inside GPU kernels ([nsimd::gpu_add] and so on): egg/cuda.py, egg/oneapi.py and
    egg/rocm.py, emitted by egg/gen_scalar_utilities.py.

    Values as in ScalarBits.v; [None] is undefined behaviour.  Logicals have type int.

    Simplifications: device arithmetic on floats is IEEE 754 to nearest even in the precision of the type (for CUDA the
    default -prec-div=true -prec-sqrt=true -ftz=false; oneAPI needs precise division and square root), calls are not
    contracted to fused operations, nothing is claimed about the payload of a NaN.  The half intrinsics of CUDA
    (__hadd, __hsub, __hmul, __hdiv, hrcp, hsqrt, __hfma, ...) round once to nearest even, as their documentation says;
    __half2float, __float2half and the conversions of sycl::half are the exact and the nearest conversion, written
    [u16_to_f32] and [f32_to_u16] (C01, C02).  rsqrt and the transcendental functions are not modelled. *)
From Coq Require Import ZArith Bool.
From Verif Require Import CInt FloatSpec Fp16 ScalarOps RoundEven X86Cvt X86Float ArmFloat FloatArith ScalarFloat ScalarBits.
Open Scope Z_scope.

(** egg/rocm.py:24-25: ROCm gets the text of CUDA. *)
Inductive dev := Cuda | Rocm | Oneapi.
(** [#if __CUDA_ARCH__ >= 530] (egg/cuda.py:67-71); the macro is undefined, hence 0, on ROCm *)
Definition native_half (d : dev) (arch : bool) : bool := match d with Cuda => arch | _ => false end.

(** * Integer types *)

(** egg/cuda.py:245-263 [c_operators]; egg/oneapi.py:309-322 call the scalar operators *)
Definition g_add (d : dev) (t : ity) (a b : Z) : option Z :=
  match d with Oneapi => s_add t a b | _ => casted t (carith (promote t) (a + b)) end.
Definition g_sub (d : dev) (t : ity) (a b : Z) : option Z :=
  match d with Oneapi => s_sub t a b | _ => casted t (carith (promote t) (a - b)) end.
Definition g_mul (d : dev) (t : ity) (a b : Z) : option Z :=
  match d with Oneapi => s_mul t a b | _ => casted t (carith (promote t) (a * b)) end.
Definition g_div (d : dev) (t : ity) (a b : Z) : option Z :=
  match d with Oneapi => s_div t a b | _ => if b =? 0 then None else casted t (carith (promote t) (Z.quot a b)) end.
Definition g_neg (d : dev) (t : ity) (a : Z) : option Z :=
  match d with Oneapi => s_neg t a | _ => casted t (carith (promote t) (- a)) end.
(** comparisons: egg/cuda.py:253-258, egg/oneapi.py:295-298 *)
Definition g_cmp (p : Z -> Z -> bool) (d : dev) (t : ity) (a b : Z) : Z := c_int (p a b).
Definition g_lt := g_cmp Z.ltb.
Definition g_le := g_cmp Z.leb.
Definition g_gt := g_cmp (fun a b => b <? a).
Definition g_ge := g_cmp (fun a b => b <=? a).
Definition g_eq := g_cmp Z.eqb.
Definition g_ne := g_cmp (fun a b => negb (a =? b)).

(** egg/cuda.py:260 [shl], :265-286 right shifts; egg/oneapi.py:325-328 *)
Definition g_shl (d : dev) (t : ity) (a s : Z) : option Z :=
  match d with Oneapi => s_shl t a s | _ => if (0 <=? s) && (s <? bits (promote t)) then Some (cast t (Z.shiftl a s)) else None end.
Definition g_shr (d : dev) (t : ity) (a s : Z) : option Z :=
  match d with
  | Oneapi => s_shr t a s
  | _ => if negb (is_signed t) then u_shr t a s
         else bind (u_shr (uty t) (cast (uty t) a) s) (fun r => Some (cast t r))
  end.
Definition g_shra (d : dev) (t : ity) (a s : Z) : option Z :=
  match d with
  | Oneapi => s_shra t a s
  | _ => if negb (is_signed t) then u_shr t a s
         else if s =? 0 then Some a
         else if 0 <=? a then bind (u_shr (uty t) (cast (uty t) a) s) (fun r => Some (cast t r))
         else bind (s_shl (uty t) (cast (uty t) (-1)) (bits t - s)) (fun mask =>
              bind (u_shr (uty t) (cast (uty t) a) s) (fun r => Some (cast t (cast (uty t) (Z.lor mask r)))))
  end.

(** sycl::add_sat, sycl::sub_sat *)
Definition sycl_sat (t : ity) (z : Z) : Z := if z <? ty_min t then ty_min t else if ty_max t <? z then ty_max t else z.
(** egg/cuda.py:287-291 (the scalar text), egg/oneapi.py:330-336 *)
Definition g_adds (d : dev) (t : ity) (a b : Z) : option Z :=
  match d with Oneapi => Some (sycl_sat t (a + b)) | _ => s_adds t a b end.
(** egg/cuda.py:293-301, egg/oneapi.py:338-344 *)
Definition g_subs (d : dev) (t : ity) (a b : Z) : option Z :=
  match d with
  | Oneapi => Some (sycl_sat t (a - b))
  | _ => if negb (is_signed t) then s_subs t a b
         else bind (casted t (carith (promote t) (- b))) (fun nb => g_adds d t a nb)
  end.

(** The fma family: egg/cuda.py:302-312.  [neg] is "-" when the name is in ['fnma, fnms'] and [op] is "-" when it is in
    ['fnms, fms']: lists of ONE string that is the name of no operator, so both are always empty.
    egg/oneapi.py:346-355 calls the scalar operators. *)
Definition g_fma (d : dev) (t : ity) (a b c : Z) : option Z :=
  match d with
  | Oneapi => s_fma t a b c
  | _ => casted t (bind (carith (promote t) (a * b)) (fun p => carith (promote t) (p + c)))
  end.
Definition g_fms (d : dev) (t : ity) (a b c : Z) : option Z :=
  match d with
  | Oneapi => s_fms t a b c
  | _ => casted t (bind (carith (promote t) (a * b)) (fun p => carith (promote t) (p + c)))
  end.
Definition g_fnma (d : dev) (t : ity) (a b c : Z) : option Z :=
  match d with
  | Oneapi => s_fnma t a b c
  | _ => casted t (bind (carith (promote t) (a * b)) (fun p => carith (promote t) (p + c)))
  end.
Definition g_fnms (d : dev) (t : ity) (a b c : Z) : option Z :=
  match d with
  | Oneapi => s_fnms t a b c
  | _ => casted t (bind (carith (promote t) (a * b)) (fun p => carith (promote t) (p + c)))
  end.

(** egg/cuda.py:317-325; egg/oneapi.py:377-393: sycl::min, sycl::max, and sycl::abs, whose result has the unsigned type
    (SYCL 1.2.1) *)
Definition g_min (d : dev) (t : ity) (a b : Z) : Z := if a <? b then a else b.
Definition g_max (d : dev) (t : ity) (a b : Z) : Z := if b <? a then a else b.
Definition g_abs (d : dev) (t : ity) (a : Z) : option Z :=
  match d with
  | Oneapi => if is_signed t then Some (cast t (Z.abs a)) else s_abs t a
  | _ => if 0 <? a then Some (cast t a) else casted t (carith (promote t) (- a))
  end.
(** egg/cuda.py:315-316, egg/oneapi.py:360-375: round_to_even, ceil, floor, trunc *)
Definition g_round (d : dev) (t : ity) (a : Z) : Z := a.

(** * All types *)

(** egg/cuda.py:186-194, egg/oneapi.py:227-234 *)
Definition gl_and (d : dev) (a b : Z) : Z := match d with Oneapi => sl_and a b | _ => c_int (c_true a && c_true b) end.
Definition gl_or (d : dev) (a b : Z) : Z := match d with Oneapi => sl_or a b | _ => c_int (c_true a || c_true b) end.
Definition gl_xor (d : dev) (a b : Z) : Z := match d with Oneapi => sl_xor a b | _ => Z.lxor a b end.
Definition gl_andnot (d : dev) (a b : Z) : Z := match d with Oneapi => sl_andnot a b | _ => c_int (c_true a && negb (c_true b)) end.
Definition gl_not (d : dev) (a : Z) : Z := match d with Oneapi => sl_not a | _ => c_int (negb (c_true a)) end.

(** egg/cuda.py:196-220 [pun_code]: memcpy to the unsigned type, operator, memcpy back; egg/oneapi.py:237-244 *)
Definition g_opbit (op : Z -> Z -> Z) (t : sty) (a b : Z) : Z := value_of t (op (rep t a) (rep t b) mod 2 ^ sw t).
Definition g_orb (d : dev) := g_opbit Z.lor.
Definition g_andb (d : dev) := g_opbit Z.land.
Definition g_andnotb (d : dev) := g_opbit (fun a b => Z.land a (Z.lnot b)).
Definition g_xorb (d : dev) := g_opbit Z.lxor.
Definition g_notb (d : dev) (t : sty) (a : Z) : Z := g_opbit (fun a _ => Z.lnot a) t a 0.

(** egg/cuda.py:76-97 [reinterpret]: intrinsics or memcpy; egg/oneapi.py:140-150 *)
Definition g_reinterpret (d : dev) (from to : sty) (x : Z) : Z := value_of to (rep from x).
(** egg/cuda.py:228-239, egg/oneapi.py:261-266 *)
Definition g_to_mask (d : dev) (t : sty) (l : Z) : Z := value_of t ((if c_true l then -1 else 0) mod 2 ^ sw t).
Definition g_to_logical (d : dev) (t : sty) (a : Z) : Z := c_int (negb (rep t a =? 0)).
(** egg/cuda.py:225-226: a cast, for f16 the conversions of the class half; egg/oneapi.py:251-258 *)
Definition g_cvt (d : dev) (from to : sty) (x : Z) : option Z :=
  match d with
  | Oneapi =>
      match to with
      | SF F16 => match from with
                  | SI _ => Some (f32_to_u16 (float_of_int binary32 x))
                  | SF F16 => bind (u16_to_f32 x) (fun y => Some (f32_to_u16 y))
                  | _ => None (* not of the same width *)
                  end
      | _ => sc_cvt from to x
      end
  | _ => if same_sty from to then Some x
         else match from, to with
              | SI _, SI u => Some (cast u x)
              | SI _, SF u => Some (float_of_int (ff u) x)
              | SF t, SI u => int_of_float u (ff t) x
              | SF _, SF _ => None
              end
  end.

(** * Floating-point types *)

(** An operator of CUDA and ROCm: f32 and f64 directly, f16 by an intrinsic or through float (egg/cuda.py:30-71) *)
Definition cu1 (d : dev) (arch : bool) (op : fmt -> Z -> Z) (t : fty) (a : Z) : option Z :=
  match t with
  | F16 => if native_half d arch then Some (op binary16 a) else bind (u16_to_f32 a) (fun x => Some (f32_to_u16 (op binary32 x)))
  | _ => Some (op (ff t) a)
  end.
Definition cu2 (d : dev) (arch : bool) (op : fmt -> Z -> Z -> Z) (t : fty) (a b : Z) : option Z :=
  match t with
  | F16 => if native_half d arch then Some (op binary16 a b)
           else bind (u16_to_f32 a) (fun x => bind (u16_to_f32 b) (fun y => Some (f32_to_u16 (op binary32 x y))))
  | _ => Some (op (ff t) a b)
  end.
Definition cu3 (d : dev) (arch : bool) (op : fmt -> Z -> Z -> Z -> Z) (t : fty) (a b c : Z) : option Z :=
  match t with
  | F16 => if native_half d arch then Some (op binary16 a b c)
           else bind (u16_to_f32 a) (fun x => bind (u16_to_f32 b) (fun y => bind (u16_to_f32 c) (fun z => Some (f32_to_u16 (op binary32 x y z)))))
  | _ => Some (op (ff t) a b c)
  end.
(** A function of SYCL on f32 and f64, through float on f16 (egg/oneapi.py:81-114) *)
Definition sy1 (op : fmt -> Z -> Z) (t : fty) (a : Z) : option Z :=
  match t with F16 => bind (u16_to_f32 a) (fun x => Some (f32_to_u16 (op binary32 x))) | _ => Some (op (ff t) a) end.
Definition sy2 (op : fmt -> Z -> Z -> Z) (t : fty) (a b : Z) : option Z :=
  match t with
  | F16 => bind (u16_to_f32 a) (fun x => bind (u16_to_f32 b) (fun y => Some (f32_to_u16 (op binary32 x y))))
  | _ => Some (op (ff t) a b)
  end.
Definition sy3 (op : fmt -> Z -> Z -> Z -> Z) (t : fty) (a b c : Z) : option Z :=
  match t with
  | F16 => bind (u16_to_f32 a) (fun x => bind (u16_to_f32 b) (fun y => bind (u16_to_f32 c) (fun z => Some (f32_to_u16 (op binary32 x y z)))))
  | _ => Some (op (ff t) a b c)
  end.

(** egg/cuda.py:245-250 and :60 (__hadd, __hsub, __hmul, __hdiv, __hneg); egg/oneapi.py:131-136, 309-322 *)
Definition g_addf (d : dev) (arch : bool) (t : fty) (a b : Z) : option Z := match d with Oneapi => sf_add t a b | _ => cu2 d arch fadd t a b end.
Definition g_subf (d : dev) (arch : bool) (t : fty) (a b : Z) : option Z := match d with Oneapi => sf_sub t a b | _ => cu2 d arch fsub t a b end.
Definition g_mulf (d : dev) (arch : bool) (t : fty) (a b : Z) : option Z := match d with Oneapi => sf_mul t a b | _ => cu2 d arch fmul t a b end.
Definition g_divf (d : dev) (arch : bool) (t : fty) (a b : Z) : option Z := match d with Oneapi => sf_div t a b | _ => cu2 d arch fdiv t a b end.
Definition g_negf (d : dev) (arch : bool) (t : fty) (a : Z) : option Z := match d with Oneapi => sf_neg t a | _ => cu1 d arch fopp t a end.
(** egg/cuda.py:49-51, 287-296; egg/oneapi.py:131-136, 330-341 *)
Definition g_addsf (d : dev) (arch : bool) (t : fty) (a b : Z) : option Z := match d with Oneapi => sf_add t a b | _ => cu2 d arch fadd t a b end.
Definition g_subsf (d : dev) (arch : bool) (t : fty) (a b : Z) : option Z := match d with Oneapi => sf_sub t a b | _ => cu2 d arch fsub t a b end.
(** egg/cuda.py:33-34 (hrcp), 250-252; egg/oneapi.py:117-121, 273-278: rec, rec8, rec11 *)
Definition g_recf (d : dev) (arch : bool) (t : fty) (a : Z) : option Z :=
  match d with Oneapi => sy1 (fun f x => fdiv f (fone f) x) t a | _ => cu1 d arch (fun f x => fdiv f (fone f) x) t a end.
(** egg/cuda.py:56-58 (hsqrt), 338-343; egg/oneapi.py:124-125 (sycl::sqrt of a half), 395-397 *)
Definition g_sqrtf (d : dev) (arch : bool) (t : fty) (a : Z) : option Z :=
  match d with Oneapi => Some (fsqrt (ff t) a) | _ => cu1 d arch fsqrt t a end.
(** floor, ceil, trunc, rint, hrint...: egg/cuda.py:31-32, 56-58, 327-343; egg/oneapi.py:81-87, 360-375 *)
Definition g_floorf (d : dev) (arch : bool) (t : fty) (a : Z) : option Z := match d with Oneapi => sy1 ffloor t a | _ => cu1 d arch ffloor t a end.
Definition g_ceilf (d : dev) (arch : bool) (t : fty) (a : Z) : option Z := match d with Oneapi => sy1 fceil t a | _ => cu1 d arch fceil t a end.
Definition g_truncf (d : dev) (arch : bool) (t : fty) (a : Z) : option Z := match d with Oneapi => sy1 hw_trunc t a | _ => cu1 d arch hw_trunc t a end.
Definition g_round_to_evenf (d : dev) (arch : bool) (t : fty) (a : Z) : option Z :=
  match d with Oneapi => sy1 hw_nearest t a | _ => cu1 d arch hw_nearest t a end.
(** fabs, __habs: the sign is cleared; egg/cuda.py:60, 331; egg/oneapi.py:109-114, 386-393 *)
Definition fabs_lib (f : fmt) (x : Z) : Z := x mod 2 ^ (width f - 1).
Definition g_absf (d : dev) (arch : bool) (t : fty) (a : Z) : option Z := match d with Oneapi => sy1 fabs_lib t a | _ => cu1 d arch fabs_lib t a end.
(** fmin and fmax of the C library and of SYCL: a NaN is ignored; of two equal arguments (the zeros) either may be the
    result, [k] says which *)
Definition fmin_lib (k : bool) (f : fmt) (x y : Z) : Z :=
  match decode f x, decode f y with
  | FNaN, _ => y
  | _, FNaN => x
  | v, w => if flt v w then x else if flt w v then y else if k then x else y
  end.
Definition fmax_lib (k : bool) (f : fmt) (x y : Z) : Z :=
  match decode f x, decode f y with
  | FNaN, _ => y
  | _, FNaN => x
  | v, w => if flt w v then x else if flt v w then y else if k then x else y
  end.
(** egg/cuda.py:42-48: for f16 the intrinsics are NOT called: [if (__hlt) return in0; else return in1;] tests the address
    of a function, which is true.  Otherwise :327-343; egg/oneapi.py:101-108, 377-384. *)
Definition g_minf (k : bool) (d : dev) (arch : bool) (t : fty) (a b : Z) : option Z :=
  match d with
  | Oneapi => sy2 (fmin_lib k) t a b
  | _ => match t with
         | F16 => if native_half d arch then Some a else cu2 d arch (fmin_lib k) t a b
         | _ => cu2 d arch (fmin_lib k) t a b
         end
  end.
Definition g_maxf (k : bool) (d : dev) (arch : bool) (t : fty) (a b : Z) : option Z :=
  match d with
  | Oneapi => sy2 (fmax_lib k) t a b
  | _ => match t with
         | F16 => if native_half d arch then Some a else cu2 d arch (fmax_lib k) t a b
         | _ => cu2 d arch (fmax_lib k) t a b
         end
  end.
(** egg/cuda.py:37-41, 302-309: fma, __hfma, with [neg] and [op] always empty; egg/oneapi.py:90-100, 346-352 *)
Definition g_fmaf (d : dev) (arch : bool) (t : fty) (a b c : Z) : option Z := match d with Oneapi => sy3 ffma t a b c | _ => cu3 d arch ffma t a b c end.
Definition g_fmsf (d : dev) (arch : bool) (t : fty) (a b c : Z) : option Z :=
  match d with Oneapi => sy3 (fun f x y z => ffma f x y (fopp f z)) t a b c | _ => cu3 d arch ffma t a b c end.
Definition g_fnmaf (d : dev) (arch : bool) (t : fty) (a b c : Z) : option Z :=
  match d with Oneapi => sy3 (fun f x y z => ffma f (fopp f x) y z) t a b c | _ => cu3 d arch ffma t a b c end.
Definition g_fnmsf (d : dev) (arch : bool) (t : fty) (a b c : Z) : option Z :=
  match d with Oneapi => sy3 (fun f x y z => ffma f (fopp f x) y (fopp f z)) t a b c | _ => cu3 d arch ffma t a b c end.
(** comparisons: egg/cuda.py:60-64 (__hlt, __hne, ...), 253-258; egg/oneapi.py:66-73, 127-129, 281-292.  The half
    intrinsics are false when an argument is a NaN, __hne too ([o] for ordered) *)
Definition ordered (v w : fval) : bool := match v, w with FNaN, _ | _, FNaN => false | _, _ => true end.
Definition g_cmpf (p : fval -> fval -> bool) (d : dev) (arch : bool) (t : fty) (a b : Z) : option Z :=
  match t with
  | F16 => if native_half d arch then Some (c_int (ordered (decode binary16 a) (decode binary16 b) && p (decode binary16 a) (decode binary16 b)))
           else bind (u16_to_f32 a) (fun x => bind (u16_to_f32 b) (fun y => Some (c_int (p (decode binary32 x) (decode binary32 y)))))
  | _ => Some (c_int (p (decode (ff t) a) (decode (ff t) b)))
  end.
Definition g_ltf := g_cmpf flt.
Definition g_lef := g_cmpf fle.
Definition g_gtf := g_cmpf (fun x y => flt y x).
Definition g_gef := g_cmpf (fun x y => fle y x).
Definition g_eqf := g_cmpf feqb.
Definition g_nef := g_cmpf (fun x y => negb (feqb x y)).
