(** The operators of the POWER back ends on floating-point vectors: egg/platform_ppc.py, extensions vmx and vsx.

    Vectors are those of Ppc.v, the lanes of a vector of floats are IEEE patterns ([decode] in FloatSpec.v); an f16
    vector is a pair of registers of f32 lanes, the first one holding elements 0 to 3.  [t] is F32 or F64.

    Simplifications: nothing is claimed about the payload of a NaN; exception flags are left out; rounding is to nearest
    even and subnormals are not flushed to zero (the vmx instructions do so when VSCR[NJ] is set); C float
    expressions are evaluated in the precision of their type and not contracted.  vec_div, vec_sqrt, vec_msub and
    vec_nmadd, which the generator also emits for vmx although compilers provide them for VSX only, are given their VSX
    meaning.  rec8, rec11, rsqrt8 and rsqrt11 (vec_re, vec_rsqrte) are estimates of the hardware and not modelled. *)
From Coq Require Import ZArith List Bool.
From Verif Require Import CInt FloatSpec Fp16 ScalarOps RoundEven X86Deg234 X86Arith X86Mem X86Cvt X86Float Arm ArmMem ArmFloat FloatArith ScalarFloat X86FloatArith Ppc PpcMem.
Import ListNotations.
Open Scope Z_scope.

(** :36-41 [has_to_be_emulated]: the doubles of vmx *)
Definition pair64f (e : pext) (t : fty) : bool := match e, t with Vmx, F64 => true | _, _ => false end.

(** ** Built-ins *)

(** vec_min, vec_max of f32 compiled for vmx (vminfp, vmaxfp): [hw_min], [hw_max] of ArmFloat.v.
    Compiled for VSX (xvminsp, xvmindp, xvmaxsp, xvmaxdp): a signaling NaN gives a NaN, otherwise a number is preferred
    to a NaN, and -0 is less than +0. *)
Definition snan (f : fmt) (x : Z) : bool := match decode f x with FNaN => negb (Z.testbit x (mbits f - 1)) | _ => false end.
Definition num_min (f : fmt) (x y : Z) : Z :=
  if snan f x || snan f y then nan_bits f
  else match decode f x, decode f y with FNaN, FNaN => nan_bits f | FNaN, _ => y | _, FNaN => x | _, _ => hw_min f x y end.
Definition num_max (f : fmt) (x y : Z) : Z :=
  if snan f x || snan f y then nan_bits f
  else match decode f x, decode f y with FNaN, FNaN => nan_bits f | FNaN, _ => y | _, FNaN => x | _, _ => hw_max f x y end.
(** vec_madd, vec_msub, vec_nmadd, vec_nmsub: a b + c, a b - c, -(a b + c), -(a b - c), rounded once, the
    outer minus after rounding and not on a NaN *)
Definition neg_num (f : fmt) (r : Z) : Z := match decode f r with FNaN => r | _ => fopp f r end.
Definition l_madd (f : fmt) (x y z : Z) : Z := ffma f x y z.
Definition l_msub (f : fmt) (x y z : Z) : Z := ffma f x y (fopp f z).
Definition l_nmadd (f : fmt) (x y z : Z) : Z := neg_num f (ffma f x y z).
Definition l_nmsub (f : fmt) (x y z : Z) : Z := neg_num f (ffma f x y (fopp f z)).
Definition vec_3 (w : Z) (f : Z -> Z -> Z -> Z) (a b c : Z) : Z :=
  build w (nlanes 128 w) (fun i => f (lane w i a) (lane w i b) (lane w i c)).

(** ret = vec_splats(f(0)); ret = vec_insert(f(1), ret, 1); ... *)
Fixpoint insert_each (w : Z) (f : Z -> Z) (i : Z) (k : nat) (r : Z) : Z :=
  match k with O => r | S k' => insert_each w f (i + 1) k' (vec_insert w (f i) r i) end.
Definition each_scalar (w : Z) (f : Z -> Z) : Z := insert_each w f 1 (nlanes 128 w - 1) (vec_splats w (f 0)).
(** ret.v0 = f(0); ret.v1 = f(1); *)
Definition each64 (f : Z -> Z) : Z := pair64 (f 0) (f 1).
(** the scalar operator on the doubles of vmx, a built-in otherwise *)
Definition p_1 (e : pext) (t : fty) (s v : Z -> Z) (a : Z) : Z :=
  if pair64f e t then each64 (fun i => s (lane 64 i a)) else vec_1 (fw t) v a.
Definition p_2 (e : pext) (t : fty) (s v : Z -> Z -> Z) (a b : Z) : Z :=
  if pair64f e t then each64 (fun i => s (lane 64 i a) (lane 64 i b)) else vec_2 (fw t) v a b.
Definition p_3 (e : pext) (t : fty) (s v : Z -> Z -> Z -> Z) (a b c : Z) : Z :=
  if pair64f e t then each64 (fun i => s (lane 64 i a) (lane 64 i b) (lane 64 i c)) else vec_3 (fw t) v a b c.

(** ** Comparisons, logicals *)

(** :918-929 [cmp2], floats: :133-165 [emulate_with_scalar], :86-110 [emulate_64] *)
Definition p_cmpf (p : fval -> fval -> bool) (e : pext) (t : fty) (a b : Z) : Z :=
  let f i := if p (decode (ff t) (lane (fw t) i a)) (decode (ff t) (lane (fw t) i b)) then -1 else 0 in
  if pair64f e t then each64 f else each_scalar (fw t) f.
Definition p_eqf := p_cmpf feqb.
Definition p_nef := p_cmpf (fun x y => negb (feqb x y)).
Definition p_ltf := p_cmpf flt.
Definition p_lef := p_cmpf fle.
Definition p_gtf := p_cmpf (fun x y => flt y x).
Definition p_gef := p_cmpf (fun x y => fle y x).
(** :823-827 [logical_op2], :857-860 [lnot1], :897-914 [lset1], :1047-1057 [allany1], :1061-1073 [nbtrue1]: the code is
    that of the unsigned integers of the same size *)
Definition p_andlf (e : pext) (t : fty) := p_andl e (fu t).
Definition p_orlf (e : pext) (t : fty) := p_orl e (fu t).
Definition p_xorlf (e : pext) (t : fty) := p_xorl e (fu t).
Definition p_andnotlf (e : pext) (t : fty) := p_andnotl e (fu t).
Definition p_notlf (e : pext) (t : fty) := p_notl e (fu t).
Definition p_set1lf (e : pext) (t : fty) := p_set1l e (fu t).
Definition p_allf (e : pext) (t : fty) := p_all e (fu t).
Definition p_anyf (e : pext) (t : fty) := p_any e (fu t).
Definition p_nbtruef (e : pext) (t : fty) := p_nbtrue e (fu t).
(** :933-941 [if_else3]: alike *)
Definition p_if_else1f (e : pext) (t : fty) := p_if_else1 e (fu t).
(** :880-893 [set1]; the argument is a pattern *)
Definition p_set1f (e : pext) (t : fty) (x : Z) : Z := if pair64f e t then each64 (fun _ => x) else vec_splats (fw t) x.
(** :1536-1553 [to_mask], :1811-1834 [to_logical]: the bits are tested *)
Definition p_to_maskf (e : pext) (t : fty) (l : Z) : Z :=
  if pair64f e t then each64 (fun i => lane 64 i l) else l.
Definition p_to_logicalf (e : pext) (t : fty) (a : Z) : Z :=
  if pair64f e t then each64 (fun i => if lane 64 i a =? 0 then 0 else -1)
  else p_ne e (fu t) a (vec_splats (fw t) 0).
(** :1557-1578 [iota], :1582-1598 [mask_for_loop_tail], floats *)
Definition p_iotaf (e : pext) (t : fty) : Z :=
  if pair64f e t then each64 (fun i => float_of_int binary64 i) else each_scalar (fw t) (fun i => float_of_int (ff t) i).
Definition p_mask_for_loop_tailf (e : pext) (t : fty) (i n : Z) : option Z :=
  if n <=? i then Some (p_set1lf e t 0)
  else bind (carith i32 (n - i)) (fun d =>
       if d <? 128 / fw t then Some (p_ltf e t (p_iotaf e t) (p_set1f e t (float_of_int (ff t) d)))
       else Some (p_set1lf e t 1)).
(** :1020-1028 [loadl], :1032-1043 [storel], floats *)
Definition p_loadlf (aligned : bool) (e : pext) (t : fty) (m : bmem) (a : Z) : option Z :=
  bind (p_load aligned e (fm t) m a) (fun v => Some (p_notlf e t (p_eqf e t v (p_set1f e t 0)))).
Definition p_storelf (aligned : bool) (e : pext) (t : fty) (m : bmem) (a l : Z) : option bmem :=
  p_store aligned e (fm t) m a (p_if_else1f e t l (p_set1f e t (float_of_int (ff t) 1)) (p_set1f e t 0)).

(** ** Bitwise operators, neg, abs, min, max *)

(** :815-820 [binary_op2], :850-853 [not1]; nsimd_scalar_andb_f64 and the others act on the bits *)
Definition p_bitf (s v : Z -> Z -> Z) (e : pext) (t : fty) (a b : Z) : Z :=
  if pair64f e t then each64 (fun i => s (lane 64 i a) (lane 64 i b)) else v a b.
Definition p_andbf := p_bitf Z.land vec_and.
Definition p_orbf := p_bitf Z.lor vec_or.
Definition p_xorbf := p_bitf Z.lxor vec_xor.
Definition p_andnotbf := p_bitf (fun x y => Z.land x (Z.lnot y)) vec_andc.
Definition p_notbf (e : pext) (t : fty) (a : Z) : Z :=
  if pair64f e t then each64 (fun i => Z.lnot (lane 64 i a)) else vec_nor a a.
(** :997-1003 [neg1]: vec_neg and C's minus flip the sign bit *)
Definition p_negf (e : pext) (t : fty) : Z -> Z := p_1 e t (fopp binary64) (fopp (ff t)).
(** :952-957 [abs1]: vec_abs clears the sign bit *)
Definition p_absf (e : pext) (t : fty) : Z -> Z := p_1 e t (s_absf MF64) (hw_abs t).
(** :945-948 [minmax2] *)
Definition p_minf (e : pext) (t : fty) : Z -> Z -> Z :=
  p_2 e t (s_minf MF64) (match e with Vmx => hw_min (ff t) | Vsx => num_min (ff t) end).
Definition p_maxf (e : pext) (t : fty) : Z -> Z -> Z :=
  p_2 e t (s_maxf MF64) (match e with Vmx => hw_max (ff t) | Vsx => num_max (ff t) end).

(** ** :961-969 [round1]; [new] tells that the scalar code has C99's or C++11's trunc *)
Definition p_floorf (e : pext) (t : fty) : Z -> Z := p_1 e t (ffloor binary64) (ffloor (ff t)).
Definition p_ceilf (e : pext) (t : fty) : Z -> Z := p_1 e t (fceil binary64) (fceil (ff t)).
Definition p_truncf (new : bool) (e : pext) (t : fty) : Z -> Z :=
  p_1 e t (if new then hw_trunc binary64 else ftrunc binary64) (hw_trunc (ff t)).
Definition p_round_to_evenf (e : pext) (t : fty) (a : Z) : Z :=
  let f i := round_to_even (ff t) (lane (fw t) i a) in
  if pair64f e t then each64 f else each_scalar (fw t) f.

(** ** Arithmetic *)

(** :809-812 [simple_op2], :831-846 [div2], :864-867 [sqrt1], :1007-1016 [recs1]; :1322-1335 [add_sub_s]: adds and subs are
    add and sub *)
Definition p_addf (e : pext) (t : fty) := p_2 e t (fadd binary64) (fadd (ff t)).
Definition p_subf (e : pext) (t : fty) := p_2 e t (fsub binary64) (fsub (ff t)).
Definition p_mulf (e : pext) (t : fty) := p_2 e t (fmul binary64) (fmul (ff t)).
Definition p_divf (e : pext) (t : fty) := p_2 e t (fdiv binary64) (fdiv (ff t)).
Definition p_addsf := p_addf.
Definition p_subsf := p_subf.
Definition p_sqrtf (e : pext) (t : fty) := p_1 e t (fsqrt binary64) (fsqrt (ff t)).
Definition p_recf (e : pext) (t : fty) (a : Z) : Z :=
  if pair64f e t then each64 (fun i => fdiv binary64 (fone binary64) (lane 64 i a))
  else vec_2 (fw t) (fdiv (ff t)) (vec_splats (fw t) (float_of_int (ff t) 1)) a.
(** :973-993 [fma]; [c99] tells which scalar functions the doubles of vmx go through *)
Definition p_fmaf (c99 : bool) (e : pext) (t : fty) := p_3 e t (fma_std c99 binary64) (l_madd (ff t)).
Definition p_fmsf (c99 : bool) (e : pext) (t : fty) :=
  p_3 e t (fun x y z => fma_std c99 binary64 x y (fopp binary64 z)) (l_msub (ff t)).
Definition p_fnmaf (c99 : bool) (e : pext) (t : fty) :=
  p_3 e t (fun x y z => fma_std c99 binary64 (fopp binary64 x) y z) (l_nmsub (ff t)).
Definition p_fnmsf (c99 : bool) (e : pext) (t : fty) :=
  p_3 e t (fun x y z => fma_std c99 binary64 (fopp binary64 x) y (fopp binary64 z)) (l_nmadd (ff t)).
(** :1308-1318 [addv]: the sum of the elements from left to right *)
Definition p_addvf (t : fty) (a : Z) : Z :=
  match t with
  | F32 => fadd binary32 (fadd binary32 (fadd binary32 (lane 32 0 a) (lane 32 1 a)) (lane 32 2 a)) (lane 32 3 a)
  | _ => fadd binary64 (lane 64 0 a) (lane 64 1 a)
  end.

(** ** f16: the f32 operators on each half, :112-122 [emulate_f16] and the f16 branches of the functions above *)

Definition p_cmp16 (f : pext -> fty -> Z -> Z -> Z) (e : pext) := on_halves2 (f e F32).
Definition p_eq16 := p_cmp16 p_eqf.
Definition p_ne16 := p_cmp16 p_nef.
Definition p_lt16 := p_cmp16 p_ltf.
Definition p_le16 := p_cmp16 p_lef.
Definition p_gt16 := p_cmp16 p_gtf.
Definition p_ge16 := p_cmp16 p_gef.
Definition p_lop16 (f : pext -> fty -> Z -> Z -> Z) (e : pext) := on_halves2 (f e F32).
Definition p_notl16 (e : pext) := on_halves1 (p_notlf e F32).
Definition p_if_else16 (e : pext) (l a b : Z * Z) : Z * Z :=
  (p_if_else1f e F32 (fst l) (fst a) (fst b), p_if_else1f e F32 (snd l) (snd a) (snd b)).
Definition p_all16 (e : pext) (l : Z * Z) : bool := p_allf e F32 (fst l) && p_allf e F32 (snd l).
Definition p_any16 (e : pext) (l : Z * Z) : bool := p_anyf e F32 (fst l) || p_anyf e F32 (snd l).
Definition p_nbtrue16 (e : pext) (l : Z * Z) : option Z :=
  bind (p_nbtruef e F32 (fst l)) (fun x => bind (p_nbtruef e F32 (snd l)) (fun y => Some (x + y))).
(** :881-886; ret.v1 = ret.v0 *)
Definition p_set16 (h : Z) : option (Z * Z) := bind (u16_to_f32 h) (fun f => Some (vec_splats 32 f, vec_splats 32 f)).
Definition p_set1l16 (x : Z) : Z * Z := (vec_splats 32 (if x =? 0 then 0 else -1), vec_splats 32 (if x =? 0 then 0 else -1)).
Definition p_to_mask16 (l : Z * Z) : Z * Z := (fst l, snd l).
Definition p_to_logical16 (e : pext) := on_halves1 (p_to_logicalf e F32).
(** :1558-1568, the constants inserted one by one *)
Definition p_iota16 : Z * Z :=
  (insert_each 32 (fun i => float_of_int binary32 i) 1 3 (vec_splats 32 0),
   insert_each 32 (fun i => float_of_int binary32 (4 + i)) 1 3 (vec_splats 32 (float_of_int binary32 4))).
Definition p_mask_for_loop_tail16 (e : pext) (i n : Z) : option (Z * Z) :=
  if n <=? i then Some (p_set1l16 0)
  else bind (carith i32 (n - i)) (fun d =>
       if d <? 8 then bind (p_set16 (f32_to_u16 (float_of_int binary32 d))) (fun v => Some (p_lt16 e p_iota16 v))
       else Some (p_set1l16 1)).
Definition p_loadl16 (e : pext) (m : bmem) (a : Z) : option (Z * Z) :=
  bind (p_load16 m a) (fun v => bind (p_set16 (f32_to_u16 0)) (fun z => Some (p_notl16 e (p_eq16 e v z)))).
Definition p_storel16 (e : pext) (m : bmem) (a : Z) (l : Z * Z) : option bmem :=
  bind (p_set16 (f32_to_u16 (float_of_int binary32 1))) (fun one =>
  bind (p_set16 (f32_to_u16 0)) (fun zero => p_store16 m a (p_if_else16 e l one zero))).
Definition p_neg16 (e : pext) := on_halves1 (p_negf e F32).
Definition p_abs16 (e : pext) := on_halves1 (p_absf e F32).
Definition p_min16 (e : pext) := on_halves2 (p_minf e F32).
Definition p_max16 (e : pext) := on_halves2 (p_maxf e F32).
Definition p_round16 (f : pext -> fty -> Z -> Z) (e : pext) := on_halves1 (f e F32).
Definition p_add16 (e : pext) := on_halves2 (p_addf e F32).
Definition p_sub16 (e : pext) := on_halves2 (p_subf e F32).
Definition p_mul16 (e : pext) := on_halves2 (p_mulf e F32).
Definition p_div16 (e : pext) := on_halves2 (p_divf e F32).
Definition p_sqrt16 (e : pext) := on_halves1 (p_sqrtf e F32).
Definition p_rec16 (e : pext) := on_halves1 (p_recf e F32).
Definition p_fma16 (c99 : bool) (e : pext) := on_halves3 (p_fmaf c99 e F32).
Definition p_fms16 (c99 : bool) (e : pext) := on_halves3 (p_fmsf c99 e F32).
Definition p_fnma16 (c99 : bool) (e : pext) := on_halves3 (p_fnmaf c99 e F32).
Definition p_fnms16 (c99 : bool) (e : pext) := on_halves3 (p_fnmsf c99 e F32).
Definition p_addv16 (v : Z * Z) : Z := f32_to_u16 (fadd binary32 (p_addvf F32 (fst v)) (p_addvf F32 (snd v))).
