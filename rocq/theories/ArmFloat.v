(** The operators of the ARM back ends on floating-point vectors: egg/platform_arm.py.

    Registers, predicates and logicals are those of Arm.v; the lanes of a vector of floats are IEEE patterns
    ([decode] in FloatSpec.v).  [F16] is the native f16 of SVE and of aarch64 with NSIMD_ARM_FP16; without it an f16
    vector of NEON is a pair of registers of f32 lanes, and the operators named [..16] act on such pairs.

    Simplifications: an instruction that returns a NaN returns the pattern of its argument (frintm, ...) or
    [nan_bits] (fadd, fmin, fmax), so that nothing is claimed about NaN payloads; floating-point exception flags are
    left out; the rounding mode is to nearest even, and subnormals are not flushed to zero, as 32-bit NEON does;
    where the code calls the CPU back end on a vector of 128 bits the model applies the scalar operator to
    each lane; the neon128 vector of two doubles, a C structure, is a register of two lanes. *)
From Coq Require Import ZArith List Bool.
From Verif Require Import CInt FloatSpec Fp16 ScalarOps RoundEven X86Deg234 X86Arith X86Mem X86Cvt X86Float Arm ArmMem.
Open Scope Z_scope.

(** ** Element types *)

Inductive fty := F16 | F32 | F64.
Definition ff (t : fty) : fmt := match t with F16 => binary16 | F32 => binary32 | F64 => binary64 end.
Definition fw (t : fty) : Z := match t with F16 => 16 | F32 => 32 | F64 => 64 end.
(** the unsigned integers of the same size, whose logicals and bit operators are used *)
Definition fu (t : fty) : ity := match t with F16 => u16 | F32 => u32 | F64 => u64 end.
(** the element as memory sees it *)
Definition fm (t : fty) : mty := match t with F16 => MI u16 | F32 => MF32 | F64 => MF64 end.
(** the doubles of neon128, which has no vectors of them *)
Definition struct64 (e : aext) (t : fty) : bool := match e, t with Neon128, F64 => true | _, _ => false end.

(** ** Intrinsics *)

(** vceqq, vcltq, vcleq, vcgtq, vcgeq *)
Definition l_cmpf (t : fty) (p : fval -> fval -> bool) (x y : Z) : Z := if p (decode (ff t) x) (decode (ff t) y) then -1 else 0.
(** svcmp *)
Definition sv_cmpf (n : Z) (t : fty) (pg : Z) (p : fval -> fval -> bool) (a b : Z) : Z :=
  pred n (fw t) (fun i => active (fw t) pg i && p (decode (ff t) (lane (fw t) i a)) (decode (ff t) (lane (fw t) i b))).
(** vminq, svmin, vmaxq, svmax: a NaN if one operand is, and -0 less than +0 *)
Definition hw_min (f : fmt) (x y : Z) : Z :=
  match decode f x, decode f y with
  | FNaN, _ | _, FNaN => nan_bits f
  | vx, vy => if flt vx vy then x else if flt vy vx then y else Z.lor x y
  end.
Definition hw_max (f : fmt) (x y : Z) : Z :=
  match decode f x, decode f y with
  | FNaN, _ | _, FNaN => nan_bits f
  | vx, vy => if flt vy vx then x else if flt vx vy then y else Z.land x y
  end.
(** vabsq, svabs: clears the sign bit *)
Definition hw_abs (t : fty) (x : Z) : Z := x mod 2 ^ (fw t - 1).
(** svaddv: the halves, the halves of the halves, and so on, the vector being extended with zeros to a power of two *)
Fixpoint reduce (f : fmt) (d : nat) (o : Z) (x : Z -> Z) : Z :=
  match d with
  | O => x o
  | S d' => fadd f (reduce f d' o x) (reduce f d' (o + 2 ^ Z.of_nat d') x)
  end.
Definition sv_addvf (n : Z) (t : fty) (pg a : Z) : Z :=
  reduce (ff t) (Z.to_nat (Z.log2_up (n / fw t))) 0
         (fun i => if (i <? n / fw t) && active (fw t) pg i then lane (fw t) i a else 0).
(** vaddvq_f32, vaddvq_f64: pairs of neighbours *)
Definition v_addvf (t : fty) (a : Z) : Z :=
  match t with
  | F64 => fadd binary64 (lane 64 0 a) (lane 64 1 a)
  | _ => fadd binary32 (fadd binary32 (lane 32 0 a) (lane 32 1 a)) (fadd binary32 (lane 32 2 a) (lane 32 3 a))
  end.
(** vadd on 64 bits, vext on 64 bits, vget_low, vget_high *)
Definition d_add (t : fty) (a b : Z) : Z := lanewise2 64 (fw t) (fadd (ff t)) a b.
Definition d_ext (w a b k : Z) : Z :=
  build w (nlanes 64 w) (fun i => if i + k <? 64 / w then lane w (i + k) a else lane w (i + k - 64 / w) b).
Definition get_low (a : Z) : Z := a mod 2 ^ 64.
Definition get_high (a : Z) : Z := a / 2 ^ 64.

Section Operators.
(** the lanes an instruction leaves unspecified *)
Variable u : Z.

(** ** Comparisons *)

(** :1085-1131 [cmp2], floats *)
Definition a_cmpf (p : fval -> fval -> bool) (e : aext) (t : fty) (a b : Z) : Z :=
  match e with
  | Sve _ _ => from_pred u e (fu t) (sv_cmpf (an e) t (svtrue e (fu t)) p a b)
  | _ => if struct64 e t
         then build 64 2 (fun i => if p (decode binary64 (lane 64 i a)) (decode binary64 (lane 64 i b)) then -1 else 0)
         else v_2 (fw t) (l_cmpf t p) a b
  end.
Definition a_eqf := a_cmpf feqb.
Definition a_ltf := a_cmpf flt.
Definition a_lef := a_cmpf fle.
Definition a_gtf := a_cmpf (fun x y => flt y x).
Definition a_gef := a_cmpf (fun x y => fle y x).
(** :922-952 [lnot1], floats *)
Definition a_notlf (e : aext) (t : fty) (l : Z) : Z :=
  if struct64 e t then build 64 2 (fun i => Z.lnot (lane 64 i l)) else a_notl u e (fu t) l.
(** :1135-1144 [neq2], floats *)
Definition a_nef (e : aext) (t : fty) (a b : Z) : Z :=
  match e with
  | Sve _ _ => from_pred u e (fu t) (sv_cmpf (an e) t (svtrue e (fu t)) (fun x y => negb (feqb x y)) a b)
  | _ => a_notlf e t (a_eqf e t a b)
  end.
(** :1149-1183 [if_else3], floats *)
Definition a_if_else1f (e : aext) (t : fty) (l a b : Z) : Z :=
  if struct64 e t then build 64 2 (fun i => if negb (lane 64 i l =? 0) then lane 64 i a else lane 64 i b)
  else a_if_else1 u e (fu t) l a b.

(** ** Logicals *)

(** :878-918 [lop2], floats *)
Definition a_lop2f (f : Z -> Z -> Z) (op : aext -> ity -> Z -> Z -> Z) (e : aext) (t : fty) (a b : Z) : Z :=
  if struct64 e t then build 64 2 (fun i => f (lane 64 i a) (lane 64 i b)) else op e (fu t) a b.
Definition a_andlf := a_lop2f Z.land (a_andl u).
Definition a_orlf := a_lop2f Z.lor (a_orl u).
Definition a_xorlf := a_lop2f Z.lxor (a_xorl u).
Definition a_andnotlf := a_lop2f (fun x y => Z.land x (Z.lnot y)) (a_andnotl u).
(** :1026-1047 [set1], :1051-1080 [lset1]: the same code as for integers; the argument of [a_set1f] is a pattern *)
Definition a_set1f (e : aext) (t : fty) (x : Z) : Z := a_set1 e (fu t) x.
Definition a_set1lf (e : aext) (t : fty) (x : Z) : Z := a_set1l e (fu t) x.
(** :1431-1478 [allany1], :1482-1524 [nbtrue1]: the doubles of neon128 like its 64-bit integers *)
Definition a_allf (e : aext) (t : fty) (l : Z) : bool :=
  if struct64 e t then negb (lane 64 0 l =? 0) && negb (lane 64 1 l =? 0) else a_all u e (fu t) l.
Definition a_anyf (e : aext) (t : fty) (l : Z) : bool :=
  if struct64 e t then negb (lane 64 0 l =? 0) || negb (lane 64 1 l =? 0) else a_any u e (fu t) l.
Definition a_nbtruef (e : aext) (t : fty) (l : Z) : Z :=
  if struct64 e t then - cast i32 (cast i64 (to_s 64 (lane 64 0 l) + to_s 64 (lane 64 1 l))) else a_nbtrue u e (fu t) l.
(** :2039-2074 [to_mask1], :2139-2166 [to_logical1], floats: the bits are tested *)
Definition a_to_maskf (e : aext) (t : fty) (l : Z) : Z := a_to_mask e (fu t) l.
Definition a_to_logicalf (e : aext) (t : fty) (a : Z) : Z := a_ne u e (fu t) a (a_set1 e (fu t) 0).
(** (typ)x for a small integer, nsimd_f32_to_f16((f32)x) on f16 *)
Definition float_const (t : fty) (x : Z) : Z :=
  match t with F16 => f32_to_u16 (float_of_int binary32 x) | _ => float_of_int (ff t) x end.
(** :1402-1428 [loadl], [storel], floats *)
Definition a_loadlf (e : aext) (t : fty) (m : bmem) (a : Z) : option Z :=
  bind (a_load e (fm t) m a) (fun v => Some (a_notlf e t (a_eqf e t v (a_set1f e t (float_const t 0))))).
Definition a_storelf (e : aext) (t : fty) (m : bmem) (a l : Z) : option bmem :=
  a_store e (fm t) m a (a_if_else1f e t l (a_set1f e t (float_const t 1)) (a_set1f e t (float_const t 0))).
(** :2078-2109 [iota], floats *)
Definition a_iotaf (e : aext) (t : fty) : Z :=
  match e with
  | Sve _ _ => sv_1_x u (an e) (fw t) (svtrue e (fu t)) (fun x => float_of_int (ff t) (to_s (fw t) x)) (sv_index (an e) (fw t) 1)
  | _ => build (fw t) (nlanes 128 (fw t)) (fun i => float_of_int (ff t) i)
  end.
(** :2113-2135 [mask_for_loop_tail], floats *)
Definition a_mask_for_loop_tailf (e : aext) (t : fty) (i n : Z) : option Z :=
  if n <=? i then Some (a_set1lf e t 0)
  else bind (carith i32 (n - i)) (fun d =>
       if d <? a_len e (fu t) then Some (a_ltf e t (a_iotaf e t) (a_set1f e t (float_const t d)))
       else Some (a_set1lf e t 1)).

(** ** neg, abs, min, max *)

(** :1315-1352 [neg1], floats: vnegq, svneg and C's minus flip the sign bit *)
Definition a_negf (e : aext) (t : fty) (a : Z) : Z := both1 u e (fu t) (fopp (ff t)) a.
(** :1211-1227 [abs1], floats *)
Definition a_absf (e : aext) (t : fty) (a : Z) : Z :=
  if struct64 e t then v_1 64 (s_absf MF64) a else both1 u e (fu t) (hw_abs t) a.
(** :1187-1207 [minmax2], floats *)
Definition a_minf (e : aext) (t : fty) (a b : Z) : Z :=
  if struct64 e t then v_2 64 (s_minf MF64) a b else both2 u e (fu t) (hw_min (ff t)) a b.
Definition a_maxf (e : aext) (t : fty) (a b : Z) : Z :=
  if struct64 e t then v_2 64 (s_maxf MF64) a b else both2 u e (fu t) (hw_max (ff t)) a b.

(** ** Rounding to integers: :1231-1253 [round1]; neon128 uses the CPU back end, for f32 as for f64 *)

Definition a_roundf (scalar hw : fmt -> Z -> Z) (e : aext) (t : fty) (a : Z) : Z :=
  if is_neon128 e then v_1 (fw t) (scalar (ff t)) a else both1 u e (fu t) (hw (ff t)) a.
Definition a_floorf := a_roundf ffloor ffloor.
Definition a_ceilf := a_roundf fceil fceil.
Definition a_truncf := a_roundf ftrunc hw_trunc.
Definition a_round_to_evenf := a_roundf round_to_even hw_nearest.

(** ** addv: :1776-1843, floats *)

(** tmp = low + high; tmp = tmp + ext(tmp, 1); lane 0 *)
Definition neon_addv32 (a : Z) : Z :=
  let tmp := d_add F32 (get_low a) (get_high a) in
  lane 32 0 (d_add F32 tmp (d_ext 32 tmp tmp 1)).
(** NSIMD_ARM_FP16 *)
Definition neon_addv16 (a : Z) : Z :=
  let tmp := d_add F16 (get_low a) (get_high a) in
  let tmp := d_add F16 tmp (d_ext 16 tmp tmp 3) in
  lane 16 0 (d_add F16 tmp (d_ext 16 tmp tmp 0)).
Definition a_addvf (e : aext) (t : fty) (a : Z) : Z :=
  match e with
  | Sve _ _ => sv_addvf (an e) t (svtrue e (fu t)) a
  | Neon128 => match t with F64 => fadd binary64 (lane 64 0 a) (lane 64 1 a) | F32 => neon_addv32 a | F16 => neon_addv16 a end
  | Aarch64 => match t with F16 => neon_addv16 a | _ => v_addvf t a end
  end.

(** ** f16 on NEON without NSIMD_ARM_FP16: the f32 operators on each half, :393-425 [f16f64] and the branches
       [emulate_f16] of the functions above *)

Definition a_cmp16 (f : aext -> fty -> Z -> Z -> Z) (e : aext) := on_halves2 (f e F32).
Definition a_eq16 := a_cmp16 a_eqf.
Definition a_ne16 := a_cmp16 a_nef.
Definition a_lt16 := a_cmp16 a_ltf.
Definition a_le16 := a_cmp16 a_lef.
Definition a_gt16 := a_cmp16 a_gtf.
Definition a_ge16 := a_cmp16 a_gef.
Definition a_if_else16 (e : aext) (l a b : Z * Z) : Z * Z :=
  (a_if_else1f e F32 (fst l) (fst a) (fst b), a_if_else1f e F32 (snd l) (snd a) (snd b)).
Definition a_notl16 (e : aext) := on_halves1 (a_notlf e F32).
Definition a_all16 (e : aext) (l : Z * Z) : bool := a_allf e F32 (fst l) && a_allf e F32 (snd l).
Definition a_any16 (e : aext) (l : Z * Z) : bool := a_anyf e F32 (fst l) || a_anyf e F32 (snd l).
Definition a_nbtrue16 (e : aext) (l : Z * Z) : Z := a_nbtruef e F32 (fst l) + a_nbtruef e F32 (snd l).
Definition a_set16 (e : aext) (h : Z) : option (Z * Z) :=
  bind (u16_to_f32 h) (fun f => Some (a_set1f e F32 f, a_set1f e F32 f)).
Definition a_set1l16 (e : aext) (x : Z) : Z * Z := (a_set1lf e F32 x, a_set1lf e F32 x).
Definition a_to_mask16 (e : aext) := on_halves1 (a_to_maskf e F32).
Definition a_to_logical16 (e : aext) := on_halves1 (a_to_logicalf e F32).
Definition a_loadl16 (e : aext) (m : bmem) (a : Z) : option (Z * Z) :=
  bind (a_load16 m a) (fun v => bind (a_set16 e (float_const F16 0)) (fun z => Some (a_notl16 e (a_eq16 e v z)))).
Definition a_storel16 (e : aext) (m : bmem) (a : Z) (l : Z * Z) : option bmem :=
  bind (a_set16 e (float_const F16 1)) (fun one =>
  bind (a_set16 e (float_const F16 0)) (fun zero => a_store16 m a (a_if_else16 e l one zero))).
Definition a_iota16 : Z * Z := aregs16 (fun i => float_of_int binary32 i).
Definition a_mask_for_loop_tail16 (e : aext) (i n : Z) : option (Z * Z) :=
  if n <=? i then Some (a_set1l16 e 0)
  else bind (carith i32 (n - i)) (fun d =>
       if d <? 8 then bind (a_set16 e (float_const F16 d)) (fun v => Some (a_lt16 e a_iota16 v))
       else Some (a_set1l16 e 1)).
Definition a_neg16 (e : aext) := on_halves1 (a_negf e F32).
Definition a_abs16 (e : aext) := on_halves1 (a_absf e F32).
Definition a_min16 (e : aext) := on_halves2 (a_minf e F32).
Definition a_max16 (e : aext) := on_halves2 (a_maxf e F32).
Definition a_round16 (f : aext -> fty -> Z -> Z) (e : aext) := on_halves1 (f e F32).
Definition a_addv16 (v : Z * Z) : Z := f32_to_u16 (fadd binary32 (neon_addv32 (fst v)) (neon_addv32 (snd v))).
End Operators.
