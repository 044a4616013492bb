(** Model of the x86 operators on floating-point vectors: egg/platform_x86.py.

    A register is one integer, as in X86Arith.v; the lanes of an f32 or f64 register are IEEE
    patterns ([decode] in FloatSpec.v).  An f16 vector is a pair of registers of f32 lanes
    (egg/platform_x86.py:83-92), and an f16 logical a pair of f32 logicals.

    Simplifications: an instruction that returns a NaN returns the pattern of its argument
    (roundps, ...) or [nan_bits] (addps), so that nothing is claimed about NaN payloads; floating
    point exception flags are left out, and the rounding mode is to nearest even; casts between
    register types are the identity. *)
From Coq Require Import ZArith List Bool.
From Verif Require Import CInt FloatSpec Fp16 ScalarOps RoundEven X86Deg234 X86Arith X86Mem X86Cvt.
Open Scope Z_scope.

(** ** Comparisons *)

(** cmp_ps, cmp_pd: _CMP_EQ_OQ, _CMP_NEQ_UQ, _CMP_GT_OQ, _CMP_GE_OQ, _CMP_LE_OQ *)
Definition cmp_eq_oq (x y : fval) : bool := feqb x y.
Definition cmp_neq_uq (x y : fval) : bool := negb (feqb x y).
Definition cmp_gt_oq (x y : fval) : bool := flt y x.
Definition cmp_ge_oq (x y : fval) : bool := fle y x.
Definition cmp_le_oq (x y : fval) : bool := fle x y.

Definition mm_cmpf n (t : mty) (p : fval -> fval -> bool) (a b : Z) : Z :=
  lanewise2 n (mw t) (fun x y => if p (decode (mfmt t) x) (decode (mfmt t) y) then -1 else 0) a b.
Definition mm_cmpf_mask n (t : mty) (p : fval -> fval -> bool) (a b : Z) : Z :=
  build 1 (nlanes n (mw t)) (fun i =>
    if p (decode (mfmt t) (lane (mw t) i a)) (decode (mfmt t) (lane (mw t) i b)) then 1 else 0).
Definition x_cmpf (p : fval -> fval -> bool) (e : ext) (t : mty) (a b : Z) : Z :=
  if is512 e then mm_cmpf_mask 512 t p a b else mm_cmpf (nb e) t p a b.

(** :1564-1597 [eq2], :1602-1629 [neq2], :1634-1678 [gt2], :1688-1690 [lt2], :1695-1726 [geq2],
    :1731-1757 [leq2], float part *)
Definition x_eqf := x_cmpf cmp_eq_oq.
Definition x_nef := x_cmpf cmp_neq_uq.
Definition x_gtf := x_cmpf cmp_gt_oq.
Definition x_ltf (e : ext) (t : mty) (a b : Z) : Z := x_gtf e t b a.
Definition x_gef := x_cmpf cmp_ge_oq.
Definition x_lef := x_cmpf cmp_le_oq.

(** :711-715 [f16_cmp2], and the other operators on f16 that act on each half *)
Definition on_halves1 (f : Z -> Z) (a : Z * Z) : Z * Z := (f (fst a), f (snd a)).
Definition on_halves2 (f : Z -> Z -> Z) (a b : Z * Z) : Z * Z := (f (fst a) (fst b), f (snd a) (snd b)).
Definition x_eq16 e := on_halves2 (x_eqf e MF32).
Definition x_ne16 e := on_halves2 (x_nef e MF32).
Definition x_gt16 e := on_halves2 (x_gtf e MF32).
Definition x_lt16 e a b := x_gt16 e b a.
Definition x_ge16 e := on_halves2 (x_gef e MF32).
Definition x_le16 e := on_halves2 (x_lef e MF32).

(** ** Logicals: the registers of an integer type of the same width *)

(** :1762-1803 [if_else1], float part *)
Definition x_if_else1f (e : ext) (t : mty) (l a b : Z) : Z :=
  match e with
  | Sse2 => x_orb e (uty t) (x_andb e (uty t) a l) (x_andnotb e (uty t) b l)
  | Sse42 => mm_blendv 128 (mw t) b a l
  | Avx | Avx2 => mm_blendv 256 (mw t) b a l
  | _ => mm_mask_blend 512 (mw t) l b a
  end.
Definition x_if_else16 (e : ext) (l a b : Z * Z) : Z * Z :=
  (x_if_else1f e MF32 (fst l) (fst a) (fst b), x_if_else1f e MF32 (snd l) (snd a) (snd b)).

(** :2111-2153 [all_any], float part: 0xF and 0x3 (SSE), 0xFF and 0xF (AVX), then the number of F's *)
Definition x_allf (e : ext) (t : mty) (l : Z) : bool :=
  match e with
  | Sse2 | Sse42 => mm_movemask 128 (mw t) l =? (match t with MF32 => 0xF | _ => 0x3 end)
  | Avx | Avx2 => mm_movemask 256 (mw t) l =? (match t with MF32 => 0xFF | _ => 0xF end)
  | _ => l =? 2 ^ (4 * (512 / mw t / 4)) - 1
  end.
Definition x_anyf (e : ext) (t : mty) (l : Z) : bool :=
  match e with
  | Sse2 | Sse42 => negb (mm_movemask 128 (mw t) l =? 0)
  | Avx | Avx2 => negb (mm_movemask 256 (mw t) l =? 0)
  | _ => negb (l =? 0)
  end.
Definition x_all16 (e : ext) (l : Z * Z) : bool := x_allf e MF32 (fst l) && x_allf e MF32 (snd l).
Definition x_any16 (e : ext) (l : Z * Z) : bool := x_anyf e MF32 (fst l) || x_anyf e MF32 (snd l).
(** :2447-2485 [nbtrue1], float part *)
Definition x_nbtruef (e : ext) (t : mty) (l : Z) : Z :=
  if is512 e then popcnt64 l else popcnt32 (to_u 32 (mm_movemask (nb e) (mw t) l)).
Definition x_nbtrue16 (e : ext) (l : Z * Z) : Z := x_nbtruef e MF32 (fst l) + x_nbtruef e MF32 (snd l).

(** :1512-1531 [set1]; the argument is a pattern, on f16 that of the half *)
Definition x_set1f (e : ext) (t : mty) (x : Z) : Z := mm_set1 (nb e) (mw t) x.
Definition x_set16 (e : ext) (h : Z) : option (Z * Z) :=
  bind (u16_to_f32 h) (fun f => Some (x_set1f e MF32 f, x_set1f e MF32 f)).
(** :1536-1558 [set1l] *)
Definition x_set1lf (e : ext) (t : mty) (x : Z) : Z := x_set1l e (uty t) x.
Definition x_set1l16 (e : ext) (x : Z) : Z * Z := (x_set1lf e MF32 x, x_set1lf e MF32 x).
(** :1266-1298 [not1], [lnot1] *)
Definition x_notlf (e : ext) (t : mty) (l : Z) : Z := x_notl e (uty t) l.

(** :3251-3288 [to_mask1], float part *)
Definition x_to_maskf (e : ext) (t : mty) (l : Z) : Z :=
  match e with
  | Avx512Skylake => mm_movm 512 (mw t) l
  | Avx512Knl => mm_mask_mov 512 (mw t) mm_zero l (mm_set1 512 32 (-1))
  | _ => l
  end.
(** :3293-3311 [to_logical1]: a comparison of the bits *)
Definition x_to_logicalf (e : ext) (t : mty) (a : Z) : Z := x_ne e (uty t) a mm_zero.
Definition x_to_mask16 e := on_halves1 (x_to_maskf e MF32).
Definition x_to_logical16 e := on_halves1 (x_to_logicalf e MF32).

(** ** Logicals in memory: :1858-1924 [loadl], [storel] *)

(** AVX-512: [in[i] != (typ)0] is the C comparison *)
Fixpoint loadl_512f (t : mty) (v : Z) (k : nat) : Z :=
  match k with
  | O => 0
  | S k' => let r := loadl_512f t v k' in
            if cmp_neq_uq (decode (mfmt t) (lane (mw t) (Z.of_nat k') v)) (decode (mfmt t) 0)
            then Z.lor r (Z.shiftl 1 (Z.of_nat k')) else r
  end.
Definition x_loadlf (e : ext) (t : mty) (m : bmem) (a : Z) : option Z :=
  bind (x_load e m a) (fun v => Some (
    if is512 e then loadl_512f t v (Z.to_nat (nb e / mw t))
    else x_notlf e t (x_eqf e t v (x_set1f e t 0)))).
Definition x_storelf (e : ext) (t : mty) (m : bmem) (a l : Z) : option bmem :=
  x_store e m a (
    if is512 e then build (mw t) (nlanes 512 (mw t)) (fun i =>
                      float_of_int (mfmt t) (if Z.land (Z.shiftr l i) 1 =? 0 then 0 else 1))
    else x_if_else1f e t l (x_set1f e t (float_of_int (mfmt t) 1)) (x_set1f e t (float_of_int (mfmt t) 0))).
(** f16; AVX-512 loads the patterns as u16's and stores 0x3C00 for true *)
Definition x_loadl16 (e : ext) (m : bmem) (a : Z) : option (Z * Z) :=
  if is512 e then
    bind (x_load e m a) (fun v =>
    let tmp := x_loadl e u16 v in
    Some (Z.land tmp 0xFFFF, Z.land (Z.shiftr tmp 16) 0xFFFF))
  else
    bind (x_load16 e m a) (fun v =>
    bind (x_set16 e (f32_to_u16 (float_of_int binary32 0))) (fun z =>
    Some (on_halves1 (x_notlf e MF32) (x_eq16 e v z)))).
Definition x_storel16 (e : ext) (m : bmem) (a : Z) (l : Z * Z) : option bmem :=
  if is512 e then
    bind (store_loop 16 (fun _ => true) (fun i => Some (a + i * 2))
            (fun i => if Z.land (Z.shiftr (fst l) i) 1 =? 0 then 0 else 0x3C00) 16 m) (fun m1 =>
    store_loop 16 (fun _ => true) (fun i => Some (a + (i + 16) * 2))
            (fun i => if Z.land (Z.shiftr (snd l) i) 1 =? 0 then 0 else 0x3C00) 16 m1)
  else
    bind (x_set16 e (f32_to_u16 (float_of_int binary32 1))) (fun one =>
    bind (x_set16 e (f32_to_u16 (float_of_int binary32 0))) (fun zero =>
    x_store16 e m a (x_if_else16 e l one zero))).

(** ** neg, abs, min, max *)

(** :2425-2442 [neg1] and :1929-1949 [abs1], float part *)
Definition sign_mask (t : mty) : Z := match t with MF64 => 0x8000000000000000 | _ => 0x80000000 end.
Definition abs_mask (t : mty) : Z := match t with MF64 => 0x7FFFFFFFFFFFFFFF | _ => 0x7FFFFFFF end.
Definition x_negf (e : ext) (t : mty) (a : Z) : Z := x_xorb e (uty t) (x_set1 e (uty t) (sign_mask t)) a.
Definition x_absf (e : ext) (t : mty) (a : Z) : Z := x_andb e (uty t) a (x_set1 e (uty t) (abs_mask t)).
(** minps, maxps and their variants: the second operand unless the first is strictly less, greater *)
Definition mm_minf n (t : mty) (a b : Z) : Z :=
  lanewise2 n (mw t) (fun x y => if flt (decode (mfmt t) x) (decode (mfmt t) y) then x else y) a b.
Definition mm_maxf n (t : mty) (a b : Z) : Z :=
  lanewise2 n (mw t) (fun x y => if flt (decode (mfmt t) y) (decode (mfmt t) x) then x else y) a b.
(** :1808-1810 [minmax] and :619-627 [how_it_should_be_op2] *)
Definition x_minf (e : ext) (t : mty) (a b : Z) : Z := mm_minf (nb e) t a b.
Definition x_maxf (e : ext) (t : mty) (a b : Z) : Z := mm_maxf (nb e) t a b.
Definition x_neg16 e := on_halves1 (x_negf e MF32).
Definition x_abs16 e := on_halves1 (x_absf e MF32).
Definition x_min16 e := on_halves2 (x_minf e MF32).
Definition x_max16 e := on_halves2 (x_maxf e MF32).

(** the scalar operators: egg/scalar.py:371-380 [abs], 381-392 [min], [max], 459 [neg]; C's minus flips
    the sign bit *)
Definition s_absf (t : mty) (x : Z) : Z := if fle (decode (mfmt t) 0) (decode (mfmt t) x) then x else fopp (mfmt t) x.
Definition s_minf (t : mty) (x y : Z) : Z := if flt (decode (mfmt t) x) (decode (mfmt t) y) then x else y.
Definition s_maxf (t : mty) (x y : Z) : Z := if flt (decode (mfmt t) y) (decode (mfmt t) x) then x else y.
Definition s_negf (t : mty) (x : Z) : Z := fopp (mfmt t) x.

(** ** Rounding to integers: :2042-2106 [round1], [trunc1], [round_to_even1] *)

(** roundps and roundscale with the rounding mode in the instruction *)
Definition hw_trunc (f : fmt) (b : Z) : Z :=
  match decode f b with FFin s m => encode f s (m / 2 ^ scale f * 2 ^ scale f) 0 | _ => b end.
Definition hw_nearest (f : fmt) (b : Z) : Z :=
  match decode f b with FFin s m => encode f s (rne m (scale f) * 2 ^ scale f) 0 | _ => b end.
Definition mm_roundf n (t : mty) (f : fmt -> Z -> Z) (a : Z) : Z := lanewise1 n (mw t) (f (mfmt t)) a.
(** :566-617 [get_emulation_code], one argument: the lanes go through i32 or i64 (:415-551 [get_lane],
    [set_lane]) *)
Definition sty (t : mty) : ity := Ity true (mw t).
Definition emul1f (e : ext) (t : mty) (f : Z -> Z) (undef a : Z) : option Z :=
  emul1 e (sty t) (fun x => Some (cast (sty t) (f (x mod 2 ^ mw t)))) undef a.

Definition x_floorf (e : ext) (t : mty) (undef a : Z) : option Z :=
  match e with Sse2 => emul1f e t (ffloor (mfmt t)) undef a | _ => Some (mm_roundf (nb e) t ffloor a) end.
Definition x_ceilf (e : ext) (t : mty) (undef a : Z) : option Z :=
  match e with Sse2 => emul1f e t (fceil (mfmt t)) undef a | _ => Some (mm_roundf (nb e) t fceil a) end.
Definition x_truncf (e : ext) (t : mty) (undef a : Z) : option Z :=
  match e with
  | Sse2 => emul1f e t (ftrunc (mfmt t)) undef a
  | Sse42 | Avx | Avx2 => Some (mm_roundf (nb e) t hw_trunc a)
  | _ => bind (x_floorf e t undef a) (fun fl =>
         bind (x_ceilf e t undef a) (fun ce =>
         Some (x_if_else1f e t (x_gtf e t a mm_zero) fl ce)))
  end.
Definition x_round_to_evenf (e : ext) (t : mty) (undef a : Z) : option Z :=
  match e with
  | Sse2 => emul1f e t (round_to_even (mfmt t)) undef a
  | _ => Some (mm_roundf (nb e) t hw_nearest a)
  end.
Definition round16 (f : ext -> mty -> Z -> Z -> option Z) (e : ext) (undef : Z) (v : Z * Z) : option (Z * Z) :=
  bind (f e MF32 undef (fst v)) (fun v0 => bind (f e MF32 undef (snd v)) (fun v1 => Some (v0, v1))).

(** ** iota and mask_for_loop_tail: :3612-3650 *)

Definition x_iotaf (e : ext) (t : mty) : Z := build (mw t) (nlanes (nb e) (mw t)) (fun i => float_of_int (mfmt t) i).
Definition x_iota16 (e : ext) : Z * Z := regs16 e (fun i => float_of_int binary32 i).
Definition x_mask_for_loop_tailf (e : ext) (t : mty) (i n : Z) : option Z :=
  if n <=? i then Some (x_set1lf e t 0)
  else bind (carith i32 (n - i)) (fun d =>
       if d <? nb e / mw t
       then Some (x_ltf e t (x_iotaf e t) (x_set1f e t (float_of_int (mfmt t) d)))
       else Some (x_set1lf e t 1)).
Definition x_mask_for_loop_tail16 (e : ext) (i n : Z) : option (Z * Z) :=
  if n <=? i then Some (x_set1l16 e 0)
  else bind (carith i32 (n - i)) (fun d =>
       if d <? le16 e
       then let v := x_set1f e MF32 (float_of_int binary32 d) in Some (x_lt16 e (x_iota16 e) (v, v))
       else Some (x_set1l16 e 1)).

(** ** addv: :2680-2772 *)

Definition mm_addf n (t : mty) (a b : Z) : Z := lanewise2 n (mw t) (fadd (mfmt t)) a b.
(** shuffle_ps(a, b, imm) on 128 bits *)
Definition mm_shuffle_ps (a b imm : Z) : Z :=
  build 32 4 (fun i => lane 32 (lane 2 i imm) (if i <? 2 then a else b)).
(** the end of the f32 and of the f64 versions: two and one shuffled additions, then lane 0 *)
Definition finish32 (r : Z) : Z :=
  let tmp := mm_addf 128 MF32 r (mm_shuffle_ps r r 0xb1) in
  lane 32 0 (mm_addf 128 MF32 tmp (mm_shuffle_ps tmp tmp 0x4e)).
Definition finish64 (r : Z) : Z := lane 64 0 (mm_addf 128 MF64 r (mm_shuffle_pd r r 0x01)).
Definition x_addv32 (e : ext) (a : Z) : Z :=
  match e with
  | Sse2 | Sse42 => finish32 a
  | Avx | Avx2 => finish32 (mm_addf 128 MF32 (mm_hi 256 a) (mm_lo 256 a))
  | _ => finish32 (mm_addf 128 MF32 (mm_addf 128 MF32 (lane 128 0 a) (lane 128 1 a))
                                    (mm_addf 128 MF32 (lane 128 2 a) (lane 128 3 a)))
  end.
Definition x_addv64 (e : ext) (a : Z) : Z :=
  match e with
  | Sse2 | Sse42 => finish64 a
  | Avx | Avx2 => finish64 (mm_addf 128 MF64 (mm_hi 256 a) (mm_lo 256 a))
  | _ => let tmp0 := mm_addf 256 MF64 (mm_lo 512 a) (mm_hi 512 a) in
         finish64 (mm_addf 128 MF64 (mm_hi 256 tmp0) (mm_lo 256 tmp0))
  end.
Definition x_addvf (e : ext) (t : mty) (a : Z) : Z := match t with MF64 => x_addv64 e a | _ => x_addv32 e a end.
Definition x_addv16 (e : ext) (v : Z * Z) : Z :=
  f32_to_u16 (fadd binary32 (x_addv32 e (fst v)) (x_addv32 e (snd v))).

(** ** reinterpret between f16 and the 16-bit integers: :2157-2213, and reinterpretl: :2232-2288 *)

(** the emulated branches, and [cvtph_ps], [cvtps_ph] taken to convert like fp16.c *)
Definition x_reinterpret_to16 (e : ext) (a : Z) : option (Z * Z) :=
  bind (load_loop (fun _ => true) (fun i => u16_to_f32 (lane 16 i a)) (Z.to_nat (le16 e)) (fun _ => 0))
       (fun buf => Some (regs16 e buf)).
Definition x_reinterpret_from16 (e : ext) (v : Z * Z) : Z :=
  build 16 (nlanes (nb e) 16) (fun i => f32_to_u16 (buf16 e v i)).

Definition mm_cvtepi16_epi32 k (a : Z) : Z := build 32 k (fun i => to_s 16 (lane 16 i a)).
Definition x_reinterpretl_to16_sse (l : Z) : Z * Z := (mm_unpack 16 0 l l, mm_unpack 16 1 l l).
Definition x_reinterpretl_to16 (e : ext) (l : Z) : Z * Z :=
  match e with
  | Sse2 | Sse42 => x_reinterpretl_to16_sse l
  | Avx => let tmp1 := x_reinterpretl_to16_sse (mm_lo 256 l) in
           let tmp2 := x_reinterpretl_to16_sse (mm_hi 256 l) in
           (mm_setr 256 (fst tmp1) (snd tmp1), mm_setr 256 (fst tmp2) (snd tmp2))
  | Avx2 => (mm_cvtepi16_epi32 8 (mm_lo 256 l), mm_cvtepi16_epi32 8 (mm_hi 256 l))
  | _ => (Z.land l 0xFFFF, Z.land (Z.shiftr l 16) 0xFFFF)
  end.
Definition x_reinterpretl_from16 (e : ext) (l : Z * Z) : Z :=
  if is512 e then Z.lor (fst l) (Z.shiftl (snd l) 16)
  else build 16 (nlanes (nb e) 16) (fun i =>
         if cmp_neq_uq (decode binary32 (buf16 e l i)) (decode binary32 0) then -1 else 0).
