(** The conversions of the ARM back ends: cvt, upcvt, downcvt, reinterpret and reinterpretl of
    egg/platform_arm.py.

    As in Arm.v a register is an integer, and [u] is the unspecified register whose lanes fill the
    inactive lanes of a predicated operation with suffix _x.  Vectors of f16 are those of NEON without
    NSIMD_ARM_FP16, a pair of registers of singles; the f16 registers of SVE and of NEON with
    NSIMD_ARM_FP16 are not modelled. *)
From Coq Require Import ZArith List Bool.
From Verif Require Import CInt FloatSpec Fp16 ScalarOps X86Deg234 X86Arith X86Mem X86Cvt Arm ArmPerm ArmMem.
Open Scope Z_scope.

(** ** Intrinsics *)

(** FCVTZS, FCVTZU: truncation toward zero, saturating; a NaN gives zero *)
Definition fcvtz (t : ity) (f : fmt) (b : Z) : Z :=
  match decode f b with
  | FNaN => 0
  | FInf s => if s then ty_min t else ty_max t
  | FFin s m => saturate t (sval s (m / 2 ^ scale f))
  end.
(** one lane of vcvt, svcvt, vmovl, vmovn, svunpk; conversions to floats round to nearest even *)
Definition l_cvt (from to : mty) (x : Z) : Z :=
  match from, to with
  | MI t, MI _ => cast t x
  | MI t, _ => float_of_int (mfmt to) (cast t x)
  | _, MI v => fcvtz v (mfmt from) x
  | MF32, MF64 => double_of_single x
  | MF64, MF32 => single_of_double x
  | _, _ => x
  end.
(** vcvtq, vcvt, vmovl, vmovn: [k] lanes *)
Definition v_cvt (k : Z) (from to : mty) (a : Z) : Z :=
  build (mw to) (Z.to_nat k) (fun i => l_cvt from to (lane (mw from) i a)).
(** svcvt_{to}_{from}_x: a lane is as wide as the wider of the two types; the narrower one is in its low half *)
Definition sv_cvt_x (u n pg : Z) (from to : mty) (a : Z) : Z :=
  let w := Z.max (mw from) (mw to) in
  build w (nlanes n w) (fun i =>
    if active w pg i then l_cvt from to (lane w i a mod 2 ^ mw from) mod 2 ^ mw to else lane w i u).
(** svunpklo, svunpkhi to lanes of twice the width, extended according to the type [t] *)
Definition sv_unpk (hi : bool) (n : Z) (t : ity) (a : Z) : Z :=
  let w := bits t in
  let o := if hi then n / (2 * w) else 0 in
  build (2 * w) (nlanes n (2 * w)) (fun i => cast t (lane w (o + i) a)).
(** vget_low, vget_high, vcombine *)
Definition v_low (a : Z) : Z := mm_lo 128 a.
Definition v_high (a : Z) : Z := mm_hi 128 a.
Definition v_combine (lo hi : Z) : Z := mm_setr 128 lo hi.

Section Code.
Variable u : Z.

(** ** :1592-1666 [convert1] *)
Definition a_cvt (e : aext) (from to : mty) (a : Z) : option Z :=
  match from, to with
  | MI _, MI _ | MF32, MF32 | MF64, MF64 => Some a
  | _, _ =>
      match e with
      | Sve _ _ => Some (sv_cvt_x u (an e) (svtrue e (uty from)) from to a)
      | Aarch64 => Some (v_cvt (128 / mw from) from to a)
      | Neon128 => if mw from =? 64 then build_o 64 2 (fun i => c_cast from to (lane 64 i a))
                   else Some (v_cvt (128 / mw from) from to a)
      end
  end.
(** from and to f16, :1608-1634 *)
Definition a_cvt_to16 (t : ity) (a : Z) : option (Z * Z) :=
  bind (build_o 32 4 (fun i => c_cast (MI t) MF32 (lane 16 i a))) (fun r0 =>
  bind (build_o 32 4 (fun i => c_cast (MI t) MF32 (lane 16 (i + 4) a))) (fun r1 => Some (r0, r1))).
Definition a_cvt_from16 (t : ity) (v : Z * Z) : option Z :=
  build_o 16 8 (fun i => c_cast MF32 (MI t) (if i <? 4 then lane 32 i (fst v) else lane 32 (i - 4) (snd v))).

(** ** :1844-1943 [upcvt1] *)

(** integers, :1880-1900 and :1915-1932 *)
Definition a_upcvt_int (e : aext) (t v : ity) (a : Z) : Z * Z :=
  match e with
  | Sve _ _ => (sv_unpk false (an e) t a, sv_unpk true (an e) t a)
  | _ => (v_cvt (128 / bits v) (MI t) (MI v) (v_low a), v_cvt (128 / bits v) (MI t) (MI v) (v_high a))
  end.
(** f32 to f64, :1861-1879 and :1938-1943 *)
Definition a_upcvt_float (e : aext) (a : Z) : option (Z * Z) :=
  match e with
  | Sve _ _ => Some (sv_cvt_x u (an e) (svtrue e u32) MF32 MF64 (i_zip false (an e) 32 a a),
                     sv_cvt_x u (an e) (svtrue e u32) MF32 MF64 (i_zip true (an e) 32 a a))
  | Aarch64 => Some (v_cvt 2 MF32 MF64 (v_low a), v_cvt 2 MF32 MF64 (v_high a))
  | Neon128 => bind (build_o 64 2 (fun i => c_cast MF32 MF64 (lane 32 i a))) (fun r0 =>
               bind (build_o 64 2 (fun i => c_cast MF32 MF64 (lane 32 (i + 2) a))) (fun r1 => Some (r0, r1)))
  end.
(** on NEON through the type with the letter of the source and the width of the target, :1901-1911; on SVE
    :1933-1943 *)
Definition a_upcvt (e : aext) (from to : mty) (a : Z) : option (Z * Z) :=
  match from, to with
  | MI t, MI v => Some (a_upcvt_int e t v a)
  | MF32, MF64 => a_upcvt_float e a
  | MI t, _ =>
      let int_typ := resized t (mw to) in
      match e with
      | Sve _ _ => Some (sv_cvt_x u (an e) (svtrue e t) (MI int_typ) to (sv_unpk false (an e) t a),
                         sv_cvt_x u (an e) (svtrue e t) (MI int_typ) to (sv_unpk true (an e) t a))
      | _ => both (a_cvt e (MI int_typ) to) (a_upcvt_int e t int_typ a)
      end
  | MF32, MI v =>
      match e with
      | Sve _ _ => Some (sv_cvt_x u (an e) (svtrue e u32) MF32 to (i_zip false (an e) 32 a a),
                         sv_cvt_x u (an e) (svtrue e u32) MF32 to (i_zip true (an e) 32 a a))
      | _ => bind (a_upcvt_float e a) (both (a_cvt e MF64 to))
      end
  | _, _ => None
  end.
Definition a_upcvt_from16 (e : aext) (to : mty) (v : Z * Z) : option (Z * Z) :=
  match to with MF32 => Some v | _ => both (a_cvt e MF32 to) v end.
Definition a_upcvt_to16 (e : aext) (t : ity) (a : Z) : option ((Z * Z) * (Z * Z)) :=
  let tmp := a_upcvt_int e t (resized t 16) a in
  bind (a_cvt_to16 (resized t 16) (fst tmp)) (fun x =>
  bind (a_cvt_to16 (resized t 16) (snd tmp)) (fun y => Some (x, y))).

(** ** :1948-2013 [downcvt1] *)

(** integers: :1971-1976, and through the type with the letter of the target :1983-1988; SVE :1991-1995 *)
Definition a_downcvt_int (e : aext) (t v : ity) (a b : Z) : Z :=
  match e with
  | Sve _ _ => i_uzp false (an e) (bits v) a b
  | _ => v_combine (v_cvt (128 / bits t) (MI t) (MI v) a) (v_cvt (128 / bits t) (MI t) (MI v) b)
  end.
(** f64 to f32, :1950-1961 and :2006-2013 *)
Definition a_downcvt_float (e : aext) (a b : Z) : option Z :=
  match e with
  | Sve _ _ => Some (i_uzp false (an e) 32 (sv_cvt_x u (an e) (svtrue e u64) MF64 MF32 a)
                                          (sv_cvt_x u (an e) (svtrue e u64) MF64 MF32 b))
  | Aarch64 => Some (v_combine (v_cvt 2 MF64 MF32 a) (v_cvt 2 MF64 MF32 b))
  | Neon128 => build_o 32 4 (fun i => c_cast MF64 MF32 (if i <? 2 then lane 64 i a else lane 64 (i - 2) b))
  end.
Definition a_downcvt (e : aext) (from to : mty) (a b : Z) : option Z :=
  match from, to with
  | MI t, MI v => Some (a_downcvt_int e t v a b)
  | MF64, MF32 => a_downcvt_float e a b
  | MI t, MF32 =>
      match e with
      | Sve _ _ => Some (i_uzp false (an e) 32 (sv_cvt_x u (an e) (svtrue e t) from MF32 a)
                                              (sv_cvt_x u (an e) (svtrue e t) from MF32 b))
      | _ => bind (a_cvt e from MF64 a) (fun x => bind (a_cvt e from MF64 b) (fun y => a_downcvt_float e x y))
      end
  | _, MI v =>
      let int_typ := resized v (mw from) in
      match e with
      | Sve _ _ => Some (i_uzp false (an e) (bits v)
                           (sv_cvt_x u (an e) (svtrue e (uty from)) from (MI int_typ) a)
                           (sv_cvt_x u (an e) (svtrue e (uty from)) from (MI int_typ) b))
      | _ => bind (a_cvt e from (MI int_typ) a) (fun x =>
             bind (a_cvt e from (MI int_typ) b) (fun y => Some (a_downcvt_int e int_typ v x y)))
      end
  | _, _ => None
  end.
Definition a_downcvt_to16 (e : aext) (from : mty) (a b : Z) : option (Z * Z) :=
  match from with MF32 => Some (a, b) | _ => both (a_cvt e from MF32) (a, b) end.
Definition a_downcvt_from16 (e : aext) (v : ity) (x y : Z * Z) : option Z :=
  let int_typ := resized v 16 in
  bind (a_cvt_from16 int_typ x) (fun a =>
  bind (a_cvt_from16 int_typ y) (fun b => Some (a_downcvt_int e int_typ v a b))).
End Code.

(** ** :1671-1746 [reinterpret1]: a no-op but for f16 *)
Definition a_reinterpret_to16 (a : Z) : option (Z * Z) :=
  bind (load_loop (fun _ => true) (fun i => u16_to_f32 (lane 16 i a)) 8 (fun _ => 0)) (fun buf => Some (aregs16 buf)).
Definition a_reinterpret_from16 (v : Z * Z) : Z := build 16 8 (fun i => f32_to_u16 (abuf16 v i)).

(** ** :1528-1587 [reinterpretl1]: a no-op but for f16 *)
Definition a_reinterpretl_to16 (l : Z) : Z * Z := aregs16 (fun i => if lane 16 i l =? 0 then 0 else -1).
Definition a_reinterpretl_from16 (l : Z * Z) : Z := build 16 8 (fun i => if abuf16 l i =? 0 then 0 else -1).
