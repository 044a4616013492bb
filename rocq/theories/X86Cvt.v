(** Conversions of the x86 back ends: egg/platform_x86.py, [convert1] (cvt), [upcvt1] and
    [downcvt1].

    Registers are as in X86Arith.v; float lanes are IEEE patterns (FloatSpec.v); an f16 vector is
    a pair of registers of f32 lanes.

    Simplifications: the C casts and the conversion instructions round to nearest even (int to
    float, double to float); a C cast from float to integer is undefined ([None]) outside the
    range of the type; a NaN converted between float formats becomes the default NaN (its payload
    is not modelled); local C arrays hold lanes. *)
From Coq Require Import ZArith List Bool.
From Verif Require Import CInt FloatSpec Fp16 ScalarOps X86Deg234 X86Arith X86Mem.
Open Scope Z_scope.

(** ** C casts and conversion instructions on one lane *)

Definition mfmt (t : mty) : fmt := match t with MF64 => binary64 | _ => binary32 end.
(** 1.0 is 2^scale smallest subnormals *)
Definition scale (f : fmt) : Z := 2 ^ (ebits f - 1) - 2 + mbits f.

(** (f32)z, (f64)z, cvtepi32_ps, cvtepu32_ps, cvtepi64_pd, ... *)
Definition float_of_int (f : fmt) (z : Z) : Z := encode f (z <? 0) (Z.abs z * 2 ^ scale f) 0.
(** (t)b: truncation *)
Definition int_of_float (t : ity) (f : fmt) (b : Z) : option Z :=
  match decode f b with
  | FFin s m => let z := sval s (m / 2 ^ scale f) in
                if (ty_min t <=? z) && (z <=? ty_max t) then Some z else None
  | _ => None
  end.
(** cvtps_epi32, cvtps_epu32, cvtpd_epi64, cvtpd_epu64: rounding to nearest even; "integer
    indefinite" outside the range *)
Definition hw_int_of_float (t : ity) (f : fmt) (b : Z) : Z :=
  let indefinite := if is_signed t then ty_min t else ty_max t in
  match decode f b with
  | FFin s m => let z := sval s (rne m (scale f)) in
                if (ty_min t <=? z) && (z <=? ty_max t) then z else indefinite
  | _ => indefinite
  end.
(** (f64)b, cvtps_pd and (f32)b, cvtpd_ps: 2^-149 = 2^925 * 2^-1074 *)
Definition double_of_single (b : Z) : Z :=
  match decode binary32 b with
  | FNaN => nan_bits binary64
  | FInf s => sign_bit binary64 s + inf_bits binary64
  | FFin s m => encode binary64 s (m * 2 ^ 925) 0
  end.
Definition single_of_double (b : Z) : Z :=
  match decode binary64 b with
  | FNaN => nan_bits binary32
  | FInf s => sign_bit binary32 s + inf_bits binary32
  | FFin s m => encode binary32 s m 925
  end.

(** The C cast (to)x, patterns to patterns. *)
Definition c_cast (from to : mty) (x : Z) : option Z :=
  match from, to with
  | MI t, MI u => Some (cast u (cast t x))
  | MI t, _ => Some (float_of_int (mfmt to) (cast t x))
  | _, MI u => int_of_float u (mfmt from) x
  | MF32, MF64 => Some (double_of_single x)
  | MF64, MF32 => Some (single_of_double x)
  | _, _ => Some x
  end.
(** The conversion instructions *)
Definition hw_cast (from to : mty) (x : Z) : Z :=
  match from, to with
  | MI t, MI u => cast t x
  | MI t, _ => float_of_int (mfmt to) (cast t x)
  | _, MI u => hw_int_of_float u (mfmt from) x
  | MF32, MF64 => double_of_single x
  | MF64, MF32 => single_of_double x
  | _, _ => x
  end.
(** an instruction converting [k] lanes of the source *)
Definition mm_cvt (k : Z) (from to : mty) (a : Z) : Z :=
  build (mw to) (Z.to_nat k) (fun i => hw_cast from to (lane (mw from) i a)).

(** unpacklo_epi{w}, unpackhi_epi{w} on 128 bits *)
Definition mm_unpack (w h : Z) (a b : Z) : Z :=
  build w (nlanes 128 w) (fun i => let j := h * (128 / w / 2) + i / 2 in
                                   if i mod 2 =? 0 then lane w j a else lane w j b).

(** shuffle_pd(a, b, imm) on 128 bits *)
Definition mm_shuffle_pd (a b imm : Z) : Z :=
  build 64 2 (fun i => if i =? 0 then lane 64 (lane 1 0 imm) a else lane 64 (lane 1 1 imm) b).

(** ** cvt *)

(** egg/platform_x86.py:2346-2355 [emulate] *)
Definition cvt_emulated (e : ext) (from to : mty) (a : Z) : option Z :=
  build_o (mw to) (nlanes (nb e) (mw to)) (fun i => c_cast from to (lane (mw from) i a)).
Definition cvt_instr (e : ext) (from to : mty) (a : Z) : Z := mm_cvt (nb e / mw from) from to a.

(** egg/platform_x86.py:2293-2378 [convert1], types other than f16 *)
Definition x_cvt (e : ext) (from to : mty) (a : Z) : option Z :=
  match from, to with
  | MI _, MI _ | MF32, MF32 | MF64, MF64 => Some a
  | MF64, _ | _, MF64 => if skylake e then Some (cvt_instr e from to a) else cvt_emulated e from to a
  | MI t, MF32 => if is_signed t then Some (cvt_instr e from to a)
                  else if is512 e then Some (cvt_instr e from to a) else cvt_emulated e from to a
  | MF32, MI t => if is_signed t then Some (cvt_instr e from to a)
                  else if is512 e then Some (cvt_instr e from to a) else cvt_emulated e from to a
  end.

(** :2297-2332: i16, u16 to f16.  [through_epi32] on sse42, avx2, avx512; [emulate] on sse2, avx *)
Definition x_cvt_to16 (e : ext) (t : ity) (a : Z) : option (Z * Z) :=
  let n := nb e in
  match e with
  | Sse2 | Avx =>
      bind (build_o 32 (nlanes n 32) (fun i => c_cast (MI t) MF32 (lane 16 i a))) (fun r0 =>
      bind (build_o 32 (nlanes n 32) (fun i => c_cast (MI t) MF32 (lane 16 (i + n / 16 / 2) a))) (fun r1 =>
      Some (r0, r1)))
  | _ =>
      let getlo := match e with Sse42 => a | _ => mm_lo n a end in
      let gethi := match e with Sse42 => mm_unpackhi_epi64 a a | _ => mm_hi n a end in
      Some (mm_cvt (n / 32) (MI i32) MF32 (mm_cvt (n / 32) (MI t) (MI i32) getlo),
            mm_cvt (n / 32) (MI i32) MF32 (mm_cvt (n / 32) (MI t) (MI i32) gethi))
  end.
(** :2333-2345: f16 to i16, u16 *)
Definition x_cvt_from16 (e : ext) (t : ity) (v : Z * Z) : option Z :=
  let h := nb e / 16 / 2 in
  build_o 16 (nlanes (nb e) 16) (fun i =>
    if i <? h then int_of_float t binary32 (lane 32 i (fst v)) else int_of_float t binary32 (lane 32 (i - h) (snd v))).

(** ** upcvt *)

(** the lower and upper halves of the input: :2823-2838 *)
Definition upper_half (e : ext) (from : mty) (a : Z) : Z :=
  match e with
  | Sse2 | Sse42 => if is_float from then mm_shuffle_pd a a 1 else mm_shuffle_epi32 a 14
  | _ => mm_hi (nb e) a
  end.
Definition lower_half (e : ext) (a : Z) : Z := match e with Sse2 | Sse42 => a | _ => mm_lo (nb e) a end.
(** [with_intrinsic]: :2840-2870 *)
Definition with_intrinsic (e : ext) (from to : mty) (a : Z) : Z * Z :=
  (mm_cvt (nb e / mw to) from to (lower_half e a), mm_cvt (nb e / mw to) from to (upper_half e from a)).
(** [split_trick]: :2895-2909 *)
Definition split_trick (n : Z) (f : Z -> Z * Z) (a : Z) : Z * Z :=
  let lo := f (mm_lo n a) in let hi := f (mm_hi n a) in
  (mm_setr n (fst lo) (snd lo), mm_setr n (fst hi) (snd hi)).

(** integers to integers of twice the width, on 128 bits: :2918-2931 *)
Definition upcvt_sse (from : ity) (a : Z) : Z * Z :=
  let w := bits from in
  let mask := if is_signed from then mm_cmpgt 128 w mm_zero a else mm_zero in
  (mm_unpack w 0 a mask, mm_unpack w 1 a mask).
(** :2911-2953 *)
Definition upcvt_int (e : ext) (from to : ity) (a : Z) : Z * Z :=
  match e with
  | Sse2 | Sse42 => upcvt_sse from a
  | Avx => split_trick 256 (upcvt_sse from) a
  | Avx2 | Avx512Skylake => with_intrinsic e (MI from) (MI to) a
  | Avx512Knl => if bits from =? 8 then split_trick 512 (with_intrinsic Avx2 (MI from) (MI to)) a
                 else with_intrinsic e (MI from) (MI to) a
  end.
(** f32 to f64 *)
Definition upcvt_float (e : ext) (a : Z) : Z * Z :=
  match e with
  | Avx => split_trick 256 (with_intrinsic Sse42 MF32 MF64) a
  | _ => with_intrinsic e MF32 MF64 a
  end.
Definition both (f : Z -> option Z) (p : Z * Z) : option (Z * Z) :=
  bind (f (fst p)) (fun x => bind (f (snd p)) (fun y => Some (x, y))).
(** [int_float]: :2872-2893; the intermediate type has the signedness of the integer type *)
Definition resized (t : ity) (w : Z) : ity := Ity (is_signed t) w.
Definition x_upcvt (e : ext) (from to : mty) (a : Z) : option (Z * Z) :=
  match from, to with
  | MI t, MI u => Some (upcvt_int e t u a)
  | MF32, MF64 => Some (upcvt_float e a)
  | MI t, _ =>
      if is_signed t && (bits t =? 32) && (mw to =? 64) then Some (with_intrinsic e from to a)
      else both (x_cvt e (MI (resized t (mw to))) to) (upcvt_int e t (resized t (mw to)) a)
  | _, MI u =>
      bind (x_cvt e from (MI (resized u (mw from))) a) (fun x => Some (upcvt_int e (resized u (mw from)) u x))
  | _, _ => None
  end.
(** f16 to f32, i32, u32: :2777-2790 *)
Definition x_upcvt_from16 (e : ext) (to : mty) (v : Z * Z) : option (Z * Z) :=
  match to with MF32 => Some v | _ => both (x_cvt e MF32 to) v end.
(** i8, u8 to f16: :2792-2800 *)
Definition x_upcvt_to16 (e : ext) (t : ity) (a : Z) : option ((Z * Z) * (Z * Z)) :=
  let buf := upcvt_int e t (resized t 16) a in
  bind (x_cvt_to16 e (resized t 16) (fst buf)) (fun x =>
  bind (x_cvt_to16 e (resized t 16) (snd buf)) (fun y => Some (x, y))).

(** ** downcvt *)

(** the emulation: :3009-3026 *)
Definition downcvt_emulated (e : ext) (from to : mty) (a b : Z) : option Z :=
  let k := nb e / mw from in
  build_o (mw to) (nlanes (nb e) (mw to)) (fun i =>
    c_cast from to (if i <? k then lane (mw from) i a else lane (mw from) (i - k) b)).
(** setr(cvt(in0), cvt(in1)) *)
Definition downcvt_instr (e : ext) (from to : mty) (a b : Z) : Z :=
  mm_setr (nb e) (mm_cvt (nb e / mw from) from to a) (mm_cvt (nb e / mw from) from to b).
(** :2943-3026 *)
Definition x_downcvt (e : ext) (from to : mty) (a b : Z) : option Z :=
  match from, to with
  | MF64, MF32 =>
      match e with
      | Sse2 | Sse42 => (* movelh_ps *)
          Some (mm_unpacklo_epi64 (mm_cvt 2 MF64 MF32 a) (mm_cvt 2 MF64 MF32 b))
      | _ => Some (downcvt_instr e from to a b)
      end
  | MI t, MI u =>
      if is512 e && is_signed t && is_signed u && (wide t || (skylake e && (bits t =? 16)))
      then Some (downcvt_instr e from to a b) else downcvt_emulated e from to a b
  | MI t, MF32 =>
      if is512 e && is_signed t && (bits t =? 64)
      then x_cvt e (MI i32) MF32 (downcvt_instr e from (MI i32) a b)
      else downcvt_emulated e from to a b
  | _, _ => downcvt_emulated e from to a b
  end.
(** f16 to i8, u8: :2945-2964 *)
Definition x_downcvt_from16 (e : ext) (t : ity) (v u : Z * Z) : option Z :=
  let q := nb e / 32 in
  build_o 8 (nlanes (nb e) 8) (fun i => int_of_float t binary32
    (if i <? q then lane 32 i (fst v) else if i <? 2 * q then lane 32 (i - q) (snd v)
     else if i <? 3 * q then lane 32 (i - 2 * q) (fst u) else lane 32 (i - 3 * q) (snd u))).
(** f32, i32, u32 to f16: :2966-2980 *)
Definition x_downcvt_to16 (e : ext) (from : mty) (a b : Z) : option (Z * Z) :=
  match from with MF32 => Some (a, b) | _ => both (x_cvt e from MF32) (a, b) end.
