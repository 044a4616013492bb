(** The lane permutations of the ARM back ends: egg/platform_arm.py, [reverse1], [zip_unzip_half],
    [zip_unzip].

    Registers are as in Arm.v.  A vector of f16 is a register with lanes of 16 bits on SVE, and on NEON when
    NSIMD_ARM_FP16 is defined; otherwise it is a pair of registers of f32 lanes (:110-135 [get_type]).  The
    neon128 vector of f64, a struct of two doubles (:131-135), is taken as a register of two lanes of 64 bits. *)
From Coq Require Import ZArith List Bool.
From Verif Require Import CInt ScalarOps X86Deg234 X86Arith X86Mem Arm.
Open Scope Z_scope.

(** ** Intrinsics on registers of [n] bits with lanes of [w] bits *)

(** vzip1q, vzip2q, svzip1, svzip2, and the two halves of vzipq *)
Definition i_zip (hi : bool) (n w a b : Z) : Z :=
  let o := if hi then n / w / 2 else 0 in
  build w (nlanes n w) (fun i => if Z.even i then lane w (o + i / 2) a else lane w (o + i / 2) b).
(** vuzp1q, vuzp2q, svuzp1, svuzp2, and the two halves of vuzpq *)
Definition i_uzp (hi : bool) (n w a b : Z) : Z :=
  let o := if hi then 1 else 0 in
  build w (nlanes n w) (fun i => if i <? n / w / 2 then lane w (2 * i + o) a else lane w (2 * (i - n / w / 2) + o) b).
(** svrev *)
Definition i_rev (n w a : Z) : Z := build w (nlanes n w) (fun i => lane w (n / w - 1 - i) a).
(** vrev64q: reverses the lanes of every 64-bit block *)
Definition v_rev64 (w a : Z) : Z :=
  build w (nlanes 128 w) (fun i => let k := 64 / w in lane w (i / k * k + (k - 1 - i mod k)) a).
(** vcombine(vget_high(a), vget_low(a)) *)
Definition v_swap (a : Z) : Z := build 64 2 (fun i => lane 64 (1 - i) a).

(** ** Element types other than f16, and f16 where it is native (as [MI u16]) *)

(** :1749-1770 [reverse1]; the neon128 f64 branch swaps v0 and v1 *)
Definition a_reverse (e : aext) (t : mty) (a : Z) : Z :=
  match e with
  | Sve _ _ => i_rev (an e) (mw t) a
  | _ => if mw t =? 64 then v_swap a else v_swap (v_rev64 (mw t) a)
  end.

(** :2170-2251 [zip_unzip_half]; on neon128 the 64-bit types take element [i] of both arguments *)
Definition half64 (hi : bool) (a b : Z) : Z :=
  let k := if hi then 1 else 0 in build 64 2 (fun i => if i =? 0 then lane 64 k a else lane 64 k b).
Definition a_zip_half (hi : bool) (e : aext) (t : mty) (a b : Z) : Z :=
  if is_neon128 e && (mw t =? 64) then half64 hi a b else i_zip hi (an e) (mw t) a b.
Definition a_unzip_half (hi : bool) (e : aext) (t : mty) (a b : Z) : Z :=
  if is_neon128 e && (mw t =? 64) then half64 hi a b else i_uzp hi (an e) (mw t) a b.
(** :2253-2300 [zip_unzip] *)
Definition a_zip (e : aext) (t : mty) (a b : Z) : Z * Z :=
  if is_neon128 e && (mw t =? 64) then (a_zip_half false e t a b, a_zip_half true e t a b)
  else (i_zip false (an e) (mw t) a b, i_zip true (an e) (mw t) a b).
Definition a_unzip (e : aext) (t : mty) (a b : Z) : Z * Z :=
  if is_neon128 e && (mw t =? 64) then (a_unzip_half false e t a b, a_unzip_half true e t a b)
  else (i_uzp false (an e) (mw t) a b, i_uzp true (an e) (mw t) a b).

(** ** f16 as a pair of registers of f32 lanes (NEON without NSIMD_ARM_FP16) *)

(** :1762-1766 *)
Definition a_reverse16 (e : aext) (v : Z * Z) : Z * Z := (a_reverse e MF32 (snd v), a_reverse e MF32 (fst v)).
(** :2179-2181 and :2214-2217; :2193-2195 and :2223-2227 *)
Definition a_zip_half16 (hi : bool) (v w : Z * Z) : Z * Z :=
  let a := if hi then snd v else fst v in let b := if hi then snd w else fst w in
  (i_zip false 128 32 a b, i_zip true 128 32 a b).
Definition a_unzip_half16 (hi : bool) (v w : Z * Z) : Z * Z :=
  (i_uzp hi 128 32 (fst v) (snd v), i_uzp hi 128 32 (fst w) (snd w)).
Definition a_zip16 (v w : Z * Z) : (Z * Z) * (Z * Z) := (a_zip_half16 false v w, a_zip_half16 true v w).
Definition a_unzip16 (v w : Z * Z) : (Z * Z) * (Z * Z) := (a_unzip_half16 false v w, a_unzip_half16 true v w).
