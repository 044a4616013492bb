(** Properties C01-C05: half/single conversions (src/fp16.cpp). *)
From Coq Require Import ZArith Lia Bool.
From Verif Require Import CInt FloatSpec Fp16 Fp16Spec Fp16Proofs.
Open Scope Z_scope.

(** C01. [nsimd_u16_to_f32] terminates on every half and returns a single that
    denotes exactly the same number ([widen] rescales units 2^-24 -> 2^-149);
    infinities and NaNs are preserved. *)
Theorem C01_u16_to_f32_exact : forall a, in_u 16 a ->
  exists u, u16_to_f32 a = Some u /\ in_u 32 u /\ decode binary32 u = widen (decode binary16 a).
Proof. exact u16_to_f32_exact_l. Qed.
Print Assumptions C01_u16_to_f32_exact.

(** the smallest subnormal 2^-24 becomes the normal single 0x33800000. *)
Example C01_ex : u16_to_f32 1 = Some 0x33800000
  /\ decode binary16 1 = FFin false 1 /\ decode binary32 0x33800000 = FFin false (2 ^ 125).
Proof. vm_compute. auto. Qed.

(** C02. Below the overflow threshold the result is the nearest half, ties to
    even, with the sign of the argument. *)
Theorem C02_f32_to_u16_nearest_even : forall u s x, in_u 32 u ->
  decode binary32 u = FFin s x -> x < overflow_threshold ->
  nearest_half_ties_even s x (f32_to_u16 u).
Proof. exact f32_to_u16_finite_l. Qed.
Print Assumptions C02_f32_to_u16_nearest_even.

(** From the threshold on the result is the infinity of the same sign. *)
Theorem C02_f32_to_u16_overflow : forall u s x, in_u 32 u ->
  decode binary32 u = FFin s x -> overflow_threshold <= x ->
  decode binary16 (f32_to_u16 u) = FInf s.
Proof. exact f32_to_u16_overflow_l. Qed.
Print Assumptions C02_f32_to_u16_overflow.

Theorem C02_f32_to_u16_inf : forall u s, in_u 32 u ->
  decode binary32 u = FInf s -> decode binary16 (f32_to_u16 u) = FInf s.
Proof. exact f32_to_u16_inf_l. Qed.
Print Assumptions C02_f32_to_u16_inf.

Theorem C02_f32_to_u16_nan : forall u, in_u 32 u ->
  decode binary32 u = FNaN -> decode binary16 (f32_to_u16 u) = FNaN.
Proof. exact f32_to_u16_nan_l. Qed.
Print Assumptions C02_f32_to_u16_nan.

(** the result is a 16-bit pattern. *)
Theorem C02_f32_to_u16_range : forall u, in_u 32 u -> in_u 16 (f32_to_u16 u).
Proof. exact f32_to_u16_range_l. Qed.
Print Assumptions C02_f32_to_u16_range.

(** 1 + 2^-11 is half-way between 1 and 1 + 2^-10: ties to even gives 1. *)
Example C02_ex_tie : f32_to_u16 0x3f801000 = 0x3c00
  /\ decode binary32 0x3f801000 = FFin false (2 ^ 149 + 2 ^ 138)
  /\ 2 ^ 149 + 2 ^ 138 < overflow_threshold.
Proof. vm_compute. auto. Qed.

(** -0.1 and the largest finite / first overflowing single *)
Example C02_ex : f32_to_u16 0xbdcccccd = 0xae66 /\ f32_to_u16 0x477fefff = 0x7bff
  /\ f32_to_u16 0x477ff000 = 0x7c00 /\ f32_to_u16 0x7fc00000 = 0xffff.
Proof. vm_compute. auto. Qed.

(** C03. *)
Theorem C03_half_single_half : forall a, in_u 16 a ->
  exists u, u16_to_f32 a = Some u /\
    (decode binary16 a <> FNaN -> f32_to_u16 u = a) /\
    (decode binary16 a = FNaN -> decode binary16 (f32_to_u16 u) = FNaN).
Proof. exact round_trip_l. Qed.
Print Assumptions C03_half_single_half.

Example C03_ex : in_u 16 0x8001 /\ decode binary16 0x8001 <> FNaN.
Proof. split; [unfold in_u; lia|vm_compute; discriminate]. Qed.

(** C04. [fle] is the IEEE comparison [<=] (false on NaN). *)
Theorem C04_f32_to_u16_monotone : forall u v, in_u 32 u -> in_u 32 v ->
  fle (decode binary32 u) (decode binary32 v) = true ->
  fle (decode binary16 (f32_to_u16 u)) (decode binary16 (f32_to_u16 v)) = true.
Proof. exact f32_to_u16_mono_l. Qed.
Print Assumptions C04_f32_to_u16_monotone.

Example C04_ex : fle (decode binary32 0xff800000) (decode binary32 0x80000001) = true.
Proof. reflexivity. Qed.

(** C05. Build with NSIMD_NO_IEEE754: decoding is exact on all finite halves... *)
Theorem C05_u16_to_f32_noieee_exact : forall a s h, in_u 16 a ->
  decode binary16 a = FFin s h -> u16_to_f32_noieee a = FFin s (h * 2 ^ 125).
Proof. exact u16_to_f32_noieee_exact_l. Qed.
Print Assumptions C05_u16_to_f32_noieee_exact.

(** ... but encoding is wrong on every single of magnitude in [2^-16, 2^14):
    the half returned denotes FOUR times the argument (truncated to 11
    significant bits): [h * 2^-24 = 4 * trunc11 (x * 2^-149)]. *)
Theorem C05_f32_to_u16_noieee_quadruples : forall s x, 2 ^ 133 <= x < 2 ^ 163 ->
  exists r h, f32_to_u16_noieee (FFin s x) = Some r /\ in_u 16 r /\ decode binary16 r = FFin s h /\
    h * 2 ^ 123 = x - x mod 2 ^ (Z.log2 x - 10).
Proof. exact f32_to_u16_noieee_l. Qed.
Print Assumptions C05_f32_to_u16_noieee_quadruples.

(** The round trip asked for therefore fails: 1.0 comes back as 4.0. *)
Theorem C05_noieee_round_trip_refuted :
  exists a, in_u 16 a /\ (exists s h, decode binary16 a = FFin s h /\ 2 ^ 10 <= h) /\
    f32_to_u16_noieee (u16_to_f32_noieee a) <> Some a.
Proof.
  exists 0x3c00. split; [unfold in_u; lia|]. split; [exists false, (2 ^ 24); vm_compute; split; [reflexivity|discriminate]|].
  vm_compute. discriminate.
Qed.
Print Assumptions C05_noieee_round_trip_refuted.

Example C05_ex : f32_to_u16_noieee (u16_to_f32_noieee 0x3c00) = Some 0x4400
  /\ decode binary16 0x4400 = FFin false (4 * 2 ^ 24)
  /\ f32_to_u16_noieee (u16_to_f32_noieee 0) = Some 0x4000.
Proof. vm_compute. auto. Qed.
