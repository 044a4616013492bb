(** Properties C14 (round_to_even) and C51 (trunc). *)
From Coq Require Import ZArith Lia Bool.
From Verif Require Import CInt FloatSpec FloatProofs Fp16 Fp16Spec Fp16Proofs RoundEven RoundEvenSpec RoundEvenProofs RoundEvenF16.
Open Scope Z_scope.

Lemma near_char one x n : 0 < one -> 2 * Z.abs (n * one - x) <= one ->
  (2 * Z.abs (n * one - x) = one -> Z.even n = true) -> nearest_integer_ties_even one x n.
Proof.
  intros H1 H2 H3. split.
  - intros k. destruct (Z.lt_trichotomy k n) as [H|[->|H]]; [|lia|]; nia.
  - intros k Hk E. apply H3. assert (k = n + 1 \/ k = n - 1) as [-> | ->].
    { destruct (Z.lt_trichotomy k n) as [H|[H|H]]; [right|tauto|left]; nia. }
    + lia.
    + lia.
Qed.

(** The unit: 1.0 is 2^149, 2^1074 and 2^24 units. *)
Theorem C14_units : decode binary32 0x3f800000 = FFin false (2 ^ 149)
  /\ decode binary64 0x3ff0000000000000 = FFin false (2 ^ 1074) /\ decode binary16 0x3c00 = FFin false (2 ^ 24).
Proof. vm_compute. auto. Qed.
Print Assumptions C14_units.

Theorem C14_round_to_even_f32 : forall b s m, in_u 32 b -> decode binary32 b = FFin s m ->
  exists n, decode binary32 (round_to_even binary32 b) = FFin s (n * 2 ^ 149)
    /\ nearest_integer_ties_even (2 ^ 149) m n.
Proof.
  intros b s m Hb Hd.
  destruct (round_to_even_l binary32 ltac:(cbn; lia) ltac:(cbn; lia) ltac:(cbn; lia) b s m Hb Hd) as (n & D & H0 & H1 & H2).
  change (one_exp binary32) with 149 in *. exists n. split; [exact D|]. apply near_char; try assumption. reflexivity.
Qed.
Print Assumptions C14_round_to_even_f32.

Theorem C14_round_to_even_f64 : forall b s m, in_u 64 b -> decode binary64 b = FFin s m ->
  exists n, decode binary64 (round_to_even binary64 b) = FFin s (n * 2 ^ 1074)
    /\ nearest_integer_ties_even (2 ^ 1074) m n.
Proof.
  intros b s m Hb Hd.
  destruct (round_to_even_l binary64 ltac:(cbn; lia) ltac:(cbn; lia) ltac:(cbn; lia) b s m Hb Hd) as (n & D & H0 & H1 & H2).
  change (one_exp binary64) with 1074 in *. exists n. split; [exact D|]. apply near_char; try assumption. reflexivity.
Qed.
Print Assumptions C14_round_to_even_f64.

(** The f16 version goes through f32 and back. *)
Theorem C14_round_to_even_f16 : forall a s h, in_u 16 a -> decode binary16 a = FFin s h ->
  exists r n, round_to_even_f16 a = Some r /\ decode binary16 r = FFin s (n * 2 ^ 24)
    /\ nearest_integer_ties_even (2 ^ 24) h n.
Proof.
  intros a s h Ha Hd. destruct (round_to_even_f16_l a s h Ha Hd) as (r & n & E & D & H0 & H1 & H2).
  exists r, n. split; [exact E|]. split; [exact D|]. apply near_char; try assumption. reflexivity.
Qed.
Print Assumptions C14_round_to_even_f16.

(** Infinities and NaNs are returned unchanged (bit for bit in f32 and f64). *)
Theorem C14_special : forall f b, (forall s m, decode f b <> FFin s m) -> round_to_even f b = b.
Proof. exact round_to_even_special_bits. Qed.
Print Assumptions C14_special.

Theorem C14_special_f16 : forall a, in_u 16 a -> (forall s m, decode binary16 a <> FFin s m) ->
  exists r, round_to_even_f16 a = Some r /\ decode binary16 r = decode binary16 a.
Proof.
  intros a Ha H. destruct (u16_to_f32_exact_l a Ha) as (u & Eu & Hu & Du).
  unfold round_to_even_f16. rewrite Eu. rewrite round_to_even_special_bits.
  - exists (f32_to_u16 u). split; [reflexivity|].
    destruct (round_trip_l a Ha) as (u' & Eu' & R1 & R2). rewrite Eu in Eu'. injection Eu' as <-.
    destruct (decode binary16 a) as [|s1|s1 m1] eqn:E.
    + apply R2. reflexivity.
    + rewrite R1 by discriminate. exact E.
    + exfalso. apply (H s1 m1). reflexivity.
  - intros s m E. rewrite Du in E. destruct (decode binary16 a) as [|s1|s1 m1]; try discriminate. apply (H s1 m1). reflexivity.
Qed.
Print Assumptions C14_special_f16.

(** 2.5 rounds to 2.0, -1.5 to -2.0, -2^-30 (where a difference is inexact) to -0. *)
Example C14_ex : round_to_even binary32 0x40200000 = 0x40000000 /\ round_to_even binary32 0xbfc00000 = 0xc0000000
  /\ round_to_even binary32 0xb0800000 = 0x80000000 /\ round_to_even_f16 0x4100 = Some 0x4000.
Proof. vm_compute. auto. Qed.
Example C14_ex_special : round_to_even binary32 0x7f800000 = 0x7f800000 /\ (forall s m, decode binary32 0x7f800000 <> FFin s m).
Proof. split; [vm_compute; reflexivity|]. intros s m. vm_compute. discriminate. Qed.

(** C51: truncation rounds the magnitude down and keeps the sign, also of zero. *)
Theorem C51_trunc_f32 : forall b s m, in_u 32 b -> decode binary32 b = FFin s m ->
  decode binary32 (ftrunc binary32 b) = FFin s (m / 2 ^ 149 * 2 ^ 149).
Proof.
  intros b s m Hb Hd. change 149 with (one_exp binary32). apply ftrunc_l; try assumption; cbn; lia.
Qed.
Print Assumptions C51_trunc_f32.
Theorem C51_trunc_f64 : forall b s m, in_u 64 b -> decode binary64 b = FFin s m ->
  decode binary64 (ftrunc binary64 b) = FFin s (m / 2 ^ 1074 * 2 ^ 1074).
Proof.
  intros b s m Hb Hd. change 1074 with (one_exp binary64). apply ftrunc_l; try assumption; cbn; lia.
Qed.
Print Assumptions C51_trunc_f64.
Theorem C51_trunc_special : forall f b, (forall s m, decode f b <> FFin s m) -> ftrunc f b = b.
Proof.
  intros f b H. unfold ftrunc, ffloor, fceil. destruct (decode f b) as [|s|s m]; [| |exfalso; apply (H s m); reflexivity];
  destruct (fle _ _); reflexivity.
Qed.
Print Assumptions C51_trunc_special.
Example C51_ex : ftrunc binary32 0xc0300000 = 0xc0000000 /\ ftrunc binary32 0xbf000000 = 0x80000000.
Proof. vm_compute. auto. Qed.
