(** Exact results on integers and half integers. *)
Require Import ZArith List Bool Lia.
Require Import Verif.FloatSpec Verif.FloatProofs Verif.FloatArith Verif.FloatArithSpec Verif.FloatArithProofs2 Verif.RoundEven Verif.X86Cvt Verif.X86CvtSpec Verif.X86CvtProofs2 Verif.X86CvtProofs4
  Verif.FixedPointConv Verif.SleefBase Verif.Sleef Verif.SleefSpec Verif.SleefProofs Verif.SleefProofs2 Verif.SleefProofs4 Verif.SleefProofs5 Verif.SleefProofs6 Verif.SleefProofs7.
Local Open Scope Z_scope.

(** n * 2^k in units of 2^-149 *)
Lemma scaled_mag n k : 0 < n < 2 ^ 24 -> 23 <= k <= 253 -> exists p, 0 <= p < inf_bits binary32 /\ vmag binary32 p = n * 2 ^ k.
Proof.
  intros N K. assert (0 <= Z.log2 n < 24) as L. { split; [apply Z.log2_nonneg |]. apply Z.log2_lt_pow2; lia. }
  pose proof (Z.log2_spec n ltac:(lia)) as [L1 L2].
  set (l := Z.log2 n) in *.
  assert (2 ^ 23 = 2 ^ l * 2 ^ (23 - l)) as E by (rewrite <- Z.pow_add_r by lia; f_equal; lia).
  assert (2 ^ 24 = 2 ^ (Z.succ l) * 2 ^ (23 - l)) as E2 by (rewrite <- Z.pow_add_r by lia; f_equal; lia).
  assert (0 < 2 ^ (23 - l)) by (apply Z.pow_pos_nonneg; lia).
  exists (n * 2 ^ (23 - l) + (k - 23 + l) * 2 ^ mbits binary32).
  assert (2 ^ 23 <= n * 2 ^ (23 - l) < 2 ^ 24) as R by nia.
  split.
  - change (mbits binary32) with 23. change (inf_bits binary32) with (255 * 2 ^ 23). nia.
  - rewrite vmag_scaled; [| discriminate | lia | left; exact (proj1 R) | change (2 ^ (mbits binary32 + 1)) with (2 ^ 24); lia].
    rewrite <- Z.mul_assoc, <- Z.pow_add_r by lia. f_equal. f_equal. lia.
Qed.
(** the rounding of a number the format has *)
Lemma encode_exact s n k d : 0 <= n < 2 ^ 24 -> 23 <= k <= 253 -> 0 <= d -> val (encode binary32 s (n * 2 ^ k * 2 ^ d) d) = FFin s (n * 2 ^ k).
Proof.
  intros N K D. destruct (Z.eq_dec n 0) as [-> | NZ].
  { rewrite !Z.mul_0_l. rewrite val_encode by lia. assert (round_mag binary32 0 d = 0) as ->.
    { pose proof (round_nonneg 0 d D ltac:(lia)). pose proof (round_le 0 0 d D ltac:(lia) ltac:(lia) ltac:(change (vmag binary32 0) with 0; lia)). lia. } reflexivity. }
  destruct (scaled_mag n k ltac:(lia) K) as (p & P & E). assert (0 < 2 ^ d) by (apply Z.pow_pos_nonneg; lia). assert (0 < 2 ^ k) by (apply Z.pow_pos_nonneg; lia).
  rewrite val_encode by nia. rewrite <- E. rewrite round_mag_exact by (exact m32 || lia). rewrite Z.min_l by lia. unfold of_mag. destruct (Z.eqb_spec p (inf_bits binary32)); [lia |]. reflexivity.
Qed.

(** a number minus itself is +0 *)
Lemma sub_self a b s m : pattern b -> val a = FFin s m -> val b = FFin s m -> subf a b = 0.
Proof.
  intros P A B. unfold subf, fsub. change (fopp binary32 b) with (negf b). unfold fadd. fold (val a). fold (val (negf b)). rewrite val_neg, A, B by assumption. cbn [negated].
  assert (sval s m + sval (negb s) m = 0) as E by (destruct s; cbn [sval negb]; lia). cbv zeta. rewrite E, Z.eqb_refl. destruct s; reflexivity.
Qed.

(** clearing the last bit *)
Lemma land_lnot1 n : Z.land n (Z.lnot 1) = 2 * (n / 2).
Proof.
  change (Z.land n (Z.lnot 1)) with (Z.land n (Z.lnot (Z.ones 1))). rewrite <- Z.ldiff_land, Z.ldiff_ones_r by lia.
  rewrite Z.shiftl_mul_pow2, Z.shiftr_div_pow2 by lia. change (2 ^ 1) with 2. lia.
Qed.
Lemma land_low3 q c : Z.land 7 c = c -> Z.land q c = Z.land (q mod 8) c.
Proof. intros C. change 8 with (2 ^ 3). rewrite <- Z.land_ones by lia. change (Z.ones 3) with 7. rewrite <- Z.land_assoc, C. reflexivity. Qed.
