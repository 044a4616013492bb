(** Sums, products, quotients and square roots of narrow numbers that come out
    as the middle of two narrow numbers are that middle exactly. *)
Require Import ZArith Bool Lia ZifyBool List.
Require Import Verif.FloatSpec Verif.RoundEven Verif.X86Cvt Verif.X86CvtSpec Verif.FloatProofs Verif.X86CvtProofs2 Verif.X86CvtProofs4.
Require Import Verif.CInt Verif.FloatArith Verif.FloatArithSpec Verif.FloatArithProofs Verif.FloatArithProofs2 Verif.FloatArithProofs3 Verif.FloatArithProofs4.
Local Open Scope Z_scope.

(** powers of two as unknowns: [h] half a unit in the last place of [g] at
    the middle, [X] the ratio of the precisions, [PP] the digits of [f] *)
Lemma middle_powers f g p0 M j : wider f g -> middle f g p0 M j -> exists h X PP,
  h = 2 ^ (j - extra f g) /\ X = 2 ^ extra f g /\ PP = 2 ^ (mbits f + 1) /\
  0 < h /\ 4 * PP <= X /\ 4 <= PP /\ PP <= M < 2 * PP /\ 2 ^ j = X * h /\ 2 ^ (j - extra f g + 1) = 2 * h.
Proof.
  intros W (_ & HM & Hj & _). destruct (wider_sizes f g W) as (Gf & Gg & Xx & K & BB & M1).
  exists (2 ^ (j - extra f g)), (2 ^ extra f g), (2 ^ (mbits f + 1)). split; [reflexivity|]. split; [reflexivity|]. split; [reflexivity|].
  split; [apply pow2_pos; lia|]. split. { change 4 with (2 ^ 2). rewrite <- Z.pow_add_r by lia. apply Z.pow_le_mono_r; lia. }
  split. { change 4 with (2 ^ 2). apply Z.pow_le_mono_r; lia. }
  split. { replace (mbits f + 2) with (1 + (mbits f + 1)) in HM by lia. rewrite (Z.pow_add_r 2 1) in HM by lia. lia. }
  split; [|rewrite Z.pow_add_r by lia; ring]. rewrite (pow_split j (j - extra f g)) by lia. f_equal. f_equal. lia.
Qed.

Lemma multiple_abs u x : 0 < u -> x <> 0 -> u <= Z.abs (x * u).
Proof. intros. rewrite Z.abs_mul, (Z.abs_eq u) by lia. nia. Qed.
Lemma sum_arith h X PP B U : 0 < h -> 4 * PP <= X -> 4 <= PP -> 0 <= B < PP -> 0 < U <= h -> B * U + h < X * h.
Proof. intros. assert (B * U <= (PP - 1) * h) by nia. nia. Qed.
Lemma product_arith h X PP A B U M : 0 < h -> 4 * PP <= X -> 4 <= PP -> 0 <= A < PP -> 0 <= B < PP -> 0 < U <= h -> PP <= M -> M * (X * h) - h <= A * B * U -> False.
Proof.
  intros. assert (A * B <= PP * PP) by nia. assert (A * B * U <= PP * PP * h) by nia. assert (0 <= X * h) by nia. assert (PP * (X * h) <= M * (X * h)) by (apply Z.mul_le_mono_nonneg_r; lia).
  assert (4 * (PP * PP) <= PP * X) by nia. assert (4 * (PP * PP) * h <= PP * X * h) by nia.
  assert (16 <= PP * PP) by nia. assert (16 * h <= PP * PP * h) by nia. lia.
Qed.
Lemma quotient_arith h X PP A B U M : 0 < h -> 4 * PP <= X -> 4 <= PP -> 0 <= A < PP -> 0 < B < PP -> 0 < U -> 2 * U <= X * h -> PP <= M -> (2 * (M * (X * h)) - 2 * h) * B <= 2 * (A * U) -> False.
Proof.
  intros. assert (A * (2 * U) <= PP * (X * h)) by nia. assert (0 <= X * h) by nia. assert (PP * (X * h) <= M * (X * h)) by (apply Z.mul_le_mono_nonneg_r; lia). assert (16 * h <= X * h) by nia.
  assert (0 < 2 * (M * (X * h)) - 2 * h) by nia. assert (2 * (M * (X * h)) - 2 * h <= (2 * (M * (X * h)) - 2 * h) * B) by nia. nia.
Qed.
Lemma root_arith h X PP A U M : 0 < h -> 4 * PP <= X -> 4 <= PP -> 0 <= A < PP -> 0 < U -> 2 * U <= X * h * (X * h) -> PP <= M -> h * h * ((M * X - 1) * (M * X - 1)) <= A * U -> False.
Proof.
  intros Hh HX HP HA HU H2 HM H. assert (A * (2 * U) <= PP * (X * h * (X * h))) by nia. assert (4 * X <= M * X) by nia. assert (16 <= X) by lia.
  assert (PP * X <= M * X) by nia. assert ((PP * X - 1) * (PP * X - 1) <= (M * X - 1) * (M * X - 1)) by (apply Z.mul_le_mono_nonneg; nia).
  assert (PP * (X * X) < 2 * ((PP * X - 1) * (PP * X - 1))) by nia. assert (0 < h * h) by nia.
  assert (h * h * (PP * (X * X)) < h * h * (2 * ((M * X - 1) * (M * X - 1)))) by nia.
  replace (PP * (X * h * (X * h))) with (h * h * (PP * (X * X))) in * by ring. lia.
Qed.
Lemma square_arith h X PP M a : 0 < h -> 4 * PP <= X -> 4 <= PP -> PP <= M < 2 * PP ->
  a <= h * h * ((M * X + 1) * (M * X + 1)) -> h * h * ((M * X - 1) * (M * X - 1)) <= a -> Z.abs (a - h * h * (M * X * (M * X))) < X * h * (X * h).
Proof.
  intros. assert (2 * (M * X) + 1 < X * X) by nia. assert (0 < h * h) by nia. replace (X * h * (X * h)) with (h * h * (X * X)) by ring.
  assert (h * h * (2 * (M * X) + 1) < h * h * (X * X)) by nia. apply Z.abs_lt. split; nia.
Qed.
Lemma small_arith X h PP a M U : 0 < h -> 4 * PP <= X -> 4 <= PP -> U = X * h -> 2 * (a * U) <= 2 * (M * U) + 2 * h -> 2 * (M * U) - 2 * h <= 2 * (a * U) -> a = M.
Proof. intros. assert (a - M = 0); [|lia]. apply (small_multiple U); [nia|]. replace ((a - M) * U) with (a * U - M * U) by ring. assert (h < U) by nia. lia. Qed.
Lemma small_arith2 X h PP a M B U : 0 < h -> 4 * PP <= X -> 4 <= PP -> 0 < B < PP -> U = X * h -> 2 * (a * U) <= (2 * (M * U) + 2 * h) * B -> (2 * (M * U) - 2 * h) * B <= 2 * (a * U) -> a = M * B.
Proof. intros. assert (a - M * B = 0); [|lia]. apply (small_multiple U); [nia|]. replace ((a - M * B) * U) with (a * U - M * U * B) by ring. assert (h * B < U) by nia. lia. Qed.

Lemma sum_middle f g p0 M j n pa B i : wider f g -> middle f g p0 M j -> near f g (twice_ratio (n * 2 ^ ratio f g) 1) M j -> 0 <= i ->
  0 <= pa -> (exists A, vmag f pa = A * 2 ^ i) -> 0 <= B < 2 ^ (mbits f + 1) -> (exists N, n = N * 2 ^ i) ->
  Z.abs (n - vmag f pa) <= B * 2 ^ i -> n * 2 ^ ratio f g = M * 2 ^ j.
Proof.
  intros W Mi Ne Hi Hpa (A & EA) HB (N & EN) Hd. destruct (middle_powers f g p0 M j W Mi) as (h & X & PP & Eh & EX & EP & Ph & H4 & HP & HM & Ej & E2).
  destruct (wider_sizes f g W) as (Gf & Gg & Xx & K & BB & M1). destruct Mi as (Hp0 & _ & Hj & Em & Gap). set (k := ratio f g) in *.
  destruct (near_ratio f g _ _ M j Z.lt_0_1 Ne) as (U1 & U2). rewrite E2 in U1, U2. rewrite <- EP in HB.
  pose proof (pow2_pos k ltac:(destruct (good_sizes g Gg); lia)) as Pk.
  assert (Far : 2 ^ j <= Z.abs (vmag f pa * 2 ^ k - M * 2 ^ j)).
  { destruct (Z_le_gt_dec pa p0) as [L|L].
    - pose proof (vmag_mono f M1 pa p0 Hpa L). nia.
    - pose proof (vmag_mono f M1 (p0 + 1) pa ltac:(lia) ltac:(lia)). nia. }
  assert (Ei : 2 ^ (k + i) = 2 ^ i * 2 ^ k) by (rewrite <- Z.pow_add_r by (destruct (good_sizes g Gg); lia); f_equal; lia).
  pose proof (pow2_pos i Hi) as Pi.
  destruct (Z_le_gt_dec j (k + i)) as [L|L].
  - pose proof (pow_split (k + i) j ltac:(destruct (good_sizes g Gg); lia)) as S. set (q := 2 ^ (k + i - j)) in *.
    assert (n * 2 ^ k = N * q * 2 ^ j) as En by (rewrite EN, <- Z.mul_assoc, <- Ei, S; ring).
    rewrite En. f_equal. apply (small_arith X h PP _ M (2 ^ j)); try assumption; lia.
  - pose proof (pow_split j (k + i) ltac:(destruct (good_sizes g Gg); lia)) as S. set (q := 2 ^ (j - (k + i))) in *.
    set (U := 2 ^ (k + i)) in *. assert (0 < U) by (apply pow2_pos; destruct (good_sizes g Gg); lia).
    assert (En : n * 2 ^ k = N * U) by (rewrite EN, Ei; ring).
    assert (Eb : Z.abs (n * 2 ^ k - vmag f pa * 2 ^ k) <= B * U).
    { rewrite Ei, Z.mul_assoc, <- Z.mul_sub_distr_r, Z.abs_mul, (Z.abs_eq (2 ^ k)) by lia. apply Z.mul_le_mono_nonneg_r; [lia|exact Hd]. }
    destruct (Z.eq_dec (N - M * q) 0) as [Z0|Z0]; [rewrite En, S; replace N with (M * q) by lia; ring|exfalso].
    pose proof (multiple_abs U _ ltac:(lia) Z0) as D. replace ((N - M * q) * U) with (n * 2 ^ k - M * 2 ^ j) in D by (rewrite En, S; ring).
    assert (U <= h) by lia. pose proof (sum_arith h X PP B U Ph H4 HP HB ltac:(lia)). lia.
Qed.

Lemma product_middle f g p0 M j A B i i' : wider f g -> middle f g p0 M j -> 0 <= i -> 0 <= i' ->
  0 <= A < 2 ^ (mbits f + 1) -> 0 <= B < 2 ^ (mbits f + 1) ->
  near f g (twice_ratio (A * 2 ^ i * 2 ^ ratio f g * (B * 2 ^ i' * 2 ^ ratio f g)) (one g)) M j ->
  A * 2 ^ i * 2 ^ ratio f g * (B * 2 ^ i' * 2 ^ ratio f g) = M * 2 ^ j * one g.
Proof.
  intros W Mi Hi Hi' HA HB Ne. destruct (middle_powers f g p0 M j W Mi) as (h & X & PP & Eh & EX & EP & Ph & H4 & HP & HM & Ej & E2).
  destruct (wider_sizes f g W) as (Gf & Gg & Xx & K & BB & M1). destruct Mi as (Hp0 & _ & Hj & Em & Gap). set (k := ratio f g) in *.
  destruct (near_ratio f g _ _ M j (one_pos g Gg) Ne) as (U1 & U2). rewrite E2 in U1, U2. rewrite <- EP in HA, HB.
  assert (Sk : 0 <= 2 * k - scale g) by (unfold k; destruct W as [[-> ->]|[-> ->]]; vm_compute; discriminate).
  destruct (good_sizes g Gg) as (Mg & _ & Sg & _). set (e := i + i' + (2 * k - scale g)).
  assert (Ev : A * 2 ^ i * 2 ^ k * (B * 2 ^ i' * 2 ^ k) = A * B * 2 ^ e * one g).
  { rewrite <- scale_one. replace (A * B * 2 ^ e * 2 ^ scale g) with (A * B * (2 ^ e * 2 ^ scale g)) by ring. rewrite <- Z.pow_add_r by lia.
    replace (e + scale g) with (i + (i' + (k + k))) by lia. rewrite !Z.pow_add_r by lia. ring. }
  rewrite Ev in *. pose proof (one_pos g Gg). f_equal. rewrite !Z.mul_assoc in U1, U2. apply Z.mul_le_mono_pos_r in U1; [|assumption]. apply Z.mul_le_mono_pos_r in U2; [|assumption]. rename U1 into V1, U2 into V2.
  clear Ev Ne. destruct (Z_le_gt_dec j e) as [L|L].
  - pose proof (pow_split e j ltac:(lia)) as S. set (q := 2 ^ (e - j)) in *. rewrite S in *.
    rewrite Z.mul_assoc in *. f_equal. apply (small_arith X h PP _ M (2 ^ j)); try assumption; lia.
  - pose proof (pow_split j e ltac:(lia)) as S. set (q := 2 ^ (j - e)) in *. pose proof (pow2_pos e ltac:(lia)). set (U := 2 ^ e) in *.
    destruct (Z.eq_dec (A * B - M * q) 0) as [Z0|Z0]; [rewrite S; replace (A * B) with (M * q) by lia; ring|exfalso].
    pose proof (multiple_abs U _ ltac:(lia) Z0) as D. replace ((A * B - M * q) * U) with (A * B * U - M * 2 ^ j) in D by (rewrite S; ring).
    rewrite Ej in V1, V2, D. apply (product_arith h X PP A B U M Ph H4 HP HA HB); lia.
Qed.

Lemma quotient_middle f g p0 M j A B i i' : wider f g -> middle f g p0 M j -> 0 <= i -> 0 <= i' <= scale g ->
  0 <= A < 2 ^ (mbits f + 1) -> 0 < B < 2 ^ (mbits f + 1) ->
  near f g (twice_ratio (A * 2 ^ i * 2 ^ ratio f g * one g) (B * 2 ^ i' * 2 ^ ratio f g)) M j ->
  A * 2 ^ i * 2 ^ ratio f g * one g = M * 2 ^ j * (B * 2 ^ i' * 2 ^ ratio f g).
Proof.
  intros W Mi Hi Hi' HA HB Ne. destruct (middle_powers f g p0 M j W Mi) as (h & X & PP & Eh & EX & EP & Ph & H4 & HP & HM & Ej & E2).
  destruct (wider_sizes f g W) as (Gf & Gg & Xx & K & BB & M1). destruct Mi as (Hp0 & _ & Hj & Em & Gap). set (k := ratio f g) in *.
  destruct (good_sizes g Gg) as (Mg & _ & Sg & _). pose proof (pow2_pos k ltac:(lia)) as Pk. pose proof (pow2_pos i' ltac:(lia)) as Pi'.
  destruct (near_ratio f g _ (B * 2 ^ i' * 2 ^ k) M j ltac:(nia) Ne) as (U1 & U2). rewrite E2 in U1, U2. rewrite <- EP in HA, HB.
  set (e := i + (scale g - i')). set (w := 2 ^ i' * 2 ^ k) in *.
  assert (Ev : A * 2 ^ i * 2 ^ k * one g = A * 2 ^ e * w).
  { rewrite <- scale_one. unfold e, w. rewrite Z.pow_add_r by lia. rewrite (pow_split (scale g) i') by lia. ring. }
  replace (B * 2 ^ i' * 2 ^ k) with (B * w) in * by (unfold w; ring). rewrite Ev in *. assert (0 < w) by (unfold w; nia).
  replace (M * 2 ^ j * (B * w)) with (M * 2 ^ j * B * w) by ring. f_equal.
  rewrite !Z.mul_assoc in U1, U2. apply Z.mul_le_mono_pos_r in U1; [|assumption]. apply Z.mul_le_mono_pos_r in U2; [|assumption]. rename U1 into V1, U2 into V2. rewrite <- !Z.mul_assoc in V1, V2.
  clear Ev Ne. destruct (Z_le_gt_dec j e) as [L|L].
  - pose proof (pow_split e j ltac:(lia)) as S. set (q := 2 ^ (e - j)) in *. rewrite S in *.
    replace (M * 2 ^ j * B) with (M * B * 2 ^ j) by ring. rewrite Z.mul_assoc. f_equal. apply (small_arith2 X h PP _ M B (2 ^ j)); try assumption; lia.
  - exfalso. assert (S : 2 ^ j = 2 * (2 ^ (j - 1 - e) * 2 ^ e)) by (rewrite <- Z.pow_add_r by lia; rewrite <- Z.pow_succ_r by lia; f_equal; lia).
    pose proof (pow2_pos (j - 1 - e) ltac:(lia)). pose proof (pow2_pos e ltac:(lia)). assert (2 * 2 ^ e <= X * h) by (rewrite <- Ej, S; nia).
    rewrite Ej in V2. apply (quotient_arith h X PP A B (2 ^ e) M); try assumption; lia.
Qed.

Lemma root_middle f g p0 M j A i : wider f g -> middle f g p0 M j -> 0 <= i -> 0 <= A < 2 ^ (mbits f + 1) ->
  near f g (twice_root (A * 2 ^ i * 2 ^ ratio f g * one g)) M j -> A * 2 ^ i * 2 ^ ratio f g * one g = M * 2 ^ j * (M * 2 ^ j).
Proof.
  intros W Mi Hi HA (N1 & N2). destruct (middle_powers f g p0 M j W Mi) as (h & X & PP & Eh & EX & EP & Ph & H4 & HP & HM & Ej & E2).
  destruct (wider_sizes f g W) as (Gf & Gg & Xx & K & BB & M1). destruct Mi as (Hp0 & _ & Hj & Em & Gap). set (k := ratio f g) in *.
  destruct (good_sizes g Gg) as (Mg & _ & Sg & _). set (t := i + k + scale g).
  assert (Ev : A * 2 ^ i * 2 ^ k * one g = A * 2 ^ t) by (rewrite <- scale_one; unfold t; rewrite !Z.pow_add_r by lia; ring).
  rewrite Ev in *. unfold twice_root in N1, N2. rewrite E2, Ej in *. rewrite <- EP in HA.
  apply -> Z.compare_le_iff in N1. apply -> Z.compare_ge_iff in N2.
  assert (U1 : A * 2 ^ t <= h * h * ((M * X + 1) * (M * X + 1))) by lia.
  assert (U2 : h * h * ((M * X - 1) * (M * X - 1)) <= A * 2 ^ t) by lia. clear N1 N2.
  assert (Ejj : 2 ^ (2 * j) = X * h * (X * h)) by (rewrite <- Ej, <- Z.pow_add_r by lia; f_equal; lia).
  assert (0 < X * h) by nia. assert (PX : 0 < X * h * (X * h)) by nia.
  destruct (Z_le_gt_dec (2 * j) t) as [L|L].
  - pose proof (pow_split t (2 * j) ltac:(lia)) as S. set (q := 2 ^ (t - 2 * j)) in *. rewrite S, Ejj in *.
    assert (A * q - M * M = 0).
    { apply (small_multiple (X * h * (X * h)) _ PX). replace ((A * q - M * M) * (X * h * (X * h))) with (A * (q * (X * h * (X * h))) - h * h * (M * X * (M * X))) by ring.
      apply (square_arith h X PP M); assumption. }
    replace (A * (q * (X * h * (X * h)))) with (A * q * (X * h * (X * h))) by ring. replace (A * q) with (M * M) by lia. ring.
  - exfalso. assert (S : 2 ^ (2 * j) = 2 * (2 ^ (2 * j - 1 - t) * 2 ^ t)) by (rewrite <- Z.pow_add_r by lia; rewrite <- Z.pow_succ_r by lia; f_equal; lia).
    pose proof (pow2_pos (2 * j - 1 - t) ltac:(lia)). pose proof (pow2_pos t ltac:(lia)). 
    apply (root_arith h X PP A (2 ^ t) M); try assumption; [|lia]. rewrite <- Ejj, S. nia.
Qed.
