(** Rounding twice, continued: the double rounding lemma, and why it applies
    to sums, products, quotients and square roots of narrow numbers. *)
Require Import ZArith Bool Lia ZifyBool List.
Require Import Verif.FloatSpec Verif.RoundEven Verif.X86Cvt Verif.X86CvtSpec Verif.FloatProofs Verif.X86CvtProofs2 Verif.X86CvtProofs4.
Require Import Verif.CInt Verif.FloatArith Verif.FloatArithSpec Verif.FloatArithProofs Verif.FloatArithProofs2 Verif.FloatArithProofs3.
Local Open Scope Z_scope.

(** [M 2^j] is, in units of [g], the middle of the numbers [p0] and [p0 + 1] of [f] *)
Definition middle (f g : fmt) (p0 M j : Z) : Prop :=
  0 <= p0 < inf_bits f /\ 2 ^ (mbits f + 1) <= M < 2 ^ (mbits f + 2) /\ extra f g <= j /\
  (vmag f p0 + vmag f (p0 + 1)) * 2 ^ ratio f g = 2 * (M * 2 ^ j) /\ 2 * 2 ^ j <= (vmag f (p0 + 1) - vmag f p0) * 2 ^ ratio f g.
(** the real compared by [c] is within half a unit in the last place of it *)
Definition near (f g : fmt) (c : Z -> comparison) (M j : Z) : Prop :=
  c (2 * (M * 2 ^ j) + 2 ^ (j - extra f g + 1)) <> Gt /\ c (2 * (M * 2 ^ j) - 2 ^ (j - extra f g + 1)) <> Lt.

Lemma middle_exists f g p : wider f g -> 0 <= p < inf_bits f -> exists M j, middle f g p M j.
Proof. intros W Hp. destruct (middle_digits f g p W Hp) as (M & j & H). exists M, j. split; [exact Hp|exact H]. Qed.

Lemma wide_middle' f g p M j : wider f g -> middle f g p M j ->
  exists u, 0 < u < inf_bits g /\ vmag g u = M * 2 ^ j /\ vmag g (u + 1) = M * 2 ^ j + 2 ^ (j - extra f g + 1) /\ M * 2 ^ j - 2 ^ (j - extra f g + 1) <= vmag g (u - 1).
Proof.
  intros W (Hp & HM & Hj & E & _). destruct (wider_sizes f g W) as (Gf & Gg & X & K & BB & M1). apply wide_middle; try assumption.
  pose proof (vmag_strict f M1 p (p + 1) ltac:(lia) ltac:(lia)). pose proof (vmag_mono f M1 (p + 1) (inf_bits f) ltac:(lia) ltac:(lia)) as L. rewrite vmag_inf in L by assumption.
  pose proof (pow2_pos (ratio f g) ltac:(destruct (good_sizes g Gg); lia)). nia.
Qed.

Lemma middle_near f g c y p M j : wider f g -> comparing c -> rounds_at g c y -> middle f g p M j -> vmag g y = M * 2 ^ j -> near f g c M j.
Proof.
  intros W C (Hy & R) Mi E. destruct (wide_middle' f g p M j W Mi) as (u & Hu & Eu & Eup & Edn). destruct (wider_sizes f g W) as (Gf & Gg & X & K & BB & M1).
  destruct (good_sizes g Gg) as (Mg & _). assert (y = u) as -> by (apply (vmag_inj g Mg); [lia|lia|congruence]).
  destruct (R (u + 1) ltac:(lia)) as (A & _). destruct (R (u - 1) ltac:(lia)) as (_ & B). specialize (A ltac:(lia)). specialize (B ltac:(lia)).
  destruct Mi as (_ & HM & Hj & _). pose proof (pow2_pos (mbits f + 1) ltac:(lia)). pose proof (pow2_pos j ltac:(lia)).
  assert (E2 : 2 ^ j = 2 ^ (extra f g - 1) * 2 ^ (j - extra f g + 1)) by (rewrite <- Z.pow_add_r by lia; f_equal; lia).
  pose proof (pow2_pos (extra f g - 1) ltac:(lia)). pose proof (pow2_pos (j - extra f g + 1) ltac:(lia)). split.
  - rewrite Eu, Eup in A. replace (2 * (M * 2 ^ j) + 2 ^ (j - extra f g + 1)) with (M * 2 ^ j + (M * 2 ^ j + 2 ^ (j - extra f g + 1))) by ring. destruct A as [A|(A & _)]; rewrite A; discriminate.
  - rewrite Eu in B. intros L. assert (c (M * 2 ^ j + vmag g (u - 1)) = Lt).
    { apply (comparing_le c (2 * (M * 2 ^ j) - 2 ^ (j - extra f g + 1))); [exact C| |exact L]. split; [nia|lia]. }
    destruct B as [B|(B & _)]; congruence.
Qed.

Lemma double_rounding f g c y p : wider f g -> comparing c -> rounds_at g c y -> rounds_at f (twice_ratio (vmag g y) (2 ^ ratio f g)) p ->
  (forall p0 M j, middle f g p0 M j -> vmag g y = M * 2 ^ j -> near f g c M j -> c (2 * (M * 2 ^ j)) = Eq) ->
  rounds_at f (fun n => c (n * 2 ^ ratio f g)) p.
Proof.
  intros W C Ry (Hp & Rp) H. destruct (wider_sizes f g W) as (Gf & Gg & X & K & BB & M1). destruct (good_sizes g Gg) as (Mg & _).
  set (k := ratio f g) in *. pose proof (pow2_pos k ltac:(lia)) as Pk.
  assert (V0 : forall q, 0 <= q -> 0 <= vmag f q) by (intros; apply vmag_nonneg; lia).
  assert (V1 : forall q, 0 <= q -> 0 <= vmag g q) by (intros; apply vmag_nonneg; lia).
  split; [exact Hp|]. intros q Hq. split; intros O.
  - destruct (middle_exists f g p W ltac:(lia)) as (M & j & Mi). destruct (wide_middle' f g p M j W Mi) as (u & Hu & Eu & _).
    pose proof Mi as (_ & _ & _ & Em & _). fold k in Em.
    destruct (Rp (p + 1) ltac:(lia)) as (A & _). specialize (A ltac:(lia)). unfold twice_ratio in A. rewrite Z.compare_lt_iff, Z.compare_eq_iff, Em in A.
    assert (Le : (vmag f p + vmag f (p + 1)) * 2 ^ k <= (vmag f p + vmag f q) * 2 ^ k) by (pose proof (vmag_mono f M1 (p + 1) q ltac:(lia) ltac:(lia)); nia).
    pose proof (V0 p ltac:(lia)). pose proof (V0 (p + 1) ltac:(lia)). pose proof (V0 q ltac:(lia)).
    destruct A as [A|(A & Ev)].
    + left. destruct Ry as (Hy & Ry). destruct (Ry u ltac:(lia)) as (B & _). assert (y < u) by (apply (mono_lt g); [exact Gg|lia|lia|lia]). specialize (B ltac:(lia)).
      apply (C (vmag g y + vmag g u)); [|destruct B as [B|(B & _)]; rewrite B; discriminate]. pose proof (V1 y ltac:(lia)). pose proof (V1 u ltac:(lia)). lia.
    + assert (Ey : vmag g y = M * 2 ^ j) by lia. specialize (H p M j Mi Ey (middle_near f g c y p M j W C Ry Mi Ey)).
      destruct (Z.eq_dec q (p + 1)) as [->|N]; [right; split; [rewrite Em; exact H|exact Ev]|left].
      apply (C (2 * (M * 2 ^ j))); [|rewrite H; discriminate]. pose proof (vmag_strict f M1 (p + 1) q ltac:(lia) ltac:(lia)). nia.
  - destruct (middle_exists f g (p - 1) W ltac:(lia)) as (M & j & Mi). destruct (wide_middle' f g (p - 1) M j W Mi) as (u & Hu & Eu & _).
    pose proof Mi as (_ & _ & _ & Em & _). fold k in Em. replace (p - 1 + 1) with p in Em by lia.
    destruct (Rp (p - 1) ltac:(lia)) as (_ & A). specialize (A ltac:(lia)). unfold twice_ratio in A. rewrite Z.compare_gt_iff, Z.compare_eq_iff, (Z.add_comm (vmag f p)), Em in A.
    assert (Le : (vmag f p + vmag f q) * 2 ^ k <= (vmag f (p - 1) + vmag f p) * 2 ^ k) by (pose proof (vmag_mono f M1 q (p - 1) ltac:(lia) ltac:(lia)); nia).
    pose proof (V0 p ltac:(lia)). pose proof (V0 (p - 1) ltac:(lia)). pose proof (V0 q ltac:(lia)). assert (0 <= (vmag f p + vmag f q) * 2 ^ k) by nia.
    destruct A as [A|(A & Ev)].
    + left. destruct Ry as (Hy & Ry). destruct (Ry u ltac:(lia)) as (_ & B). assert (u < y) by (apply (mono_lt g); [exact Gg|lia|lia|lia]). specialize (B ltac:(lia)).
      apply (comparing_gt c _ (vmag g y + vmag g u) C); [|destruct B as [B|(B & _)]; rewrite B; discriminate]. pose proof (V1 y ltac:(lia)). pose proof (V1 u ltac:(lia)). lia.
    + assert (Ey : vmag g y = M * 2 ^ j) by lia. specialize (H (p - 1) M j Mi Ey (middle_near f g c y (p - 1) M j W C Ry Mi Ey)).
      destruct (Z.eq_dec q (p - 1)) as [->|N]; [right; split; [rewrite (Z.add_comm (vmag f p)), Em; exact H|exact Ev]|left].
      apply (comparing_gt c _ (2 * (M * 2 ^ j)) C); [|rewrite H; discriminate]. pose proof (vmag_strict f M1 q (p - 1) ltac:(lia) ltac:(lia)). split; [assumption|]. nia.
Qed.

(** ** what is near the middle is the middle *)
Lemma near_ratio f g num den M j : 0 < den -> near f g (twice_ratio num den) M j ->
  2 * num <= (2 * (M * 2 ^ j) + 2 ^ (j - extra f g + 1)) * den /\ (2 * (M * 2 ^ j) - 2 ^ (j - extra f g + 1)) * den <= 2 * num.
Proof. intros D (A & B). unfold twice_ratio in A, B. split; [exact A|]. apply Z.compare_ge_iff. exact B. Qed.
Lemma pow_split a b : 0 <= b <= a -> 2 ^ a = 2 ^ (a - b) * 2 ^ b.
Proof. intros. rewrite <- Z.pow_add_r by lia. f_equal. lia. Qed.
(** a multiple of [h] smaller than [h] is zero *)
Lemma small_multiple h x : 0 < h -> Z.abs (x * h) < h -> x = 0.
Proof. nia. Qed.
