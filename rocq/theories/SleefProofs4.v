(** Signs and sizes of rounded numbers, and the logarithms' scaling of small arguments. *)
Require Import ZArith List Bool Lia.
Require Import Verif.FloatSpec Verif.FloatProofs Verif.FloatArith Verif.FloatArithSpec Verif.RoundEven Verif.X86Cvt Verif.X86CvtSpec Verif.X86CvtProofs2 Verif.X86CvtProofs4
  Verif.SleefBase Verif.Sleef Verif.SleefSpec Verif.SleefProofs Verif.SleefProofs2.
Local Open Scope Z_scope.

Lemma g32 : good_fmt binary32.
Proof. unfold good_fmt; auto. Qed.
Lemma m32 : 0 <= mbits binary32.
Proof. discriminate. Qed.

(** the number a rounded magnitude stands for *)
Definition of_mag (s : bool) (p : Z) : fval := if p =? inf_bits binary32 then FInf s else FFin s (vmag binary32 p).

Lemma val_mag s p : 0 <= p <= inf_bits binary32 -> val (sign_bit binary32 s + p) = of_mag s p.
Proof.
  intros P. unfold of_mag. destruct (Z.eqb_spec p (inf_bits binary32)) as [-> | N].
  - apply decode_inf, g32.
  - apply encode_pattern; [apply g32 | lia].
Qed.

Lemma round_nonneg x d : 0 <= d -> 0 <= x -> 0 <= round_mag binary32 x d.
Proof.
  intros D X. unfold round_mag. pose proof (rne_nonneg x (Z.max d (Z.log2 x - mbits binary32)) X).
  assert (0 < 2 ^ mbits binary32) by reflexivity. nia.
Qed.

Lemma val_encode s x d : 0 <= d -> 0 <= x -> val (encode binary32 s x d) = of_mag s (Z.min (round_mag binary32 x d) (inf_bits binary32)).
Proof.
  intros D X. apply val_mag. pose proof (round_nonneg x d D X). assert (0 <= inf_bits binary32) by discriminate. lia.
Qed.

Lemma round_ge p x d : 0 <= d -> 0 <= p -> vmag binary32 p * 2 ^ d <= x -> p <= round_mag binary32 x d.
Proof.
  intros D P H. rewrite <- (round_mag_exact binary32 m32 p d D P) at 1. apply round_mag_mono; try assumption; [exact m32 |].
  pose proof (vmag_nonneg binary32 p m32 P). assert (0 <= 2 ^ d) by (apply Z.pow_nonneg; lia). nia.
Qed.
Lemma round_le p x d : 0 <= d -> 0 <= p -> 0 <= x -> x <= vmag binary32 p * 2 ^ d -> round_mag binary32 x d <= p.
Proof.
  intros D P X H. rewrite <- (round_mag_exact binary32 m32 p d D P) at 1. apply round_mag_mono; try assumption. exact m32.
Qed.

(** a magnitude of at least one unit does not round to zero *)
Lemma encode_nonzero s x d : 0 <= d -> 2 ^ d <= x ->
  val (encode binary32 s x d) = FInf s \/ exists m, val (encode binary32 s x d) = FFin s m /\ 0 < m.
Proof.
  intros D X. assert (0 < 2 ^ d) by (apply Z.pow_pos_nonneg; lia). rewrite val_encode by lia.
  assert (1 <= round_mag binary32 x d) as R by (apply round_ge; [lia | lia | change (vmag binary32 1) with 1; lia]).
  unfold of_mag. destruct (Z.eqb_spec (Z.min (round_mag binary32 x d) (inf_bits binary32)) (inf_bits binary32)); [left; reflexivity | right].
  eexists. split; [reflexivity |]. change 0 with (vmag binary32 0). apply vmag_strict; [exact m32 | lia |].
  assert (1 <= inf_bits binary32) by discriminate. lia.
Qed.

(** multiplying by 2^64 keeps the sign and does not reach zero *)
Definition times64 (x : Z) : Z := mulf x (mulf (fint (Z.shiftl 1 32)) (fint (Z.shiftl 1 32))).

Lemma times64_eq x s m : val x = FFin s m -> times64 x = encode binary32 s (m * 2 ^ 213) 149.
Proof.
  intros V. unfold times64, mulf at 1, fmul. fold (val x). rewrite V.
  replace (decode binary32 (mulf (fint (Z.shiftl 1 32)) (fint (Z.shiftl 1 32)))) with (FFin false (2 ^ 213)) by (vm_compute; reflexivity).
  rewrite xorb_false_r. reflexivity.
Qed.
Lemma times64_fin x s m : val x = FFin s m -> 0 < m -> val (times64 x) = FInf s \/ exists m', val (times64 x) = FFin s m' /\ 0 < m'.
Proof.
  intros V M. rewrite (times64_eq x s m V). apply encode_nonzero; [discriminate |].
  assert (0 < 2 ^ 149 < 2 ^ 213) by (split; reflexivity). nia.
Qed.
Lemma times64_0 x s : val x = FFin s 0 -> val (times64 x) = FFin s 0.
Proof.
  intros V. unfold times64, mulf at 1, fmul. fold (val x). rewrite V.
  replace (decode binary32 (mulf (fint (Z.shiftl 1 32)) (fint (Z.shiftl 1 32)))) with (FFin false (2 ^ 213)) by (vm_compute; reflexivity).
  destruct s; reflexivity.
Qed.
Lemma times64_inf x s : val x = FInf s -> val (times64 x) = FInf s.
Proof.
  intros V. unfold times64, mulf at 1, fmul. fold (val x). rewrite V.
  replace (decode binary32 (mulf (fint (Z.shiftl 1 32)) (fint (Z.shiftl 1 32)))) with (FFin false (2 ^ 213)) by (vm_compute; reflexivity).
  destruct s; reflexivity.
Qed.

(** the end of every logarithm *)
Definition log_tail (d r : Z) : Z :=
  let d := if ltf d FLT_MIN then times64 d else d in
  let r := if xisinff d then SLEEF_INFINITYf else r in
  let r := if ltf d I_0 || xisnanf d then SLEEF_NANf else r in
  let r := if eqf d I_0 then negf SLEEF_INFINITYf else r in
  r.

Lemma log_nan d r : nan d -> nan (log_tail d r).
Proof.
  intros N. unfold log_tail. cbv zeta. rewrite (ltf_nanl d) by assumption. rewrite isnan_iff, isinf_iff. rewrite (eqf_nanl d) by assumption.
  unfold nan in N. rewrite N. rewrite orb_true_r. reflexivity.
Qed.
Lemma val_I0 : val I_0 = FFin false 0.
Proof. reflexivity. Qed.
Lemma val_FLT : val FLT_MIN = FFin false (2 ^ 23).
Proof. reflexivity. Qed.

Lemma log_neg d r : below 0 d -> nan (log_tail d r).
Proof.
  intros B. unfold below in B. unfold log_tail.
  assert (ltf d FLT_MIN = true) as L.
  { rewrite ltf_val, val_FLT. apply (flt_trans _ (whole 0)); [exact B | reflexivity]. }
  rewrite L. cbv zeta. rewrite eqf_val, ltf_val, isnan_iff, isinf_iff, val_I0.
  assert (val (times64 d) = FInf true \/ exists m, val (times64 d) = FFin true m /\ 0 < m) as [-> | (m & -> & M)].
  - destruct (val d) as [| [] | s m] eqn:E; try discriminate; [left; exact (times64_inf d true E) |].
    pose proof (val_nonneg _ _ _ E). unfold whole in B. cbn [flt fle] in B. apply negb_true_iff, Z.leb_gt in B. cbn [Z.ltb Z.compare Z.abs Z.mul sval] in B.
    destruct s; cbn [sval] in B; [| lia]. apply (times64_fin d true m E). lia.
  - reflexivity.
  - destruct m as [| m | m]; [lia | reflexivity | lia].
Qed.
Lemma log_zero d r : a_zero d -> minus_infinity (log_tail d r).
Proof.
  intros (s & Z0). unfold log_tail.
  assert (ltf d FLT_MIN = true) as -> by (rewrite ltf_val, val_FLT, Z0; destruct s; reflexivity).
  cbv zeta. rewrite (eqf_val (times64 d)), (times64_0 d s Z0). destruct s; reflexivity.
Qed.
Lemma log_inf d r : plus_infinity d -> plus_infinity (log_tail d r).
Proof.
  intros I. unfold log_tail. assert (ltf d FLT_MIN = false) as -> by (rewrite ltf_val, I; reflexivity).
  cbv zeta. rewrite eqf_val, ltf_val, isnan_iff, isinf_iff, I. reflexivity.
Qed.

(** comparisons of doubles made from singles *)
Lemma widen_lt u v : flt (widen64 u) (widen64 v) = flt u v.
Proof.
  destruct u as [| [] | s m], v as [| [] | s' m']; try reflexivity. cbn [widen64 flt fle].
  assert (forall t n, sval t (n * 2 ^ 925) = sval t n * 2 ^ 925) as S by (intros [] n; cbn [sval]; ring).
  rewrite !S. f_equal. apply eq_iff_eq_true. rewrite !Z.leb_le. assert (0 < 2 ^ 925) by reflexivity. nia.
Qed.
(** [ltd c (f2d x)] for a double c that is the single c' *)
Lemma ltd_single c c' x : decode binary64 c = widen64 (val c') -> ltd c (f2d x) = ltf c' x.
Proof.
  intros C. unfold ltd, f2d. destruct (double_of_single_ok x) as [D _]. rewrite D, C. apply widen_lt.
Qed.
Lemma ltd_nan c x : nan x -> ltd c (f2d x) = false.
Proof.
  intros N. unfold ltd, f2d. destruct (double_of_single_ok x) as [D _]. rewrite D. unfold nan, val in N. rewrite N. destruct (decode binary64 c) as [| [] |]; reflexivity.
Qed.
