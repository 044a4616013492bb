(** C136: fmod and remainder.  Scalar single precision functions nsimd_sleef_fmod_scalar_f32 and
    nsimd_sleef_remainder_scalar_f32 (src/sleefsp.c:2016-2069).  A magnitude counts units of 2^-149, so for finite
    arguments of magnitudes m and n the number x - trunc (x / y) y has magnitude [m mod n] and the sign of x. *)
Require Import ZArith Bool Lia.
Require Import Verif.FloatSpec Verif.FloatArith Verif.SleefBase Verif.Sleef Verif.SleefSpec Verif.SleefRem Verif.SleefProofs Verif.SleefProofs2 Verif.SleefProofs10 Verif.SleefProofs14 Verif.SleefProofs15 Verif.SleefProofs16.
Local Open Scope Z_scope.

(** fmod is exact, with the sign of the first argument even when the result is zero, when the quotient is below 4096 *)
Theorem C136_fmod_exact U x y s m t n : pattern x -> pattern y -> val x = FFin s m -> val y = FFin t n -> n <> 0 -> m < 4096 * n ->
  val (xfmodf U x y) = FFin s (m mod n).
Proof. intros P Q V W N B. pose proof (val_nonneg _ _ _ W). apply (fmod_ok U x y s m t n P Q V W); lia. Qed.
Print Assumptions C136_fmod_exact.
(** -7.5 and 2: the result is -1.5 *)
Example C136_fmod_exact_nontrivial : pattern 3236954112 /\ pattern 1073741824 /\ is (dyadic (-15) 1) 3236954112 /\ is (whole 2) 1073741824 /\ is (dyadic (-3) 1) (xfmodf (fun _ => 0) 3236954112 1073741824) /\
  15 * 2 ^ 148 < 4096 * (2 * 2 ^ 149) /\ (15 * 2 ^ 148) mod (2 * 2 ^ 149) = 3 * 2 ^ 148.
Proof. unfold pattern. repeat split; vm_compute; (reflexivity || congruence). Qed.
(** an odd multiple of the smallest subnormal and a subnormal *)
Example C136_fmod_exact_subnormal : val (xfmodf (fun _ => 0) 10007 10) = FFin false 7.
Proof. vm_compute. reflexivity. Qed.

(** remainder is exact when the quotient rounds to 0, and up to 5/4 when it rounds to 1; x and y of either sign *)
Theorem C136_remainder_exact U x y s m t n : pattern x -> pattern y -> val x = FFin s m -> val y = FFin t n -> n <> 0 ->
  (2 * m <= n -> val (xremainderf U x y) = FFin s m) /\
  (n < 2 * m -> 4 * m <= 5 * n -> val (xremainderf U x y) = FFin (if m <? n then negb s else s) (Z.abs (m - n))).
Proof.
  intros P Q V W N. pose proof (val_nonneg _ _ _ W). pose proof (val_nonneg _ _ _ V). split.
  - intros H1. pose proof (rem_ok U x y s m t n m P Q V W ltac:(lia) (or_introl (conj H1 eq_refl))) as S. unfold shows in S. rewrite S. destruct s; cbn [sval].
    + destruct (Z.eqb_spec (- m) 0) as [E | E]; [f_equal; lia |]. destruct (Z.ltb_spec (- m) 0); [f_equal; lia | lia].
    + destruct (Z.eqb_spec m 0) as [E | E]; [f_equal; lia |]. destruct (Z.ltb_spec m 0); [lia | f_equal; lia].
  - intros H1 H2. pose proof (rem_ok U x y s m t n (m - n) P Q V W ltac:(lia) (or_intror (conj H1 (conj H2 eq_refl)))) as S. unfold shows in S. rewrite S. destruct s; cbn [sval negb].
    + rewrite Z.abs_opp. destruct (Z.eqb_spec (- (m - n)) 0) as [E | E]; [destruct (Z.ltb_spec m n); [lia | reflexivity] |]. destruct (Z.ltb_spec (- (m - n)) 0), (Z.ltb_spec m n); (reflexivity || lia).
    + destruct (Z.eqb_spec (m - n) 0) as [E | E]; [destruct (Z.ltb_spec m n); [lia | reflexivity] |]. destruct (Z.ltb_spec (m - n) 0), (Z.ltb_spec m n); (reflexivity || lia).
Qed.
Print Assumptions C136_remainder_exact.
(** 1.5 and 2: the result is -0.5; 1 and 2, a tie, gives 1 *)
Example C136_remainder_exact_nontrivial : is (dyadic (-1) 1) (xremainderf (fun _ => 0) 1069547520 1073741824) /\ is (whole 1) (xremainderf (fun _ => 0) 1065353216 1073741824) /\
  is (dyadic 3 1) 1069547520 /\ is (whole 2) 1073741824 /\ 2 * 2 ^ 149 < 2 * (3 * 2 ^ 148) /\ 4 * (3 * 2 ^ 148) <= 5 * (2 * 2 ^ 149).
Proof. repeat split; vm_compute; (reflexivity || congruence). Qed.

(** the cases of the C standard (F.10.7): a NaN argument, an infinite x and a zero y give a NaN, an infinite y gives x *)
Theorem C136_special U x y : pattern x -> pattern y ->
  (nan x \/ an_infinity x \/ nan y \/ a_zero y -> nan (xfmodf U x y) /\ nan (xremainderf U x y)) /\
  (finite x -> an_infinity y -> xfmodf U x y = x /\ xremainderf U x y = x).
Proof.
  intros P Q. split.
  - intros H. split; [apply fmod_out; assumption | apply rem_out; assumption].
  - intros F I. split; [apply fmod_inf; assumption | apply rem_inf; assumption].
Qed.
Print Assumptions C136_special.
Example C136_special_nontrivial : an_infinity 2139095040 /\ finite 3236954112 /\ a_zero 2147483648 /\ nan 2143289344.
Proof. split; [exists false; reflexivity |]. split; [do 2 eexists; vm_compute; reflexivity |]. split; [exists true; reflexivity | reflexivity]. Qed.

(** the result changes sign with x and does not depend on the sign of y *)
Theorem C136_signs U x y : pattern x -> pattern y ->
  val (xfmodf U (opposite x) y) = negated (val (xfmodf U x y)) /\ xfmodf U x (opposite y) = xfmodf U x y /\
  val (xremainderf U (opposite x) y) = negated (val (xremainderf U x y)) /\ xremainderf U x (opposite y) = xremainderf U x y.
Proof.
  intros P Q. rewrite !opposite_neg. destruct (fmod_odd U x y P Q) as (A & B). destruct (rem_odd U x y P Q) as (C & D). exact (conj A (conj B (conj C D))).
Qed.
Print Assumptions C136_signs.
Example C136_signs_nontrivial : val (xfmodf (fun _ => 0) (opposite 1088421888) 1073741824) = FFin true (2 ^ 149) /\ val (xfmodf (fun _ => 0) 1088421888 (opposite 1073741824)) = FFin false (2 ^ 149).
Proof. vm_compute. split; reflexivity. Qed.

(** for large quotients the exact result is not given: with x the largest number and y the least normal one both functions give a NaN *)
Theorem C136_large_quotient_refuted : ~ (forall U x y s m t n, pattern x -> pattern y -> val x = FFin s m -> val y = FFin t n -> n <> 0 -> val (xfmodf U x y) = FFin s (m mod n)) /\
  (forall U, nan (xfmodf U 2139095039 8388608) /\ nan (xremainderf U 2139095039 8388608)).
Proof.
  assert (forall U, nan (xfmodf U 2139095039 8388608) /\ nan (xremainderf U 2139095039 8388608)) as H by (intros U; split; vm_compute; reflexivity).
  split; [| exact H]. intros K. destruct (H (fun _ => 0)) as (A & _). unfold nan in A.
  rewrite (K (fun _ => 0) 2139095039 8388608 false ((2 ^ 24 - 1) * 2 ^ 253) false (2 ^ 23)) in A; [discriminate A | split; vm_compute; congruence | split; vm_compute; congruence | vm_compute; reflexivity | vm_compute; reflexivity | discriminate].
Qed.
Print Assumptions C136_large_quotient_refuted.
