(** C129: the logarithms. *)
Require Import ZArith List Bool Lia.
Require Import Verif.FloatSpec Verif.FloatArithSpec Verif.RoundEven Verif.X86CvtSpec Verif.SleefBase Verif.Sleef Verif.SleefSpec Verif.SleefProofs Verif.SleefProofs2
  Verif.SleefProofs3 Verif.SleefProofs4.
Local Open Scope Z_scope.

(** log, log2 and log10 *)
Theorem C129_log :
  like_a_logarithm xlogf_u1 /\ like_a_logarithm xlogf /\
  like_a_logarithm xlog2f /\ like_a_logarithm xlog2f_u35 /\ like_a_logarithm xlog10f.
Proof.
  assert (forall f, (forall x, exists r, f x = log_tail x r) -> plus_zero (f 1065353216) -> like_a_logarithm f) as L.
  { intros f F O x P. destruct (F x) as [r E]. split; [| split; [| split; [| split]]].
    - rewrite E. apply log_nan.
    - rewrite E. apply log_neg.
    - rewrite E. apply log_zero.
    - rewrite E. apply log_inf.
    - intros I. replace x with 1065353216; [exact O |]. symmetry. apply val_eq; [exact P | split; [discriminate | reflexivity] | rewrite I; reflexivity | discriminate]. }
  split; [| split; [| split; [| split]]].
  - apply L; [| vm_compute; reflexivity]. intros x. eexists. unfold xlogf_u1. cbv zeta. fold (times64 x). unfold log_tail. cbv zeta. reflexivity.
  - apply L; [| vm_compute; reflexivity]. intros x. eexists. unfold xlogf. cbv zeta. fold (times64 x). unfold log_tail. cbv zeta. reflexivity.
  - apply L; [| vm_compute; reflexivity]. intros x. eexists. unfold xlog2f. cbv zeta. fold (times64 x). unfold log_tail. cbv zeta. reflexivity.
  - apply L; [| vm_compute; reflexivity]. intros x. eexists. unfold xlog2f_u35. cbv zeta. fold (times64 x). unfold log_tail. cbv zeta. reflexivity.
  - apply L; [| vm_compute; reflexivity]. intros x. eexists. unfold xlog10f. cbv zeta. fold (times64 x). unfold log_tail. cbv zeta. reflexivity.
Qed.
Print Assumptions C129_log.

(** log1p: from -1 on; and it returns +infinity from 1e38 on, where it is not infinite *)
Theorem C129_log1p x : pattern x ->
  (nan x -> nan (xlog1pf x)) /\
  (below (-1) x -> nan (xlog1pf x)) /\
  (is (whole (-1)) x -> minus_infinity (xlog1pf x)) /\
  (plus_zero x -> plus_zero (xlog1pf x)) /\
  (minus_zero x -> minus_zero (xlog1pf x)) /\
  (above (10 ^ 38) x -> plus_infinity (xlog1pf x)).
Proof.
  intros P. split; [| split; [| split; [| split; [| split]]]].
  - intros N. unfold xlog1pf. cbv zeta. rewrite negzero_iff by assumption. rewrite (ltd_nan _ x), (ltf_nanl x), (eqf_nanl x) by assumption. rewrite N.
    apply nan_addl, n_a2f1, n_a222', n_scale, n_div, n_pair, nan_mla1, N.
  - intros B. unfold xlog1pf. cbv zeta. rewrite negzero_iff by assumption.
    assert (match val x with FFin true m => m =? 0 | _ => false end = false) as ->.
    { unfold below in B. destruct (val x) as [| [] | [] m] eqn:E; try reflexivity. unfold whole in B. cbn [flt fle] in B. apply negb_true_iff, Z.leb_gt in B.
      change (sval (-1 <? 0) (Z.abs (-1) * 2 ^ 149)) with (- 2 ^ 149) in B. cbn [sval] in B. apply Z.eqb_neq. assert (0 < 2 ^ 149) by reflexivity. lia. }
    assert (eqf x I_m1 = false) as ->. { exact (proj1 (gt_not_eq x I_m1 B)). }
    lt_n B (-1). reflexivity.
  - intros I. replace x with I_m1; [vm_compute; reflexivity |]. symmetry. apply val_eq; [exact P | split; [discriminate | reflexivity] | exact I | discriminate].
  - intros Z0. rewrite (plus_zero_eq x P Z0). vm_compute. reflexivity.
  - intros Z0. rewrite (minus_zero_eq x P Z0). vm_compute. reflexivity.
  - intros A. unfold xlog1pf. cbv zeta. rewrite negzero_iff by assumption.
    assert (match val x with FFin true m => m =? 0 | _ => false end = false) as ->.
    { unfold above in A. destruct (val x) as [| [] | [] m] eqn:E; try reflexivity. exfalso.
      pose proof (val_nonneg _ _ _ E). unfold whole in A. cbn [flt fle] in A. apply negb_true_iff, Z.leb_gt in A.
      change (sval (10 ^ 38 <? 0) (Z.abs (10 ^ 38) * 2 ^ 149)) with (10 ^ 38 * 2 ^ 149) in A. cbn [sval] in A. lia. }
    assert (ltf I_m1 x = true) as G. { apply (above_gt (10 ^ 38) x _ A). left; valc. }
    destruct (gt_not_eq _ _ G) as [_ ->]. rewrite (gt_not_lt _ _ G).
    assert (ltd D_100000000000000000000000000000000000000_0 (f2d x) = true) as ->; [| reflexivity].
    unfold ltd, f2d. destruct (X86CvtProofs4.double_of_single_ok x) as [D _]. rewrite D.
    apply (flt_trans _ (widen64 (whole (10 ^ 38)))); [vm_compute; reflexivity |].
    rewrite widen_lt. exact A.
Qed.
Print Assumptions C129_log1p.

(** 2^127 is a finite number whose logarithm is about 88 *)
Theorem C129_log1p_overflow_refuted : ~ (forall x, finite x -> above (-1) x -> finite (xlog1pf x)).
Proof.
  intros H. assert (finite 2130706432) as F by (eexists; eexists; vm_compute; reflexivity).
  assert (above (-1) 2130706432) as A by reflexivity.
  destruct (H _ F A) as (s & m & V). vm_compute in V. discriminate V.
Qed.
Print Assumptions C129_log1p_overflow_refuted.

Example C129_cases : above (10 ^ 38) 2130706432 /\ below 0 (2 ^ 31 + 1) /\ below (-1) 3212836865 /\ is (whole 1) 1065353216.
Proof. repeat split; vm_compute; reflexivity. Qed.
