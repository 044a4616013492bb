(** C128: the exponentials. *)
Require Import ZArith List Bool Lia.
Require Import Verif.FloatSpec Verif.FloatArithSpec Verif.RoundEven Verif.SleefBase Verif.Sleef Verif.SleefSpec Verif.SleefProofs Verif.SleefProofs2 Verif.SleefProofs3.
Import ListNotations.
Local Open Scope Z_scope.

Theorem C128_exp U x : pattern x ->
  (nan x -> nan (xexpf U x)) /\
  (above 104 x -> plus_infinity (xexpf U x)) /\
  (below (-104) x -> plus_zero (xexpf U x)) /\
  (a_zero x -> is (whole 1) (xexpf U x)).
Proof.
  intros P. unfold xexpf. cbv zeta. repeat split.
  - intros N. rewrite (ltf_nanl x), (ltf_nanr _ x) by assumption.
    apply nan_ldexp2, nan_addl, nan_addr, nan_mla3, nan_mla3, N.
  - intros A. gt_n A 104. reflexivity.
  - intros B. assert (ltf I_104 x = false) as ->. { apply gt_not_lt, (below_lt (-104) x _ B). left; valc. }
    lt_n B (-104). reflexivity.
  - intros Z0. destruct (zero_eq x P Z0) as [-> | ->]; vm_compute; reflexivity.
Qed.
Print Assumptions C128_exp.

(** exp2 and exp10, in both precisions *)
Theorem C128_exp2 U x : pattern x ->
  ((nan x -> nan (xexp2f U x)) /\ (at_least 128 x -> below (-150) x -> False) /\
   (at_least 128 x -> plus_infinity (xexp2f U x)) /\
   (below (-150) x -> plus_zero (xexp2f U x)) /\
   (a_zero x -> is (whole 1) (xexp2f U x))) /\
  ((nan x -> nan (xexp2f_u35 U x)) /\
   (at_least 128 x -> plus_infinity (xexp2f_u35 U x)) /\
   (below (-150) x -> plus_zero (xexp2f_u35 U x)) /\
   (a_zero x -> is (whole 1) (xexp2f_u35 U x))).
Proof.
  intros P.
  assert (at_least 128 x -> lef I_128 x = true) as A by exact (fun H => H).
  assert (at_least 128 x -> ltf x I_m150 = false) as A'.
  { intros H. destruct (ltf x I_m150) eqn:E; [| reflexivity]. exfalso. clear A.
    rewrite ltf_val in E. unfold at_least in H. change (val I_m150) with (whole (-150)) in E.
    destruct (val x) as [| [] | s m]; try discriminate. unfold whole in *. cbn [fle flt] in *.
    apply negb_true_iff, Z.leb_gt in E. apply Z.leb_le in H.
    change (sval (128 <? 0) (Z.abs 128 * 2 ^ 149)) with (128 * 2 ^ 149) in H.
    change (sval (-150 <? 0) (Z.abs (-150) * 2 ^ 149)) with (- (150 * 2 ^ 149)) in E. lia. }
  assert (below (-150) x -> ltf x I_m150 = true) as B by exact (fun H => H).
  split; repeat split.
  - intros N. unfold xexp2f. cbv zeta. rewrite (ltf_nanl x), (lef_nanr _ x) by assumption. apply nan_ldexp2, n_norm1, n_af2b, n_mff2, nan_subl, N.
  - intros L H. rewrite (A' L) in B. discriminate (B H).
  - intros L. unfold xexp2f. cbv zeta. rewrite (A L), (A' L). reflexivity.
  - intros L. unfold xexp2f. cbv zeta. rewrite (B L). reflexivity.
  - intros Z0. destruct (zero_eq x P Z0) as [-> | ->]; vm_compute; reflexivity.
  - intros N. unfold xexp2f_u35. cbv zeta. rewrite (ltf_nanl x), (lef_nanr _ x) by assumption. apply nan_ldexp2, nan_mla2, nan_subl, N.
  - intros L. unfold xexp2f_u35. cbv zeta. rewrite (A L), (A' L). reflexivity.
  - intros L. unfold xexp2f_u35. cbv zeta. rewrite (B L). reflexivity.
  - intros Z0. destruct (zero_eq x P Z0) as [-> | ->]; vm_compute; reflexivity.
Qed.
Print Assumptions C128_exp2.

Theorem C128_exp10 U x : pattern x ->
  ((nan x -> nan (xexp10f U x)) /\
   (above 39 x -> plus_infinity (xexp10f U x)) /\
   (below (-50) x -> plus_zero (xexp10f U x)) /\
   (a_zero x -> is (whole 1) (xexp10f U x))) /\
  ((nan x -> nan (xexp10f_u35 U x)) /\
   (above 39 x -> plus_infinity (xexp10f_u35 U x)) /\
   (below (-50) x -> plus_zero (xexp10f_u35 U x)) /\
   (a_zero x -> is (whole 1) (xexp10f_u35 U x))).
Proof.
  intros P.
  assert (above 39 x -> ltf x I_m50 = false) as A'.
  { intros H. apply gt_not_lt, (above_gt 39 x _ H). left; valc. }
  split; repeat split.
  - intros N. unfold xexp10f. cbv zeta. rewrite (ltf_nanl x), (ltf_nanr _ x) by assumption. apply nan_ldexp2, n_norm1, n_af2b, n_m2f2, nan_mla3, nan_mla3, N.
  - intros L. unfold xexp10f. cbv zeta. rewrite (A' L). gt_n L 39. reflexivity.
  - intros L. unfold xexp10f. cbv zeta. lt_n L (-50). reflexivity.
  - intros Z0. destruct (zero_eq x P Z0) as [-> | ->]; vm_compute; reflexivity.
  - intros N. unfold xexp10f_u35. cbv zeta. rewrite (ltf_nanl x), (ltf_nanr _ x) by assumption. apply nan_ldexp2, nan_mla2, nan_mla3, nan_mla3, N.
  - intros L. unfold xexp10f_u35. cbv zeta. rewrite (A' L). gt_n L 39. reflexivity.
  - intros L. unfold xexp10f_u35. cbv zeta. lt_n L (-50). reflexivity.
  - intros Z0. destruct (zero_eq x P Z0) as [-> | ->]; vm_compute; reflexivity.
Qed.
Print Assumptions C128_exp10.

Theorem C128_expm1 U x : pattern x ->
  (nan x -> nan (xexpm1f U x)) /\
  (above 89 x -> plus_infinity (xexpm1f U x)) /\
  (below (-17) x -> is (whole (-1)) (xexpm1f U x)) /\
  (plus_zero x -> plus_zero (xexpm1f U x)) /\
  (minus_zero x -> minus_zero (xexpm1f U x)).
Proof.
  intros P. repeat split.
  - intros N. unfold xexpm1f. cbv zeta. rewrite negzero_iff by assumption. rewrite N.
    rewrite (ltf_nanl x), (ltf_nanr _ x) by assumption.
    apply nan_addl, n_a22f1, n_expk2, n_pair, N.
  - intros A. unfold xexpm1f. cbv zeta. rewrite negzero_iff by assumption.
    assert (match val x with FFin true m => m =? 0 | _ => false end = false) as ->.
    { unfold above in A. destruct (val x) as [| [] | [] m] eqn:E; try reflexivity. exfalso.
      pose proof (val_nonneg _ _ _ E). unfold whole in A. cbn [flt fle] in A. apply negb_true_iff, Z.leb_gt in A.
      change (sval (89 <? 0) (Z.abs 89 * 2 ^ 149)) with (89 * 2 ^ 149) in A. cbn [sval] in A. lia. }
    match goal with |- context [ltf x ?c] => assert (ltf x c = false) as -> end.
    { apply gt_not_lt, (above_gt 89 x _ A). left; valc. }
    gt_n A 89. reflexivity.
  - intros B. unfold xexpm1f. cbv zeta. rewrite negzero_iff by assumption.
    assert (match val x with FFin true m => m =? 0 | _ => false end = false) as ->.
    { unfold below in B. destruct (val x) as [| [] | [] m] eqn:E; try reflexivity.
      unfold whole in B. cbn [flt fle] in B. apply negb_true_iff, Z.leb_gt in B.
      change (sval (-17 <? 0) (Z.abs (-17) * 2 ^ 149)) with (- (17 * 2 ^ 149)) in B. cbn [sval] in B. apply Z.eqb_neq. lia. }
    lt_n B (-17). reflexivity.
  - intros Z0. rewrite (plus_zero_eq x P Z0). vm_compute. reflexivity.
  - intros Z0. rewrite (minus_zero_eq x P Z0). vm_compute. reflexivity.
Qed.
Print Assumptions C128_expm1.

Example C128_cases : above 104 (fint 105) /\ below (-104) (fint (-105)) /\ at_least 128 (fint 128) /\ below (-150) (fint (-151)) /\ above 39 (fint 40) /\ below (-50) (fint (-51)) /\ below (-17) (fint (-18)).
Proof. repeat split; vm_compute; reflexivity. Qed.
