(** C131: the hyperbolic functions and their inverses. *)
Require Import ZArith List Bool Lia.
Require Import Verif.FloatSpec Verif.FloatArithSpec Verif.RoundEven Verif.X86CvtSpec Verif.X86CvtProofs4 Verif.SleefBase Verif.Sleef Verif.SleefSpec Verif.SleefProofs Verif.SleefProofs2
  Verif.SleefProofs3 Verif.SleefProofs4 Verif.SleefProofs6.
Local Open Scope Z_scope.

Local Ltac shape f := intros x; unfold f; cbv zeta; reflexivity.
Local Lemma nan_shape (f g : Z -> Z) : (forall x, f x = if xisnanf x then SLEEF_NANf else g x) -> keeps_nan f.
Proof. intros F x P N. rewrite F, yes_nan by assumption. reflexivity. Qed.
Local Lemma zeros_compute f : plus_zero (f 0) -> minus_zero (f (2 ^ 31)) -> keeps_zeros f.
Proof. intros A B x P. split; intros H; [rewrite (plus_zero_eq x P H) | rewrite (minus_zero_eq x P H)]; assumption. Qed.

(** a function of |x| that is c above n, with the sign of x *)
Local Lemma saturating f g c (r : Z -> Z) n k : 0 <= n -> (flt (val k) (whole n) = true \/ val k = whole n) -> pattern c -> val c <> FNaN ->
  (forall x, f x = if xisnanf x then SLEEF_NANf else mulsignf (g x) x) ->
  (forall x, g x = let y := if ltf k (fabsfk x) then c else r x in if xisnanf y then c else y) ->
  saturates n (val c) (negated (val c)) f.
Proof.
  intros N K C CN F G x P.
  assert (above n (absolute x) -> g x = c /\ xisnanf x = false) as A.
  { intros A. rewrite G. rewrite (abs_gt n x k P A K). cbv zeta. split; [destruct (xisnanf c); reflexivity |].
    apply not_nan. rewrite <- abs_nan by assumption. exact (above_not_nan n _ A). }
  split; intros H; red; rewrite F.
  - destruct (above_abs n x N P H) as (H' & S). destruct (A H') as [-> ->]. rewrite val_mulsign, S by assumption. reflexivity.
  - destruct (below_abs n x N P H) as (H' & S). destruct (A H') as [-> ->]. rewrite val_mulsign, S by assumption. reflexivity.
Qed.
Local Lemma sign_pat c b (y : Z) : pattern c -> pattern y -> pattern (if xisnanf (if b : bool then c else y) then c else (if b then c else y)).
Proof. intros C Y. apply if_pat; [exact C |]. apply if_pat; assumption. Qed.
Local Lemma c_inf : pattern SLEEF_INFINITYf.
Proof. exact inff_pat. Qed.
Local Lemma c_1 : pattern F_1_0.
Proof. split; [discriminate | reflexivity]. Qed.

Theorem C131_sinh U :
  (odd_function (xsinhf U) /\ keeps_nan (xsinhf U) /\ keeps_zeros (xsinhf U) /\ saturates 89 (FInf false) (FInf true) (xsinhf U)) /\
  (odd_function (xsinhf_u35 U) /\ keeps_nan (xsinhf_u35 U) /\ keeps_zeros (xsinhf_u35 U) /\ saturates 88 (FInf false) (FInf true) (xsinhf_u35 U)).
Proof.
  split; (split; [| split; [| split]]).
  - eapply odd_shape; [| | shape xsinhf]; cbv beta.
    + intros x P. apply sign_pat; [exact c_inf |]. pat.
    + intros x P. rewrite fabs_neg by assumption. reflexivity.
  - eapply nan_shape. shape xsinhf.
  - apply zeros_compute; vm_compute; reflexivity.
  - eapply (saturating _ _ SLEEF_INFINITYf _ 89 I_89); [lia | right; valc | exact c_inf | discriminate | shape xsinhf | cbv beta; intros x; reflexivity].
  - eapply odd_shape; [| | shape xsinhf_u35]; cbv beta.
    + intros x P. apply sign_pat; [exact c_inf |]. pat.
    + intros x P. rewrite fabs_neg by assumption. reflexivity.
  - eapply nan_shape. shape xsinhf_u35.
  - apply zeros_compute; vm_compute; reflexivity.
  - eapply (saturating _ _ SLEEF_INFINITYf _ 88 I_88); [lia | right; valc | exact c_inf | discriminate | shape xsinhf_u35 | cbv beta; intros x; reflexivity].
Qed.
Print Assumptions C131_sinh.

(** an even function that is c where |x| is above n *)
Local Lemma even_saturating f g c (r : Z -> Z) n k : (flt (val k) (whole n) = true \/ val k = whole n) -> 0 <= n ->
  (forall x, f x = if xisnanf x then SLEEF_NANf else g x) ->
  (forall x, g x = let y := if ltf k (fabsfk x) then c else r x in if xisnanf y then c else y) ->
  saturates n (val c) (val c) f.
Proof.
  intros K N F G x P.
  assert (above n (absolute x) -> f x = c) as A.
  { intros A. rewrite F, G. rewrite (abs_gt n x k P A K). cbv zeta. rewrite not_nan; [destruct (xisnanf c); reflexivity |].
    rewrite <- abs_nan by assumption. exact (above_not_nan n _ A). }
  split; intros H; red; rewrite A; try reflexivity; [apply (above_abs n x N P H) | apply (below_abs n x N P H)].
Qed.
Theorem C131_cosh U :
  (even_function (xcoshf U) /\ keeps_nan (xcoshf U) /\ (forall x, pattern x -> a_zero x -> is (whole 1) (xcoshf U x)) /\ saturates 89 (FInf false) (FInf false) (xcoshf U)) /\
  (even_function (xcoshf_u35 U) /\ keeps_nan (xcoshf_u35 U) /\ (forall x, pattern x -> a_zero x -> is (whole 1) (xcoshf_u35 U x)) /\ saturates 88 (FInf false) (FInf false) (xcoshf_u35 U)).
Proof.
  split; (split; [| split; [| split]]).
  - eapply even_shape; [| shape xcoshf]; cbv beta. intros x P. rewrite fabs_neg by assumption. reflexivity.
  - eapply nan_shape. shape xcoshf.
  - intros x P Z0. destruct (zero_eq x P Z0) as [-> | ->]; vm_compute; reflexivity.
  - eapply (even_saturating _ _ SLEEF_INFINITYf _ 89 I_89); [right; valc | lia | shape xcoshf | cbv beta; intros x; reflexivity].
  - eapply even_shape; [| shape xcoshf_u35]; cbv beta. intros x P. rewrite fabs_neg by assumption. reflexivity.
  - eapply nan_shape. shape xcoshf_u35.
  - intros x P Z0. destruct (zero_eq x P Z0) as [-> | ->]; vm_compute; reflexivity.
  - eapply (even_saturating _ _ SLEEF_INFINITYf _ 88 I_88); [right; valc | lia | shape xcoshf_u35 | cbv beta; intros x; reflexivity].
Qed.
Print Assumptions C131_cosh.

Theorem C131_tanh U :
  (odd_function (xtanhf U) /\ keeps_nan (xtanhf U) /\ keeps_zeros (xtanhf U) /\ saturates 19 (whole 1) (whole (-1)) (xtanhf U)) /\
  (odd_function (xtanhf_u35 U) /\ keeps_nan (xtanhf_u35 U) /\ keeps_zeros (xtanhf_u35 U) /\ saturates 19 (whole 1) (whole (-1)) (xtanhf_u35 U)).
Proof.
  split; (split; [| split; [| split]]).
  - eapply odd_shape; [| | shape xtanhf]; cbv beta.
    + intros x P. apply sign_pat; [exact c_1 |]. pat.
    + intros x P. rewrite fabs_neg by assumption. reflexivity.
  - eapply nan_shape. shape xtanhf.
  - apply zeros_compute; vm_compute; reflexivity.
  - eapply (saturating _ _ F_1_0 _ 19 F_18714973875_9); [lia | left; valc | exact c_1 | discriminate | shape xtanhf | cbv beta; intros x; reflexivity].
  - eapply odd_shape; [| | shape xtanhf_u35]; cbv beta.
    + intros x P. apply sign_pat; [exact c_1 |]. pat.
    + intros x P. rewrite fabs_neg by assumption. reflexivity.
  - eapply nan_shape. shape xtanhf_u35.
  - apply zeros_compute; vm_compute; reflexivity.
  - eapply (saturating _ _ F_1_0 _ 19 F_18714973875_9); [lia | left; valc | exact c_1 | discriminate | shape xtanhf_u35 | cbv beta; intros x; reflexivity].
Qed.
Print Assumptions C131_tanh.

Local Lemma ltd_root x : ltd D_18446743523953729536_0 (f2d x) = flt (whole root_of_max) (val x).
Proof.
  unfold ltd, f2d. destruct (double_of_single_ok x) as [-> _].
  replace (decode binary64 D_18446743523953729536_0) with (widen64 (whole root_of_max)) by (vm_compute; reflexivity). apply widen_lt.
Qed.

Theorem C131_asinh : keeps_nan xasinhf /\ keeps_zeros xasinhf /\ saturates root_of_max (FInf false) (FInf true) xasinhf.
Proof.
  split; [| split].
  - intros x P N. unfold xasinhf. cbv zeta. rewrite negzero_iff, yes_nan, N by assumption. reflexivity.
  - apply zeros_compute; vm_compute; reflexivity.
  - intros x P. assert (above root_of_max (absolute x) -> val (xasinhf x) = if sign_of binary32 x then FInf true else FInf false) as A.
    { intros A. assert (xisnanf x = false) as N by (apply not_nan; rewrite <- abs_nan by assumption; exact (above_not_nan _ _ A)).
      unfold xasinhf. cbv zeta. rewrite N. rewrite ltd_root. rewrite <- absolute_fabs by assumption. unfold above in A. rewrite A. cbn [orb].
      rewrite negzero_iff by assumption. assert (match val x with FFin true m => m =? 0 | _ => false end = false) as ->.
      { rewrite absolute_fabs, val_fabs in A by assumption. destruct (val x) as [| | [] m]; try reflexivity. apply Z.eqb_neq. intros ->. discriminate A. }
      rewrite val_mulsign by (exact c_inf || assumption). destruct (sign_of binary32 x); reflexivity. }
    split; intros H; red; [destruct (above_abs root_of_max x ltac:(discriminate) P H) as (H' & S) | destruct (below_abs root_of_max x ltac:(discriminate) P H) as (H' & S)];
      rewrite (A H'), S; reflexivity.
Qed.
Print Assumptions C131_asinh.

Theorem C131_acosh x : pattern x ->
  (nan x -> nan (xacoshf x)) /\ (below 1 x -> nan (xacoshf x)) /\ (is (whole 1) x -> plus_zero (xacoshf x)) /\ (above root_of_max x -> plus_infinity (xacoshf x)).
Proof.
  intros P. split; [| split; [| split]]; intros H; unfold xacoshf; cbv zeta.
  - rewrite yes_nan by assumption. reflexivity.
  - assert (ltf x F_1_0 = true) as -> by exact H. rewrite (not_nan x (below_not_nan _ _ H)). reflexivity.
  - rewrite (isnan_iff x), (ltf_val x), (eqf_val x). red in H. rewrite !H. reflexivity.
  - rewrite ltd_root. unfold above in H. rewrite H. cbn [orb]. rewrite (not_nan x (above_not_nan _ _ H)).
    assert (ltf F_1_0 x = true) as L by (apply (above_gt root_of_max); [exact H | left; valc]).
    destruct (gt_not_eq _ _ L) as [_ ->]. rewrite (gt_not_lt _ _ L). reflexivity.
Qed.
Print Assumptions C131_acosh.

(** both are finite there: 2^65 is a finite number *)
Theorem C131_asinh_acosh_overflow_refuted : ~ (forall x, finite x -> finite (xasinhf x)) /\ ~ (forall x, finite x -> above 1 x -> finite (xacoshf x)).
Proof.
  assert (finite (fint (2 ^ 65))) as F by (eexists; eexists; vm_compute; reflexivity).
  split; intros H.
  - destruct (H _ F) as (s & m & V). vm_compute in V. discriminate V.
  - destruct (H _ F ltac:(vm_compute; reflexivity)) as (s & m & V). vm_compute in V. discriminate V.
Qed.
Print Assumptions C131_asinh_acosh_overflow_refuted.

Local Lemma one_abs x : pattern x -> is (whole 1) (absolute x) -> ltf F_1_0 (fabsfk x) = false /\ eqf (fabsfk x) F_1_0 = true.
Proof. intros P O. rewrite absolute_fabs in O by assumption. rewrite ltf_val, eqf_val, O. split; reflexivity. Qed.

Theorem C131_atanh :
  odd_function xatanhf /\ keeps_nan xatanhf /\ keeps_zeros xatanhf /\
  forall x, pattern x ->
    (above 1 (absolute x) -> nan (xatanhf x)) /\
    (is (whole 1) x -> plus_infinity (xatanhf x)) /\ (is (whole (-1)) x -> minus_infinity (xatanhf x)).
Proof.
  split; [| split; [| split]].
  - eapply odd_shape; [| | shape xatanhf]; cbv beta.
    + intros x P. pat.
    + intros x P. rewrite isinf_neg, fabs_neg by assumption. reflexivity.
  - eapply nan_shape. shape xatanhf.
  - apply zeros_compute; vm_compute; reflexivity.
  - intros x P. split; [| split]; intros H.
    + assert (ltf F_1_0 (fabsfk x) = true) as L by (apply (abs_gt 1); [exact P | exact H | right; valc]).
      unfold xatanhf. cbv zeta. rewrite L. replace (xisnanf SLEEF_NANf) with true by reflexivity. rewrite orb_true_r.
      destruct (xisnanf x); [reflexivity |]. apply nan_mulsign; [exact nanf_pat | exact P | reflexivity].
    + replace x with F_1_0; [vm_compute; reflexivity |]. symmetry. apply val_eq; [exact P | exact c_1 | exact H | discriminate].
    + replace x with I_m1; [vm_compute; reflexivity |]. symmetry. apply val_eq; [exact P | split; [discriminate | reflexivity] | exact H | discriminate].
Qed.
Print Assumptions C131_atanh.

Example C131_cases : above 89 (fint 90) /\ below (-89) (fint (-90)) /\ above root_of_max (fint (2 ^ 65)) /\ below (- root_of_max) (fint (- 2 ^ 65)) /\ above 1 (absolute (fint (-2))).
Proof. repeat split; vm_compute; reflexivity. Qed.
