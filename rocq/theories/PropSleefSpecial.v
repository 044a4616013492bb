(** C133: hypot, the cubic root, the error functions and the gamma functions. *)
Require Import ZArith List Bool Lia.
Require Import Verif.FloatSpec Verif.FloatProofs Verif.FloatArith Verif.FloatArithSpec Verif.RoundEven Verif.SleefBase Verif.Sleef Verif.SleefSpec Verif.SleefProofs Verif.SleefProofs2
  Verif.SleefProofs3 Verif.SleefProofs4 Verif.SleefProofs5 Verif.SleefProofs6 Verif.SleefProofs7.
Local Open Scope Z_scope.

Local Lemma zeros_compute f : plus_zero (f 0) -> minus_zero (f (2 ^ 31)) -> keeps_zeros f.
Proof. intros A B x P. split; intros H; [rewrite (plus_zero_eq x P H) | rewrite (minus_zero_eq x P H)]; assumption. Qed.
Local Lemma pinf_eq x : pattern x -> plus_infinity x -> x = SLEEF_INFINITYf.
Proof. intros P H. apply val_eq; [exact P | exact inff_pat | exact H | discriminate]. Qed.
Local Lemma minf_eq x : pattern x -> minus_infinity x -> x = negf SLEEF_INFINITYf.
Proof. intros P H. apply val_eq; [exact P | apply neg_pat, inff_pat | exact H | discriminate]. Qed.

(** the last lines of both versions of hypot; [body] gets the smaller and the larger magnitude *)
Local Definition hyp (body : Z -> Z -> Z) (x y : Z) : Z :=
  let min := fminfk x y in let max := fmaxfk x y in
  let r := if eqf min I_0 then max else body min max in
  let r := if xisnanf x || xisnanf y then SLEEF_NANf else r in
  if eqf x SLEEF_INFINITYf || eqf y SLEEF_INFINITYf then SLEEF_INFINITYf else r.

Local Lemma eq_inf x : eqf x SLEEF_INFINITYf = match val x with FInf false => true | _ => false end.
Proof. rewrite eqf_val. change (val SLEEF_INFINITYf) with (FInf false). destruct (val x) as [| [] | [] m]; reflexivity. Qed.
Local Lemma minmax x y : pattern x -> pattern y -> ~ nan x -> ~ nan y -> (exists p, x = sign_bit binary32 false + p /\ 0 <= p < 2 ^ 31) -> (exists p, y = sign_bit binary32 false + p /\ 0 <= p < 2 ^ 31) ->
  fminfk x y = fminfk y x /\ fmaxfk x y = fmaxfk y x.
Proof.
  intros Px Py Nx Ny Sx Sy. unfold fminfk, fmaxfk. destruct (ltf x y) eqn:L; [rewrite (gt_not_lt _ _ L); split; reflexivity |].
  destruct (ltf y x) eqn:M; [split; reflexivity |].
  assert (x = y) as ->; [| split; reflexivity]. apply val_eq; [exact Px | exact Py | | exact Ny].
  rewrite ltf_val in L, M. assert (sign_of binary32 x = false) as Hx by (destruct Sx as (p & -> & P); apply sign_split, P). assert (sign_of binary32 y = false) as Hy by (destruct Sy as (p & -> & P); apply sign_split, P).
  pose proof (val_sign x Px) as Vx. pose proof (val_sign y Py) as Vy. unfold nan in *.
  destruct (val x) as [| s | s m], (val y) as [| s' | s' m']; try contradiction; rewrite Hx in Vx; rewrite Hy in Vy; subst; try reflexivity; cbn [flt fle sval] in L, M; try discriminate.
  apply negb_false_iff, Z.leb_le in L, M. f_equal. lia.
Qed.
Local Lemma abs_form x : exists p, fabsfk x = sign_bit binary32 false + p /\ 0 <= p < 2 ^ 31.
Proof. exists (fabsfk x). split; [reflexivity |]. unfold fabsfk. rewrite land_ones31. apply Z.mod_pos_bound. reflexivity. Qed.

Local Lemma hyp_like (body : Z -> Z -> Z) f : (forall x y, f x y = hyp body (fabsfk x) (fabsfk y)) -> like_hypot f.
Proof.
  intros F x y Px Py. rewrite opposite_neg, !F, fabs_neg by assumption. pose proof (fabs_pat x) as Ax. pose proof (fabs_pat y) as Ay.
  assert (forall z, pattern z -> eqf (fabsfk z) SLEEF_INFINITYf = match val z with FInf _ => true | _ => false end) as Ei.
  { intros z P. rewrite eq_inf, val_fabs by assumption. destruct (val z); reflexivity. }
  assert (forall z, pattern z -> xisnanf (fabsfk z) = match val z with FNaN => true | _ => false end) as En.
  { intros z P. rewrite isnan_iff, val_fabs by assumption. destruct (val z); reflexivity. }
  split; [| split; [| split; [| split]]].
  - intros H. unfold hyp. cbv zeta. rewrite !Ei by assumption. destruct H as [(s & ->) | (s & ->)]; rewrite ?orb_true_r; reflexivity.
  - intros Ix Iy H. unfold hyp. cbv zeta. rewrite !Ei, !En by assumption. unfold an_infinity in *. destruct (val x) eqn:Vx, (val y) eqn:Vy; try reflexivity; try (destruct Ix; eexists; reflexivity); try (destruct Iy; eexists; reflexivity).
    destruct H as [H | H]; unfold nan in H; congruence.
  - unfold hyp. cbv zeta. rewrite !Ei, !En by assumption. rewrite (orb_comm (match val y with FInf _ => true | _ => false end)), (orb_comm (match val y with FNaN => true | _ => false end)).
    destruct (match val x with FInf _ => true | _ => false end || _); [reflexivity |].
    destruct (match val x with FNaN => true | _ => false end || _) eqn:N; [reflexivity |]. apply orb_false_iff in N. destruct N as [Nx Ny].
    destruct (minmax (fabsfk x) (fabsfk y) Ax Ay) as [-> ->]; try apply abs_form; try reflexivity; unfold nan; rewrite val_fabs by assumption; intros V; [destruct (val x) | destruct (val y)]; discriminate.
  - reflexivity.
  - intros Nx (s & Zy). red. rewrite absolute_fabs by assumption. unfold hyp. cbv zeta. rewrite !Ei, !En by assumption. rewrite Zy, !orb_false_r.
    pose proof (val_fabs x Px) as Vx. pose proof (val_fabs y Py) as Vy. rewrite Zy in Vy. assert (fabsfk y = 0) as E0 by (apply val_eq; [exact Ay | split; [discriminate | reflexivity] | exact Vy | discriminate]).
    unfold nan in Nx. destruct (val x) as [| t | t m] eqn:V; [contradiction | exact (eq_sym Vx) |]. unfold fminfk, fmaxfk. rewrite !ltf_val, E0, Vx. pose proof (val_nonneg _ _ _ V).
    change (val 0) with (FFin false 0). cbn [flt fle sval]. destruct (Z.leb_spec 0 m); [| lia]. cbn [negb]. change (eqf 0 I_0) with true. cbv iota.
    destruct (Z.leb_spec m 0); cbn [negb]; [| exact Vx]. replace m with 0 in * by lia. reflexivity.
Qed.

Theorem C133_hypot : like_hypot xhypotf_u05 /\ like_hypot xhypotf_u35.
Proof.
  split.
  - apply (hyp_like (fun min max =>
      let n := if ltf max FLT_MIN then mulf min (fint (Z.shiftl 1 24)) else min in
      let d := if ltf max FLT_MIN then mulf max (fint (Z.shiftl 1 24)) else max in
      let t := dfmul_f2_f2_f (dfsqrt_f2_f2 (dfadd2_f2_f2_f (dfsqu_f2_f2 (dfdiv_f2_f2_f2 (F2 n I_0) (F2 d I_0))) I_1)) max in
      let r := addf (fx t) (fy t) in if xisnanf r then SLEEF_INFINITYf else r)).
    intros x y. unfold xhypotf_u05, hyp. cbv zeta. destruct (ltf (fmaxfk (fabsfk x) (fabsfk y)) FLT_MIN); reflexivity.
  - apply (hyp_like (fun min max => mulf max (SQRTF (addf I_1 (let t := divf min max in mulf t t))))). intros x y. reflexivity.
Qed.
Print Assumptions C133_hypot.

(** the cubic root *)
Theorem C133_cbrt : like_cbrt xcbrtf /\ like_cbrt xcbrtf_u1 /\ odd_function xcbrtf.
Proof.
  assert (forall e x, pattern x -> nan x -> nan (fabsfk (ldexp2kf x e))) as L by (intros e x P N; apply nan_fabs; [apply mulf_pat | apply nan_ldexp2, N]).
  split; [| split]; [split; [| split] | split; [| split] |].
  - intros x P N. unfold xcbrtf. cbv zeta. apply nan_mull, nan_subl, nan_mull, nan_mull, L; assumption.
  - apply zeros_compute; vm_compute; reflexivity.
  - intros x P. split; intros H; [rewrite (pinf_eq x P H) | rewrite (minf_eq x P H)]; vm_compute; reflexivity.
  - intros x P N. unfold xcbrtf_u1. cbv zeta.
    match goal with |- context [xisinff (fabsfk ?d)] => assert (nan (fabsfk d)) as M by (apply L; assumption); rewrite (isinf_iff (fabsfk d)), (eqf_nanl (fabsfk d) _ M) end.
    red in M. rewrite M. cbv iota. apply nan_ldexp2, nan_addl, n_m22, n_m2f2. exact M.
  - apply zeros_compute; vm_compute; reflexivity.
  - intros x P. split; intros H; [rewrite (pinf_eq x P H) | rewrite (minf_eq x P H)]; vm_compute; reflexivity.
  - intros x P. rewrite opposite_neg. apply opp_val. unfold xcbrtf. rewrite fabs_neg by assumption. cbv zeta.
    set (e := ilogbkf (fabsfk x) + 1). assert (opp_or_nan (ldexp2kf x (- e)) (ldexp2kf (negf x) (- e))) as O.
    { apply mul_opp, mul_opp. right. split; [exact P | reflexivity]. }
    destruct O as [[A B] | [Q ->]].
    + left. split; apply nan_mull, nan_subl, nan_mull, nan_mull, nan_fabs; try apply mulf_pat; assumption.
    + rewrite fabs_neg by exact Q. apply mul_opp_r. right. assert (forall q k, pattern (ldexp2kf q k)) as R by (intros; apply mulf_pat).
      split; [apply mulsign_pat; [apply R | exact Q] | apply mulsign_opp; [apply R | exact Q]].
Qed.
Print Assumptions C133_cbrt.

(** the error functions *)
Local Lemma one_pat : pattern I_1.
Proof. split; [discriminate | reflexivity]. Qed.
Theorem C133_erf U : like_erf (xerff_u1 U).
Proof.
  split; [| split; [| split]].
  - intros x P. rewrite opposite_neg. unfold xerff_u1. rewrite fabs_neg by assumption. cbv zeta. destruct (xisnanf (fabsfk x)); [reflexivity |].
    apply mulsign_neg; [| exact P]. apply if_pat; [apply addf_pat | exact one_pat].
  - intros x P N. unfold xerff_u1. cbv zeta. rewrite yes_nan by (apply nan_fabs; assumption). reflexivity.
  - apply zeros_compute; vm_compute; reflexivity.
  - intros x P. assert (above 4 (absolute x) -> xerff_u1 U x = mulsignf I_1 x) as A.
    { intros A. unfold xerff_u1. cbv zeta. rewrite not_nan; [| rewrite <- absolute_fabs by assumption; exact (above_not_nan _ _ A)].
      rewrite (gt_not_lt F_4_0 (fabsfk x)); [reflexivity |]. apply (abs_gt 4); [exact P | exact A | right; valc]. }
    split; intros H; red; [destruct (above_abs 4 x ltac:(lia) P H) as (H' & S) | destruct (below_abs 4 x ltac:(lia) P H) as (H' & S)]; rewrite (A H'), val_mulsign, S by (exact one_pat || exact P); reflexivity.
Qed.
Print Assumptions C133_erf.

Theorem C133_erfc U : keeps_nan (xerfcf_u15 U) /\ (forall x, pattern x -> a_zero x -> is (whole 1) (xerfcf_u15 U x)) /\ saturates 11 (FFin false 0) (whole 2) (xerfcf_u15 U).
Proof.
  split; [| split].
  - intros x P N. unfold xerfcf_u15. cbv zeta. rewrite yes_nan by assumption. reflexivity.
  - intros x P H. destruct (zero_eq x P H) as [-> | ->]; vm_compute; reflexivity.
  - intros x P. assert (above 11 (absolute x) -> xerfcf_u15 U x = if ltf x I_0 then subf I_2 I_0 else I_0) as A.
    { intros A. unfold xerfcf_u15. cbv zeta. rewrite not_nan; [| rewrite <- abs_nan by assumption; exact (above_not_nan _ _ A)].
      rewrite (gt_not_lt F_101_1 (fabsfk x)); [reflexivity |]. apply (abs_gt 11); [exact P | exact A | left; valc]. }
    split; intros H; red.
    + destruct (above_abs 11 x ltac:(lia) P H) as (H' & _). rewrite (A H'), (gt_not_lt I_0 x); [valc |]. apply (above_gt 11); [exact H | left; valc].
    + destruct (below_abs 11 x ltac:(lia) P H) as (H' & _). rewrite (A H'), (below_lt (- (11)) x I_0); [valc | exact H | left; valc].
Qed.
Print Assumptions C133_erfc.

(** the gamma functions *)
Local Lemma led_nan c x : nan x -> led (f2d x) c = false.
Proof.
  intros N. unfold led, f2d. destruct (X86CvtProofs4.double_of_single_ok x) as [-> _]. unfold nan, val in N. rewrite N. reflexivity.
Qed.
Local Lemma gamma_nan U x : pattern x -> nan x -> nan (fx (dfa (gammafk U x))).
Proof.
  intros P N. unfold gammafk. rewrite (ltf_nanl (fabsfk x)) by (apply nan_fabs; assumption). rewrite (ltf_nanl x) by assumption. cbv zeta. cbn [dfa fx].
  rewrite ltd_nan by assumption. cbv iota. apply n_m2f2, nan_d2f_f2d, n_norm1, n_a22f1. exact N.
Qed.
Local Lemma int_below U x : pattern x -> an_integer x -> at_least (- 2 ^ 31) x -> at_most 0 x -> xisintf U x = true.
Proof.
  intros P (s & m & V & I) L M. unfold at_least, at_most in *. rewrite V in *. apply (int_test U x s m P V I).
  unfold whole in *. cbn [fle] in *. rewrite Z.leb_le in *. change (sval (- 2 ^ 31 <? 0) (Z.abs (- 2 ^ 31) * 2 ^ 149)) with (- 2 ^ 31 * 2 ^ 149) in L. change (sval (0 <? 0) (Z.abs 0 * 2 ^ 149)) with 0 in M.
  assert (0 < 2 ^ 31 * 2 ^ 149) by reflexivity. lia.
Qed.
Local Lemma below_le x : below 0 x -> at_most 0 x.
Proof. unfold below, at_most. destruct (val x) as [| [] | s m]; try discriminate; [reflexivity |]. unfold whole. cbn [flt fle]. rewrite negb_true_iff, Z.leb_gt, Z.leb_le. lia. Qed.

Local Lemma eq_minf x : eqf x (negf SLEEF_INFINITYf) = match val x with FInf true => true | _ => false end.
Proof. rewrite eqf_val. change (val (negf SLEEF_INFINITYf)) with (FInf true). destruct (val x) as [| [] | [] m]; reflexivity. Qed.
Local Lemma eq0_iff x : eqf x I_0 = match val x with FFin _ m => m =? 0 | _ => false end.
Proof.
  rewrite eqf_val, val_I0. destruct (val x) as [| [] | s m]; try reflexivity. unfold feqb. cbn [fle]. apply eq_iff_eq_true. rewrite andb_true_iff, !Z.leb_le, Z.eqb_eq.
  destruct s; cbn [sval]; lia.
Qed.

(** the last two lines of tgamma *)
Local Definition tg (U : Z -> Z) (a r : Z) : Z :=
  let r := if ((eqf a (negf SLEEF_INFINITYf)) || ((ltf a I_0) && (xisintf U a))) || (((xisnumberf a) && (ltf a I_0)) && (xisnanf r)) then SLEEF_NANf else r in
  if (((eqf a SLEEF_INFINITYf) || (xisnumberf a)) && (lef (negf FLT_MIN) a)) && (((eqf a I_0) || (ltf I_36 a)) || (xisnanf r)) then mulsignf SLEEF_INFINITYf a else r.
Local Lemma tg_eq U x : xtgammaf_u1 U x = tg U x (let d := gammafk U x in let y := dfmul_f2_f2_f2 (expk2f U (dfa d)) (dfb d) in addf (fx y) (fy y)).
Proof. reflexivity. Qed.
Local Lemma tg_nan U x r : nan x -> nan r -> nan (tg U x r).
Proof. intros N R. unfold tg, xisnumberf. cbv zeta. rewrite eq_inf, eq_minf, !isnan_iff, isinf_iff, N, (ltf_nanl x) by exact N. cbn [negb andb orb]. exact R. Qed.
Local Lemma val_min : val (negf FLT_MIN) = FFin true (2 ^ 23).
Proof. vm_compute. reflexivity. Qed.
(** at a non-negative number *)
Local Lemma tg_nonneg U x r : at_least 0 x -> tg U x r = if (match val x with FFin _ m => m =? 0 | _ => false end || ltf I_36 x) || xisnanf r then mulsignf SLEEF_INFINITYf x else r.
Proof.
  intros L. unfold at_least in L. unfold tg, xisnumberf. cbv zeta. rewrite eq_inf, eq_minf, isnan_iff, isinf_iff, eq0_iff, (ltf_val x I_0), val_I0, lef_val, val_min.
  destruct (val x) as [| [] | s m] eqn:V; try discriminate; cbn [flt fle negb andb orb].
  - reflexivity.
  - unfold whole in L. cbn [fle] in L. change (sval (0 <? 0) (Z.abs 0 * 2 ^ 149)) with 0 in L. apply Z.leb_le in L. rewrite (proj2 (Z.leb_le (sval false 0) (sval s m))) by exact L. cbn [negb andb orb].
    destruct (Z.leb_spec (sval true (2 ^ 23)) (sval s m)); [reflexivity |]. assert (sval true (2 ^ 23) <= 0) by discriminate. lia.
Qed.
Local Lemma tg_inf x : pattern x -> val (mulsignf SLEEF_INFINITYf x) = FInf (sign_of binary32 x).
Proof. intros P. rewrite val_mulsign by (exact inff_pat || exact P). destruct (sign_of binary32 x); reflexivity. Qed.

Theorem C133_tgamma U : like_gamma (2 ^ 31) (xtgammaf_u1 U).
Proof.
  intros x P. rewrite tg_eq. pose proof (gamma_nan U x P) as G.
  assert (nan x -> nan (let d := gammafk U x in let y := dfmul_f2_f2_f2 (expk2f U (dfa d)) (dfb d) in addf (fx y) (fy y))) as R by (intros N; apply nan_addl, n_m22, n_expk2, G, N).
  split; [| split; [| split; [| split; [| split; [| split; [| split; [| split]]]]]]].
  - intros N. apply tg_nan; [exact N | apply R, N].
  - intros H. red. rewrite tg_nonneg by (red; rewrite H; reflexivity). pose proof (val_sign x P) as S. rewrite H in S |- *. cbn [Z.eqb orb]. rewrite tg_inf, <- S by exact P. reflexivity.
  - intros H. red. rewrite tg_nonneg by (red; rewrite H; reflexivity). pose proof (val_sign x P) as S. rewrite H in S |- *. cbn [Z.eqb orb]. rewrite tg_inf, <- S by exact P. reflexivity.
  - intros H. red. rewrite tg_nonneg by (red; rewrite H; reflexivity). pose proof (val_sign x P) as S. rewrite ltf_val. rewrite H in S |- *. replace (flt (val I_36) (FInf false)) with true by (vm_compute; reflexivity). cbn [orb]. rewrite tg_inf, <- S by exact P. reflexivity.
  - intros H. unfold tg, xisnumberf. cbv zeta. rewrite eq_inf, eq_minf, lef_val, val_min, isinf_iff, H. cbn [orb andb negb fle]. reflexivity.
  - intros I B L. pose proof (int_below U x P I L (below_le x B)) as T. unfold tg. cbv zeta. rewrite T.
    assert (ltf x I_0 = true) as -> by exact B. cbn [andb]. rewrite orb_true_r. cbn [orb].
    assert (lef (negf FLT_MIN) x = false) as ->.
    { rewrite lef_val, val_min. destruct I as (s & m & V & I). unfold below in B. rewrite V in B |- *. unfold whole in B. cbn [flt fle] in B |- *.
      change (sval (0 <? 0) (Z.abs 0 * 2 ^ 149)) with 0 in B. rewrite negb_true_iff, Z.leb_gt in B. apply Z.leb_gt. pose proof (val_nonneg _ _ _ V). destruct s; cbn [sval] in *; [| lia].
      pose proof (Z.div_mod m (2 ^ 149) ltac:(discriminate)) as D. rewrite I in D. assert (2 ^ 23 < 2 ^ 149) by reflexivity. nia. }
    rewrite andb_false_r. reflexivity.
  - intros A. red. assert (at_least 0 x) as L.
    { unfold above, at_least in *. destruct (val x) as [| [] | s m]; try discriminate; [reflexivity |]. unfold whole in *. cbn [flt fle] in *. apply negb_true_iff, Z.leb_gt in A. apply Z.leb_le.
      change (sval (36 <? 0) (Z.abs 36 * 2 ^ 149)) with (36 * 2 ^ 149) in A. change (sval (0 <? 0) (Z.abs 0 * 2 ^ 149)) with 0. assert (0 < 36 * 2 ^ 149) by reflexivity. lia. }
    rewrite tg_nonneg by exact L. rewrite (above_gt 36 x I_36 A) by (right; valc). rewrite orb_true_r. cbn [orb]. rewrite tg_inf by exact P.
    destruct (above_abs 36 x ltac:(lia) P A) as (_ & ->). reflexivity.
  - intros L. rewrite tg_nonneg by exact L. match goal with |- context [xisnanf ?r] => generalize r; intros q end. destruct (_ || xisnanf q) eqn:E.
    + intros H. red in H. rewrite tg_inf in H by exact P. discriminate H.
    + apply orb_false_iff in E. destruct E as [_ E]. rewrite isnan_iff in E. intros H. red in H. rewrite H in E. discriminate E.
  - intros H. assert (x = I_1) as -> by (apply val_eq; [exact P | exact one_pat | exact H | discriminate]). vm_compute. reflexivity.
Qed.
Print Assumptions C133_tgamma.

Theorem C133_lgamma U : like_log_gamma (2 ^ 31) (xlgammaf_u1 U).
Proof.
  intros x P. set (r := let d := gammafk U x in let y := dfadd2_f2_f2_f2 (dfa d) (logk2f (dfabs_f2_f2 (dfb d))) in addf (fx y) (fy y)).
  assert (xlgammaf_u1 U x = if ((xisinff x) || ((lef x I_0) && (xisintf U x))) || ((xisnumberf x) && (xisnanf r)) then SLEEF_INFINITYf else r) as E by reflexivity.
  assert (nan x -> nan r) as R by (intros N; apply nan_addl, n_a2222, gamma_nan; assumption).
  split; [| split; [| split]].
  - rewrite E. clear E. unfold xisnumberf. rewrite !isnan_iff, isinf_iff. split.
    + intros N. rewrite (lef_nanl x) by exact N. specialize (R N). red in N. rewrite N. cbn [negb andb orb]. exact R.
    + destruct (_ || _) eqn:C; [discriminate |]. intros N. red in N. rewrite N in C. red. apply orb_false_iff in C. destruct C as [C1 C2]. apply orb_false_iff in C1. destruct C1 as [C1 _].
      destruct (val x); [reflexivity | discriminate C1 | discriminate C2].
  - intros (s & H). rewrite E, isinf_iff, H. reflexivity.
  - intros I M L. rewrite E. rewrite (int_below U x P I L M). assert (lef x I_0 = true) as -> by exact M. cbn [andb]. rewrite orb_true_r. reflexivity.
  - clear E r R. intros [H | H]; [assert (x = I_1) as -> by (apply val_eq; [exact P | exact one_pat | exact H | discriminate]) |
      assert (x = I_2) as -> by (apply val_eq; [exact P | split; [discriminate | reflexivity] | exact H | discriminate])]; vm_compute; reflexivity.
Qed.
Print Assumptions C133_lgamma.

(** the hypotheses are met *)
Example C133_example : an_integer (fint (-3)) /\ below 0 (fint (-3)) /\ at_least (- 2 ^ 31) (fint (-3)) /\ above 36 (fint 37) /\ above 11 (fint 12) /\ below (-4) (fint (-5)) /\
  val (xhypotf_u35 (fint 3) (fint (-4))) = whole 5 /\ val (xcbrtf (fint (-27))) = whole (-3).
Proof.
  split; [exists true, (3 * 2 ^ 149); split; vm_compute; reflexivity |]. repeat (split; [vm_compute; reflexivity |]). vm_compute. reflexivity.
Qed.
