(** C132: the inverse trigonometric functions. *)
Require Import ZArith List Bool Lia.
Require Import Verif.FloatSpec Verif.FloatProofs Verif.FloatArith Verif.FloatArithSpec Verif.RoundEven Verif.SleefBase Verif.Sleef Verif.SleefSpec Verif.SleefProofs Verif.SleefProofs2
  Verif.SleefProofs3 Verif.SleefProofs4 Verif.SleefProofs6 Verif.SleefProofs7.
Local Open Scope Z_scope.

Local Lemma zeros_compute f : plus_zero (f 0) -> minus_zero (f (2 ^ 31)) -> keeps_zeros f.
Proof. intros A B x P. split; intros H; [rewrite (plus_zero_eq x P H) | rewrite (minus_zero_eq x P H)]; assumption. Qed.
Local Lemma mulsign_odd f g : (forall x, pattern x -> pattern (g x)) -> (forall x, pattern x -> g (negf x) = g x) -> (forall x, f x = mulsignf (g x) x) -> odd_function f.
Proof. intros G E F x P. rewrite opposite_neg, !F, E by assumption. apply mulsign_neg; auto. Qed.
Local Lemma mla_pat a b c : pattern (mlaf a b c).
Proof. apply addf_pat. Qed.
#[local] Hint Resolve mla_pat : pat.
(** outside of [-1, 1] *)
Local Lemma not_half x : pattern x -> above 1 (absolute x) -> ltf (fabsfk x) F_5_1 = false /\ eqf (fabsfk x) F_1_0 = false /\ xisnanf x = false.
Proof.
  intros P A. split; [| split].
  - apply gt_not_lt. apply (abs_gt 1); [assumption | assumption | left; valc].
  - apply (gt_not_eq F_1_0). apply (abs_gt 1); [assumption | assumption | right; valc].
  - apply not_nan. rewrite <- abs_nan by assumption. exact (above_not_nan _ _ A).
Qed.
Local Lemma nan_half x : pattern x -> nan x -> ltf (fabsfk x) F_5_1 = false /\ eqf (fabsfk x) F_1_0 = false /\ nan (mulf (subf I_1 (fabsfk x)) F_5_1).
Proof. intros P N. pose proof (nan_fabs x P N) as A. split; [apply ltf_nanl, A | split; [apply eqf_nanl, A | nanp]]. Qed.

Local Lemma one_eq x : pattern x -> is (whole 1) x -> x = I_1.
Proof. intros P H. apply val_eq; [exact P | split; [discriminate | reflexivity] | exact H | discriminate]. Qed.
Local Lemma mone_eq x : pattern x -> is (whole (-1)) x -> x = I_m1.
Proof. intros P H. apply val_eq; [exact P | split; [discriminate | reflexivity] | exact H | discriminate]. Qed.


Theorem C132_asin : like_asin xasinf /\ like_asin xasinf_u1.
Proof.
  split; (split; [| split; [| split; [| split]]]).
  - eapply mulsign_odd; [| | intros x; unfold xasinf; cbv zeta; reflexivity]; cbv beta.
    + intros x P. pat.
    + intros x P. rewrite fabs_neg, mul_negneg by assumption. reflexivity.
  - intros x P N. unfold xasinf. cbv zeta. destruct (nan_half x P N) as (-> & _ & M). apply nan_mulsign; [pat | exact P |]. apply nan_subr, nan_mulr. apply nan_mla3, nan_sqrt, M.
  - apply zeros_compute; vm_compute; reflexivity.
  - intros x P A. unfold xasinf. cbv zeta. destruct (not_half x P A) as (-> & _ & _). apply nan_mulsign; [pat | exact P |]. apply nan_subr, nan_mulr. apply nan_mla3, half_rest; assumption.
  - intros x P. split; intros H; [rewrite (one_eq x P H) | rewrite (mone_eq x P H)]; vm_compute; reflexivity.
  - eapply mulsign_odd; [| | intros x; unfold xasinf_u1; cbv zeta; reflexivity]; cbv beta.
    + intros x P. pat.
    + intros x P. rewrite fabs_neg, mul_negneg by assumption. reflexivity.
  - intros x P N. unfold xasinf_u1. cbv zeta. destruct (nan_half x P N) as (-> & -> & M). apply nan_mulsign; [pat | exact P |]. apply nan_mull, nan_addl. apply n_a2f1, n_sub', n_sqrt, M.
  - apply zeros_compute; vm_compute; reflexivity.
  - intros x P A. unfold xasinf_u1. cbv zeta. destruct (not_half x P A) as (-> & -> & _). apply nan_mulsign; [pat | exact P |]. apply nan_mull, nan_addl. apply n_a2f1, n_sub', n_sqrt_nan, half_rest; assumption.
  - intros x P. split; intros H; [rewrite (one_eq x P H) | rewrite (mone_eq x P H)]; vm_compute; reflexivity.
Qed.
Print Assumptions C132_asin.


Local Lemma eqd_one x : eqd (f2d x) D_1_0 = eqf x F_1_0.
Proof. apply eqd_single. vm_compute. reflexivity. Qed.
Theorem C132_acos : like_acos xacosf /\ like_acos xacosf_u1.
Proof.
  split; (split; [| split]).
  - intros x P N. unfold xacosf. cbv zeta. rewrite !eqd_one. destruct (nan_half x P N) as (-> & -> & M). cbn [negb andb]. rewrite (ltf_nanl x) by exact N.
    apply nan_mull, nan_addl, nan_sqrt, M.
  - intros x P A. unfold xacosf. cbv zeta. rewrite !eqd_one. destruct (not_half x P A) as (-> & -> & _). cbn [negb andb].
    assert (forall r, nan (mulf (addf (SQRTF (mulf (subf I_1 (fabsfk x)) F_5_1)) r) I_2)) as R by (intros r; apply nan_mull, nan_addl, half_rest; assumption).
    apply nan_if; [| apply R]. apply n_a2f2, nan_neg, R.
  - intros x P. split; [| split]; intros H; [rewrite (one_eq x P H) | rewrite (mone_eq x P H) | destruct (zero_eq x P H) as [-> | ->]]; vm_compute; reflexivity.
  - intros x P N. unfold xacosf_u1. cbv zeta. rewrite !eqd_one. destruct (nan_half x P N) as (-> & -> & M). cbn [negb andb]. rewrite (ltf_nanl x) by exact N.
    apply nan_addl, n_scale, n_a2f1, n_sqrt, M.
  - intros x P A. unfold xacosf_u1. cbv zeta. rewrite !eqd_one. destruct (not_half x P A) as (-> & -> & _). cbn [negb andb].
    assert (forall r, nan (fx (dfscale_f2_f2_f (dfadd_f2_f2_f (dfsqrt_f2_f (mulf (subf I_1 (fabsfk x)) F_5_1)) r) I_2))) as R by (intros r; apply n_scale, n_a2f1, n_sqrt_nan, half_rest; assumption).
    destruct (ltf x I_0); [apply nan_addl, n_sub', R | apply nan_addl, R].
  - intros x P. split; [| split]; intros H; [rewrite (one_eq x P H) | rewrite (mone_eq x P H) | destruct (zero_eq x P H) as [-> | ->]]; vm_compute; reflexivity.
Qed.
Print Assumptions C132_acos.

(** atan *)
Local Lemma neg_neg x : pattern x -> negf (negf x) = x.
Proof. intros P. split_p x. rewrite !opp_split by assumption. rewrite negb_involutive. reflexivity. Qed.
(** the value for a number without sign, as xatanf computes it *)
Local Definition atan_core (s : Z) : Z :=
  let t := if ltf I_1 s then divf F_1_0 s else s in
  let p := let t1 := mulf t t in let t2 := mulf t1 t1 in
    addf t (mulf t (mulf t1 (POLY8 t1 t2 (mulf t2 t2) F_282363896258175373077393_26 (negf F_159569028764963150024414_25) F_425049886107444763183594_25 (negf F_748900920152664184570312_25)
      F_106347933411598205566406_24 (negf F_142027363181114196777344_24) F_199926957488059997558594_24 (negf F_333331018686294555664062_24)))) in
  if ltf I_1 s then subf F_1570796326794896557998982_24 p else p.
Local Lemma atan_form x : pattern x -> xatanf x = if sign_of binary32 x then negf (atan_core (negf x)) else atan_core x.
Proof.
  intros P. unfold xatanf. rewrite sign_m1 by assumption. unfold atan_core.
  destruct (sign_of binary32 x); cbv zeta; match goal with |- context [ltf I_1 ?a] => destruct (ltf I_1 a) end; reflexivity.
Qed.
Local Lemma core_pat x : pattern (atan_core x).
Proof. unfold atan_core. cbv zeta. apply if_pat; pat. Qed.
Local Lemma core_nan x : nan x -> nan (atan_core x).
Proof. intros N. unfold atan_core. cbv zeta. rewrite (ltf_nanr I_1 x N). apply nan_addl, N. Qed.


Local Lemma pinf_eq x : pattern x -> plus_infinity x -> x = SLEEF_INFINITYf.
Proof. intros P H. apply val_eq; [exact P | exact inff_pat | exact H | discriminate]. Qed.
Local Lemma minf_eq x : pattern x -> minus_infinity x -> x = negf SLEEF_INFINITYf.
Proof. intros P H. apply val_eq; [exact P | apply neg_pat, inff_pat | exact H | discriminate]. Qed.

Theorem C132_atan : like_atan xatanf /\ like_atan xatanf_u1.
Proof.
  split; (split; [| split; [| split]]).
  - intros x P. rewrite opposite_neg, !atan_form by pat. rewrite sign_neg, neg_neg by assumption.
    destruct (sign_of binary32 x); cbn [negb]; rewrite val_neg by apply core_pat; [rewrite negated2; reflexivity | reflexivity].
  - intros x P N. rewrite atan_form by assumption. destruct (sign_of binary32 x); [apply nan_neg |]; apply core_nan; [apply nan_neg |]; exact N.
  - apply zeros_compute; vm_compute; reflexivity.
  - intros x P. split; intros H; [rewrite (pinf_eq x P H) | rewrite (minf_eq x P H)]; vm_compute; reflexivity.
  - eapply mulsign_odd; [| | intros x; unfold xatanf_u1; cbv zeta; reflexivity]; cbv beta.
    + intros x P. apply if_pat; [split; [discriminate | reflexivity] | pat].
    + intros x P. rewrite fabs_neg, isinf_neg by assumption. reflexivity.
  - intros x P N. unfold xatanf_u1. cbv zeta. rewrite isinf_iff, N. apply nan_mulsign; [pat | exact P |]. apply nan_addl.
    pose proof (nan_fabs x P N) as A. unfold atan2kf_u1. cbn [fx fy]. cbv zeta.
    replace (ltf F_1_0 I_0) with false by (vm_compute; reflexivity). cbn [fx fy]. rewrite (ltf_nanr _ _ A). apply n_a2222', n_m22, n_div, A.
  - apply zeros_compute; vm_compute; reflexivity.
  - intros x P. split; intros H; [rewrite (pinf_eq x P H) | rewrite (minf_eq x P H)]; vm_compute; reflexivity.
Qed.
Print Assumptions C132_atan.

(** the last lines of both versions of atan2 *)
Local Definition angle (y x r : Z) : Z :=
  let r := if xisinff x || eqf x I_0 then subf (divf DF_314159265358979323846_20 I_2) (if xisinff x then mulf (signf x) (d2f (divd D_314159265358979323846_20 ID_2)) else I_0) else r in
  let r := if xisinff y then subf (divf DF_314159265358979323846_20 I_2) (if xisinff x then mulf (signf x) (d2f (divd (muld D_314159265358979323846_20 ID_1) ID_4)) else I_0) else r in
  let r := if eqf y I_0 then (if eqf (signf x) I_m1 then DF_314159265358979323846_20 else I_0) else r in
  if xisnanf x || xisnanf y then SLEEF_NANf else mulsignf r y.

Local Lemma eq0_iff x : eqf x I_0 = match val x with FFin _ m => m =? 0 | _ => false end.
Proof.
  rewrite eqf_val, val_I0. destruct (val x) as [| [] | s m]; try reflexivity. unfold feqb. cbn [fle]. apply eq_iff_eq_true. rewrite andb_true_iff, !Z.leb_le, Z.eqb_eq.
  destruct s; cbn [sval]; lia.
Qed.
Local Lemma turn_pat (a b c d : bool) e u v r : pattern r -> pattern (if a then (if b then DF_314159265358979323846_20 else I_0) else if c then subf e u else if d then subf e v else r) .
Proof. intros R. apply if_pat; [apply if_pat; split; [discriminate | reflexivity | discriminate | reflexivity] |]. apply if_pat; [apply subf_pat |]. apply if_pat; [apply subf_pat | exact R]. Qed.
Local Lemma angle_pat y x r : pattern y -> pattern r -> pattern (angle y x r).
Proof. intros P R. unfold angle. cbv zeta. apply if_pat; [apply nanf_pat |]. apply mulsign_pat; [| exact P]. apply turn_pat, R. Qed.
Local Lemma angle_neg y x r : pattern y -> pattern r -> val (angle (negf y) x r) = negated (val (angle y x r)).
Proof.
  intros P R. unfold angle. cbv zeta. rewrite !isnan_neg, isinf_neg by assumption. destruct (xisnanf x || xisnanf y); [reflexivity |].
  assert (eqf (negf y) I_0 = eqf y I_0) as ->. { rewrite !eq0_iff, val_neg by assumption. destruct (val y); reflexivity. }
  apply mulsign_neg; [| exact P]. apply turn_pat, R.
Qed.
Local Definition table (y x r : Z) : Prop :=
  (nan y \/ nan x -> nan r) /\
  (~ nan x -> a_zero y -> is (signed (sign_of binary32 y) (if sign_of binary32 x then pi_1 else FFin false 0)) r) /\
  (a_zero x -> ~ a_zero y -> ~ nan y -> is (signed (sign_of binary32 y) pi_2) r) /\
  (an_infinity y -> finite x -> is (signed (sign_of binary32 y) pi_2) r) /\
  (an_infinity y -> an_infinity x -> is (signed (sign_of binary32 y) (if sign_of binary32 x then pi_34 else pi_4)) r) /\
  (finite y -> an_infinity x -> is (signed (sign_of binary32 y) (if sign_of binary32 x then pi_1 else FFin false 0)) r).
Local Lemma pi_pat : pattern DF_314159265358979323846_20.
Proof. split; [discriminate | reflexivity]. Qed.
Local Definition kpi : Z := 1078530011.
Local Definition khalf : Z := 1070141403.
Local Definition kquarter : Z := 1061752795.
Local Definition kthree : Z := 1075235812.
Local Lemma half_eq : subf (divf DF_314159265358979323846_20 I_2) I_0 = khalf.
Proof. vm_compute. reflexivity. Qed.
Local Lemma full_eq (s : bool) : subf (divf DF_314159265358979323846_20 I_2) (mulf (if s then I_m1 else I_1) (d2f (divd D_314159265358979323846_20 ID_2))) = if s then kpi else 0.
Proof. destruct s; vm_compute; reflexivity. Qed.
Local Lemma quarter_eq (s : bool) : subf (divf DF_314159265358979323846_20 I_2) (mulf (if s then I_m1 else I_1) (d2f (divd (muld D_314159265358979323846_20 ID_1) ID_4))) = if s then kthree else kquarter.
Proof. destruct s; vm_compute; reflexivity. Qed.
Local Lemma pi_eq : DF_314159265358979323846_20 = kpi.
Proof. vm_compute. reflexivity. Qed.
Local Lemma k_pat : pattern kpi /\ pattern khalf /\ pattern kquarter /\ pattern kthree /\ pattern 0.
Proof. unfold pattern, kpi, khalf, kquarter, kthree. lia. Qed.
Local Lemma k_val : val kpi = pi_1 /\ val khalf = pi_2 /\ val kquarter = pi_4 /\ val kthree = pi_34 /\ val 0 = FFin false 0.
Proof. vm_compute. split; [| split; [| split; [| split]]]; reflexivity. Qed.
Local Lemma angle_table y x r : pattern y -> pattern x -> table y x (angle y x r).
Proof.
  intros Py Px. unfold angle. cbv zeta. rewrite !isnan_iff, !isinf_iff, !eq0_iff, sign_m1, signf_eq by assumption.
  destruct k_pat as (P1 & P2 & P3 & P4 & P5). destruct k_val as (V1 & V2 & V3 & V4 & V5). change I_0 with 0 in *.
  pose proof full_eq as Fe. pose proof quarter_eq as Qe. pose proof half_eq as He. change I_0 with 0 in He.
  split; [| split; [| split; [| split; [| split]]]]; unfold is.
  - intros [N | N]; rewrite N, ?orb_true_r; reflexivity.
  - intros N (s & Z). rewrite Z. cbn [orb]. rewrite pi_eq. destruct (val x) eqn:V; [contradiction (N V) | |]; cbn [orb]; change (0 =? 0) with true; cbv iota;
      (rewrite val_mulsign by (assumption || (apply if_pat; assumption)); destruct (sign_of binary32 x); [rewrite V1 | rewrite V5]; reflexivity).
  - intros (s & Z) NZ N. rewrite Z. cbn [orb]. change (0 =? 0) with true. cbv iota. rewrite He. destruct (val y) as [| t | t m] eqn:V; [contradiction (N V) | |]; cbv iota.
    + rewrite val_mulsign, V2 by assumption. reflexivity.
    + destruct (Z.eqb_spec m 0) as [-> | M]; [destruct NZ; exists t; exact V |]. rewrite val_mulsign, V2 by assumption. reflexivity.
  - intros (s & I) (t & m & F). rewrite I, F. cbn [orb]. rewrite He, val_mulsign, V2 by assumption. reflexivity.
  - intros (s & I) (t & J). rewrite I, J. cbn [orb]. rewrite Qe, val_mulsign by (assumption || (apply if_pat; assumption)). destruct (sign_of binary32 x); [rewrite V4 | rewrite V3]; reflexivity.
  - intros (s & m & F) (t & J). rewrite F, J. cbn [orb]. rewrite Fe, pi_eq. destruct (Z.eqb_spec m 0) as [-> | M]; rewrite val_mulsign by (assumption || (apply if_pat; assumption));
      destruct (sign_of binary32 x); [rewrite V1 | rewrite V5 | rewrite V1 | rewrite V5]; reflexivity.
Qed.
Local Lemma kf_pat y x : pattern (atan2kf y x).
Proof. unfold atan2kf. destruct (ltf x I_0); cbv zeta; destruct (ltf _ y); apply addf_pat. Qed.

Local Lemma table_odd f : (forall y x, pattern y -> pattern x -> table y x (f y x) /\ val (f (negf y) x) = negated (val (f y x))) -> like_atan2 f.
Proof.
  intros H y x Py Px. destruct (H y x Py Px) as ((A & B & C & D & E & F) & O). rewrite opposite_neg. split; [exact A | split; [exact O | split; [exact B | split; [exact C | split; [exact D | split; [exact E | exact F]]]]]].
Qed.

(** x and y multiplied by 2^24 *)
Local Lemma scale_sign x : pattern x -> ~ nan x -> let z := mulf x (fint (Z.shiftl 1 24)) in
  pattern z /\ ~ nan z /\ sign_of binary32 z = sign_of binary32 x /\ (a_zero z <-> a_zero x) /\ (an_infinity x -> an_infinity z).
Proof.
  intros P N z. assert (pattern z) as Pz by apply mulf_pat. assert (val (fint (Z.shiftl 1 24)) = FFin false (2 ^ 173)) as C by (vm_compute; reflexivity).
  assert (exists s, (val x = FInf s /\ val z = FInf s) \/ (val x = FFin s 0 /\ val z = FFin s 0) \/
    (exists m, val x = FFin s m /\ m <> 0 /\ (val z = FInf s \/ exists k, val z = FFin s k /\ 0 < k))) as (s & H).
  { unfold z. destruct (val x) as [| s | s m] eqn:V; [contradiction (N V) | |]; exists s; rewrite (mul_val _ _ _ _ V C).
    - left. split; [reflexivity |]. destruct s; reflexivity.
    - right. pose proof (val_nonneg _ _ _ V). destruct (Z.eqb_spec m 0) as [-> | M].
      + left. split; [reflexivity |]. destruct s; vm_compute; reflexivity.
      + right. exists m. split; [reflexivity |]. split; [exact M |]. rewrite xorb_false_r. apply encode_nonzero; [discriminate |]. change (2 ^ 173) with (2 ^ 24 * 2 ^ 149). assert (0 < 2 ^ 149) by reflexivity. nia. }
  pose proof (val_sign x P) as Sx. pose proof (val_sign z Pz) as Sz. split; [exact Pz |].
  destruct H as [(A & B) | [(A & B) | (m & A & M & [B | (k & B & K)])]]; rewrite A in Sx; rewrite B in Sz; unfold nan, a_zero, an_infinity; rewrite A, B;
    (split; [discriminate | split; [congruence | split; [| intros (t & [=]); exists t; congruence]]]);
    (split; intros (t & [=]); exists t; congruence || lia).
Qed.
(** a number below 2^-128 times 2^24 is finite *)
Local Lemma tiny_finite x s m : val x = FFin s m -> m <= 2 ^ 24 -> finite (mulf x (fint (Z.shiftl 1 24))).
Proof.
  intros V M. assert (val (fint (Z.shiftl 1 24)) = FFin false (2 ^ 173)) as C by (vm_compute; reflexivity). rewrite (mul_val _ _ _ _ V C). pose proof (val_nonneg _ _ _ V).
  destruct (encode_finite (xorb s false) (m * 2 ^ 173) 149 1065353216) as (k & K & _); [discriminate | split; [discriminate | reflexivity] | | eexists; eexists; exact K].
  replace (vmag binary32 1065353216) with (2 ^ 149) by (vm_compute; reflexivity). change (2 ^ 149 * 2 ^ 149) with (2 ^ 125 * 2 ^ 173). assert (2 ^ 24 <= 2 ^ 125) by discriminate. assert (0 < 2 ^ 173) by reflexivity. nia.
Qed.
Local Lemma table_scaled y x y' x' r : pattern y -> pattern x -> ltf (fabsfk x) F_29387372783541830947_58 = true -> y' = mulf y (fint (Z.shiftl 1 24)) -> x' = mulf x (fint (Z.shiftl 1 24)) ->
  table y' x' (angle y' x' r) -> table y x (angle y' x' r).
Proof.
  intros Py Px L -> -> (A & B & C & D & E & G). rewrite ltf_val, val_fabs in L by assumption.
  assert (exists t m, val x = FFin t m /\ m <= 2 ^ 24) as (t & m & F & M).
  { destruct (val x) as [| t | t m] eqn:V; [discriminate | vm_compute in L; discriminate |]. exists t, m. split; [reflexivity |].
    assert (val F_29387372783541830947_58 = FFin false 2097153) as W by (vm_compute; reflexivity). rewrite W in L.
    cbn [flt fle sval] in L. apply negb_true_iff, Z.leb_gt in L. assert (2097153 <= 2 ^ 24) by discriminate. lia. }
  assert (~ nan x) as Nx by (intros V; unfold nan in V; congruence).
  destruct (scale_sign x Px Nx) as (_ & Nx' & Sx & Zx & _). split; [| split; [| split; [| split; [| split]]]].
  - intros [N | N]; [apply A; left; apply nan_mull, N | contradiction].
  - intros _ Z. assert (~ nan y) as Ny by (intros V; destruct Z as (s & Z); unfold nan in V; congruence).
    destruct (scale_sign y Py Ny) as (_ & _ & Sy & Zy & _). rewrite <- Sy, <- Sx. apply B; tauto.
  - intros Z NZ N. destruct (scale_sign y Py N) as (_ & Ny' & Sy & Zy & _). rewrite <- Sy. apply C; tauto.
  - intros I _. assert (~ nan y) as Ny by (intros V; destruct I as (s & I); unfold nan in V; congruence).
    destruct (scale_sign y Py Ny) as (_ & _ & Sy & _ & Iy). specialize (Iy I). rewrite <- Sy. apply D; [exact Iy |]. exact (tiny_finite x t m F M).
  - intros _ (s & I). congruence.
  - intros _ (s & I). congruence.
Qed.

Local Lemma angle_nan y x r : nan y -> nan (angle y x r).
Proof. intros N. unfold angle. cbv zeta. rewrite (yes_nan y N), orb_true_r. reflexivity. Qed.
Local Lemma u1_pat p q : pattern (addf (fx (atan2kf_u1 p q)) (fy (atan2kf_u1 p q))).
Proof. apply addf_pat. Qed.

Theorem C132_atan2 : like_atan2 xatan2f /\ like_atan2 xatan2f_u1.
Proof.
  split; apply table_odd; intros y x Py Px.
  - assert (forall z, xatan2f z x = angle z x (mulsignf (atan2kf (fabsfk z) x) x)) as S by (intros z; reflexivity).
    rewrite !S. split; [apply angle_table; assumption |]. rewrite fabs_neg by assumption. apply angle_neg; [assumption |]. apply mulsign_pat; [apply kf_pat | assumption].
  - set (r z v := let d := atan2kf_u1 (F2 (fabsfk z) I_0) (F2 v I_0) in mulsignf (addf (fx d) (fy d)) v).
    assert (forall z, xatan2f_u1 z x = if ltf (fabsfk x) F_29387372783541830947_58 then let y' := mulf z (fint (Z.shiftl 1 24)) in let x' := mulf x (fint (Z.shiftl 1 24)) in angle y' x' (r y' x') else angle z x (r z x)) as S.
    { intros z. unfold xatan2f_u1, angle, r. destruct (ltf (fabsfk x) F_29387372783541830947_58); reflexivity. }
    assert (forall z v, pattern v -> pattern (r z v)) as Rp by (intros z v V; apply mulsign_pat; [apply addf_pat | exact V]).
    rewrite !S. destruct (ltf (fabsfk x) F_29387372783541830947_58) eqn:L; cbv zeta.
    + split; [apply table_scaled; auto; apply angle_table; apply mulf_pat |].
      assert (opp_or_nan y (negf y)) as O by (right; split; [exact Py | reflexivity]). apply (mul_opp _ _ (fint (Z.shiftl 1 24))) in O.
      destruct O as [[N1 N2] | [Pm ->]].
      * pose proof (angle_nan _ (mulf x (fint (Z.shiftl 1 24))) (r (mulf y (fint (Z.shiftl 1 24))) (mulf x (fint (Z.shiftl 1 24)))) N1) as A1.
        pose proof (angle_nan _ (mulf x (fint (Z.shiftl 1 24))) (r (mulf (negf y) (fint (Z.shiftl 1 24))) (mulf x (fint (Z.shiftl 1 24)))) N2) as A2. unfold nan in A1, A2. rewrite A1, A2. reflexivity.
      * replace (r (negf (mulf y (fint (Z.shiftl 1 24)))) (mulf x (fint (Z.shiftl 1 24)))) with (r (mulf y (fint (Z.shiftl 1 24))) (mulf x (fint (Z.shiftl 1 24)))) by (unfold r; rewrite fabs_neg by exact Pm; reflexivity).
        apply angle_neg; [exact Pm |]. apply Rp, mulf_pat.
    + split; [apply angle_table; assumption |].
      replace (r (negf y) x) with (r y x) by (unfold r; rewrite fabs_neg by exact Py; reflexivity). apply angle_neg; [exact Py |]. apply Rp, Px.
Qed.
Print Assumptions C132_atan2.

(** the hypotheses are met *)
Example C132_example : above 1 (absolute (fint (-3))) /\ ~ nan (fint (-3)) /\ a_zero (2 ^ 31) /\ finite (fint 5) /\ val (xatan2f (2 ^ 31) (fint (-3))) = negated pi_1.
Proof.
  split; [vm_compute; reflexivity |]. split; [intros H; vm_compute in H; discriminate H |]. split; [exists true; vm_compute; reflexivity |].
  split; [eexists; eexists; vm_compute; reflexivity | vm_compute; reflexivity].
Qed.
