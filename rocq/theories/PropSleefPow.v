(** C130: pow. *)
Require Import ZArith List Bool Lia.
Require Import Verif.FloatSpec Verif.FloatProofs Verif.FloatArith Verif.FloatArithSpec Verif.FloatArithProofs2 Verif.RoundEven Verif.X86CvtSpec Verif.SleefBase Verif.Sleef Verif.SleefSpec Verif.SleefProofs Verif.SleefProofs2
  Verif.SleefProofs3 Verif.SleefProofs4 Verif.SleefProofs5.
Local Open Scope Z_scope.

Local Definition core (U : Z -> Z) (x y : Z) : Z :=
  let r := expkf U (dfmul_f2_f2_f (logkf (fabsfk x)) y) in if xisnanf r then SLEEF_INFINITYf else r.
Local Lemma pow_eq U x y : xpowf U x y =
  if eqf y I_0 || eqf x I_1 then I_1 else
  if xisnanf x || xisnanf y then SLEEF_NANf else
  if xisinff x || eqf x I_0 then mulf (if powodd U y then signf x else I_1) (if ltf (if eqf x I_0 then negf y else y) I_0 then I_0 else SLEEF_INFINITYf) else
  let efx := mulsignf (subf (fabsfk x) I_1) y in
  if xisinff y then (if ltf efx I_0 then F_0_1 else if eqf efx I_0 then F_1_0 else SLEEF_INFINITYf) else
  mulf (core U x y) (if lef I_0 x then I_1 else if negb (powint U y) then SLEEF_NANf else fint (if powodd U y then - 1 else 1)).
Proof. unfold xpowf, powodd, powint, core. cbv zeta. reflexivity. Qed.

(** anything to the power zero and one to any power, even a NaN *)
Theorem C130_one U x y : a_zero y \/ is (whole 1) x -> is (whole 1) (xpowf U x y).
Proof.
  intros H. rewrite pow_eq.
  assert (eqf y I_0 || eqf x I_1 = true) as ->; [| reflexivity].
  rewrite !eqf_val. destruct H as [(s & ->) | ->]; [destruct s; reflexivity | apply orb_true_r].
Qed.
Print Assumptions C130_one.

Local Lemma not_one x y : pattern x -> pattern y -> ~ a_zero y -> ~ is (whole 1) x -> eqf y I_0 || eqf x I_1 = false.
Proof.
  intros P P' Y X. apply orb_false_iff. rewrite !eqf_val. split.
  - destruct (val y) as [| [] | s m] eqn:E; try reflexivity. pose proof (val_nonneg _ _ _ E).
    destruct (Z.eq_dec m 0) as [-> | N]; [destruct Y; exists s; exact E |]. unfold feqb. change (val I_0) with (FFin false 0). cbn [fle].
    apply not_true_iff_false. rewrite andb_true_iff, !Z.leb_le. destruct s; cbn [sval]; lia.
  - destruct (val x) as [| [] | s m] eqn:E; try reflexivity. pose proof (val_nonneg _ _ _ E).
    change (val I_1) with (FFin false (2 ^ 149)). unfold feqb. cbn [fle]. apply not_true_iff_false. rewrite andb_true_iff, !Z.leb_le.
    intros [A B]. apply X. red. rewrite E. assert (0 < 2 ^ 149) by reflexivity. destruct s; cbn [sval] in *; [lia |].
    change (whole 1) with (FFin false (2 ^ 149)). f_equal. lia.
Qed.

(** a NaN otherwise *)
Theorem C130_nan U x y : pattern x -> pattern y -> ~ a_zero y -> ~ is (whole 1) x -> nan x \/ nan y -> nan (xpowf U x y).
Proof.
  intros P P' Y X H. rewrite pow_eq, not_one by assumption. rewrite !isnan_iff.
  assert ((match val x with FNaN => true | _ => false end) || (match val y with FNaN => true | _ => false end) = true) as ->; [| reflexivity].
  destruct H as [-> | ->]; [reflexivity | apply orb_true_r].
Qed.
Print Assumptions C130_nan.

(** an infinite exponent *)
Local Lemma efx_sign x y s : pattern x -> pattern y -> ~ nan x -> sign_of binary32 y = s ->
  let efx := mulsignf (subf (fabsfk x) I_1) y in
  (below 1 (absolute x) -> ltf efx I_0 = negb s /\ eqf efx I_0 = false) /\
  (above 1 (absolute x) -> ltf efx I_0 = s /\ eqf efx I_0 = false) /\
  (is (whole 1) (absolute x) -> ltf efx I_0 = false /\ eqf efx I_0 = true).
Proof.
  intros P P' N S efx.
  assert (val efx = if s then negated (val (subf (fabsfk x) I_1)) else val (subf (fabsfk x) I_1)) as E.
  { unfold efx. rewrite val_mulsign by pat. rewrite S. reflexivity. }
  rewrite ltf_val, eqf_val, val_I0, E. clear E. clearbody efx. unfold below, above, is. rewrite absolute_fabs by assumption.
  pose proof (val_fabs x P) as V. destruct (val x) as [| t | t m] eqn:W; [contradiction | |].
  - rewrite V. split; [discriminate | split; [| discriminate]]. intros _.
    assert (val (subf (fabsfk x) I_1) = FInf false) as ->; [| destruct s; split; reflexivity].
    unfold subf, fsub, fadd. fold (val (fabsfk x)). rewrite V. reflexivity.
  - rewrite V. pose proof (val_nonneg _ _ _ W). pose proof (sub_sign (fabsfk x) I_1 false m false (2 ^ 149) ltac:(split; [discriminate | reflexivity]) V eq_refl) as D.
    cbn [sval] in D. change (whole 1) with (FFin false (2 ^ 149)). cbn [flt fle sval]. rewrite !negb_true_iff, !Z.leb_gt.
    split; [| split]; intros L.
    + destruct D as [[? _] | [_ D]]; [lia |]. replace (m - 2 ^ 149 <? 0) with true in D by (symmetry; apply Z.ltb_lt; lia).
      destruct D as [-> | (k & -> & K)]; [destruct s; split; reflexivity |]. destruct k; try lia. destruct s; split; reflexivity.
    + destruct D as [[? _] | [_ D]]; [lia |]. replace (m - 2 ^ 149 <? 0) with false in D by (symmetry; apply Z.ltb_ge; lia).
      destruct D as [-> | (k & -> & K)]; [destruct s; split; reflexivity |]. destruct k; try lia. destruct s; split; reflexivity.
    + injection L as ->. destruct D as [[_ (u & ->)] | [? _]]; [| lia]. destruct s, u; split; reflexivity.
Qed.

Local Lemma zero_val x : pattern x -> (eqf x I_0 = true <-> a_zero x).
Proof.
  intros P. rewrite eqf_val, val_I0. split.
  - destruct (val x) as [| [] | s m] eqn:E; try discriminate. unfold feqb. cbn [fle]. rewrite andb_true_iff, !Z.leb_le. intros [A B]. exists s. rewrite E. f_equal. destruct s; cbn [sval] in *; lia.
  - intros (s & ->). destruct s; reflexivity.
Qed.
Local Lemma abs_zero x : pattern x -> a_zero x -> below 1 (absolute x).
Proof. intros P (s & Z0). unfold below. rewrite absolute_fabs, val_fabs, Z0 by assumption. reflexivity. Qed.
Local Lemma abs_inf x : pattern x -> an_infinity x -> above 1 (absolute x).
Proof. intros P (s & Z0). unfold above. rewrite absolute_fabs, val_fabs, Z0 by assumption. reflexivity. Qed.
Local Lemma above_not a : above 1 a -> ~ below 1 a /\ ~ is (whole 1) a /\ ~ nan a.
Proof.
  unfold above, below, is, nan. intros A. split; [| split].
  - intros B. rewrite (flt_asym _ _ B) in A. discriminate.
  - intros B. rewrite B in A. discriminate.
  - intros B. rewrite B in A. discriminate.
Qed.

Theorem C130_infinite_exponent U x y : pattern x -> pattern y -> ~ is (whole 1) x -> an_infinity y ->
  (above 1 (absolute x) /\ plus_infinity y \/ below 1 (absolute x) /\ minus_infinity y -> plus_infinity (xpowf U x y)) /\
  (above 1 (absolute x) /\ minus_infinity y \/ below 1 (absolute x) /\ plus_infinity y -> plus_zero (xpowf U x y)) /\
  (is (whole (-1)) x -> is (whole 1) (xpowf U x y)).
Proof.
  intros P P' X I.
  assert (~ a_zero y) as Y. { destruct I as (t & I). intros (s & Z0). rewrite I in Z0. discriminate. }
  rewrite pow_eq, not_one by assumption. rewrite powodd_inf by assumption. rewrite !isnan_iff, !isinf_iff.
  destruct I as (t & I). rewrite I.
  assert (sign_of binary32 y = t) as S. { pose proof (val_sign y P') as S. rewrite I in S. symmetry; exact S. }
  destruct (val x) as [| u | u m] eqn:V.
  { assert (nan (fabsfk x)) as N by (red; rewrite val_fabs, V by assumption; reflexivity).
    unfold above, below, is. rewrite absolute_fabs by assumption. rewrite N, V. cbn. split; [| split]; intuition discriminate. }
  - cbn [orb]. unfold above, below, plus_infinity, minus_infinity, plus_zero, is. rewrite absolute_fabs, val_fabs, I by assumption. rewrite V.
    cbn [flt fle negb whole]. rewrite (eqf_val x), V. replace (feqb (FInf u) (val I_0)) with false by (destruct u; reflexivity). rewrite (ltf_val y), I, val_I0.
    split; [| split]; intros H; destruct t; try (exfalso; intuition discriminate); vm_compute; reflexivity.
  - cbn [orb]. destruct (eqf x I_0) eqn:Z0.
    + apply zero_val in Z0; [| assumption]. pose proof (abs_zero x P Z0) as B. rewrite (ltf_val (negf y)), val_neg, I, val_I0 by assumption.
      unfold plus_infinity at 1 3, minus_infinity at 1 2, plus_zero. rewrite I. destruct Z0 as (v & Z0). 
      split; [| split]; intros H.
      * destruct H as [[A _] | [_ H]]; [destruct (above_not _ A); contradiction |]. injection H as ->. vm_compute. reflexivity.
      * destruct H as [[A _] | [_ H]]; [destruct (above_not _ A); contradiction |]. injection H as ->. vm_compute. reflexivity.
      * red in H. rewrite Z0 in H. discriminate.
    + cbv zeta. destruct (efx_sign x y t P P' ltac:(unfold nan; rewrite V; discriminate) S) as (B & A & O).
      unfold plus_infinity at 1 3, minus_infinity at 1 2. rewrite I.
      split; [| split]; intros H.
      * destruct H as [[H T] | [H T]]; injection T as ->; [destruct (A H) as [E1 E2] | destruct (B H) as [E1 E2]]; rewrite E1; cbn [negb]; rewrite ?E2; reflexivity.
      * destruct H as [[H T] | [H T]]; injection T as ->; [destruct (A H) as [E1 E2] | destruct (B H) as [E1 E2]]; rewrite E1; cbn [negb]; rewrite ?E2; reflexivity.
      * assert (is (whole 1) (absolute x)) as H'. { unfold is. rewrite absolute_fabs, val_fabs, H by assumption. reflexivity. }
        destruct (O H') as [-> ->]. reflexivity.
Qed.
Print Assumptions C130_infinite_exponent.

Local Lemma neg_below y : pattern y -> ltf (negf y) I_0 = flt (whole 0) (val y).
Proof.
  intros P. rewrite ltf_val, val_neg, val_I0 by assumption. destruct (val y) as [| [] | s m] eqn:E; try reflexivity. cbn [negated flt fle whole Z.abs Z.mul Z.ltb Z.compare].
  f_equal. apply eq_iff_eq_true. rewrite !Z.leb_le. destruct s; cbn [sval negb]; lia.
Qed.
Local Lemma sign_one x : pattern x -> val (signf x) = if sign_of binary32 x then FFin true (2 ^ 149) else FFin false (2 ^ 149).
Proof. intros P. unfold signf. rewrite val_mulsign; [| split; [discriminate | reflexivity] | exact P]. destruct (sign_of binary32 x); reflexivity. Qed.
Local Lemma mul_val a b v : val a = v -> mulf a b = match v, val b with
  | FNaN, _ | _, FNaN => nan_bits binary32
  | FInf s, FInf s' => sign_bit binary32 (xorb s s') + inf_bits binary32
  | FInf s, FFin s' m => if m =? 0 then nan_bits binary32 else sign_bit binary32 (xorb s s') + inf_bits binary32
  | FFin s m, FInf s' => if m =? 0 then nan_bits binary32 else sign_bit binary32 (xorb s s') + inf_bits binary32
  | FFin s m, FFin s' m' => encode binary32 (xorb s s') (m * m') 149
  end.
Proof. intros <-. reflexivity. Qed.

(** an infinite base *)
Theorem C130_infinite_base U x y : pattern x -> pattern y -> an_infinity x ->
  (above 0 y -> plus_infinity x \/ ~ an_odd_integer y -> plus_infinity (xpowf U x y)) /\
  (above 0 y -> minus_infinity x -> an_odd_integer y -> minus_infinity (xpowf U x y)) /\
  (below 0 y -> plus_infinity x \/ ~ an_odd_integer y -> plus_zero (xpowf U x y)) /\
  (below 0 y -> minus_infinity x -> an_odd_integer y -> minus_zero (xpowf U x y)).
Proof.
  intros P P' (t & I). pose proof (val_sign x P) as S. rewrite I in S.
  assert (forall b : bool, (b = true -> ~ a_zero y /\ ~ nan y /\ (an_infinity y \/ finite y)) ->
    (b = true -> ltf y I_0 = false -> plus_infinity x \/ ~ an_odd_integer y -> plus_infinity (xpowf U x y)) /\
    (b = true -> ltf y I_0 = false -> minus_infinity x -> an_odd_integer y -> minus_infinity (xpowf U x y)) /\
    (b = true -> ltf y I_0 = true -> plus_infinity x \/ ~ an_odd_integer y -> plus_zero (xpowf U x y)) /\
    (b = true -> ltf y I_0 = true -> minus_infinity x -> an_odd_integer y -> minus_zero (xpowf U x y))) as K.
  { intros b Y. destruct b; [| split; [| split; [| split]]; discriminate]. destruct (Y eq_refl) as (Y0 & YN & YF). clear Y.
    rewrite pow_eq, not_one; try assumption; [| unfold is; rewrite I; discriminate]. rewrite !isnan_iff, !isinf_iff. rewrite I.
    assert (match val y with FNaN => true | _ => false end = false) as -> by (unfold nan in YN; destruct (val y); congruence). cbn [orb].
    rewrite (eqf_val x), I. replace (feqb (FInf t) (val I_0)) with false by (destruct t; reflexivity).
    unfold plus_infinity at 1 3, minus_infinity at 1 3. rewrite I.
    assert (powodd U y = true <-> an_odd_integer y) as O.
    { destruct YF as [YF | YF]; [| apply powodd_ok; assumption]. rewrite powodd_inf by assumption. split; [discriminate |].
      intros (s & m & V & _). destruct YF as (s' & V'). rewrite V in V'. discriminate. }
    pose proof (sign_one x P) as S1. rewrite <- S in S1.
    split; [| split; [| split]]; intros _ ->.
    - intros H. destruct (powodd U y) eqn:E; [| vm_compute; reflexivity]. destruct H as [H | H]; [injection H as -> | destruct H; apply O; reflexivity].
      unfold plus_infinity. rewrite (mul_val _ _ _ S1). reflexivity.
    - intros H H'. apply O in H'. rewrite H'. injection H as ->. unfold minus_infinity. rewrite (mul_val _ _ _ S1). reflexivity.
    - intros H. destruct (powodd U y) eqn:E; [| vm_compute; reflexivity]. destruct H as [H | H]; [injection H as -> | destruct H; apply O; reflexivity].
      unfold plus_zero. rewrite (mul_val _ _ _ S1). reflexivity.
    - intros H H'. apply O in H'. rewrite H'. injection H as ->. unfold minus_zero. rewrite (mul_val _ _ _ S1). reflexivity. }
  assert (above 0 y \/ below 0 y -> ~ a_zero y /\ ~ nan y /\ (an_infinity y \/ finite y)) as Y.
  { unfold above, below. intros H. split; [| split].
    - intros (s & Z0). rewrite Z0 in H. destruct s; destruct H; discriminate.
    - intros Z0. red in Z0. rewrite Z0 in H. destruct H; discriminate.
    - destruct (val y) eqn:E; [destruct H; discriminate | left; eexists; exact E | right; eexists; eexists; exact E]. }
  assert (above 0 y -> ltf y I_0 = false) as A by (intros H; apply gt_not_lt; exact H).
  assert (below 0 y -> ltf y I_0 = true) as B by (intros H; exact H).
  split; [| split; [| split]]; intros H; destruct (K true) as (K1 & K2 & K3 & K4); try (intros _; apply Y; auto); auto.
Qed.
Print Assumptions C130_infinite_base.

(** a zero base *)
Theorem C130_zero_base U x y : pattern x -> pattern y -> a_zero x ->
  (above 0 y -> plus_zero x \/ ~ an_odd_integer y -> plus_zero (xpowf U x y)) /\
  (above 0 y -> minus_zero x -> an_odd_integer y -> minus_zero (xpowf U x y)) /\
  (below 0 y -> plus_zero x \/ ~ an_odd_integer y -> plus_infinity (xpowf U x y)) /\
  (below 0 y -> minus_zero x -> an_odd_integer y -> minus_infinity (xpowf U x y)).
Proof.
  intros P P' (t & I). pose proof (val_sign x P) as S. rewrite I in S.
  assert (forall b : bool, (b = true -> ~ a_zero y /\ ~ nan y /\ (an_infinity y \/ finite y)) ->
    (b = true -> ltf (negf y) I_0 = true -> plus_zero x \/ ~ an_odd_integer y -> plus_zero (xpowf U x y)) /\
    (b = true -> ltf (negf y) I_0 = true -> minus_zero x -> an_odd_integer y -> minus_zero (xpowf U x y)) /\
    (b = true -> ltf (negf y) I_0 = false -> plus_zero x \/ ~ an_odd_integer y -> plus_infinity (xpowf U x y)) /\
    (b = true -> ltf (negf y) I_0 = false -> minus_zero x -> an_odd_integer y -> minus_infinity (xpowf U x y))) as K.
  { intros b Y. destruct b; [| split; [| split; [| split]]; discriminate]. destruct (Y eq_refl) as (Y0 & YN & YF). clear Y.
    rewrite pow_eq, not_one; try assumption; [| unfold is; rewrite I; discriminate]. rewrite !isnan_iff, !isinf_iff. rewrite I.
    assert (match val y with FNaN => true | _ => false end = false) as -> by (unfold nan in YN; destruct (val y); congruence). cbn [orb].
    rewrite (eqf_val x), I. replace (feqb (FFin t 0) (val I_0)) with true by (destruct t; reflexivity).
    unfold plus_zero at 1 3, minus_zero at 1 3. rewrite I.
    assert (powodd U y = true <-> an_odd_integer y) as O.
    { destruct YF as [YF | YF]; [| apply powodd_ok; assumption]. rewrite powodd_inf by assumption. split; [discriminate |].
      intros (s & m & V & _). destruct YF as (s' & V'). rewrite V in V'. discriminate. }
    pose proof (sign_one x P) as S1. rewrite <- S in S1.
    split; [| split; [| split]]; intros _ ->.
    - intros H. destruct (powodd U y) eqn:E; [| vm_compute; reflexivity]. destruct H as [H | H]; [injection H as -> | destruct H; apply O; reflexivity].
      unfold plus_zero. rewrite (mul_val _ _ _ S1). reflexivity.
    - intros H H'. apply O in H'. rewrite H'. injection H as ->. unfold minus_zero. rewrite (mul_val _ _ _ S1). reflexivity.
    - intros H. destruct (powodd U y) eqn:E; [| vm_compute; reflexivity]. destruct H as [H | H]; [injection H as -> | destruct H; apply O; reflexivity].
      unfold plus_infinity. rewrite (mul_val _ _ _ S1). reflexivity.
    - intros H H'. apply O in H'. rewrite H'. injection H as ->. unfold minus_infinity. rewrite (mul_val _ _ _ S1). reflexivity. }
  assert (above 0 y \/ below 0 y -> ~ a_zero y /\ ~ nan y /\ (an_infinity y \/ finite y)) as Y.
  { unfold above, below. intros H. split; [| split].
    - intros (s & Z0). rewrite Z0 in H. destruct s; destruct H; discriminate.
    - intros Z0. red in Z0. rewrite Z0 in H. destruct H; discriminate.
    - destruct (val y) eqn:E; [destruct H; discriminate | left; eexists; exact E | right; eexists; eexists; exact E]. }
  assert (above 0 y -> ltf (negf y) I_0 = true) as A by (intros H; rewrite neg_below by assumption; exact H).
  assert (below 0 y -> ltf (negf y) I_0 = false) as B.
  { intros H. rewrite neg_below by assumption. apply flt_asym. exact H. }
  split; [| split; [| split]]; intros H; destruct (K true) as (K1 & K2 & K3 & K4); try (intros _; apply Y; auto); auto.
Qed.
Print Assumptions C130_zero_base.

Local Lemma fval_dec (u v : fval) : {u = v} + {u <> v}.
Proof. decide equality; (apply Bool.bool_dec || apply Z.eq_dec). Defined.

Local Lemma times_minus_one r : pattern r -> val (mulf r (fint (- 1))) = negated (val (mulf r I_1)).
Proof.
  intros P. rewrite !(mul_val r _ _ eq_refl). change (val (fint (- 1))) with (FFin true (2 ^ 149)). change (val I_1) with (FFin false (2 ^ 149)).
  destruct (val r) as [| s | s m] eqn:E; [reflexivity | destruct s; reflexivity |]. pose proof (val_nonneg _ _ _ E).
  rewrite !val_encode by (discriminate || (apply Z.mul_nonneg_nonneg; [assumption | discriminate])).
  unfold of_mag. destruct (_ =? _); destruct s; reflexivity.
Qed.

Local Lemma mul_zero z y : a_zero z -> finite y -> a_zero (mulf z y).
Proof.
  intros (s & A) (s' & m & B). exists (xorb s s'). rewrite (mul_val z y _ A), B. rewrite Z.mul_0_l. destruct (xorb s s'); reflexivity.
Qed.
Local Lemma add_zero y z : a_zero y -> a_zero z -> a_zero (addf y z).
Proof. intros (s & A) (s' & B). unfold addf, fadd. fold (val y) (val z). rewrite A, B. destruct s, s'; eexists; reflexivity. Qed.
Local Lemma sub_zero y z : pattern z -> a_zero y -> a_zero z -> a_zero (subf y z).
Proof.
  intros P A (s' & B). unfold subf, fsub. change (fopp binary32 z) with (negf z). apply add_zero; [exact A |]. exists (negb s'). rewrite val_neg, B by assumption. reflexivity.
Qed.
Local Lemma upper_fin y s m : pattern y -> val y = FFin s m -> pattern (upperf y) /\ exists m', val (upperf y) = FFin s m' /\ 0 <= m' <= m.
Proof.
  intros P V. destruct (dec_mag binary32 y s m g32 P V) as (p & E & Hp & M).
  assert (upperf y = y - y mod 2 ^ 12) as ->.
  { unfold upperf. assert (Z.land y 4294963200 = Z.ldiff y (Z.ones 12)) as ->.
    { apply Z.bits_inj'. intros i I. rewrite Z.land_spec, Z.ldiff_spec. unfold pattern in P.
      destruct (Z_lt_le_dec i 32) as [L | L].
      - f_equal. assert (forallb (fun i => Bool.eqb (Z.testbit 4294963200 i) (negb (Z.testbit (Z.ones 12) i))) (map Z.of_nat (seq 0 32)) = true) as F by (vm_compute; reflexivity).
        rewrite forallb_forall in F. apply Bool.eqb_prop. apply F. apply in_map_iff. exists (Z.to_nat i). split; [lia |]. apply in_seq. lia.
      - rewrite (Z.bits_above_log2 y i); [reflexivity | lia |]. destruct (Z.eq_dec y 0) as [-> | N]; [cbn; lia |].
        apply Z.log2_lt_pow2; [lia |]. eapply Z.lt_le_trans; [apply P |]. apply Z.pow_le_mono_r; lia. }
    rewrite Z.ldiff_ones_r, Z.shiftl_mul_pow2, Z.shiftr_div_pow2 by lia. pose proof (Z.div_mod y (2 ^ 12) ltac:(discriminate)). lia. }
  assert (y - y mod 2 ^ 12 = sign_bit binary32 s + (p - p mod 2 ^ 12)) as ->.
  { rewrite E. assert ((sign_bit binary32 s + p) mod 2 ^ 12 = p mod 2 ^ 12) as ->; [| lia].
    destruct s; [| reflexivity]. change (sign_bit binary32 true) with (2 ^ 19 * 2 ^ 12). rewrite Z.add_comm. apply Z_mod_plus_full. }
  pose proof (Z.mod_pos_bound p (2 ^ 12) ltac:(reflexivity)) as R. pose proof (Z.mod_le p (2 ^ 12) ltac:(lia) ltac:(reflexivity)) as R'.
  assert (inf_bits binary32 < 2 ^ 31) by reflexivity.
  split; [apply split_pat; lia |]. exists (vmag binary32 (p - p mod 2 ^ 12)). split.
  - rewrite val_mag by lia. unfold of_mag. destruct (Z.eqb_spec (p - p mod 2 ^ 12) (inf_bits binary32)); [lia | reflexivity].
  - split; [apply vmag_nonneg; [exact m32 | lia] |]. rewrite M. apply vmag_mono; [exact m32 | lia | lia].
Qed.
Local Lemma sub_small y z s m m' : pattern y -> pattern z -> val y = FFin s m -> val z = FFin s m' -> 0 <= m' <= m -> finite (subf y z).
Proof.
  intros P P' V V' M. destruct (dec_mag binary32 y s m g32 P V) as (p & E & Hp & VM).
  unfold subf, fsub. change (fopp binary32 z) with (negf z). unfold fadd. fold (val y) (val (negf z)). rewrite val_neg, V, V' by assumption. cbn [negated].
  set (v := sval s m + sval (negb s) m'). assert (Z.abs v <= m) as A by (unfold v; destruct s; cbn [sval negb]; lia). clearbody v.
  cbv zeta. destruct (v =? 0); [destruct (s && negb s); eexists; eexists; reflexivity |].
  pose proof (round_le p (Z.abs v) 0 ltac:(lia) ltac:(lia) ltac:(lia) ltac:(rewrite <- VM; lia)) as R.
  unfold finite. rewrite val_encode by lia. unfold of_mag. rewrite Z.min_l by lia.
  destruct (Z.eqb_spec (round_mag binary32 (Z.abs v) 0) (inf_bits binary32)); [lia |]. eexists; eexists; reflexivity.
Qed.

Local Lemma log_one : logkf I_1 = F2 0 0.
Proof. vm_compute. reflexivity. Qed.
Local Lemma core_one U x y : pattern y -> fabsfk x = I_1 -> finite y -> core U x y = I_1.
Proof.
  intros P X F. unfold core. rewrite X, log_one. clear X.
  assert (a_zero (fx (dfmul_f2_f2_f (F2 0 0) y)) /\ a_zero (fy (dfmul_f2_f2_f (F2 0 0) y)) /\ pattern (fx (dfmul_f2_f2_f (F2 0 0) y)) /\ pattern (fy (dfmul_f2_f2_f (F2 0 0) y))) as (A & B & PA & PB).
  { unfold dfmul_f2_f2_f. cbv zeta. cbn [fx fy]. assert (a_zero 0) as Z0 by (exists false; reflexivity).
    change (upperf 0) with 0. change (subf 0 0) with 0. destruct F as (s & m & V).
    destruct (upper_fin y s m P V) as (P' & m' & V' & M).
    pose proof (sub_small y (upperf y) s m m' P P' V V' M) as FD. assert (finite y) as F by (exists s, m; exact V).
    assert (finite (upperf y)) as F' by (exists s, m'; exact V').
    pose proof (mul_zero 0 y Z0 F) as M1. pose proof (mul_zero 0 (upperf y) Z0 F') as M2.
    pose proof (mul_zero 0 _ Z0 FD) as M3. split; [exact M1 |]. split; [| split; pat].
    apply add_zero; [apply add_zero; [apply add_zero; [apply add_zero; [apply sub_zero; [pat | |] |] |] |] |]; assumption. }
  destruct (dfmul_f2_f2_f (F2 0 0) y) as [a b]. cbn [fx fy] in *.
  destruct (zero_eq a PA A) as [-> | ->], (zero_eq b PB B) as [-> | ->]; vm_compute; reflexivity.
Qed.

(** a negative base: a NaN for an exponent that is not an integer, and otherwise the power of the
    opposite, negated when the exponent is odd *)
Theorem C130_negative_base U x y : pattern x -> pattern y -> finite x -> below 0 x -> finite y -> ~ a_zero y ->
  (~ an_integer y -> nan (xpowf U x y)) /\
  (an_odd_integer y -> val (xpowf U x y) = negated (val (xpowf U (opposite x) y))) /\
  (an_integer y -> ~ an_odd_integer y -> val (xpowf U x y) = val (xpowf U (opposite x) y)).
Proof.
  intros P P' (s & m & V) B F Y. pose proof (val_nonneg _ _ _ V) as M.
  assert (s = true /\ 0 < m) as (-> & M').
  { unfold below in B. rewrite V in B. cbn [flt fle whole Z.abs Z.mul Z.ltb Z.compare] in B. apply negb_true_iff, Z.leb_gt in B. destruct s; cbn [sval] in B; [split; [reflexivity |] |]; lia. }
  assert (~ is (whole 1) x) as X by (unfold is; rewrite V; discriminate).
  pose proof (powint_ok U y P' F) as I. pose proof (powodd_ok U y P' F) as O.
  assert (match val y with FNaN => true | _ => false end = false) as YN by (destruct F as (? & ? & ->); reflexivity).
  assert (match val y with FInf _ => true | _ => false end = false) as YI by (destruct F as (? & ? & ->); reflexivity).
  assert (xpowf U x y = mulf (core U x y) (if negb (powint U y) then SLEEF_NANf else fint (if powodd U y then - 1 else 1))) as E.
  { rewrite pow_eq, not_one by assumption. rewrite !isnan_iff, !isinf_iff, YN, YI, V. cbn [orb].
    assert (eqf x I_0 = false) as -> by (apply not_true_iff_false; rewrite zero_val by assumption; intros (t & Z0); rewrite V in Z0; injection Z0; lia).
    assert (lef I_0 x = false) as ->; [| reflexivity]. rewrite lef_val, V. change (val I_0) with (FFin false 0). cbn [fle sval]. apply Z.leb_gt. lia. }
  assert (pattern (opposite x)) as PO by (rewrite opposite_neg; apply neg_pat; exact P).
  assert (val (opposite x) = FFin false m) as VO by (rewrite opposite_neg, val_neg, V by assumption; reflexivity).
  assert (core U (opposite x) y = core U x y) as C by (unfold core; rewrite opposite_neg, fabs_neg by assumption; reflexivity).
  assert (val (xpowf U (opposite x) y) = val (mulf (core U x y) I_1)) as E'.
  { destruct (fval_dec (val (opposite x)) (whole 1)) as [H | H].
    - rewrite (C130_one U (opposite x) y (or_intror H)). rewrite core_one; [reflexivity | exact P' | | exact F].
      apply val_eq; [apply fabs_pat | split; [discriminate | reflexivity] | | discriminate]. rewrite val_fabs, V by assumption. rewrite VO in H. exact H.
    - rewrite pow_eq, not_one by assumption. rewrite !isnan_iff, !isinf_iff, YN, YI, VO. cbn [orb].
      assert (eqf (opposite x) I_0 = false) as -> by (apply not_true_iff_false; rewrite zero_val by assumption; intros (t & Z0); rewrite VO in Z0; injection Z0; lia).
      cbv zeta. assert (lef I_0 (opposite x) = true) as ->; [| rewrite C; reflexivity]. rewrite lef_val, VO. change (val I_0) with (FFin false 0). cbn [fle sval]. apply Z.leb_le. lia. }
  assert (pattern (core U x y)) as PC.
  { unfold core. cbv zeta. apply if_pat; [apply inff_pat |]. unfold expkf. cbv zeta. apply if_pat; [split; [discriminate | reflexivity] |]. unfold ldexpkf. cbv zeta. pat. }
  split; [| split].
  - intros N. rewrite E. assert (powint U y = false) as -> by (apply not_true_iff_false; tauto). apply nan_mulr. reflexivity.
  - intros N. rewrite E'. rewrite E. assert (powint U y = true) as ->. { apply I. destruct N as (t & k & W & K & _). exists t, k. auto. }
    apply O in N. rewrite N. cbn [negb]. apply times_minus_one. exact PC.
  - intros N N'. apply I in N. rewrite E', E, N. cbn [negb]. assert (powodd U y = false) as -> by (apply not_true_iff_false; tauto). reflexivity.
Qed.
Print Assumptions C130_negative_base.

(** cases that meet the hypotheses: -2, -inf, -0, 1/2, 3 and 2^31 *)
Example C130_cases :
  below 0 (fint (-2)) /\ finite (fint (-2)) /\ an_odd_integer (fint 3) /\ an_integer (fint (2 ^ 31)) /\ ~ an_odd_integer (fint (2 ^ 31)) /\
  ~ an_integer c_half /\ finite c_half /\ above 0 c_half /\ below 1 (absolute c_half) /\ minus_zero (2 ^ 31).
Proof.
  assert (forall s m, val (fint (2 ^ 31)) = FFin s m -> Z.odd (m / 2 ^ 149) = false) as A by (intros s m H; vm_compute in H; injection H as <- <-; vm_compute; reflexivity).
  assert (forall s m, val c_half = FFin s m -> m mod 2 ^ 149 <> 0) as B by (intros s m H; vm_compute in H; injection H as <- <-; vm_compute; discriminate).
  split; [vm_compute; reflexivity |]. split; [eexists; eexists; vm_compute; reflexivity |].
  split; [eexists; eexists; split; [vm_compute; reflexivity | split; vm_compute; reflexivity] |].
  split; [eexists; eexists; split; [vm_compute; reflexivity | vm_compute; reflexivity] |].
  split; [intros (s & m & V & _ & O); rewrite (A s m V) in O; discriminate |].
  split; [intros (s & m & V & O); exact (B s m V O) |].
  split; [eexists; eexists; vm_compute; reflexivity |]. repeat split; vm_compute; reflexivity.
Qed.
