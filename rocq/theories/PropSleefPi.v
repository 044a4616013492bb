(** C134: sinpi and cospi. *)
Require Import ZArith List Bool Lia.
Require Import Verif.FloatSpec Verif.FloatProofs Verif.FloatArith Verif.FloatArithSpec Verif.RoundEven Verif.X86Cvt Verif.SleefBase Verif.Sleef Verif.SleefSpec Verif.SleefProofs Verif.SleefProofs2
  Verif.SleefProofs3 Verif.SleefProofs4 Verif.SleefProofs5 Verif.SleefProofs6 Verif.SleefProofs7 Verif.SleefProofs8.
Local Open Scope Z_scope.

(** at N / 2 the reduced argument is +0 and the number of eighths of a turn is 2 N *)
Local Lemma reduced U x n : pattern x -> is (dyadic n 1) x -> Z.abs n <= 16000000 ->
  let u := mulf x I_4 in let q := Z.land (ceilfk U u) (Z.lnot 1) in q = 2 * n /\ subf u (fint q) = 0.
Proof.
  intros P H N. red in H. unfold dyadic in H. change (149 - 1) with 148 in H.
  assert (val (mulf x I_4) = FFin (n <? 0) (Z.abs n * 2 ^ 150)) as V.
  { assert (val I_4 = FFin false (2 ^ 151)) as V4 by (vm_compute; reflexivity). rewrite (mul_val _ _ _ _ H V4). rewrite xorb_false_r.
    replace (Z.abs n * 2 ^ 148 * 2 ^ 151) with (Z.abs n * 2 ^ 150 * 2 ^ 149); [apply encode_exact; lia |]. rewrite <- !Z.mul_assoc. reflexivity. }
  cbv zeta. set (u := mulf x I_4) in *.
  assert (toint U u = 2 * n) as T.
  { unfold toint, to_int. fold (val u). rewrite V. change (scale binary32) with 149. change (2 ^ 150) with (2 * 2 ^ 149). rewrite Z.mul_assoc, Z.div_mul by discriminate.
    assert (sval (n <? 0) (Z.abs n * 2) = 2 * n) as -> by (destruct (Z.ltb_spec n 0); cbn [sval]; lia).
    assert ((- 2 ^ 31 <=? 2 * n) && (2 * n <? 2 ^ 31) = true) as -> by lia. reflexivity. }
  assert (Z.land (ceilfk U u) (Z.lnot 1) = 2 * n) as Q.
  { unfold ceilfk. rewrite T, land_lnot1. f_equal. destruct (ltf u c_zero); [rewrite Z.add_0_r, Z.mul_comm; apply Z.div_mul; discriminate |].
    replace (2 * n + 1) with (1 + n * 2) by lia. rewrite Z.div_add by discriminate. reflexivity. }
  split; [exact Q |]. rewrite Q. apply (sub_self _ _ (n <? 0) (Z.abs n * 2 ^ 150)); [apply fint_pat | exact V |].
  unfold fint, of_int. change (scale binary32) with 149.
  replace (2 * n <? 0) with (n <? 0) by lia. replace (Z.abs (2 * n) * 2 ^ 149) with (Z.abs n * 2 ^ 150 * 2 ^ 0).
  - apply encode_exact; lia.
  - change (2 ^ 150) with (2 * 2 ^ 149). rewrite Z.abs_mul. change (Z.abs 2) with 2. change (2 ^ 0) with 1. ring.
Qed.
Local Lemma small_arg x n : pattern x -> is (dyadic n 1) x -> Z.abs n <= 16000000 -> ltf F_8000000_0 (fabsfk x) = false /\ xisinff x = false.
Proof.
  intros P H N. red in H. rewrite ltf_val, isinf_iff, val_fabs, H by assumption. unfold dyadic. split; [| reflexivity].
  assert (val F_8000000_0 = FFin false (8000000 * 2 ^ 149)) as -> by (vm_compute; reflexivity). cbn [flt fle sval]. apply negb_false_iff, Z.leb_le.
  change (149 - 1) with 148. change (8000000 * 2 ^ 149) with (16000000 * 2 ^ 148). assert (0 < 2 ^ 148) by reflexivity. nia.
Qed.


Local Definition after_sin (q s : Z) : f2 :=
  let o := negb (Z.land q 2 =? 0) in
  let t := s in let s := mulf s s in let s2 := dfmul_f2_f_f t t in
  let u := if o then negf F_2430611801_17 else F_3093842054_16 in
  let u := mlaf u s (if o then F_359057708_14 else negf F_3657307388_14) in
  let u := mlaf u s (if o then negf F_3259917721_13 else F_2490393585_12) in
  let x := dfadd2_f2_f_f2 (mulf u s) (if o then F2 DF_15854343771934509277_21 DF_44940051354032242811_29 else F2 (d2f (negd D_80745510756969451904_21)) (d2f (negd D_13373665339076936258_28))) in
  let x := dfadd2_f2_f2_f2 (dfmul_f2_f2_f2 s2 x) (if o then F2 (d2f (negd D_30842512845993041992_20)) (d2f (negd D_90728339030733922277_28)) else F2 DF_78539818525314331055_20 (d2f (negd D_21857338617566484855_27))) in
  let x := dfmul_f2_f2_f2 x (if o then s2 else F2 t I_0) in
  let x := if o then dfadd2_f2_f2_f x I_1 else x in
  if negb (Z.land q 4 =? 0) then F2 (negf (fx x)) (negf (fy x)) else x.
Local Lemma sin_form U x : sinpifk U x = let u := mulf x I_4 in let q := Z.land (ceilfk U u) (Z.lnot 1) in after_sin q (subf u (fint q)).
Proof. reflexivity. Qed.
Local Definition after_cos (q s : Z) : f2 :=
  let o := Z.land q 2 =? 0 in
  let t := s in let s := mulf s s in let s2 := dfmul_f2_f_f t t in
  let u := if o then negf F_2430611801_17 else F_3093842054_16 in
  let u := mlaf u s (if o then F_359057708_14 else negf F_3657307388_14) in
  let u := mlaf u s (if o then negf F_3259917721_13 else F_2490393585_12) in
  let x := dfadd2_f2_f_f2 (mulf u s) (if o then F2 DF_15854343771934509277_21 DF_44940051354032242811_29 else F2 (d2f (negd D_80745510756969451904_21)) (d2f (negd D_13373665339076936258_28))) in
  let x := dfadd2_f2_f2_f2 (dfmul_f2_f2_f2 s2 x) (if o then F2 (d2f (negd D_30842512845993041992_20)) (d2f (negd D_90728339030733922277_28)) else F2 DF_78539818525314331055_20 (d2f (negd D_21857338617566484855_27))) in
  let x := dfmul_f2_f2_f2 x (if o then s2 else F2 t I_0) in
  let x := if o then dfadd2_f2_f2_f x I_1 else x in
  if negb (Z.land (q + 2) 4 =? 0) then F2 (negf (fx x)) (negf (fy x)) else x.
Local Lemma cos_form U x : cospifk U x = let u := mulf x I_4 in let q := Z.land (ceilfk U u) (Z.lnot 1) in after_cos q (subf u (fint q)).
Proof. reflexivity. Qed.
Local Lemma sin_mod q s : after_sin q s = after_sin (q mod 8) s.
Proof. unfold after_sin. rewrite (land_low3 q 2), (land_low3 q 4) by reflexivity. reflexivity. Qed.
Local Lemma cos_mod q s : after_cos q s = after_cos (q mod 8) s.
Proof. unfold after_cos. rewrite (land_low3 q 2), (land_low3 (q + 2) 4), (land_low3 (q mod 8 + 2) 4), Zplus_mod_idemp_l by reflexivity. reflexivity. Qed.

Theorem C134_exact U x n : pattern x -> is (dyadic n 1) x -> Z.abs n <= 16000000 ->
  let s := val (xsinpif_u05 U x) in let c := val (xcospif_u05 U x) in
  (n mod 4 = 0 -> feqb s (whole 0) = true /\ c = whole 1) /\
  (n mod 4 = 1 -> s = whole 1 /\ feqb c (whole 0) = true) /\
  (n mod 4 = 2 -> feqb s (whole 0) = true /\ c = whole (-1)) /\
  (n mod 4 = 3 -> s = whole (-1) /\ feqb c (whole 0) = true).
Proof.
  intros P H N. cbv zeta. unfold xsinpif_u05, xcospif_u05. cbv zeta. destruct (small_arg x n P H N) as (-> & ->). rewrite negzero_iff by assumption.
  assert (match val x with FFin true m => m =? 0 | _ => false end = false) as ->.
  { red in H. rewrite H. unfold dyadic. destruct (Z.ltb_spec n 0); [| reflexivity]. apply Z.eqb_neq. assert (0 < 2 ^ (149 - 1)) by reflexivity. nia. }
  rewrite sin_form, cos_form. destruct (reduced U x n P H N) as (Q & S). cbv zeta in *. rewrite S, Q, sin_mod, cos_mod.
  assert (forall i, n mod 4 = i -> (2 * n) mod 8 = 2 * i) as M by (intros i <-; change 8 with (2 * 4); apply Z.mul_mod_distr_l; discriminate).
  split; [| split; [| split]]; intros E; rewrite (M _ E); vm_compute; split; reflexivity.
Qed.
Print Assumptions C134_exact.

Theorem C134_special U :
  keeps_nan (xsinpif_u05 U) /\ keeps_zeros (xsinpif_u05 U) /\ keeps_nan (xcospif_u05 U) /\
  (forall x, pattern x -> an_infinity x -> nan (xsinpif_u05 U x) /\ nan (xcospif_u05 U x)).
Proof.
  split; [| split; [| split]].
  - intros x P N. unfold xsinpif_u05. cbv zeta. rewrite negzero_iff, isinf_iff, (ltf_nanr _ (fabsfk x)) by (apply nan_fabs || idtac; assumption). rewrite N. apply nan_addl.
    rewrite sin_form. cbv zeta. unfold after_sin. cbv zeta.
    assert (nan (subf (mulf x I_4) (fint (Z.land (ceilfk U (mulf x I_4)) (Z.lnot 1))))) as S by (apply nan_subl, nan_mull, N). revert S. generalize (subf (mulf x I_4) (fint (Z.land (ceilfk U (mulf x I_4)) (Z.lnot 1)))). intros s S.
    generalize (Z.land (ceilfk U (mulf x I_4)) (Z.lnot 1)). intros q.
    destruct (negb (Z.land q 2 =? 0)), (negb (Z.land q 4 =? 0)); cbn [fx]; try apply nan_neg; try apply n_a22f1; apply n_m22, n_a2222, n_m22, n_mff1, S.
  - intros x P. split; intros H; [rewrite (plus_zero_eq x P H) | rewrite (minus_zero_eq x P H)]; vm_compute; reflexivity.
  - intros x P N. unfold xcospif_u05. cbv zeta. rewrite isinf_iff, (ltf_nanr _ (fabsfk x)) by (apply nan_fabs || idtac; assumption). rewrite N. apply nan_addl.
    rewrite cos_form. cbv zeta. unfold after_cos. cbv zeta.
    assert (nan (subf (mulf x I_4) (fint (Z.land (ceilfk U (mulf x I_4)) (Z.lnot 1))))) as S by (apply nan_subl, nan_mull, N). revert S. generalize (subf (mulf x I_4) (fint (Z.land (ceilfk U (mulf x I_4)) (Z.lnot 1)))). intros s S.
    generalize (Z.land (ceilfk U (mulf x I_4)) (Z.lnot 1)). intros q.
    destruct (Z.land q 2 =? 0), (negb (Z.land (q + 2) 4 =? 0)); cbn [fx]; try apply nan_neg; try apply n_a22f1; apply n_m22, n_a2222, n_m22, n_mff1, S.
  - intros x P (s & I). unfold xsinpif_u05, xcospif_u05. cbv zeta. rewrite isinf_iff, I. split; reflexivity.
Qed.
Print Assumptions C134_special.

(** beyond eight millions both are constant *)
Theorem C134_large U x : pattern x -> finite x -> above 8000000 (absolute x) -> plus_zero (xsinpif_u05 U x) /\ is (whole 1) (xcospif_u05 U x).
Proof.
  intros P (s & m & F) A. unfold xsinpif_u05, xcospif_u05. cbv zeta. rewrite (abs_gt 8000000 x F_8000000_0 P A) by (right; valc). rewrite isinf_iff, F. split; vm_compute; reflexivity.
Qed.
Print Assumptions C134_large.

(** which is wrong at 8000000.5 and at 8000001 *)
Theorem C134_large_refuted U :
  ~ (forall x n, pattern x -> is (dyadic n 1) x -> n mod 4 = 1 -> is (whole 1) (xsinpif_u05 U x)) /\
  ~ (forall x n, pattern x -> is (dyadic n 1) x -> n mod 4 = 2 -> is (whole (-1)) (xcospif_u05 U x)).
Proof.
  split; intros H.
  - specialize (H 1257513985 16000001). assert (is (whole 1) (xsinpif_u05 U 1257513985)) as B. { apply H; [split; [discriminate | reflexivity] | vm_compute; reflexivity | reflexivity]. }
    destruct (C134_large U 1257513985) as [Z _]; [split; [discriminate | reflexivity] | eexists; eexists; vm_compute; reflexivity | vm_compute; reflexivity |].
    unfold is, plus_zero in *. rewrite Z in B. discriminate B.
  - specialize (H 1257513986 16000002). assert (is (whole (-1)) (xcospif_u05 U 1257513986)) as B. { apply H; [split; [discriminate | reflexivity] | vm_compute; reflexivity | reflexivity]. }
    destruct (C134_large U 1257513986) as [_ Z]; [split; [discriminate | reflexivity] | eexists; eexists; vm_compute; reflexivity | vm_compute; reflexivity |].
    unfold is in *. rewrite Z in B. discriminate B.
Qed.
Print Assumptions C134_large_refuted.

(** the hypotheses are met *)
Example C134_example : is (dyadic (-7) 1) (fdec 35 1 + 2 ^ 31) /\ Z.abs (-7) <= 16000000 /\ (-7) mod 4 = 1 /\ above 8000000 (absolute (fint 9000000)).
Proof. split; [vm_compute; reflexivity |]. split; [lia |]. split; [reflexivity | vm_compute; reflexivity]. Qed.
