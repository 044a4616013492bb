(** C135: sin, cos and tan. *)
Require Import ZArith List Bool Lia.
Require Import Verif.FloatSpec Verif.FloatProofs Verif.FloatArith Verif.FloatArithSpec Verif.RoundEven Verif.X86Cvt Verif.SleefBase Verif.Sleef Verif.SleefSpec Verif.SleefProofs Verif.SleefProofs2
  Verif.SleefProofs3 Verif.SleefProofs4 Verif.SleefProofs5 Verif.SleefProofs6 Verif.SleefProofs7 Verif.SleefProofs8 Verif.SleefProofs9.
Local Open Scope Z_scope.

Local Notation N0 := (fun _ : Z => 0).
Local Lemma defined_from (f : (Z -> Z) -> (Z -> Z) -> Z -> Z) : (forall U W x, pattern x -> finite x -> f U W x = f N0 N0 x) -> well_defined f.
Proof. intros H U W U' W' x P F. rewrite (H U W x P F), (H U' W' x P F). reflexivity. Qed.
Local Lemma c1_bd : bd 148 DF_318309886183790671538_21.
Proof. apply bd_const. vm_compute. reflexivity. Qed.
Local Definition c2 : Z := Eval vm_compute in d2f (muld ID_2 D_318309886183790671538_21).
Local Lemma c2_eq : d2f (muld ID_2 D_318309886183790671538_21) = c2.
Proof. vm_compute. reflexivity. Qed.
Local Lemma c2_bd : bd 149 c2.
Proof. apply bd_const. vm_compute. reflexivity. Qed.
Local Lemma c5_bd : bd 148 F_5_1.
Proof. apply bd_const. vm_compute. reflexivity. Qed.

(** the multiple of pi (of pi / 2) that is taken away *)
Local Lemma turns U x : bd 165 x -> toint U (rintfk U (mulf x DF_318309886183790671538_21)) = toint N0 (rintfk N0 (mulf x DF_318309886183790671538_21)).
Proof. intros B. apply (rint_bd 164); [| lia]. exact (bd_mul_le 165 148 164 _ _ B c1_bd ltac:(lia) ltac:(lia) ltac:(lia) ltac:(lia)). Qed.
Local Lemma turns2 U x : bd 165 x -> toint U (rintfk U (mulf x c2)) = toint N0 (rintfk N0 (mulf x c2)).
Proof. intros B. apply (rint_bd 165); [| lia]. exact (bd_mul_le 165 149 165 _ _ B c2_bd ltac:(lia) ltac:(lia) ltac:(lia) ltac:(lia)). Qed.
Local Lemma shifted x : bd 165 x -> bd 165 (subf (mulf x DF_318309886183790671538_21) F_5_1).
Proof.
  intros B. pose proof (bd_mul_le 165 148 164 _ _ B c1_bd ltac:(lia) ltac:(lia) ltac:(lia) ltac:(lia)) as M.
  exact (bd_sub _ _ 165 _ _ M c5_bd ltac:(lia) ltac:(lia) ltac:(lia) ltac:(lia)).
Qed.
Local Lemma turns_cos U x : bd 165 x -> toint U (rintfk U (subf (mulf x DF_318309886183790671538_21) F_5_1)) = toint N0 (rintfk N0 (subf (mulf x DF_318309886183790671538_21) F_5_1)).
Proof. intros B. apply (rint_bd 165); [| lia]. exact (shifted x B). Qed.
Local Lemma below_125 x : pattern x -> ltf (fabsfk x) F_125_0 = true -> bd 165 x.
Proof. intros P L. apply (bd_less 165 _ x P) in L; [exact L | vm_compute; reflexivity]. Qed.
Local Lemma below_39000 x : pattern x -> ltf (fabsfk x) I_39000 = true -> bd 165 x.
Proof. intros P L. apply (bd_less 165 _ x P) in L; [exact L | vm_compute; reflexivity]. Qed.
Local Lemma below_62 x : pattern x -> ltf (fabsfk x) (mulf F_125_0 F_5_1) = true -> bd 165 x.
Proof. intros P L. apply (bd_less 165 _ x P) in L; [exact L | vm_compute; reflexivity]. Qed.

(** For every finite argument, sin, cos and tan convert to int only numbers in range of int and
    read only inside of the table of the digits of 1 / (2 pi): what an undefined conversion or a read
    outside of the table would give does not matter. *)
Theorem C135_defined : well_defined xsinf /\ well_defined xsinf_u1 /\ well_defined xcosf /\ well_defined xcosf_u1 /\ well_defined xtanf /\ well_defined xtanf_u1.
Proof.
  repeat match goal with |- _ /\ _ => split end; apply defined_from; intros U W x P F.
  - unfold xsinf. destruct (ltf (fabsfk x) F_125_0) eqn:A; [rewrite (turns U x (below_125 x P A)); reflexivity |].
    destruct (ltf (fabsfk x) I_39000) eqn:B; [rewrite (turns U x (below_39000 x P B)); reflexivity |]. rewrite (rempif_ok U W x P F). reflexivity.
  - unfold xsinf_u1. destruct (ltf (fabsfk x) F_125_0) eqn:A; [rewrite (turns U x (below_125 x P A)); reflexivity |]. rewrite (rempif_ok U W x P F). reflexivity.
  - unfold xcosf. destruct (ltf (fabsfk x) F_125_0) eqn:A; [rewrite (turns_cos U x (below_125 x P A)); reflexivity |].
    destruct (ltf (fabsfk x) I_39000) eqn:B; [rewrite (turns_cos U x (below_39000 x P B)); reflexivity |]. rewrite (rempif_ok U W x P F). reflexivity.
  - unfold xcosf_u1. destruct (ltf (fabsfk x) F_125_0) eqn:A.
    + pose proof (bd_fabs _ _ (below_125 x P A)) as B. destruct (rint_bd 165 _ U (shifted _ B) ltac:(lia)) as (E & R & _). cbv zeta. rewrite E in *.
      assert (bd 170 (mlaf (rintfk N0 (subf (mulf (fabsfk x) DF_318309886183790671538_21) F_5_1)) I_2 I_1)) as M.
      { change (165 + 2) with 167 in R. unfold mlaf.
        assert (bd 150 I_2) as B2 by (apply bd_const; vm_compute; reflexivity). assert (bd 149 I_1) as B1 by (apply bd_const; vm_compute; reflexivity).
        pose proof (bd_mul_le 167 150 169 _ _ R B2 ltac:(lia) ltac:(lia) ltac:(lia) ltac:(lia)) as Q.
        exact (bd_add _ _ 170 _ _ Q B1 ltac:(lia) ltac:(lia) ltac:(lia) ltac:(lia)). }
      rewrite (proj1 (toint_bd 170 _ U M ltac:(lia))). reflexivity.
    + rewrite (rempif_ok U W x P F). reflexivity.
  - unfold xtanf. rewrite c2_eq. destruct (ltf (fabsfk x) (mulf F_125_0 F_5_1)) eqn:A; [rewrite (turns2 U x (below_62 x P A)); reflexivity |].
    destruct (ltf (fabsfk x) I_39000) eqn:B; [rewrite (turns2 U x (below_39000 x P B)); reflexivity |]. rewrite (rempif_ok U W x P F). reflexivity.
  - unfold xtanf_u1. rewrite c2_eq. destruct (ltf (fabsfk x) F_125_0) eqn:A; [rewrite (turns2 U x (below_125 x P A)); reflexivity |]. rewrite (rempif_ok U W x P F). reflexivity.
Qed.
Print Assumptions C135_defined.

(** the largest finite number is among the arguments covered *)
Example C135_defined_max : pattern (2 ^ 31 - 2 ^ 23 - 1) /\ finite (2 ^ 31 - 2 ^ 23 - 1) /\ ltf (fabsfk (2 ^ 31 - 2 ^ 23 - 1)) I_39000 = false.
Proof. split; [unfold pattern; lia |]. split; [exists false, (16777215 * 2 ^ 253) |]; vm_compute; reflexivity. Qed.

(** The reduction itself is called with the infinities too, and then reads outside of its table. *)
Theorem C135_infinity_refuted : ~ forall U W W' x, pattern x -> rempif U W x = rempif U W' x.
Proof.
  intros H. specialize (H N0 N0 (fun _ => 1065353216) 2139095040 ltac:(unfold pattern; lia)). apply (f_equal (fun d => fx (dfidf d))) in H. vm_compute in H. discriminate.
Qed.
Print Assumptions C135_infinity_refuted.

(** no finite number: the comparisons fail and the tests for an infinity or a NaN succeed *)
Local Lemma not_finite x c : pattern x -> nan x \/ an_infinity x -> val c <> FNaN -> (forall s, val c <> FInf s) -> ltf (fabsfk x) c = false.
Proof.
  intros P H NC IC. rewrite ltf_val, val_fabs by exact P. destruct H as [H | (s & H)]; rewrite H; [reflexivity |]. destruct (val c) as [| s' | s' m]; [congruence | exfalso; exact (IC s' eq_refl) | reflexivity].
Qed.
Local Lemma infnan x : pattern x -> nan x \/ an_infinity x -> xisinff x || xisnanf x = true.
Proof. intros P H. rewrite isinf_iff, isnan_iff. destruct H as [H | (s & H)]; rewrite H; reflexivity. Qed.
Local Ltac out P H := rewrite ?(not_finite _ F_125_0 P H), ?(not_finite _ I_39000 P H), ?(not_finite _ (mulf F_125_0 F_5_1) P H), ?(infnan _ P H) by (vm_compute; discriminate).
Local Lemma negzero_not x : nan x \/ an_infinity x -> xisnegzerof x = false.
Proof. intros H. unfold xisnegzerof. apply Z.eqb_neq. intros ->. destruct H as [H | (s & H)]; vm_compute in H; discriminate. Qed.

Local Lemma nan_mul_f_1 x y : nan (fx x) -> nan (dfmul_f_f2_f2 x y).
Proof. intros N. unfold dfmul_f_f2_f2. cbv zeta. assert (nan (upperf (fx x)) \/ nan (subf (fx x) (upperf (fx x)))) as [M | M] by (right; apply nan_subl, N). - nanp. - nanp. Qed.

Local Lemma sin_out U W x : pattern x -> nan x \/ an_infinity x -> nan (xsinf U W x) /\ nan (xsinf_u1 U W x).
Proof.
  intros P H. split.
  - unfold xsinf. out P H. rewrite (negzero_not x H). generalize (rempif U W x). intros r. cbv zeta.
    apply nan_mla3. destruct (negb _); [apply nan_neg |]; apply nan_const.
  - unfold xsinf_u1. out P H. rewrite (negzero_not x H). generalize (rempif U W x). intros r. cbv zeta. cbv beta iota.
    destruct (negb (_ =? 0)) in |- *; [apply nan_neg |]; apply nan_mul_f_1, nan_const.
Qed.
Local Lemma cos_out U W x : pattern x -> nan x \/ an_infinity x -> nan (xcosf U W x) /\ nan (xcosf_u1 U W x).
Proof.
  intros P H. split.
  - unfold xcosf. out P H. generalize (rempif U W x). intros r. cbv zeta.
    apply nan_mla3. destruct (_ =? 0); [apply nan_neg |]; apply nan_const.
  - unfold xcosf_u1. out P H. generalize (rempif U W x). intros r. cbv zeta. cbv beta iota.
    destruct (_ =? 0) in |- *; [apply nan_neg |]; apply nan_mul_f_1, nan_const.
Qed.
Local Lemma tan_out U W x : pattern x -> nan x \/ an_infinity x -> nan (xtanf U W x) /\ nan (xtanf_u1 U W x).
Proof.
  intros P H. split.
  - unfold xtanf. out P H. generalize (rempif U W x). intros r. cbv zeta. cbv beta iota. destruct (Z.land (dfii r) 1 =? 0); cbn [negb]; [| apply nan_divr]; apply nan_mla3; [| apply nan_neg]; apply nan_const.
  - unfold xtanf_u1. out P H. rewrite (negzero_not x H). generalize (rempif U W x). intros r. cbv zeta. cbv beta iota.
    destruct (Z.land (dfii r) 1 =? 0); cbn [negb]; apply nan_addl; [| apply n_rec2]; apply n_m22; [| apply n_neg]; apply nan_const.
Qed.

(** NaNs and infinities give a NaN; sin and tan keep the zeros with their sign, cos gives exactly 1 there *)
Theorem C135_special U W :
  like_sine (xsinf U W) /\ like_sine (xsinf_u1 U W) /\ like_cosine (xcosf U W) /\ like_cosine (xcosf_u1 U W) /\
  like_sine (xtanf U W) /\ like_sine (xtanf_u1 U W).
Proof.
  destruct C135_defined as (D1 & D2 & D3 & D4 & D5 & D6).
  assert (forall f, well_defined f -> plus_zero (f N0 N0 0) -> minus_zero (f N0 N0 (2 ^ 31)) -> keeps_zeros (f U W)) as KZ.
  { intros f D A B x P. split; intros H.
    - rewrite (D U W N0 N0 x P) by (do 2 eexists; exact H). assert (x = 0) as -> by (apply (val_eq x 0 P); [unfold pattern; lia | exact H | vm_compute; discriminate]). exact A.
    - rewrite (D U W N0 N0 x P) by (do 2 eexists; exact H). assert (x = 2 ^ 31) as -> by (apply (val_eq x (2 ^ 31) P); [unfold pattern; lia | exact H | vm_compute; discriminate]). exact B. }
  assert (forall f, well_defined f -> is (whole 1) (f N0 N0 0) -> is (whole 1) (f N0 N0 (2 ^ 31)) -> forall x, pattern x -> a_zero x -> is (whole 1) (f U W x)) as KC.
  { intros f D A B x P (s & H). rewrite (D U W N0 N0 x P) by (do 2 eexists; exact H). destruct s.
    - assert (x = 2 ^ 31) as -> by (apply (val_eq x (2 ^ 31) P); [unfold pattern; lia | exact H | vm_compute; discriminate]). exact B.
    - assert (x = 0) as -> by (apply (val_eq x 0 P); [unfold pattern; lia | exact H | vm_compute; discriminate]). exact A. }
  repeat match goal with |- _ /\ _ => split end.
  1, 2, 3, 4, 5, 6: match goal with |- ?L ?f => cbv [like_sine like_cosine keeps_nan] end; split; [| split];
    [intros x P N; first [apply (sin_out U W x P (or_introl N)) | apply (cos_out U W x P (or_introl N)) | apply (tan_out U W x P (or_introl N))] | |
     intros x P N; first [apply (sin_out U W x P (or_intror N)) | apply (cos_out U W x P (or_intror N)) | apply (tan_out U W x P (or_intror N))]].
  - apply (KZ xsinf D1); vm_compute; reflexivity.
  - apply (KZ xsinf_u1 D2); vm_compute; reflexivity.
  - apply (KC xcosf D3); vm_compute; reflexivity.
  - apply (KC xcosf_u1 D4); vm_compute; reflexivity.
  - apply (KZ xtanf D5); vm_compute; reflexivity.
  - apply (KZ xtanf_u1 D6); vm_compute; reflexivity.
Qed.
Print Assumptions C135_special.

Example C135_special_nontrivial : val (xsinf N0 N0 1078530011) <> FFin false 0 /\ nan (xsinf N0 N0 2139095040) /\ is (whole 1) (xcosf_u1 N0 N0 2147483648).
Proof. vm_compute. repeat split; discriminate. Qed.
