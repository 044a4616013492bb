(** NaNs through the double-float operations of Sleef.v. *)
Require Import ZArith List Bool Lia.
Require Import Verif.FloatSpec Verif.FloatArith Verif.FloatArithSpec Verif.RoundEven Verif.X86Cvt Verif.SleefBase Verif.Sleef Verif.SleefSpec
  Verif.SleefProofs Verif.SleefProofs2.
Local Open Scope Z_scope.

Section Nan.
Variables (x y : f2) (a b : Z).
Lemma n_norm1 : nan (fx x) -> nan (fx (dfnormalize_f2_f2 x)).
Proof. apply nan_addl. Qed.
Lemma n_norm2 : nan (fy x) -> nan (fx (dfnormalize_f2_f2 x)).
Proof. apply nan_addr. Qed.
Lemma n_scale : nan (fx x) -> nan (fx (dfscale_f2_f2_f x a)).
Proof. apply nan_mull. Qed.
Lemma n_neg : nan (fx x) -> nan (fx (dfneg_f2_f2 x)).
Proof. apply nan_neg. Qed.
Lemma n_aff1 : nan a -> nan (fx (dfadd_f2_f_f a b)).
Proof. apply nan_addl. Qed.
Lemma n_aff2 : nan b -> nan (fx (dfadd_f2_f_f a b)).
Proof. apply nan_addr. Qed.
Lemma n_a2ff1 : nan a -> nan (fx (dfadd2_f2_f_f a b)).
Proof. apply nan_addl. Qed.
Lemma n_a2ff2 : nan b -> nan (fx (dfadd2_f2_f_f a b)).
Proof. apply nan_addr. Qed.
Lemma n_a2f1 : nan (fx x) -> nan (fx (dfadd_f2_f2_f x a)).
Proof. apply nan_addl. Qed.
Lemma n_a2f2 : nan a -> nan (fx (dfadd_f2_f2_f x a)).
Proof. apply nan_addr. Qed.
Lemma n_af2a : nan a -> nan (fx (dfadd_f2_f_f2 a x)).
Proof. apply nan_addl. Qed.
Lemma n_af2b : nan (fx x) -> nan (fx (dfadd_f2_f_f2 a x)).
Proof. apply nan_addr. Qed.
Lemma n_a22f1 : nan (fx x) -> nan (fx (dfadd2_f2_f2_f x a)).
Proof. apply nan_addl. Qed.
Lemma n_a22f2 : nan a -> nan (fx (dfadd2_f2_f2_f x a)).
Proof. apply nan_addr. Qed.
Lemma n_a2f2a : nan a -> nan (fx (dfadd2_f2_f_f2 a x)).
Proof. apply nan_addl. Qed.
Lemma n_a2f2b : nan (fx x) -> nan (fx (dfadd2_f2_f_f2 a x)).
Proof. apply nan_addr. Qed.
Lemma n_a222 : nan (fx x) -> nan (fx (dfadd_f2_f2_f2 x y)).
Proof. apply nan_addl. Qed.
Lemma n_a222' : nan (fx y) -> nan (fx (dfadd_f2_f2_f2 x y)).
Proof. apply nan_addr. Qed.
Lemma n_a2222 : nan (fx x) -> nan (fx (dfadd2_f2_f2_f2 x y)).
Proof. apply nan_addl. Qed.
Lemma n_a2222' : nan (fx y) -> nan (fx (dfadd2_f2_f2_f2 x y)).
Proof. apply nan_addr. Qed.
Lemma n_sub : nan (fx x) -> nan (fx (dfsub_f2_f2_f2 x y)).
Proof. apply nan_subl. Qed.
Lemma n_sub' : nan (fx y) -> nan (fx (dfsub_f2_f2_f2 x y)).
Proof. apply nan_subr. Qed.
Lemma n_div : nan (fx x) -> nan (fx (dfdiv_f2_f2_f2 x y)).
Proof. apply nan_mull. Qed.
Lemma n_div' : nan (fx y) -> nan (fx (dfdiv_f2_f2_f2 x y)).
Proof. intros H. apply nan_mulr, nan_divr, H. Qed.
Lemma n_mff1 : nan a -> nan (fx (dfmul_f2_f_f a b)).
Proof. apply nan_mull. Qed.
Lemma n_mff2 : nan b -> nan (fx (dfmul_f2_f_f a b)).
Proof. apply nan_mulr. Qed.
Lemma n_m2f1 : nan (fx x) -> nan (fx (dfmul_f2_f2_f x a)).
Proof. apply nan_mull. Qed.
Lemma n_m2f2 : nan a -> nan (fx (dfmul_f2_f2_f x a)).
Proof. apply nan_mulr. Qed.
Lemma n_m22 : nan (fx x) -> nan (fx (dfmul_f2_f2_f2 x y)).
Proof. apply nan_mull. Qed.
Lemma n_m22' : nan (fx y) -> nan (fx (dfmul_f2_f2_f2 x y)).
Proof. apply nan_mulr. Qed.
Lemma n_squ : nan (fx x) -> nan (fx (dfsqu_f2_f2 x)).
Proof. apply nan_mull. Qed.
Lemma n_rec : nan a -> nan (fx (dfrec_f2_f a)).
Proof. apply nan_divr. Qed.
Lemma n_rec2 : nan (fx x) -> nan (fx (dfrec_f2_f2 x)).
Proof. apply nan_divr. Qed.
Lemma n_sqrt2 : nan (fx x) -> nan (fx (dfsqrt_f2_f2 x)).
Proof. intros H. apply nan_mull, nan_mull, nan_addl, H. Qed.
Lemma n_sqrt : nan a -> nan (fx (dfsqrt_f2_f a)).
Proof. intros H. apply nan_mull, nan_mull, nan_addl, H. Qed.
Lemma n_pair : nan a -> nan (fx (F2 a b)).
Proof. exact (fun H => H). Qed.
End Nan.
#[export] Hint Resolve n_norm1 n_norm2 n_scale n_neg n_aff1 n_aff2 n_a2ff1 n_a2ff2 n_a2f1 n_a2f2 n_af2a n_af2b n_a22f1 n_a22f2 n_a2f2a n_a2f2b
  n_a222 n_a222' n_a2222 n_a2222' n_sub n_sub' n_div n_div' n_mff1 n_mff2 n_m2f1 n_m2f2 n_m22 n_m22' n_squ n_rec n_rec2 n_sqrt2 n_sqrt n_pair : nan.
Lemma n_sqrt_nan a : nan (SQRTF a) -> nan (fx (dfsqrt_f2_f a)).
Proof. intros H. apply nan_mull, nan_mull, nan_addr, nan_mull, H. Qed.

Lemma n_expk2 U x : nan (fx x) -> nan (fx (expk2f U x)).
Proof. intros H. unfold expk2f. cbv zeta. rewrite (ltf_nanl (fx x)) by assumption. cbn [fx].
  apply nan_ldexp2, n_a2f2b, n_a2222, n_a22f1, n_a22f1, H. Qed.
Lemma n_expk U x : nan (fx x) -> nan (expkf U x).
Proof. intros H. unfold expkf. cbv zeta. rewrite (ltf_nanl (fx x)) by assumption. 
  apply nan_ldexp, nan_addl, n_af2b, n_a222, n_norm1, n_a22f1, n_a22f1, H. Qed.
Lemma n_logk2 x : nan (fx x) -> nan (fx (logk2f x)).
Proof. intros H. unfold logk2f. cbv zeta.
  apply n_a222, n_a222', n_scale, n_div, n_a22f1, n_scale, H. Qed.
