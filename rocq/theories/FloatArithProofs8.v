(** The scalar operators, continued: multiply-add, rounding to integers,
    minimum, maximum, comparison; and that the specifications leave no choice. *)
From Coq Require Import ZArith Bool Lia ZifyBool List.
From Verif Require Import CInt FloatSpec Fp16 Fp16Spec Fp16Proofs ScalarOps RoundEven X86Cvt X86CvtSpec FloatProofs X86CvtProofs2 X86CvtProofs4 X86Float X86FloatSpec X86FloatProofs2 ArmFloat.
From Verif Require Import FloatArith FloatArithSpec FloatArithProofs FloatArithProofs2 FloatArithProofs3 FloatArithProofs4 FloatArithProofs5 FloatArithProofs6 ScalarFloat FloatArithProofs7.
Local Open Scope Z_scope.

(** ** one result *)
Lemma nan_same f r r' : is_nan f r -> is_nan f r' -> same_number f r r'.
Proof. right. auto. Qed.
Lemma decode_eq f r r' : good_fmt f -> 0 <= r < 2 ^ width f -> 0 <= r' < 2 ^ width f -> decode f r = decode f r' -> same_number f r r'.
Proof.
  intros G R R' E. destruct (decode f r) as [|s|s m] eqn:D.
  - apply nan_same; unfold is_nan; congruence.
  - left. destruct (size_pattern f r _ G R ltac:(rewrite D; reflexivity)) as (s1 & p & Er & Hp & Em & S1). destruct (size_pattern f r' _ G R' ltac:(rewrite <- E; reflexivity)) as (s2 & q & Er' & Hq & Em' & S2).
    rewrite D in S1. rewrite <- E in S2. cbn in S1, S2. subst. destruct (good_sizes f G) as (M & _). f_equal. apply (vmag_inj f M); lia.
  - left. destruct (dec_mag f r s m G R D) as (p & -> & Hp & Em). symmetry in E. destruct (dec_mag f r' s m G R' E) as (q & -> & Hq & Em'). f_equal.
    destruct (good_sizes f G) as (M & _). apply (vmag_inj f M); lia.
Qed.
Section Unique.
Variables (f : fmt) (r r' : Z).
Hypothesis G : good_fmt f.
Hypothesis R : 0 <= r < 2 ^ width f.
Hypothesis R' : 0 <= r' < 2 ^ width f.
Ltac one_of_all := first [apply nan_same; assumption | apply decode_eq; [assumption|assumption|assumption|unfold infinite, zero in *; congruence]
  | left; eapply rounded_unique; [eassumption| |eassumption|eassumption]; first [apply comparing_root|apply comparing_ratio; lia] ].
Lemma sum_unique v w : sum_is f v w r -> sum_is f v w r' -> same_number f r r'.
Proof. destruct v as [|s|s m], w as [|s'|s' m']; cbn [sum_is]; intros H H'; try one_of_all; [destruct (Bool.eqb s s'); one_of_all|]. cbv zeta in *. destruct (_ =? 0); one_of_all. Qed.
Lemma product_unique v w : product_is f v w r -> product_is f v w r' -> same_number f r r'.
Proof. pose proof (one_pos f G). destruct v as [|s|s m], w as [|s'|s' m']; cbn [product_is]; intros H1 H2; try (destruct (_ =? 0)); one_of_all. Qed.
Lemma quotient_unique v w : (forall s m, w = FFin s m -> 0 <= m) -> quotient_is f v w r -> quotient_is f v w r' -> same_number f r r'.
Proof.
  intros P. destruct v as [|s|s m], w as [|s'|s' m']; cbn [quotient_is]; intros H1 H2; try one_of_all.
  specialize (P s' m' eq_refl). destruct (Z.eqb_spec m' 0); [destruct (m =? 0); one_of_all|one_of_all].
Qed.
Lemma root_unique v : root_is f v r -> root_is f v r' -> same_number f r r'.
Proof. destruct v as [|s|s m]; cbn [root_is]; intros H1 H2; try one_of_all; [destruct s; one_of_all|]. destruct (m =? 0); [one_of_all|]. destruct s; one_of_all. Qed.
Lemma fused_unique v w x : fused_is f v w x r -> fused_is f v w x r' -> same_number f r r'.
Proof.
  pose proof (one_pos f G). destruct v as [|s|s m], w as [|s'|s' m']; cbn [fused_is]; intros H1 H2; try one_of_all; try (eapply sum_unique; eassumption);
    try (destruct (_ =? 0); [one_of_all|eapply sum_unique; eassumption]).
  destruct x; try one_of_all. cbv zeta in *. destruct (_ =? 0); one_of_all.
Qed.
End Unique.

(** ** multiply and add *)
Lemma fopp_rng f b : good_fmt f -> 0 <= b < 2 ^ width f -> 0 <= fopp f b < 2 ^ width f.
Proof. intros G Hb. apply fopp_minus; assumption. Qed.
Lemma fma_std_rng c99 f a b c : good_fmt f -> 0 <= fma_std c99 f a b c < 2 ^ width f.
Proof. intros G. unfold fma_std. destruct c99; [apply ffma_rng|apply fadd_rng]; exact G. Qed.

Lemma encode_scaled f s x d : good_fmt f -> 0 <= x -> 0 <= d -> encode f s (x * 2 ^ d) d = encode f s x 0.
Proof.
  intros G Hx Hd. pose proof (pow2_pos d Hd). eapply (rounded_unique f s); [exact G| |apply encode_rounded; [exact G|nia|lia]|].
  - apply comparing_ratio. lia.
  - eapply rounded_ext; [|exact G|apply encode_rounded; [exact G|exact Hx|lia]]. intros n _. unfold twice_ratio. change (2 ^ 0) with 1.
    rewrite Z.mul_assoc, <- (Zmult_compare_compat_r (2 * x)) by lia. rewrite Z.mul_1_r. reflexivity.
Qed.
(** products of halves are exact in single precision *)
Lemma product_halves x y s m s' m' a b : 0 <= a < 2 ^ 16 -> 0 <= b < 2 ^ 16 -> decode binary16 a = FFin s m -> decode binary16 b = FFin s' m' ->
  decode binary32 x = FFin s (m * 2 ^ 125) -> decode binary32 y = FFin s' (m' * 2 ^ 125) -> decode binary32 (fmul binary32 x y) = FFin (xorb s s') (m * m' * 2 ^ 101).
Proof.
  intros Ha Hb Da Db Dx Dy. unfold fmul. rewrite Dx, Dy.
  destruct (number_digits binary16 binary32 wider16 s m ltac:(exists a; auto)) as (p & A & i & Hp & _ & EA & HA & Hi).
  destruct (number_digits binary16 binary32 wider16 s' m' ltac:(exists b; auto)) as (q & B & j & Hq & _ & EB & HB & Hj).
  change (scale binary32) with 149 in *. change (mbits binary16 + 1) with 11 in *.
  replace (m * 2 ^ 125 * (m' * 2 ^ 125)) with (m * m' * 2 ^ 101 * 2 ^ 149) by (change (2 ^ 125) with (2 ^ 101 * 2 ^ 24); change (2 ^ 149) with (2 ^ 101 * 2 ^ 48); ring).
  pose proof (pow2_pos i ltac:(lia)). pose proof (pow2_pos j ltac:(lia)).
  rewrite encode_scaled; [|exact good32|apply Z.mul_nonneg_nonneg; [nia|lia]|lia].
  assert (E : m * m' * 2 ^ 101 = A * B * 2 ^ (i + j + 101)) by (rewrite EA, EB, !Z.pow_add_r by lia; ring). rewrite E.
  apply encode_exact; [exact good32| |].
  - change (2 ^ (mbits binary32 + 1)) with (2 ^ 11 * 2 ^ 13). nia.
  - change (2 ^ ebits binary32 - 3) with 253. change (2 ^ ebits binary16 - 1) with 31 in *. lia.
Qed.
Lemma sval_mul s m k : sval s (m * k) = sval s m * k.
Proof. unfold sval. destruct s; ring. Qed.
Lemma fma_halves x y z a b c : 0 <= a < 2 ^ 16 -> 0 <= b < 2 ^ 16 -> 0 <= c < 2 ^ 16 ->
  decode binary32 x = widened binary16 binary32 (decode binary16 a) -> decode binary32 y = widened binary16 binary32 (decode binary16 b) -> decode binary32 z = widened binary16 binary32 (decode binary16 c) ->
  fadd binary32 (fmul binary32 x y) z = ffma binary32 x y z.
Proof.
  intros Ha Hb Hc Dx Dy Dz. destruct (decode binary16 a) as [|s|s m] eqn:Da, (decode binary16 b) as [|s'|s' m'] eqn:Db; cbn [widened] in Dx, Dy; rewrite ?ratio16 in *;
    try (unfold fadd, ffma, fmul; rewrite ?Dx, ?Dy; destruct (decode binary32 z) as [|s2|s2 m2] eqn:Ez; cbv beta iota zeta; cbn [orb]; rewrite ?orb_false_r;
      repeat match goal with |- context [if ?x =? 0 then _ else _] => destruct (x =? 0) end; rewrite ?(decode_nan binary32 good32), ?(decode_inf binary32 _ good32), ?Ez; cbv beta iota zeta; try reflexivity;
      match goal with |- (if Bool.eqb (xorb ?s ?s') ?s2 then _ else _) = _ =>
        replace (Bool.eqb (xorb s s') s2) with (Bool.eqb s2 (xorb s s')) by (destruct s2, s, s'; reflexivity);
        let E := fresh in destruct (Bool.eqb s2 (xorb s s')) eqn:E; [apply eqb_prop in E; rewrite E; reflexivity|reflexivity] end).
  pose proof (product_halves x y s m s' m' a b Ha Hb Da Db Dx Dy) as P. unfold fadd, ffma. rewrite P, Dx, Dy.
  destruct (decode binary16 c) as [|s2|s2 m2] eqn:Dc; cbn [widened] in Dz; rewrite Dz; try reflexivity. rewrite ratio16. change (scale binary32) with 149. cbv zeta.
  replace (m * 2 ^ 125 * (m' * 2 ^ 125)) with (m * m' * 2 ^ 101 * 2 ^ 149) by (change (2 ^ 125) with (2 ^ 101 * 2 ^ 24); change (2 ^ 149) with (2 ^ 101 * 2 ^ 48); ring).
  rewrite (sval_mul (xorb s s') (m * m' * 2 ^ 101) (2 ^ 149)), (sval_mul s2 (m2 * 2 ^ 125) (2 ^ 149)), <- Z.mul_add_distr_r. set (v := sval (xorb s s') (m * m' * 2 ^ 101) + sval s2 (m2 * 2 ^ 125)).
  assert (0 < 2 ^ 149) as P149 by lia. replace (v * 2 ^ 149 =? 0) with (v =? 0) by lia. replace (v * 2 ^ 149 <? 0) with (v <? 0) by lia. destruct (v =? 0); [reflexivity|].
  rewrite Z.abs_mul, (Z.abs_eq (2 ^ 149)) by lia. symmetry. apply encode_scaled; [exact good32|lia|lia].
Qed.
