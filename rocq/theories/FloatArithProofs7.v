(** The conversions between half, single and double precision round
    correctly, and the scalar operators built on them. *)
From Coq Require Import ZArith Bool Lia ZifyBool List.
From Verif Require Import CInt FloatSpec Fp16 Fp16Spec Fp16Proofs ScalarOps RoundEven X86Cvt X86CvtSpec FloatProofs X86CvtProofs2 X86CvtProofs4 X86Float X86FloatSpec X86FloatProofs2 ArmFloat.
From Verif Require Import FloatArith FloatArithSpec FloatArithProofs FloatArithProofs2 FloatArithProofs3 FloatArithProofs4 FloatArithProofs5 FloatArithProofs6 ScalarFloat.
Local Open Scope Z_scope.

Lemma good16 : good_fmt binary16. Proof. right; right; reflexivity. Qed.
Lemma good32 : good_fmt binary32. Proof. left; reflexivity. Qed.
Lemma good64 : good_fmt binary64. Proof. right; left; reflexivity. Qed.
Lemma wider16 : wider binary16 binary32. Proof. left; auto. Qed.
Lemma wider32 : wider binary32 binary64. Proof. right; auto. Qed.
Lemma ratio16 : ratio binary16 binary32 = 125. Proof. reflexivity. Qed.
Lemma ratio32 : ratio binary32 binary64 = 925. Proof. reflexivity. Qed.

Lemma narrow16 y : 0 <= y < 2 ^ 32 -> narrowed binary16 binary32 y (f32_to_u16 y).
Proof.
  intros Hy. split; [intros D; apply f32_to_u16_nan_l; assumption|]. intros s m Sg Sz.
  destruct (size_pattern binary32 y m good32 Hy Sz) as (s' & p & Ey & Hp & Em & Sg').
  assert (s' = s) as -> by (destruct (decode binary32 y); cbn in *; [contradiction|congruence|congruence]). rewrite ratio16. subst m y.
  replace (f32_to_u16 (sign_bit binary32 s + p)) with (encode binary16 s (vmag binary32 p) 125).
  - apply encode_rounded; [exact good16|apply vmag_nonneg; [cbn; lia|lia]|lia].
  - symmetry. apply f32_to_u16_round. exact Hp.
Qed.
Lemma inf_rounded f g s : wider f g -> correctly_rounded f s (twice_ratio (beyond g) (2 ^ ratio f g)) (sign_bit f s + inf_bits f).
Proof.
  intros W. destruct (wider_sizes f g W) as (Gf & Gg & X & K & BB & M1). pose proof (via_pos f g W) as Pk. apply rounded_iff; [exact Gf|]. exists (inf_bits f). split; [reflexivity|].
  pose proof (inf_bits_pos f Gf). split; [lia|]. intros q Hq. split; intros O; [lia|left]. unfold twice_ratio. apply Z.compare_gt_iff.
  apply (vmag_strict f M1) in O; [|lia]. rewrite vmag_inf in * by exact Gf. assert (0 < beyond f) by (apply pow2_pos; destruct (good_sizes f Gf); lia). nia.
Qed.
Lemma narrow32 y : 0 <= y < 2 ^ 64 -> narrowed binary32 binary64 y (single_of_double y).
Proof.
  intros Hy. unfold narrowed, single_of_double. destruct (decode binary64 y) as [|s|s m] eqn:D.
  - split; [intros _; apply dec_nan; exact good32|]. intros s m [].
  - split; [discriminate|]. intros s' m E Sz. cbn in E. subst s'. injection Sz as <-. apply inf_rounded. exact wider32.
  - split; [discriminate|]. intros s' m' E Sz. cbn in E. subst s'. injection Sz as <-. rewrite ratio32. apply encode_rounded; [exact good32|exact (dec_nonneg binary64 y s m good64 Hy D)|lia].
Qed.
Lemma wide16 a : 0 <= a < 2 ^ 16 -> exists x, u16_to_f32 a = Some x /\ 0 <= x < 2 ^ 32 /\ decode binary32 x = widened binary16 binary32 (decode binary16 a).
Proof. intros Ha. destruct (u16_to_f32_exact_l a Ha) as (x & E & R & D). exists x. split; [exact E|]. split; [exact R|]. rewrite D. destruct (decode binary16 a); reflexivity. Qed.
Lemma wide32 a : decode binary64 (double_of_single a) = widened binary32 binary64 (decode binary32 a) /\ 0 <= double_of_single a < 2 ^ 64.
Proof. destruct (double_of_single_ok a) as (D & R). split; [|exact R]. rewrite D. destruct (decode binary32 a); reflexivity. Qed.

(** a number of the narrow format survives *)
Lemma narrow_same f g y r b s : wider f g -> 0 <= b < 2 ^ width f -> narrowed f g y r -> decode g y = widened f g (decode f b) -> signed (decode f b) s -> r = b.
Proof.
  intros W Hb (_ & N) D Sg. destruct (wider_sizes f g W) as (Gf & Gg & X & K & BB & M1). pose proof (via_pos f g W) as Pk.
  destruct (decode f b) as [|s'|s' m] eqn:Db; cbn in Sg; [contradiction| |]; subst s'; cbn [widened] in D; rewrite D in N; cbn [signed size] in N.
  - specialize (N s _ eq_refl eq_refl). destruct (size_pattern f b (beyond f) Gf Hb ltac:(rewrite Db; reflexivity)) as (s' & p & Eb & Hp & Em & Sg'). rewrite Db in Sg'. cbn in Sg'. subst s'.
    rewrite <- vmag_inf in Em by exact Gf. apply (vmag_inj f M1) in Em; [|pose proof (inf_bits_pos f Gf); lia|lia]. subst p.
    rewrite Eb. eapply (rounded_unique f s _ _ _ Gf (comparing_ratio _ _ Pk) N). apply inf_rounded. exact W.
  - specialize (N s _ eq_refl eq_refl). destruct (dec_mag f b s m Gf Hb Db) as (p & Eb & Hp & Em). rewrite Eb.
    eapply (rounded_unique f s _ _ _ Gf (comparing_ratio _ _ Pk) N). apply rounded_iff; [exact Gf|]. exists p. split; [reflexivity|]. split; [lia|]. intros q Hq. unfold twice_ratio.
    pose proof (mono_lt f p q Gf ltac:(lia) ltac:(lia)). pose proof (mono_lt f q p Gf ltac:(lia) ltac:(lia)). rewrite Em.
    split; intros O; left; [apply Z.compare_lt_iff|apply Z.compare_gt_iff]; nia.
Qed.

(** ** ranges *)
Lemma nan_range f : good_fmt f -> 0 <= nan_bits f < 2 ^ width f.
Proof. intros [->|[->| ->]]; vm_compute; split; discriminate || reflexivity. Qed.
Lemma inf_range f s : good_fmt f -> 0 <= sign_bit f s + inf_bits f < 2 ^ width f.
Proof. intros [->|[->| ->]]; destruct s; vm_compute; split; discriminate || reflexivity. Qed.
Lemma sign_range f s : good_fmt f -> 0 <= sign_bit f s < 2 ^ width f.
Proof. intros [->|[->| ->]]; destruct s; vm_compute; split; discriminate || reflexivity. Qed.
Ltac ranges := try (apply nan_range; assumption); try (apply inf_range; assumption); try (apply sign_range; assumption).
Lemma fadd_rng f a b : good_fmt f -> 0 <= fadd f a b < 2 ^ width f.
Proof.
  intros G. unfold fadd. destruct (decode f a), (decode f b); ranges; [destruct (Bool.eqb _ _); ranges|]. cbv zeta. destruct (_ =? 0); ranges. apply encode_range; [exact G|lia|lia].
Qed.
Lemma fmul_rng f a b : good_fmt f -> 0 <= a < 2 ^ width f -> 0 <= b < 2 ^ width f -> 0 <= fmul f a b < 2 ^ width f.
Proof.
  intros G Ha Hb. unfold fmul. destruct (decode f a) eqn:Da, (decode f b) eqn:Db; ranges; try (destruct (_ =? 0); ranges).
  apply encode_range; [exact G| |destruct (good_sizes f G); lia]. pose proof (dec_nonneg f _ _ _ G Ha Da). pose proof (dec_nonneg f _ _ _ G Hb Db). nia.
Qed.
Lemma fdiv_rng f a b : good_fmt f -> 0 <= a < 2 ^ width f -> 0 <= b < 2 ^ width f -> 0 <= fdiv f a b < 2 ^ width f.
Proof.
  intros G Ha Hb. unfold fdiv. destruct (decode f a) as [|s|s m] eqn:Da, (decode f b) as [|s'|s' m'] eqn:Db; ranges. destruct (Z.eqb_spec m' 0); [destruct (m =? 0); ranges|].
  pose proof (dec_nonneg f _ _ _ G Ha Da). pose proof (dec_nonneg f _ _ _ G Hb Db). pose proof (FloatArithProofs2.one_pos f G). rewrite scale_one.
  apply encode_range; [exact G|apply sticky_quotient_nonneg; nia|lia].
Qed.
Lemma fsqrt_rng f a : good_fmt f -> 0 <= fsqrt f a < 2 ^ width f.
Proof.
  intros G. unfold fsqrt. destruct (decode f a) as [|s|s m]; ranges; [destruct s; ranges; exact (inf_range f false G)|]. destruct (m =? 0); ranges. destruct s; ranges.
  apply encode_range; [exact G|apply sticky_root_nonneg|lia].
Qed.
Lemma ffma_rng f a b c : good_fmt f -> 0 <= ffma f a b c < 2 ^ width f.
Proof.
  intros G. unfold ffma. destruct (decode f a) as [|s|s m], (decode f b) as [|s'|s' m'], (decode f c) as [|s''|s'' m'']; cbv zeta; ranges;
    repeat match goal with |- context [if ?x then _ else _] => destruct x; ranges end. apply encode_range; [exact G|lia|destruct (good_sizes f G); lia].
Qed.
Lemma fone_rng f : good_fmt f -> 0 <= fone f < 2 ^ width f.
Proof. intros G. apply encode_range; [exact G| |lia]. pose proof (FloatArithProofs2.one_pos f G). rewrite scale_one. lia. Qed.
Lemma fone_is f : good_fmt f -> decode f (fone f) = FFin false (one f).
Proof. intros [->|[->| ->]]; vm_compute; reflexivity. Qed.

(** ** the operators *)
Lemma ff_good' t : good_fmt (ff t).
Proof. destruct t; [exact good16|exact good32|exact good64]. Qed.
Lemma ff_w t : width (ff t) = fw t.
Proof. destruct t; reflexivity. Qed.

Lemma opnum2_is (S : fmt -> fval -> fval -> Z -> Prop) op t a b :
  (forall f x y, good_fmt f -> 0 <= x < 2 ^ width f -> 0 <= y < 2 ^ width f -> S f (decode f x) (decode f y) (op f x y) /\ 0 <= op f x y < 2 ^ width f) ->
  (forall v w y r, number binary16 v -> number binary16 w -> S binary32 (widened binary16 binary32 v) (widened binary16 binary32 w) y -> narrowed binary16 binary32 y r -> S binary16 v w r) ->
  0 <= a < 2 ^ fw t -> 0 <= b < 2 ^ fw t -> exists r, opnum2 op t a b = Some r /\ 0 <= r < 2 ^ fw t /\ S (ff t) (decode (ff t) a) (decode (ff t) b) r.
Proof.
  intros H V Ha Hb. destruct t; cbn [opnum2 ff fw] in *.
  - destruct (wide16 a Ha) as (x & Ex & Rx & Dx). destruct (wide16 b Hb) as (y & Ey & Ry & Dy). rewrite Ex, Ey. cbn [bind]. eexists. split; [reflexivity|].
    destruct (H binary32 x y good32 Rx Ry) as (A & R). split; [apply f32_to_u16_range_l; exact R|].
    eapply V; [exists a; auto|exists b; auto| |apply narrow16; exact R]. rewrite <- Dx, <- Dy. exact A.
  - eexists. split; [reflexivity|]. destruct (H binary32 a b good32 Ha Hb). auto.
  - eexists. split; [reflexivity|]. destruct (H binary64 a b good64 Ha Hb). auto.
Qed.

Lemma sf_add_is t a b : 0 <= a < 2 ^ fw t -> 0 <= b < 2 ^ fw t -> exists r, sf_add t a b = Some r /\ 0 <= r < 2 ^ fw t /\ sum_is (ff t) (decode (ff t) a) (decode (ff t) b) r.
Proof. apply opnum2_is; [intros; split; [apply fadd_is; assumption|apply fadd_rng; assumption]|]. intros. eapply via_sum; eauto using wider16. Qed.
Lemma sf_sub_is t a b : 0 <= a < 2 ^ fw t -> 0 <= b < 2 ^ fw t -> exists r, sf_sub t a b = Some r /\ 0 <= r < 2 ^ fw t /\ difference_is (ff t) (decode (ff t) a) (decode (ff t) b) r.
Proof. apply opnum2_is; [intros; split; [apply fsub_is; assumption|apply fadd_rng; assumption]|]. intros. eapply via_difference; eauto using wider16. Qed.
Lemma sf_mul_is t a b : 0 <= a < 2 ^ fw t -> 0 <= b < 2 ^ fw t -> exists r, sf_mul t a b = Some r /\ 0 <= r < 2 ^ fw t /\ product_is (ff t) (decode (ff t) a) (decode (ff t) b) r.
Proof. apply opnum2_is; [intros; split; [apply fmul_is; assumption|apply fmul_rng; assumption]|]. intros. eapply via_product; eauto using wider16. Qed.
Lemma sf_div_is t a b : 0 <= a < 2 ^ fw t -> 0 <= b < 2 ^ fw t -> exists r, sf_div t a b = Some r /\ 0 <= r < 2 ^ fw t /\ quotient_is (ff t) (decode (ff t) a) (decode (ff t) b) r.
Proof. apply opnum2_is; [intros; split; [apply fdiv_is; assumption|apply fdiv_rng; assumption]|]. intros. eapply via_quotient; eauto using wider16. Qed.

Lemma number_one : number binary16 (FFin false (one binary16)).
Proof. exists (fone binary16). split; [apply fone_rng; exact good16|apply fone_is; exact good16]. Qed.
Lemma sf_rec_is t a : 0 <= a < 2 ^ fw t -> exists r, sf_rec t a = Some r /\ 0 <= r < 2 ^ fw t /\ quotient_is (ff t) (FFin false (one (ff t))) (decode (ff t) a) r.
Proof.
  intros Ha. unfold sf_rec, opnum1. destruct t; cbn [ff fw] in *.
  - destruct (wide16 a Ha) as (x & Ex & Rx & Dx). rewrite Ex. cbn [bind]. eexists. split; [reflexivity|].
    pose proof (fdiv_rng binary32 (fone binary32) x good32 (fone_rng _ good32) Rx) as R. split; [apply f32_to_u16_range_l; exact R|].
    eapply (via_quotient binary16 binary32 wider16); [exact number_one|exists a; auto| |apply narrow16; exact R].
    rewrite <- Dx. change (widened binary16 binary32 (FFin false (one binary16))) with (FFin false (2 ^ 24 * 2 ^ 125)). pose proof (fdiv_is binary32 (fone binary32) x good32 (fone_rng _ good32) Rx) as Q.
    rewrite fone_is in Q by exact good32. exact Q.
  - eexists. split; [reflexivity|]. split; [apply fdiv_rng; [exact good32|apply fone_rng, good32|exact Ha]|]. rewrite <- fone_is by exact good32. apply fdiv_is; [exact good32|apply fone_rng, good32|exact Ha].
  - eexists. split; [reflexivity|]. split; [apply fdiv_rng; [exact good64|apply fone_rng, good64|exact Ha]|]. rewrite <- fone_is by exact good64. apply fdiv_is; [exact good64|apply fone_rng, good64|exact Ha].
Qed.

Lemma sqrt32_is c99 x : 0 <= x < 2 ^ 32 -> root_is binary32 (decode binary32 x) (libm1_f32 c99 fsqrt x) /\ 0 <= libm1_f32 c99 fsqrt x < 2 ^ 32.
Proof.
  intros Hx. unfold libm1_f32. destruct c99; [split; [apply fsqrt_is; [exact good32|exact Hx]|apply fsqrt_rng; exact good32]|].
  destruct (wide32 x) as (D & R). pose proof (fsqrt_rng binary64 (double_of_single x) good64) as R2. split; [|apply single_of_double_ok; exact R2].
  eapply (via_root binary32 binary64 wider32); [exists x; auto| |apply narrow32; exact R2]. rewrite <- D. apply fsqrt_is; [exact good64|exact R].
Qed.
Lemma sf_sqrt_is c99 t a : 0 <= a < 2 ^ fw t -> exists r, sf_sqrt c99 t a = Some r /\ 0 <= r < 2 ^ fw t /\ root_is (ff t) (decode (ff t) a) r.
Proof.
  intros Ha. unfold sf_sqrt, libm1. destruct t; cbn [ff fw] in *.
  - destruct (wide16 a Ha) as (x & Ex & Rx & Dx). rewrite Ex. cbn [bind]. eexists. split; [reflexivity|]. destruct (sqrt32_is c99 x Rx) as (A & R). split; [apply f32_to_u16_range_l; exact R|].
    eapply (via_root binary16 binary32 wider16); [exists a; auto| |apply narrow16; exact R]. rewrite <- Dx. exact A.
  - eexists. split; [reflexivity|]. destruct (sqrt32_is c99 a Ha). auto.
  - eexists. split; [reflexivity|]. split; [apply fsqrt_rng; exact good64|apply fsqrt_is; [exact good64|exact Ha]].
Qed.
