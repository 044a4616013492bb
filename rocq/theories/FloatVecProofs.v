(** Lanes of the arithmetic operators on vectors. *)
From Coq Require Import ZArith Bool Lia ZifyBool List.
From Verif Require Import CInt FloatSpec Fp16 Fp16Spec Fp16Proofs ScalarOps RoundEven X86Deg234 X86Arith X86ArithSpec X86LaneLemmas X86Mem X86MemSpec X86MemProofs2 X86Cvt X86CvtSpec FloatProofs X86CvtProofs2 X86CvtProofs4 X86Float X86FloatSpec X86FloatProofs X86FloatProofs2 X86FloatProofs4.
From Verif Require Import FloatArith FloatArithSpec FloatArithProofs FloatArithProofs2 FloatArithProofs6 ScalarFloat FloatArithProofs7 FloatArithProofs8 FloatArithProofs9 X86FloatArith FloatVecSpec FloatVecOps.
Local Open Scope Z_scope.

Definition fop (o : arith) : fmt -> Z -> Z -> Z := match o with Add => fadd | Sub => fsub | Mul => fmul | Div => fdiv end.
Lemma fop_is o f x y : good_fmt f -> 0 <= x < 2 ^ width f -> 0 <= y < 2 ^ width f -> result_is o f (decode f x) (decode f y) (fop o f x y) /\ 0 <= fop o f x y < 2 ^ width f.
Proof.
  intros G Hx Hy. destruct o; cbn [result_is fop].
  - split; [apply fadd_is|apply fadd_rng]; assumption.
  - split; [apply fsub_is; assumption|apply fadd_rng; assumption].
  - split; [apply fmul_is; assumption|apply fmul_rng; assumption].
  - split; [apply fdiv_is; assumption|apply fdiv_rng; assumption].
Qed.
Lemma inverse_ok f x : good_fmt f -> 0 <= x < 2 ^ width f -> inverse_is f (decode f x) (fdiv f (fone f) x) /\ 0 <= fdiv f (fone f) x < 2 ^ width f.
Proof. intros G R. unfold inverse_is. rewrite <- (fone_is f G). apply (fop_is Div); [exact G|apply fone_rng; exact G|exact R]. Qed.

(** ** x86 *)
Section X86.
Variables (e : ext) (t : mty).
Hypothesis F : is_float t = true.
Lemma pat_rng r i : 0 <= pattern t r i < 2 ^ mw t.
Proof. rewrite pattern_lane. pose proof (lane_range (mw t) i r) as L. apply L. pose proof (okw_f e t F) as O. unfold okw in O. lia. Qed.
Lemma x_build_ok (g : Z -> Z) : (forall i, 0 <= g i < 2 ^ mw t) -> vectorf e t (build (mw t) (nlanes (nb e) (mw t)) g) (fun i x => x = g i).
Proof.
  intros R. pose proof (okw_f e t F) as O. split; [apply in_reg_build; exact O|]. intros i Hi. rewrite pattern_lane, lane_buildn by assumption. apply Z.mod_small, R.
Qed.
Lemma x_1_ok f a : (forall x, 0 <= x < 2 ^ mw t -> 0 <= f x < 2 ^ mw t) -> vectorf e t (lanewise1 (nb e) (mw t) f a) (fun i x => x = f (pattern t a i)).
Proof.
  intros R. unfold lanewise1. destruct (x_build_ok (fun i => f (lane (mw t) i a))) as (H & L). { intros i. apply R. rewrite <- pattern_lane. apply pat_rng. }
  split; [exact H|]. intros i Hi. rewrite L by exact Hi. rewrite pattern_lane. reflexivity.
Qed.
Lemma x_2_ok f a b : (forall x y, 0 <= x < 2 ^ mw t -> 0 <= y < 2 ^ mw t -> 0 <= f x y < 2 ^ mw t) -> vectorf e t (lanewise2 (nb e) (mw t) f a b) (fun i x => x = f (pattern t a i) (pattern t b i)).
Proof.
  intros R. unfold lanewise2. destruct (x_build_ok (fun i => f (lane (mw t) i a) (lane (mw t) i b))) as (H & L). { intros i. apply R; rewrite <- pattern_lane; apply pat_rng. }
  split; [exact H|]. intros i Hi. rewrite L by exact Hi. rewrite !pattern_lane. reflexivity.
Qed.
Lemma x_3_ok f a b c : (forall x y z, 0 <= x < 2 ^ mw t -> 0 <= y < 2 ^ mw t -> 0 <= z < 2 ^ mw t -> 0 <= f x y z < 2 ^ mw t) ->
  vectorf e t (mm_fma3 (nb e) t f a b c) (fun i x => x = f (pattern t a i) (pattern t b i) (pattern t c i)).
Proof.
  intros R. unfold mm_fma3. destruct (x_build_ok (fun i => f (lane (mw t) i a) (lane (mw t) i b) (lane (mw t) i c))) as (H & L). { intros i. apply R; rewrite <- pattern_lane; apply pat_rng. }
  split; [exact H|]. intros i Hi. rewrite L by exact Hi. rewrite !pattern_lane. reflexivity.
Qed.
Lemma x_arith_lane o a b : vectorf e t (x_arith o e t a b) (fun i x => x = fop o (mfmt t) (pattern t a i) (pattern t b i)).
Proof.
  assert (K : vectorf e t (lanewise2 (nb e) (mw t) (fop o (mfmt t)) a b) (fun i x => x = fop o (mfmt t) (pattern t a i) (pattern t b i))).
  { apply x_2_ok. intros x y Hx Hy. rewrite <- (mfmt_width t F) in *. apply (fop_is o (mfmt t) x y (mfmt_good t) Hx Hy). }
  destruct o; exact K.
Qed.
Lemma x_sqrt_lane a : vectorf e t (x_sqrtf e t a) (fun i x => x = fsqrt (mfmt t) (pattern t a i)).
Proof. apply x_1_ok. intros x Hx. rewrite <- (mfmt_width t F). apply fsqrt_rng, mfmt_good. Qed.
Lemma x_one_lane i : 0 <= i < elems e t -> pattern t (mm_set1 (nb e) (mw t) (fone (mfmt t))) i = fone (mfmt t).
Proof.
  intros Hi. unfold mm_set1. apply (x_build_ok (fun _ => fone (mfmt t))); [|exact Hi]. intros _. rewrite <- (mfmt_width t F). apply fone_rng, mfmt_good.
Qed.
Lemma x_rec_lane a : vectorf e t (x_recf e t a) (fun i x => x = fdiv (mfmt t) (fone (mfmt t)) (pattern t a i)).
Proof.
  destruct (x_arith_lane Div (mm_set1 (nb e) (mw t) (fone (mfmt t))) a) as (H & L). split; [exact H|]. intros i Hi. unfold x_recf. cbn [x_arith] in L. rewrite (L i Hi), x_one_lane by exact Hi. reflexivity.
Qed.
Lemma x_neg_lane a : in_reg (nb e) a -> vectorf e t (x_negf e t a) (fun i x => x = fopp (mfmt t) (pattern t a i)).
Proof. intros R. destruct (x_negf_ok e t a F R) as (H & L). split; [exact H|]. intros i Hi. rewrite !pattern_lane. apply L, Hi. Qed.

(** the lane: the scalar function of the C99 and C89 build *)
Definition ma (o : muladd) (once : bool) (f : fmt) (x y z : Z) : Z :=
  fma_std once f (sgn (match o with Fnma | Fnms => true | _ => false end) f x) y (sgn (match o with Fms | Fnms => true | _ => false end) f z).
Lemma ma_is o once f x y z : good_fmt f -> 0 <= x < 2 ^ width f -> 0 <= y < 2 ^ width f -> 0 <= z < 2 ^ width f ->
  0 <= ma o once f x y z < 2 ^ width f /\
  if once then fused_is f (factor o (decode f x)) (decode f y) (addend o (decode f z)) (ma o once f x y z)
  else twice_rounded f (factor o (decode f x)) (decode f y) (addend o (decode f z)) (ma o once f x y z).
Proof.
  intros G Hx Hy Hz. split; [apply fma_std_rng; exact G|].
  destruct (sgn_ok (match o with Fnma | Fnms => true | _ => false end) f x G Hx) as (Dx & Rx). destruct (sgn_ok (match o with Fms | Fnms => true | _ => false end) f z G Hz) as (Dz & Rz).
  replace (factor o (decode f x)) with (minus_if (match o with Fnma | Fnms => true | _ => false end) (decode f x)) by (destruct o; reflexivity).
  replace (addend o (decode f z)) with (minus_if (match o with Fms | Fnms => true | _ => false end) (decode f z)) by (destruct o; reflexivity).
  rewrite <- Dx, <- Dz. unfold ma. destruct once; cbn [fma_std].
  - apply ffma_is. exact G.
  - exists (fmul f (sgn (match o with Fnma | Fnms => true | _ => false end) f x) y). split; [apply fmul_rng; assumption|]. split; [apply fmul_is; assumption|]. apply fadd_is; try assumption. 
Qed.
Lemma x_muladd_lane o fma a b c : in_reg (nb e) a ->
  vectorf e t (x_muladd o fma e t a b c) (fun i x => x = ma o (is512 e || fma) (mfmt t) (pattern t a i) (pattern t b i) (pattern t c i)).
Proof.
  intros Ra. assert (K : forall g : Z -> Z -> Z -> Z, (forall x y z, g x y z = ma o true (mfmt t) x y z) -> vectorf e t (mm_fma3 (nb e) t g a b c) (fun i x => x = ma o true (mfmt t) (pattern t a i) (pattern t b i) (pattern t c i))).
  { intros g Hg. destruct (x_3_ok g a b c) as (H & L). { intros x y z Hx Hy Hz. rewrite Hg, <- (mfmt_width t F). apply fma_std_rng, mfmt_good. }
    split; [exact H|]. intros i Hi. rewrite L by exact Hi. apply Hg. }
  assert (Eo : is512 e || fma = false \/ is512 e || fma = true) by (destruct (is512 e || fma); auto).
  destruct Eo as [Eo|Eo]; rewrite Eo.
  - destruct (x_neg_lane a Ra) as (Hn & Ln).
    destruct o; cbn [x_muladd]; unfold x_fmaf, x_fmsf, x_fnmaf, x_fnmsf; rewrite Eo.
    + destruct (x_arith_lane Mul a b) as (_ & Lm). destruct (x_arith_lane Add (x_mulf e t a b) c) as (H & L). split; [exact H|]. intros i Hi. cbn [x_arith fop] in *. rewrite L, Lm by exact Hi. reflexivity.
    + destruct (x_arith_lane Mul a b) as (_ & Lm). destruct (x_arith_lane Sub (x_mulf e t a b) c) as (H & L). split; [exact H|]. intros i Hi. cbn [x_arith fop] in *. rewrite L, Lm by exact Hi. reflexivity.
    + destruct (x_arith_lane Mul (x_negf e t a) b) as (_ & Lm). destruct (x_arith_lane Add (x_mulf e t (x_negf e t a) b) c) as (H & L). split; [exact H|]. intros i Hi. cbn [x_arith fop] in *. rewrite L, Lm, Ln by exact Hi. reflexivity.
    + destruct (x_arith_lane Mul (x_negf e t a) b) as (_ & Lm). destruct (x_arith_lane Sub (x_mulf e t (x_negf e t a) b) c) as (H & L). split; [exact H|]. intros i Hi. cbn [x_arith fop] in *. rewrite L, Lm, Ln by exact Hi. reflexivity.
  - destruct o; cbn [x_muladd]; unfold x_fmaf, x_fmsf, x_fnmaf, x_fnmsf; rewrite Eo; apply K; reflexivity.
Qed.
End X86.

Lemma x_halves1 e f g v : (forall a, in_reg (nb e) a -> vectorf e MF32 (f a) (fun i x => x = g (pattern MF32 a i))) -> in_reg16 e v ->
  vector16 e (on_halves1 f v) (fun i x => x = g (pattern16 e v i)).
Proof.
  intros H (R1 & R2). apply vec16_of; cbn [on_halves1 fst snd].
  - destruct (H (fst v) R1) as (A & L). split; [exact A|]. intros i Hi. rewrite L by exact Hi. rewrite pattern_lane, pattern16_lo by exact Hi. reflexivity.
  - destruct (H (snd v) R2) as (A & L). split; [exact A|]. intros i Hi. rewrite L by exact Hi. rewrite pattern_lane, pattern16_hi by exact Hi. reflexivity.
Qed.
Lemma x_halves2 e f g v w : (forall a b, vectorf e MF32 (f a b) (fun i x => x = g (pattern MF32 a i) (pattern MF32 b i))) ->
  vector16 e (on_halves2 f v w) (fun i x => x = g (pattern16 e v i) (pattern16 e w i)).
Proof.
  intros H. apply vec16_of; cbn [on_halves2 fst snd].
  - destruct (H (fst v) (fst w)) as (A & L). split; [exact A|]. intros i Hi. rewrite L by exact Hi. rewrite !pattern_lane, !pattern16_lo by exact Hi. reflexivity.
  - destruct (H (snd v) (snd w)) as (A & L). split; [exact A|]. intros i Hi. rewrite L by exact Hi. rewrite !pattern_lane, !pattern16_hi by exact Hi. reflexivity.
Qed.
Lemma x_halves3 e f g v w u : (forall a b c, in_reg (nb e) a -> vectorf e MF32 (f a b c) (fun i x => x = g (pattern MF32 a i) (pattern MF32 b i) (pattern MF32 c i))) -> in_reg16 e v ->
  vector16 e (on_halves3 f v w u) (fun i x => x = g (pattern16 e v i) (pattern16 e w i) (pattern16 e u i)).
Proof.
  intros H (R1 & R2). apply vec16_of; cbn [on_halves3 fst snd].
  - destruct (H (fst v) (fst w) (fst u) R1) as (A & L). split; [exact A|]. intros i Hi. rewrite L by exact Hi. rewrite !pattern_lane, !pattern16_lo by exact Hi. reflexivity.
  - destruct (H (snd v) (snd w) (snd u) R2) as (A & L). split; [exact A|]. intros i Hi. rewrite L by exact Hi. rewrite !pattern_lane, !pattern16_hi by exact Hi. reflexivity.
Qed.
