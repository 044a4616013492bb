(** Proofs for X86Float.v: comparisons, logicals and selection. *)
From Coq Require Import ZArith List Bool Lia ZifyBool.
From Verif Require Import CInt BitLemmas FloatSpec FloatProofs Fp16 ScalarOps ScalarSpec ScalarProofs RoundEven X86Deg234 X86Arith X86ArithSpec X86LaneLemmas
  X86ArithProofs X86EmulProofs X86LogicProofs X86SelectProofs X86RedProofs X86Mem X86MemSpec X86MemProofs X86MemProofs2 X86Cvt X86CvtSpec X86CvtProofs
  X86CvtProofs2 X86Float X86FloatSpec.
Open Scope Z_scope.

Lemma pattern_lane t r i : pattern t r i = lane (mw t) i r. Proof. reflexivity. Qed.
Lemma value_lane t r i : value t r i = decode (mfmt t) (lane (mw t) i r). Proof. destruct t; reflexivity. Qed.
Lemma float_in t : is_float t = true -> In (uty t) int_types /\ bits (uty t) = mw t /\ mem_type t.
Proof. destruct t; [discriminate| |]; intros _; (split; [cbn; tauto|split; [reflexivity|exact I]]). Qed.
Lemma okw_f e t : is_float t = true -> okw (nb e) (mw t).
Proof. intros F. destruct (float_in t F) as (H & E & _). rewrite <- E. apply okw_nb, H. Qed.
Ltac fcase t F := destruct t; [discriminate F| |]; clear F.

(** ** Comparisons *)

Lemma is_equal x y : cmp_eq_oq x y = is (compare x y) Equal.
Proof.
  destruct x as [|[|]|s m], y as [|[|]|s' m']; try reflexivity.
  unfold cmp_eq_oq, feqb, fle, compare. destruct (Z.compare_spec (sval s m) (sval s' m')); cbn [is]; lia.
Qed.
Lemma is_greater x y : cmp_gt_oq x y = is (compare x y) Greater.
Proof.
  destruct x as [|[|]|s m], y as [|[|]|s' m']; try reflexivity.
  unfold cmp_gt_oq, flt, fle, compare. destruct (Z.compare_spec (sval s m) (sval s' m')); cbn [is]; lia.
Qed.
Lemma is_less x y : cmp_gt_oq y x = is (compare x y) Less.
Proof.
  destruct x as [|[|]|s m], y as [|[|]|s' m']; try reflexivity.
  unfold cmp_gt_oq, flt, fle, compare. destruct (Z.compare_spec (sval s m) (sval s' m')); cbn [is]; lia.
Qed.
Lemma is_ge x y : cmp_ge_oq x y = is (compare x y) Greater || is (compare x y) Equal.
Proof.
  destruct x as [|[|]|s m], y as [|[|]|s' m']; try reflexivity.
  unfold cmp_ge_oq, fle, compare. destruct (Z.compare_spec (sval s m) (sval s' m')); cbn [is orb]; lia.
Qed.
Lemma is_le x y : cmp_le_oq x y = is (compare x y) Less || is (compare x y) Equal.
Proof.
  destruct x as [|[|]|s m], y as [|[|]|s' m']; try reflexivity.
  unfold cmp_le_oq, fle, compare. destruct (Z.compare_spec (sval s m) (sval s' m')); cbn [is orb]; lia.
Qed.
Lemma is_ne x y : cmp_neq_uq x y = negb (is (compare x y) Equal).
Proof. unfold cmp_neq_uq. f_equal. apply is_equal. Qed.
Lemma flt_less x y : flt x y = is (compare x y) Less.
Proof. exact (is_less x y). Qed.

Lemma x_cmpf_ok p e t a b : is_float t = true -> in_reg (nb e) a -> in_reg (nb e) b ->
  logical e (uty t) (x_cmpf p e t a b) (fun i => p (value t a i) (value t b i)).
Proof.
  intros F Ha Hb. pose proof (okw_f e t F) as O. destruct (float_in t F) as (H & E & _). unfold x_cmpf.
  destruct (is512 e) eqn:E5.
  - assert (N : nb e = 512) by (destruct e; try discriminate E5; reflexivity). rewrite N in O.
    apply logical_mask; [assumption|]. rewrite N, E. unfold mm_cmpf_mask. split.
    + pose proof (build_range 1 (nlanes 512 (mw t)) (fun i => if p (decode (mfmt t) (lane (mw t) i a)) (decode (mfmt t) (lane (mw t) i b)) then 1 else 0) ltac:(lia)) as R.
      rewrite nlanes_z, Z.mul_1_l in R by assumption. exact R.
    + intros i Hi. rewrite !value_lane. rewrite testbit_build1 by (rewrite nlanes_z; assumption).
      destruct (p _ _); reflexivity.
  - apply logical_reg; [assumption|]. rewrite E.
    assert (L : regcmp (nb e) (mw t) (mm_cmpf (nb e) t p) (fun x y => p (decode (mfmt t) x) (decode (mfmt t) y))).
    { apply (proj1 (regcmp_lw _ _ _ _)). apply lanewise2_lw; [assumption|]. intros x y _ _. pose proof (pow2_pos (mw t) ltac:(destruct O; lia)).
      destruct (p _ _); [apply m1_mod; destruct O; lia|apply Z.mod_0_l; lia]. }
    specialize (L a b Ha Hb). destruct L as [R L]. split; [exact R|]. intros i Hi. rewrite L, !value_lane by assumption. reflexivity.
Qed.

Lemma x_eqf_ok e t a b : is_float t = true -> in_reg (nb e) a -> in_reg (nb e) b -> logical e (uty t) (x_eqf e t a b) (fun i => is (rel t a b i) Equal).
Proof. intros F Ha Hb. eapply logical_ext; [apply x_cmpf_ok; assumption|]. intros; apply is_equal. Qed.
Lemma x_nef_ok e t a b : is_float t = true -> in_reg (nb e) a -> in_reg (nb e) b -> logical e (uty t) (x_nef e t a b) (fun i => negb (is (rel t a b i) Equal)).
Proof. intros F Ha Hb. eapply logical_ext; [apply x_cmpf_ok; assumption|]. intros; apply is_ne. Qed.
Lemma x_gtf_ok e t a b : is_float t = true -> in_reg (nb e) a -> in_reg (nb e) b -> logical e (uty t) (x_gtf e t a b) (fun i => is (rel t a b i) Greater).
Proof. intros F Ha Hb. eapply logical_ext; [apply x_cmpf_ok; assumption|]. intros; apply is_greater. Qed.
Lemma x_ltf_ok e t a b : is_float t = true -> in_reg (nb e) a -> in_reg (nb e) b -> logical e (uty t) (x_ltf e t a b) (fun i => is (rel t a b i) Less).
Proof. intros F Ha Hb. eapply logical_ext; [apply x_cmpf_ok; assumption|]. intros; apply is_less. Qed.
Lemma x_gef_ok e t a b : is_float t = true -> in_reg (nb e) a -> in_reg (nb e) b -> logical e (uty t) (x_gef e t a b) (fun i => is (rel t a b i) Greater || is (rel t a b i) Equal).
Proof. intros F Ha Hb. eapply logical_ext; [apply x_cmpf_ok; assumption|]. intros; apply is_ge. Qed.
Lemma x_lef_ok e t a b : is_float t = true -> in_reg (nb e) a -> in_reg (nb e) b -> logical e (uty t) (x_lef e t a b) (fun i => is (rel t a b i) Less || is (rel t a b i) Equal).
Proof. intros F Ha Hb. eapply logical_ext; [apply x_cmpf_ok; assumption|]. intros; apply is_le. Qed.

(** ** Pairs *)

Lemma pattern16_lo e v i : 0 <= i < nb e / 32 -> pattern16 e v i = lane 32 i (fst v).
Proof. intros Hi. unfold pattern16. cbv zeta. rewrite (proj2 (Z.ltb_lt _ _)) by lia. reflexivity. Qed.
Lemma pattern16_hi e v i : 0 <= i < nb e / 32 -> pattern16 e v (i + nb e / 32) = lane 32 i (snd v).
Proof.
  intros Hi. unfold pattern16. cbv zeta. rewrite (proj2 (Z.ltb_ge _ _)) by lia. unfold lane. do 3 f_equal. lia.
Qed.
Lemma halves e : nb e / 16 = 2 * (nb e / 32). Proof. destruct e; reflexivity. Qed.
Lemma half_cases e (P : Z -> Prop) : (forall i, 0 <= i < nb e / 32 -> P i) -> (forall i, 0 <= i < nb e / 32 -> P (i + nb e / 32)) ->
  forall i, 0 <= i < nb e / 16 -> P i.
Proof.
  intros H0 H1 i Hi. rewrite halves in Hi. destruct (Z_lt_ge_dec i (nb e / 32)); [apply H0; lia|].
  replace i with (i - nb e / 32 + nb e / 32) by lia. apply H1. lia.
Qed.

Lemma cmp16 e (f : Z -> Z -> Z) (p : fval -> fval -> bool) a b :
  (forall a b, in_reg (nb e) a -> in_reg (nb e) b -> logical e u32 (f a b) (fun i => p (value MF32 a i) (value MF32 b i))) ->
  in_reg16 e a -> in_reg16 e b -> logical16 e (on_halves2 f a b) (fun i => p (value16 e a i) (value16 e b i)).
Proof.
  intros H [A0 A1] [B0 B1]. split; cbn [fst snd on_halves2].
  - eapply logical_ext; [apply H; assumption|]. intros i Hi. cbv beta. unfold value16. rewrite !pattern16_lo by exact Hi. reflexivity.
  - eapply logical_ext; [apply H; assumption|]. intros i Hi. cbv beta. unfold value16. rewrite !pattern16_hi by exact Hi. reflexivity.
Qed.

(** ** Selection *)

Lemma blend_selects n w l p a b : okw n w -> reg_logical n w l p -> selects n w p a b (mm_blendv n w b a l).
Proof.
  intros O [R L]. split; [apply in_reg_build; assumption|]. intros i Hi. unfold mm_blendv. rewrite lane_buildn by assumption.
  rewrite L by assumption. pose proof O as (Hw & _).
  pose proof (pow2_pos (w - 1) ltac:(lia)). assert (P2 : 2 ^ w = 2 * 2 ^ (w - 1)) by (rewrite <- Z.pow_succ_r by lia; f_equal; lia).
  destruct (p i).
  - rewrite (proj2 (Z.leb_le _ _)) by lia. apply Z.mod_small, lane_range. lia.
  - rewrite (proj2 (Z.leb_gt _ _)) by lia. apply Z.mod_small, lane_range. lia.
Qed.

Lemma x_if_else1f_ok e t l p a b : is_float t = true -> in_reg (nb e) a -> in_reg (nb e) b -> logical e (uty t) l p ->
  selects (nb e) (mw t) p a b (x_if_else1f e t l a b).
Proof.
  intros F Ha Hb L. pose proof (okw_f e t F) as O. destruct (float_in t F) as (H & E & _).
  unfold x_if_else1f, x_orb, x_andb, x_andnotb, mm_or, mm_and, mm_andnot, mm_mask_blend.
  destruct e; try (match type of L with logical ?e _ _ _ => apply (proj1 (logical_reg e (uty t) l p eq_refl)) in L end; rewrite E in L).
  - apply manual_selects; assumption.
  - apply blend_selects; assumption.
  - apply blend_selects; assumption.
  - apply blend_selects; assumption.
  - rewrite <- E. apply (mask_selects Avx512Knl); [assumption|reflexivity|assumption].
  - rewrite <- E. apply (mask_selects Avx512Skylake); [assumption|reflexivity|assumption].
Qed.
