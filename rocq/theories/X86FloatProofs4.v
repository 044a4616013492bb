(** Reductions, masks and logicals in memory on floating-point vectors. *)
From Coq Require Import ZArith List Bool Lia ZifyBool.
From Verif Require Import CInt BitLemmas FloatSpec FloatProofs Fp16Spec Fp16 Fp16Proofs ScalarOps ScalarSpec ScalarProofs RoundEven RoundEvenProofs
  X86Deg234 X86Arith X86ArithSpec X86LaneLemmas X86ArithProofs X86EmulProofs X86LogicProofs X86SelectProofs X86RedProofs
  X86Mem X86MemSpec X86MemProofs X86MemProofs2 X86Cvt X86CvtSpec X86CvtProofs X86CvtProofs2 X86Float X86FloatSpec
  X86FloatProofs X86FloatProofs2 X86FloatProofs3 PropX86Mem.
Open Scope Z_scope.

Lemma movemask_log n w l p : okw n w -> reg_logical n w l p ->
  forall i, 0 <= i < n / w -> Z.testbit (mm_movemask n w l) i = p i.
Proof. intros O L i Hi. rewrite testbit_movemask by assumption. apply (reg_logical_msb n w l p i O L Hi). Qed.

Lemma x_allf_ok e t l p : is_float t = true -> logical e (uty t) l p ->
  x_allf e t l = true <-> (forall i, 0 <= i < elems e t -> p i = true).
Proof.
  intros F L. pose proof (okw_f e t F) as O. destruct (float_in t F) as (H & B & M). unfold elems.
  destruct (is512 e) eqn:E5.
  - pose proof (proj1 (logical_mask e (uty t) l p E5) L) as [R T]. rewrite B in *.
    assert (X : x_allf e t l = (l =? 2 ^ (nb e / mw t) - 1)) by (destruct e; try discriminate E5; fcase t F; reflexivity).
    rewrite X, mask_all by (assumption || (destruct O as (?&?&?); apply Z.div_pos; lia)). split; intros K i Hi; specialize (K i Hi); specialize (T i Hi); congruence.
  - pose proof (proj1 (logical_reg e (uty t) l p E5) L) as Lr. rewrite B in *.
    assert (X : x_allf e t l = (mm_movemask (nb e) (mw t) l =? 2 ^ (nb e / mw t) - 1)) by (destruct e; try discriminate E5; fcase t F; reflexivity).
    rewrite X, mask_all by (try (apply movemask_range; assumption); destruct O as (?&?&?); apply Z.div_pos; lia).
    pose proof (movemask_log _ _ _ _ O Lr) as T. split; intros K i Hi; specialize (K i Hi); specialize (T i Hi); congruence.
Qed.
Lemma x_anyf_ok e t l p : is_float t = true -> logical e (uty t) l p ->
  x_anyf e t l = true <-> (exists i, 0 <= i < elems e t /\ p i = true).
Proof.
  intros F L. pose proof (okw_f e t F) as O. destruct (float_in t F) as (H & B & M). unfold elems.
  destruct (is512 e) eqn:E5.
  - pose proof (proj1 (logical_mask e (uty t) l p E5) L) as [R T]. rewrite B in *.
    assert (X : x_anyf e t l = negb (l =? 0)) by (destruct e; try discriminate E5; fcase t F; reflexivity).
    rewrite X, (mask_any l (nb e / mw t)) by (assumption || (destruct O as (?&?&?); apply Z.div_pos; lia)).
    split; intros (i & Hi & K); exists i; (split; [exact Hi|]); specialize (T i Hi); congruence.
  - pose proof (proj1 (logical_reg e (uty t) l p E5) L) as Lr. rewrite B in *.
    assert (X : x_anyf e t l = negb (mm_movemask (nb e) (mw t) l =? 0)) by (destruct e; try discriminate E5; fcase t F; reflexivity).
    rewrite X, (mask_any _ (nb e / mw t)) by (try (apply movemask_range; assumption); destruct O as (?&?&?); apply Z.div_pos; lia).
    pose proof (movemask_log _ _ _ _ O Lr) as T.
    split; intros (i & Hi & K); exists i; (split; [exact Hi|]); specialize (T i Hi); congruence.
Qed.
Lemma x_nbtruef_ok e t l p : is_float t = true -> logical e (uty t) l p -> x_nbtruef e t l = count_true (elems e t) p.
Proof.
  intros F L. destruct (float_in t F) as (H & B & M). pose proof (x_nbtrue_ok e (uty t) l p H L) as X. rewrite B in X.
  unfold elems. rewrite <- X. unfold x_nbtruef, x_nbtrue, nbtrue_reg.
  destruct e; fcase t F; cbn [is512 nb mw uty u32 u64 bits wide Z.eqb Z.leb Z.compare Pos.eqb Pos.compare Pos.compare_cont]; reflexivity.
Qed.

Lemma l16_parts e l p : logical16 e l p -> logical e (uty MF32) (fst l) p /\ logical e (uty MF32) (snd l) (fun i => p (i + nb e / 32)).
Proof. exact (fun x => x). Qed.
Lemma x_all16_ok e l p : logical16 e l p -> x_all16 e l = true <-> (forall i, 0 <= i < nb e / 16 -> p i = true).
Proof.
  intros L. destruct (l16_parts e l p L) as [L0 L1]. unfold x_all16. rewrite andb_true_iff.
  rewrite (x_allf_ok e MF32 _ _ eq_refl L0), (x_allf_ok e MF32 _ _ eq_refl L1). unfold elems; change (mw MF32) with 32.
  pose proof (halves e). split.
  - intros [A0 A1]. apply half_cases; assumption.
  - intros A. split; intros i Hi; apply A; lia.
Qed.
Lemma x_any16_ok e l p : logical16 e l p -> x_any16 e l = true <-> (exists i, 0 <= i < nb e / 16 /\ p i = true).
Proof.
  intros L. destruct (l16_parts e l p L) as [L0 L1]. unfold x_any16. rewrite orb_true_iff.
  rewrite (x_anyf_ok e MF32 _ _ eq_refl L0), (x_anyf_ok e MF32 _ _ eq_refl L1). unfold elems; change (mw MF32) with 32.
  pose proof (halves e). split.
  - intros [(i & Hi & K)|(i & Hi & K)]; [exists i|exists (i + nb e / 32)]; (split; [lia|exact K]).
  - intros (i & Hi & K). destruct (Z.lt_ge_cases i (nb e / 32)); [left; exists i; split; [lia|exact K]|].
    right. exists (i - nb e / 32). split; [lia|]. replace (i - nb e / 32 + nb e / 32) with i by lia. exact K.
Qed.
Lemma x_nbtrue16_ok e l p : logical16 e l p -> x_nbtrue16 e l = count_true (nb e / 16) p.
Proof.
  intros L. destruct (l16_parts e l p L) as [L0 L1]. unfold x_nbtrue16.
  rewrite (x_nbtruef_ok e MF32 _ _ eq_refl L0), (x_nbtruef_ok e MF32 _ _ eq_refl L1). unfold elems; change (mw MF32) with 32.
  rewrite (halves e). replace (2 * (nb e / 32)) with (nb e / 32 + nb e / 32) by ring.
  assert (0 <= nb e / 32) by (destruct e; cbn; lia).
  rewrite count_true_app by assumption. f_equal. apply count_true_ext. intros i Hi. cbv beta. f_equal. ring.
Qed.

(** ** masks *)
Lemma elt_pattern t r i : is_float t = true -> elt (uty t) r i = pattern t r i.
Proof.
  intros F. destruct (float_in t F) as (H & B & M). rewrite elt_lane, B, pattern_lane. apply cast_id; [exact H|].
  pose proof (lane_range (mw t) i r ltac:(fcase t F; cbn; lia)) as R. revert R. fcase t F; cbn; unfold in_ty; cbn; lia.
Qed.
Lemma x_to_maskf_ok e t l p : is_float t = true -> logical e (uty t) l p ->
  vectorf e t (x_to_maskf e t l) (fun i x => x = if p i then 2 ^ mw t - 1 else 0).
Proof.
  intros F L. destruct (float_in t F) as (H & B & M). pose proof (x_to_mask_ok e (uty t) l p H L) as X.
  replace (x_to_maskf e t l) with (x_to_mask e (uty t) l) by (unfold x_to_mask, x_to_maskf; destruct e; fcase t F; cbn [mw uty u32 u64 bits wide Z.leb Z.compare Pos.compare Pos.compare_cont]; reflexivity).
  destruct X as [R V]. split; [exact R|]. intros i Hi. rewrite <- (elt_pattern t _ i F), V by (rewrite B; exact Hi).
  destruct (p i); [|reflexivity]. fcase t F; reflexivity.
Qed.
Lemma x_to_logicalf_ok e t a : is_float t = true -> in_reg (nb e) a ->
  logical e (uty t) (x_to_logicalf e t a) (fun i => negb (pattern t a i =? 0)).
Proof.
  intros F Ha. destruct (float_in t F) as (H & B & M).
  eapply logical_ext; [apply x_ne_ok; [exact H|exact Ha|apply in_reg_zero]|].
  intros i Hi. cbv beta. rewrite (elt_pattern t a i F), (elt_pattern t _ i F), (pattern_lane t mm_zero). unfold mm_zero. rewrite lane_0. reflexivity.
Qed.
Lemma vec16_of e v (P : Z -> Z -> Prop) : vectorf e MF32 (fst v) P -> vectorf e MF32 (snd v) (fun i => P (i + nb e / 32)) -> vector16 e v P.
Proof.
  intros [R0 V0] [R1 V1]. split; [split; assumption|]. unfold elems in *. change (mw MF32) with 32 in *. apply half_cases; intros i Hi.
  - rewrite pattern16_lo by assumption. rewrite <- (pattern_lane MF32). apply V0. assumption.
  - rewrite pattern16_hi by assumption. rewrite <- (pattern_lane MF32). apply V1. assumption.
Qed.
Lemma x_to_mask16_ok e l p : logical16 e l p -> vector16 e (x_to_mask16 e l) (fun i x => x = if p i then 2 ^ 32 - 1 else 0).
Proof.
  intros L. destruct (l16_parts e l p L) as [L0 L1]. apply vec16_of; cbn [x_to_mask16 on_halves1 fst snd].
  - exact (x_to_maskf_ok e MF32 _ _ eq_refl L0).
  - exact (x_to_maskf_ok e MF32 _ _ eq_refl L1).
Qed.
Lemma x_to_logical16_ok e v : in_reg16 e v -> logical16 e (x_to_logical16 e v) (fun i => negb (pattern16 e v i =? 0)).
Proof.
  intros [R0 R1]. unfold x_to_logical16, on_halves1. split; cbn [fst snd].
  - eapply logical_ext; [exact (x_to_logicalf_ok e MF32 _ eq_refl R0)|]. intros i Hi. cbv beta. rewrite pattern_lane, pattern16_lo by exact Hi. reflexivity.
  - eapply logical_ext; [exact (x_to_logicalf_ok e MF32 _ eq_refl R1)|]. intros i Hi. cbv beta. rewrite pattern_lane, pattern16_hi by exact Hi. reflexivity.
Qed.

(** ** logicals in memory *)
Lemma loadl_512f_ok t v k : 0 <= loadl_512f t v k < 2 ^ Z.of_nat k /\
  forall i, 0 <= i < Z.of_nat k -> Z.testbit (loadl_512f t v k) i = cmp_neq_uq (decode (mfmt t) (lane (mw t) i v)) (decode (mfmt t) 0).
Proof.
  induction k as [|k [IR IT]]; [split; [cbn; lia|lia]|].
  cbn [loadl_512f]. cbv zeta. set (r := loadl_512f t v k) in *.
  pose proof (pow2_pos (Z.of_nat k) ltac:(lia)) as P. rewrite Nat2Z.inj_succ, Z.pow_succ_r by lia.
  destruct (cmp_neq_uq (decode (mfmt t) (lane (mw t) (Z.of_nat k) v)) (decode (mfmt t) 0)) eqn:E.
  - rewrite Z.shiftl_1_l.
    assert (D : Z.lor r (2 ^ Z.of_nat k) = 2 ^ Z.of_nat k + r).
    { rewrite Z.lor_comm. replace (2 ^ Z.of_nat k) with (1 * 2 ^ Z.of_nat k) by lia. apply lor_disjoint; lia. }
    split; [lia|]. intros i Hi. rewrite Z.lor_spec. destruct (Z.eq_dec i (Z.of_nat k)) as [->|].
    + rewrite Z.pow2_bits_true by lia. rewrite orb_true_r. symmetry. exact E.
    + rewrite Z.pow2_bits_false by lia. rewrite orb_false_r. apply IT. lia.
  - split; [lia|]. intros i Hi. destruct (Z.eq_dec i (Z.of_nat k)) as [->|].
    + rewrite E. apply (testbit_small r (Z.of_nat k)); lia.
    + apply IT. lia.
Qed.
Lemma loadlf_reg e t v : is_float t = true -> in_reg (nb e) v ->
  logical e (uty t) (if is512 e then loadl_512f t v (Z.to_nat (nb e / mw t)) else x_notlf e t (x_eqf e t v (x_set1f e t 0)))
    (fun i => negb (is (compare (value t v i) (FFin false 0)) Equal)).
Proof.
  intros F Hv. destruct (float_in t F) as (H & B & M). pose proof (okw_f e t F) as O.
  assert (P : 0 <= nb e / mw t) by (destruct O as (?&?&?); apply Z.div_pos; lia).
  destruct (is512 e) eqn:E5.
  - apply logical_mask; [exact E5|]. rewrite B. destruct (loadl_512f_ok t v (Z.to_nat (nb e / mw t))) as [R T].
    rewrite Z2Nat.id in R, T by exact P. split; [exact R|]. intros i Hi. rewrite T by exact Hi. rewrite is_ne, decode_0, value_lane. reflexivity.
  - destruct (x_set1f_ok e t 0 F) as [Rz Lz]. { pose proof (pow2_pos (mw t) ltac:(fcase t F; cbn; lia)). lia. }
    eapply logical_ext; [apply x_notl_ok; [exact H|]; apply x_eqf_ok; [exact F|exact Hv|exact Rz]|].
    intros i Hi. rewrite B in Hi. cbv beta. unfold rel. rewrite (value_lane t (x_set1f e t 0)), Lz, decode_0 by exact Hi. reflexivity.
Qed.
Lemma x_loadlf_ok e t m a : is_float t = true -> (forall i, 0 <= i < elems e t -> mapped (mw t) m (a + i * (mw t / 8))) ->
  exists l x, x_loadlf e t m a = Some l /\
    (forall i, 0 <= i < elems e t -> holds (mw t) m (a + i * (mw t / 8)) (x i)) /\
    logical e (uty t) l (fun i => negb (is (compare (decode (format t) (x i)) (FFin false 0)) Equal)).
Proof.
  intros F Mp. destruct (float_in t F) as (H & B & M). destruct (x_load_ok e t m a M Mp) as (v & E & R & A).
  unfold x_loadlf. rewrite E. cbn [bind]. eexists. exists (pattern t v). split; [reflexivity|]. split; [exact A|].
  eapply logical_ext; [apply loadlf_reg; assumption|]. reflexivity.
Qed.
Lemma x_storelf_ok e t m a l p : is_float t = true -> logical e (uty t) l p ->
  (forall i, 0 <= i < elems e t -> mapped (mw t) m (a + i * (mw t / 8))) ->
  exists m' x, x_storelf e t m a l = Some m' /\
    (forall i, 0 <= i < elems e t -> holds (mw t) m' (a + i * (mw t / 8)) (x i) /\
       decode (format t) (x i) = FFin false (if p i then one (format t) else 0)) /\
    (forall k, k < a \/ a + elems e t * (mw t / 8) <= k -> m' k = m k).
Proof.
  intros F L Mp. destruct (float_in t F) as (H & B & M). pose proof (okw_f e t F) as O.
  assert (FM : format t = mfmt t) by reflexivity.
  destruct (float_of_int_ok t 1 F ltac:(lia)) as [D1 R1]. destruct (float_of_int_ok t 0 F ltac:(lia)) as [D0 R0].
  unfold x_storelf. match goal with |- context [x_store e m a ?v0] => set (v := v0) in * end.
  assert (V : in_reg (nb e) v /\ forall i, 0 <= i < nb e / mw t -> lane (mw t) i v = float_of_int (mfmt t) (if p i then 1 else 0)).
  { subst v. destruct (is512 e) eqn:E5.
    - pose proof (proj1 (logical_mask e (uty t) l p E5) L) as [_ T]. rewrite B in T.
      assert (N : nb e = 512) by (destruct e; try discriminate E5; reflexivity). rewrite N in *.
      split; [apply in_reg_build; exact O|]. intros i Hi. rewrite lane_buildn by assumption.
      rewrite land1_shiftr, T by lia. destruct (p i); cbn [negb]; apply Z.mod_small; assumption.
    - destruct (x_set1f_ok e t _ F R1) as [I1 L1]. destruct (x_set1f_ok e t _ F R0) as [I0 L0].
      destruct (x_if_else1f_ok e t l p _ _ F I1 I0 L) as [Ri Si]. split; [exact Ri|]. intros i Hi. rewrite Si by assumption.
      destruct (p i); [apply L1|apply L0]; assumption. }
  destruct V as [Rv Lv].
  destruct (C58_store e t m a v M Rv Mp) as (m' & E & A & U). exists m', (pattern t v). split; [exact E|]. split; [|exact U].
  intros i Hi. split; [apply A; exact Hi|]. rewrite FM, pattern_lane, Lv by exact Hi. destruct (p i); [rewrite D1|rewrite D0]; f_equal; lia.
Qed.
