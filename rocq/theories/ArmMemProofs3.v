(** Loads and stores of logicals, and vectors of f16 kept in two registers. *)
From Coq Require Import ZArith Lia List Bool ZifyBool.
From Verif Require Import CInt BitLemmas FloatSpec Fp16 Fp16Spec Fp16Proofs ScalarOps ScalarSpec ScalarProofs X86Deg234 X86Arith X86ArithSpec X86LaneLemmas
  X86EmulProofs X86SelectProofs X86LogicProofs X86Mem X86MemSpec X86MemProofs X86MemProofs2 PropX86Mem Arm ArmSpec ArmProofs ArmProofs4 ArmPerm ArmPermSpec ArmPermProofs
  ArmMem ArmMemSpec ArmMemProofs ArmMemProofs2.
Import ListNotations.
Open Scope Z_scope.

Lemma cast_zero t x : In t int_types -> 0 <= x < 2 ^ bits t -> (cast t x =? cast t 0) = (x =? 0).
Proof.
  intros H Hx. unfold cast. assert (0 < bits t) as B by (destruct (bits_cases t H) as [->|[->|[->| ->]]]; lia).
  destruct (is_signed t).
  - assert (to_s (bits t) 0 = 0) as ->. { apply to_s_id; [exact B|]. unfold in_s. pose proof (Z.pow_pos_nonneg 2 (bits t - 1)). lia. }
    pose proof (to_s_mod (bits t) x B) as E. rewrite (Z.mod_small x) in E by exact Hx.
    destruct (Z.eqb_spec x 0) as [->|N]; [apply Z.eqb_eq; apply to_s_id; [exact B|]; unfold in_s; pose proof (Z.pow_pos_nonneg 2 (bits t - 1)); lia|].
    apply Z.eqb_neq. intros Z0. rewrite Z0 in E. rewrite Z.mod_0_l in E by lia. congruence.
  - unfold to_u. rewrite Z.mod_0_l, Z.mod_small by lia. reflexivity.
Qed.

Lemma a_loadl_ok u e t m a (v : Z -> Z) : In t int_types ->
  (forall i, 0 <= i < an e / bits t -> holds (bits t) m (a + i * (bits t / 8)) (v i)) ->
  exists l, a_loadl u e t m a = Some l /\ alogical e t l (fun i => negb (v i =? 0)).
Proof.
  intros H M. destruct (a_load_ok e (MI t) m a H) as (r & E & R & A).
  { intros i Hi. eapply holds_mapped. apply M, Hi. }
  unfold a_loadl. rewrite E. cbn [bind]. eexists. split; [reflexivity|].
  eapply alogical_ext; [apply a_notl_ok; [exact H|]; apply a_cmp_ok; exact H|]. intros i Hi. cbv beta. f_equal.
  specialize (A i Hi). rewrite pattern_lane in A. change (mw (MI t)) with (bits t) in A.
  assert (lane (bits t) i r = v i) as Ev. { eapply holds_unique; [apply ok8_bits, H|exact A|apply M, Hi]. }
  rewrite !elt_lane. destruct (lane_set1_a e t H 0 i Hi) as [_ ->].
  rewrite Z.mod_0_l by (pose proof (pow2_pos (bits t)); destruct (bits_cases t H) as [Eb|[Eb|[Eb|Eb]]]; rewrite Eb in *; lia).
  rewrite Ev. apply cast_zero; [exact H|]. rewrite <- Ev. apply lane_range. destruct (bits_cases t H) as [Eb|[Eb|[Eb|Eb]]]; rewrite Eb; lia.
Qed.

Lemma a_storel_ok u e t m a l p : In t int_types -> alogical e t l p ->
  (forall i, 0 <= i < an e / bits t -> mapped (bits t) m (a + i * (bits t / 8))) ->
  exists m', a_storel u e t m a l = Some m' /\
    (forall i, 0 <= i < an e / bits t -> holds (bits t) m' (a + i * (bits t / 8)) (if p i then 1 else 0)) /\
    (forall x, x < a \/ a + an e / bits t * (bits t / 8) <= x -> m' x = m x).
Proof.
  intros H L M. assert (Pn : 0 < an e / bits t). { destruct (even_lanes e (MI t) H) as [_ X]. unfold aelems in X. change (mw (MI t)) with (bits t) in X. lia. }
  destruct (lane_set1_a e t H 1 0 ltac:(lia)) as [R1 _]. destruct (lane_set1_a e t H 0 0 ltac:(lia)) as [R0 _].
  destruct (a_if_else1_ok u e t H l p _ _ R1 R0 L) as [R S].
  destruct (a_store_ok e (MI t) m a _ H R M) as (m' & E & A & U & _). exists m'. split; [exact E|]. split; [|exact U].
  intros i Hi. specialize (A i Hi). rewrite pattern_lane in A. change (mw (MI t)) with (bits t) in A. rewrite S in A by exact Hi.
  destruct (lane_set1_a e t H 1 i Hi) as [_ E1]. destruct (lane_set1_a e t H 0 i Hi) as [_ E0]. rewrite E1, E0 in A.
  assert (2 <= 2 ^ bits t) by (destruct (bits_cases t H) as [->|[->|[->| ->]]]; cbn; lia).
  destruct (p i); [rewrite Z.mod_small in A by lia; exact A|rewrite Z.mod_0_l in A by lia; exact A].
Qed.

(** ** f16 in two registers: the same code as that of SSE2 *)

Lemma load_halves_ok r : exists v, load_halves r = Some v /\ in_regs16 v /\
  forall i, 0 <= i < 8 -> half_as_single (lane 16 i r) (apattern16 v i).
Proof.
  unfold load_halves. assert (G : forall i, exists u, u16_to_f32 (lane 16 i r) = Some u /\ in_u 32 u /\ decode binary32 u = Fp16Spec.widen (decode binary16 (lane 16 i r))).
  { intros i. apply u16_to_f32_exact_l. apply (lane_range 16 i r). lia. }
  destruct (load_loop_ok (fun _ => true) (fun i => u16_to_f32 (lane 16 i r)) 8 (fun _ => 0)) as (b & E & A & _).
  { intros i Hi _ N. destruct (G i) as (u & Eu & _). congruence. }
  rewrite E. cbn [bind]. eexists. split; [reflexivity|]. change (Z.of_nat 8) with 8 in A.
  destruct (regs16_ok Sse2 b) as [R P].
  { intros i Hi. change (nb Sse2 / 16) with 8 in Hi. specialize (A i Hi). cbv beta iota in A. destruct (G i) as (u & Eu & Hu & _). rewrite Eu in A. injection A as <-. exact Hu. }
  split; [exact R|]. intros i Hi. specialize (P i Hi). change (apattern16 (aregs16 b) i) with (pattern16 Sse2 (regs16 Sse2 b) i). rewrite P.
  specialize (A i Hi). cbv beta iota in A. destruct (G i) as (u & Eu & Hu & D). rewrite Eu in A. injection A as <-. split; [exact Eu|exact D].
Qed.

Lemma a_load_deg16_ok deg m a : 0 <= deg ->
  (forall i j, 0 <= i < 8 -> 0 <= j < deg -> mapped 16 m (a + (i * deg + j) * 2)) ->
  exists vs, a_load_deg16 deg m a = Some vs /\ Z.of_nat (length vs) = deg /\
    forall j, 0 <= j < deg -> in_regs16 (nthz (0, 0) vs j) /\
      forall i, 0 <= i < 8 -> exists h, holds 16 m (a + (i * deg + j) * 2) h /\ half_as_single h (apattern16 (nthz (0, 0) vs j) i).
Proof.
  intros Hd M. destruct (ldn_ok deg 128 16 m a okw_16 ok8_16 Hd M) as (rs & E & Ll & A). unfold a_load_deg16. rewrite E. cbn [bind].
  destruct (collect_ok (0, 0) (fun j => load_halves (reg_of rs j)) (Z.to_nat deg)) as (vs & Ev & Lv & B).
  { intros j Hj N. destruct (load_halves_ok (reg_of rs j)) as (v & Eq & _). congruence. }
  exists vs. split; [exact Ev|]. split; [lia|]. intros j Hj. specialize (B j ltac:(lia)). cbv beta in B.
  destruct (load_halves_ok (reg_of rs j)) as (v & Eq & R & P). rewrite Eq in B. injection B as <-. split; [exact R|].
  intros i Hi. exists (lane 16 i (reg_of rs j)). split; [|apply P, Hi]. apply (A j Hj). exact Hi.
Qed.

Lemma nthz_map {A B} (f : A -> B) d l j : 0 <= j < Z.of_nat (length l) -> nth (Z.to_nat j) (map f l) (f d) = f (nthz d l j).
Proof. intros _. apply map_nth. Qed.
Lemma a_store_deg16_ok deg m a vs : 0 < deg -> Z.of_nat (length vs) = deg -> (forall j, 0 <= j < deg -> in_regs16 (nthz (0, 0) vs j)) ->
  (forall i j, 0 <= i < 8 -> 0 <= j < deg -> mapped 16 m (a + (i * deg + j) * 2)) ->
  exists m', a_store_deg16 deg m a vs = Some m' /\
    (forall i j, 0 <= i < 8 -> 0 <= j < deg -> holds 16 m' (a + (i * deg + j) * 2) (f32_to_u16 (apattern16 (nthz (0, 0) vs j) i))) /\
    (forall x, x < a \/ a + deg * 8 * 2 <= x -> m' x = m x).
Proof.
  intros Hd Ll R M. unfold a_store_deg16.
  destruct (stn_ok deg 128 16 m a (map (fun v => build 16 8 (fun i => f32_to_u16 (abuf16 v i))) vs) okw_16 ok8_16 Hd M) as (m' & E & A & U & _).
  exists m'. split; [exact E|]. split; [|exact U]. intros i j Hi Hj. specialize (A i j Hi Hj).
  assert (nthz 0 (map (fun v => build 16 8 (fun i => f32_to_u16 (abuf16 v i))) vs) j = build 16 8 (fun i => f32_to_u16 (abuf16 (nthz (0, 0) vs j) i))) as X.
  { unfold nthz at 1. rewrite (nth_indep _ _ (build 16 8 (fun i => f32_to_u16 (abuf16 (0, 0) i)))) by (rewrite map_length; lia).
    exact (map_nth (fun v => build 16 8 (fun i => f32_to_u16 (abuf16 v i))) vs (0, 0) (Z.to_nat j)). }
  rewrite X in A. change 8%nat with (nlanes 128 16) in A. rewrite (lane_buildn 128) in A by (apply okw_16 || exact Hi).
  pose proof (stored16_val Sse2 (nthz (0, 0) vs j) i (R j Hj) Hi) as SV.
  change (f32_to_u16 (abuf16 (nthz (0, 0) vs j) i) mod 2 ^ 16 = f32_to_u16 (apattern16 (nthz (0, 0) vs j) i)) in SV.
  rewrite SV in A. exact A.
Qed.
