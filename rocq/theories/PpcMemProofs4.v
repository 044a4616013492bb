(** loadl, storel, and the f16 accesses of the POWER back ends. *)
From Coq Require Import ZArith List Bool Lia ZifyBool.
From Verif Require Import CInt FloatSpec Fp16 Fp16Spec Fp16Proofs ScalarOps ScalarSpec ScalarProofs X86Deg234 X86Arith X86ArithSpec X86LaneLemmas X86EmulProofs X86SelectProofs X86Mem X86MemSpec X86MemProofs
  X86MemProofs2 Arm ArmSpec ArmProofs ArmProofs4 ArmPerm ArmPermSpec ArmPermProofs ArmMem ArmMemSpec ArmMemProofs ArmMemProofs3 Ppc PpcSpec PpcProofs PpcProofs2 PpcProofs3 PpcMem PpcMemSpec
  PpcMemProofs PpcMemProofs2 PpcMemProofs3.
Import ListNotations.
Open Scope Z_scope.

Lemma p_loadl_ok al e t m a (v : Z -> Z) : In t int_types -> vector_address (MI t) a ->
  (forall i, 0 <= i < 128 / bits t -> holds (bits t) m (a + i * (bits t / 8)) (v i)) ->
  exists l, p_loadl al e t m a = Some l /\ plogical t l (fun i => negb (v i =? 0)).
Proof.
  intros H Al M. destruct (p_load_ok al e (MI t) m a H Al) as (r & E & R & A).
  { intros i Hi. eapply holds_mapped. apply M, Hi. }
  unfold p_loadl. rewrite E. cbn [bind]. eexists. split; [reflexivity|].
  eapply plogical_ext; [apply p_notl_ok; [exact H|]; apply p_cmp_ok; [exact H|reflexivity]|]. intros i Hi. cbv beta. f_equal.
  specialize (A i Hi). rewrite pattern_lane in A. change (mw (MI t)) with (bits t) in A.
  assert (Ev : lane (bits t) i r = v i) by (eapply holds_unique; [apply ok8_bits, H|exact A|apply M, Hi]).
  destruct (p_set1_ok e t 0 H) as [_ S]. rewrite (S i Hi). rewrite elt_lane, Ev.
  apply cast_zero; [exact H|]. rewrite <- Ev. apply lane_range. destruct (ok8_bits t H). lia.
Qed.
Lemma elt_pattern t r i x : In t int_types -> 0 <= x < 2 ^ bits t -> elt t r i = cast t x -> lane (bits t) i r = x.
Proof.
  intros H Hx E. rewrite elt_lane in E. assert (W : 0 <= bits t) by (destruct (ok8_bits t H); lia).
  rewrite <- (Z.mod_small (lane (bits t) i r) (2 ^ bits t)) by (apply lane_range, W). rewrite <- cast_mod by exact H. rewrite E, cast_mod by exact H.
  apply Z.mod_small, Hx.
Qed.
Lemma p_storel_ok al e t m a l p : In t int_types -> vector_address (MI t) a -> plogical t l p ->
  (forall i, 0 <= i < 128 / bits t -> mapped (bits t) m (a + i * (bits t / 8))) ->
  exists m', p_storel al e t m a l = Some m' /\
    (forall i, 0 <= i < 128 / bits t -> holds (bits t) m' (a + i * (bits t / 8)) (if p i then 1 else 0)) /\
    (forall x, x < a \/ a + 16 <= x -> m' x = m x).
Proof.
  intros H Al L M. destruct (p_set1_ok e t 1 H) as [R1 S1]. destruct (p_set1_ok e t 0 H) as [R0 S0].
  destruct (p_if_else1_ok e t l p _ _ H R1 R0 L) as [R S].
  destruct (p_store_ok al e (MI t) m a _ H Al R M) as (m' & E & A & U). exists m'. split; [exact E|]. split; [|exact U].
  intros i Hi. specialize (A i Hi). rewrite pattern_lane in A. change (mw (MI t)) with (bits t) in A. specialize (S i Hi). cbv beta in S. rewrite (S1 i Hi), (S0 i Hi) in S.
  assert (2 <= 2 ^ bits t) by (destruct (bits_cases t H) as [->|[->|[->| ->]]]; cbn; lia).
  rewrite (elt_pattern t _ i (if p i then 1 else 0) H) in A; [exact A|destruct (p i); lia|]. rewrite S. destruct (p i); reflexivity.
Qed.

(** ** f16 *)

Lemma width32 : width 32. Proof. right; right; left; reflexivity. Qed.
Lemma elt16_pattern v i : elt16 v i = apattern16 v i. Proof. reflexivity. Qed.
Lemma fill16_ok f : (forall i, 0 <= i < 8 -> exists x, f i = Some x /\ 0 <= x < 2 ^ 32) ->
  exists v, fill16 f = Some v /\ in_regs16 v /\ forall i, 0 <= i < 8 -> f i = Some (apattern16 v i).
Proof.
  intros D. unfold fill16. destruct (splat_fill 32 f width32) as (r0 & E0 & R0 & A0); [change (128 / 32) with 4; intros i Hi; apply D; lia|].
  destruct (splat_fill 32 (fun i => f (i + 4)) width32) as (r1 & E1 & R1 & A1); [change (128 / 32) with 4; intros i Hi; apply D; lia|].
  rewrite E0. cbn [bind]. rewrite E1. cbn [bind]. eexists. split; [reflexivity|]. split; [split; assumption|]. change (128 / 32) with 4 in *.
  intros i Hi. destruct (Z_lt_dec i 4).
  - rewrite apattern16_lo by assumption. apply A0. lia.
  - rewrite apattern16_hi by lia. specialize (A1 (i - 4) ltac:(lia)). cbv beta in A1. replace (i - 4 + 4) with i in A1 by lia. exact A1.
Qed.
Lemma fill16_none f i : 0 <= i < 8 -> f i = None -> fill16 f = None.
Proof.
  intros Hi N. unfold fill16, splat_insert. change (nlanes 128 32 - 1)%nat with 3%nat.
  destruct (Z_lt_dec i 4).
  - destruct (Z.eq_dec i 0) as [-> | Nz]; [rewrite N; reflexivity|]. destruct (f 0); [|reflexivity]. cbn [bind].
    rewrite (insert_from_none 32 f 3 1 _ i) by (try exact N; lia). reflexivity.
  - destruct (bind (f 0) _); [|reflexivity]. cbn [bind]. replace i with (i - 4 + 4) in N by lia.
    destruct (Z.eq_dec i 4) as [-> | Nz]; [change (0 + 4) with 4; change (4 - 4 + 4) with 4 in N; rewrite N; reflexivity|].
    destruct (f (0 + 4)); [|reflexivity]. cbn [bind]. rewrite (insert_from_none 32 (fun i => f (i + 4)) 3 1 _ (i - 4)) by (try exact N; lia). reflexivity.
Qed.
Lemma single_of m a : mapped 16 m a -> exists u, ld16 m a = Some u /\ 0 <= u < 2 ^ 32 /\ exists h, holds 16 m a h /\ half_as_single h u.
Proof.
  intros M. destruct (ld16_ok m a M) as (h & u & Hh & E & Eu & Ru). exists u. split; [exact E|]. split; [exact Ru|]. exists h. split; [exact Hh|].
  destruct (u16_to_f32_exact_l h (proj1 Hh)) as (u' & Eu' & _ & D). rewrite Eu in Eu'. injection Eu' as <-. split; assumption.
Qed.
Lemma load16_all f m adr : (forall i, 0 <= i < 8 -> f i = ld16 m (adr i)) -> (forall i, 0 <= i < 8 -> mapped 16 m (adr i)) ->
  exists v, fill16 f = Some v /\ in_regs16 v /\ forall i, 0 <= i < 8 -> exists h, holds 16 m (adr i) h /\ half_as_single h (apattern16 v i).
Proof.
  intros F M. destruct (fill16_ok f) as (v & E & R & A).
  { intros i Hi. destruct (single_of m _ (M i Hi)) as (u & Eu & Ru & _). exists u. rewrite (F i Hi). split; assumption. }
  exists v. split; [exact E|]. split; [exact R|]. intros i Hi. specialize (A i Hi). rewrite (F i Hi) in A.
  destruct (single_of m _ (M i Hi)) as (u & Eu & Ru & X). rewrite Eu in A. injection A as <-. exact X.
Qed.
Lemma p_load16_ok m a : (forall i, 0 <= i < 8 -> mapped 16 m (a + i * 2)) ->
  exists v, p_load16 m a = Some v /\ in_regs16 v /\
    forall i, 0 <= i < 8 -> exists h, holds 16 m (a + i * 2) h /\ half_as_single h (apattern16 v i).
Proof. intros M. exact (load16_all _ m (fun i => a + i * 2) (fun i _ => eq_refl) M). Qed.
Lemma four_split q : q / 4 * 4 + q mod 4 = q. Proof. pose proof (Z.div_mod q 4). lia. Qed.
Lemma p_load_deg16_ok deg m a : 0 <= deg ->
  (forall i j, 0 <= i < 8 -> 0 <= j < deg -> mapped 16 m (a + (i * deg + j) * 2)) ->
  exists vs, p_load_deg16 deg m a = Some vs /\ Z.of_nat (length vs) = deg /\
    forall j, 0 <= j < deg -> in_regs16 (nthz (0, 0) vs j) /\
      forall i, 0 <= i < 8 -> exists h, holds 16 m (a + (i * deg + j) * 2) h /\ half_as_single h (apattern16 (nthz (0, 0) vs j) i).
Proof.
  intros Hd M. unfold p_load_deg16.
  set (g := fun j => fill16 (fun i => ld16 m (a + (j + i / 4 * 4 * deg + i mod 4 * deg) * 2))).
  assert (G : forall j, 0 <= j < deg -> exists v, g j = Some v /\ in_regs16 v /\
    forall i, 0 <= i < 8 -> exists h, holds 16 m (a + (i * deg + j) * 2) h /\ half_as_single h (apattern16 v i)).
  { intros j Hj. apply (load16_all _ m (fun i => a + (i * deg + j) * 2)).
    - intros i Hi. f_equal. f_equal. f_equal. pose proof (four_split i). nia.
    - intros i Hi. apply M; assumption. }
  rewrite (p_collect_eq _ _ g) by reflexivity. destruct (collect_ok (0, 0) g (Z.to_nat deg)) as (vs & Ev & Lv & B).
  { intros j Hj N. destruct (G j ltac:(lia)) as (v & Eq & _). congruence. }
  exists vs. split; [exact Ev|]. split; [lia|]. intros j Hj. specialize (B j ltac:(lia)).
  destruct (G j Hj) as (v & Eq & R & P). rewrite Eq in B. injection B as <-. split; assumption.
Qed.
Lemma p_store_deg16_ok deg m a vs : 0 < deg -> (forall j, 0 <= j < deg -> in_regs16 (nthz (0, 0) vs j)) ->
  (forall i j, 0 <= i < 8 -> 0 <= j < deg -> mapped 16 m (a + (i * deg + j) * 2)) ->
  exists m', p_store_deg16 deg m a vs = Some m' /\
    (forall i j, 0 <= i < 8 -> 0 <= j < deg -> holds 16 m' (a + (i * deg + j) * 2) (f32_to_u16 (apattern16 (nthz (0, 0) vs j) i))) /\
    (forall x, x < a \/ a + deg * 16 <= x -> m' x = m x).
Proof.
  intros Hd R M. unfold p_store_deg16.
  set (pos := fun q => q / 8 + q mod 8 / 4 * 4 * deg + q mod 4 * deg).
  assert (P : forall q, pos q = q mod 8 * deg + q / 8).
  { intros q. unfold pos. replace (q mod 4) with (q mod 8 mod 4).
    - pose proof (four_split (q mod 8)). nia.
    - pose proof (Z.div_mod q 8 ltac:(lia)). rewrite H at 2. rewrite (Z.mul_comm 8), (Z.mul_comm _ 8). replace (8 * (q / 8) + q mod 8) with (q mod 8 + (q / 8 * 2) * 4) by lia.
      rewrite Z_mod_plus_full. reflexivity. }
  assert (Q : forall q, 0 <= q < 8 * deg -> 0 <= q / 8 < deg /\ 0 <= q mod 8 < 8).
  { intros q Hq. destruct (of_index 8 deg q ltac:(lia) Hq) as (A & B & _). split; assumption. }
  destruct (store_at 16 pos (fun q => f32_to_u16 (elt16 (nth (Z.to_nat (q / 8)) vs (0, 0)) (q mod 8))) a (Z.to_nat (8 * deg)) m ok8_16) as (m' & E & A & U & _); rewrite ?Z2Nat.id in * by lia.
  - intros x y Hx Hy. rewrite !P. intros EQ. destruct (Q x Hx), (Q y Hy). pose proof (Z.div_mod x 8 ltac:(lia)). pose proof (Z.div_mod y 8 ltac:(lia)).
    assert (x mod 8 = y mod 8) by nia. assert (x / 8 = y / 8) by nia. lia.
  - intros q Hq. rewrite P. destruct (Q q Hq). apply M; assumption.
  - exists m'. split; [exact E|]. split.
    + intros i j Hi Hj. specialize (A (j * 8 + i) ltac:(lia)). rewrite P in A.
      replace ((j * 8 + i) mod 8) with i in A by (rewrite Z.add_comm, Z_mod_plus_full, Z.mod_small by lia; reflexivity).
      replace ((j * 8 + i) / 8) with j in A by (rewrite Z.add_comm, Z_div_plus, Z.div_small by lia; lia).
      pose proof (stored16_val Sse2 (nthz (0, 0) vs j) i (R j Hj) Hi) as SV.
      change (f32_to_u16 (elt16 (nth (Z.to_nat j) vs (0, 0)) i) mod 2 ^ 16 = f32_to_u16 (apattern16 (nthz (0, 0) vs j) i)) in SV.
      rewrite SV in A. exact A.
    + intros x Hx. apply U. intros q Hq. rewrite P. destruct (Q q Hq). unfold outside. change (16 / 8) with 2. nia.
Qed.

Lemma mask16_lane l p i : plogical16 l p -> 0 <= i < 8 -> (elt16 l i =? 0) = negb (p i).
Proof.
  intros [L0 L1] Hi. unfold elt16. destruct (Z.ltb_spec i 4).
  - exact (mask_lane MF32 (fst l) p i I L0 ltac:(change (pelems MF32) with 4; lia)).
  - pose proof (mask_lane MF32 (snd l) _ (i - 4) I L1 ltac:(change (pelems MF32) with 4; lia)) as X. cbv beta in X. replace (i - 4 + 4) with i in X by lia. exact X.
Qed.
Lemma p_maskoz_load16_ok l m a other p : plogical16 l p -> (forall i, 0 <= i < 8 -> 0 <= other i < 2 ^ 32) ->
  (forall i, 0 <= i < 8 -> p i = true -> mapped 16 m (a + i * 2)) ->
  exists v, p_maskoz_load16 l m a other = Some v /\ in_regs16 v /\
    forall i, 0 <= i < 8 ->
      if p i then exists h, holds 16 m (a + i * 2) h /\ half_as_single h (apattern16 v i) else apattern16 v i = other i.
Proof.
  intros L O M. set (f := fun i => if elt16 l i =? 0 then Some (other i) else ld16 m (a + i * 2)).
  assert (U : p_maskoz_load16 l m a other = bind (insert_from 32 f 0 4 (vec_splats 32 0)) (fun r0 => bind (insert_from 32 (fun i => f (i + 4)) 0 4 r0) (fun r1 => Some (r0, r1)))) by reflexivity.
  rewrite U. clear U.
  assert (F : forall i, 0 <= i < 8 -> exists x, f i = Some x /\ 0 <= x < 2 ^ 32 /\
    (if p i then exists h, holds 16 m (a + i * 2) h /\ half_as_single h x else x = other i)).
  { intros i Hi. unfold f. rewrite (mask16_lane l p i L Hi). destruct (p i) eqn:Pi; cbn [negb].
    - destruct (single_of m _ (M i Hi Pi)) as (u & Eu & Ru & X). exists u. split; [exact Eu|]. split; assumption.
    - exists (other i). split; [reflexivity|]. split; [apply O, Hi|reflexivity]. }
  clearbody f. assert (F' : forall i, 0 <= i < 8 -> exists x, f i = Some x /\ 0 <= x < 2 ^ 32) by (intros i Hi; destruct (F i Hi) as (x & ? & ? & _); exists x; split; assumption).
  destruct (insert_fill 32 f (vec_splats 32 0) width32) as (r0 & E0 & R0 & A0).
  { apply in_reg_splats, okw_32. } { change (128 / 32) with 4. intros i Hi. apply F'. lia. }
  destruct (insert_fill 32 (fun i => f (i + 4)) r0 width32 R0) as (r1 & E1 & R1 & A1).
  { change (128 / 32) with 4. intros i Hi. apply F'. lia. }
  change (nlanes 128 32) with 4%nat in *. rewrite E0. cbn [bind].
  rewrite E1. cbn [bind]. eexists. split; [reflexivity|]. split; [split; assumption|].
  change (128 / 32) with 4 in *. intros i Hi. destruct (F i Hi) as (x & Ex & _ & Px). destruct (Z_lt_dec i 4).
  - rewrite !apattern16_lo by assumption. cbn [fst]. rewrite (A0 i ltac:(lia)) in Ex. injection Ex as ->. exact Px.
  - rewrite !apattern16_hi by lia. cbn [snd]. specialize (A1 (i - 4) ltac:(lia)). cbv beta in A1. replace (i - 4 + 4) with i in A1 by lia.
    rewrite A1 in Ex. injection Ex as ->. exact Px.
Qed.
Lemma p_gather_linear16_ok m a step : (forall i, 0 <= i < 8 -> in_ty i32 (i * step)) ->
  (forall i, 0 <= i < 8 -> mapped 16 m (a + i * step * 2)) ->
  exists v, p_gather_linear16 m a step = Some v /\ in_regs16 v /\
    forall i, 0 <= i < 8 -> exists h, holds 16 m (a + i * step * 2) h /\ half_as_single h (apattern16 v i).
Proof.
  intros S M. apply (load16_all _ m (fun i => a + i * step * 2)); [|exact M]. intros i Hi.
  destruct (Z.eqb_spec i 0) as [-> | N]; [f_equal; lia|]. rewrite (at_step_ok _ _ _ _ (S i Hi)). reflexivity.
Qed.
(** every element is the one designated by the first offset *)
Lemma p_gather16_ok m a idx : mapped 16 m (a + index 16 idx 0 * 2) ->
  exists v, p_gather16 m a idx = Some v /\ in_regs16 v /\
    forall i, 0 <= i < 8 -> exists h, holds 16 m (a + index 16 idx 0 * 2) h /\ half_as_single h (apattern16 v i).
Proof. intros M. exact (load16_all _ m (fun _ => a + index 16 idx 0 * 2) (fun i _ => eq_refl) (fun i _ => M)). Qed.
