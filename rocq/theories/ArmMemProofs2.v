(** Proofs about the ARM masked accesses, gathers and scatters. *)
From Coq Require Import ZArith Lia List Bool ZifyBool.
From Verif Require Import CInt BitLemmas FloatSpec Fp16 Fp16Spec ScalarOps ScalarSpec ScalarProofs X86Deg234 X86Arith X86ArithSpec X86LaneLemmas
  X86EmulProofs X86SelectProofs X86LogicProofs X86Mem X86MemSpec X86MemProofs X86MemProofs2 Arm ArmSpec ArmProofs ArmProofs4 ArmPerm ArmPermSpec ArmPermProofs ArmMem ArmMemSpec ArmMemProofs.
Import ListNotations.
Open Scope Z_scope.

Lemma ones_nonzero w (p : bool) : 1 <= w -> negb ((if p then 2 ^ w - 1 else 0) =? 0) = p.
Proof. intros H. pose proof (Z.pow_le_mono_r 2 1 w ltac:(lia) H). change (2 ^ 1) with 2 in *. destruct p; lia. Qed.
Lemma neon_mask_lane e t l p i : is_neon e = true -> mem_type t -> alogical e (uty t) l p -> 0 <= i < an e / mw t ->
  negb (lane (mw t) i l =? 0) = p i.
Proof.
  intros N H L Hi. rewrite alogical_reg in L by (destruct e; try discriminate; reflexivity). destruct L as [_ L].
  unfold mw in *. rewrite L by exact Hi. apply ones_nonzero. destruct (bits_cases _ (mem_ty t H)) as [->|[->|[->| ->]]]; lia.
Qed.
Lemma sve_mask_lane e t l p i : is_neon e = false -> native_logicals e -> mem_type t -> alogical e (uty t) l p -> 0 <= i < an e / mw t ->
  active (mw t) l i = p i.
Proof.
  intros N C H L Hi. destruct e as [| |[] vq]; try discriminate; [exfalso; exact (C vq eq_refl)|].
  rewrite alogical_pred in L by reflexivity. destruct L as [_ L]. unfold mw in *.
  rewrite active_lane by (try apply w8_pos; try (apply bits_cases, mem_ty, H); lia). rewrite L by exact Hi. destruct (p i); reflexivity.
Qed.

Lemma a_maskoz_load_ok e t l m a other p : mem_type t -> native_logicals e -> alogical e (uty t) l p ->
  (forall i, 0 <= i < aelems e t -> p i = true -> mapped (mw t) m (a + i * (mw t / 8))) ->
  exists r, a_maskoz_load e t l m a other = Some r /\ in_reg (an e) r /\
    forall i, 0 <= i < aelems e t ->
      if p i then holds (mw t) m (a + i * (mw t / 8)) (pattern t r i) else pattern t r i = pattern t other i.
Proof.
  intros H C L M. pose proof (okw_amw e t H) as On. pose proof (ok8_mw t H) as O. unfold aelems in *.
  assert (W : 0 <= mw t) by (destruct O; lia). pose proof (pow2_pos (mw t) W) as P2.
  destruct (is_neon e) eqn:N.
  - assert (an e = 128) as E by (destruct e; try discriminate; reflexivity).
    destruct (load_mask_build (an e) (mw t) (fun i => negb (lane (mw t) i l =? 0)) p m a (fun i => lane (mw t) i other)) as (r & Er & R & A); try assumption.
    { intros i Hi. apply (neon_mask_lane e t l p i); assumption. } { intros i Hi. apply lane_range, W. }
    exists r. split; [|split; [exact R|exact A]]. rewrite <- Er. rewrite E. destruct e; try discriminate; reflexivity.
  - assert (a_maskoz_load e t l m a other = bind (sv_ld1 (an e) (mw t) l m a) (fun r => Some (sv_sel (an e) (mw t) l r other))) as -> by (destruct e; try discriminate; reflexivity).
    unfold sv_ld1. destruct (mask_build_o (an e) (mw t) (active (mw t) l) p m a (fun _ => 0)) as (r & Er & R & A); try assumption.
    { intros i Hi. apply (sve_mask_lane e t l p i); assumption. } { intros; lia. }
    rewrite Er. cbn [bind]. eexists. split; [reflexivity|]. unfold sv_sel. split; [apply in_reg_build, On|]. intros i Hi.
    unfold pattern. fold (lane (mw t) i other). change ((?x / 2 ^ (mw t * i)) mod 2 ^ mw t) with (lane (mw t) i x).
    rewrite lane_buildn by assumption. rewrite (sve_mask_lane e t l p i) by assumption. specialize (A i Hi).
    destruct (p i); rewrite lane_mod by exact W; [exact A|reflexivity].
Qed.
Lemma a_maskz_load_ok e t l m a p : mem_type t -> native_logicals e -> alogical e (uty t) l p ->
  (forall i, 0 <= i < aelems e t -> p i = true -> mapped (mw t) m (a + i * (mw t / 8))) ->
  exists r, a_maskz_load e t l m a = Some r /\ in_reg (an e) r /\
    forall i, 0 <= i < aelems e t ->
      if p i then holds (mw t) m (a + i * (mw t / 8)) (pattern t r i) else pattern t r i = 0.
Proof.
  intros H C L M. unfold a_maskz_load. edestruct (a_maskoz_load_ok e t l m a (if is_neon e then v_dup (mw t) 0 else sv_dup (an e) (mw t) 0) p H C L M) as (r & E & R & A).
  exists r. split; [exact E|]. split; [exact R|]. intros i Hi. specialize (A i Hi). destruct (p i); [exact A|]. rewrite A.
  pose proof (okw_amw e t H) as On. unfold aelems in *.
  replace (if is_neon e then v_dup (mw t) 0 else sv_dup (an e) (mw t) 0) with (sv_dup (an e) (mw t) 0) by (destruct e; reflexivity).
  unfold sv_dup. rewrite pattern_lane, lane_buildn by assumption. apply Z.mod_0_l. pose proof (pow2_pos (mw t)). destruct On. lia.
Qed.
Lemma a_mask_store_ok e t l m a v p : mem_type t -> native_logicals e -> alogical e (uty t) l p ->
  (forall i, 0 <= i < aelems e t -> p i = true -> mapped (mw t) m (a + i * (mw t / 8))) ->
  exists m', a_mask_store e t l m a v = Some m' /\
    (forall i, 0 <= i < aelems e t -> p i = true -> holds (mw t) m' (a + i * (mw t / 8)) (pattern t v i)) /\
    (forall x, (forall i, 0 <= i < aelems e t -> p i = true -> outside (mw t) (a + i * (mw t / 8)) x) -> m' x = m x).
Proof.
  intros H C L M. pose proof (okw_amw e t H) as On. pose proof (ok8_mw t H) as O. unfold aelems in *.
  pose (cond := if is_neon e then fun i => negb (lane (mw t) i l =? 0) else active (mw t) l).
  assert (Hc : forall i, 0 <= i < an e / mw t -> cond i = p i).
  { intros i Hi. unfold cond. destruct (is_neon e) eqn:N; [apply (neon_mask_lane e t l p i); assumption|apply (sve_mask_lane e t l p i); assumption]. }
  destruct (store_loop_stored (mw t) cond p a (fun i => lane (mw t) i v) (nlanes (an e) (mw t)) m O) as (m' & E & A & U & _).
  { rewrite (nlanes_z _ _ On). exact Hc. } { rewrite (nlanes_z _ _ On). exact M. }
  rewrite (nlanes_z _ _ On) in *. exists m'. split; [|split; [|exact U]].
  - rewrite <- E. unfold cond. destruct e; reflexivity.
  - intros i Hi Pi. specialize (A i Hi Pi). cbv beta in A. rewrite lane_mod in A by (destruct O; lia). exact A.
Qed.

(** ** Gathers *)

Lemma lane_v_dup w x i : okw 128 w -> 0 <= i < 128 / w -> lane w i (v_dup w x) = x mod 2 ^ w.
Proof. intros O Hi. unfold v_dup. apply (lane_buildn 128); assumption. Qed.
Lemma fill_lanes_ok w f k : okw 128 w -> Z.of_nat k < 128 / w -> (forall i, 0 <= i <= Z.of_nat k -> exists x, f i = Some x /\ 0 <= x < 2 ^ w) ->
  exists r, fill_lanes w f k = Some r /\ in_reg 128 r /\ forall i, 0 <= i <= Z.of_nat k -> f i = Some (lane w i r).
Proof.
  intros O. assert (W : 0 <= w) by (destruct O; lia). induction k as [|k IH]; intros Hk F.
  - destruct (F 0) as (x & Ex & Hx); [lia|]. cbn [fill_lanes]. rewrite Ex. cbn [bind]. eexists. split; [reflexivity|].
    split; [apply in_reg_build, O|]. intros i Hi. assert (i = 0) as -> by lia. rewrite lane_v_dup by (assumption || lia).
    rewrite Z.mod_small by exact Hx. exact Ex.
  - destruct IH as (r & Er & R & A); [lia|intros; apply F; lia|]. cbn [fill_lanes]. rewrite Er. cbn [bind].
    destruct (F (Z.of_nat (S k))) as (x & Ex & Hx); [lia|]. rewrite Ex. cbn [bind]. eexists. split; [reflexivity|].
    unfold v_set_lane. split; [apply in_reg_build, O|]. intros i Hi. rewrite (lane_buildn 128) by (assumption || lia).
    destruct (Z.eqb_spec i (Z.of_nat (S k))) as [->|Ne]; [rewrite Z.mod_small by exact Hx; exact Ex|].
    rewrite lane_mod by exact W. apply A. lia.
Qed.
Lemma fits_ok e w : architectural e -> w = 8 \/ w = 16 \/ w = 32 \/ w = 64 -> fits e w = true.
Proof.
  intros A W. unfold architectural in A. unfold fits. destruct e; try reflexivity. apply Z.leb_le. apply Z.div_le_mono; [lia|exact A].
Qed.

Lemma gather_ok e t m f adr : mem_type t -> architectural e -> (is_neon e || through_buffer e (mw t)) = true ->
  (forall i, 0 <= i < aelems e t -> f i = rdw (mw t) m (adr i)) ->
  (forall i, 0 <= i < aelems e t -> mapped (mw t) m (adr i)) ->
  exists r, (if is_neon e then fill_lanes (mw t) f (nlanes 128 (mw t) - 1) else fill_buffer e (mw t) f) = Some r /\ in_reg (an e) r /\
    forall i, 0 <= i < aelems e t -> holds (mw t) m (adr i) (pattern t r i).
Proof.
  intros H Ar B F M. pose proof (okw_amw e t H) as On. pose proof (ok8_mw t H) as O. unfold aelems in *.
  assert (G : forall i, 0 <= i < an e / mw t -> exists x, f i = Some x /\ holds (mw t) m (adr i) x).
  { intros i Hi. rewrite F by exact Hi. apply rdw_mapped; [exact O|apply M, Hi]. }
  destruct (is_neon e) eqn:N.
  - assert (an e = 128) as E by (destruct e; try discriminate; reflexivity). rewrite E in *.
    assert (K : Z.of_nat (nlanes 128 (mw t) - 1) = 128 / mw t - 1).
    { pose proof (nlanes_z _ _ On). destruct (mw_cases t H) as [Ew|[Ew|[Ew|Ew]]]; rewrite Ew; reflexivity. }
    destruct (fill_lanes_ok (mw t) f (nlanes 128 (mw t) - 1) On) as (r & Er & R & A).
    { lia. } { rewrite K. intros i Hi. destruct (G i) as (x & Ex & Hx); [lia|]. exists x. split; [exact Ex|exact (proj1 Hx)]. }
    exists r. split; [exact Er|]. split; [exact R|]. intros i Hi. specialize (A i ltac:(lia)). destruct (G i Hi) as (x & Ex & Hx).
    rewrite Ex in A. injection A as Ax. rewrite pattern_lane, <- Ax. exact Hx.
  - unfold fill_buffer. rewrite fits_ok by (try assumption; apply mw_cases, H).
    pose proof (nlanes_z _ _ On) as NZ.
    destruct (load_loop_ok (fun _ => true) f (nlanes (an e) (mw t)) (fun _ => 0)) as (b & Eb & A & _).
    { rewrite NZ. intros i Hi _ Nn. destruct (G i Hi) as (x & Ex & _). congruence. }
    rewrite NZ in A. rewrite Eb. cbn [bind]. eexists. split; [reflexivity|]. split; [apply in_reg_build, On|].
    intros i Hi. specialize (A i Hi). cbv beta iota in A. destruct (G i Hi) as (x & Ex & Hx). rewrite Ex in A. injection A as Ax.
    rewrite pattern_lane, lane_buildn by assumption. rewrite <- Ax. rewrite Z.mod_small by exact (proj1 Hx). exact Hx.
Qed.

Lemma a_gather_ok e t m a idx : mem_type t -> architectural e ->
  (forall i, 0 <= i < aelems e t -> mapped (mw t) m (a + index (mw t) idx i * (mw t / 8))) ->
  exists r, a_gather e t m a idx = Some r /\ in_reg (an e) r /\
    forall i, 0 <= i < aelems e t -> holds (mw t) m (a + index (mw t) idx i * (mw t / 8)) (pattern t r i).
Proof.
  intros H Ar M. unfold a_gather. destruct (is_neon e || through_buffer e (mw t)) eqn:B.
  - destruct (gather_ok e t m (fun i => rdw (mw t) m (at_index (mw t) a idx i)) (fun i => a + index (mw t) idx i * (mw t / 8)) H Ar B) as (r & E & R & A);
      [reflexivity|exact M|]. exists r. split; [|split; [exact R|exact A]]. rewrite <- E.
    destruct (is_neon e); [reflexivity|]. cbn [orb] in B. rewrite B. reflexivity.
  - apply orb_false_iff in B as [B1 B2]. rewrite B1, B2. unfold sv_gather.
    apply (gathered (an e) (mw t) (fun i => a + index (mw t) idx i * (mw t / 8)) m (okw_amw e t H) (ok8_mw t H)). exact M.
Qed.

Lemma index_step n w step i : okw n w -> w = 32 \/ w = 64 -> 0 <= i < n / w -> in_ty i32 (i * step) ->
  index w (sv_index n w step) i = i * step.
Proof.
  intros O W Hi S. unfold index. fold (lane w i (sv_index n w step)). unfold sv_index. rewrite lane_buildn by assumption.
  change (to_s w ((i * step) mod 2 ^ w)) with (to_s w (to_u w (i * step))). rewrite to_s_to_u by lia. apply to_s_id; [lia|].
  unfold in_ty in S. cbn in S. unfold in_s. destruct W as [-> | ->]; cbn; lia.
Qed.
Lemma a_gather_linear_ok e t m a step : mem_type t -> architectural e ->
  (forall i, 0 <= i < aelems e t -> in_ty i32 (i * step)) ->
  (forall i, 0 <= i < aelems e t -> mapped (mw t) m (a + i * step * (mw t / 8))) ->
  exists r, a_gather_linear e t m a step = Some r /\ in_reg (an e) r /\
    forall i, 0 <= i < aelems e t -> holds (mw t) m (a + i * step * (mw t / 8)) (pattern t r i).
Proof.
  intros H Ar S M. unfold a_gather_linear. destruct (is_neon e || through_buffer e (mw t)) eqn:B.
  - destruct (gather_ok e t m (fun i => if is_neon e && (i =? 0) then rdw (mw t) m a else bind (at_step (mw t) a step i) (rdw (mw t) m)) (fun i => a + i * step * (mw t / 8)) H Ar B) as (r & E & R & A).
    { intros i Hi. rewrite at_step_ok by (apply S, Hi). cbn [bind]. destruct (is_neon e); cbn [andb]; [|reflexivity].
      destruct (Z.eqb_spec i 0) as [->|]; [|reflexivity]. f_equal. lia. }
    { exact M. }
    exists r. split; [|split; [exact R|exact A]]. rewrite <- E.
    destruct (is_neon e); [reflexivity|]. cbn [orb] in B. rewrite B. reflexivity.
  - apply orb_false_iff in B as [B1 B2]. rewrite B1, B2. unfold sv_gather.
    assert (W : mw t = 32 \/ mw t = 64). { unfold through_buffer in B2. rewrite B1 in B2. cbn in B2. destruct (mw_cases t H) as [W|[W|[W|W]]]; lia. }
    unfold aelems in *. pose proof (okw_amw e t H) as On.
    destruct (gathered (an e) (mw t) (fun i => a + index (mw t) (sv_index (an e) (mw t) step) i * (mw t / 8)) m On (ok8_mw t H)) as [_ (r & E & R & A)].
    { intros i Hi. rewrite (index_step (an e)) by (try assumption; apply S, Hi). apply M, Hi. }
    exists r. split; [exact E|]. split; [exact R|]. intros i Hi. specialize (A i Hi). cbv beta in A.
    rewrite (index_step (an e)) in A by (try assumption; apply S, Hi). exact A.
Qed.

(** ** Scatters *)

Lemma sv_scatter_ok ord n w m a idx v : okw n w -> ok8 w -> lane_order (n / w) ord ->
  (forall i, 0 <= i < n / w -> mapped w m (a + index w idx i * (w / 8))) ->
  exists m', sv_scatter ord n w m a idx v = Some m' /\
    (forall i, 0 <= i < n / w -> (forall j, 0 <= j < n / w -> j <> i -> index w idx j <> index w idx i) ->
       holds w m' (a + index w idx i * (w / 8)) (lane w i v)) /\
    (forall x, (forall i, 0 <= i < n / w -> outside w (a + index w idx i * (w / 8)) x) -> m' x = m x).
Proof.
  intros On O (R & I & S) M. unfold sv_scatter.
  destruct (scattered w (fun k => Some (a + to_s w (lane w (ord k) idx) * (w / 8))) (fun k => lane w (ord k) v) m n On O) as (m' & E & A & U & _).
  { intros k Hk. eexists. split; [reflexivity|]. apply (M (ord k)), R, Hk. }
  exists m'. split; [exact E|]. split.
  - intros i Hi Hd. destruct (S i Hi) as (k & Hk & <-). specialize (A k _ Hk eq_refl).
    rewrite lane_mod in A by (destruct O; lia). apply A. intros j b Hj Eb. injection Eb as <-. apply strided_disjoint; [exact O|].
    intros E1. apply (Hd (ord j)); [apply R; lia| |symmetry; exact E1]. intros E2. assert (j = k) by (apply I; [lia|lia|exact E2]). lia.
  - intros x Hx. apply U. intros i b Hi Eb. injection Eb as <-. apply (Hx (ord i)), R, Hi.
Qed.

Lemma a_scatter_ok ord e t m a idx v : mem_type t -> architectural e -> lane_order (aelems e t) ord ->
  (forall i, 0 <= i < aelems e t -> mapped (mw t) m (a + index (mw t) idx i * (mw t / 8))) ->
  exists m', a_scatter ord e t m a idx v = Some m' /\
    (forall i, 0 <= i < aelems e t ->
       (forall j, 0 <= j < aelems e t -> j <> i -> index (mw t) idx j = index (mw t) idx i -> in_order e t /\ j < i) ->
       holds (mw t) m' (a + index (mw t) idx i * (mw t / 8)) (pattern t v i)) /\
    (forall x, (forall i, 0 <= i < aelems e t -> outside (mw t) (a + index (mw t) idx i * (mw t / 8)) x) -> m' x = m x).
Proof.
  intros H Ar Or M. pose proof (okw_amw e t H) as On. pose proof (ok8_mw t H) as O. unfold aelems, a_scatter in *.
  destruct (is_neon e || through_buffer e (mw t)) eqn:B.
  - rewrite fits_ok by (try assumption; apply mw_cases, H).
    destruct (scattered (mw t) (fun i => Some (at_index (mw t) a idx i)) (fun i => lane (mw t) i v) m (an e) On O) as (m' & E & A & U & _).
    { intros k Hk. eexists. split; [reflexivity|]. apply M, Hk. }
    exists m'. split; [exact E|]. split.
    + intros i Hi Hd. specialize (A i _ Hi eq_refl). rewrite lane_mod in A by (destruct O; lia). apply A.
      intros j b Hj Eb. injection Eb as <-. rewrite !at_index_eq. apply strided_disjoint; [exact O|]. intros E1.
      destruct (Hd j) as [_ X]; lia.
    + intros x Hx. apply U. intros i b Hi Eb. injection Eb as <-. apply Hx, Hi.
  - apply orb_false_iff in B as [B1 B2].
    destruct (sv_scatter_ok ord (an e) (mw t) m a idx v On O Or M) as (m' & E & A & U). exists m'. split; [exact E|]. split; [|exact U].
    intros i Hi Hd. apply A; [exact Hi|]. intros j Hj Ne Eq. destruct (Hd j Hj Ne Eq) as [X _]. unfold in_order in X. rewrite B1 in X.
    unfold through_buffer in B2. rewrite B1 in B2. cbn in B2. destruct X as [X|X]; [discriminate|lia].
Qed.

Lemma a_scatter_linear_ok ord e t m a step v : mem_type t -> architectural e -> lane_order (aelems e t) ord ->
  (forall i, 0 <= i < aelems e t -> in_ty i32 (i * step)) ->
  (forall i, 0 <= i < aelems e t -> mapped (mw t) m (a + i * step * (mw t / 8))) ->
  exists m', a_scatter_linear ord e t m a step v = Some m' /\
    (step <> 0 -> forall i, 0 <= i < aelems e t -> holds (mw t) m' (a + i * step * (mw t / 8)) (pattern t v i)) /\
    (step = 0 -> in_order e t -> holds (mw t) m' a (pattern t v (aelems e t - 1))) /\
    (forall x, (forall i, 0 <= i < aelems e t -> outside (mw t) (a + i * step * (mw t / 8)) x) -> m' x = m x).
Proof.
  intros H Ar Or S M. pose proof (okw_amw e t H) as On. pose proof (ok8_mw t H) as O. unfold aelems, a_scatter_linear in *.
  assert (W : 0 <= mw t) by (destruct O; lia).
  destruct (is_neon e || through_buffer e (mw t)) eqn:B.
  - rewrite fits_ok by (try assumption; apply mw_cases, H).
    destruct (lin_loop (an e) (mw t) a step (fun i => lane (mw t) i v) m On O S M) as (m' & E & A1 & A2 & U & _).
    exists m'. split; [exact E|]. split; [|split; [|exact U]].
    + intros N i Hi. specialize (A1 N i Hi). cbv beta in A1. rewrite lane_mod in A1 by exact W. exact A1.
    + intros N _. cbv beta in A2. rewrite lane_mod in A2 by exact W. apply (A2 N). destruct (even_lanes e t H). unfold aelems in *. lia.
  - apply orb_false_iff in B as [B1 B2].
    assert (W2 : mw t = 32 \/ mw t = 64). { unfold through_buffer in B2. rewrite B1 in B2. cbn in B2. destruct (mw_cases t H) as [W2|[W2|[W2|W2]]]; lia. }
    assert (X : forall i, 0 <= i < an e / mw t -> index (mw t) (sv_index (an e) (mw t) step) i = i * step).
    { intros i Hi. apply index_step; try assumption. apply S, Hi. }
    destruct (sv_scatter_ok ord (an e) (mw t) m a (sv_index (an e) (mw t) step) v On O Or) as (m' & E & A & U).
    { intros i Hi. rewrite X by exact Hi. apply M, Hi. }
    exists m'. split; [exact E|]. split; [|split].
    + intros N i Hi. specialize (A i Hi). rewrite X in A by exact Hi. apply A. intros j Hj Ne. rewrite X by exact Hj. nia.
    + intros _ Y. exfalso. unfold in_order in Y. rewrite B1 in Y. destruct Y as [Y|Y]; [discriminate|lia].
    + intros x Hx. apply U. intros i Hi. rewrite X by exact Hi. apply Hx, Hi.
Qed.
