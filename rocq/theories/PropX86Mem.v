(** C58, C59, C60: the memory operators of the x86 back ends. *)
From Coq Require Import ZArith Lia List Bool.
From Verif Require Import CInt BitLemmas FloatSpec Fp16 Fp16Spec Fp16Proofs ScalarOps ScalarSpec ScalarProofs X86Deg234 X86Arith X86ArithSpec
  X86LaneLemmas X86Mem X86MemSpec X86MemProofs X86MemProofs2.
Import ListNotations.
Open Scope Z_scope.

(** C58. A load returns the elements in memory order; only the bytes of the vector need exist. *)
Theorem C58_load : forall e t m a, mem_type t ->
  (forall i, 0 <= i < elems e t -> mapped (mw t) m (a + i * (mw t / 8))) ->
  exists r, x_load e m a = Some r /\ in_reg (nb e) r /\
    forall i, 0 <= i < elems e t -> holds (mw t) m (a + i * (mw t / 8)) (pattern t r i).
Proof. exact x_load_ok. Qed.
Print Assumptions C58_load.

Theorem C58_store : forall e t m a v, mem_type t -> in_reg (nb e) v ->
  (forall i, 0 <= i < elems e t -> mapped (mw t) m (a + i * (mw t / 8))) ->
  exists m', x_store e m a v = Some m' /\
    (forall i, 0 <= i < elems e t -> holds (mw t) m' (a + i * (mw t / 8)) (pattern t v i)) /\
    (forall x, x < a \/ a + elems e t * (mw t / 8) <= x -> m' x = m x).
Proof.
  intros e t m a v H Hv M. pose proof (okw_mw e t H) as On. pose proof (ok8_mw t H) as O.
  assert (O8 : ok8 (nb e)) by (destruct e; split; reflexivity).
  assert (E8 : nb e / 8 = elems e t * (mw t / 8)).
  { unfold elems. destruct On as (?&?&En), O as [? Ew]. rewrite En at 1. rewrite Ew at 1. replace (8 * (mw t / 8) * (nb e / mw t)) with ((nb e / mw t * (mw t / 8)) * 8) by ring. apply Z.div_mul. lia. }
  destruct (wrw_ok (nb e) m a v O8) as (m' & E & A & U & _).
  { intros k Hk. destruct (byte_index (mw t) (nb e) k On O Hk) as (I1 & I2 & I3). rewrite I3, Z.add_assoc. apply M; assumption. }
  exists m'. split; [exact E|]. split.
  - intros i Hi. rewrite Z.mod_small in A by exact Hv. exact (holds_elem _ _ _ _ _ _ On O A Hi).
  - intros x Hx. apply U. unfold outside. rewrite E8. exact Hx.
Qed.
Print Assumptions C58_store.

(** Masked loads: elements whose lane is false need not exist; their lanes are zero, or come from the last argument. *)
Theorem C58_maskz_load : forall e t l m a p, mem_type t -> logical e (uty t) l p ->
  (forall i, 0 <= i < elems e t -> p i = true -> mapped (mw t) m (a + i * (mw t / 8))) ->
  exists r, x_maskz_load e t l m a = Some r /\ in_reg (nb e) r /\
    forall i, 0 <= i < elems e t ->
      if p i then holds (mw t) m (a + i * (mw t / 8)) (pattern t r i) else pattern t r i = 0.
Proof. exact x_maskz_load_ok. Qed.
Print Assumptions C58_maskz_load.

Theorem C58_masko_load : forall e t l m a other p, mem_type t -> logical e (uty t) l p -> in_reg (nb e) other ->
  (forall i, 0 <= i < elems e t -> p i = true -> mapped (mw t) m (a + i * (mw t / 8))) ->
  exists r, x_masko_load e t l m a other = Some r /\ in_reg (nb e) r /\
    forall i, 0 <= i < elems e t ->
      if p i then holds (mw t) m (a + i * (mw t / 8)) (pattern t r i) else pattern t r i = pattern t other i.
Proof. exact x_masko_load_ok. Qed.
Print Assumptions C58_masko_load.

(** Masked stores: true lanes are written, every other byte of memory is unchanged and need not exist. *)
Theorem C58_mask_store : forall e t l m a v p, mem_type t -> logical e (uty t) l p -> in_reg (nb e) v ->
  (forall i, 0 <= i < elems e t -> p i = true -> mapped (mw t) m (a + i * (mw t / 8))) ->
  exists m', x_mask_store e t l m a v = Some m' /\
    (forall i, 0 <= i < elems e t -> p i = true -> holds (mw t) m' (a + i * (mw t / 8)) (pattern t v i)) /\
    (forall x, (forall i, 0 <= i < elems e t -> p i = true -> outside (mw t) (a + i * (mw t / 8)) x) -> m' x = m x).
Proof.
  intros e t l m a v p H L Hv M. destruct (x_mask_store_ok e t l m a v p H L Hv M) as (m' & E & A & U & _).
  exists m'. split; [exact E|]. split; [|exact U]. intros i Hi Pi. specialize (A i Hi Pi). cbv beta in A.
  rewrite lane_mod in A by (destruct (ok8_mw t H); lia). exact A.
Qed.
Print Assumptions C58_mask_store.

(** The same for f16, whose lanes are single-precision copies of the halves in memory. *)
Theorem C58_load_f16 : forall e m a, (forall i, 0 <= i < nb e / 16 -> mapped 16 m (a + i * 2)) ->
  exists r, x_load16 e m a = Some r /\ in_reg16 e r /\
    forall i, 0 <= i < nb e / 16 -> exists h, holds 16 m (a + i * 2) h /\ half_as_single h (pattern16 e r i).
Proof.
  intros e m a M. destruct (load16_ok e (fun _ => true) (fun _ => true) m (fun i => ld16 m (a + i * 2)) (fun i => a + i * 2) (fun _ => 0)) as (r & E & R & A); try reflexivity.
  { intros; lia. } { intros; apply M; assumption. }
  exists r. split; [exact E|]. split; [exact R|]. intros i Hi. destruct (A i Hi) as (h & Hh & C). exists h. split; [exact Hh|]. split; [exact C|].
  destruct (u16_to_f32_exact_l h) as (u & Eu & _ & D); [exact (proj1 Hh)|]. rewrite C in Eu. injection Eu as <-. exact D.
Qed.
Print Assumptions C58_load_f16.

Theorem C58_masko_load_f16 : forall e l m a other p, logical16 e l p -> in_reg16 e other ->
  (forall i, 0 <= i < nb e / 16 -> p i = true -> mapped 16 m (a + i * 2)) ->
  exists r, x_masko_load16 e l m a other = Some r /\ in_reg16 e r /\
    forall i, 0 <= i < nb e / 16 ->
      if p i then exists h, holds 16 m (a + i * 2) h /\ half_as_single h (pattern16 e r i) else pattern16 e r i = pattern16 e other i.
Proof.
  intros e l m a other p L Ho M.
  destruct (load16_ok e (fun i => negb (buf16 e (mask16 e l) i =? 0)) p m (fun i => ld16 m (a + i * 2)) (fun i => a + i * 2) (buf16 e other)) as (r & E & R & A); try reflexivity.
  { intros i Hi. apply mask16_ok; assumption. }
  { intros i Hi. rewrite buf16_eq. apply (pattern16_range e other i Ho); lia. }
  { exact M. }
  exists r. split; [exact E|]. split; [exact R|]. intros i Hi. specialize (A i Hi). rewrite buf16_eq in A. destruct (p i); [|exact A].
  destruct A as (h & Hh & C). exists h. split; [exact Hh|]. split; [exact C|].
  destruct (u16_to_f32_exact_l h) as (u & Eu & _ & D); [exact (proj1 Hh)|]. rewrite C in Eu. injection Eu as <-. exact D.
Qed.
Print Assumptions C58_masko_load_f16.

Theorem C58_maskz_load_f16 : forall e l m a p, logical16 e l p ->
  (forall i, 0 <= i < nb e / 16 -> p i = true -> mapped 16 m (a + i * 2)) ->
  exists r, x_maskz_load16 e l m a = Some r /\ in_reg16 e r /\
    forall i, 0 <= i < nb e / 16 ->
      if p i then exists h, holds 16 m (a + i * 2) h /\ half_as_single h (pattern16 e r i) else pattern16 e r i = 0.
Proof.
  intros e l m a p L M. destruct (C58_masko_load_f16 e l m a (mm_zero, mm_zero) p L) as (r & E & R & A).
  { split; cbn [fst snd]; unfold in_reg, mm_zero; pose proof (pow2_pos (nb e) ltac:(destruct e; cbn; lia)); lia. }
  { exact M. }
  exists r. split; [exact E|]. split; [exact R|]. intros i Hi. specialize (A i Hi). destruct (p i); [exact A|]. rewrite A.
  rewrite <- buf16_eq. unfold buf16. cbn [fst snd]. destruct (le16_half e) as (-> & _). destruct (Z.ltb_spec i (nb e / 32)); apply lane_0; lia.
Qed.
Print Assumptions C58_maskz_load_f16.

Theorem C58_mask_store_f16 : forall e l m a v p, logical16 e l p -> in_reg16 e v ->
  (forall i, 0 <= i < nb e / 16 -> p i = true -> mapped 16 m (a + i * 2)) ->
  exists m', x_mask_store16 e l m a v = Some m' /\
    (forall i, 0 <= i < nb e / 16 -> p i = true -> holds 16 m' (a + i * 2) (f32_to_u16 (pattern16 e v i))) /\
    (forall x, (forall i, 0 <= i < nb e / 16 -> p i = true -> outside 16 (a + i * 2) x) -> m' x = m x).
Proof.
  intros e l m a v p L Hv M.
  destruct (store_loop_stored 16 (fun i => negb (buf16 e (mask16 e l) i =? 0)) p a (fun i => f32_to_u16 (buf16 e v i)) (Z.to_nat (le16 e)) m) as (m' & E & A & U & _).
  { split; reflexivity. } { rewrite nat16. intros i Hi. apply mask16_ok; assumption. } { rewrite nat16. exact M. }
  rewrite nat16 in *. change (16 / 8) with 2 in *. exists m'. split; [exact E|]. split; [|exact U]. intros i Hi Pi. specialize (A i Hi Pi). cbv beta in A.
  rewrite stored16_val in A by assumption. exact A.
Qed.
Print Assumptions C58_mask_store_f16.

Theorem C58_store_f16 : forall e m a v, in_reg16 e v -> (forall i, 0 <= i < nb e / 16 -> mapped 16 m (a + i * 2)) ->
  exists m', x_store16 e m a v = Some m' /\
    (forall i, 0 <= i < nb e / 16 -> holds 16 m' (a + i * 2) (f32_to_u16 (pattern16 e v i))) /\
    (forall x, x < a \/ a + nb e / 16 * 2 <= x -> m' x = m x).
Proof.
  intros e m a v Hv M.
  destruct (store_loop_stored 16 (fun _ => true) (fun _ => true) a (fun i => f32_to_u16 (buf16 e v i)) (Z.to_nat (le16 e)) m) as (m' & E & A & U & _).
  { split; reflexivity. } { reflexivity. } { rewrite nat16. intros; apply M; assumption. }
  rewrite nat16 in *. change (16 / 8) with 2 in *. exists m'. split; [exact E|]. split.
  - intros i Hi. specialize (A i Hi eq_refl). cbv beta in A. rewrite stored16_val in A by assumption. exact A.
  - intros x Hx. apply U. intros i Hi _. unfold outside. change (16 / 8) with 2. nia.
Qed.
Print Assumptions C58_store_f16.

(** Two bytes exist, lane 0 of an SSE2 vector of i16 is active: the 14 missing bytes are not accessed. *)
Example C58_ex : let m := (fun x => if (x =? 100) || (x =? 101) then Some (x - 90) else None) in
  x_maskz_load Sse2 (MI i16) 65535 m 100 = Some (10 + 256 * 11) /\
  option_map (fun m' : bmem => map m' [99; 100; 101; 102]) (x_mask_store Sse2 (MI i16) 65535 m 100 (7 + 256 * 8 + 2 ^ 16 * 9)) = Some [None; Some 7; Some 8; None] /\
  x_mask_store Sse2 (MI i16) (65535 * 2 ^ 16) m 100 0 = None.
Proof. vm_compute. auto. Qed.
(** Lane 1 of an AVX-512 vector of f64 is active. *)
Example C58_ex2 : let m := (fun x => if (8 <=? x) && (x <? 16) then Some x else None) in
  option_map (fun r => map (pattern MF64 r) [0; 1; 2]) (x_masko_load Avx512Knl MF64 2 m 0 (5 + 2 ^ 128 * 6)) = Some [5; 0x0f0e0d0c0b0a0908; 6].
Proof. vm_compute. auto. Qed.

(** C59. *)
Theorem C59_iota : forall e t, In t int_types ->
  in_reg (nb e) (x_iota e t) /\ forall i, 0 <= i < nb e / bits t -> elt t (x_iota e t) i = i.
Proof. exact x_iota_ok. Qed.
Print Assumptions C59_iota.

Theorem C59_mask_for_loop_tail : forall e t i n, In t int_types -> in_ty i32 i -> in_ty i32 n -> in_ty i32 (n - i) ->
  exists l, x_mask_for_loop_tail e t i n = Some l /\ logical e t l (fun k => i + k <? n).
Proof. exact x_tail_ok. Qed.
Print Assumptions C59_mask_for_loop_tail.

Example C59_ex : x_mask_for_loop_tail Avx512Skylake u8 100 107 = Some 127 /\ x_mask_for_loop_tail Sse2 i32 4 6 = Some (2 ^ 64 - 1) /\
  x_mask_for_loop_tail Avx2 i64 9 6 = Some 0.
Proof. vm_compute. auto. Qed.

(** C60. *)
Theorem C60_gather : forall e t m a idx, mem_type t ->
  (forall i, 0 <= i < elems e t -> mapped (mw t) m (a + index (mw t) idx i * (mw t / 8))) ->
  exists r, x_gather e t m a idx = Some r /\ in_reg (nb e) r /\
    forall i, 0 <= i < elems e t -> holds (mw t) m (a + index (mw t) idx i * (mw t / 8)) (pattern t r i).
Proof. exact x_gather_ok. Qed.
Print Assumptions C60_gather.

(** Among lanes with the same index the highest one wins. *)
Theorem C60_scatter : forall e t m a idx v, mem_type t ->
  (forall i, 0 <= i < elems e t -> mapped (mw t) m (a + index (mw t) idx i * (mw t / 8))) ->
  exists m', x_scatter e t m a idx v = Some m' /\
    (forall i, 0 <= i < elems e t -> (forall j, i < j < elems e t -> index (mw t) idx j <> index (mw t) idx i) ->
       holds (mw t) m' (a + index (mw t) idx i * (mw t / 8)) (pattern t v i)) /\
    (forall x, (forall i, 0 <= i < elems e t -> outside (mw t) (a + index (mw t) idx i * (mw t / 8)) x) -> m' x = m x).
Proof. exact x_scatter_ok. Qed.
Print Assumptions C60_scatter.

(** The element offsets [i * step] are ints. *)
Theorem C60_gather_linear : forall e t undef m a step, mem_type t -> in_reg (nb e) undef ->
  (forall i, 0 <= i < elems e t -> in_ty i32 (i * step)) ->
  (forall i, 0 <= i < elems e t -> mapped (mw t) m (a + i * step * (mw t / 8))) ->
  exists r, x_gather_linear e t undef m a step = Some r /\ in_reg (nb e) r /\
    forall i, 0 <= i < elems e t -> holds (mw t) m (a + i * step * (mw t / 8)) (pattern t r i).
Proof. exact x_gather_linear_ok. Qed.
Print Assumptions C60_gather_linear.

Theorem C60_scatter_linear : forall e t m a step v, mem_type t -> in_reg (nb e) v ->
  (forall i, 0 <= i < elems e t -> in_ty i32 (i * step)) ->
  (forall i, 0 <= i < elems e t -> mapped (mw t) m (a + i * step * (mw t / 8))) ->
  exists m', x_scatter_linear e t m a step v = Some m' /\
    (step <> 0 -> forall i, 0 <= i < elems e t -> holds (mw t) m' (a + i * step * (mw t / 8)) (pattern t v i)) /\
    (step = 0 -> holds (mw t) m' a (pattern t v (elems e t - 1))) /\
    (forall x, (forall i, 0 <= i < elems e t -> outside (mw t) (a + i * step * (mw t / 8)) x) -> m' x = m x).
Proof.
  intros e t m a step v H Hv S M. destruct (x_scatter_linear_ok e t m a step v H Hv S M) as (m' & E & A & B & U & _).
  assert (W : 0 <= mw t) by (destruct (ok8_mw t H); lia).
  exists m'. split; [exact E|]. split; [|split; [|exact U]].
  - intros N i Hi. specialize (A N i Hi). cbv beta in A. rewrite lane_mod in A by exact W. exact A.
  - intros N. cbv beta in B. rewrite lane_mod in B by exact W. apply (B N). pose proof (okw_mw e t H) as (?&?&En).
    pose proof (Z.div_pos (nb e) (mw t) ltac:(lia) ltac:(lia)). destruct (Z.eq_dec (nb e / mw t) 0) as [Z0|]; [|lia].
    rewrite Z0 in En. destruct e; cbn [nb] in En; lia.
Qed.
Print Assumptions C60_scatter_linear.

Theorem C60_gather_f16 : forall e m a idx, (forall i, 0 <= i < nb e / 16 -> mapped 16 m (a + index 16 idx i * 2)) ->
  exists r, x_gather16 e m a idx = Some r /\ in_reg16 e r /\
    forall i, 0 <= i < nb e / 16 -> exists h, holds 16 m (a + index 16 idx i * 2) h /\ half_as_single h (pattern16 e r i).
Proof.
  intros e m a idx M. destruct (load16_ok e (fun _ => true) (fun _ => true) m (fun i => ld16 m (at_index 16 a idx i)) (fun i => a + index 16 idx i * 2) (fun _ => 0)) as (r & E & R & A); try reflexivity.
  { intros; lia. } { intros; apply M; assumption. }
  exists r. split; [exact E|]. split; [exact R|]. intros i Hi. destruct (A i Hi) as (h & Hh & C). exists h. split; [exact Hh|]. split; [exact C|].
  destruct (u16_to_f32_exact_l h) as (u & Eu & _ & D); [exact (proj1 Hh)|]. rewrite C in Eu. injection Eu as <-. exact D.
Qed.
Print Assumptions C60_gather_f16.

Theorem C60_gather_linear_f16 : forall e m a step, (forall i, 0 <= i < nb e / 16 -> in_ty i32 (i * step)) ->
  (forall i, 0 <= i < nb e / 16 -> mapped 16 m (a + i * step * 2)) ->
  exists r, x_gather_linear16 e m a step = Some r /\ in_reg16 e r /\
    forall i, 0 <= i < nb e / 16 -> exists h, holds 16 m (a + i * step * 2) h /\ half_as_single h (pattern16 e r i).
Proof.
  intros e m a step S M. destruct (load16_ok e (fun _ => true) (fun _ => true) m (fun i => bind (at_step 16 a step i) (ld16 m)) (fun i => a + i * step * 2) (fun _ => 0)) as (r & E & R & A); try reflexivity.
  { intros i Hi _. rewrite at_step_ok by (apply S; exact Hi). reflexivity. }
  { intros; lia. } { intros; apply M; assumption. }
  exists r. split; [exact E|]. split; [exact R|]. intros i Hi. destruct (A i Hi) as (h & Hh & C). exists h. split; [exact Hh|]. split; [exact C|].
  destruct (u16_to_f32_exact_l h) as (u & Eu & _ & D); [exact (proj1 Hh)|]. rewrite C in Eu. injection Eu as <-. exact D.
Qed.
Print Assumptions C60_gather_linear_f16.

Theorem C60_scatter_f16 : forall e m a idx v, in_reg16 e v ->
  (forall i, 0 <= i < nb e / 16 -> mapped 16 m (a + index 16 idx i * 2)) ->
  exists m', x_scatter16 e m a idx v = Some m' /\
    (forall i, 0 <= i < nb e / 16 -> (forall j, i < j < nb e / 16 -> index 16 idx j <> index 16 idx i) ->
       holds 16 m' (a + index 16 idx i * 2) (f32_to_u16 (pattern16 e v i))) /\
    (forall x, (forall i, 0 <= i < nb e / 16 -> outside 16 (a + index 16 idx i * 2) x) -> m' x = m x).
Proof.
  intros e m a idx v Hv M. assert (O : ok8 16) by (split; reflexivity).
  destruct (store_loop_ok 16 (fun _ => true) (fun i => Some (at_index 16 a idx i)) (fun i => f32_to_u16 (buf16 e v i)) O (Z.to_nat (le16 e)) m) as (m' & E & A & U & _).
  { rewrite nat16. intros i Hi _. eexists. split; [reflexivity|]. apply M. exact Hi. }
  rewrite nat16 in *. exists m'. split; [exact E|]. split.
  - intros i Hi Hd. specialize (A i _ Hi eq_refl eq_refl). rewrite stored16_val in A by assumption. apply A.
    intros j b Hj _ Eb. injection Eb as <-. rewrite !at_index_eq. apply strided_disjoint; [exact O|]. intros E1. apply (Hd j Hj). symmetry. exact E1.
  - intros x Hx. apply U. intros i b Hi _ Eb. injection Eb as <-. apply Hx. exact Hi.
Qed.
Print Assumptions C60_scatter_f16.

Theorem C60_scatter_linear_f16 : forall e m a step v, in_reg16 e v -> step <> 0 ->
  (forall i, 0 <= i < nb e / 16 -> in_ty i32 (i * step)) ->
  (forall i, 0 <= i < nb e / 16 -> mapped 16 m (a + i * step * 2)) ->
  exists m', x_scatter_linear16 e m a step v = Some m' /\
    (forall i, 0 <= i < nb e / 16 -> holds 16 m' (a + i * step * 2) (f32_to_u16 (pattern16 e v i))) /\
    (forall x, (forall i, 0 <= i < nb e / 16 -> outside 16 (a + i * step * 2) x) -> m' x = m x).
Proof.
  intros e m a step v Hv N S M. destruct (lin_loop (nb e) 16 a step (fun i => f32_to_u16 (buf16 e v i)) m) as (m' & E & A & _ & U & _); try assumption.
  { exact (okw_mw e (MI u16) ltac:(cbn; tauto)). } { split; reflexivity. }
  exists m'. split; [exact E|]. split; [|exact U]. intros i Hi. specialize (A N i Hi). cbv beta in A. rewrite stored16_val in A by assumption. exact A.
Qed.
Print Assumptions C60_scatter_linear_f16.

(** Indices 3, -1, 0, 3 on SSE2: lane 3 wins over lane 0. *)
Example C60_ex : let m := (fun x => if (0 <=? x) && (x <? 64) then Some 0 else None) in
  option_map (fun m' : bmem => map m' [0; 4; 8; 12; 16]) (x_scatter Sse2 (MI i32) m 4 (3 + 2 ^ 32 * (2 ^ 32 - 1) + 2 ^ 96 * 3) (1 + 2 ^ 32 * 2 + 2 ^ 64 * 3 + 2 ^ 96 * 4))
  = Some [Some 2; Some 3; Some 0; Some 0; Some 4].
Proof. vm_compute. auto. Qed.
Example C60_ex2 : let m := (fun x => if (0 <=? x) && (x <? 64) then Some x else None) in
  option_map (fun r => map (pattern (MI i16) r) [0; 1; 7]) (x_gather_linear Sse2 (MI i16) 0 m 2 3) = Some [2 + 256 * 3; 8 + 256 * 9; 44 + 256 * 45] /\
  option_map (fun r => map (pattern MF64 r) [0; 7]) (x_gather_linear Avx512Knl MF64 0 m 56 (-1)) = Some [0x3f3e3d3c3b3a3938; 0x0706050403020100].
Proof. vm_compute. auto. Qed.
