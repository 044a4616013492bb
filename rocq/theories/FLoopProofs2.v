(** Proofs about FLoop.v: the CPU back end. *)
From Coq Require Import ZArith Lia List Bool ZifyBool.
From Verif Require Import CInt BitLemmas ScalarOps ScalarSpec ScalarProofs CpuSimd CpuSimdSpec CpuSimdMem CpuSimdProofs PropCpuLanes PropCpuSimd.
From Verif Require Import FloatSpec RoundEven X86Cvt X86CvtSpec ArmFloat ArmFloatSpec FloatArithSpec FloatVecSpec FloatVecOps PpcFloatSpec.
From Verif Require Import Portable PortableSpec PortableProofs PortableProofs2 PortableProofs5 FPortable FPortableSpec FPortableProofs FPortableProofs5 PropFPortable.
From Verif Require Import Loop LoopSpec LoopProofs FLoop FLoopSpec FLoopProofs.
Open Scope Z_scope.

Lemma cpu_floop c99 new t len d body srcs dst n x (m : Z -> option Z) : t <> F16 -> (0 < len)%nat -> (uses_fma body = true -> c99 = true) ->
  0 <= n -> n + Z.of_nat len < 2 ^ 31 -> (forall k, foccurs k body = true -> (k < length srcs)%nat) ->
  (forall k j, (k < length srcs)%nat -> 0 <= j < n -> holds_cell t m (nth k srcs 0 + j) (x k j)) ->
  (forall y, dst <= y < dst + n -> m y <> None) ->
  (forall k, (k < length srcs)%nat -> same_or_apart 1 n (nth k srcs 0) dst) ->
  (forall j, 0 <= j < n -> felement t (fun k => x k j) body <> None) -> felement t (fun _ => 0) body <> None ->
  exists m', fsimd_loop (cpuf_m c99 new t len) d body srcs dst n m = Some m' /\
    (forall j, 0 <= j < n -> exists r, felement t (fun k => x k j) body = Some r /\ holds_cell t m' (dst + j) r) /\
    (forall y, y < dst \/ dst + n <= y -> m' y = m y).
Proof.
  intros T Hl Hf Hn Hi Ho Hs Hd Ha He Hz. assert (0 <= 0 < 2 ^ fw t) as Z0 by (split; [lia|apply Z.pow_pos_nonneg; [lia|destruct t; cbn; lia]]).
  assert (forall z, lane_in (ce t) z = Some z) as Li by (intros z; destruct t; congruence || reflexivity). assert (forall z, lane_out (ce t) z = z) as Lo by (intros z; destruct t; congruence || reflexivity).
  destruct (vector_loop_ok _ (fmb_mem (cpuf_m c99 new t len)) (fun env => fveval (cpuf c99 new t len) env body) (fun env i => felement t env body) d srcs (crep t len) (repl len) (holds_cell t) (fun _ => True)) with
    (dst := dst) (n := n) (v := x) (m0 := m) as (m' & S & A & F); try assumption; cbn [mo_len mo_size fmb_mem cpuf_m].
  - lia.
  - lia.
  - apply (feval_vars (cpuf c99 new t len) t (Z.of_nat len) (crep t len) d body srcs); [| | |exact Ho].
    + exists (repeat 0 len), (fun _ => 0). split; [apply repeat_length|]. intros i Hi'. unfold celt. rewrite nth_repeat. auto.
    + intros r f g (L & R) E. split; [exact L|]. intros i Hi'. rewrite <- (E i Hi'). exact (R i Hi').
    + intros env args E D. exact (cpu_float c99 new t len T Hl env args E body Hf D).
  - intros m1 m2 a y E (I & p & P & H & Q). split; [exact I|]. exists p. rewrite E by lia. auto.
  - intros m1 a y (I & p & P & H & Q) z Hz'. replace z with a by lia. rewrite H. discriminate.
  - intros m1 a f _ H. destruct (C18_load (ce t) len m1 a) as (r & R & L & P).
    { intros i Hi'. destruct (H (Z.of_nat i) ltac:(lia)) as (_ & p & _ & Q & _). rewrite Z.mul_1_r in Q. rewrite Q. cbn [bind]. rewrite Li. discriminate. }
    exists r. split; [exact R|]. split; [exact L|]. intros i Hi'. destruct (H i Hi') as (I & p & Rp & Q & Sm).
    specialize (P (Z.to_nat i) ltac:(lia)). rewrite Z2Nat.id in P by lia. rewrite Z.mul_1_r in Q. rewrite Q in P. cbn [bind] in P. rewrite Li in P. injection P as P. unfold celt. rewrite <- P. split; [exact Rp|]. split; [exact I|]. exact (same_decode _ _ _ Sm).
  - intros m1 a r f _ (L & R) M. destruct (C18_store (ce t) len m1 a r L) as (m' & S & A & F).
    { intros i Hi'. apply (M (Z.of_nat i)); lia. }
    exists m'. split; [exact S|]. split.
    + intros i Hi'. rewrite Z.mul_1_r. destruct (R i Hi') as (Rp & I & Q). split; [exact I|]. exists (celt r i). split; [exact Rp|]. specialize (A (Z.to_nat i) ltac:(lia)). rewrite Z2Nat.id in A by lia. rewrite A, Lo. split; [reflexivity|]. apply same_of; assumption.
    + intros y Hy. apply F. intros i Hi'. lia.
  - intros i k Hik Hk1 Hk2. apply (body_l len Hl). intros j Hj. rewrite Z2Nat.id by lia. unfold carith. assert (in_ty i32 (i + j)) as X by (unfold in_ty; change (ty_min i32) with (- 2 ^ 31); change (ty_max i32) with (2 ^ 31 - 1); lia).
    unfold in_ty in X. change (is_signed i32) with true. cbv iota. replace ((ty_min i32 <=? i + j) && (i + j <=? ty_max i32)) with true by lia. cbn [bind]. destruct (i + j <? k); reflexivity.
  - intros l p m1 a f (Ll & P) H.
    assert (forall i, 0 <= i < Z.of_nat len -> active l (Z.to_nat i) = p i) as X. { intros i Hi'. unfold active. unfold celt in P. rewrite (P i Hi'). destruct (p i); reflexivity. }
    destruct (C18_maskz_load (ce t) len m1 l a Ll) as (r & R & L & Q).
    { intros i Hi' W. pose proof (X (Z.of_nat i) ltac:(lia)) as Y. rewrite Nat2Z.id, W in Y. destruct (H (Z.of_nat i) ltac:(lia) (eq_sym Y)) as (_ & q & _ & Q & _). rewrite Z.mul_1_r in Q. rewrite Q. cbn [bind]. rewrite Li. discriminate. }
    exists r. split; [exact R|]. split; [exact L|]. intros i Hi'. specialize (Q (Z.to_nat i) ltac:(lia)). rewrite (X i Hi'), Z2Nat.id in Q by lia. specialize (H i Hi'). cbv beta in H. unfold celt. destruct (p i).
    + destruct (H eq_refl) as (I & q & Rq & W & Sm). rewrite Z.mul_1_r in W. rewrite W in Q. cbn [bind] in Q. rewrite Li in Q. injection Q as Q. rewrite Q. split; [exact Rq|]. split; [exact I|]. exact (same_decode _ _ _ Sm).
    + injection Q as Q. rewrite Q. auto.
  - intros l p m1 a r f (Ll & P) (L & R) M.
    assert (forall i, 0 <= i < Z.of_nat len -> active l (Z.to_nat i) = p i) as X. { intros i Hi'. unfold active. unfold celt in P. rewrite (P i Hi'). destruct (p i); reflexivity. }
    destruct (C18_mask_store (ce t) len m1 l a r Ll L) as (m' & S & A & F).
    { intros i Hi' W. pose proof (X (Z.of_nat i) ltac:(lia)) as Y. rewrite Nat2Z.id, W in Y. apply (M (Z.of_nat i) ltac:(lia) (eq_sym Y)). lia. }
    exists m'. split; [exact S|]. split.
    + intros i Hi' W. rewrite Z.mul_1_r. destruct (R i Hi') as (Rp & I & Q). split; [exact I|]. exists (celt r i). split; [exact Rp|]. specialize (A (Z.to_nat i) ltac:(lia)). rewrite (X i Hi'), Z2Nat.id in A by lia. rewrite (A W), Lo. split; [reflexivity|]. apply same_of; assumption.
    + intros y Hy. apply F. intros i Hi' W. pose proof (X (Z.of_nat i) ltac:(lia)) as Y. rewrite Nat2Z.id, W in Y. specialize (Hy (Z.of_nat i) ltac:(lia) (eq_sym Y)). lia.
  - intros k j Hk Hj. rewrite Z.mul_1_r. exact (Hs k j Hk Hj).
  - intros y Hy. apply Hd. lia.
  - auto.
  - auto.
  - auto.
  - cbn [mo_len mo_size fmb_mem cpuf_m] in A, F. exists m'. split; [exact S|]. split.
    + intros j Hj. destruct (A j Hj) as (r & E & Q). exists r. rewrite Z.mul_1_r in Q. auto.
    + intros y Hy. apply F. lia.
Qed.
