(** Proofs about Loop.v: the CPU back end. *)
From Coq Require Import ZArith Lia List Bool ZifyBool.
From Verif Require Import CInt BitLemmas ScalarOps ScalarSpec ScalarProofs CpuSimd CpuSimdSpec CpuSimdMem CpuSimdProofs PropCpuLanes PropCpuSimd
  Portable PortableSpec PortableProofs PortableProofs2 PortableProofs5 Loop LoopSpec LoopProofs.
Open Scope Z_scope.

Lemma cpu_loop t len d body srcs dst n v (m : Z -> option Z) : In t int_types -> (0 < len)%nat ->
  0 <= n -> n + Z.of_nat len < 2 ^ 31 -> (forall k, occurs k body = true -> (k < length srcs)%nat) ->
  (forall k j, (k < length srcs)%nat -> 0 <= j < n -> m (nth k srcs 0 + j) = Some (v k j) /\ in_ty t (v k j)) ->
  (forall x, dst <= x < dst + n -> m x <> None) ->
  (forall k, (k < length srcs)%nat -> same_or_apart 1 n (nth k srcs 0) dst) ->
  (forall j, 0 <= j < n -> element t (fun k => v k j) (j mod Z.of_nat len) body <> None) ->
  (forall j, 0 <= j < Z.of_nat len -> n mod Z.of_nat len <= j -> element t (fun _ => 0) j body <> None) ->
  exists m', simd_loop (cpu_m t len) d body srcs dst n m = Some m' /\
    (forall j, 0 <= j < n -> exists r, element t (fun k => v k j) (j mod Z.of_nat len) body = Some r /\ m' (dst + j) = Some r /\ in_ty t r) /\
    (forall x, x < dst \/ dst + n <= x -> m' x = m x).
Proof.
  intros Ht Hl Hn Hi Ho Hs Hd Ha He Hz.
  destruct (vector_loop_ok _ (mb_mem (cpu_m t len)) (fun env => veval (cpu t len) env body) (fun env i => element t env i body) d srcs (repv t len) (repl len) (fun m a x => m a = Some x /\ in_ty t x) (fun _ => True)) with
    (dst := dst) (n := n) (v := v) (m0 := m) as (m' & S & A & F); try assumption; cbn [mo_len mo_size mb_mem cpu_m].
  - lia.
  - lia.
  - apply (eval_vars (cpu_m t len) t (repv t len) d body srcs); [| | |exact Ho].
    + exists (repeat 0 len), (fun _ => 0). split; [apply repeat_length|]. intros i Hi'. split; [unfold celt; apply nth_repeat|apply in_ty_cast_0, Ht].
    + intros r f g (L & R) E. split; [exact L|]. intros i Hi'. rewrite <- (E i Hi'). exact (R i Hi').
    + intros env args ex E D. exact (cpu_eval t len Ht Hl env args ex E D).
  - intros m1 m2 a x E (H & I). split; [|exact I]. rewrite E by lia. exact H.
  - intros m1 a x (H & I) y Hy. replace y with a by lia. rewrite H. discriminate.
  - intros m1 a f _ H. destruct (C18_load (EI t) len m1 a) as (r & R & L & P).
    { intros i Hi'. destruct (H (Z.of_nat i) ltac:(lia)) as (Q & _). rewrite Z.mul_1_r in Q. rewrite Q. discriminate. }
    exists r. split; [exact R|]. split; [exact L|]. intros i Hi'. destruct (H i Hi') as (Q & I). split; [|exact I].
    specialize (P (Z.to_nat i) ltac:(lia)). rewrite Z2Nat.id in P by lia. rewrite Z.mul_1_r in Q. rewrite Q in P. cbn [bind lane_in] in P. injection P as P. symmetry. exact P.
  - intros m1 a r f _ (L & R) M. destruct (C18_store (EI t) len m1 a r L) as (m' & S & A & F).
    { intros i Hi'. apply (M (Z.of_nat i)); lia. }
    exists m'. split; [exact S|]. split.
    + intros i Hi'. rewrite Z.mul_1_r. destruct (R i Hi') as (Q & I). split; [|exact I]. specialize (A (Z.to_nat i) ltac:(lia)). rewrite Z2Nat.id in A by lia. rewrite A. cbn [lane_out]. f_equal. exact Q.
    + intros x Hx. apply F. intros i Hi'. lia.
  - intros i k Hik Hk1 Hk2. apply (body_l len Hl). intros j Hj. rewrite Z2Nat.id by lia. unfold carith. assert (in_ty i32 (i + j)) as X by (unfold in_ty; change (ty_min i32) with (- 2 ^ 31); change (ty_max i32) with (2 ^ 31 - 1); lia).
    unfold in_ty in X. change (is_signed i32) with true. cbv iota. replace ((ty_min i32 <=? i + j) && (i + j <=? ty_max i32)) with true by lia. cbn [bind]. destruct (i + j <? k); reflexivity.
  - intros l p m1 a f (Ll & P) H.
    assert (forall i, 0 <= i < Z.of_nat len -> active l (Z.to_nat i) = p i) as X. { intros i Hi'. unfold active. unfold celt in P. rewrite (P i Hi'). destruct (p i); reflexivity. }
    destruct (C18_maskz_load (EI t) len m1 l a Ll) as (r & R & L & Q).
    { intros i Hi' W. pose proof (X (Z.of_nat i) ltac:(lia)) as Y. rewrite Nat2Z.id, W in Y. destruct (H (Z.of_nat i) ltac:(lia) (eq_sym Y)) as (Q & _). rewrite Z.mul_1_r in Q. rewrite Q. discriminate. }
    exists r. split; [exact R|]. split; [exact L|]. intros i Hi'. specialize (Q (Z.to_nat i) ltac:(lia)). rewrite (X i Hi'), Z2Nat.id in Q by lia. specialize (H i Hi'). cbv beta in H. destruct (p i).
    + destruct (H eq_refl) as (W & I). split; [|exact I]. rewrite Z.mul_1_r in W. rewrite W in Q. cbn [bind lane_in] in Q. injection Q as Q. exact Q.
    + injection Q as Q. split; [exact Q|apply in_ty_cast_0, Ht].
  - intros l p m1 a r f (Ll & P) (L & R) M.
    assert (forall i, 0 <= i < Z.of_nat len -> active l (Z.to_nat i) = p i) as X. { intros i Hi'. unfold active. unfold celt in P. rewrite (P i Hi'). destruct (p i); reflexivity. }
    destruct (C18_mask_store (EI t) len m1 l a r Ll L) as (m' & S & A & F).
    { intros i Hi' W. pose proof (X (Z.of_nat i) ltac:(lia)) as Y. rewrite Nat2Z.id, W in Y. apply (M (Z.of_nat i) ltac:(lia) (eq_sym Y)). lia. }
    exists m'. split; [exact S|]. split.
    + intros i Hi' W. rewrite Z.mul_1_r. destruct (R i Hi') as (Q & I). split; [|exact I]. specialize (A (Z.to_nat i) ltac:(lia)). rewrite (X i Hi'), Z2Nat.id in A by lia. rewrite (A W). cbn [lane_out]. f_equal. exact Q.
    + intros x Hx. apply F. intros i Hi' W. pose proof (X (Z.of_nat i) ltac:(lia)) as Y. rewrite Nat2Z.id, W in Y. specialize (Hx (Z.of_nat i) ltac:(lia) (eq_sym Y)). lia.
  - intros k j Hk Hj. rewrite Z.mul_1_r. exact (Hs k j Hk Hj).
  - intros x Hx. apply Hd. lia.
  - auto.
  - auto.
  - cbn [mo_len mo_size mb_mem cpu_m] in A, F. exists m'. split; [exact S|]. split.
    + intros j Hj. destruct (A j Hj) as (r & E & Q & I). exists r. rewrite Z.mul_1_r in Q. auto.
    + intros x Hx. apply F. lia.
Qed.
