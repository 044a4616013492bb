(** C32: kernel launches cover the range, whatever the order of the threads. *)
From Coq Require Import ZArith Lia Bool List.
From Coq Require Import ZifyBool.
From Verif Require Import CInt ScalarOps CpuSimd Gpu GpuProofs.
Import ListNotations.
Open Scope Z_scope.

(** Number of threads the index arithmetic of a kernel can tell apart. *)
Definition max_threads (k : index_kind) (total : Z) : Prop :=
  match k with KInt => total <= 2 ^ 31 | KSize32 => total <= 2 ^ 32 | KSize => True end.
Definition upto (n : Z) : list Z := map Z.of_nat (seq 0 (Z.to_nat n)).

(** C32. The guarded indices are 0, 1, .., n-1, each once; fewer than b threads idle. *)
Theorem C32_cuda_rocm : forall k n b, 0 <= n -> 1 <= b -> max_threads k (n + b - 1) ->
  let blocks := kernel_param_cuda n b in
  guarded_indices k n (threads blocks b) = upto n /\ n <= blocks * b <= n + b - 1.
Proof.
  intros k n b Hn Hb Hl blocks. pose proof (ceil_bounds n b Hn Hb). unfold blocks, kernel_param_cuda. rewrite quot_ceil by lia.
  split; [|lia]. apply guarded_all; try lia.
  destruct k; cbn [max_threads index_limit] in *; lia.
Qed.
Print Assumptions C32_cuda_rocm.
(** oneAPI takes the total number of threads, which must be a multiple of b. *)
Theorem C32_oneapi : forall k n b, 0 <= n -> 1 <= b -> max_threads k (n + b - 1) ->
  let total := kernel_param_oneapi n b in
  total mod b = 0 /\ guarded_indices k n (threads (total / b) b) = upto n /\ n <= total <= n + b - 1.
Proof.
  intros k n b Hn Hb Hl total. pose proof (ceil_bounds n b Hn Hb). unfold total, kernel_param_oneapi. rewrite quot_ceil by lia.
  rewrite (Z.mul_comm b), Z.mod_mul, Z.div_mul by lia. split; [reflexivity|]. split; [|lia]. apply guarded_all; try lia.
  destruct k; cbn [max_threads index_limit] in *; lia.
Qed.
Print Assumptions C32_oneapi.
(** The launches of fill functions and of the generated tests also cover [0, n). *)
Theorem C32_fill_and_tests : forall k n, 0 <= n ->
  (max_threads k (n + 127) -> guarded_indices k n (threads (fill_blocks n) 128) = upto n) /\
  (forall tpb, 2 <= tpb -> max_threads k (gpu_params n tpb * tpb) -> guarded_indices k n (threads (gpu_params n tpb) tpb) = upto n).
Proof.
  intros k n Hn. split.
  - intros Hl. destruct (C32_cuda_rocm k n 128) as [H _]; [lia|lia|destruct k; cbn [max_threads] in *; lia|].
    unfold kernel_param_cuda in H. replace (n + 128 - 1) with (n + 127) in H by lia. exact H.
  - intros tpb Ht Hl. pose proof (gpu_params_bounds n tpb Hn Ht). apply guarded_all; [nia|lia|lia|exact Hl].
Qed.
Print Assumptions C32_fill_and_tests.

(** Whatever the order in which the threads of the grid take their steps, no step
    is undefined, nothing outside dst[0..n-1] changes, and once all threads are
    done each dst[i] holds the value computed for i (or is unchanged where the
    mask is false). *)
Theorem C32_any_schedule : forall k n dst guard get blocks b (m : mem) sched,
  0 <= n -> 1 <= b -> blocks = kernel_param_cuda n b -> max_threads k (blocks * b) ->
  (forall i, 0 <= i < n -> m (dst + i) <> None) ->
  (forall i m', 0 <= i < n -> (forall x, (x = dst + i \/ x < dst \/ dst + n <= x) -> m' x = m x) ->
     guard m' i = guard m i /\ get m' i = get m i) ->
  (forall i, 0 <= i < n -> exists c, guard m i = Some c /\ (c = true -> get m i <> None)) ->
  Forall (fun g => In g (threads blocks b)) sched ->
  exists s, run_schedule k n dst guard get (start m) sched = Some s /\
    (forall x, (x < dst \/ dst + n <= x) -> gmem s x = m x) /\
    (finished (threads blocks b) s -> forall i, 0 <= i < n ->
       gmem s (dst + i) = match guard m i with Some true => get m i | _ => m (dst + i) end) /\
    ((forall g, In g (threads blocks b) -> (2 <= count_occ Z.eq_dec sched g)%nat) -> finished (threads blocks b) s).
Proof.
  intros k n dst guard get blocks b m sched Hn Hb Hbl Hl Hm Hloc Hdef Hf.
  pose proof (ceil_bounds n b Hn Hb) as Hc. unfold kernel_param_cuda in Hbl. rewrite quot_ceil in Hbl by lia.
  assert (Hb0 : 0 <= blocks) by (subst; apply Z.div_pos; lia). rewrite <- Hbl in Hc.
  destruct (run_inv k n dst guard get (blocks * b) m Hl Hloc Hdef sched (start m)) as (s & E & I1 & I2 & I3 & I4).
  - apply inv_start; assumption.
  - rewrite Forall_forall in *. intros g Hg. apply in_threads; [lia..|]. auto.
  - exists s. split; [exact E|]. split; [exact I1|]. split.
    + intros Hfin i Hi. specialize (I3 i ltac:(lia) ltac:(lia)). unfold finished in Hfin. rewrite Forall_forall in Hfin.
      rewrite Hfin in I3; [exact I3|]. apply in_threads; lia.
    + intros Hcnt. eapply run_finished; eauto.
Qed.
Print Assumptions C32_any_schedule.
(** Two threads per block, three elements, an interleaved schedule. *)
Example C32_ex :
  let m := fun x => if (0 <=? x) && (x <? 6) then Some (x * 10) else None in
  let get := fun (m : mem) i => bind (m i) (fun v => Some (v + 1)) in
  option_map (fun s => map (gmem s) [0; 1; 2; 3; 4; 5]) (run_schedule KInt 3 3 (fun _ _ => Some true) get (start m) [3; 1; 0; 1; 2; 0; 2; 3]) =
    Some [Some 0; Some 10; Some 20; Some 1; Some 11; Some 21] /\ threads (kernel_param_cuda 3 2) 2 = [0; 1; 2; 3].
Proof. vm_compute. auto. Qed.

(** Beyond 2^31 items the int index of the tet1d kernels wraps: the guard of the
    thread 2^31 accepts the index -2^31. *)
Theorem C32_refuted : let n := 2 ^ 31 + 1 in let b := 128 in
  0 <= 2 ^ 31 < kernel_param_cuda n b * b /\ thread_index KInt (2 ^ 31) = - 2 ^ 31 /\ (thread_index KInt (2 ^ 31) <? n) = true.
Proof. vm_compute. intuition congruence. Qed.
Print Assumptions C32_refuted.
