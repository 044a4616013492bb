(** Properties C24-C28: unrolled packs (egg/gen_adv_cxx_api.py and
    include/nsimd/cxx_adv_api.hpp) over the CPU backend, any unroll factor N. *)
From Coq Require Import ZArith Lia Bool List.
From Verif Require Import CInt ScalarOps CpuSimd CpuSimdSpec CpuSimdProofs CpuSimdMem Pack PackSpec PackProofs PackProofs2.
Import ListNotations.
Open Scope Z_scope.

(** C24. Each operator on a pack<T,N> is the operator on ONE vector of N*len lanes
    (whose meaning is given lane by lane by C16-C18). *)
Theorem C24_lanewise : forall t len N a b c s x,
  (1 <= N)%nat -> shape N len a -> shape N len b -> shape N len c ->
  (forall g, one_vec len N (pk_un len N g a) (scalar_impl1 (N * len) g (flat a))) /\
  (forall g, one_vec len N (pk_bin len N g a b) (scalar_impl2 (N * len) g (flat a) (flat b))) /\
  (forall g, one_vec len N (pk_ter len N g a b c) (scalar_impl3 (N * len) g (flat a) (flat b) (flat c))) /\
  (forall g, one_vec len N (pk_shift len N g a s) (scalar_impl_shift (N * len) g (flat a) s)) /\
  one_vec len N (pk_set1 t len N x) (set1 t (N * len) x) /\
  one_vec len N (pk_if_else len a b c) (if_else1 (N * len) (flat a) (flat b) (flat c)).
Proof.
  intros t len N a b c s x HN Sa Sb Sc.
  split; [intros; apply pk_un_ok; assumption|]. split; [intros; apply pk_bin_ok; assumption|]. split; [intros; apply pk_ter_ok; assumption|].
  split; [intros; apply pk_shift_ok; assumption|]. split; [apply pk_set1_ok; assumption|apply pk_if_else_ok; assumption].
Qed.
Print Assumptions C24_lanewise.
(** +=, -=, ... agree with the binary operators. *)
Theorem C24_compound_assignment : forall len N g a b, (1 <= N)%nat -> shape N len a -> shape N len b ->
  pk_assign len g a b = pk_bin len N g a b.
Proof. intros. apply pk_assign_eq; assumption. Qed.
Print Assumptions C24_compound_assignment.
(** Reductions over all the lanes. *)
Theorem C24_reductions : forall len N a, shape N len a -> canonical (flat a) ->
  (exists r, pk_all len a = Some r /\ (r <> 0 <-> forallb truth (flat a) = true)) /\
  (exists r, pk_any len a = Some r /\ (r <> 0 <-> existsb truth (flat a) = true)) /\
  pk_nbtrue len a = Some (count_true (map truth (flat a))).
Proof. intros len N a S C. split; [eapply pk_all_ok; eassumption|split; [eapply pk_any_ok; eassumption|eapply pk_nbtrue_ok; eassumption]]. Qed.
Print Assumptions C24_reductions.
(** Loads and stores, masked or not, cover N*len consecutive elements. *)
Theorem C24_loads : forall t len N m p l o, (1 <= N)%nat -> shape N len l -> shape N len o ->
  one_vec len N (pk_load t len N m p) (load t (N * len) m p) /\
  one_vec len N (pk_loadl t len N m p) (loadl t (N * len) m p) /\
  one_vec len N (pk_maskz_load t len N m l p) (maskz_load t (N * len) m (flat l) p) /\
  one_vec len N (pk_masko_load t len N m l p o) (masko_load t (N * len) m (flat l) p (flat o)).
Proof.
  intros t len N m p l o HN Sl So. split; [apply pk_load_ok; assumption|]. split; [apply pk_loadl_ok; assumption|].
  split; [apply pk_maskz_load_ok; assumption|apply pk_masko_load_ok; assumption].
Qed.
Print Assumptions C24_loads.
Theorem C24_stores : forall t len N m p l a, (1 <= N)%nat -> shape N len l -> shape N len a ->
  pk_store t len N m p a = store t (N * len) m p (flat a) /\
  pk_storel t len N m p a = storel t (N * len) m p (flat a) /\
  pk_mask_store t len N m l p a = mask_store t (N * len) m (flat l) p (flat a).
Proof.
  intros t len N m p l a HN Sl Sa. split; [apply pk_store_ok; assumption|]. split; [apply pk_storel_ok; assumption|apply pk_mask_store_ok; assumption].
Qed.
Print Assumptions C24_stores.
(** len of a pack is its number of lanes. *)
Theorem C24_len : forall len N a, shape N len a -> pk_len len N = Z.of_nat (length (flat a)).
Proof. intros len N a S. rewrite (flat_length _ _ _ S). unfold pk_len. lia. Qed.
Print Assumptions C24_len.

Definition pk3 (a b c : reg) : pack := PN a (PN b (P1 c)).
Definition pmem : mem := fun x => if (0 <=? x) && (x <? 24) then Some (x + 100) else None.
Example C24_ex : shape 3 2 (pk3 [1; 2] [3; 4] [5; 6]) /\
  pk_bin 2 3 (s_add i32) (pk3 [1; 2] [3; 4] [5; 6]) (pk3 [10; 20] [30; 40] [50; 60]) = Some (pk3 [11; 22] [33; 44] [55; 66]) /\
  pk_load (EI i32) 2 3 pmem 1 = Some (pk3 [101; 102] [103; 104] [105; 106]) /\
  option_map (fun m => map m [0; 1; 2; 3; 4; 5; 6]) (pk_mask_store (EI i32) 2 3 pmem (pk3 [0; 1] [1; 0] [0; 1]) 1 (pk3 [1; 2] [3; 4] [5; 6]))
   = Some [Some 100; Some 101; Some 2; Some 3; Some 104; Some 105; Some 6].
Proof. split; [split; [reflexivity|repeat constructor]|]. vm_compute. auto. Qed.

(** C25. *)
Theorem C25_load_deg : forall t len deg m N p, (1 <= deg)%nat -> (1 <= N)%nat ->
  (forall k, (k < deg * (N * len))%nat -> bind (m (p + Z.of_nat k)) (lane_in t) <> None) ->
  exists packs, pk_load_deg t len N deg m p = Some packs /\ length packs = deg /\
    forall j, (j < deg)%nat -> shape N len (nth j packs (P1 [])) /\
      forall i, (i < N * len)%nat -> Some (nth i (flat (nth j packs (P1 []))) 0) = bind (m (p + Z.of_nat (deg * i + j))) (lane_in t).
Proof. intros t len deg m N p Hd HN D. apply pk_load_deg_ok; assumption. Qed.
Print Assumptions C25_load_deg.
Theorem C25_store_deg : forall t len deg m N p packs, (1 <= N)%nat -> length packs = deg -> Forall (shape N len) packs -> (0 < deg)%nat ->
  mapped m p (deg * (N * len)) ->
  exists m', pk_store_deg t len N deg m p packs = Some m' /\
    (forall i j, (i < N * len)%nat -> (j < deg)%nat -> m' (p + Z.of_nat (deg * i + j)) = Some (lane_out t (nth i (flat (nth j packs (P1 []))) 0))) /\
    (forall x, in_range p x (deg * (N * len)) = false -> m' x = m x).
Proof.
  intros t len deg m N p packs HN Ld Sp Hd M. rewrite pk_store_deg_ok by assumption.
  assert (NF : forall j, (j < deg)%nat -> nth j (map flat packs) [] = flat (nth j packs (P1 []))).
  { intros j Hj. change [] with (flat (P1 [])) at 1. apply map_nth. }
  destruct (store_deg_ok t deg (N * len) m p (map flat packs)) as (m' & E & W1 & W2); try assumption.
  - rewrite map_length. exact Ld.
  - intros j Hj. rewrite NF by exact Hj. apply flat_length. rewrite Forall_forall in Sp. apply Sp. apply nth_In. lia.
  - exists m'. split; [exact E|]. split; [|exact W2]. intros i j Hi Hj. rewrite (W1 i j Hi Hj). unfold lane_at. rewrite NF by exact Hj. reflexivity.
Qed.
Print Assumptions C25_store_deg.
Example C25_ex : pk_load_deg (EI i32) 2 2 3 pmem 0 =
  Some [PN [100; 103] (P1 [106; 109]); PN [101; 104] (P1 [107; 110]); PN [102; 105] (P1 [108; 111])].
Proof. vm_compute. reflexivity. Qed.

(** C26. What gather and scatter do on packs: the base pointer is advanced by len at
    each register although indices (and steps) are relative to the base. *)
Theorem C26_gather : forall t len N m p idx step, (1 <= len)%nat -> (1 <= N)%nat -> shape N len idx ->
  one_vec len N (pk_gather t len N m p idx)
    (func_body (N * len) (fun i => bind (lane (flat idx) i) (fun k => bind (read m (p + Z.of_nat (i / len * len) + k)) (lane_in t)))) /\
  one_vec len N (pk_gather_linear t len N m p step)
    (func_body (N * len) (fun i => bind (read m (p + Z.of_nat (i / len * len) + Z.of_nat (i mod len) * step)) (lane_in t))).
Proof. intros. split; [apply pk_gather_real; assumption|apply pk_gather_linear_real; assumption]. Qed.
Print Assumptions C26_gather.
Theorem C26_scatter : forall t len N m p idx step a, (1 <= len)%nat -> (1 <= N)%nat -> shape N len idx -> shape N len a ->
  pk_scatter t len N m p idx a =
    run_writes m (map (fun i => (p + Z.of_nat (i / len * len) + nth i (flat idx) 0, bind (lane (flat a) i) (fun x => Some (lane_out t x)))) (seq 0 (N * len))) /\
  pk_scatter_linear t len N m p step a =
    run_writes m (map (fun i => (p + Z.of_nat (i / len * len) + Z.of_nat (i mod len) * step, bind (lane (flat a) i) (fun x => Some (lane_out t x)))) (seq 0 (N * len))).
Proof. intros. split; [apply pk_scatter_real; assumption|apply pk_scatter_linear_real; assumption]. Qed.
Print Assumptions C26_scatter.
(** On one register this is the documented meaning... *)
Theorem C26_one_register : forall t len m p idx step a,
  pk_gather t len 1 m p (P1 idx) = option_map P1 (gather t len m p idx) /\
  pk_gather_linear t len 1 m p step = option_map P1 (gather_linear t len m p step) /\
  pk_scatter t len 1 m p (P1 idx) (P1 a) = scatter t len m p idx a /\
  pk_scatter_linear t len 1 m p step (P1 a) = scatter_linear t len m p step a.
Proof.
  intros. unfold pk_gather, pk_gather_linear. cbn [adv_v map var1 pcar].
  split; [destruct (gather _ _ _ _ _); reflexivity|]. split; [destruct (gather_linear _ _ _ _ _); reflexivity|]. split; reflexivity.
Qed.
Print Assumptions C26_one_register.
(** ... but not on two. *)
Theorem C26_unrolled_refuted :
  pk_gather (EI i32) 2 2 pmem 0 (PN [0; 1] (P1 [2; 3])) = Some (PN [100; 101] (P1 [104; 105])) /\
  gather (EI i32) 4 pmem 0 [0; 1; 2; 3] = Some [100; 101; 102; 103] /\
  pk_gather_linear (EI i32) 2 2 pmem 0 3 = Some (PN [100; 103] (P1 [102; 105])) /\
  gather_linear (EI i32) 4 pmem 0 3 = Some [100; 103; 106; 109].
Proof. vm_compute. auto. Qed.
Print Assumptions C26_unrolled_refuted.

(** C27. iota and mask_for_loop_tail repeat the first register. *)
Theorem C27_iota_and_tail : forall len N ti i0 n, (1 <= len)%nat -> (1 <= N)%nat ->
  one_vec len N (pk_iota len N ti) (func_body (N * len) (fun i => Some (cast ti (Z.of_nat (i mod len))))) /\
  one_vec len N (pk_mask_for_loop_tail len N i0 n)
    (func_body (N * len) (fun i => bind (carith i32 (i0 + Z.of_nat (i mod len))) (fun s => Some (if s <? n then ltrue else lfalse)))).
Proof. intros. split; [apply pk_iota_real; assumption|apply pk_tail_real; assumption]. Qed.
Print Assumptions C27_iota_and_tail.
Theorem C27_one_register : forall len ti i0 n,
  pk_iota len 1 ti = option_map P1 (iota ti len) /\
  pk_mask_for_loop_tail len 1 i0 n = option_map P1 (mask_for_loop_tail len i0 n).
Proof. intros. split; [unfold pk_iota|unfold pk_mask_for_loop_tail]; cbn [adv_v map var1]; [destruct (iota ti len)|destruct (mask_for_loop_tail len i0 n)]; reflexivity. Qed.
Print Assumptions C27_one_register.
Theorem C27_unrolled_refuted :
  pk_iota 4 2 i32 = Some (PN [0; 1; 2; 3] (P1 [0; 1; 2; 3])) /\
  pk_mask_for_loop_tail 4 2 0 3 = Some (PN [ltrue; ltrue; ltrue; lfalse] (P1 [ltrue; ltrue; ltrue; lfalse])).
Proof. vm_compute. auto. Qed.
Print Assumptions C27_unrolled_refuted.

(** C28. *)
Theorem C28_to_pack : forall N packx, (1 <= N)%nat -> packx <> [] -> Forall (fun p => length (registers p) = N) packx ->
  exists r, to_pack N packx = Some r /\ registers r = concat (map registers packx).
Proof. exact to_pack_ok. Qed.
Print Assumptions C28_to_pack.
(** Register j of pack k becomes register j*K+k, where K is the number of packs. *)
Theorem C28_to_pack_interleave : forall N packx, (1 <= N)%nat -> packx <> [] -> Forall (fun p => length (registers p) = N) packx ->
  exists r, to_pack_interleave N packx = Some r /\ length (registers r) = (length packx * N)%nat /\
    forall j k, (j < N)%nat -> (k < length packx)%nat ->
      nth_error (registers r) (j * length packx + k) = nth_error (registers (nth k packx (P1 []))) j.
Proof. exact to_pack_interleave_ok. Qed.
Print Assumptions C28_to_pack_interleave.
Example C28_ex : option_map registers (to_pack 2 [PN [1] (P1 [2]); PN [3] (P1 [4]); PN [5] (P1 [6])]) = Some [[1]; [2]; [3]; [4]; [5]; [6]] /\
  option_map registers (to_pack_interleave 2 [PN [1] (P1 [2]); PN [3] (P1 [4]); PN [5] (P1 [6])]) = Some [[1]; [3]; [5]; [2]; [4]; [6]].
Proof. vm_compute. auto. Qed.
