(** Model of GPU kernel launches: src/gpu.cpp, the thread indices computed by the
    kernels of tet1d.hpp, spmd.hpp and memory_management.hpp, and their execution
    under an arbitrary schedule.
    A grid is [blocks] blocks of [tpb] threads; the thread [t] of block [b] has
    number [b * tpb + t].  Simplification: nsimd_nat arithmetic is unbounded (item
    counts near 2^63 are not modelled); the 32-bit index arithmetic is modelled. *)
From Coq Require Import ZArith Bool List.
From Verif Require Import CInt ScalarOps CpuSimd.
Import ListNotations.
Open Scope Z_scope.

(** src/gpu.cpp:74-77 (CUDA/ROCm): (nb_items + block_size - 1) / block_size. *)
Definition kernel_param_cuda (nb_items block_size : Z) : Z := Z.quot (nb_items + block_size - 1) block_size.
(** src/gpu.cpp:62-65 (oneAPI): block_size * ((nb_items + block_size - 1) / block_size). *)
Definition kernel_param_oneapi (nb_items block_size : Z) : Z := block_size * Z.quot (nb_items + block_size - 1) block_size.
(** src/gpu.cpp:84-87 (CPU): nb_items / block_size. *)
Definition kernel_param_cpu (nb_items block_size : Z) : Z := Z.quot nb_items block_size.
(** egg/modules/spmd/hatch.py:31, egg/modules/tet1d/hatch.py:31 [gpu_params] of the
    generated tests: (n + tpb) / (tpb - 1) blocks. *)
Definition gpu_params (n tpb : Z) : Z := Z.quot (n + tpb) (tpb - 1).
(** memory_management.hpp:83, 134: (sz + 127) / 128 blocks of 128 threads. *)
Definition fill_blocks (sz : Z) : Z := Z.quot (sz + 127) 128.

(** Index and guard in the body of a kernel for thread number [g] (= b * tpb + t,
    or get_global_id for oneAPI):
    - KInt: tet1d.hpp:69, 81, 93, 106, 117 (and spmd.hpp:66, memory_management.hpp:77 for
      int n): the 32-bit unsigned threadIdx.x + blockIdx.x * blockDim.x (or the size_t
      global id) converted to int, guard [i < n];
    - KSize32: spmd.hpp:83 and memory_management.hpp:128 (ROCm): 32-bit unsigned, converted to size_t;
    - KSize: spmd.hpp:101, tet1d.hpp:131, memory_management.hpp:184 (oneAPI): size_t / nat. *)
Inductive index_kind := KInt | KSize32 | KSize.
Definition thread_index (k : index_kind) (g : Z) : Z :=
  match k with KInt => to_s 32 (to_u 32 g) | KSize32 => to_u 32 g | KSize => g end.
(** Global number of thread [t] of block [b], and the threads of a grid. *)
Definition threads (blocks tpb : Z) : list Z :=
  flat_map (fun b => map (fun t => Z.of_nat b * tpb + Z.of_nat t) (seq 0 (Z.to_nat tpb))) (seq 0 (Z.to_nat blocks)).
(** The indices for which the guarded body is executed, in block order. *)
Definition guarded_indices (k : index_kind) (n : Z) (l : list Z) : list Z :=
  filter (fun i => i <? n) (map (thread_index k) l).

(** *** Execution under an arbitrary schedule
    tet1d.hpp:66-77: [if (i < n) { dst[i] = expr.gpu_get(i); }].  Each thread first
    evaluates the guard and the expression on the current memory, later performs
    its store; a schedule is the list of the numbers of the threads that take a step.
    A thread that is done ignores further steps. *)
Inductive pc := Start | Computed (i v : Z) | Done.
Record gstate := GState { gmem : mem; pcs : Z -> pc }.
Definition set_pc (f : Z -> pc) (g : Z) (p : pc) : Z -> pc := fun x => if x =? g then p else f x.

(** [get m i] is expr.gpu_get(i); [guard m i] the extra mask condition
    (tet1d.hpp:78-85), [Some true] for the unmasked kernel. *)
Definition gstep (k : index_kind) (n dst : Z) (guard : mem -> Z -> option bool) (get : mem -> Z -> option Z) (s : gstate) (g : Z) : option gstate :=
  match pcs s g with
  | Done => Some s
  | Computed i v => bind (write (gmem s) (dst + i) v) (fun m => Some (GState m (set_pc (pcs s) g Done)))
  | Start =>
      let i := thread_index k g in
      if i <? n then
        bind (guard (gmem s) i) (fun c =>
          if (c : bool) then bind (get (gmem s) i) (fun v => Some (GState (gmem s) (set_pc (pcs s) g (Computed i v))))
          else Some (GState (gmem s) (set_pc (pcs s) g Done)))
      else Some (GState (gmem s) (set_pc (pcs s) g Done))
  end.
Fixpoint run_schedule (k : index_kind) (n dst : Z) (guard : mem -> Z -> option bool) (get : mem -> Z -> option Z) (s : gstate) (sched : list Z) : option gstate :=
  match sched with
  | [] => Some s
  | g :: l => bind (gstep k n dst guard get s g) (fun s' => run_schedule k n dst guard get s' l)
  end.
Definition start (m : mem) : gstate := GState m (fun _ => Start).
(** All the threads of a grid have finished. *)
Definition finished (l : list Z) (s : gstate) : Prop := Forall (fun g => pcs s g = Done) l.
