(** Model of the TET1D module (include/nsimd/modules/tet1d.hpp and the nodes
    generated by egg/modules/tet1d/hatch.py:665-838) on the CPU backend, for any
    register length [len] and unroll factor [N], and of its GPU kernels.
    Arrays live in one memory of elements of type [t]; a pointer is an element index.
    Simplifications: one element type per expression (the nodes that change the
    type, cvt and reinterpret, are not modelled); nsimd_nat is unbounded; f16 is
    excluded (its lanes are f32, its scalars are not); asserts are enabled (a
    failed assert is [None]). *)
From Coq Require Import ZArith Bool List.
From Verif Require Import CInt ScalarOps CpuSimd Pack Gpu.
Import ListNotations.
Open Scope Z_scope.

(** Nodes.  An operator is given by its function on scalars (nsimd::scalar_<op>);
    its SIMD version applies the same function to each lane (C16, C24). *)
Inductive expr :=
| EScal (v : Z)                                          (* tet1d.hpp:222-240 scalar_t *)
| EIn (data sz : Z)                                      (* tet1d.hpp:284-316 in_t *)
| EUn (g : Z -> option Z) (e : expr)
| EShift (g : Z -> Z -> option Z) (e : expr) (s : Z)     (* shl, shr, shra *)
| EBin (g : Z -> Z -> option Z) (l r : expr)
| ETer (g : Z -> Z -> Z -> option Z) (l r x : expr).

Inductive bop := Band | Bor | Bxor | Bandnot.
Inductive bexpr :=
| BTest (g : Z -> bool) (e : expr)                       (* to_logical *)
| BCmp (g : Z -> Z -> bool) (l r : expr)                 (* eq, ne, lt, le, gt, ge *)
| BBin (o : bop) (l r : bexpr)                           (* andl, orl, xorl, andnotl *)
| BNot (e : bexpr).                                      (* notl *)

(** Scalar versions of the logical operators: egg/scalar.py:466-470. *)
Definition scalar_bop (o : bop) (x y : bool) : bool :=
  match o with Band => x && y | Bor => x || y | Bxor => xorb x y | Bandnot => x && negb y end.
(** Lane versions: CpuSimd.v [andl], [orl], [xorl], [andnotl], [notl]. *)
Definition lane_bop (o : bop) (x y : Z) : option Z :=
  match o with
  | Band => Some (Z.land x y) | Bor => Some (Z.lor x y) | Bxor => Some (Z.lxor x y)
  | Bandnot => Some (Z.land x (cast u32 (Z.lnot y)))
  end.
Definition lane_not (x : Z) : option Z := Some (cast u32 (Z.lnot x)).

(** hatch.py:737-739, 766-768: [scalar_get] (and [gpu_get], 741-743). *)
Fixpoint scalar_get (m : mem) (e : expr) (i : Z) : option Z :=
  match e with
  | EScal v => Some v
  | EIn data _ => read m (data + i)
  | EUn g e => bind (scalar_get m e i) g
  | EShift g e s => bind (scalar_get m e i) (fun x => g x s)
  | EBin g l r => bind2 (scalar_get m l i) (scalar_get m r i) g
  | ETer g l r x => bind (scalar_get m l i) (fun a => bind2 (scalar_get m r i) (scalar_get m x i) (g a))
  end.
Fixpoint scalar_getb (m : mem) (e : bexpr) (i : Z) : option bool :=
  match e with
  | BTest g e => bind (scalar_get m e i) (fun x => Some (g x))
  | BCmp g l r => bind2 (scalar_get m l i) (scalar_get m r i) (fun x y => Some (g x y))
  | BBin o l r => bind2 (scalar_getb m l i) (scalar_getb m r i) (fun x y => Some (scalar_bop o x y))
  | BNot e => bind (scalar_getb m e i) (fun x => Some (negb x))
  end.

Section Cpu.
Variables (t : ety) (len N : nat).

(** hatch.py:745-748, 769-772: [simd_get<Pack>]; tet1d.hpp:234-238, 297-301 for leaves. *)
Fixpoint simd_get (m : mem) (e : expr) (i : Z) : option pack :=
  match e with
  | EScal v => pk_set1 t len N v
  | EIn data _ => pk_load t len N m (data + i)
  | EUn g e => bind (simd_get m e i) (pk_un len N g)
  | EShift g e s => bind (simd_get m e i) (fun a => pk_shift len N g a s)
  | EBin g l r => bind2 (simd_get m l i) (simd_get m r i) (pk_bin len N g)
  | ETer g l r x => bind (simd_get m l i) (fun a => bind2 (simd_get m r i) (simd_get m x i) (pk_ter len N g a))
  end.
Fixpoint simd_getb (m : mem) (e : bexpr) (i : Z) : option pack :=
  match e with
  | BTest g e => bind (simd_get m e i) (pk_un len N (fun x => Some (lbool (g x))))
  | BCmp g l r => bind2 (simd_get m l i) (simd_get m r i) (pk_bin len N (fun x y => Some (lbool (g x y))))
  | BBin o l r => bind2 (simd_getb m l i) (simd_getb m r i) (pk_bin len N (lane_bop o))
  | BNot e => bind (simd_getb m e i) (pk_un len N lane_not)
  end.

Definition L : Z := pk_len len N.

(** tet1d.hpp:137-147 [cpu_kernel_component_wise]: the two loops; [fuel] bounds the
    number of iterations ([None] when it is exhausted). *)
Fixpoint cw_simd (fuel : nat) (m : mem) (dst : Z) (e : expr) (i n : Z) : option (mem * Z) :=
  match fuel with
  | O => None
  | S f => if i + L <? n then
             bind (simd_get m e i) (fun p => bind (pk_store t len N m (dst + i) p) (fun m' => cw_simd f m' dst e (i + L) n))
           else Some (m, i)
  end.
Fixpoint cw_scalar (fuel : nat) (m : mem) (dst : Z) (e : expr) (i n : Z) : option mem :=
  match fuel with
  | O => None
  | S f => if i <? n then
             bind (scalar_get m e i) (fun v => bind (write m (dst + i) v) (fun m' => cw_scalar f m' dst e (i + 1) n))
           else Some m
  end.
Definition cpu_kernel (m : mem) (dst : Z) (e : expr) (n : Z) : option mem :=
  let fuel := S (Z.to_nat n) in
  bind (cw_simd fuel m dst e 0 n) (fun r => cw_scalar fuel (fst r) dst e (snd r) n).

(** tet1d.hpp:150-165 [cpu_kernel_component_wise_mask]. *)
Fixpoint cwm_simd (fuel : nat) (m : mem) (dst : Z) (k : bexpr) (e : expr) (i n : Z) : option (mem * Z) :=
  match fuel with
  | O => None
  | S f => if i + L <? n then
             bind (simd_getb m k i) (fun c => bind (simd_get m e i) (fun p => bind (pk_load t len N m (dst + i)) (fun o =>
             bind (pk_if_else len c p o) (fun r => bind (pk_store t len N m (dst + i) r) (fun m' => cwm_simd f m' dst k e (i + L) n)))))
           else Some (m, i)
  end.
Fixpoint cwm_scalar (fuel : nat) (m : mem) (dst : Z) (k : bexpr) (e : expr) (i n : Z) : option mem :=
  match fuel with
  | O => None
  | S f => if i <? n then
             bind (scalar_getb m k i) (fun c =>
               if (c : bool) then bind (scalar_get m e i) (fun v => bind (write m (dst + i) v) (fun m' => cwm_scalar f m' dst k e (i + 1) n))
               else cwm_scalar f m dst k e (i + 1) n)
           else Some m
  end.
Definition cpu_kernel_mask (m : mem) (dst : Z) (k : bexpr) (e : expr) (n : Z) : option mem :=
  let fuel := S (Z.to_nat n) in
  bind (cwm_simd fuel m dst k e 0 n) (fun r => cwm_scalar fuel (fst r) dst k e (snd r) n).
End Cpu.

(** tet1d.hpp:172-184 [compute_size]. *)
Definition compute_size (sz1 sz2 : Z) : option Z :=
  if negb ((0 <=? sz1) || (0 <=? sz2)) then None
  else if negb (((sz1 <? 0) && (0 <=? sz2)) || ((0 <=? sz1) && (sz2 <? 0)) || (sz1 =? sz2)) then None
  else Some (if sz1 <? 0 then sz2 else sz1).
Definition compute_size3 (sz1 sz2 sz3 : Z) : option Z := bind (compute_size sz1 sz2) (fun s => compute_size s sz3).

(** hatch.py:679-714 [size()]. *)
Fixpoint size (e : expr) : option Z :=
  match e with
  | EScal _ => Some (-1)
  | EIn _ sz => Some sz
  | EUn _ e => size e
  | EShift _ e _ => size e
  | EBin _ l r => bind2 (size l) (size r) compute_size
  | ETer _ l r x => bind (size l) (fun a => bind2 (size r) (size x) (compute_size3 a))
  end.
Fixpoint sizeb (e : bexpr) : option Z :=
  match e with
  | BTest _ e => size e
  | BCmp _ l r => bind2 (size l) (size r) compute_size
  | BBin _ l r => bind2 (sizeb l) (sizeb r) compute_size
  | BNot e => sizeb e
  end.

(** tet1d.hpp:305-316: slice [operator()(i0, i1)] of an input node. *)
Definition slice (data sz i0_ i1_ : Z) : option expr :=
  let i0 := if 0 <=? i0_ then i0_ else sz + i0_ in
  let i1 := if 0 <=? i1_ then i1_ else sz + i1_ in
  if (0 <=? i0) && (i0 <? i1) && (i1 <? sz) then Some (EIn (data + i0) (i1 - i0 + 1)) else None.

(** tet1d.hpp:413-450: [out = expr] on CPU. *)
Definition assign (t : ety) (len N : nat) (m : mem) (dst : Z) (e : expr) : option mem :=
  bind (size e) (fun n => cpu_kernel t len N m dst e n).
(** tet1d.hpp:343-379: [out(mask) = expr] on CPU. *)
Definition assign_mask (t : ety) (len N : nat) (m : mem) (dst : Z) (k : bexpr) (e : expr) : option mem :=
  bind2 (sizeb k) (size e) (fun sk se => bind (compute_size sk se) (fun n => cpu_kernel_mask t len N m dst k e n)).

(** tet1d.hpp:66-133, 343-450: on GPUs one thread per element, any schedule; the
    thread's body is that of Gpu.v with [gpu_get].  Simplification: a GPU operator
    nsimd::gpu_<op> is taken to be the scalar one; threads_per_block = [b]. *)
Definition gpu_assign (k : index_kind) (b : Z) (m : mem) (dst : Z) (e : expr) (sched : list Z) : option gstate :=
  bind (size e) (fun n => run_schedule k n dst (fun _ _ => Some true) (fun m i => scalar_get m e i) (start m) sched).
Definition gpu_assign_mask (k : index_kind) (b : Z) (m : mem) (dst : Z) (c : bexpr) (e : expr) (sched : list Z) : option gstate :=
  bind2 (sizeb c) (size e) (fun sk se => bind (compute_size sk se) (fun n =>
    run_schedule k n dst (fun m i => scalar_getb m c i) (fun m i => scalar_get m e i) (start m) sched)).
