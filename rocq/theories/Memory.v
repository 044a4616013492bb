(** Model of the allocation interface: src/memory.cpp, the allocators of
    include/nsimd/nsimd.h and include/nsimd/modules/memory_management.hpp.

    The C library / GPU runtime is an oracle that, given the live blocks, an
    alignment and a size in bytes, returns an address or fails; MemorySpec.v says
    what POSIX promises about it.  [W] is NSIMD_WORD_SIZE: 32 or 64
    (nsimd.h:1000-1004), the width of [nsimd_nat] and [size_t].
    A live block is (address, contents); an indeterminate byte is [None].
    [None] as result of a call is undefined behaviour. *)
From Coq Require Import ZArith Bool List.
From Verif Require Import CInt ScalarOps.
Import ListNotations.
Open Scope Z_scope.

Definition byte := option Z.
Record block := Block { addr : Z; contents : list byte }.
Definition heap := list block.
Definition oracle := heap -> Z -> Z -> option Z.

Definition bytes_of (b : block) : Z := Z.of_nat (length (contents b)).
(** The null pointer. *)
Definition null : Z := 0.
Definition fresh_bytes (n : Z) : list byte := repeat None (Z.to_nat n).
Definition zero_bytes (n : Z) : list byte := repeat (Some 0) (Z.to_nat n).

(** A call to the underlying allocator: the address (or null) and the new heap. *)
Definition sys_alloc (os : oracle) (init : Z -> list byte) (h : heap) (align n : Z) : Z * heap :=
  match os h align n with
  | None => (null, h)
  | Some p => (p, Block p (init n) :: h)
  end.

Definition is_block (p : Z) (b : block) : bool := addr b =? p.
(** [free]: null is ignored, anything that is not a live block is undefined. *)
Definition sys_free (h : heap) (p : Z) : option heap :=
  if p =? null then Some h
  else if existsb (is_block p) h then Some (filter (fun b => negb (is_block p b)) h)
  else None.

(** nsimd.h:1332-1340 NSIMD_MAX_ALIGNMENT. *)
Inductive platform := X86 | ARM | POWERPC | OTHER.
Definition max_alignment (pl : platform) : Z :=
  match pl with X86 => 64 | ARM => 256 | POWERPC => 64 | OTHER => 16 end.

(** src/memory.cpp:43-55 (POSIX branch): posix_memalign(&ptr, NSIMD_MAX_ALIGNMENT,
    (size_t)n); the MSVC branch is not modelled. *)
Definition nsimd_aligned_alloc (W : Z) (pl : platform) (os : oracle) (h : heap) (n : Z) : Z * heap :=
  sys_alloc os fresh_bytes h (max_alignment pl) (to_u W n).
(** src/memory.cpp:59-65. *)
Definition nsimd_aligned_free (h : heap) (p : Z) : option heap := sys_free h p.

(** How the compiler treats overflow of the signed type nsimd_nat: undefined
    (the standard) or wrapping (-fwrapv). *)
Inductive overflow := Undefined | Wrapping.
Definition nat_mul (o : overflow) (W a b : Z) : option Z :=
  match o with
  | Undefined => carith (Ity true W) (a * b)
  | Wrapping => Some (to_s W (a * b))
  end.

(** nsimd.h:1451-1453 [aligned_alloc_for<T>(n)]: aligned_alloc(n * (nsimd_nat)sizeof(T)). *)
Definition aligned_alloc_for (o : overflow) (W : Z) (pl : platform) (os : oracle) (h : heap) (sizeof n : Z) : option (Z * heap) :=
  bind (nat_mul o W n (to_s W sizeof)) (fun m => Some (nsimd_aligned_alloc W pl os h m)).
(** nsimd.h:1455-1457 [aligned_free_for<T>]. *)
Definition aligned_free_for (h : heap) (p : Z) : option heap := nsimd_aligned_free h p.

(** nsimd.h:1490-1492 C++98 [allocator<T>::allocate]. *)
Definition allocate98 (o : overflow) (W : Z) (pl : platform) (os : oracle) (h : heap) (sizeof n : Z) : option (Z * heap) :=
  aligned_alloc_for o W pl os h sizeof (to_s W n).

(** Result of the C++11 allocator. *)
Inductive result := Threw | Returned (p : Z).
(** nsimd.h:1525-1534 C++11 [allocator<T>::allocate]. *)
Definition allocate11 (o : overflow) (W : Z) (pl : platform) (os : oracle) (h : heap) (sizeof n : Z) : option (result * heap) :=
  if (2 ^ W - 1) / sizeof <? n then Some (Threw, h)
  else bind (aligned_alloc_for o W pl os h sizeof (to_s W n)) (fun r =>
    if negb (fst r =? null) then Some (Returned (fst r), snd r) else Some (Threw, snd r)).

(** *** Histories of a client of the C/C++ interface *)
Inductive call :=
| Alloc (n : Z)                 (* nsimd_aligned_alloc *)
| AllocFor (sizeof n : Z)       (* aligned_alloc_for<T> *)
| Free (p : Z).                 (* nsimd_aligned_free / aligned_free_for *)

Definition step (o : overflow) (W : Z) (pl : platform) (os : oracle) (h : heap) (c : call) : option heap :=
  match c with
  | Alloc n => Some (snd (nsimd_aligned_alloc W pl os h n))
  | AllocFor sizeof n => option_map snd (aligned_alloc_for o W pl os h sizeof n)
  | Free p => nsimd_aligned_free h p
  end.
Fixpoint history (o : overflow) (W : Z) (pl : platform) (os : oracle) (h : heap) (l : list call) : option heap :=
  match l with
  | [] => Some h
  | c :: l' => bind (step o W pl os h c) (fun h' => history o W pl os h' l')
  end.

(** *** Byte copies *)
Definition find_block (h : heap) (p : Z) : option block := find (is_block p) h.
Definition set_block (h : heap) (p : Z) (c : list byte) : heap :=
  map (fun b => if is_block p b then Block p c else b) h.
Definition first_bytes (n : Z) (c : list byte) : option (list byte) :=
  if n <=? Z.of_nat (length c) then Some (firstn (Z.to_nat n) c) else None.
(** memcpy / cudaMemcpy / hipMemcpy / queue.memcpy of [n] bytes from a block of
    heap [hs] to a block of heap [hd]; copying past the end of either block is
    undefined. *)
Definition copy_bytes (hd : heap) (pd : Z) (hs : heap) (ps : Z) (n : Z) : option heap :=
  if n =? 0 then Some hd
  else bind (find_block hs ps) (fun bs => bind (find_block hd pd) (fun bd =>
    bind (first_bytes n (contents bs)) (fun d =>
      if n <=? bytes_of bd then Some (set_block hd pd (d ++ skipn (Z.to_nat n) (contents bd))) else None))).

(** *** memory_management.hpp *)
Inductive backend := CPU | CUDA | ROCM | ONEAPI.
Record machine := Machine { host : heap; device : heap }.
(** On CPU the "device" memory is the host heap. *)
Definition gpu (k : backend) : bool := match k with CPU => false | _ => true end.

(** memory_management.hpp:40-60, 92-112, 139-157, 205-213: device_malloc /
    device_calloc of [sz * sizeof(T)] bytes, computed in size_t (modulo 2^W).
    Simplification: sycl::malloc_device<T>(sz) is taken to compute the same size. *)
Definition device_alloc (init : Z -> list byte) (W : Z) (os : oracle) (h : heap) (sizeof sz : Z) : Z * heap :=
  sys_alloc os init h 1 (to_u W (sz * sizeof)).

(** memory_management.hpp:62-72, 116-124, 164-178, 217-225: copy_to_device,
    copy_to_host of [sz * sizeof(T)] bytes. *)
Definition copy_to_device (W : Z) (m : machine) (dev_ptr host_ptr sizeof sz : Z) : option machine :=
  bind (copy_bytes (device m) dev_ptr (host m) host_ptr (to_u W (sz * sizeof))) (fun d => Some (Machine (host m) d)).
Definition copy_to_host (W : Z) (m : machine) (host_ptr dev_ptr sizeof sz : Z) : option machine :=
  bind (copy_bytes (host m) host_ptr (device m) dev_ptr (to_u W (sz * sizeof))) (fun h => Some (Machine h (device m))).

(** memory_management.hpp:239-243. *)
Record paired := Paired { device_ptr : Z; host_ptr : Z; psz : Z }.

(** memory_management.hpp:245-268, 281-304: pair_malloc and pair_calloc.  On
    GPUs the host block is malloc(sz) / calloc(sz, 1): [sz] bytes.
    Simplification: [ret.host_ptr = calloc(sz, 1)] (287) lacks the cast C++
    needs; it is modelled as if it had one. *)
Definition pair_alloc (init : Z -> list byte) (k : backend) (W : Z) (os_h os_d : oracle) (m : machine) (sizeof sz : Z) : option (paired * machine) :=
  if gpu k then
    let (dp, d) := device_alloc init W os_d (device m) sizeof sz in
    if dp =? null then Some (Paired null null 0, Machine (host m) d)
    else
      let (hp, h) := sys_alloc os_h init (host m) 1 (to_u W sz) in
      if hp =? null then bind (sys_free d dp) (fun d' => Some (Paired null null 0, Machine h d'))
      else Some (Paired dp hp sz, Machine h d)
  else
    let (p, h) := device_alloc init W os_h (host m) sizeof sz in
    Some (Paired p p sz, Machine h (device m)).
Definition pair_malloc := pair_alloc fresh_bytes.
Definition pair_calloc := pair_alloc zero_bytes.

(** memory_management.hpp:310-317: pair_free.  Simplification: on GPUs the code
    frees [p.device_free], which is not a member (a compile-time error); the model
    frees [p.device_ptr]. *)
Definition pair_free (k : backend) (m : machine) (p : paired) : option machine :=
  if gpu k then
    bind (sys_free (device m) (device_ptr p)) (fun d =>
      bind (sys_free (host m) (host_ptr p)) (fun h => Some (Machine h d)))
  else bind (sys_free (host m) (host_ptr p)) (fun h => Some (Machine h (device m))).

(** memory_management.hpp:319-333. *)
Definition pair_to_device (k : backend) (W : Z) (sizeof : Z) (m : machine) (p : paired) : option machine :=
  if gpu k then copy_to_device W m (device_ptr p) (host_ptr p) sizeof (psz p) else Some m.
Definition pair_to_host (k : backend) (W : Z) (sizeof : Z) (m : machine) (p : paired) : option machine :=
  if gpu k then copy_to_host W m (host_ptr p) (device_ptr p) sizeof (psz p) else Some m.
