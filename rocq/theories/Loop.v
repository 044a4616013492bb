(** The loop of the tutorial: examples/tutorial.cpp:18-39 [uppercase_simd], with any integer expression of Portable.v as
    its body, on every back end.

      int i;
      for (i = 0; i + l <= n; i += l) { storeu(dst + i, body(loadu(src + i))); }
      pl_t mask = mask_for_loop_tail<pl_t>(i, n);
      mask_storeu(mask, dst + i, body(maskz_loadu(mask, src + i)));

    The loads, stores and the mask are those of CpuSimd.v, X86Mem.v, ArmMem.v and PpcMem.v (citations there).
    [i + l] is computed in [int]: its overflow is undefined.  A body may read several arrays. *)
From Coq Require Import ZArith List Bool.
From Verif Require Import CInt ScalarOps CpuSimd X86Deg234 X86Arith X86Mem Arm ArmMem Ppc PpcMem Portable.
Open Scope Z_scope.

(** The memory operators of a back end.  A memory is a partial map from addresses; [mo_size] is the distance between
    two consecutive elements of an array, [mo_len] the number of elements of a vector. *)
Record mops (V : Type) := MOps {
  mo_len : Z; mo_size : Z;
  mo_load : (Z -> option Z) -> Z -> option V;
  mo_store : (Z -> option Z) -> Z -> V -> option (Z -> option Z);
  mo_tail : Z -> Z -> option V;
  mo_maskz_load : V -> (Z -> option Z) -> Z -> option V;
  mo_mask_store : V -> (Z -> option Z) -> Z -> V -> option (Z -> option Z) }.
Arguments mo_len {V}. Arguments mo_size {V}. Arguments mo_load {V}. Arguments mo_store {V}. Arguments mo_tail {V}.
Arguments mo_maskz_load {V}. Arguments mo_mask_store {V}.

(** one vector per source array *)
Fixpoint load_all {A} (ld : Z -> option A) (srcs : list Z) : option (list A) :=
  match srcs with
  | nil => Some nil
  | s :: srcs' => bind (ld s) (fun r => bind (load_all ld srcs') (fun rs => Some (r :: rs)))
  end.
(** [d] stands for the variables that are not loaded *)
Definition variables {A} (d : A) (rs : list A) (k : nat) : A := nth k rs d.

(** examples/tutorial.cpp:26-32, for any body [run]: returns [i] and the memory *)
Fixpoint full_vectors {V} (fuel : nat) (O : mops V) (run : (nat -> V) -> option V) (d : V) (srcs : list Z) (dst n i : Z) (m : Z -> option Z) : option (Z * (Z -> option Z)) :=
  match fuel with
  | O%nat => None
  | S fuel' =>
      bind (carith i32 (i + mo_len O)) (fun i' =>
      if i' <=? n then
        bind (load_all (fun s => mo_load O m (s + i * mo_size O)) srcs) (fun rs =>
        bind (run (variables d rs)) (fun v =>
        bind (mo_store O m (dst + i * mo_size O) v) (fun m' =>
        full_vectors fuel' O run d srcs dst n i' m')))
      else Some (i, m))
  end.
(** examples/tutorial.cpp:34-38 *)
Definition last_vector {V} (O : mops V) (run : (nat -> V) -> option V) (d : V) (srcs : list Z) (dst n i : Z) (m : Z -> option Z) : option (Z -> option Z) :=
  bind (mo_tail O i n) (fun l =>
  bind (load_all (fun s => mo_maskz_load O l m (s + i * mo_size O)) srcs) (fun rs =>
  bind (run (variables d rs)) (fun v => mo_mask_store O l m (dst + i * mo_size O) v))).
(** The number of iterations is at most n; running out of fuel does not happen and is [None]. *)
Definition vector_loop {V} (O : mops V) (run : (nat -> V) -> option V) (d : V) (srcs : list Z) (dst n : Z) (m : Z -> option Z) : option (Z -> option Z) :=
  bind (full_vectors (Z.to_nat n + 1) O run d srcs dst n 0 m) (fun im => last_vector O run d srcs dst n (fst im) (snd im)).

(** A back end for integers with its memory operators; the body of the loop is an integer expression. *)
Record mbackend := MBackend { mb :> backend; mb_mem : mops (V mb) }.
Definition simd_loop (B : mbackend) (d : V B) (body : vexp) : list Z -> Z -> Z -> (Z -> option Z) -> option (Z -> option Z) :=
  vector_loop (mb_mem B) (fun env => veval B env body) d.

Definition cpu_m (t : ity) (n : nat) : mbackend := {|
  mb := cpu t n; mb_mem := {| mo_len := Z.of_nat n; mo_size := 1;
  mo_load := CpuSimd.load (EI t) n; mo_store := CpuSimd.store (EI t) n; mo_tail := CpuSimd.mask_for_loop_tail n;
  mo_maskz_load := fun l m a => CpuSimd.maskz_load (EI t) n m l a; mo_mask_store := fun l m a v => CpuSimd.mask_store (EI t) n m l a v |} |}.
Definition x86_m (e : ext) (t : ity) (undef : Z) : mbackend := {|
  mb := x86 e t undef; mb_mem := {| mo_len := nb e / bits t; mo_size := bits t / 8;
  mo_load := x_load e; mo_store := x_store e; mo_tail := x_mask_for_loop_tail e t;
  mo_maskz_load := x_maskz_load e (MI t); mo_mask_store := x_mask_store e (MI t) |} |}.
Definition arm_m (u : Z) (e : aext) (t : ity) : mbackend := {|
  mb := arm u e t; mb_mem := {| mo_len := an e / bits t; mo_size := bits t / 8;
  mo_load := a_load e (MI t); mo_store := a_store e (MI t); mo_tail := a_mask_for_loop_tail u e t;
  mo_maskz_load := a_maskz_load e (MI t); mo_mask_store := a_mask_store e (MI t) |} |}.
(** [al]: loada and storea, or loadu and storeu *)
Definition power_m (al : bool) (e : pext) (t : ity) : mbackend := {|
  mb := power e t; mb_mem := {| mo_len := 128 / bits t; mo_size := bits t / 8;
  mo_load := p_load al e (MI t); mo_store := p_store al e (MI t); mo_tail := p_mask_for_loop_tail e t;
  mo_maskz_load := p_maskz_load e (MI t); mo_mask_store := p_mask_store e (MI t) |} |}.

(** ** The tutorial itself *)
(** examples/tutorial.cpp:27-31 and 36-37: [text >= 'a' && text <= 'z'], [text + ('A' - 'a')]; the integer constants are
    converted to the element type by the operators on packs. *)
Definition uppercase_body (t : ity) : vexp :=
  IfElse (Logic Andl (Cmp Ge (Arg 0) (Splat (cast t 97))) (Cmp Le (Arg 0) (Splat (cast t 122))))
         (Op2 Add (Arg 0) (Splat (cast t (65 - 97)))) (Arg 0).
Definition uppercase_simd (B : mbackend) (d : V B) (t : ity) (dst src n : Z) (m : Z -> option Z) : option (Z -> option Z) :=
  simd_loop B d (uppercase_body t) (src :: nil) dst n m.
(** examples/tutorial.cpp:8-16 [uppercase_scalar], the body of the loop on one element; [src[i] + ('A' - 'a')] is computed
    in the promoted type and converted by the assignment. *)
Definition uppercase1 (t : ity) (x : Z) : option Z :=
  if (97 <=? x) && (x <=? 122) then casted t (carith (promote t) (x + (65 - 97))) else Some x.
