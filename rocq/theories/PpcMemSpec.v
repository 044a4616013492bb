(** Specification vocabulary for the POWER permutations and memory operators; [holds], [mapped], [outside], [pattern],
    [index] and [half_as_single] are those of X86MemSpec.v, [apattern16] and [in_regs16] those of ArmPermSpec.v: an f16
    vector is a pair of vectors of singles. *)
From Coq Require Import ZArith List Bool.
From Verif Require Import CInt ScalarOps ScalarSpec X86Deg234 X86Arith X86ArithSpec X86Mem X86MemSpec Ppc PpcSpec.
Open Scope Z_scope.

(** Number of elements of a vector. *)
Definition pelems (t : mty) : Z := 128 / mw t.
(** The addresses at which a vector can be read or written at once: the 64-bit types are accessed element by element,
    the others as vectors of 16 bytes, which must be aligned. *)
Definition vector_address (t : mty) (a : Z) : Prop := mw t = 64 \/ (16 | a).
(** Logicals of f16 vectors. *)
Definition plogical16 (l : Z * Z) (p : Z -> bool) : Prop :=
  plogical u32 (fst l) p /\ plogical u32 (snd l) (fun i => p (i + 4)).
(** The numbers of vectors that can be loaded or stored interleaved. *)
Definition deg234 (deg : Z) : Prop := deg = 2 \/ deg = 3 \/ deg = 4.
