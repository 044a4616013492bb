(** Specification vocabulary for the ARM lane permutations and memory operators. *)
From Coq Require Import ZArith List Bool.
From Verif Require Import CInt ScalarOps ScalarSpec X86Deg234 X86Arith X86ArithSpec X86Mem X86MemSpec Arm ArmSpec.
Open Scope Z_scope.

(** Number of elements of a register. *)
Definition aelems (e : aext) (t : mty) : Z := an e / mw t.
(** NEON vectors of f16 without NSIMD_ARM_FP16: element [i] of eight, a single-precision pattern in the first or
    the second register. *)
Definition apattern16 (v : Z * Z) (i : Z) : Z :=
  if i <? 4 then (fst v / 2 ^ (32 * i)) mod 2 ^ 32 else (snd v / 2 ^ (32 * (i - 4))) mod 2 ^ 32.
Definition in_regs16 (v : Z * Z) : Prop := in_reg 128 (fst v) /\ in_reg 128 (snd v).
