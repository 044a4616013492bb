(** Specification vocabulary for the ARM memory operators; [holds], [mapped], [outside], [pattern] and [index] are
    those of X86MemSpec.v. *)
From Coq Require Import ZArith List Bool.
From Verif Require Import CInt FloatSpec Fp16 ScalarOps ScalarSpec X86Deg234 X86Arith X86ArithSpec X86Mem X86MemSpec Arm ArmSpec ArmPermSpec.
Open Scope Z_scope.

(** An order in which the [n] lanes may be written: every lane appears exactly once. *)
Definition lane_order (n : Z) (ord : Z -> Z) : Prop :=
  (forall k, 0 <= k < n -> 0 <= ord k < n) /\
  (forall k k', 0 <= k < n -> 0 <= k' < n -> ord k = ord k' -> k = k') /\
  (forall i, 0 <= i < n -> exists k, 0 <= k < n /\ ord k = i).
(** Whether a scatter writes the lanes from the lowest to the highest; otherwise the order is unknown. *)
Definition in_order (e : aext) (t : mty) : Prop := is_neon e = true \/ mw t <= 16.
(** Logicals of f16 vectors stored as two registers. *)
Definition alogical16 (l : Z * Z) (p : Z -> bool) : Prop :=
  alogical Neon128 u32 (fst l) p /\ alogical Neon128 u32 (snd l) (fun i => p (i + 4)).
(** Element [j] of a list of registers. *)
Definition nthz {A} (d : A) (l : list A) (j : Z) : A := nth (Z.to_nat j) l d.
