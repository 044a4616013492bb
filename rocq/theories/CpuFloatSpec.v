(** Floating-point vectors of the CPU back end: [n] patterns, of singles when
    the element type is f16. *)
From Coq Require Import ZArith List Bool.
From Verif Require Import FloatSpec ArmFloat CpuSimd.
Import ListNotations.
Local Open Scope Z_scope.

(** the type a lane is stored in *)
Definition stored (t : fty) : fty := match t with F16 => F32 | F32 => F32 | F64 => F64 end.
Definition clane (r : reg) (i : nat) : Z := nth i r 0.
Definition cvalue (t : fty) (r : reg) (i : nat) : fval := decode (ff (stored t)) (clane r i).
(** [n] patterns that satisfy [P] *)
Definition cvector (t : fty) (n : nat) (r : reg) (P : nat -> Z -> Prop) : Prop :=
  length r = n /\ forall i, (i < n)%nat -> 0 <= clane r i < 2 ^ fw (stored t) /\ P i (clane r i).
Definition cfloats (t : fty) (n : nat) (r : reg) : Prop := cvector t n r (fun _ _ => True).
