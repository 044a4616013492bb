(** Specification vocabulary for packs: a pack<T,N> is N registers, seen as one
    vector of N*len lanes. *)
From Coq Require Import ZArith List.
From Verif Require Import CpuSimd Pack.
Import ListNotations.

Fixpoint registers (p : pack) : list reg := match p with P1 c => [c] | PN c d => c :: registers d end.
(** All the lanes, first register first. *)
Definition flat (p : pack) : reg := concat (registers p).
(** [p] is a pack<T,N> with registers of [len] lanes. *)
Definition shape (N len : nat) (p : pack) : Prop := length (registers p) = N /\ Forall (fun r => length r = len) (registers p).

(** The pack [r] is defined iff the vector [R] is, has N registers of [len] lanes
    and the lanes of [R]. *)
Definition one_vec (len N : nat) (r : option pack) (R : option reg) : Prop :=
  option_map flat r = R /\ forall p, r = Some p -> shape N len p.
