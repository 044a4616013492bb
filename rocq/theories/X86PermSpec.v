(** Specification vocabulary for the lane permutations of the x86
    extensions. *)

From Coq Require Import ZArith List Arith.
From Verif Require Import X86Shuffle X86Deg234 X86ShuffleSpec X86Perm.
Import ListNotations.

(** Registers in a vector, bytes in a lane (an f16 lane is an f32), lanes. *)
Definition nregs (t : vtyp) : nat := match t with El _ => 1 | F16 => 2 end.
Definition lane_bytes (t : vtyp) : nat :=
  match t with El t => elt_bytes t | F16 => 4 end.
Definition lanes (e : ext) (t : vtyp) : nat :=
  nregs t * reg_bytes e / lane_bytes t.

(** [v] is a vector of type [t]. *)
Definition vector (e : ext) (t : vtyp) (v : list (list Z)) : Prop :=
  registers e (nregs t) v.

(** The bytes of lane [i]. *)
Definition lane (t : vtyp) (i : nat) (v : list (list Z)) : list Z :=
  elt (lane_bytes t) i (concat v).

(** The local arrays of unziplo and unziphi: three vectors. *)
Definition stack (e : ext) (m : list Z) : Prop := 3 * reg_bytes e <= length m.
