(** Specification vocabulary for the loop on floats. *)
From Coq Require Import ZArith List Bool.
From Verif Require Import CInt FloatSpec ScalarOps X86Cvt X86CvtSpec X86Mem X86MemSpec ArmFloat FloatArithSpec FloatVecSpec FloatVecOps PpcFloatSpec LoopSpec FPortable FPortableSpec.
Open Scope Z_scope.

(** variable [k] occurs in the expression *)
Fixpoint foccurs (k : nat) (e : fexp) : bool :=
  match e with
  | FArg j => Nat.eqb k j
  | FSplat _ => false
  | FOp1 _ a => foccurs k a
  | FOp2 _ a b => foccurs k a || foccurs k b
  | FOp3 _ a b c => foccurs k a || foccurs k b || foccurs k c
  | FIfElse l a b => foccursl k l || foccurs k a || foccurs k b
  end
with foccursl (k : nat) (e : flexp) : bool :=
  match e with
  | FSplatl _ => false
  | FCmp _ a b => foccurs k a || foccurs k b
  | FLogic _ a b => foccursl k a || foccursl k b
  | FNotl a => foccursl k a
  | FToLogical a => foccurs k a
  end.

(** The byte memory holds the float of pattern [x] at address [a], least significant byte first (any NaN if it is a NaN). *)
Definition holds_float (t : fty) (m : bmem) (a x : Z) : Prop :=
  0 <= x < 2 ^ fw t /\ exists p, 0 <= p < 2 ^ fw t /\ holds (fw t) m a p /\ same_number (ff t) p x.

(** As [loop_data] and [loop_result] of LoopSpec.v: array [k] holds [x k 0], ..., [x k (n - 1)], and the body is defined on
    every element and on +0, which fills the last vector. *)
Definition floop_data (t : fty) (len : Z) (body : fexp) (srcs : list Z) (dst n : Z) (x : nat -> Z -> Z) (m : bmem) : Prop :=
  0 <= n /\ n + len < 2 ^ 31 /\ (forall k, foccurs k body = true -> (k < length srcs)%nat) /\
  (forall k j, (k < length srcs)%nat -> 0 <= j < n -> holds_float t m (nth k srcs 0 + j * (fw t / 8)) (x k j)) /\
  (forall y, dst <= y < dst + n * (fw t / 8) -> m y <> None) /\
  (forall k, (k < length srcs)%nat -> same_or_apart (fw t / 8) n (nth k srcs 0) dst) /\
  (forall j, 0 <= j < n -> felement t (fun k => x k j) body <> None) /\ felement t (fun _ => 0) body <> None.
Definition floop_result (t : fty) (body : fexp) (dst n : Z) (x : nat -> Z -> Z) (m m' : bmem) : Prop :=
  (forall j, 0 <= j < n -> exists r, felement t (fun k => x k j) body = Some r /\ holds_float t m' (dst + j * (fw t / 8)) r) /\
  (forall y, y < dst \/ dst + n * (fw t / 8) <= y -> m' y = m y).

(** The memory of the CPU model holds elements: [m a] is the float of pattern [x] (any NaN if it is a NaN). *)
Definition holds_cell (t : fty) (m : Z -> option Z) (a x : Z) : Prop :=
  0 <= x < 2 ^ fw t /\ exists p, 0 <= p < 2 ^ fw t /\ m a = Some p /\ same_number (ff t) p x.

(** Programs whose operators are portable on all floats: they do not use abs, min, max, fnma and fnms, and their constants are floats. *)
Fixpoint always_portable (t : fty) (e : fexp) : bool :=
  match e with
  | FArg _ => true
  | FSplat x => (0 <=? x) && (x <? 2 ^ fw t)
  | FOp1 o a => match o with FAbs => false | _ => always_portable t a end
  | FOp2 o a b => match o with FArith _ => always_portable t a && always_portable t b | _ => false end
  | FOp3 o a b c => negb (negates o) && always_portable t a && always_portable t b && always_portable t c
  | FIfElse l a b => always_portablel t l && always_portable t a && always_portable t b
  end
with always_portablel (t : fty) (e : flexp) : bool :=
  match e with
  | FSplatl _ => true
  | FCmp _ a b => always_portable t a && always_portable t b
  | FLogic _ a b => always_portablel t a && always_portablel t b
  | FNotl a => always_portablel t a
  | FToLogical a => always_portable t a
  end.

(** axpy: a x + y, the multiplication and the addition rounded separately *)
Definition axpy_body (a : Z) : fexp := FOp2 (FArith Add) (FOp2 (FArith Mul) (FSplat a) (FArg 0)) (FArg 1).
