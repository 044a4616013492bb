(** Specification vocabulary for the loop of the tutorial. *)
From Coq Require Import ZArith List Bool.
From Verif Require Import CInt ScalarOps ScalarSpec X86Mem X86MemSpec Portable PortableSpec Loop.
Open Scope Z_scope.

(** variable [k] occurs in the expression *)
Fixpoint occurs (k : nat) (e : vexp) : bool :=
  match e with
  | Arg j => Nat.eqb k j
  | Splat _ | Iota => false
  | Op1 _ a | Shift _ a _ => occurs k a
  | Op2 _ a b => occurs k a || occurs k b
  | Op3 _ a b c => occurs k a || occurs k b || occurs k c
  | IfElse l a b => occursl k l || occurs k a || occurs k b
  | ToMask l => occursl k l
  end
with occursl (k : nat) (e : lexp) : bool :=
  match e with
  | Splatl _ => false
  | Cmp _ a b => occurs k a || occurs k b
  | Logic _ a b => occursl k a || occursl k b
  | Notl a => occursl k a
  | ToLogical a => occurs k a
  end.

(** The byte memory holds the value [v] of type [t] at address [a]: its two's complement pattern, least significant byte first. *)
Definition holds_value (t : ity) (m : bmem) (a v : Z) : Prop := in_ty t v /\ holds (bits t) m a (v mod 2 ^ bits t).
(** Two arrays of [n] elements of [s] bytes are the same or do not overlap. *)
Definition same_or_apart (s n a b : Z) : Prop := a = b \/ a + n * s <= b \/ b + n * s <= a.

(** The arrays given to a loop with vectors of [len] elements: array [k] holds [v k 0], ..., [v k (n - 1)], the destination
    can be written, it overlaps no source unless it is that source, [n + len] is an [int], and the body is defined on every
    element - and on zeros, for the lanes of the last vector that are after the end of the arrays. *)
Definition loop_data (t : ity) (len : Z) (body : vexp) (srcs : list Z) (dst n : Z) (v : nat -> Z -> Z) (m : bmem) : Prop :=
  0 <= n /\ n + len < 2 ^ 31 /\ (forall k, occurs k body = true -> (k < length srcs)%nat) /\
  (forall k j, (k < length srcs)%nat -> 0 <= j < n -> holds_value t m (nth k srcs 0 + j * (bits t / 8)) (v k j)) /\
  (forall x, dst <= x < dst + n * (bits t / 8) -> m x <> None) /\
  (forall k, (k < length srcs)%nat -> same_or_apart (bits t / 8) n (nth k srcs 0) dst) /\
  (forall j, 0 <= j < n -> element t (fun k => v k j) (j mod len) body <> None) /\
  (forall j, 0 <= j < len -> n mod len <= j -> element t (fun _ => 0) j body <> None).
(** After the loop, element [j] of the destination is the C expression on element [j] of the arrays; the rest of the memory is as before. *)
Definition loop_result (t : ity) (len : Z) (body : vexp) (dst n : Z) (v : nat -> Z -> Z) (m m' : bmem) : Prop :=
  (forall j, 0 <= j < n -> exists r, element t (fun k => v k j) (j mod len) body = Some r /\ holds_value t m' (dst + j * (bits t / 8)) r) /\
  (forall x, x < dst \/ dst + n * (bits t / 8) <= x -> m' x = m x).

(** the expression depends on the position of the element *)
Fixpoint uses_position (e : vexp) : bool :=
  match e with
  | Arg _ | Splat _ => false
  | Iota => true
  | Op1 _ a | Shift _ a _ => uses_position a
  | Op2 _ a b => uses_position a || uses_position b
  | Op3 _ a b c => uses_position a || uses_position b || uses_position c
  | IfElse l a b => uses_positionl l || uses_position a || uses_position b
  | ToMask l => uses_positionl l
  end
with uses_positionl (e : lexp) : bool :=
  match e with
  | Splatl _ => false
  | Cmp _ a b => uses_position a || uses_position b
  | Logic _ a b => uses_positionl a || uses_positionl b
  | Notl a => uses_positionl a
  | ToLogical a => uses_position a
  end.

(** [text + ('A' - 'a')] does not overflow: the case that matters on signed types of 32 and 64 bits only *)
Definition room (t : ity) (x : Z) : Prop := is_signed t = true -> 32 <= bits t -> ty_min t + 32 <= x.

(** The arrays given to [uppercase_simd]: [n + len] is an [int] and the text does not overlap the destination unless it is it. *)
Definition text (t : ity) (len : Z) (dst src n : Z) (x : Z -> Z) (m : bmem) : Prop :=
  0 <= n /\ n + len < 2 ^ 31 /\ (forall j, 0 <= j < n -> holds_value t m (src + j * (bits t / 8)) (x j) /\ room t (x j)) /\
  (forall a, dst <= a < dst + n * (bits t / 8) -> m a <> None) /\ same_or_apart (bits t / 8) n src dst.
Definition uppercased (t : ity) (dst n : Z) (x : Z -> Z) (m m' : bmem) : Prop :=
  (forall j, 0 <= j < n -> exists r, uppercase1 t (x j) = Some r /\ holds_value t m' (dst + j * (bits t / 8)) r) /\
  (forall a, a < dst \/ dst + n * (bits t / 8) <= a -> m' a = m a).
