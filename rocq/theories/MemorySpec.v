(** What is assumed of the underlying allocator, and the vocabulary of C29-C31. *)
From Coq Require Import ZArith List.
From Verif Require Import Memory.
Import ListNotations.
Open Scope Z_scope.

(** Two blocks share no byte. *)
Definition disjoint (b1 b2 : block) : Prop :=
  addr b1 + bytes_of b1 <= addr b2 \/ addr b2 + bytes_of b2 <= addr b1.
Definition aligned (a p : Z) : Prop := p mod a = 0.
Definition in_address_space (W : Z) (b : block) : Prop := 0 < addr b /\ addr b + bytes_of b <= 2 ^ W.

(** POSIX: a successful call returns a non-null, suitably aligned address of a new
    block inside the address space, sharing no byte with (and at another address
    than) the live blocks. *)
Definition posix (W : Z) (os : oracle) : Prop := forall h a n p, os h a n = Some p ->
  0 < p /\ aligned a p /\ p + n <= 2 ^ W /\
  forall b, In b h -> addr b <> p /\ (p + n <= addr b \/ addr b + bytes_of b <= p).

(** [p] is a live block with room for [n] elements of [sizeof] bytes. *)
Definition room_for (h : heap) (p sizeof n : Z) : Prop := exists b, In b h /\ addr b = p /\ n * sizeof <= bytes_of b.

(** All live blocks are pairwise disjoint and at distinct addresses. *)
Definition separated (h : heap) : Prop := forall i j b1 b2, i <> j -> nth_error h i = Some b1 -> nth_error h j = Some b2 ->
  disjoint b1 b2 /\ addr b1 <> addr b2.
