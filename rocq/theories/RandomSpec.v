(** Philox and ThreeFry as defined by Random123 (Salmon et al., "Parallel random numbers:
    as easy as 1, 2, 3", SC 2011; same constants in tests/modules/random/reference.hpp),
    on words: integers in [0, 2^w). *)
From Coq Require Import ZArith Bool List.
Import ListNotations.
Open Scope Z_scope.

Definition word (w z : Z) : Prop := 0 <= z < 2 ^ w.

(** A register of n words of w bits. *)
Definition regw (w : Z) (n : nat) (r : list Z) : Prop := length r = n /\ Forall (word w) r.

(** High and low word of a product. *)
Definition hi (w a b : Z) : Z := a * b / 2 ^ w.
Definition lo (w a b : Z) : Z := (a * b) mod 2 ^ w.

(** Philox: round number r uses the key k + r * bump. *)
Definition p2_round (w M k : Z) (c : Z * Z) : Z * Z :=
  let '(c0, c1) := c in (Z.lxor (Z.lxor (hi w M c0) k) c1, lo w M c0).
Fixpoint p2 (w M B : Z) (R : nat) (c : Z * Z) (k : Z) : Z * Z :=
  match R with
  | O => c
  | S R => p2_round w M ((k + Z.of_nat R * B) mod 2 ^ w) (p2 w M B R c k)
  end.
Definition p4_round (w M0 M1 k0 k1 : Z) (c : Z * Z * Z * Z) : Z * Z * Z * Z :=
  let '(c0, c1, c2, c3) := c in
  (Z.lxor (Z.lxor (hi w M1 c2) c1) k0, lo w M1 c2, Z.lxor (Z.lxor (hi w M0 c0) c3) k1, lo w M0 c0).
Fixpoint p4 (w M0 M1 B0 B1 : Z) (R : nat) (c : Z * Z * Z * Z) (k : Z * Z) : Z * Z * Z * Z :=
  match R with
  | O => c
  | S R => p4_round w M0 M1 ((fst k + Z.of_nat R * B0) mod 2 ^ w) ((snd k + Z.of_nat R * B1) mod 2 ^ w) (p4 w M0 M1 B0 B1 R c k)
  end.

(** ThreeFry: Threefish without tweak. MIX, permutation, subkeys. *)
Definition rotl (w x N : Z) : Z := (x mod 2 ^ (w - N)) * 2 ^ N + x / 2 ^ (w - N).
Definition addw (w a b : Z) : Z := (a + b) mod 2 ^ w.
Definition mix (w N : Z) (x : Z * Z) : Z * Z :=
  let '(a, b) := x in (addw w a b, Z.lxor (rotl w b N) (addw w a b)).
(** Subkey number s of a key of nw words: nw consecutive words of the extended key
    starting at position s (cyclically), plus s on the last word. *)
Definition xkey (parity : Z) (ks : list Z) : list Z := ks ++ [fold_left Z.lxor ks parity].
Definition subkey (w parity : Z) (ks : list Z) (s j : nat) : Z :=
  let e := nth ((s + j) mod (length ks + 1)) (xkey parity ks) 0 in
  if Nat.eqb (S j) (length ks) then (e + Z.of_nat s) mod 2 ^ w else e.
(** Two words: state after R rounds; a subkey is added after every fourth round. *)
Fixpoint t2 (w parity : Z) (rot : list Z) (R : nat) (c k : Z * Z) : Z * Z :=
  let sk := subkey w parity [fst k; snd k] in
  match R with
  | O => (addw w (fst c) (sk 0%nat 0%nat), addw w (snd c) (sk 0%nat 1%nat))
  | S r =>
      let '(x0, x1) := mix w (nth (r mod 8) rot 0) (t2 w parity rot r c k) in
      if Nat.eqb (R mod 4) 0 then (addw w x0 (sk (R / 4)%nat 0%nat), addw w x1 (sk (R / 4)%nat 1%nat)) else (x0, x1)
  end.
(** Four words: MIX on words (0, 1) and (2, 3), then words 1 and 3 are exchanged. *)
Fixpoint t4 (w parity : Z) (rot : list (Z * Z)) (R : nat) (c k : Z * Z * Z * Z) : Z * Z * Z * Z :=
  let '(k0, k1, k2, k3) := k in
  let sk := subkey w parity [k0; k1; k2; k3] in
  let add s x := let '(x0, x1, x2, x3) := x in
    (addw w x0 (sk s 0%nat), addw w x1 (sk s 1%nat), addw w x2 (sk s 2%nat), addw w x3 (sk s 3%nat)) in
  match R with
  | O => add 0%nat c
  | S r =>
      let '(x0, x1, x2, x3) := t4 w parity rot r c k in
      let '(r0, r1) := nth (r mod 8) rot (0, 0) in
      let '(y0, y1) := mix w r0 (x0, x1) in
      let '(y2, y3) := mix w r1 (x2, x3) in
      let y := (y0, y3, y2, y1) in
      if Nat.eqb (R mod 4) 0 then add (R / 4)%nat y else y
  end.
(** Implementations do not move words: after an odd number of rounds words 1 and 3 are
    exchanged with respect to [t4]. *)
Definition unswap (R : nat) (x : Z * Z * Z * Z) : Z * Z * Z * Z :=
  let '(x0, x1, x2, x3) := x in if Nat.even R then (x0, x1, x2, x3) else (x0, x3, x2, x1).

(** The published constants (Random123, threefry.h): the rotation distances of the eight rounds of a cycle. *)
Definition skein_32x2 : list Z := [13; 15; 26; 6; 17; 29; 16; 24].
Definition skein_64x2 : list Z := [16; 42; 12; 31; 16; 32; 24; 21].
Definition skein_32x4 : list (Z * Z) := [(10, 26); (11, 21); (13, 27); (23, 5); (6, 20); (17, 11); (25, 10); (18, 20)].
Definition skein_64x4 : list (Z * Z) := [(14, 16); (52, 57); (23, 40); (5, 37); (25, 33); (46, 12); (58, 22); (32, 32)].
