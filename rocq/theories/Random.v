(** Model of the random module (egg/modules/random/hatch.py): mulhilo, Philox and
    ThreeFry, as operations on registers of the CPU backend (CpuSimd.v) of any length.
    A pack<u32> is one register; a packx2 or packx4 is a tuple of registers. *)
From Coq Require Import ZArith Bool List.
From Verif Require Import CInt ScalarOps CpuSimd.
Import ListNotations.
Open Scope Z_scope.

Notation "x <- a ;; b" := (bind a (fun x => b)) (at level 61, a at next level, right associativity).
Notation "' p <- a ;; b" := (bind a (fun p => b)) (at level 61, p pattern, a at next level, right associativity).

Section Word.
Variables (t : ity) (n : nat).          (* u32 or u64, lanes per register *)

(** The operators +, *, ^, |, <<, >>, < of packs (C16, C24). *)
Definition vadd (a b : reg) := op2 t Z.add n a b.
Definition vmul (a b : reg) := op2 t Z.mul n a b.
Definition vxor (a b : reg) := scalar_impl2 n (fun x y => Some (s_xorb t x y)) a b.
Definition vor (a b : reg) := scalar_impl2 n (fun x y => Some (s_orb t x y)) a b.
Definition vshl (a : reg) (s : Z) := scalar_impl_shift n (s_shl t) a s.
Definition vshr (a : reg) (s : Z) := scalar_impl_shift n (s_shr t) a s.
Definition vlt (a b : reg) := cmp2 Z.ltb n a b.
Definition vset1 (x : Z) := set1 (EI t) n x.

(** hatch.py:265-293 [mulhilo64] with h = 32; hatch.py:212-241, the alternative
    [mulhilo32], with h = 16.  Returns (low, high). *)
Definition mulhilo_halves (h : Z) (a b : reg) : option (reg * reg) :=
  ah <- vshr a h ;;
  bh <- vshr b h ;;
  a' <- vshl a h ;; al <- vshr a' h ;;
  b' <- vshl b h ;; bl <- vshr b' h ;;
  ahbh <- vmul ah bh ;;
  ahbl <- vmul ah bl ;;
  albh <- vmul al bh ;;
  albl <- vmul al bl ;;
  tmp1 <- vshl albh h ;;
  tmp2 <- vshl ahbl h ;;
  tmp3 <- vadd tmp1 tmp2 ;;
  one <- vset1 1 ;;
  zero <- vset1 0 ;;
  c1 <- vlt tmp3 tmp1 ;; c2 <- vlt tmp3 tmp2 ;; c <- orl n c1 c2 ;;
  carry <- if_else1 n c one zero ;;
  low <- vadd tmp3 albl ;;
  d1 <- vlt low tmp3 ;; d2 <- vlt low albl ;; d <- orl n d1 d2 ;;
  cd <- if_else1 n d one zero ;;
  carry <- vadd carry cd ;;
  x <- vshr albh h ;; y <- vshr ahbl h ;;
  s1 <- vadd ahbh x ;; s2 <- vadd s1 y ;; high <- vadd s2 carry ;;
  Some (low, high).
End Word.

(** hatch.py:197-208 [mulhilo32] on registers of 2n lanes: upcvt to two registers of
    u64, multiply, shift, downcvt. *)
Definition mulhilo32 (n : nat) (a b : reg) : option (reg * reg) :=
  '(a0, a1) <- upcvt1 u64 n a ;;
  '(b0, b1) <- upcvt1 u64 n b ;;
  p0 <- vmul u64 n a0 b0 ;;
  p1 <- vmul u64 n a1 b1 ;;
  q0 <- vshr u64 n p0 32 ;; q1 <- vshr u64 n p1 32 ;;
  high <- downcvt2 u32 n q0 q1 ;;
  low <- downcvt2 u32 n p0 p1 ;;
  Some (low, high).
(** hatch.py:265-293. *)
Definition mulhilo64 (n : nat) := mulhilo_halves u64 n 32.

(** *** Philox *)
Section Philox.
Variables (t : ity) (n : nat) (mulhilo : reg -> reg -> option (reg * reg)).

(** hatch.py:311-330 (two words). *)
Definition philox2_round (mul : Z) (key : reg) (c : reg * reg) : option (reg * reg) :=
  let '(in0, in1) := c in
  m <- vset1 t n mul ;;
  '(low, high) <- mulhilo m in0 ;;
  x <- vxor t n high key ;; in0 <- vxor t n x in1 ;;
  Some (in0, low).
(** hatch.py:375-377: the rounds after the first; the key is bumped before each. *)
Fixpoint philox2_rounds (mul bump : Z) (r : nat) (key : reg) (c : reg * reg) : option (reg * reg) :=
  match r with
  | O => Some c
  | S r =>
      b <- vset1 t n bump ;;
      key <- vadd t n key b ;;
      c <- philox2_round mul key c ;;
      philox2_rounds mul bump r key c
  end.
(** hatch.py:367-384, for nrounds = r + 1. *)
Definition philox2 (mul bump : Z) (r : nat) (c : reg * reg) (key : reg) : option (reg * reg) :=
  c <- philox2_round mul key c ;; philox2_rounds mul bump r key c.

(** hatch.py:333-364 (four words). *)
Definition philox4_round (mul0 mul1 : Z) (key : reg * reg) (c : reg * reg * reg * reg) : option (reg * reg * reg * reg) :=
  let '(in0, in1, in2, in3) := c in
  m0 <- vset1 t n mul0 ;;
  m1 <- vset1 t n mul1 ;;
  '(low0, high0) <- mulhilo m0 in0 ;;
  '(low1, high1) <- mulhilo m1 in2 ;;
  x <- vxor t n high1 (fst key) ;; in0 <- vxor t n x in1 ;;
  y <- vxor t n high0 (snd key) ;; in2 <- vxor t n y in3 ;;
  Some (in0, low1, in2, low0).
(** hatch.py:375-377 with the two bumps of 343. *)
Fixpoint philox4_rounds (mul0 mul1 bump0 bump1 : Z) (r : nat) (key : reg * reg) (c : reg * reg * reg * reg) :=
  match r with
  | O => Some c
  | S r =>
      b0 <- vset1 t n bump0 ;;
      b1 <- vset1 t n bump1 ;;
      k0 <- vadd t n (fst key) b0 ;;
      k1 <- vadd t n (snd key) b1 ;;
      c <- philox4_round mul0 mul1 (k0, k1) c ;;
      philox4_rounds mul0 mul1 bump0 bump1 r (k0, k1) c
  end.
(** hatch.py:367-384, for nrounds = r + 1. *)
Definition philox4 (mul0 mul1 bump0 bump1 : Z) (r : nat) (c : reg * reg * reg * reg) (key : reg * reg) :=
  c <- philox4_round mul0 mul1 key c ;; philox4_rounds mul0 mul1 bump0 bump1 r key c.
End Philox.

(** The generated functions, with the constants of hatch.py:311-355.  Registers of u32
    have 2n lanes, those of u64 n lanes; nrounds = r + 1. *)
Definition philox2x32 (n r : nat) := philox2 u32 (2 * n) (mulhilo32 n) 0xD256D193 0x9E3779B9 r.
Definition philox2x64 (n r : nat) := philox2 u64 n (mulhilo64 n) 0xD2B74407B1CE6E93 0x9E3779B97F4A7C15 r.
Definition philox4x32 (n r : nat) := philox4 u32 (2 * n) (mulhilo32 n) 0xD2511F53 0xCD9E8D57 0x9E3779B9 0xBB67AE85 r.
Definition philox4x64 (n r : nat) := philox4 u64 n (mulhilo64 n)
  0xD2E7470EE14C6C93 0xCA5A826395121157 0x9E3779B97F4A7C15 0xBB67AE8584CAA73B r.

(** *** ThreeFry *)
Section ThreeFry.
Variables (t : ity) (n : nat).

(** hatch.py:464-467 [SHIFT_MOD_32], [SHIFT_MOD_64]. *)
Definition shift_mod (x : reg) (N : Z) : option reg :=
  l <- vshl t n x (Z.land N (bits t - 1)) ;;
  r <- vshr t n x (Z.land (bits t - N) (bits t - 1)) ;;
  vor t n l r.

(** hatch.py:533-539, round i of two words. *)
Definition threefry2_round (rot : list Z) (i : nat) (x : reg * reg) : option (reg * reg) :=
  let '(v0, v1) := x in
  v0 <- vadd t n v0 v1 ;;
  v1 <- shift_mod v1 (nth (i mod 8) rot 0) ;;
  v1 <- vxor t n v1 v0 ;;
  Some (v0, v1).
(** hatch.py:542-551, key injection after round i when i % 4 = 3; [ks] is ks0, ks1, ks2. *)
Definition threefry2_inject (ks : list reg) (i : nat) (x : reg * reg) : option (reg * reg) :=
  let '(v0, v1) := x in
  if Nat.eqb (i mod 4) 3 then
    let d := (i / 4 + 1)%nat in
    v0 <- vadd t n v0 (nth ((d + 0) mod 3) ks []) ;;
    v1 <- vadd t n v1 (nth ((d + 1) mod 3) ks []) ;;
    dd <- vset1 t n (Z.of_nat d) ;;
    v1 <- vadd t n v1 dd ;;
    Some (v0, v1)
  else Some (v0, v1).
(** hatch.py:518, the loop over i: rounds i, ..., i + k - 1. *)
Fixpoint threefry2_rounds (rot : list Z) (ks : list reg) (k i : nat) (x : reg * reg) : option (reg * reg) :=
  match k with
  | O => Some x
  | S k => x <- threefry2_round rot i x ;; x <- threefry2_inject ks i x ;; threefry2_rounds rot ks k (S i) x
  end.
(** hatch.py:490-516: key schedule and first injection. *)
Definition threefry2 (rot : list Z) (parity : Z) (R : nat) (c key : reg * reg) : option (reg * reg) :=
  p <- vset1 t n parity ;;
  p <- vxor t n p (fst key) ;; v0 <- vadd t n (fst c) (fst key) ;;
  p <- vxor t n p (snd key) ;; v1 <- vadd t n (snd c) (snd key) ;;
  threefry2_rounds rot [fst key; snd key; p] R 0 (v0, v1).

(** hatch.py:519-532, round i of four words: words 1 and 3 exchange roles in odd rounds. *)
Definition threefry4_round (rot : list (Z * Z)) (i : nat) (x : reg * reg * reg * reg) : option (reg * reg * reg * reg) :=
  let '(v0, v1, v2, v3) := x in
  let '(r0, r2) := nth (i mod 8) rot (0, 0) in
  if Nat.even i then
    v0 <- vadd t n v0 v1 ;; v1 <- shift_mod v1 r0 ;; v1 <- vxor t n v1 v0 ;;
    v2 <- vadd t n v2 v3 ;; v3 <- shift_mod v3 r2 ;; v3 <- vxor t n v3 v2 ;;
    Some (v0, v1, v2, v3)
  else
    v0 <- vadd t n v0 v3 ;; v3 <- shift_mod v3 r0 ;; v3 <- vxor t n v3 v0 ;;
    v2 <- vadd t n v2 v1 ;; v1 <- shift_mod v1 r2 ;; v1 <- vxor t n v1 v2 ;;
    Some (v0, v1, v2, v3).
(** hatch.py:542-551; [ks] is ks0, ..., ks4. *)
Definition threefry4_inject (ks : list reg) (i : nat) (x : reg * reg * reg * reg) : option (reg * reg * reg * reg) :=
  let '(v0, v1, v2, v3) := x in
  if Nat.eqb (i mod 4) 3 then
    let d := (i / 4 + 1)%nat in
    v0 <- vadd t n v0 (nth ((d + 0) mod 5) ks []) ;;
    v1 <- vadd t n v1 (nth ((d + 1) mod 5) ks []) ;;
    v2 <- vadd t n v2 (nth ((d + 2) mod 5) ks []) ;;
    v3 <- vadd t n v3 (nth ((d + 3) mod 5) ks []) ;;
    dd <- vset1 t n (Z.of_nat d) ;;
    v3 <- vadd t n v3 dd ;;
    Some (v0, v1, v2, v3)
  else Some (v0, v1, v2, v3).
(** hatch.py:518. *)
Fixpoint threefry4_rounds (rot : list (Z * Z)) (ks : list reg) (k i : nat) (x : reg * reg * reg * reg) :=
  match k with
  | O => Some x
  | S k => x <- threefry4_round rot i x ;; x <- threefry4_inject ks i x ;; threefry4_rounds rot ks k (S i) x
  end.
(** hatch.py:490-516. *)
Definition threefry4 (rot : list (Z * Z)) (parity : Z) (R : nat) (c key : reg * reg * reg * reg) :=
  let '(c0, c1, c2, c3) := c in
  let '(k0, k1, k2, k3) := key in
  p <- vset1 t n parity ;;
  p <- vxor t n p k0 ;; v0 <- vadd t n c0 k0 ;;
  p <- vxor t n p k1 ;; v1 <- vadd t n c1 k1 ;;
  p <- vxor t n p k2 ;; v2 <- vadd t n c2 k2 ;;
  p <- vxor t n p k3 ;; v3 <- vadd t n c3 k3 ;;
  threefry4_rounds rot [k0; k1; k2; k3; p] R 0 (v0, v1, v2, v3).
End ThreeFry.

(** hatch.py:401-461, 491-498: rotation tables and parity constants. *)
Definition rot_32x2 := [13; 15; 26; 6; 17; 29; 16; 24].
Definition rot_64x2 := [16; 42; 12; 31; 16; 32; 24; 21].
Definition rot_32x4 := [(10, 26); (11, 21); (13, 27); (23, 5); (6, 20); (17, 11); (25, 10); (18, 20)].
Definition rot_64x4 := [(14, 16); (52, 57); (23, 40); (5, 37); (25, 33); (46, 12); (58, 22); (32, 32)].
Definition threefry2x32 (n R : nat) := threefry2 u32 n rot_32x2 0x1BD11BDA R.
Definition threefry2x64 (n R : nat) := threefry2 u64 n rot_64x2 0x1BD11BDAA9FC1A22 R.
Definition threefry4x32 (n R : nat) := threefry4 u32 n rot_32x4 0x1BD11BDA R.
Definition threefry4x64 (n R : nat) := threefry4 u64 n rot_64x4 0x1BD11BDAA9FC1A22 R.
