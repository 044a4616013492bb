(** C integer arithmetic on [Z]: conversions between integer types.

    Models the conversion rules the code relies on (ISO C/C++): conversion to
    an unsigned [n]-bit type reduces modulo 2^n; conversion to a signed type
    keeps the bit pattern (two's complement, as GCC/Clang/MSVC define it). *)
From Coq Require Import ZArith Lia Bool List.
From Coq Require Import ZifyBool.
Open Scope Z_scope.

(** Conversion to the unsigned [n]-bit type. *)
Definition to_u (n : Z) (z : Z) : Z := z mod 2 ^ n.

(** Conversion to the signed [n]-bit type (two's complement). *)
Definition to_s (n : Z) (z : Z) : Z :=
  let m := z mod 2 ^ n in if m <? 2 ^ (n - 1) then m else m - 2 ^ n.

(** Ranges of the types. *)
Definition in_u (n : Z) (z : Z) : Prop := 0 <= z < 2 ^ n.
Definition in_s (n : Z) (z : Z) : Prop := - 2 ^ (n - 1) <= z < 2 ^ (n - 1).

Lemma pow2_pos n : 0 <= n -> 0 < 2 ^ n.
Proof. intros; apply Z.pow_pos_nonneg; lia. Qed.

Lemma pow2_split n : 0 < n -> 2 ^ n = 2 * 2 ^ (n - 1).
Proof. intros. replace n with (Z.succ (n - 1)) at 1 by lia. rewrite Z.pow_succ_r; lia. Qed.

Lemma to_u_range n z : 0 <= n -> in_u n (to_u n z).
Proof. intros. unfold in_u, to_u. apply Z.mod_pos_bound. apply pow2_pos; lia. Qed.

Lemma to_u_id n z : in_u n z -> to_u n z = z.
Proof. unfold in_u, to_u. intros. apply Z.mod_small; lia. Qed.

Lemma to_s_range n z : 0 < n -> in_s n (to_s n z).
Proof.
  intros Hn. unfold in_s, to_s.
  pose proof (pow2_split n Hn). pose proof (pow2_pos (n - 1) ltac:(lia)).
  pose proof (Z.mod_pos_bound z (2 ^ n) ltac:(lia)).
  destruct (z mod 2 ^ n <? 2 ^ (n - 1)) eqn:E; lia.
Qed.

Lemma to_s_id n z : 0 < n -> in_s n z -> to_s n z = z.
Proof.
  intros Hn [Hl Hh]. unfold to_s.
  pose proof (pow2_split n Hn). pose proof (pow2_pos (n - 1) ltac:(lia)).
  destruct (Z_lt_le_dec z 0) as [Hz | Hz].
  - rewrite <- (Z_mod_plus_full z 1). rewrite Z.mod_small by lia.
    destruct (z + 1 * 2 ^ n <? 2 ^ (n - 1)) eqn:E; lia.
  - rewrite Z.mod_small by lia.
    destruct (z <? 2 ^ (n - 1)) eqn:E; lia.
Qed.

Lemma to_s_mod n z : 0 < n -> (to_s n z) mod 2 ^ n = z mod 2 ^ n.
Proof.
  intros Hn. unfold to_s. pose proof (pow2_pos n ltac:(lia)).
  destruct (z mod 2 ^ n <? 2 ^ (n - 1)).
  - apply Z.mod_mod; lia.
  - rewrite <- (Z_mod_plus_full (z mod 2 ^ n - 2 ^ n) 1).
    replace (z mod 2 ^ n - 2 ^ n + 1 * 2 ^ n) with (z mod 2 ^ n) by lia.
    apply Z.mod_mod; lia.
Qed.

Lemma to_s_congr n a b : a mod 2 ^ n = b mod 2 ^ n -> to_s n a = to_s n b.
Proof. unfold to_s. intros ->. reflexivity. Qed.

Lemma to_u_congr n a b : a mod 2 ^ n = b mod 2 ^ n -> to_u n a = to_u n b.
Proof. unfold to_u. intros ->. reflexivity. Qed.

Lemma to_u_to_s n z : 0 < n -> to_u n (to_s n z) = to_u n z.
Proof. intros. unfold to_u. apply to_s_mod; lia. Qed.

Lemma to_s_to_u n z : 0 <= n -> to_s n (to_u n z) = to_s n z.
Proof.
  intros. apply to_s_congr. unfold to_u. apply Z.mod_mod.
  pose proof (pow2_pos n); lia.
Qed.
