(** Bit-level lemmas on [Z] and exhaustive checking over finite ranges. *)
From Coq Require Import ZArith Lia Bool List ZifyBool.
From Verif Require Import CInt.
Open Scope Z_scope.

Lemma land_mask x n : 0 <= n -> Z.land x (2 ^ n - 1) = x mod 2 ^ n.
Proof. intros. replace (2 ^ n - 1) with (Z.ones n) by (rewrite Z.ones_equiv; lia). apply Z.land_ones; lia. Qed.

Lemma land_pow2 x n : 0 <= n -> Z.land x (2 ^ n) = (x / 2 ^ n) mod 2 * 2 ^ n.
Proof.
  intros Hn. rewrite <- Z.testbit_spec' by lia.
  apply Z.bits_inj'. intros i Hi.
  rewrite Z.land_spec, Z.pow2_bits_eqb by lia.
  rewrite Z.mul_pow2_bits by lia.
  destruct (n =? i) eqn:E.
  - assert (n = i) by lia. subst i. rewrite Z.sub_diag, andb_true_r.
    destruct (Z.testbit x n); reflexivity.
  - rewrite andb_false_r. symmetry.
    destruct (Z_lt_le_dec i n); [apply Z.testbit_neg_r; lia|].
    destruct (Z.testbit x n); [|apply Z.bits_0].
    apply Z.bits_above_log2; [lia|]. cbn. lia.
Qed.

Lemma testbit_small b n i : 0 <= b < 2 ^ n -> n <= i -> Z.testbit b i = false.
Proof.
  intros Hb Hi. destruct (Z.eq_dec b 0) as [->|]; [apply Z.bits_0|].
  apply Z.bits_above_log2; [lia|].
  assert (0 <= n). { destruct (Z_lt_le_dec n 0); [|lia]. rewrite Z.pow_neg_r in Hb by lia. lia. }
  assert (Z.log2 b < n) by (apply Z.log2_lt_pow2; lia). lia.
Qed.

Lemma lor_disjoint a b n : 0 <= n -> 0 <= b < 2 ^ n -> Z.lor (a * 2 ^ n) b = a * 2 ^ n + b.
Proof.
  intros Hn Hb.
  assert (Z.land (a * 2 ^ n) b = 0) as D.
  { apply Z.bits_inj'. intros i Hi. rewrite Z.land_spec, Z.bits_0.
    destruct (Z_lt_le_dec i n).
    + rewrite Z.mul_pow2_bits_low by lia. reflexivity.
    + rewrite (testbit_small b n i) by lia. apply andb_false_r. }
  rewrite <- Z.lxor_lor by exact D. symmetry. apply Z.add_nocarry_lxor. exact D.
Qed.

Lemma shiftr_div x n : 0 <= n -> Z.shiftr x n = x / 2 ^ n.
Proof. intros. apply Z.shiftr_div_pow2; lia. Qed.

Lemma shiftl_mul x n : 0 <= n -> Z.shiftl x n = x * 2 ^ n.
Proof. intros. apply Z.shiftl_mul_pow2; lia. Qed.

(** [all_below f n lo]: [f] holds on [lo, lo+1, ..., lo+n-1]. *)
Fixpoint all_from (f : Z -> bool) (n : nat) (lo : Z) : bool :=
  match n with
  | O => true
  | S n' => if f lo then all_from f n' (lo + 1) else false
  end.

Lemma all_from_spec f n lo : all_from f n lo = true ->
  forall z, lo <= z < lo + Z.of_nat n -> f z = true.
Proof.
  revert lo. induction n as [|n IH]; intros lo H z Hz; [lia|].
  cbn [all_from] in H. destruct (f lo) eqn:E; [|discriminate].
  destruct (Z.eq_dec z lo) as [->|]; [exact E|]. apply (IH _ H). lia.
Qed.

Lemma all_upto f n : all_from f (Z.to_nat n) 0 = true -> forall z, 0 <= z < n -> f z = true.
Proof. intros H z Hz. apply (all_from_spec f _ _ H). lia. Qed.
