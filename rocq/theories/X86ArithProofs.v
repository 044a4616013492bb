(** Lane-wise behaviour of the x86 operators: arithmetic, bitwise operators and shifts. *)
From Coq Require Import ZArith Lia List Bool ZifyBool.
From Verif Require Import CInt BitLemmas ScalarOps ScalarSpec ScalarProofs X86Deg234 X86Arith X86ArithSpec
  X86LaneLemmas.
Import ListNotations.
Open Scope Z_scope.

Lemma okw_nb e t : In t int_types -> okw (nb e) (bits t).
Proof. intros H. destruct e; ty_cases H; unfold okw; cbn; lia. Qed.

Ltac okw := unfold okw; cbn; lia.
(** case analysis on the extension and the type *)
Ltac ext_cases e H := destruct e; ty_cases H.

Lemma lane_small w : 0 <= w -> forall z, lane w 0 z = z mod 2 ^ w.
Proof. intros. unfold lane. rewrite Z.mul_0_r, Z.pow_0_r, Z.div_1_r. reflexivity. Qed.
Lemma lane_one w : 0 <= w -> forall z, lane w 1 z = z / 2 ^ w mod 2 ^ w.
Proof. intros. unfold lane. rewrite Z.mul_1_r. reflexivity. Qed.

(** a wide lane from its two halves *)
Lemma lane_join w i r : 0 <= w -> 0 <= i -> lane (2 * w) i r = lane w (2 * i) r + lane w (2 * i + 1) r * 2 ^ w.
Proof.
  intros Hw Hi. replace (2 * i) with (2 * i + 0) at 1 by lia. rewrite !lane_lane by lia.
  rewrite lane_small, lane_one by lia.
  pose proof (lane_range (2 * w) i r ltac:(lia)) as H.
  pose proof (pow2_pos w Hw).
  rewrite (Z.mod_small (_ / _)).
  - pose proof (Z.div_mod (lane (2 * w) i r) (2 ^ w) ltac:(lia)). lia.
  - split; [apply Z.div_pos; lia|]. apply Z.div_lt_upper_bound; [lia|].
    rewrite <- Z.pow_add_r by lia. replace (w + w) with (2 * w) by lia. lia.
Qed.

(** ** Basic intrinsics *)

Lemma lw_add n w : okw n w -> lw2 n w (mm_add n w) (fun x y => (x + y) mod 2 ^ w).
Proof. intros. apply lanewise2_lw; [assumption|reflexivity]. Qed.
Lemma lw_sub n w : okw n w -> lw2 n w (mm_sub n w) (fun x y => (x - y) mod 2 ^ w).
Proof. intros. apply lanewise2_lw; [assumption|reflexivity]. Qed.
Lemma lw_mullo n w : okw n w -> lw2 n w (mm_mullo n w) (fun x y => (x * y) mod 2 ^ w).
Proof. intros. apply lanewise2_lw; [assumption|reflexivity]. Qed.

Lemma to_u64_small s : 0 <= s < 2 ^ 64 -> to_u 64 s = s.
Proof. intros. apply to_u_id. exact H. Qed.

Lemma lane_sll n w a s i : okw n w -> 0 <= s < w -> w <= 64 -> 0 <= i < n / w ->
  lane w i (mm_sll n w a s) = (lane w i a * 2 ^ s) mod 2 ^ w.
Proof.
  intros H Hs Hw Hi. unfold mm_sll, lanewise1. rewrite lane_buildn by assumption.
  rewrite to_u64_small by lia. destruct (Z.ltb_spec s w); [reflexivity|lia].
Qed.
Lemma lane_srl n w a s i : okw n w -> 0 <= s < w -> w <= 64 -> 0 <= i < n / w ->
  lane w i (mm_srl n w a s) = lane w i a / 2 ^ s.
Proof.
  intros H Hs Hw Hi. unfold mm_srl, lanewise1. rewrite lane_buildn by assumption.
  rewrite to_u64_small by lia. destruct (Z.ltb_spec s w); [|lia].
  apply Z.mod_small. pose proof (lane_range w i a ltac:(lia)). pose proof (pow2_pos s ltac:(lia)).
  split; [apply Z.div_pos; lia|]. apply Z.div_lt_upper_bound; nia.
Qed.
Lemma lane_sra n w a s i : okw n w -> 0 <= s < w -> w <= 64 -> 0 <= i < n / w ->
  lane w i (mm_sra n w a s) = (to_s w (lane w i a) / 2 ^ s) mod 2 ^ w.
Proof.
  intros H Hs Hw Hi. unfold mm_sra, lanewise1. rewrite lane_buildn by assumption.
  rewrite to_u64_small by lia. destruct (Z.ltb_spec s w); [reflexivity|lia].
Qed.
Lemma in_reg_sll n w a s : okw n w -> in_reg n (mm_sll n w a s).
Proof. intros. apply in_reg_build. assumption. Qed.
Lemma in_reg_srl n w a s : okw n w -> in_reg n (mm_srl n w a s).
Proof. intros. apply in_reg_build. assumption. Qed.
Lemma in_reg_sra n w a s : okw n w -> in_reg n (mm_sra n w a s).
Proof. intros. apply in_reg_build. assumption. Qed.
Lemma in_reg_set1 n w x : okw n w -> in_reg n (mm_set1 n w x).
Proof. intros. apply in_reg_build. assumption. Qed.
Lemma lane_set1 n w x i : okw n w -> 0 <= i < n / w -> lane w i (mm_set1 n w x) = x mod 2 ^ w.
Proof. intros. unfold mm_set1. rewrite lane_buildn by assumption. reflexivity. Qed.
Lemma lane_mullo n w a b i : okw n w -> 0 <= i < n / w ->
  lane w i (mm_mullo n w a b) = (lane w i a * lane w i b) mod 2 ^ w.
Proof. intros. unfold mm_mullo, lanewise2. rewrite lane_buildn by assumption. reflexivity. Qed.
Lemma lane_add n w a b i : okw n w -> 0 <= i < n / w ->
  lane w i (mm_add n w a b) = (lane w i a + lane w i b) mod 2 ^ w.
Proof. intros. unfold mm_add, lanewise2. rewrite lane_buildn by assumption. reflexivity. Qed.
Lemma lane_sub n w a b i : okw n w -> 0 <= i < n / w ->
  lane w i (mm_sub n w a b) = (lane w i a - lane w i b) mod 2 ^ w.
Proof. intros. unfold mm_sub, lanewise2. rewrite lane_buildn by assumption. reflexivity. Qed.

(** ** add, sub, neg *)

(** [lwtac L]: each case is [L] on the whole register, or on both halves *)
Ltac lw2tac L :=
  first [ solve [refine (L _ _ _); okw] | solve [refine (split2_lw 128 _ _ _ _ (L 128 _ _)); okw]
        | solve [refine (split2_lw 256 _ _ _ _ (L 256 _ _)); okw] ].

Lemma x_add_lw e t : In t int_types -> lw2 (nb e) (bits t) (x_add e t) (fun x y => (x + y) mod 2 ^ bits t).
Proof. intros H. ext_cases e H; lw2tac lw_add. Qed.
Lemma x_sub_lw e t : In t int_types -> lw2 (nb e) (bits t) (x_sub e t) (fun x y => (x - y) mod 2 ^ bits t).
Proof. intros H. ext_cases e H; lw2tac lw_sub. Qed.
Lemma in_reg_0 n : 0 <= n -> in_reg n 0.
Proof. intros. split; [lia|apply pow2_pos; lia]. Qed.
Lemma nb_pos e : 0 <= nb e.
Proof. destruct e; cbn; lia. Qed.
Lemma x_neg_lw e t : In t int_types -> lw1 (nb e) (bits t) (x_neg e t) (fun x => (- x) mod 2 ^ bits t).
Proof.
  intros H a Ha. unfold x_neg, mm_zero.
  destruct (x_sub_lw e t H 0 a (in_reg_0 _ (nb_pos e)) Ha) as [R L]. split; [assumption|].
  intros i Hi. rewrite L by assumption. rewrite lane_0 by (pose proof (bits_pos t H); lia). f_equal.
Qed.

(** ** Multiplication of 8-bit lanes *)

Lemma mod_mod_pow z n m : 0 <= m <= n -> (z mod 2 ^ n) mod 2 ^ m = z mod 2 ^ m.
Proof.
  intros. apply Z.bits_inj'. intros k Hk. destruct (Z.lt_ge_cases k m).
  - rewrite !Z.mod_pow2_bits_low by lia. reflexivity.
  - rewrite !Z.mod_pow2_bits_high by lia. reflexivity.
Qed.

Lemma mul8_scalar x y j : ulane 16 x -> ulane 16 y -> 0 <= j < 2 ->
  lane 8 j (Z.lor (Z.land ((x * y) mod 2 ^ 16) 255) (((x / 2 ^ 8 * (y / 2 ^ 8)) mod 2 ^ 16 * 2 ^ 8) mod 2 ^ 16)) =
  (lane 8 j x * lane 8 j y) mod 2 ^ 8.
Proof.
  unfold ulane. intros Hx Hy Hj. rewrite lane_lor, lane_land by lia.
  assert (j = 0 \/ j = 1) as [-> | ->] by lia.
  - rewrite !lane_small by lia.
    replace (255 mod 2 ^ 8) with (2 ^ 8 - 1) by reflexivity. rewrite land_mask by lia.
    replace (((x / 2 ^ 8 * (y / 2 ^ 8)) mod 2 ^ 16 * 2 ^ 8) mod 2 ^ 16 mod 2 ^ 8) with 0.
    2:{ change (2 ^ 16) with (2 ^ 8 * 2 ^ 8) at 2. rewrite Z.mul_mod_distr_r, Z.mod_mul by lia. reflexivity. }
    rewrite Z.lor_0_r, Z.mod_mod by lia.
    rewrite <- (Z.mul_mod x y) by lia.
    apply mod_mod_pow. lia.
  - rewrite !lane_one by lia.
    replace (255 / 2 ^ 8 mod 2 ^ 8) with 0 by reflexivity. rewrite Z.land_0_r, Z.lor_0_l.
    change (2 ^ 16) with (2 ^ 8 * 2 ^ 8) at 2. rewrite Z.mul_mod_distr_r, Z.div_mul, Z.mod_mod by lia.
    rewrite <- (Z.mul_mod (x / 2 ^ 8) (y / 2 ^ 8)) by lia.
    apply mod_mod_pow. lia.
Qed.

Lemma mul8_lw n : okw n 16 -> lw2 n 8 (mul8_epi16 n) (fun x y => (x * y) mod 2 ^ 8).
Proof.
  intros H. apply (lw2_fine n 2 8 _ (fun x y =>
     Z.lor (Z.land ((x * y) mod 2 ^ 16) 255) (((x / 2 ^ 8 * (y / 2 ^ 8)) mod 2 ^ 16 * 2 ^ 8) mod 2 ^ 16)));
    [lia|lia|exact H| |].
  - change (2 * 8) with 16. intros a b Ha Hb. unfold mul8_epi16, mm_or, mm_and. split.
    + apply in_reg_lor; [apply H| |apply in_reg_sll; assumption].
      apply in_reg_land; [apply H| |apply in_reg_set1; assumption]. apply in_reg_build. assumption.
    + intros i Hi. rewrite lane_lor, lane_land, lane_set1, lane_sll, !lane_mullo, !lane_srl by (assumption || lia).
      reflexivity.
  - intros. apply mul8_scalar; assumption.
Qed.

(** ** Shifts *)

Lemma testbit_mod_pow z n k : 0 <= k -> 0 <= n -> Z.testbit (z mod 2 ^ n) k = (k <? n) && Z.testbit z k.
Proof.
  intros. destruct (Z.ltb_spec k n); [apply Z.mod_pow2_bits_low; lia|apply Z.mod_pow2_bits_high; lia].
Qed.
Lemma testbit_mulpow z s k : 0 <= s -> 0 <= k -> Z.testbit (z * 2 ^ s) k = (s <=? k) && Z.testbit z (k - s).
Proof.
  intros. rewrite Z.mul_pow2_bits by lia. destruct (Z.leb_spec s k); [reflexivity|].
  rewrite Z.testbit_neg_r by lia. reflexivity.
Qed.
Lemma testbit_divpow z s k : 0 <= s -> 0 <= k -> Z.testbit (z / 2 ^ s) k = Z.testbit z (k + s).
Proof. intros. apply Z.div_pow2_bits; lia. Qed.
Lemma testbit_ones m k : 0 <= m -> 0 <= k -> Z.testbit (2 ^ m - 1) k = (k <? m).
Proof.
  intros. replace (2 ^ m - 1) with (Z.ones m) by (rewrite Z.ones_equiv; lia).
  rewrite Z.testbit_ones_nonneg by lia. reflexivity.
Qed.
Lemma testbit_ulane w x k : ulane w x -> w <= k -> Z.testbit x k = false.
Proof. intros. eapply testbit_small; eauto. Qed.

(** two's complement sign extension *)
Lemma testbit_to_s w x k : 0 < w -> ulane w x -> 0 <= k ->
  Z.testbit (to_s w x) k = Z.testbit x (Z.min k (w - 1)).
Proof.
  intros Hw Hx Hk.
  assert (E : to_s w x = x - Z.b2z (Z.testbit x (w - 1)) * 2 ^ w).
  { unfold ulane in Hx. rewrite Z.testbit_spec' by lia.
    assert (P : 2 ^ w = 2 ^ (w - 1) * 2).
    { replace w with ((w - 1) + 1) at 1 by lia. rewrite Z.pow_add_r by lia. reflexivity. }
    pose proof (pow2_pos (w - 1) ltac:(lia)).
    assert (Q : x / 2 ^ (w - 1) = if 2 ^ (w - 1) <=? x then 1 else 0).
    { destruct (Z.leb_spec (2 ^ (w - 1)) x).
      - symmetry. apply Z.div_unique with (x - 2 ^ (w - 1)); lia.
      - apply Z.div_small; lia. }
    rewrite Q. unfold to_s. cbv zeta. rewrite (Z.mod_small x) by lia.
    destruct (Z.leb_spec (2 ^ (w - 1)) x); destruct (Z.ltb_spec x (2 ^ (w - 1))); try lia.
    - change (1 mod 2) with 1. lia.
    - change (0 mod 2) with 0. lia. }
  destruct (Z.testbit x (w - 1)) eqn:B; rewrite E; cbn [Z.b2z].
  - replace (x - 1 * 2 ^ w) with (Z.lor (-1 * 2 ^ w) x) by (rewrite lor_disjoint by (exact Hx || lia); lia).
    rewrite Z.lor_spec, testbit_mulpow by lia.
    destruct (Z.leb_spec w k).
    + rewrite Z.bits_m1 by lia. rewrite Z.min_r by lia. rewrite B. reflexivity.
    + rewrite Z.min_l by lia. reflexivity.
  - rewrite Z.mul_0_l, Z.sub_0_r. destruct (Z.le_gt_cases w k).
    + rewrite Z.min_r, B by lia. eapply testbit_ulane; eauto.
    + rewrite Z.min_l by lia. reflexivity.
Qed.

(** versions without a condition on the bit index *)
Lemma tb_lane w i r k : 0 <= w -> 0 <= i ->
  Z.testbit (lane w i r) k = (0 <=? k) && (k <? w) && Z.testbit r (w * i + k).
Proof.
  intros. destruct (Z.leb_spec 0 k); [rewrite testbit_lane by lia; reflexivity|rewrite Z.testbit_neg_r by lia; reflexivity].
Qed.
Lemma tb_mod z n k : 0 <= n -> Z.testbit (z mod 2 ^ n) k = (k <? n) && Z.testbit z k.
Proof.
  intros. destruct (Z.leb_spec 0 k); [apply testbit_mod_pow; lia|].
  rewrite !Z.testbit_neg_r by lia. symmetry. apply andb_false_r.
Qed.
Lemma tb_mul z s k : 0 <= s -> Z.testbit (z * 2 ^ s) k = (s <=? k) && Z.testbit z (k - s).
Proof.
  intros. destruct (Z.leb_spec 0 k); [apply testbit_mulpow; lia|].
  rewrite !Z.testbit_neg_r by lia. symmetry. apply andb_false_r.
Qed.
Lemma tb_div z s k : 0 <= s -> Z.testbit (z / 2 ^ s) k = (0 <=? k) && Z.testbit z (k + s).
Proof.
  intros. destruct (Z.leb_spec 0 k); [apply testbit_divpow; lia|]. rewrite Z.testbit_neg_r by lia. reflexivity.
Qed.
Lemma tb_ones m k : 0 <= m -> Z.testbit (2 ^ m - 1) k = (0 <=? k) && (k <? m).
Proof.
  intros. destruct (Z.leb_spec 0 k); [apply testbit_ones; lia|]. rewrite Z.testbit_neg_r by lia. reflexivity.
Qed.
Lemma tb_lnot z k : Z.testbit (Z.lnot z) k = (0 <=? k) && negb (Z.testbit z k).
Proof.
  destruct (Z.leb_spec 0 k); [rewrite Z.lnot_spec by lia; reflexivity|]. rewrite Z.testbit_neg_r by lia. reflexivity.
Qed.
Lemma tb_to_s w x k : 0 < w -> ulane w x -> Z.testbit (to_s w x) k = (0 <=? k) && Z.testbit x (Z.min k (w - 1)).
Proof.
  intros. destruct (Z.leb_spec 0 k); [apply testbit_to_s; lia || assumption|]. rewrite Z.testbit_neg_r by lia. reflexivity.
Qed.

Ltac bitspec :=
  repeat first [ rewrite Z.lor_spec | rewrite Z.land_spec | rewrite Z.lxor_spec | rewrite tb_lnot | rewrite tb_lane by lia
        | rewrite tb_mod by lia | rewrite tb_mul by lia | rewrite tb_div by lia | rewrite tb_ones by lia ].

(** decide every comparison that the context decides *)
Ltac decb :=
  repeat match goal with
  | |- context [?a <? ?b] => first [replace (a <? b) with true by lia | replace (a <? b) with false by lia]
  | |- context [?a <=? ?b] => first [replace (a <=? b) with true by lia | replace (a <=? b) with false by lia]
  | |- context [?a =? ?b] => first [replace (a =? b) with true by lia | replace (a =? b) with false by lia]
  end; cbn [andb orb negb xorb].
(** close a goal about booleans built from [Z.testbit x _] *)
Ltac tbclose :=
  rewrite ?andb_true_r, ?andb_false_r, ?orb_true_r, ?orb_false_r; cbn [andb orb negb xorb];
  first [ reflexivity | f_equal; lia
        | repeat match goal with |- context [Z.testbit ?x ?k] => destruct (Z.testbit x k) end; reflexivity ].

Lemma shl_2n_scalar m s x j : 0 < m -> 0 <= s < m -> ulane (2 * m) x -> 0 <= j < 2 ->
  lane m j (Z.lor ((Z.land x ((2 ^ m - 1) * 2 ^ m) * 2 ^ s) mod 2 ^ (2 * m))
                  (Z.land ((x * 2 ^ s) mod 2 ^ (2 * m)) (2 ^ m - 1))) =
  (lane m j x * 2 ^ s) mod 2 ^ m.
Proof.
  intros Hm Hs Hx Hj. apply Z.bits_inj'. intros q Hq.
  assert (j = 0 \/ j = 1) as [-> | ->] by lia; bitspec;
    (destruct (Z.ltb_spec q m); [|decb; tbclose]);
    (destruct (Z.leb_spec s q); decb; tbclose).
Qed.
Lemma shr_2n_scalar m s x j : 0 < m -> 0 <= s < m -> ulane (2 * m) x -> 0 <= j < 2 ->
  lane m j (Z.lor (Z.land x (2 ^ m - 1) / 2 ^ s) (Z.land (x / 2 ^ s) ((2 ^ m - 1) * 2 ^ m))) = lane m j x / 2 ^ s.
Proof.
  intros Hm Hs Hx Hj. apply Z.bits_inj'. intros q Hq.
  assert (j = 0 \/ j = 1) as [-> | ->] by lia; bitspec;
    (destruct (Z.ltb_spec q m); [|decb; tbclose]);
    (destruct (Z.ltb_spec (q + s) m); decb; try tbclose).
  rewrite (testbit_ulane (2 * m) x) by (assumption || lia). reflexivity.
Qed.

(** the masks of [with_32_for_8] *)
Lemma tb_ff00ff k : Z.testbit 0xFF00FF k = (0 <=? k) && ((k <? 8) || ((16 <=? k) && (k <? 24))).
Proof.
  change 0xFF00FF with (Z.lor (2 ^ 8 - 1) ((2 ^ 8 - 1) * 2 ^ 16)). bitspec.
  destruct (Z.leb_spec 0 k), (Z.ltb_spec k 8), (Z.leb_spec 16 k), (Z.ltb_spec k 24); decb; tbclose.
Qed.
Lemma tb_ff00ff00 k : Z.testbit 0xFF00FF00 k = ((8 <=? k) && (k <? 16)) || ((24 <=? k) && (k <? 32)).
Proof.
  change 0xFF00FF00 with (Z.lor ((2 ^ 8 - 1) * 2 ^ 8) ((2 ^ 8 - 1) * 2 ^ 24)). bitspec.
  destruct (Z.leb_spec 8 k), (Z.ltb_spec k 16), (Z.leb_spec 24 k), (Z.ltb_spec k 32); decb; tbclose.
Qed.

Lemma shl_32_scalar s x j : 0 <= s < 8 -> ulane 32 x -> 0 <= j < 4 ->
  lane 8 j (Z.lor (Z.land ((Z.land x 0xFF00FF00 * 2 ^ s) mod 2 ^ 32) 0xFF00FF00)
                  (Z.land ((Z.land x 0xFF00FF * 2 ^ s) mod 2 ^ 32) 0xFF00FF)) =
  (lane 8 j x * 2 ^ s) mod 2 ^ 8.
Proof.
  intros Hs Hx Hj. apply Z.bits_inj'. intros q Hq.
  assert (j = 0 \/ j = 1 \/ j = 2 \/ j = 3) as [-> | [-> | [-> | ->]]] by lia; bitspec;
    rewrite ?tb_ff00ff, ?tb_ff00ff00;
    (destruct (Z.ltb_spec q 8); [|decb; tbclose]);
    (destruct (Z.leb_spec s q); decb; tbclose).
Qed.
Lemma shr_32_scalar s x j : 0 <= s < 8 -> ulane 32 x -> 0 <= j < 4 ->
  lane 8 j (Z.lor (Z.land (Z.land x 0xFF00FF00 / 2 ^ s) 0xFF00FF00)
                  (Z.land (Z.land x 0xFF00FF / 2 ^ s) 0xFF00FF)) = lane 8 j x / 2 ^ s.
Proof.
  intros Hs Hx Hj. apply Z.bits_inj'. intros q Hq.
  assert (j = 0 \/ j = 1 \/ j = 2 \/ j = 3) as [-> | [-> | [-> | ->]]] by lia; bitspec;
    rewrite ?tb_ff00ff, ?tb_ff00ff00;
    (destruct (Z.ltb_spec q 8); [|decb; tbclose]);
    (destruct (Z.ltb_spec (q + s) 8); decb; tbclose).
Qed.

Lemma shra8_scalar s x j : 0 <= s < 8 -> ulane 16 x -> 0 <= j < 2 ->
  lane 8 j (Z.lor (Z.land (Z.lnot 255) ((to_s 16 x / 2 ^ s) mod 2 ^ 16))
                  (((to_s 16 ((x * 2 ^ 8) mod 2 ^ 16) / 2 ^ s) mod 2 ^ 16) / 2 ^ 8)) =
  (to_s 8 (lane 8 j x) / 2 ^ s) mod 2 ^ 8.
Proof.
  intros Hs Hx Hj. apply Z.bits_inj'. intros q Hq.
  assert (Hl : ulane 8 (lane 8 j x)) by (apply lane_range; lia).
  assert (Hm : ulane 16 ((x * 2 ^ 8) mod 2 ^ 16)) by (apply Z.mod_pos_bound; lia).
  change 255 with (2 ^ 8 - 1). bitspec. rewrite !tb_to_s by (assumption || lia). bitspec.
  (destruct (Z.ltb_spec q 8); [|decb; tbclose]).
  assert (j = 0 \/ j = 1) as [-> | ->] by lia; decb; tbclose.
Qed.

Lemma shl_2n_lw n m s : 0 < m -> 2 * m <= 64 -> okw n (2 * m) -> 0 <= s < m ->
  lw1 n m (fun a => shl_2n n m a s) (fun x => (x * 2 ^ s) mod 2 ^ m).
Proof.
  intros Hm Hm2 H Hs. apply (lw1_fine n 2 m _ (fun x =>
    Z.lor ((Z.land x ((2 ^ m - 1) * 2 ^ m) * 2 ^ s) mod 2 ^ (2 * m))
          (Z.land ((x * 2 ^ s) mod 2 ^ (2 * m)) (2 ^ m - 1)))); [lia|lia|assumption| |].
  - intros a Ha. unfold shl_2n, mm_or, mm_and. split.
    + apply in_reg_lor; [apply H|apply in_reg_sll; assumption|].
      apply in_reg_land; [apply H|apply in_reg_sll; assumption|apply in_reg_set1; assumption].
    + intros i Hi. rewrite lane_lor, lane_land, !lane_sll, lane_land, !lane_set1 by (assumption || lia).
      pose proof (pow2_pos m ltac:(lia)).
      assert (P : 2 ^ (2 * m) = 2 ^ m * 2 ^ m) by (rewrite <- Z.pow_add_r by lia; f_equal; lia).
      rewrite !(Z.mod_small (2 ^ m - 1)), (Z.mod_small ((2 ^ m - 1) * 2 ^ m)) by nia. reflexivity.
  - intros. apply shl_2n_scalar; assumption || lia.
Qed.
Lemma shr_2n_lw n m s : 0 < m -> 2 * m <= 64 -> okw n (2 * m) -> 0 <= s < m ->
  lw1 n m (fun a => shr_2n n m a s) (fun x => x / 2 ^ s).
Proof.
  intros Hm Hm2 H Hs. apply (lw1_fine n 2 m _ (fun x =>
    Z.lor (Z.land x (2 ^ m - 1) / 2 ^ s) (Z.land (x / 2 ^ s) ((2 ^ m - 1) * 2 ^ m)))); [lia|lia|assumption| |].
  - intros a Ha. unfold shr_2n, mm_or, mm_and. split.
    + apply in_reg_lor; [apply H|apply in_reg_srl; assumption|].
      apply in_reg_land; [apply H|apply in_reg_srl; assumption|apply in_reg_set1; assumption].
    + intros i Hi. rewrite lane_lor, lane_land, !lane_srl, lane_land, !lane_set1 by (assumption || lia).
      pose proof (pow2_pos m ltac:(lia)).
      assert (P : 2 ^ (2 * m) = 2 ^ m * 2 ^ m) by (rewrite <- Z.pow_add_r by lia; f_equal; lia).
      rewrite !(Z.mod_small (2 ^ m - 1)), (Z.mod_small ((2 ^ m - 1) * 2 ^ m)) by nia. reflexivity.
  - intros. apply shr_2n_scalar; assumption || lia.
Qed.
Lemma shl_32_lw n s : okw n 32 -> 0 <= s < 8 ->
  lw1 n 8 (fun a => sh_32_for_8 n (mm_sll n 32) a s) (fun x => (x * 2 ^ s) mod 2 ^ 8).
Proof.
  intros H Hs. apply (lw1_fine n 4 8 _ (fun x =>
    Z.lor (Z.land ((Z.land x 0xFF00FF00 * 2 ^ s) mod 2 ^ 32) 0xFF00FF00)
          (Z.land ((Z.land x 0xFF00FF * 2 ^ s) mod 2 ^ 32) 0xFF00FF))); [lia|lia|exact H| |].
  - change (4 * 8) with 32. intros a Ha. unfold sh_32_for_8, mm_or, mm_and. cbv zeta. split.
    + apply in_reg_lor; [apply H| |]; apply in_reg_land; try apply H;
        (apply in_reg_sll; assumption) || (apply in_reg_set1; assumption).
    + intros i Hi. rewrite lane_lor, !lane_land, !lane_sll, !lane_land, !lane_set1 by (assumption || lia). reflexivity.
  - intros. apply shl_32_scalar; assumption || lia.
Qed.
Lemma shr_32_lw n s : okw n 32 -> 0 <= s < 8 ->
  lw1 n 8 (fun a => sh_32_for_8 n (mm_srl n 32) a s) (fun x => x / 2 ^ s).
Proof.
  intros H Hs. apply (lw1_fine n 4 8 _ (fun x =>
    Z.lor (Z.land (Z.land x 0xFF00FF00 / 2 ^ s) 0xFF00FF00)
          (Z.land (Z.land x 0xFF00FF / 2 ^ s) 0xFF00FF))); [lia|lia|exact H| |].
  - change (4 * 8) with 32. intros a Ha. unfold sh_32_for_8, mm_or, mm_and. cbv zeta. split.
    + apply in_reg_lor; [apply H| |]; apply in_reg_land; try apply H;
        (apply in_reg_srl; assumption) || (apply in_reg_set1; assumption).
    + intros i Hi. rewrite lane_lor, !lane_land, !lane_srl, !lane_land, !lane_set1 by (assumption || lia). reflexivity.
  - intros. apply shr_32_scalar; assumption || lia.
Qed.
Lemma shra8_lw n s : okw n 16 -> 0 <= s < 8 ->
  lw1 n 8 (fun a => shra8 n a s) (fun x => (to_s 8 x / 2 ^ s) mod 2 ^ 8).
Proof.
  intros H Hs. apply (lw1_fine n 2 8 _ (fun x =>
    Z.lor (Z.land (Z.lnot 255) ((to_s 16 x / 2 ^ s) mod 2 ^ 16))
          (((to_s 16 ((x * 2 ^ 8) mod 2 ^ 16) / 2 ^ s) mod 2 ^ 16) / 2 ^ 8))); [lia|lia|exact H| |].
  - change (2 * 8) with 16. intros a Ha. unfold shra8, mm_or, mm_andnot. cbv zeta. split.
    + apply in_reg_lor; [apply H| |apply in_reg_srl; assumption]. apply in_reg_andnot; [apply H|apply in_reg_sra; assumption].
    + intros i Hi. rewrite lane_lor, lane_andnot, lane_srl, !lane_sra, lane_sll, lane_set1 by (assumption || lia).
      reflexivity.
  - intros. apply shra8_scalar; assumption || lia.
Qed.
Lemma sll_lw n w s : okw n w -> w <= 64 -> 0 <= s < w -> lw1 n w (fun a => mm_sll n w a s) (fun x => (x * 2 ^ s) mod 2 ^ w).
Proof. intros H Hw Hs a Ha. split; [apply in_reg_sll; assumption|]. intros. apply lane_sll; assumption. Qed.
Lemma srl_lw n w s : okw n w -> w <= 64 -> 0 <= s < w -> lw1 n w (fun a => mm_srl n w a s) (fun x => x / 2 ^ s).
Proof. intros H Hw Hs a Ha. split; [apply in_reg_srl; assumption|]. intros. apply lane_srl; assumption. Qed.
Lemma sra_lw n w s : okw n w -> w <= 64 -> 0 <= s < w ->
  lw1 n w (fun a => mm_sra n w a s) (fun x => (to_s w x / 2 ^ s) mod 2 ^ w).
Proof. intros H Hw Hs a Ha. split; [apply in_reg_sra; assumption|]. intros. apply lane_sra; assumption. Qed.

Lemma x_shl_lw e t s : In t int_types -> 0 <= s < bits t ->
  lw1 (nb e) (bits t) (fun a => x_shl e t a s) (fun x => (x * 2 ^ s) mod 2 ^ bits t).
Proof.
  intros H Hs. ext_cases e H; cbn [bits i8 u8 i16 u16 i32 u32 i64 u64] in *;
  first [ solve [refine (sll_lw _ _ s _ _ _); try okw; try lia]
        | solve [refine (shl_2n_lw _ _ s _ _ _ _); try okw; try lia]
        | solve [refine (shl_32_lw _ s _ _); try okw; try lia]
        | solve [refine (split1_lw 128 _ _ _ _ (sll_lw 128 _ s _ _ _)); try okw; try lia]
        | solve [refine (split1_lw 128 _ _ _ _ (shl_2n_lw 128 _ s _ _ _ _)); try okw; try lia] ].
Qed.
Lemma x_shr_lw e t s : In t int_types -> 0 <= s < bits t ->
  lw1 (nb e) (bits t) (fun a => x_shr e t a s) (fun x => x / 2 ^ s).
Proof.
  intros H Hs. ext_cases e H; cbn [bits i8 u8 i16 u16 i32 u32 i64 u64] in *;
  first [ solve [refine (srl_lw _ _ s _ _ _); try okw; try lia]
        | solve [refine (shr_2n_lw _ _ s _ _ _ _); try okw; try lia]
        | solve [refine (shr_32_lw _ s _ _); try okw; try lia]
        | solve [refine (split1_lw 128 _ _ _ _ (srl_lw 128 _ s _ _ _)); try okw; try lia]
        | solve [refine (split1_lw 128 _ _ _ _ (shr_2n_lw 128 _ s _ _ _ _)); try okw; try lia] ].
Qed.
