(** Division, fused operators, mask conversions and reductions. *)
From Coq Require Import ZArith Lia List Bool ZifyBool.
From Verif Require Import CInt BitLemmas ScalarOps ScalarSpec ScalarProofs X86Deg234 X86Arith X86ArithSpec
  X86LaneLemmas X86ArithProofs X86EmulProofs X86LogicProofs X86SelectProofs.
Import ListNotations.
Open Scope Z_scope.

(** ** Reductions *)

Lemma mask_all m k : 0 <= k -> 0 <= m < 2 ^ k ->
  (m =? 2 ^ k - 1) = true <-> (forall i, 0 <= i < k -> Z.testbit m i = true).
Proof.
  intros Hk Hm. rewrite Z.eqb_eq. split.
  - intros -> i Hi. rewrite testbit_ones by lia. lia.
  - intros A. apply Z.bits_inj'. intros q Hq. rewrite testbit_ones by lia. destruct (Z.ltb_spec q k).
    + apply A. lia.
    + apply (testbit_small m k); lia.
Qed.
Lemma mask_any m k : 0 <= k -> 0 <= m < 2 ^ k ->
  negb (m =? 0) = true <-> (exists i, 0 <= i < k /\ Z.testbit m i = true).
Proof.
  intros Hk Hm. rewrite negb_true_iff, Z.eqb_neq. split.
  - intros N. exists (Z.log2 m). assert (0 < m) by lia. split.
    + split; [apply Z.log2_nonneg|]. apply Z.log2_lt_pow2; lia.
    + apply Z.bit_log2. lia.
  - intros (i & _ & T) ->. rewrite Z.bits_0 in T. discriminate.
Qed.

(** a logical of wide lanes seen as a logical of bytes *)
Lemma reg_logical_bytes n k l p : okw n (8 * k) -> 0 < k -> reg_logical n (8 * k) l p ->
  okw n 8 /\ n / 8 = k * (n / (8 * k)) /\ forall j, 0 <= j < n / 8 -> Z.testbit (mm_movemask n 8 l) j = p (j / k).
Proof.
  intros H Hk L. destruct (okw_fine n k 8 Hk ltac:(lia) ltac:(rewrite Z.mul_comm; exact H)) as [O8 E8].
  rewrite (Z.mul_comm k 8) in E8. split; [exact O8|]. split; [exact E8|]. intros j Hj.
  pose proof (Z.div_mod j k ltac:(lia)) as D. pose proof (Z.mod_pos_bound j k ltac:(lia)) as M.
  assert (Q : 0 <= j / k < n / (8 * k)) by (split; [apply Z.div_pos; lia|apply Z.div_lt_upper_bound; lia]).
  rewrite testbit_movemask by assumption. rewrite tb_lane by lia. decb. cbn [andb].
  destruct L as [_ L]. specialize (L _ Q).
  pose proof (tb_lane (8 * k) (j / k) l (8 * (j mod k) + 7) ltac:(lia) ltac:(lia)) as T. rewrite L in T.
  replace (0 <=? 8 * (j mod k) + 7) with true in T by lia. replace (8 * (j mod k) + 7 <? 8 * k) with true in T by lia.
  cbn [andb] in T. replace (8 * j + (8 - 1)) with (8 * k * (j / k) + (8 * (j mod k) + 7)) by lia. rewrite <- T.
  destruct (p (j / k)); [rewrite tb_ones by lia; decb; reflexivity|apply Z.bits_0].
Qed.

Lemma bits_bytes t : In t int_types -> exists k, 0 < k /\ bits t = 8 * k.
Proof. intros H. exists (bits t / 8). ty_cases H; split; reflexivity. Qed.

Lemma movemask_all n k l p : okw n (8 * k) -> 0 < k -> reg_logical n (8 * k) l p ->
  (mm_movemask n 8 l =? 2 ^ (n / 8) - 1) = true <-> (forall i, 0 <= i < n / (8 * k) -> p i = true).
Proof.
  intros H Hk L. destruct (reg_logical_bytes n k l p H Hk L) as (O8 & E8 & T).
  assert (0 <= n / 8) by (apply Z.div_pos; destruct O8; lia).
  rewrite mask_all by (try apply movemask_range; assumption). split.
  - intros A i Hi. specialize (A (k * i) ltac:(nia)). rewrite T in A by nia.
    rewrite Z.mul_comm, Z.div_mul in A by lia. exact A.
  - intros A j Hj. rewrite T by assumption. apply A. split; [apply Z.div_pos; lia|apply Z.div_lt_upper_bound; lia].
Qed.
Lemma movemask_any n k l p : okw n (8 * k) -> 0 < k -> reg_logical n (8 * k) l p ->
  negb (mm_movemask n 8 l =? 0) = true <-> (exists i, 0 <= i < n / (8 * k) /\ p i = true).
Proof.
  intros H Hk L. destruct (reg_logical_bytes n k l p H Hk L) as (O8 & E8 & T).
  assert (0 <= n / 8) by (apply Z.div_pos; destruct O8; lia).
  rewrite (mask_any _ (n / 8)) by (try apply movemask_range; assumption). split.
  - intros (j & Hj & A). rewrite T in A by assumption. exists (j / k). split; [|exact A].
    split; [apply Z.div_pos; lia|apply Z.div_lt_upper_bound; lia].
  - intros (i & Hi & A). exists (k * i). split; [nia|]. rewrite T by nia.
    rewrite Z.mul_comm, Z.div_mul by lia. exact A.
Qed.

Lemma reg_logical_halves m w l p : okw m w -> reg_logical (2 * m) w l p ->
  reg_logical m w (mm_lo (2 * m) l) p /\ reg_logical m w (mm_hi (2 * m) l) (fun i => p (m / w + i)).
Proof.
  intros O [R L]. pose proof O as (Hw & Hm & _). destruct (okw_double m w O) as [_ E2]. split; split.
  - apply in_reg_lo. assumption.
  - intros i Hi. rewrite lane_lo, L by (assumption || lia). reflexivity.
  - apply in_reg_hi; assumption.
  - intros i Hi. rewrite lane_hi, L by (assumption || lia). reflexivity.
Qed.

Lemma to_s32_m1 m : 0 <= m < 2 ^ 32 -> (to_s 32 m =? -1) = (m =? 2 ^ 32 - 1).
Proof. intros. unfold to_s. cbv zeta. rewrite Z.mod_small by lia. destruct (Z.ltb_spec m (2 ^ (32 - 1))); lia. Qed.
Lemma to_s32_0 m : 0 <= m < 2 ^ 32 -> (to_s 32 m =? 0) = (m =? 0).
Proof. intros. unfold to_s. cbv zeta. rewrite Z.mod_small by lia. destruct (Z.ltb_spec m (2 ^ (32 - 1))); lia. Qed.

Lemma x_all_ok e t l p : In t int_types -> logical e t l p ->
  x_all e t l = true <-> (forall i, 0 <= i < nb e / bits t -> p i = true).
Proof.
  intros H L. pose proof (okw_nb e t H) as O. destruct (bits_bytes t H) as (k & Hk & Ek).
  destruct (is512 e) eqn:E5.
  - pose proof (proj1 (logical_mask e t l p E5) L) as [R T].
    assert (N : nb e = 512) by (destruct e; try discriminate E5; reflexivity).
    assert (X : x_all e t l = (l =? 2 ^ (nb e / bits t) - 1)).
    { rewrite N. unfold x_all. destruct e; try discriminate E5; ty_cases H; reflexivity. }
    rewrite X, mask_all by (try exact R; apply Z.div_pos; destruct O; lia).
    split; intros A i Hi; specialize (A i Hi); rewrite T in * by assumption; exact A.
  - pose proof (proj1 (logical_reg e t l p E5) L) as RL. rewrite Ek in RL, O |- *.
    destruct e; try discriminate E5; cbn [nb x_all] in *.
    + exact (movemask_all 128 k l p O Hk RL).
    + exact (movemask_all 128 k l p O Hk RL).
    + assert (O1 : okw 128 (8 * k)) by (rewrite <- Ek; ty_cases H; okw).
      destruct (reg_logical_halves 128 (8 * k) l p O1 RL) as [L0 L1].
      destruct (okw_double 128 (8 * k) O1) as [_ E2]. change (2 * 128) with 256 in *.
      rewrite andb_true_iff.
      change 65535 with (2 ^ (128 / 8) - 1). rewrite (movemask_all 128 k _ _ O1 Hk L0), (movemask_all 128 k _ _ O1 Hk L1).
      split.
      * intros [A B] i Hi. destruct (Z.lt_ge_cases i (128 / (8 * k))).
        -- apply A. lia.
        -- specialize (B (i - 128 / (8 * k)) ltac:(lia)). cbv beta in B. rewrite <- B. f_equal. lia.
      * intros A. split; intros i Hi; apply A; lia.
    + rewrite to_s32_m1 by (apply (movemask_range 256 8); okw).
      exact (movemask_all 256 k l p O Hk RL).
Qed.

Lemma x_any_ok e t l p : In t int_types -> logical e t l p ->
  x_any e t l = true <-> (exists i, 0 <= i < nb e / bits t /\ p i = true).
Proof.
  intros H L. pose proof (okw_nb e t H) as O. destruct (bits_bytes t H) as (k & Hk & Ek).
  destruct (is512 e) eqn:E5.
  - pose proof (proj1 (logical_mask e t l p E5) L) as [R T].
    assert (X : x_any e t l = negb (l =? 0)) by (destruct e; try discriminate E5; reflexivity).
    rewrite X, (mask_any _ (nb e / bits t)) by (try exact R; apply Z.div_pos; destruct O; lia).
    split; intros (i & Hi & A); exists i; (split; [assumption|]); rewrite T in * by assumption; exact A.
  - pose proof (proj1 (logical_reg e t l p E5) L) as RL. rewrite Ek in RL, O |- *.
    destruct e; try discriminate E5; cbn [nb x_any] in *.
    + exact (movemask_any 128 k l p O Hk RL).
    + exact (movemask_any 128 k l p O Hk RL).
    + assert (O1 : okw 128 (8 * k)) by (rewrite <- Ek; ty_cases H; okw).
      destruct (reg_logical_halves 128 (8 * k) l p O1 RL) as [L0 L1].
      destruct (okw_double 128 (8 * k) O1) as [_ E2]. change (2 * 128) with 256 in *.
      rewrite orb_true_iff, (movemask_any 128 k _ _ O1 Hk L0), (movemask_any 128 k _ _ O1 Hk L1). split.
      * intros [(i & Hi & A)|(i & Hi & A)]; [exists i|exists (128 / (8 * k) + i)]; (split; [lia|exact A]).
      * intros (i & Hi & A). destruct (Z.lt_ge_cases i (128 / (8 * k))).
        -- left. exists i. split; [lia|exact A].
        -- right. exists (i - 128 / (8 * k)). split; [lia|]. rewrite <- A. f_equal. lia.
    + rewrite to_s32_0 by (apply (movemask_range 256 8); okw).
      exact (movemask_any 256 k l p O Hk RL).
Qed.

(** counting *)
Lemma count_true_ext k p q : (forall i, 0 <= i < k -> p i = q i) -> count_true k p = count_true k q.
Proof.
  intros E. unfold count_true. f_equal. apply filter_ext_len. intros x Hx. apply in_seq in Hx. apply E. lia.
Qed.
Lemma count_true_S k p : 0 <= k -> count_true (k + 1) p = count_true k p + Z.b2z (p k).
Proof.
  intros Hk. unfold count_true. rewrite Z.add_1_r, Z2Nat.inj_succ by lia. rewrite seq_S, filter_app, app_length, Nat2Z.inj_add.
  f_equal. cbn [filter Nat.add]. rewrite Z2Nat.id by lia. destruct (p k); reflexivity.
Qed.
Lemma count_true_app k m p : 0 <= k -> 0 <= m -> count_true (k + m) p = count_true k p + count_true m (fun i => p (k + i)).
Proof.
  intros Hk Hm. revert m Hm. apply natlike_ind.
  - rewrite Z.add_0_r. unfold count_true at 3. cbn. lia.
  - intros m Hm IH. unfold Z.succ. rewrite Z.add_assoc, !count_true_S, IH by lia. lia.
Qed.
Lemma count_true_false k p : (forall i, 0 <= i < k -> p i = false) -> count_true k p = 0.
Proof.
  intros E. rewrite (count_true_ext k p (fun _ => false) E). unfold count_true.
  replace (filter _ _) with (@nil nat); [reflexivity|]. generalize 0%nat. induction (Z.to_nat k) as [|j IH]; intros s; [reflexivity|].
  cbn. apply IH.
Qed.
Lemma count_true_double k p : 0 <= k -> count_true (2 * k) (fun j => p (j / 2)) = 2 * count_true k p.
Proof.
  revert k. apply natlike_ind; [reflexivity|]. intros k Hk IH. unfold Z.succ.
  replace (2 * (k + 1)) with (2 * k + 1 + 1) by lia. rewrite !count_true_S, IH by lia.
  replace (2 * k / 2) with k by (rewrite Z.mul_comm, Z.div_mul; lia).
  replace ((2 * k + 1) / 2) with k by (apply (Z.div_unique _ _ _ 1); lia). lia.
Qed.
Lemma ones_below_count (n : nat) m k : 0 <= k <= Z.of_nat n -> 0 <= m < 2 ^ k ->
  ones_below n m = count_true k (Z.testbit m).
Proof.
  intros Hk Hm. transitivity (count_true (Z.of_nat n) (Z.testbit m)).
  - unfold ones_below, count_true. rewrite Nat2Z.id. reflexivity.
  - replace (Z.of_nat n) with (k + (Z.of_nat n - k)) by lia. rewrite count_true_app by lia.
    rewrite (count_true_false (Z.of_nat n - k)); [lia|]. intros i Hi. apply (testbit_small m k); lia.
Qed.

Lemma nbtrue_reg_ok n t l p : In t int_types -> (n = 128 \/ n = 256) -> reg_logical n (bits t) l p ->
  nbtrue_reg n t l = count_true (n / bits t) p.
Proof.
  intros H Hn RL. assert (O : okw n (bits t)) by (destruct Hn as [-> | ->]; ty_cases H; okw).
  assert (O8 : okw n 8) by (destruct Hn as [-> | ->]; okw).
  pose proof (movemask_range n 8 l O8) as R8. pose proof (movemask_range n (bits t) l O) as Rw.
  assert (K8 : 0 <= n / 8 <= 32) by (destruct Hn as [-> | ->]; cbn; lia).
  assert (Kw : 0 <= n / bits t <= 32) by (destruct Hn as [-> | ->]; ty_cases H; cbn; lia).
  assert (P32 : forall k m, 0 <= k <= 32 -> 0 <= m < 2 ^ k -> popcnt32 (to_u 32 m) = count_true k (Z.testbit m)).
  { intros k m Hk Hm. rewrite to_u_id. 2:{ pose proof (Z.pow_le_mono_r 2 k 32 ltac:(lia) ltac:(lia)). unfold in_u. lia. }
    rewrite popcnt32_ok. apply ones_below_count; assumption. }
  unfold nbtrue_reg. destruct (Z.eqb_spec (bits t) 8) as [E|E].
  - rewrite (P32 (n / 8)) by assumption. rewrite E. apply count_true_ext. intros i Hi.
    rewrite testbit_movemask by assumption. apply (reg_logical_msb n 8 l p); rewrite <- ?E; try assumption. rewrite E. assumption.
  - destruct (Z.eqb_spec (bits t) 16) as [E1|E1].
    + rewrite (P32 (n / 8)) by assumption. rewrite E1 in *.
      destruct (reg_logical_bytes n 2 l p O ltac:(lia) RL) as (_ & E8 & T).
      change (8 * 2) with 16 in *. rewrite (count_true_ext _ _ _ T), E8. rewrite count_true_double by lia.
      rewrite shiftr_div by lia. change (2 ^ 1) with 2. rewrite Z.mul_comm, Z.div_mul by lia. reflexivity.
    + rewrite (P32 (n / bits t)) by assumption. apply count_true_ext. intros i Hi.
      rewrite testbit_movemask by assumption. apply (reg_logical_msb n (bits t) l p); assumption.
Qed.

Lemma x_nbtrue_ok e t l p : In t int_types -> logical e t l p -> x_nbtrue e t l = count_true (nb e / bits t) p.
Proof.
  intros H L. pose proof (okw_nb e t H) as O.
  destruct (is512 e) eqn:E5.
  - pose proof (proj1 (logical_mask e t l p E5) L) as [R T].
    assert (X : x_nbtrue e t l = popcnt64 l) by (destruct e; try discriminate E5; reflexivity).
    rewrite X, popcnt64_ok. rewrite (ones_below_count 64 l (nb e / bits t)).
    + apply count_true_ext. exact T.
    + destruct e; try discriminate E5; ty_cases H; cbn; lia.
    + exact R.
  - pose proof (proj1 (logical_reg e t l p E5) L) as RL.
    destruct e; try discriminate E5; cbn [nb x_nbtrue] in *; try (apply nbtrue_reg_ok; auto; fail).
    destruct (wide t); [apply nbtrue_reg_ok; auto|].
    assert (O1 : okw 128 (bits t)) by (ty_cases H; okw).
    destruct (reg_logical_halves 128 (bits t) l p O1 RL) as [L0 L1].
    destruct (okw_double 128 (bits t) O1) as [_ E2]. change (2 * 128) with 256 in *.
    rewrite (nbtrue_reg_ok 128 t _ _ H (or_introl eq_refl) L0), (nbtrue_reg_ok 128 t _ _ H (or_introl eq_refl) L1).
    assert (0 <= 128 / bits t) by (apply Z.div_pos; destruct O1; lia).
    replace (256 / bits t) with (128 / bits t + 128 / bits t) by lia. rewrite count_true_app by assumption. reflexivity.
Qed.

(** ** Masks and memory logicals *)

Lemma loadl_512_ok t v k : 0 <= loadl_512 t v k < 2 ^ Z.of_nat k /\
  forall i, 0 <= i < Z.of_nat k -> Z.testbit (loadl_512 t v k) i = negb (lane (bits t) i v =? 0).
Proof.
  induction k as [|k [IR IT]]; [split; [cbn; lia|lia]|].
  cbn [loadl_512]. cbv zeta. set (r := loadl_512 t v k) in *.
  pose proof (pow2_pos (Z.of_nat k) ltac:(lia)) as P. rewrite Nat2Z.inj_succ, Z.pow_succ_r by lia.
  destruct (Z.eqb_spec (lane (bits t) (Z.of_nat k) v) 0) as [E|E].
  - split; [lia|]. intros i Hi. destruct (Z.eq_dec i (Z.of_nat k)) as [->|].
    + rewrite E. apply (testbit_small r (Z.of_nat k)); lia.
    + apply IT. lia.
  - assert (D : Z.lor r (2 ^ Z.of_nat k) = 2 ^ Z.of_nat k + r).
    { rewrite Z.lor_comm. replace (2 ^ Z.of_nat k) with (1 * 2 ^ Z.of_nat k) by lia. apply lor_disjoint; lia. }
    split; [lia|]. intros i Hi. rewrite Z.lor_spec. destruct (Z.eq_dec i (Z.of_nat k)) as [->|].
    + rewrite Z.pow2_bits_true by lia. rewrite orb_true_r. apply Z.eqb_neq in E. rewrite E. reflexivity.
    + rewrite Z.pow2_bits_false by lia. rewrite orb_false_r. apply IT. lia.
Qed.

Lemma elt_zero_lane t v i : In t int_types -> (elt t v i =? 0) = (lane (bits t) i v =? 0).
Proof.
  intros H. pose proof (bits_pos t H). rewrite <- (cast_inj_lane t (lane (bits t) i v) 0 H).
  - rewrite <- elt_lane. f_equal. symmetry. apply cast_id; [assumption|]. pose proof (cast_in_ty t 0 H) as C.
    unfold in_ty, ty_min, ty_max. pose proof (pow2_pos (bits t) ltac:(lia)). pose proof (pow2_pos (bits t - 1) ltac:(lia)).
    destruct (is_signed t); lia.
  - apply lane_range. lia.
  - apply ulane_0. lia.
Qed.

Lemma x_loadl_ok e t v : In t int_types -> in_reg (nb e) v -> logical e t (x_loadl e t v) (fun i => negb (elt t v i =? 0)).
Proof.
  intros H Hv. pose proof (okw_nb e t H) as O. unfold x_loadl. destruct (is512 e) eqn:E.
  - apply logical_mask; [assumption|]. pose proof (le_z e t H) as LZ.
    destruct (loadl_512_ok t v (Z.to_nat (le e t))) as [R T]. rewrite LZ in *. split; [exact R|].
    intros i Hi. rewrite T, elt_zero_lane by assumption. reflexivity.
  - assert (Rs : in_reg (nb e) (x_set1 e t 0)) by (apply in_reg_set1; assumption).
    eapply logical_ext; [apply x_notl_ok; [assumption|]; apply x_eq_ok; assumption|].
    intros i Hi. cbv beta. f_equal. rewrite !elt_lane. rewrite cast_inj_lane by (assumption || (apply lane_range; destruct O; lia)).
    unfold x_set1. rewrite lane_set1 by assumption. rewrite Z.mod_0_l by (apply pow_bits_nz; assumption).
    rewrite <- elt_lane, elt_zero_lane by assumption. reflexivity.
Qed.

Lemma one_in t : In t int_types -> in_ty t 1 /\ in_ty t 0 /\ 1 mod 2 ^ bits t = 1.
Proof. intros H. ty_cases H; repeat split; vm_compute; discriminate. Qed.

Lemma x_storel_ok e t l p : In t int_types -> logical e t l p ->
  vector e t (x_storel e t l) (fun i v => v = if p i then 1 else 0).
Proof.
  intros H L. pose proof (okw_nb e t H) as O. destruct (one_in t H) as (I1 & I0 & M1).
  unfold x_storel. destruct (is512 e) eqn:E.
  - assert (N : nb e = 512) by (destruct e; try discriminate E; reflexivity). unfold vector. rewrite N in *.
    pose proof (proj1 (logical_mask e t l p E) L) as [_ T]. rewrite N in T.
    split; [apply in_reg_build; assumption|]. intros i Hi. rewrite elt_lane, lane_buildn, cast_mod_pow by assumption.
    rewrite land1_shiftr, T by lia. destruct (p i); cbn [negb]; apply cast_id; assumption.
  - assert (R1 : in_reg (nb e) (x_set1 e t 1)) by (apply in_reg_set1; assumption).
    assert (R0 : in_reg (nb e) (x_set1 e t 0)) by (apply in_reg_set1; assumption).
    destruct (x_if_else1_ok e t l p _ _ H R1 R0 L) as [R S]. split; [exact R|]. intros i Hi.
    rewrite elt_lane, S by assumption. unfold x_set1. destruct (p i); rewrite lane_set1, cast_mod_pow by assumption; apply cast_id; assumption.
Qed.

Lemma x_to_mask_ok e t l p : In t int_types -> logical e t l p ->
  vector e t (x_to_mask e t l) (fun i v => v = if p i then cast t (-1) else 0).
Proof.
  intros H L. pose proof (okw_nb e t H) as O. destruct (one_in t H) as (_ & I0 & _).
  destruct (is512 e) eqn:E.
  - assert (N : nb e = 512) by (destruct e; try discriminate E; reflexivity).
    pose proof (proj1 (logical_mask e t l p E) L) as [_ T]. unfold vector. rewrite N in *.
    assert (B : in_reg 512 (build (bits t) (nlanes 512 (bits t)) (fun i => if Z.testbit l i then -1 else 0)) /\
      forall i, 0 <= i < 512 / bits t -> elt t (build (bits t) (nlanes 512 (bits t)) (fun i => if Z.testbit l i then -1 else 0)) i = if p i then cast t (-1) else 0).
    { split; [apply in_reg_build; assumption|]. intros i Hi. rewrite elt_lane, lane_buildn, cast_mod_pow, T by assumption.
      destruct (p i); [reflexivity|apply cast_id; assumption]. }
    destruct e; try discriminate E; cbn [x_to_mask]; [|exact B].
    destruct (wide t) eqn:W.
    + assert (EB : mm_mask_mov 512 (bits t) mm_zero l (mm_set1 512 32 (-1)) =
                   build (bits t) (nlanes 512 (bits t)) (fun i => if Z.testbit l i then lane (bits t) i (2 ^ 512 - 1) else 0)).
      { unfold mm_mask_mov. apply build_ext. intros i Hi. unfold mm_zero. rewrite lane_0 by (destruct O; lia).
        replace (mm_set1 512 32 (-1)) with (2 ^ 512 - 1); [reflexivity|]. vm_compute. reflexivity. }
      rewrite EB. split; [apply in_reg_build; assumption|]. intros i Hi. rewrite elt_lane, lane_buildn, cast_mod_pow, T by assumption.
      destruct (p i); [|apply cast_id; assumption]. apply cast_congr. rewrite m1_mod by (destruct O; lia).
      pose proof O as (Hw & _ & En). apply Z.bits_inj'. intros q Hq. bitspec. decb. cbn [andb].
      destruct (Z.ltb_spec q (bits t)); [|reflexivity]. cbn [andb]. decb.
      replace (bits t * i + q <? 512) with true by nia. replace (0 <=? bits t * i + q) with true by nia. reflexivity.
    + rewrite (build_ext _ _ _ (fun i => if Z.testbit l i then -1 else 0)); [exact B|].
      intros i Hi. rewrite land1_shiftr by assumption. destruct (Z.testbit l i); reflexivity.
  - pose proof (proj1 (logical_reg e t l p E) L) as [R LL].
    assert (X : x_to_mask e t l = l) by (destruct e; try discriminate E; reflexivity). rewrite X.
    split; [exact R|]. intros i Hi. rewrite elt_lane, LL by assumption. destruct (p i); [|apply cast_id; assumption].
    apply cast_congr. pose proof (pow2_pos (bits t) ltac:(destruct O; lia)).
    rewrite m1_mod by (destruct O; lia). apply Z.mod_small. lia.
Qed.

Lemma x_to_logical_ok e t a : In t int_types -> in_reg (nb e) a ->
  logical e t (x_to_logical e t a) (fun i => negb (elt t a i =? 0)).
Proof.
  intros H Ha. pose proof (okw_nb e t H) as O. unfold x_to_logical, mm_zero.
  eapply logical_ext; [apply x_ne_ok; [assumption|assumption|apply in_reg_0; destruct O as (_&?&_); assumption]|].
  intros i Hi. cbv beta. f_equal. rewrite !elt_lane. rewrite cast_inj_lane by (assumption || (apply lane_range; destruct O; lia)).
  rewrite lane_0 by (destruct O; lia). rewrite <- elt_lane, elt_zero_lane by assumption. reflexivity.
Qed.
