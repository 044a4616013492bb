(** Lanes of registers represented by integers. *)
From Coq Require Import ZArith Lia List Bool ZifyBool.
From Verif Require Import CInt BitLemmas ScalarOps ScalarSpec ScalarProofs X86Deg234 X86Arith X86ArithSpec.
Import ListNotations.
Open Scope Z_scope.

Lemma testbit_lane w i r k : 0 <= w -> 0 <= i -> 0 <= k ->
  Z.testbit (lane w i r) k = (k <? w) && Z.testbit r (w * i + k).
Proof.
  intros Hw Hi Hk. unfold lane. destruct (Z.ltb_spec k w).
  - rewrite Z.mod_pow2_bits_low by lia. rewrite Z.div_pow2_bits by nia. cbn [andb]. f_equal. lia.
  - rewrite Z.mod_pow2_bits_high by lia. reflexivity.
Qed.

Lemma lane_range w i r : 0 <= w -> 0 <= lane w i r < 2 ^ w.
Proof. intros. unfold lane. apply Z.mod_pos_bound. apply pow2_pos; lia. Qed.

Lemma lane_id w x : 0 <= x < 2 ^ w -> lane w 0 x = x.
Proof. intros. unfold lane. rewrite Z.mul_0_r, Z.pow_0_r, Z.div_1_r. apply Z.mod_small; lia. Qed.

Lemma lane_0 w i : 0 <= w -> 0 <= i -> lane w i 0 = 0.
Proof. intros. unfold lane. rewrite Z.div_0_l by (apply Z.pow_nonzero; nia). apply Z.mod_0_l. apply Z.pow_nonzero; lia. Qed.

Lemma build_range w k f : 0 <= w -> 0 <= build w k f < 2 ^ (w * Z.of_nat k).
Proof.
  intros Hw. induction k as [|k IH].
  - cbn [build]. rewrite Z.mul_0_r. cbn. lia.
  - cbn [build]. replace (w * Z.of_nat (S k)) with (w + w * Z.of_nat k) by lia.
    rewrite Z.pow_add_r by nia.
    pose proof (Z.mod_pos_bound (f (Z.of_nat k)) (2 ^ w) (pow2_pos w Hw)).
    nia.
Qed.

Lemma lane_build w k f i : 0 <= w -> 0 <= i < Z.of_nat k -> lane w i (build w k f) = f i mod 2 ^ w.
Proof.
  intros Hw. induction k as [|k IH]; intros Hi; [lia|].
  cbn [build]. pose proof (build_range w k f Hw) as Hb.
  pose proof (Z.mod_pos_bound (f (Z.of_nat k)) (2 ^ w) (pow2_pos w Hw)) as Hf.
  destruct (Z.eq_dec i (Z.of_nat k)) as [->|Hne].
  - unfold lane. rewrite Z.div_add by (apply Z.pow_nonzero; nia).
    rewrite Z.div_small by lia. apply Z.mod_small. lia.
  - rewrite <- IH by lia. unfold lane.
    replace (w * Z.of_nat k) with (w * i + (w + w * (Z.of_nat k - i - 1))) at 1 by ring.
    rewrite !(Z.pow_add_r 2 (w * i)), (Z.pow_add_r 2 w) by nia.
    replace (build w k f + f (Z.of_nat k) mod 2 ^ w * (2 ^ (w * i) * (2 ^ w * 2 ^ (w * (Z.of_nat k - i - 1)))))
      with (build w k f + (f (Z.of_nat k) mod 2 ^ w * 2 ^ (w * (Z.of_nat k - i - 1)) * 2 ^ w) * 2 ^ (w * i)) by ring.
    rewrite Z.div_add by (apply Z.pow_nonzero; nia).
    apply Z.mod_add. apply Z.pow_nonzero; lia.
Qed.

(** A lane of a wider lane. *)
Lemma lane_lane w k i j r : 0 <= w -> 0 <= i -> 0 <= j < k ->
  lane w (k * i + j) r = lane w j (lane (k * w) i r).
Proof.
  intros Hw Hi Hj. apply Z.bits_inj'. intros m Hm.
  rewrite !testbit_lane by nia.
  destruct (Z.ltb_spec m w); [|reflexivity]. cbn [andb].
  destruct (Z.ltb_spec (w * j + m) (k * w)); [|nia]. cbn [andb]. f_equal. ring.
Qed.

Lemma lane_land w i a b : 0 <= w -> 0 <= i -> lane w i (Z.land a b) = Z.land (lane w i a) (lane w i b).
Proof.
  intros. apply Z.bits_inj'. intros m Hm. rewrite Z.land_spec, !testbit_lane, Z.land_spec by lia.
  destruct (m <? w), (Z.testbit a (w * i + m)), (Z.testbit b (w * i + m)); reflexivity.
Qed.
Lemma lane_lor w i a b : 0 <= w -> 0 <= i -> lane w i (Z.lor a b) = Z.lor (lane w i a) (lane w i b).
Proof.
  intros. apply Z.bits_inj'. intros m Hm. rewrite Z.lor_spec, !testbit_lane, Z.lor_spec by lia.
  destruct (m <? w), (Z.testbit a (w * i + m)), (Z.testbit b (w * i + m)); reflexivity.
Qed.
Lemma lane_lxor w i a b : 0 <= w -> 0 <= i -> lane w i (Z.lxor a b) = Z.lxor (lane w i a) (lane w i b).
Proof.
  intros. apply Z.bits_inj'. intros m Hm. rewrite Z.lxor_spec, !testbit_lane, Z.lxor_spec by lia.
  destruct (m <? w), (Z.testbit a (w * i + m)), (Z.testbit b (w * i + m)); reflexivity.
Qed.
Lemma lane_andnot w i a b : 0 <= w -> 0 <= i ->
  lane w i (Z.land (Z.lnot a) b) = Z.land (Z.lnot (lane w i a)) (lane w i b).
Proof.
  intros. apply Z.bits_inj'. intros m Hm.
  rewrite Z.land_spec, Z.lnot_spec, !testbit_lane, Z.land_spec, Z.lnot_spec by nia.
  destruct (m <? w), (Z.testbit a (w * i + m)), (Z.testbit b (w * i + m)); reflexivity.
Qed.

Lemma in_reg_bits n a : 0 <= n -> 0 <= a -> (forall k, n <= k -> Z.testbit a k = false) -> in_reg n a.
Proof.
  intros Hn Ha H. split; [lia|].
  destruct (Z.eq_dec a 0) as [->|]; [apply pow2_pos; lia|].
  apply Z.log2_lt_pow2; [lia|].
  destruct (Z.lt_ge_cases (Z.log2 a) n); [assumption|].
  pose proof (Z.bit_log2 a ltac:(lia)) as E. rewrite H in E by lia. discriminate.
Qed.

Lemma reg_high n a k : in_reg n a -> n <= k -> Z.testbit a k = false.
Proof. intros. eapply testbit_small; eauto. Qed.

Lemma in_reg_land n a b : 0 <= n -> in_reg n a -> in_reg n b -> in_reg n (Z.land a b).
Proof.
  intros Hn Ha Hb. apply in_reg_bits; [lia| |].
  - apply Z.land_nonneg. left. apply Ha.
  - intros k Hk. rewrite Z.land_spec, (reg_high n a k) by assumption. reflexivity.
Qed.
Lemma in_reg_lor n a b : 0 <= n -> in_reg n a -> in_reg n b -> in_reg n (Z.lor a b).
Proof.
  intros Hn Ha Hb. apply in_reg_bits; [lia| |].
  - apply Z.lor_nonneg. split; [apply Ha|apply Hb].
  - intros k Hk. rewrite Z.lor_spec, (reg_high n a k), (reg_high n b k) by assumption. reflexivity.
Qed.
Lemma in_reg_lxor n a b : 0 <= n -> in_reg n a -> in_reg n b -> in_reg n (Z.lxor a b).
Proof.
  intros Hn Ha Hb. apply in_reg_bits; [lia| |].
  - apply Z.lxor_nonneg. split; intros; [apply Hb|apply Ha].
  - intros k Hk. rewrite Z.lxor_spec, (reg_high n a k), (reg_high n b k) by assumption. reflexivity.
Qed.
Lemma in_reg_andnot n a b : 0 <= n -> in_reg n b -> in_reg n (Z.land (Z.lnot a) b).
Proof.
  intros Hn Hb. apply in_reg_bits; [lia| |].
  - apply Z.land_nonneg. right. apply Hb.
  - intros k Hk. rewrite Z.land_spec, (reg_high n b k) by assumption. apply andb_false_r.
Qed.

(** ** Well-formed sizes *)

Definition okw (n w : Z) : Prop := 0 < w /\ 0 <= n /\ n = w * (n / w).

Lemma nlanes_z n w : okw n w -> Z.of_nat (nlanes n w) = n / w.
Proof. intros (?&?&?). unfold nlanes. rewrite Z2Nat.id; [reflexivity|]. apply Z.div_pos; lia. Qed.

Lemma in_reg_build n w f : okw n w -> in_reg n (build w (nlanes n w) f).
Proof.
  intros H. pose proof (nlanes_z n w H) as E. destruct H as (?&?&Hn).
  unfold in_reg. pose proof (build_range w (nlanes n w) f ltac:(lia)) as B. rewrite E, <- Hn in B. exact B.
Qed.

Lemma lane_buildn n w f i : okw n w -> 0 <= i < n / w -> lane w i (build w (nlanes n w) f) = f i mod 2 ^ w.
Proof. intros H Hi. rewrite lane_build; [reflexivity|destruct H; lia|rewrite nlanes_z by assumption; lia]. Qed.

Lemma okw_fine n k w : 0 < k -> 0 < w -> okw n (k * w) -> okw n w /\ n / w = k * (n / (k * w)).
Proof.
  intros Hk Hw (_&Hn&E).
  assert (E2 : n / w = k * (n / (k * w))).
  { rewrite E at 1. replace (k * w * (n / (k * w))) with (k * (n / (k * w)) * w) by ring. apply Z.div_mul. lia. }
  split; [|exact E2]. repeat split; try lia.
Qed.

(** ** Lane-wise functions *)

Definition lw1 (n w : Z) (f g : Z -> Z) : Prop :=
  forall a, in_reg n a -> in_reg n (f a) /\ forall i, 0 <= i < n / w -> lane w i (f a) = g (lane w i a).
Definition lw2 (n w : Z) (f g : Z -> Z -> Z) : Prop :=
  forall a b, in_reg n a -> in_reg n b ->
    in_reg n (f a b) /\ forall i, 0 <= i < n / w -> lane w i (f a b) = g (lane w i a) (lane w i b).

Definition ulane (w x : Z) : Prop := 0 <= x < 2 ^ w.

Lemma lanewise1_lw n w f g : okw n w -> (forall x, ulane w x -> f x mod 2 ^ w = g x) -> lw1 n w (lanewise1 n w f) g.
Proof.
  intros H Hg a Ha. split.
  - apply in_reg_build; assumption.
  - intros i Hi. unfold lanewise1. rewrite lane_buildn by assumption. apply Hg. apply lane_range. destruct H; lia.
Qed.
Lemma lanewise2_lw n w f g : okw n w -> (forall x y, ulane w x -> ulane w y -> f x y mod 2 ^ w = g x y) ->
  lw2 n w (lanewise2 n w f) g.
Proof.
  intros H Hg a b Ha Hb. split.
  - apply in_reg_build; assumption.
  - intros i Hi. unfold lanewise2. rewrite lane_buildn by assumption.
    apply Hg; apply lane_range; destruct H; lia.
Qed.

(** From lanes of width [k*w] to lanes of width [w]. *)
Lemma lw1_fine n k w f G g : 0 < k -> 0 < w -> okw n (k * w) -> lw1 n (k * w) f G ->
  (forall x j, ulane (k * w) x -> 0 <= j < k -> lane w j (G x) = g (lane w j x)) -> lw1 n w f g.
Proof.
  intros Hk Hw Hok HG Hg a Ha. destruct (HG a Ha) as [Hr HL]. split; [assumption|].
  intros i Hi. destruct (okw_fine n k w Hk Hw Hok) as [_ E].
  pose proof (Z.div_mod i k ltac:(lia)) as D. pose proof (Z.mod_pos_bound i k Hk).
  assert (0 <= i / k < n / (k * w)).
  { split; [apply Z.div_pos; lia|]. apply Z.div_lt_upper_bound; lia. }
  rewrite D, !lane_lane by lia. rewrite HL by assumption.
  apply Hg; [apply lane_range; nia|lia].
Qed.
Lemma lw2_fine n k w f G g : 0 < k -> 0 < w -> okw n (k * w) -> lw2 n (k * w) f G ->
  (forall x y j, ulane (k * w) x -> ulane (k * w) y -> 0 <= j < k ->
     lane w j (G x y) = g (lane w j x) (lane w j y)) -> lw2 n w f g.
Proof.
  intros Hk Hw Hok HG Hg a b Ha Hb. destruct (HG a b Ha Hb) as [Hr HL]. split; [assumption|].
  intros i Hi. destruct (okw_fine n k w Hk Hw Hok) as [_ E].
  pose proof (Z.div_mod i k ltac:(lia)) as D. pose proof (Z.mod_pos_bound i k Hk).
  assert (0 <= i / k < n / (k * w)).
  { split; [apply Z.div_pos; lia|]. apply Z.div_lt_upper_bound; lia. }
  rewrite D, !lane_lane by lia. rewrite HL by assumption.
  apply Hg; [apply lane_range; nia|apply lane_range; nia|lia].
Qed.

Lemma lw2_ext n w f g g' : 0 <= w -> lw2 n w f g ->
  (forall x y, ulane w x -> ulane w y -> g x y = g' x y) -> lw2 n w f g'.
Proof.
  intros Hw H E a b Ha Hb. destruct (H a b Ha Hb) as [Hr HL]. split; [assumption|].
  intros i Hi. rewrite HL by assumption. apply E; apply lane_range; assumption.
Qed.
Lemma lw1_ext n w f g g' : 0 <= w -> lw1 n w f g ->
  (forall x, ulane w x -> g x = g' x) -> lw1 n w f g'.
Proof.
  intros Hw H E a Ha. destruct (H a Ha) as [Hr HL]. split; [assumption|].
  intros i Hi. rewrite HL by assumption. apply E; apply lane_range; assumption.
Qed.

(** ** Halves *)

(** [m] is half of the register size. *)
Lemma half_facts m : 0 <= m -> 2 * m / 2 = m.
Proof. intros. rewrite Z.mul_comm. apply Z.div_mul. lia. Qed.

Lemma in_reg_lo m a : 0 <= m -> in_reg m (mm_lo (2 * m) a).
Proof. intros. unfold mm_lo, in_reg. rewrite half_facts by lia. apply Z.mod_pos_bound. apply pow2_pos; lia. Qed.
Lemma in_reg_hi m a : 0 <= m -> in_reg (2 * m) a -> in_reg m (mm_hi (2 * m) a).
Proof.
  intros Hm [H1 H2]. unfold mm_hi, in_reg. rewrite half_facts by lia.
  pose proof (pow2_pos m Hm). split; [apply Z.div_pos; lia|].
  apply Z.div_lt_upper_bound; [lia|]. rewrite <- Z.pow_add_r by lia. replace (m + m) with (2 * m) by lia. lia.
Qed.
Lemma in_reg_setr m x y : 0 <= m -> in_reg m x -> in_reg m y -> in_reg (2 * m) (mm_setr (2 * m) x y).
Proof.
  intros Hm [? ?] [? ?]. unfold mm_setr, in_reg. rewrite half_facts by lia.
  replace (2 * m) with (m + m) by lia. rewrite Z.pow_add_r by lia. nia.
Qed.

Lemma testbit_setr m x y k : 0 <= m -> in_reg m x -> 0 <= y -> 0 <= k ->
  Z.testbit (mm_setr (2 * m) x y) k = if k <? m then Z.testbit x k else Z.testbit y (k - m).
Proof.
  intros Hm Hx Hy Hk. unfold mm_setr. rewrite half_facts by lia.
  rewrite Z.add_comm, <- lor_disjoint, Z.lor_spec, Z.mul_pow2_bits by (try exact Hx; lia).
  destruct (Z.ltb_spec k m).
  - rewrite (Z.testbit_neg_r y) by lia. reflexivity.
  - rewrite (reg_high m x) by assumption. apply orb_false_r.
Qed.

Lemma lane_lo m w a i : okw m w -> 0 <= i < m / w -> lane w i (mm_lo (2 * m) a) = lane w i a.
Proof.
  intros (Hw&Hm&E) Hi. apply Z.bits_inj'. intros k Hk. rewrite !testbit_lane by lia.
  destruct (Z.ltb_spec k w); [|reflexivity]. cbn [andb].
  unfold mm_lo. rewrite half_facts by lia. apply Z.mod_pow2_bits_low. nia.
Qed.
Lemma lane_hi m w a i : okw m w -> 0 <= i -> lane w i (mm_hi (2 * m) a) = lane w (m / w + i) a.
Proof.
  intros (Hw&Hm&E) Hi. apply Z.bits_inj'. intros k Hk.
  assert (0 <= m / w) by (apply Z.div_pos; lia).
  rewrite !testbit_lane by lia.
  destruct (Z.ltb_spec k w); [|reflexivity]. cbn [andb].
  unfold mm_hi. rewrite half_facts by lia. rewrite Z.div_pow2_bits by nia. f_equal. nia.
Qed.
Lemma lane_setr m w x y i : okw m w -> in_reg m x -> in_reg m y -> 0 <= i ->
  lane w i (mm_setr (2 * m) x y) = if i <? m / w then lane w i x else lane w (i - m / w) y.
Proof.
  intros (Hw&Hm&E) Hx Hy Hi.
  assert (0 <= m / w) by (apply Z.div_pos; lia).
  apply Z.bits_inj'. intros k Hk. rewrite testbit_lane by lia.
  rewrite testbit_setr by (try apply Hy; try assumption; nia).
  destruct (Z.ltb_spec i (m / w)); rewrite testbit_lane by lia;
    (destruct (Z.ltb_spec k w); [|reflexivity]); cbn [andb].
  - destruct (Z.ltb_spec (w * i + k) m); [reflexivity|nia].
  - destruct (Z.ltb_spec (w * i + k) m); [nia|]. f_equal. nia.
Qed.

Lemma okw_double m w : okw m w -> okw (2 * m) w /\ 2 * m / w = m / w + m / w.
Proof.
  intros (Hw&Hm&E).
  assert (E2 : 2 * m / w = m / w + m / w).
  { rewrite E at 1. replace (2 * (w * (m / w))) with ((m / w + m / w) * w) by ring. apply Z.div_mul. lia. }
  split; [|exact E2]. repeat split; try lia.
Qed.

Lemma split1_lw m w f g : okw m w -> lw1 m w f g -> lw1 (2 * m) w (split1 (2 * m) f) g.
Proof.
  intros Hok H a Ha. pose proof Hok as (Hw&Hm&_). destruct (okw_double m w Hok) as [_ E].
  destruct (H _ (in_reg_lo m a Hm)) as [R1 L1].
  destruct (H _ (in_reg_hi m a Hm Ha)) as [R2 L2].
  unfold split1. split; [apply in_reg_setr; assumption|].
  intros i Hi. rewrite lane_setr by (assumption || lia).
  destruct (Z.ltb_spec i (m / w)).
  - rewrite L1, lane_lo by (assumption || lia). reflexivity.
  - rewrite L2, lane_hi by (assumption || lia). do 2 f_equal. lia.
Qed.
Lemma split2_lw m w f g : okw m w -> lw2 m w f g -> lw2 (2 * m) w (split2 (2 * m) f) g.
Proof.
  intros Hok H a b Ha Hb. pose proof Hok as (Hw&Hm&_). destruct (okw_double m w Hok) as [_ E].
  destruct (H _ _ (in_reg_lo m a Hm) (in_reg_lo m b Hm)) as [R1 L1].
  destruct (H _ _ (in_reg_hi m a Hm Ha) (in_reg_hi m b Hm Hb)) as [R2 L2].
  unfold split2. split; [apply in_reg_setr; assumption|].
  intros i Hi. rewrite lane_setr by (assumption || lia).
  destruct (Z.ltb_spec i (m / w)).
  - rewrite L1, !lane_lo by (assumption || lia). reflexivity.
  - rewrite L2, !lane_hi by (assumption || lia). replace (m / w + (i - m / w)) with i by lia. reflexivity.
Qed.
