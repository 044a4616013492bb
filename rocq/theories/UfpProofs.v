From Coq Require Import ZArith Lia Bool ZifyBool.
From Verif Require Import CInt BitLemmas FloatSpec FloatProofs Ufp UfpSpec.
Open Scope Z_scope.

Lemma bitlen_spec d : 0 <= d -> 0 <= bitlen d /\ d < 2 ^ bitlen d /\ (forall i, 0 <= i < bitlen d -> 2 ^ i <= d).
Proof.
  intros Hd. unfold bitlen. destruct (d =? 0) eqn:E.
  - assert (d = 0) by lia. subst. repeat split; try (cbn; lia). 
  - pose proof (Z.log2_spec d ltac:(lia)) as [L1 L2]. pose proof (Z.log2_nonneg d).
    repeat split; [lia|rewrite Z.add_1_r; assumption|].
    intros i Hi. pose proof (Z.pow_le_mono_r 2 i (Z.log2 d)). lia.
Qed.

Lemma ufp_loop_run fuel M i d : 0 <= i -> 0 <= d -> i <= bitlen d -> bitlen d <= M + 2 ->
  bitlen d - i < Z.of_nat fuel -> ufp_loop fuel M i d = Some (bitlen d).
Proof.
  intros Hi Hd. destruct (bitlen_spec d Hd) as (B0 & B1 & B2).
  revert i Hi. induction fuel as [|fuel IH]; intros i Hi Hib HbM Hf; [lia|].
  cbn [ufp_loop]. rewrite Z.shiftl_1_l.
  destruct (Z.eq_dec i (bitlen d)) as [->|Hne].
  - destruct (2 ^ bitlen d <=? d) eqn:E; [lia|]. rewrite andb_false_r. reflexivity.
  - pose proof (B2 i ltac:(lia)).
    assert ((i <=? M + 1) && (2 ^ i <=? d) = true) as -> by lia.
    apply IH; lia.
Qed.

Section Generic.
Variable f : fmt.
Hypothesis HM : 1 <= mbits f <= 60.
Hypothesis HE : 1 <= ebits f.
Let M := mbits f.
Let E := ebits f.

Lemma exp_field a : Z.land (Z.shiftr a M) (Z.shiftl 1 E - 1) = exp_of f a.
Proof.
  unfold M, E. rewrite Z.shiftl_1_l, land_mask, shiftr_div by lia. reflexivity.
Qed.

Lemma man_field a : Z.lor (Z.land a (Z.shiftl 1 M - 1)) (Z.shiftl 1 M) = significand f a.
Proof.
  unfold M. rewrite Z.shiftl_1_l, land_mask by lia.
  rewrite Z.lor_comm. replace (2 ^ mbits f) with (1 * 2 ^ mbits f) at 1 by lia.
  rewrite lor_disjoint; [unfold significand, man_of; lia|lia|].
  apply Z.mod_pos_bound. apply pow2_pos; lia.
Qed.

Lemma significand_range a : 2 ^ M <= significand f a < 2 * 2 ^ M.
Proof.
  unfold significand, man_of, M.
  pose proof (Z.mod_pos_bound a (2 ^ mbits f) ltac:(apply pow2_pos; lia)). lia.
Qed.

Lemma gap_bound a b : comparable f a b -> 0 <= scaled_gap f a b < 2 ^ (M + 2).
Proof.
  intros Hc. unfold comparable in Hc. unfold scaled_gap.
  pose proof (significand_range a). pose proof (significand_range b).
  rewrite Z.pow_add_r by (unfold M; lia). change (2 ^ 2) with 4.
  set (sa := significand f a) in *. set (sb := significand f b) in *.
  set (ea := exp_of f a) in *. set (eb := exp_of f b) in *.
  assert (ea = eb \/ ea = eb + 1 \/ eb = ea + 1) as [H1|[H1|H1]] by lia; cbv zeta.
  - rewrite H1, Z.min_id, Z.sub_diag. change (2 ^ 0) with 1. lia.
  - replace (ea - Z.min ea eb) with 1 by lia. replace (eb - Z.min ea eb) with 0 by lia.
    change (2 ^ 0) with 1. change (2 ^ 1) with 2. lia.
  - replace (ea - Z.min ea eb) with 0 by lia. replace (eb - Z.min ea eb) with 1 by lia.
    change (2 ^ 0) with 1. change (2 ^ 1) with 2. lia.
Qed.

Lemma ufp_value a b :
  ufp E M a b = Some (if Z.abs (exp_of f a - exp_of f b) <=? 1
                      then M + 1 - bitlen (scaled_gap f a b) else 0).
Proof.
  unfold ufp. rewrite !exp_field, !man_field.
  pose proof (gap_bound a b) as GB. unfold comparable in GB.
  destruct (Z.abs (exp_of f a - exp_of f b) <=? 1) eqn:EC.
  2:{ assert ((1 <? exp_of f a - exp_of f b) || (exp_of f a - exp_of f b <? -1) = true) as -> by lia. reflexivity. }
  assert ((1 <? exp_of f a - exp_of f b) || (exp_of f a - exp_of f b <? -1) = false) as -> by lia.
  specialize (GB ltac:(lia)).
  pose proof (significand_range a) as RA. pose proof (significand_range b) as RB.
  assert (2 ^ M <= 2 ^ 60) as P60 by (apply Z.pow_le_mono_r; unfold M; lia).
  assert (forall z, - 2 ^ 63 <= z < 2 ^ 63 -> to_s 64 z = z) as T.
  { intros z Hz. apply to_s_id; [lia|exact Hz]. }
  set (d := if exp_of f a =? exp_of f b then _ else _).
  assert ((if 0 <=? d then d else to_s 64 (- d)) = scaled_gap f a b) as ->.
  { unfold scaled_gap. set (sa := significand f a) in *. set (sb := significand f b) in *.
    set (ea := exp_of f a) in *. set (eb := exp_of f b) in *.
    assert (ea = eb \/ ea = eb + 1 \/ eb = ea + 1) as [H1|[H1|H1]] by lia.
    - unfold d. rewrite H1, Z.eqb_refl, Z.min_id, Z.sub_diag. rewrite T by lia.
      destruct (0 <=? sa - sb) eqn:E0; [change (2 ^ 0) with 1; lia|].
      rewrite T by lia. change (2 ^ 0) with 1. lia.
    - unfold d. assert ((ea =? eb) = false) as -> by lia. assert ((eb <? ea) = true) as -> by lia.
      rewrite (T (2 * sa)) by lia. rewrite T by lia.
      replace (ea - Z.min ea eb) with 1 by lia. replace (eb - Z.min ea eb) with 0 by lia.
      change (2 ^ 0) with 1. change (2 ^ 1) with 2.
      destruct (0 <=? 2 * sa - sb) eqn:E0; [lia|]. rewrite T by lia. lia.
    - unfold d. assert ((ea =? eb) = false) as -> by lia. assert ((eb <? ea) = false) as -> by lia.
      rewrite (T (2 * sb)) by lia. rewrite T by lia.
      replace (ea - Z.min ea eb) with 0 by lia. replace (eb - Z.min ea eb) with 1 by lia.
      change (2 ^ 0) with 1. change (2 ^ 1) with 2.
      destruct (0 <=? 2 * sb - sa) eqn:E0; [lia|]. rewrite T by lia. lia. }
  clear d. set (g := scaled_gap f a b) in *.
  destruct (bitlen_spec g ltac:(lia)) as (B0 & B1 & B2).
  assert (bitlen g <= M + 2).
  { destruct (Z_le_gt_dec (bitlen g) (M + 2)); [assumption|].
    pose proof (B2 (M + 2) ltac:(unfold M in *; lia)). lia. }
  rewrite ufp_loop_run by (unfold M in *; lia). reflexivity.
Qed.

Lemma gap_sym a b : scaled_gap f a b = scaled_gap f b a.
Proof. unfold scaled_gap. rewrite (Z.min_comm (exp_of f a)). lia. Qed.

Lemma ufp_sym a b : ufp E M a b = ufp E M b a.
Proof.
  rewrite !ufp_value, gap_sym.
  replace (Z.abs (exp_of f a - exp_of f b)) with (Z.abs (exp_of f b - exp_of f a)) by lia. reflexivity.
Qed.

Lemma strip_fields a b : strip_sign f a = strip_sign f b -> exp_of f a = exp_of f b /\ man_of f a = man_of f b.
Proof.
  unfold strip_sign, exp_of, man_of. intros H.
  pose proof (pow2_pos (mbits f) ltac:(lia)) as P. pose proof (pow2_pos (ebits f) ltac:(lia)) as Q.
  rewrite Z.pow_add_r in H by lia. rewrite (Z.mul_comm (2 ^ ebits f)) in H.
  rewrite !Z.rem_mul_r in H by lia.
  pose proof (Z.mod_pos_bound a (2 ^ mbits f) P). pose proof (Z.mod_pos_bound b (2 ^ mbits f) P).
  assert ((a / 2 ^ mbits f) mod 2 ^ ebits f = (b / 2 ^ mbits f) mod 2 ^ ebits f) by nia.
  split; [assumption|nia].
Qed.

Lemma fields_strip a b : exp_of f a = exp_of f b -> man_of f a = man_of f b -> strip_sign f a = strip_sign f b.
Proof.
  unfold strip_sign, exp_of, man_of. intros H1 H2.
  pose proof (pow2_pos (mbits f) ltac:(lia)) as P. pose proof (pow2_pos (ebits f) ltac:(lia)) as Q.
  rewrite Z.pow_add_r by lia. rewrite (Z.mul_comm (2 ^ ebits f)).
  rewrite !Z.rem_mul_r by lia. rewrite H1, H2. reflexivity.
Qed.

Lemma ufp_sign a b a' b' : strip_sign f a = strip_sign f a' -> strip_sign f b = strip_sign f b' ->
  ufp E M a b = ufp E M a' b'.
Proof.
  intros [Ea Ma]%strip_fields [Eb Mb]%strip_fields. rewrite !ufp_value.
  unfold scaled_gap, significand. rewrite Ea, Ma, Eb, Mb. reflexivity.
Qed.

Lemma ufp_bounds a b r : ufp E M a b = Some r -> -1 <= r <= M + 1.
Proof.
  rewrite ufp_value. intros H; injection H as <-.
  destruct (Z.abs (exp_of f a - exp_of f b) <=? 1) eqn:EC; [|unfold M; lia].
  pose proof (gap_bound a b ltac:(unfold comparable; lia)) as GB.
  destruct (bitlen_spec (scaled_gap f a b) ltac:(lia)) as (B0 & B1 & B2).
  destruct (Z_le_gt_dec (bitlen (scaled_gap f a b)) (M + 2)); [lia|].
  pose proof (B2 (M + 2) ltac:(unfold M in *; lia)). lia.
Qed.

Lemma bitlen_0 d : 0 <= d -> (bitlen d = 0 <-> d = 0).
Proof.
  intros Hd. unfold bitlen. destruct (d =? 0) eqn:E0; [lia|]. pose proof (Z.log2_nonneg d). lia.
Qed.

Lemma ufp_max a b : ufp E M a b = Some (M + 1) <-> strip_sign f a = strip_sign f b.
Proof.
  rewrite ufp_value. split.
  - intros H. injection H as H.
    destruct (Z.abs (exp_of f a - exp_of f b) <=? 1) eqn:EC; [|unfold M in *; lia].
    pose proof (gap_bound a b ltac:(unfold comparable; lia)) as GB.
    assert (scaled_gap f a b = 0) as G0 by (apply bitlen_0; lia).
    unfold scaled_gap in G0.
    pose proof (significand_range a) as RA. pose proof (significand_range b) as RB.
    set (ea := exp_of f a) in *. set (eb := exp_of f b) in *.
    assert (ea = eb \/ ea = eb + 1 \/ eb = ea + 1) as [H1|[H1|H1]] by lia.
    + rewrite H1, Z.min_id, Z.sub_diag in G0. change (2 ^ 0) with 1 in G0.
      apply fields_strip; [exact H1|]. unfold significand in G0. lia.
    + replace (ea - Z.min ea eb) with 1 in G0 by lia. replace (eb - Z.min ea eb) with 0 in G0 by lia.
      change (2 ^ 0) with 1 in G0. change (2 ^ 1) with 2 in G0. lia.
    + replace (ea - Z.min ea eb) with 0 in G0 by lia. replace (eb - Z.min ea eb) with 1 in G0 by lia.
      change (2 ^ 0) with 1 in G0. change (2 ^ 1) with 2 in G0. lia.
  - intros [He Hm]%strip_fields.
    assert (scaled_gap f a b = 0) as ->.
    { unfold scaled_gap, significand. rewrite He, Hm. lia. }
    rewrite He, Z.sub_diag. cbn [Z.abs Z.leb Z.compare]. f_equal. cbn. lia.
Qed.

(** In terms of values, for normal numbers. *)
Lemma ufp_normal a b : 1 <= exp_of f a -> 1 <= exp_of f b -> comparable f a b ->
  scaled_gap f a b * 2 ^ (Z.min (exp_of f a) (exp_of f b) - 1)
  = Z.abs (magnitude f (exp_of f a) (man_of f a) - magnitude f (exp_of f b) (man_of f b)).
Proof.
  intros Ha Hb Hc. unfold magnitude, scaled_gap, significand.
  set (ea := exp_of f a) in *. set (eb := exp_of f b) in *.
  destruct (ea =? 0) eqn:E1; [lia|]. destruct (eb =? 0) eqn:E2; [lia|].
  set (e := Z.min ea eb).
  pose proof (pow2_pos (e - 1) ltac:(lia)).
  rewrite <- (Z.abs_eq (2 ^ (e - 1))) at 1 by lia.
  rewrite <- Z.abs_mul. f_equal.
  rewrite Z.mul_sub_distr_r, <- !Z.mul_assoc, <- !Z.pow_add_r by lia.
  f_equal; f_equal; f_equal; lia.
Qed.

End Generic.
