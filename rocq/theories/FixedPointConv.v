(** Conversions between binary32 and fixed point. *)
From Coq Require Import ZArith Lia Bool List ZifyBool.
From Verif Require Import CInt BitLemmas FloatSpec FloatProofs Fp16 Fp16Proofs RoundEven RoundEvenProofs
  ScalarOps ScalarSpec ScalarProofs CpuSimd FixedPoint.
Open Scope Z_scope.

Local Notation vm := (vmag binary32).
Local Notation HM := (eq_refl : (1 <=? mbits binary32) = true).

Lemma m1 : 1 <= mbits binary32. Proof. cbn; lia. Qed.
Lemma e3 : 3 <= ebits binary32. Proof. cbn; lia. Qed.

(** [round_mag] of a scaled magnitude. *)
Lemma round_mag_shift x d : 0 <= d -> 0 <= x -> round_mag binary32 (x * 2 ^ d) d = round_mag binary32 x 0.
Proof.
  intros Hd Hx. unfold round_mag. destruct (Z.eq_dec x 0) as [->|Hne].
  - rewrite Z.mul_0_l. change (Z.log2 0) with 0. change (mbits binary32) with 23.
    replace (Z.max d (0 - 23)) with d by lia. change (Z.max 0 (0 - 23)) with 0.
    pose proof (rne_exact 0 d ltac:(lia)) as E0. rewrite Z.mul_0_l in E0. rewrite E0.
    change (rne 0 0) with 0. lia.
  - rewrite Z.log2_mul_pow2 by lia. change (mbits binary32) with 23.
    replace (Z.max d (d + Z.log2 x - 23)) with (Z.max 0 (Z.log2 x - 23) + d) by lia.
    rewrite rne_scale by lia. lia.
Qed.

Lemma inf32_eq : inf_bits binary32 = inf32. Proof. reflexivity. Qed.

(** No overflow up to 2^127. *)
Lemma round32_bound x : 0 <= x <= 2 ^ 276 -> 0 <= round_mag binary32 x 0 < inf32.
Proof.
  intros Hx.
  split; [destruct (round_mag_scale binary32 m1 x 0 ltac:(lia) ltac:(lia)) as (_ & _ & _ & R); exact R|].
  eapply Z.le_lt_trans; [apply round_mag_mono with (y := 2 ^ 276); try lia; exact m1|].
  vm_compute. reflexivity.
Qed.

Lemma decode_encode32 s x : 0 <= x <= 2 ^ 276 ->
  decode binary32 (encode binary32 s x 0) = FFin s (vm (round_mag binary32 x 0)).
Proof.
  intros Hx. pose proof (round32_bound x Hx). unfold encode. rewrite inf32_eq, Z.min_l by lia.
  apply decode32; lia.
Qed.

Lemma round_repr32 q j : 0 <= q < 2 ^ 24 -> 0 <= j -> vm (round_mag binary32 (q * 2 ^ j) 0) = q * 2 ^ j.
Proof. intros. apply round_repr; try exact m1; try exact e3; try assumption. Qed.

(** Exactly representable magnitudes. *)
Lemma encode_exact32 s q j : 0 <= q < 2 ^ 24 -> 0 <= j -> q * 2 ^ j <= 2 ^ 276 ->
  decode binary32 (encode binary32 s (q * 2 ^ j) 0) = FFin s (q * 2 ^ j).
Proof.
  intros Hq Hj Hb. pose proof (pow2_pos j Hj).
  rewrite decode_encode32 by nia. rewrite round_repr32 by assumption. reflexivity.
Qed.

(** 2^24 is representable too *)
Lemma encode_exact24 s q j : 0 <= q <= 2 ^ 24 -> 0 <= j -> q * 2 ^ j <= 2 ^ 276 ->
  decode binary32 (encode binary32 s (q * 2 ^ j) 0) = FFin s (q * 2 ^ j).
Proof.
  intros Hq Hj Hb. destruct (Z.eq_dec q (2 ^ 24)) as [E|E]; [|apply encode_exact32; lia].
  rewrite E in *. replace (2 ^ 24 * 2 ^ j) with (1 * 2 ^ (24 + j)) in * by (rewrite Z.pow_add_r by lia; ring).
  apply encode_exact32; lia.
Qed.

Lemma pow_le_276 j : 0 <= j <= 252 -> 2 ^ 24 * 2 ^ j <= 2 ^ 276.
Proof. intros. rewrite <- Z.pow_add_r by lia. apply Z.pow_le_mono_r; lia. Qed.

(** [(float)z] on small integers. *)
Lemma f_of_int_exact z : Z.abs z <= 2 ^ 24 -> decode binary32 (f_of_int z) = FFin (z <? 0) (Z.abs z * 2 ^ 149).
Proof.
  intros Hz. unfold f_of_int. apply encode_exact24; [lia|lia|].
  pose proof (pow_le_276 149 ltac:(lia)). assert (0 < 2 ^ 149) by (apply pow2_pos; lia). nia.
Qed.
Lemma f_of_pow2 r : 0 <= r <= 30 -> decode binary32 (f_of_int (2 ^ r)) = FFin false (2 ^ (149 + r)).
Proof.
  intros Hr. pose proof (pow2_pos r ltac:(lia)). unfold f_of_int.
  assert ((2 ^ r <? 0) = false) as -> by lia. rewrite Z.abs_eq by lia.
  rewrite <- Z.pow_add_r by lia. replace (2 ^ (r + 149)) with (1 * 2 ^ (r + 149)) by ring.
  rewrite encode_exact32; [|lia|lia|rewrite Z.mul_1_l; apply Z.pow_le_mono_r; lia].
  f_equal. rewrite Z.mul_1_l. f_equal. lia.
Qed.

(** A finite magnitude has at most 24 significant bits. *)
Lemma vmag_form p : 0 <= p -> exists q j, 0 <= q < 2 ^ 24 /\ 0 <= j /\ vm p = q * 2 ^ j.
Proof.
  intros Hp. unfold vmag, magnitude. change (mbits binary32) with 23.
  pose proof (Z.mod_pos_bound p (2 ^ 23) ltac:(lia)). pose proof (Z.div_pos p (2 ^ 23) Hp ltac:(lia)).
  destruct (p / 2 ^ 23 =? 0) eqn:E.
  - exists (p mod 2 ^ 23), 0. change (2 ^ 0) with 1. repeat split; lia.
  - exists (2 ^ 23 + p mod 2 ^ 23), (p / 2 ^ 23 - 1). repeat split; lia.
Qed.

Lemma decode32_form u s m : in_u 32 u -> decode binary32 u = FFin s m ->
  exists q j, 0 <= q < 2 ^ 24 /\ 0 <= j /\ m = q * 2 ^ j.
Proof.
  intros Hu Hd. destruct (finite_pattern binary32 m1 e3 u s m Hu Hd) as (p & Hp & -> & _ & _).
  apply vmag_form. lia.
Qed.

(** [roundf] of a magnitude with 24 significant bits *)
Definition rnd (m : Z) : Z := (m + 2 ^ 148) / 2 ^ 149.

Lemma roundf_exact b s q j : 0 <= q < 2 ^ 24 -> 0 <= j -> q * 2 ^ j <= 2 ^ 276 ->
  decode binary32 b = FFin s (q * 2 ^ j) ->
  decode binary32 (roundf b) = FFin s (rnd (q * 2 ^ j) * 2 ^ 149).
Proof.
  intros Hq Hj Hb Hd. unfold roundf. rewrite Hd. fold (rnd (q * 2 ^ j)). set (m := q * 2 ^ j) in *.
  pose proof (pow2_pos j Hj). assert (0 <= m) by (unfold m; nia).
  destruct (Z_le_gt_dec 149 j) as [Hge|Hlt].
  - (* an integer already *)
    assert (m = (q * 2 ^ (j - 149)) * 2 ^ 149) as Em.
    { unfold m. rewrite <- Z.mul_assoc, <- Z.pow_add_r by lia. f_equal. f_equal. lia. }
    assert (rnd m = q * 2 ^ (j - 149)) as Er.
    { unfold rnd. rewrite Em. rewrite Z.add_comm, Z_div_plus_full by lia.
      rewrite (Z.div_small (2 ^ 148)) by lia. lia. }
    rewrite Er, <- Em. unfold m. apply encode_exact32; assumption.
  - assert (rnd m <= 2 ^ 24) as Hr.
    { unfold rnd. assert (m < 2 ^ 24 * 2 ^ 148).
      { unfold m. apply Z.lt_le_trans with (2 ^ 24 * 2 ^ j); [nia|].
        apply Z.mul_le_mono_nonneg_l; [lia|]. apply Z.pow_le_mono_r; lia. }
      apply Z.lt_succ_r. apply Z.div_lt_upper_bound; lia. }
    assert (0 <= rnd m) by (apply Z.div_pos; lia).
    apply encode_exact24; [lia|lia|].
    pose proof (pow_le_276 149 ltac:(lia)). assert (0 < 2 ^ 149) by (apply pow2_pos; lia). nia.
Qed.

Definition in_tyb (t : ity) (z : Z) : bool := (ty_min t <=? z) && (z <=? ty_max t).

Lemma encode_range32 s m : 0 <= m <= 2 ^ 276 -> in_u 32 (encode binary32 s m 0).
Proof.
  intros Hm. pose proof (round32_bound m Hm) as R. unfold encode. rewrite inf32_eq, Z.min_l by lia.
  apply (pattern_range binary32 m1 e3). exact R.
Qed.

(** [float2int] *)
Lemma float2int_l t rt v s m : In t int_types -> 0 <= rt <= 30 -> in_u 32 v -> decode binary32 v = FFin s m ->
  float2int t rt v = let z := sval s (rnd (m * 2 ^ rt)) in if in_tyb t z then Some z else None.
Proof.
  intros Ht Hrt Hv Hd. unfold float2int, one_shl.
  assert ((0 <=? rt) && (rt <? 31) = true) as -> by lia. cbn [bind].
  destruct (decode32_form v s m Hv Hd) as (q & j & Hq & Hj & Em).
  unfold fmul32. rewrite Hd, f_of_pow2 by lia. rewrite xorb_false_r.
  replace (m * 2 ^ (149 + rt)) with ((m * 2 ^ rt) * 2 ^ 149) by (rewrite (Z.pow_add_r 2 149) by lia; ring).
  pose proof (pow2_pos j Hj) as Pj. pose proof (pow2_pos rt ltac:(lia)) as Pr.
  assert (0 <= m) as Hm0 by nia.
  assert (m * 2 ^ rt = q * 2 ^ (j + rt)) as Emr by (rewrite Em, Z.pow_add_r by lia; ring).
  assert (encode binary32 s (m * 2 ^ rt * 2 ^ 149) 149 = encode binary32 s (m * 2 ^ rt) 0) as ->.
  { unfold encode. rewrite round_mag_shift by nia. reflexivity. }
  set (w := m * 2 ^ rt) in *.
  pose proof (bits_pos t Ht) as HB.
  destruct (Z_le_gt_dec w (2 ^ 276)) as [Hle|Hgt].
  - unfold int_of_f.
    pose proof (encode_exact32 s q (j + rt) Hq ltac:(lia) ltac:(lia)) as De. rewrite <- Emr in De.
    rewrite Emr in De at 2.
    rewrite (roundf_exact _ s q (j + rt) Hq ltac:(lia) ltac:(lia) De). rewrite <- Emr.
    rewrite Z_div_mult by lia. unfold in_tyb. reflexivity.
  - (* out of the range of the integer type *)
    assert (2 ^ 100 <= rnd w) as Hbig.
    { unfold rnd. apply Z.div_le_lower_bound; [lia|]. lia. }
    assert (- 2 ^ 100 < ty_min t /\ ty_max t < 2 ^ 100) as Hty by (ty_cases Ht; vm_compute; split; reflexivity).
    assert (in_tyb t (sval s (rnd w)) = false) as -> by (unfold in_tyb, sval; destruct s; lia).
    (* the float is at least 2^127 (or infinite) *)
    assert (0 <= round_mag binary32 w 0 /\ round_mag binary32 (2 ^ 276) 0 <= round_mag binary32 w 0) as (R0 & R1).
    { split; [destruct (round_mag_scale binary32 m1 w 0 ltac:(lia) ltac:(lia)) as (_ & _ & _ & R); exact R|].
      apply round_mag_mono; try lia; exact m1. }
    assert (vm (round_mag binary32 w 0) = w) as Rw.
    { rewrite Emr. apply round_repr32; lia. }
    unfold encode. rewrite inf32_eq.
    destruct (Z_lt_le_dec (round_mag binary32 w 0) inf32) as [Hf|Hf].
    + rewrite Z.min_l by lia. unfold int_of_f, roundf.
      rewrite decode32 by lia. rewrite Rw. fold (rnd w).
      (* the rounded value is w itself, an integer *)
      assert (rnd w * 2 ^ 149 = w) as Ew.
      { assert (149 <= j + rt).
        { destruct (Z_le_gt_dec 149 (j + rt)); [assumption|exfalso].
          assert (w < 2 ^ 24 * 2 ^ 149).
          { rewrite Emr. apply Z.lt_le_trans with (2 ^ 24 * 2 ^ (j + rt)).
            - pose proof (pow2_pos (j + rt) ltac:(lia)). nia.
            - apply Z.mul_le_mono_nonneg_l; [lia|]. apply Z.pow_le_mono_r; lia. }
          rewrite <- Z.pow_add_r in H by lia. assert (2 ^ (24 + 149) < 2 ^ 276) by (apply Z.pow_lt_mono_r; lia). lia. }
        assert (w = (q * 2 ^ (j + rt - 149)) * 2 ^ 149) as Ew'.
        { rewrite Emr, <- Z.mul_assoc, <- Z.pow_add_r by lia. f_equal. f_equal. lia. }
        unfold rnd. rewrite Ew', Z.add_comm, Z_div_plus_full by lia. rewrite (Z.div_small (2 ^ 148)) by lia. lia. }
      rewrite Ew. unfold encode. rewrite inf32_eq, Z.min_l by lia. rewrite decode32 by lia. rewrite Rw.
      rewrite <- Ew. rewrite Z_div_mult by lia.
      destruct ((ty_min t <=? sval s (rnd w)) && (sval s (rnd w) <=? ty_max t)) eqn:E; [unfold sval in E; destruct s; lia|reflexivity].
    + rewrite Z.min_r by lia. unfold int_of_f, roundf. rewrite decode32_inf. rewrite decode32_inf. reflexivity.
Qed.

(** Integers. *)
Lemma rnd_int n : 0 <= n -> rnd (n * 2 ^ 149) = n.
Proof.
  intros. unfold rnd. rewrite Z.add_comm, Z_div_plus_full by lia. rewrite (Z.div_small (2 ^ 148)) by lia. lia.
Qed.

Lemma f_of_int_range z : Z.abs z <= 2 ^ 64 -> in_u 32 (f_of_int z).
Proof.
  intros Hz. unfold f_of_int. apply encode_range32.
  assert (2 ^ 64 * 2 ^ 149 <= 2 ^ 276) by (rewrite <- Z.pow_add_r by lia; apply Z.pow_le_mono_r; lia).
  assert (0 < 2 ^ 149) by (apply pow2_pos; lia). nia.
Qed.

Lemma fp_of_int_l t rt n : In t int_types -> 0 <= rt <= 30 -> Z.abs n <= 2 ^ 24 -> in_ty t (n * 2 ^ rt) ->
  fp_of_int t rt n = Some (n * 2 ^ rt).
Proof.
  intros Ht Hrt Hn Hin. unfold fp_of_int. pose proof (pow2_pos rt ltac:(lia)) as Pr.
  erewrite float2int_l; [|assumption|assumption|apply f_of_int_range; lia|apply f_of_int_exact; assumption].
  replace (Z.abs n * 2 ^ 149 * 2 ^ rt) with ((Z.abs n * 2 ^ rt) * 2 ^ 149) by ring.
  cbv zeta. rewrite rnd_int by nia.
  assert (sval (n <? 0) (Z.abs n * 2 ^ rt) = n * 2 ^ rt) as ->.
  { unfold sval. destruct (n <? 0) eqn:E; [rewrite Z.abs_neq by lia; ring|rewrite Z.abs_eq by lia; ring]. }
  unfold in_tyb, in_ty in *. destruct ((ty_min t <=? n * 2 ^ rt) && (n * 2 ^ rt <=? ty_max t)) eqn:E; [reflexivity|lia].
Qed.

(** [int2float] *)
Lemma round_div_pow2 z rt : 0 < z -> 0 <= rt <= 30 ->
  round_mag binary32 (z * 2 ^ (149 - rt)) 0 = round_mag binary32 (z * 2 ^ 149) 0 - rt * 2 ^ 23
  /\ vm (round_mag binary32 (z * 2 ^ 149) 0) = vm (round_mag binary32 (z * 2 ^ (149 - rt)) 0) * 2 ^ rt.
Proof.
  intros Hz Hrt. pose proof (Z.log2_nonneg z) as L0.
  assert (round_mag binary32 (z * 2 ^ (149 - rt)) 0 = round_mag binary32 (z * 2 ^ 149) 0 - rt * 2 ^ 23) as E.
  { unfold round_mag. change (mbits binary32) with 23. rewrite !Z.log2_mul_pow2 by lia.
    rewrite !Z.max_r by lia.
    replace (149 + Z.log2 z - 23) with ((149 - rt + Z.log2 z - 23) + rt) by lia.
    replace (z * 2 ^ 149) with (z * 2 ^ (149 - rt) * 2 ^ rt)
      by (rewrite <- Z.mul_assoc, <- Z.pow_add_r by lia; f_equal; f_equal; lia).
    rewrite rne_scale by lia. ring. }
  split; [exact E|].
  assert (0 <= z * 2 ^ 149) as X1 by (assert (0 < 2 ^ 149) by (apply pow2_pos; lia); nia).
  assert (0 <= z * 2 ^ (149 - rt)) as X2 by (pose proof (pow2_pos (149 - rt) ltac:(lia)); nia).
  destruct (round_mag_scale binary32 m1 (z * 2 ^ 149) 0 ltac:(lia) X1) as (E1 & _ & _ & _).
  destruct (round_mag_scale binary32 m1 (z * 2 ^ (149 - rt)) 0 ltac:(lia) X2) as (E2 & _ & _ & _).
  change (mbits binary32) with 23 in E1, E2.
  change (2 ^ 0) with 1 in E1, E2. rewrite Z.mul_1_r in E1, E2. rewrite E1, E2.
  rewrite !Z.log2_mul_pow2 by lia. rewrite !Z.max_r by lia.
  replace (149 + Z.log2 z - 23) with ((149 - rt + Z.log2 z - 23) + rt) by lia.
  replace (z * 2 ^ 149) with (z * 2 ^ (149 - rt) * 2 ^ rt)
      by (rewrite <- Z.mul_assoc, <- Z.pow_add_r by lia; f_equal; f_equal; lia).
  rewrite rne_scale by lia. rewrite (Z.pow_add_r 2 (149 - rt + Z.log2 z - 23)) by lia. ring.
Qed.

Lemma int2float_l rt z : 0 <= rt <= 30 -> Z.abs z <= 2 ^ 64 ->
  int2float rt z = Some (encode binary32 (z <? 0) (Z.abs z * 2 ^ (149 - rt)) 0).
Proof.
  intros Hrt Hz. unfold int2float, one_shl. assert ((0 <=? rt) && (rt <? 31) = true) as -> by lia. cbn [bind].
  f_equal. unfold fdiv32. unfold f_of_int at 1.
  assert (2 ^ 64 * 2 ^ 149 <= 2 ^ 276) by (rewrite <- Z.pow_add_r by lia; apply Z.pow_le_mono_r; lia).
  assert (0 < 2 ^ 149) as P149 by (apply pow2_pos; lia).
  rewrite decode_encode32 by nia. rewrite f_of_pow2 by lia. rewrite xorb_false_r.
  assert ((2 ^ (149 + rt) =? 0) = false) as -> by (pose proof (pow2_pos (149 + rt) ltac:(lia)); lia).
  destruct (Z.eq_dec z 0) as [->|Hne].
  { change (Z.abs 0) with 0. rewrite (Z.mul_0_l (2 ^ (149 - rt))).
    change (vm (round_mag binary32 (0 * 2 ^ 149) 0)) with 0. cbv zeta. rewrite (Z.mul_0_l (2 ^ (149 + 2))).
    rewrite Z.div_0_l, Z.mod_0_l by (pose proof (pow2_pos (149 + rt) ltac:(lia)); lia). reflexivity. }
  destruct (round_div_pow2 (Z.abs z) rt ltac:(lia) Hrt) as (ER & EV).
  set (V := vm (round_mag binary32 (Z.abs z * 2 ^ 149) 0)) in *.
  (* V is a multiple of 2^126, so the division is exact *)
  set (V' := vm (round_mag binary32 (Z.abs z * 2 ^ (149 - rt)) 0)) in *.
  assert (V * 2 ^ (149 + 2) = (V' * 2 ^ 2) * 2 ^ (149 + rt)) as EX.
  { rewrite EV. rewrite (Z.pow_add_r 2 149 2), (Z.pow_add_r 2 149 rt) by lia. ring. }
  cbv zeta. rewrite EX. pose proof (pow2_pos (149 + rt) ltac:(lia)).
  rewrite Z_div_mult, Z_mod_mult by lia. cbn [Z.eqb].
  replace (2 * (V' * 2 ^ 2) + 0) with (V' * 2 ^ 3) by (change (2 ^ 3) with 8; change (2 ^ 2) with 4; ring).
  assert (0 <= round_mag binary32 (Z.abs z * 2 ^ (149 - rt)) 0) as R0.
  { pose proof (pow2_pos (149 - rt) ltac:(lia)).
    destruct (round_mag_scale binary32 m1 (Z.abs z * 2 ^ (149 - rt)) 0 ltac:(lia) ltac:(nia)) as (_ & _ & _ & R). exact R. }
  unfold encode. f_equal. f_equal. unfold V'. apply round_mag_exact; [exact m1|lia|exact R0].
Qed.

(** round trip *)
Lemma float_round_trip t rt z : In t int_types -> 0 <= rt <= 30 -> Z.abs z <= 2 ^ 24 -> in_ty t z ->
  exists v, int2float rt z = Some v /\ float2int t rt v = Some z.
Proof.
  intros Ht Hrt Hz Hin. rewrite int2float_l by lia. eexists. split; [reflexivity|].
  assert (Z.abs z * 2 ^ (149 - rt) <= 2 ^ 276) as Hb.
  { pose proof (pow_le_276 (149 - rt) ltac:(lia)). pose proof (pow2_pos (149 - rt) ltac:(lia)). nia. }
  pose proof (pow2_pos (149 - rt) ltac:(lia)).
  erewrite float2int_l; [|assumption|assumption|apply encode_range32; nia|apply encode_exact24; lia].
  rewrite <- Z.mul_assoc, <- Z.pow_add_r by lia. replace (149 - rt + rt) with 149 by lia.
  cbv zeta. rewrite rnd_int by lia.
  assert (sval (z <? 0) (Z.abs z) = z) as -> by (unfold sval; destruct (z <? 0) eqn:E; lia).
  unfold in_tyb, in_ty in *. destruct ((ty_min t <=? z) && (z <=? ty_max t)) eqn:E; [reflexivity|lia].
Qed.
