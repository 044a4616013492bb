(** Lemmas on log2 (model: FixedPoint.v). *)
From Coq Require Import ZArith Lia Bool List ZifyBool.
From Verif Require Import CInt BitLemmas FloatSpec FloatProofs Fp16 RoundEven ScalarOps ScalarSpec ScalarProofs
  CpuSimd FixedPoint FixedPointSpec FixedPointConv FixedPointProofs FixedPointAlg.
Import ListNotations.
Open Scope Z_scope.

Lemma shl1_ok t z : In t int_types -> in_ty t (2 * z) -> fp_shl t z 1 = Some (2 * z).
Proof.
  intros H H2. unfold fp_shl, s_shl. pose proof (promote_bits t H) as PB. pose proof (bits_pos t H).
  assert ((0 <=? 1) && (1 <? bits (promote t)) = true) as ->.
  { lia. }
  rewrite Z.shiftl_mul_pow2 by lia. change (2 ^ 1) with 2. rewrite Z.mul_comm, cast_id by assumption. reflexivity.
Qed.

Lemma log2_shift a j : 0 < a -> 0 <= j -> Z.log2 (a * 2 ^ j) = Z.log2 a + j.
Proof. intros. rewrite Z.log2_mul_pow2 by lia. lia. Qed.

Section Log.
Variables (lf rt : Z) (t : ity).
Hypothesis Hl2 : 2 <= lf.
Local Lemma Hl : 0 <= lf. Proof. lia. Qed.
Hypothesis Hrt : 0 <= rt <= 30.
Hypothesis Hs : storage lf rt = Some t.
Variable a : Z.
Hypothesis Ha : 0 < a.

(** log.hpp:66-70: the loop normalising a value below one. *)
Lemma log2_down_ok (k : Z -> Z -> out) : forall fuel j, 0 <= j -> rt - Z.log2 a - j <= Z.of_nat fuel ->
  a * 2 ^ j < 2 * 2 ^ rt -> (0 < j -> j <= rt - Z.log2 a) -> Z.log2 a < rt ->
  log2_down t rt (2 * 2 ^ rt) (2 ^ rt) fuel (a * 2 ^ j) (- j) (2 ^ (rt - j)) k
  = k (Z.log2 a - rt) (2 ^ Z.log2 a).
Proof.
  destruct (storage_spec lf rt t Hl ltac:(lia) Hs) as (H & S & B & B2 & Pr).
  pose proof (Z.log2_nonneg a) as L0. pose proof (Z.log2_spec a Ha) as L.
  induction fuel as [|f IH]; intros j Hj Hf Hlt Hjr Hlog.
  - assert (j = rt - Z.log2 a) as -> by lia. cbn [log2_down].
    assert (2 ^ rt <= a * 2 ^ (rt - Z.log2 a)) as G.
    { replace (2 ^ rt) with (2 ^ Z.log2 a * 2 ^ (rt - Z.log2 a)) by (rewrite <- Z.pow_add_r by lia; f_equal; lia).
      apply Z.mul_le_mono_nonneg_r; [|lia]. pose proof (pow2_pos (rt - Z.log2 a) ltac:(lia)). lia. }
    assert ((a * 2 ^ (rt - Z.log2 a) <? 2 ^ rt) = false) as -> by lia. f_equal; [lia|]. f_equal. lia.
  - cbn [log2_down]. destruct (a * 2 ^ j <? 2 ^ rt) eqn:E.
    + assert (Z.log2 a + j < rt) as Hlt2.
      { destruct (Z_lt_le_dec (Z.log2 a + j) rt) as [|Hge]; [assumption|exfalso].
        assert (2 ^ rt <= 2 ^ (Z.log2 a + j)) by (apply Z.pow_le_mono_r; lia).
        rewrite Z.pow_add_r in H0 by lia. pose proof (pow2_pos j Hj).
        assert (2 ^ Z.log2 a * 2 ^ j <= a * 2 ^ j) by (apply Z.mul_le_mono_nonneg_r; lia). lia. }
      destruct (two_ok lf rt t Hl Hrt Hs) as (_ & I2).
      assert (2 * 2 ^ rt <= 2 ^ (bits t - 1)) as TB.
      { rewrite <- Z.pow_succ_r by lia. destruct (in_ty_signed t (2 * 2 ^ rt) S) as [F _]. 
        specialize (F I2). rewrite <- Z.pow_succ_r in F by lia. lia. }
      pose proof (pow2_pos j Hj) as Pj.
      rewrite shl1_ok; [|assumption|apply in_ty_signed; [assumption|nia]]. cbn [obind].
      assert (Z.quot (2 ^ (rt - j) * 2 ^ rt) (2 * 2 ^ rt) = 2 ^ (rt - (j + 1))) as EQ.
      { pose proof (pow2_pos rt ltac:(lia)). pose proof (pow2_pos (rt - j) ltac:(lia)).
        rewrite Z.quot_div_nonneg by nia.
        replace (2 ^ (rt - j)) with (2 * 2 ^ (rt - (j + 1))) by (rewrite <- Z.pow_succ_r by lia; f_equal; lia).
        replace (2 * 2 ^ (rt - (j + 1)) * 2 ^ rt) with (2 ^ (rt - (j + 1)) * (2 * 2 ^ rt)) by ring.
        apply Z_div_mult. lia. }
      rewrite fp_div_l; try assumption; try lia.
      * rewrite EQ. cbn [obind].
        replace (2 * (a * 2 ^ j)) with (a * 2 ^ (j + 1)) by (rewrite Z.pow_add_r by lia; ring).
        replace (dec8 (- j)) with (- (j + 1)) by (unfold dec8; rewrite cast_id; [lia|cbn; auto|unfold in_ty, ty_min, ty_max; cbn; lia]).
        apply IH; try lia. rewrite Z.pow_add_r by lia. change (2 ^ 1) with 2. lia.
      * apply in_ty_signed; [assumption|]. rewrite <- Z.pow_add_r by lia.
        pose proof (pow2_pos (rt - j + rt) ltac:(lia)).
        assert (2 ^ (rt - j + rt) < 2 ^ (bits t - 1)); [|lia].
        apply Z.pow_lt_mono_r; lia.
      * rewrite EQ. apply in_ty_signed; [assumption|]. pose proof (pow2_pos (rt - (j + 1)) ltac:(lia)).
        assert (2 ^ (rt - (j + 1)) < 2 ^ (bits t - 1)) by (apply Z.pow_lt_mono_r; lia). lia.
    + assert (j = rt - Z.log2 a) as ->.
      { assert (rt < Z.log2 a + 1 + j).
        { destruct (Z_lt_le_dec rt (Z.log2 a + 1 + j)) as [|Hge]; [assumption|exfalso].
          assert (2 ^ (Z.log2 a + 1 + j) <= 2 ^ rt) by (apply Z.pow_le_mono_r; lia).
          rewrite Z.pow_add_r in H0 by lia. pose proof (pow2_pos j Hj).
          assert (a * 2 ^ j < 2 ^ (Z.log2 a + 1) * 2 ^ j) by (apply Z.mul_lt_mono_pos_r; lia). lia. }
        destruct (Z.eq_dec j 0); lia. }
      f_equal; [lia|]. f_equal. lia.
Qed.

Local Notation g := (2 ^ (bits t - lf - rt)).

(** Below 2^s (s the number of unused bits of the storage) the comparison with the
    power of two cannot tell anything apart: the result is an integer. *)
Lemma fp_log2_small fuel : a < g -> (31 <= fuel)%nat ->
  fp_log2 t lf rt fuel a = Ret (Z.min 0 (Z.log2 a - rt) * 2 ^ rt).
Proof.
  intros Hag Hf. destruct (storage_spec lf rt t Hl ltac:(lia) Hs) as (H & S & B & B2 & Pr).
  pose proof (Z.log2_nonneg a) as L0. pose proof (Z.log2_spec a Ha) as L.
  unfold fp_log2. destruct (one_ok lf rt t Hl Hrt Hs) as (-> & I1). destruct (two_ok lf rt t Hl Hrt Hs) as (-> & I2).
  cbn [obind]. assert ((a <=? 0) = false) as -> by lia.
  unfold fp_shr. assert ((0 <=? bits t - lf) && (bits t - lf <? bits (promote t)) = true) as -> by lia. cbn [obind].
  assert (Z.shiftr a (bits t - lf) = 0) as ->.
  { rewrite Z.shiftr_div_pow2 by lia. apply Z.div_small. split; [lia|].
    eapply Z.lt_le_trans; [exact Hag|]. apply Z.pow_le_mono_r; lia. }
  rewrite cast_id; [|assumption|apply in_ty_signed; [assumption|pose proof (pow2_pos (bits t - 1) ltac:(lia)); lia]].
  change (Z.shiftr 0 1) with 0. change (negb (0 =? 0)) with false. cbv iota.
  assert (0 < g) as Pg by (apply pow2_pos; lia).
  assert (2 ^ rt <= g) as Pg2 by (apply Z.pow_le_mono_r; lia).
  (* the final comparison *)
  assert (forall I p, 0 <= p < g -> -rt <= I <= 0 ->
    (if fp_eq t lf rt a p then obind (fp_of_int t rt I) Ret
     else obind (fp_of_int t rt I) (fun res : Z => obind (fp_div t rt a p)
            (fun y0 => log2_outer t lf rt (2 * 2 ^ rt) fuel y0 (2 ^ rt) res 0))) = Ret (I * 2 ^ rt)) as Fin.
  { intros I p Hp HI. rewrite (fp_eq_l lf rt t Hl ltac:(lia) Hs).
    rewrite !Z.div_small by lia. cbn [Z.eqb].
    rewrite fp_of_int_l; [reflexivity|assumption|lia|lia|].
    apply in_ty_signed; [assumption|]. pose proof (pow2_pos rt ltac:(lia)).
    assert (rt < 2 ^ rt) by (apply Z.pow_gt_lin_r; lia).
    assert (2 ^ rt * 2 ^ rt <= 2 ^ (bits t - 1)) by (rewrite <- Z.pow_add_r by lia; apply Z.pow_le_mono_r; lia). nia. }
  destruct (Z_lt_le_dec (Z.log2 a) rt) as [Hlt|Hge].
  - rewrite Z.min_r by lia.
    pose proof (log2_down_ok (fun I p => if fp_eq t lf rt a p then obind (fp_of_int t rt I) Ret
     else obind (fp_of_int t rt I) (fun res : Z => obind (fp_div t rt a p)
            (fun y0 => log2_outer t lf rt (2 * 2 ^ rt) fuel y0 (2 ^ rt) res 0))) fuel 0) as D.
    rewrite Z.pow_0_r, Z.mul_1_r, !Z.sub_0_r in D. change (- 0) with 0 in D.
    assert (a < 2 ^ rt). { apply Z.log2_lt_pow2; lia. }
    rewrite D by lia. apply Fin; [|lia]. split; [apply Z.lt_le_incl, pow2_pos; lia|].
    eapply Z.lt_le_trans; [|exact Pg2]. apply Z.pow_lt_mono_r; lia.
  - rewrite Z.min_l by lia. assert (2 ^ rt <= a). { apply Z.log2_le_pow2; lia. }
    destruct fuel as [|f]; [lia|]. cbn [log2_down]. assert ((a <? 2 ^ rt) = false) as -> by lia.
    apply Fin; [|lia]. split; [pose proof (pow2_pos rt); lia|]. lia.
Qed.
End Log.

(** A case where the fractional loop is stuck: z * z = z below two. *)
Lemma log2_inner_stuck t rt two z (k : Z -> Z -> Z -> out) : z < two -> fp_mul t rt z z = Some z ->
  forall fuel p i r, log2_inner t rt two fuel z p i k <> Ret r.
Proof.
  intros Hz Hm. induction fuel as [|f IH]; intros p i r; cbn [log2_inner]; (assert ((z <? two) = true) as -> by lia).
  - discriminate.
  - rewrite Hm. cbn [obind]. destruct (fp_div t rt p two) as [p'|]; [|discriminate]. cbn [obind].
    destruct (carith i32 (i + 1)); [|discriminate]. cbn [obind]. apply IH.
Qed.

Lemma log2_stuck_8 : forall fuel r, fp_log2 i16 12 2 fuel 32 <> Ret r.
Proof.
  intros fuel r.
  replace (fp_log2 i16 12 2 fuel 32) with
    (log2_up i16 2 8 fuel 1 0 4 (fun I pow2 : Z => obind (fp_div i16 2 32 pow2) (fun q =>
        if fp_eq i16 12 2 4 q then obind (fp_of_int i16 2 I) Ret else
        obind (fp_of_int i16 2 I) (fun res => obind (fp_div i16 2 32 pow2) (fun y0 => log2_outer i16 12 2 8 fuel y0 4 res 0)))))
    by reflexivity.
  destruct fuel as [|f]; [discriminate|]. remember (S f) as F eqn:EF. rewrite EF at 1. cbn [log2_up].
  change (1 =? 0) with false. cbv iota. replace (fp_mul i16 2 8 4) with (Some 8) by reflexivity. cbn [obind].
  change (Z.shiftr 1 1) with 0. change (inc8 0) with 1.
  assert (forall k, log2_up i16 2 8 f 0 1 8 k = k 1 8) as -> by (intros; destruct f; reflexivity).
  replace (fp_div i16 2 32 8) with (Some 16) by reflexivity. cbn [obind].
  replace (fp_eq i16 12 2 4 16) with false by reflexivity. replace (fp_of_int i16 2 1) with (Some 4) by reflexivity. cbn [obind].
  rewrite EF. cbn [log2_outer]. change (0 <? 2 + 12) with true. cbv iota.
  assert (forall n k z p i, (z <? 8) = false -> log2_inner i16 2 8 n z p i k = k z p i) as NI.
  { intros [|n] k z p i E; cbn [log2_inner]; rewrite E; reflexivity. }
  rewrite NI by reflexivity. replace (fp_add i16 4 4) with (Some 8) by reflexivity. cbn [obind].
  replace (fp_div i16 2 16 8) with (Some 8) by reflexivity. cbn [obind]. replace (carith i32 (0 + 1)) with (Some 1) by reflexivity. cbn [obind].
  destruct f as [|f]; [discriminate|]. cbn [log2_outer]. change (1 <? 2 + 12) with true. cbv iota.
  rewrite NI by reflexivity. replace (fp_add i16 8 4) with (Some 12) by reflexivity. cbn [obind].
  replace (fp_div i16 2 8 8) with (Some 4) by reflexivity. cbn [obind]. replace (carith i32 (1 + 1)) with (Some 2) by reflexivity. cbn [obind].
  destruct f as [|f]; [discriminate|]. cbn [log2_outer]. change (2 <? 2 + 12) with true. cbv iota.
  apply log2_inner_stuck; [lia|reflexivity].
Qed.
