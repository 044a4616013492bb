(** Properties C07, C08: isnan / isinf / isnormal (include/nsimd/nsimd.h). *)
From Coq Require Import ZArith Lia Bool ZifyBool.
From Verif Require Import CInt BitLemmas FloatSpec FloatClass.
Open Scope Z_scope.

(** A subnormal: finite, non-zero, exponent field zero. *)
Definition subnormal (f : fmt) (b : Z) : Prop := exp_of f b = 0 /\ man_of f b <> 0.

Lemma shl_zero W M b : 0 <= M <= W -> 0 <= b -> (to_u W (Z.shiftl b (W - M)) =? 0) = (b mod 2 ^ M =? 0).
Proof.
  intros HM Hb. unfold to_u. rewrite shiftl_mul by lia.
  replace (2 ^ W) with (2 ^ M * 2 ^ (W - M)) by (rewrite <- Z.pow_add_r by lia; f_equal; lia).
  rewrite Zmult_mod_distr_r. pose proof (pow2_pos (W - M) ltac:(lia)).
  destruct (b mod 2 ^ M =? 0) eqn:E; nia.
Qed.

Lemma nan_spec f b : decode f b = FNaN <-> exp_of f b = 2 ^ ebits f - 1 /\ man_of f b <> 0.
Proof.
  unfold decode. destruct (exp_of f b =? 2 ^ ebits f - 1) eqn:E; [destruct (man_of f b =? 0) eqn:E'|];
    split; intros H; try discriminate; try reflexivity; try lia.
Qed.
Lemma inf_spec f b : (exists s, decode f b = FInf s) <-> exp_of f b = 2 ^ ebits f - 1 /\ man_of f b = 0.
Proof.
  unfold decode. destruct (exp_of f b =? 2 ^ ebits f - 1) eqn:E; [destruct (man_of f b =? 0) eqn:E'|];
    split; intros H; try (destruct H as [s H]; discriminate); try lia.
  eexists; reflexivity.
Qed.

Lemma fields32 b : in_u 32 b ->
  Z.land (Z.shiftr b 23) 0xFF = exp_of binary32 b /\ (to_u 32 (Z.shiftl b 9) =? 0) = (man_of binary32 b =? 0).
Proof.
  intros [Hb _]. split.
  - change 0xFF with (2 ^ 8 - 1). rewrite land_mask, shiftr_div by lia. reflexivity.
  - apply (shl_zero 32 23 b); lia.
Qed.
Lemma fields64 b : in_u 64 b ->
  Z.land (Z.shiftr b 52) 0x7FF = exp_of binary64 b /\ (to_u 64 (Z.shiftl b 12) =? 0) = (man_of binary64 b =? 0).
Proof.
  intros [Hb _]. split.
  - change 0x7FF with (2 ^ 11 - 1). rewrite land_mask, shiftr_div by lia. reflexivity.
  - apply (shl_zero 64 52 b); lia.
Qed.

(** C07. *)
Theorem C07_f32 : forall b, in_u 32 b ->
  (isnan_f32 b = true <-> decode binary32 b = FNaN) /\
  (isinf_f32 b = true <-> exists s, decode binary32 b = FInf s) /\
  (isnormal_f32 b = false <-> subnormal binary32 b).
Proof.
  intros b Hb. destruct (fields32 b Hb) as [E M]. unfold isnan_f32, isinf_f32, isnormal_f32, subnormal.
  rewrite nan_spec, inf_spec, E, M. change (2 ^ ebits binary32 - 1) with 255. repeat split; try lia.
Qed.
Print Assumptions C07_f32.
Theorem C07_f64 : forall b, in_u 64 b ->
  (isnan_f64 b = true <-> decode binary64 b = FNaN) /\
  (isinf_f64 b = true <-> exists s, decode binary64 b = FInf s) /\
  (isnormal_f64 b = false <-> subnormal binary64 b).
Proof.
  intros b Hb. destruct (fields64 b Hb) as [E M]. unfold isnan_f64, isinf_f64, isnormal_f64, subnormal.
  rewrite nan_spec, inf_spec, E, M. change (2 ^ ebits binary64 - 1) with 2047. repeat split; try lia.
Qed.
Print Assumptions C07_f64.
Example C07_ex : isnan_f32 0x7fc00000 = true /\ isinf_f32 0xff800000 = true /\ isnormal_f32 1 = false
  /\ isnormal_f32 0 = true /\ isnormal_f64 (2 ^ 52) = true.
Proof. vm_compute. auto. Qed.

(** C08. What the f16 functions compute: the shift [(u32)b << 6] keeps the
    exponent and the sign, so isnan holds on infinities as well, isinf holds on
    nothing, and isnormal holds exactly on subnormals and on -0. *)
Theorem C08_f16_actual : forall b, in_u 16 b ->
  (isnan_f16 b = true <-> (decode binary16 b = FNaN \/ exists s, decode binary16 b = FInf s)) /\
  isinf_f16 b = false /\
  (isnormal_f16 b = true <-> (subnormal binary16 b \/ b = 0x8000)).
Proof.
  intros b Hb. unfold isnan_f16, isinf_f16, isnormal_f16, subnormal.
  assert (Z.land (Z.shiftr b 10) 0x1F = exp_of binary16 b) as ->.
  { change 0x1F with (2 ^ 5 - 1). rewrite land_mask, shiftr_div by lia. reflexivity. }
  assert (to_u 32 (Z.shiftl b 6) = b * 64) as ->.
  { rewrite shiftl_mul by lia. unfold in_u in Hb. apply to_u_id. unfold in_u. lia. }
  rewrite nan_spec, inf_spec. change (2 ^ ebits binary16 - 1) with 31.
  unfold exp_of, man_of, in_u in *. cbn [ebits mbits binary16].
  change (2 ^ 10) with 1024. change (2 ^ 5) with 32. change (2 ^ 16) with 65536 in Hb.
  pose proof (Z.div_mod b 1024 ltac:(lia)). pose proof (Z.mod_pos_bound b 1024 ltac:(lia)).
  pose proof (Z.div_mod (b / 1024) 32 ltac:(lia)). pose proof (Z.mod_pos_bound (b / 1024) 32 ltac:(lia)).
  repeat split; lia.
Qed.
Print Assumptions C08_f16_actual.
Theorem C08_f16_refuted :
  (exists b s, in_u 16 b /\ decode binary16 b = FInf s /\ isnan_f16 b = true /\ isinf_f16 b = false) /\
  (exists b, in_u 16 b /\ decode binary16 b = FFin false (2 ^ 24) /\ isnormal_f16 b = false) /\
  (exists b, in_u 16 b /\ subnormal binary16 b /\ isnormal_f16 b = true).
Proof.
  split; [exists 0x7c00, false|split; [exists 0x3c00|exists 1]];
    unfold in_u, subnormal; vm_compute; repeat split; try discriminate; reflexivity.
Qed.
Print Assumptions C08_f16_refuted.
