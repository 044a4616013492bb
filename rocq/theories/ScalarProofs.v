From Coq Require Import ZArith Lia Bool List ZifyBool Znumtheory.
From Verif Require Import CInt BitLemmas ScalarOps ScalarSpec.
Import ListNotations.
Open Scope Z_scope.

Ltac ty_cases H :=
  unfold int_types in H; cbn [In] in H;
  repeat (destruct H as [<-|H]); [..|contradiction].

Lemma bits_pos t : In t int_types -> 8 <= bits t <= 64.
Proof. intros H; ty_cases H; cbn; lia. Qed.

(** *** casts *)
Lemma cast_in_ty t z : In t int_types -> in_ty t (cast t z).
Proof.
  intros H. pose proof (bits_pos t H). unfold in_ty, cast, ty_min, ty_max.
  destruct (is_signed t).
  - pose proof (to_s_range (bits t) z ltac:(lia)) as R. unfold in_s in R. lia.
  - pose proof (to_u_range (bits t) z ltac:(lia)) as R. unfold in_u in R. lia.
Qed.

Lemma mod_eq_divide m a b : 0 < m -> (a mod m = b mod m <-> (m | a - b)).
Proof.
  intros Hm. split.
  - intros H. apply Z.mod_divide; [lia|]. rewrite Zminus_mod, H, Z.sub_diag. apply Z.mod_0_l; lia.
  - intros [k Hk]. replace a with (b + k * m) by lia. apply Z_mod_plus_full.
Qed.

Lemma cast_mod t z : In t int_types -> (cast t z) mod 2 ^ bits t = z mod 2 ^ bits t.
Proof.
  intros H. pose proof (bits_pos t H). unfold cast. destruct (is_signed t).
  - apply to_s_mod; lia.
  - unfold to_u. apply Z.mod_mod. pose proof (pow2_pos (bits t)); lia.
Qed.

Lemma cast_wraps t z : In t int_types -> wraps_to t z (cast t z).
Proof.
  intros H. split; [apply cast_in_ty; assumption|].
  pose proof (bits_pos t H). apply mod_eq_divide; [apply pow2_pos; lia|]. symmetry. apply cast_mod. assumption.
Qed.

Lemma cast_id t z : In t int_types -> in_ty t z -> cast t z = z.
Proof.
  intros H Hz. pose proof (bits_pos t H). unfold cast, in_ty, ty_min, ty_max in *.
  destruct (is_signed t); [apply to_s_id|apply to_u_id]; unfold in_s, in_u; lia.
Qed.

Lemma cast_congr t a b : a mod 2 ^ bits t = b mod 2 ^ bits t -> cast t a = cast t b.
Proof. intros H. unfold cast. destruct (is_signed t); [apply to_s_congr|apply to_u_congr]; assumption. Qed.

Lemma wraps_cast t z r : In t int_types -> wraps_to t z r -> r = cast t z.
Proof.
  intros H [Hr Hd]. rewrite <- (cast_id t r H Hr). apply cast_congr.
  pose proof (bits_pos t H). symmetry. apply mod_eq_divide; [apply pow2_pos; lia|exact Hd].
Qed.

Lemma wraps_exact t z r : In t int_types -> in_ty t z -> wraps_to t z r -> r = z.
Proof. intros H Hz Hw. rewrite (wraps_cast t z r H Hw). apply cast_id; assumption. Qed.

(** *** arithmetic in the promoted type *)
Lemma carith_congr t z r : In t int_types -> carith (promote t) z = Some r -> (2 ^ bits t | z - r).
Proof.
  intros H. unfold carith.
  assert (exists k, 0 <= k /\ bits (promote t) = bits t + k) as (k & Hk & Ek).
  { unfold promote. destruct (bits t <? 32) eqn:E; [exists (32 - bits t)|exists 0]; change (bits i32) with 32; lia. }
  pose proof (bits_pos t H) as Hb.
  destruct (is_signed (promote t)).
  - destruct (_ && _); intros E; [injection E as <-|discriminate]. rewrite Z.sub_diag. apply Z.divide_0_r.
  - intros E; injection E as <-. unfold to_u. rewrite Ek.
    apply Z.divide_trans with (2 ^ (bits t + k)).
    + rewrite Z.pow_add_r by lia. apply Z.divide_factor_l.
    + apply mod_eq_divide; [apply pow2_pos; lia|]. symmetry. apply Z.mod_mod.
      pose proof (pow2_pos (bits t + k)); lia.
Qed.

Lemma casted_value t o r z : In t int_types ->
  casted t o = Some r -> (forall y, o = Some y -> (2 ^ bits t | z - y)) -> wraps_to t z r.
Proof.
  intros H Hc Ho. unfold casted, bind in Hc. destruct o as [y|]; [|discriminate].
  injection Hc as <-. specialize (Ho y eq_refl).
  destruct (cast_wraps t y H) as [Hi Hd]. split; [exact Hi|].
  replace (z - cast t y) with ((z - y) + (y - cast t y)) by ring. apply Z.divide_add_r; assumption.
Qed.

Lemma div_sub_mul m a b c : (m | a - b) -> (m | a * c - b * c).
Proof. intros [k Hk]. exists (k * c). replace (a * c - b * c) with ((a - b) * c) by ring. rewrite Hk. ring. Qed.

Lemma div_trans m a b c : (m | a - b) -> (m | b - c) -> (m | a - c).
Proof. intros. replace (a - c) with ((a - b) + (b - c)) by ring. apply Z.divide_add_r; assumption. Qed.

Lemma s_add_value t a b r : In t int_types -> s_add t a b = Some r -> wraps_to t (a + b) r.
Proof. intros H E. eapply casted_value; [assumption|exact E|]. intros. apply carith_congr; assumption. Qed.
Lemma s_sub_value t a b r : In t int_types -> s_sub t a b = Some r -> wraps_to t (a - b) r.
Proof. intros H E. eapply casted_value; [assumption|exact E|]. intros. apply carith_congr; assumption. Qed.
Lemma s_mul_value t a b r : In t int_types -> s_mul t a b = Some r -> wraps_to t (a * b) r.
Proof. intros H E. eapply casted_value; [assumption|exact E|]. intros. apply carith_congr; assumption. Qed.
Lemma s_neg_value t a r : In t int_types -> s_neg t a = Some r -> wraps_to t (- a) r.
Proof. intros H E. eapply casted_value; [assumption|exact E|]. intros. apply carith_congr; assumption. Qed.

Lemma s_fma_value t a b c r : In t int_types -> s_fma t a b c = Some r -> wraps_to t (a * b + c) r.
Proof.
  intros H E. eapply casted_value; [assumption|exact E|]. intros y Hy. unfold bind in Hy.
  destruct (carith (promote t) (a * b)) as [p|] eqn:Ep; [|discriminate].
  apply carith_congr in Ep, Hy; try assumption.
  apply (div_trans _ _ (p + c)); [|exact Hy]. replace (a * b + c - (p + c)) with (a * b - p) by ring. exact Ep.
Qed.

Lemma s_fms_value t a b c r : In t int_types -> s_fms t a b c = Some r -> wraps_to t (a * b - c) r.
Proof.
  intros H E. eapply casted_value; [assumption|exact E|]. intros y Hy. unfold bind in Hy.
  destruct (carith (promote t) (a * b)) as [p|] eqn:Ep; [|discriminate].
  apply carith_congr in Ep, Hy; try assumption.
  apply (div_trans _ _ (p - c)); [|exact Hy]. replace (a * b - c - (p - c)) with (a * b - p) by ring. exact Ep.
Qed.

Lemma s_fnma_value t a b c r : In t int_types -> s_fnma t a b c = Some r -> wraps_to t (- (a * b) + c) r.
Proof.
  intros H E. eapply casted_value; [assumption|exact E|]. intros y Hy. unfold bind in Hy.
  destruct (carith (promote t) (- a)) as [n|] eqn:En; [|discriminate].
  destruct (carith (promote t) (n * b)) as [p|] eqn:Ep; [|discriminate].
  apply carith_congr in Ep, Hy, En; try assumption.
  apply (div_trans _ _ (p + c)); [|exact Hy]. replace (- (a * b) + c - (p + c)) with (- a * b - p) by ring.
  apply (div_trans _ _ (n * b)); [|exact Ep]. apply div_sub_mul. exact En.
Qed.

Lemma s_fnms_value t a b c r : In t int_types -> s_fnms t a b c = Some r -> wraps_to t (- (a * b) - c) r.
Proof.
  intros H E. eapply casted_value; [assumption|exact E|]. intros y Hy. unfold bind in Hy.
  destruct (carith (promote t) (- a)) as [n|] eqn:En; [|discriminate].
  destruct (carith (promote t) (n * b)) as [p|] eqn:Ep; [|discriminate].
  apply carith_congr in Ep, Hy, En; try assumption.
  apply (div_trans _ _ (p - c)); [|exact Hy]. replace (- (a * b) - c - (p - c)) with (- a * b - p) by ring.
  apply (div_trans _ _ (n * b)); [|exact Ep]. apply div_sub_mul. exact En.
Qed.

(** *** definedness *)
(** Types on which the C evaluation of products and sums is never undefined. *)
Definition total_ty (t : ity) : bool :=
  negb (is_signed t) && negb (bits t =? 16) || (bits t =? 8) || is_signed t && (bits t =? 16).

Lemma carith_i32 z : - 2 ^ 31 <= z <= 2 ^ 31 - 1 -> carith i32 z = Some z.
Proof.
  intros Hz. unfold carith, i32, ty_min, ty_max; cbn [is_signed bits].
  change (32 - 1) with 31.
  destruct ((- 2 ^ 31 <=? z) && (z <=? 2 ^ 31 - 1)) eqn:E; [reflexivity|lia].
Qed.

Lemma bind_some_casted t o : casted t o <> None <-> o <> None.
Proof. unfold casted, bind. destruct o; split; congruence. Qed.

Ltac unf := unfold s_fma, s_fms, s_fnma, s_fnms, s_add, s_sub, s_mul, s_neg, promote;
  cbn [bits is_signed i8 u8 i16 u16 i32 u32 i64 u64 Z.ltb Z.compare Pos.compare Pos.compare_cont].

Lemma fma_total t a b c : In t int_types -> total_ty t = true -> in_ty t a -> in_ty t b -> in_ty t c ->
  s_fma t a b c <> None /\ s_fms t a b c <> None /\ s_fnma t a b c <> None /\ s_fnms t a b c <> None.
Proof.
  intros H. ty_cases H; unfold total_ty; cbn [is_signed bits negb andb orb Z.eqb i8 u8 i16 u16 i32 u32 i64 u64 Pos.eqb];
    intros HT; try discriminate; unfold in_ty, ty_min, ty_max;
    cbn [is_signed bits i8 u8 i16 u16 i32 u32 i64 u64 Z.sub Z.add Z.pos_sub Z.opp Pos.pred_double Pos.add Z.pow Z.pow_pos Pos.iter Z.mul Pos.mul Z.pred_double];
    intros Ha Hb Hc;
    repeat split;
    unf; apply bind_some_casted; unfold bind;
    try discriminate.
  all: try (change (Ity true 32) with i32).
  all: repeat (match goal with |- context [carith i32 ?z] => rewrite (carith_i32 z) by nia end); discriminate.
Qed.

Lemma fma_value_total t a b c : In t int_types -> total_ty t = true -> in_ty t a -> in_ty t b -> in_ty t c ->
  exists r1 r2 r3 r4,
    s_fma t a b c = Some r1 /\ wraps_to t (a * b + c) r1 /\
    s_fms t a b c = Some r2 /\ wraps_to t (a * b - c) r2 /\
    s_fnma t a b c = Some r3 /\ wraps_to t (- (a * b) + c) r3 /\
    s_fnms t a b c = Some r4 /\ wraps_to t (- (a * b) - c) r4.
Proof.
  intros H HT Ha Hb Hc. destruct (fma_total t a b c H HT Ha Hb Hc) as (N1 & N2 & N3 & N4).
  destruct (s_fma t a b c) as [r1|] eqn:E1; [|congruence].
  destruct (s_fms t a b c) as [r2|] eqn:E2; [|congruence].
  destruct (s_fnma t a b c) as [r3|] eqn:E3; [|congruence].
  destruct (s_fnms t a b c) as [r4|] eqn:E4; [|congruence].
  exists r1, r2, r3, r4.
  split; [reflexivity|]. split; [eapply s_fma_value; eassumption|].
  split; [reflexivity|]. split; [eapply s_fms_value; eassumption|].
  split; [reflexivity|]. split; [eapply s_fnma_value; eassumption|].
  split; [reflexivity|]. eapply s_fnms_value; eassumption.
Qed.

(** Signed 32/64-bit: defined and exact when nothing leaves the range. *)
Lemma promote_wide t : 32 <= bits t -> promote t = t.
Proof. intros H. unfold promote. destruct (bits t <? 32) eqn:E; [lia|reflexivity]. Qed.

Lemma carith_fits t z : In t int_types -> in_ty t z -> carith t z = Some z.
Proof.
  intros H Hz. unfold carith. destruct (is_signed t) eqn:S.
  - unfold in_ty in Hz. destruct ((ty_min t <=? z) && (z <=? ty_max t)) eqn:E; [reflexivity|lia].
  - rewrite to_u_id; [reflexivity|]. unfold in_ty, ty_min, ty_max in Hz. rewrite S in Hz. unfold in_u. lia.
Qed.

Lemma carith_promote_fits t z : In t int_types -> in_ty t z -> carith (promote t) z = Some z.
Proof.
  intros H Hz. destruct (Z_lt_le_dec (bits t) 32) as [Hl|Hl].
  - unfold promote. destruct (bits t <? 32) eqn:E; [|lia]. apply carith_fits; [cbn; tauto|].
    unfold in_ty, ty_min, ty_max in *. cbn [i32 is_signed bits]. revert Hz. clear E.
    assert (Hs := H). ty_cases Hs; cbn in Hl |- *; lia.
  - rewrite promote_wide by lia. apply carith_fits; assumption.
Qed.

Lemma fma_fits t a b c : In t int_types -> in_ty t (a * b) -> in_ty t (a * b + c) ->
  s_fma t a b c = Some (a * b + c).
Proof.
  intros H H1 H2. unfold s_fma. rewrite carith_promote_fits by assumption. cbn [bind].
  rewrite carith_promote_fits by assumption. cbn [casted bind]. rewrite cast_id by assumption. reflexivity.
Qed.

(** *** min, max, abs *)
Lemma s_min_ok a b : s_min a b = Z.min a b.
Proof. unfold s_min. destruct (a <? b) eqn:E; lia. Qed.
Lemma s_max_ok a b : s_max a b = Z.max a b.
Proof. unfold s_max. destruct (b <? a) eqn:E; lia. Qed.

Lemma s_abs_ok t a : In t int_types -> in_ty t a -> a <> ty_min t \/ is_signed t = false ->
  s_abs t a = Some (Z.abs a).
Proof.
  intros H Ha Hn. unfold s_abs. destruct (is_signed t) eqn:S; cbn [negb].
  - destruct Hn as [Hn|]; [|discriminate].
    assert (ty_min t = - ty_max t - 1) as Em by (unfold ty_min, ty_max; rewrite S; lia).
    unfold in_ty in Ha. destruct (0 <=? a) eqn:E.
    + rewrite cast_id by (try assumption; unfold in_ty; lia). f_equal. lia.
    + rewrite carith_promote_fits by (try assumption; unfold in_ty; lia). cbn [casted bind].
      rewrite cast_id by (try assumption; unfold in_ty; lia). f_equal; lia.
  - unfold in_ty, ty_min in Ha. rewrite S in Ha. f_equal. lia.
Qed.

Lemma s_abs_min t : In t int_types -> is_signed t = true ->
  s_abs t (ty_min t) = if bits t <? 32 then Some (ty_min t) else None.
Proof. intros H S. ty_cases H; cbn in S; try discriminate; vm_compute; reflexivity. Qed.

(** *** saturating arithmetic *)
Lemma s_adds_ok t a b : In t int_types -> in_ty t a -> in_ty t b -> s_adds t a b = Some (clamp t (a + b)).
Proof.
  intros H Ha Hb. pose proof (bits_pos t H) as HB.
  assert (0 <= ty_max t /\ (is_signed t = true -> ty_min t = - ty_max t - 1) /\ (is_signed t = false -> ty_min t = 0)) as (M0 & M1 & M2).
  { unfold ty_min, ty_max. pose proof (pow2_pos (bits t) ltac:(lia)). pose proof (pow2_pos (bits t - 1) ltac:(lia)).
    destruct (is_signed t); repeat split; try discriminate; lia. }
  assert (forall z, in_ty t z -> forall x y, x + y = z -> s_add t x y = Some z) as Fit.
  { intros z Hz x y <-. unfold s_add. rewrite carith_promote_fits by assumption.
    cbn [casted bind]. rewrite cast_id by assumption. reflexivity. }
  unfold s_adds, clamp. unfold in_ty in Ha, Hb. destruct (is_signed t) eqn:S; cbn [negb].
  - specialize (M1 eq_refl).
    destruct (((0 <=? a) && (b <=? 0)) || ((a <=? 0) && (0 <=? b))) eqn:E1.
    { rewrite (Fit (a + b)); [f_equal; lia|unfold in_ty; lia|reflexivity]. }
    destruct (0 <? a) eqn:E2.
    + rewrite carith_promote_fits by (try assumption; unfold in_ty; lia). cbn [bind].
      destruct (ty_max t - a <? b) eqn:E3; [f_equal; lia|].
      rewrite (Fit (a + b)); [f_equal; lia|unfold in_ty; lia|reflexivity].
    + rewrite carith_promote_fits by (try assumption; unfold in_ty; lia). cbn [bind].
      destruct (b <? ty_min t - a) eqn:E3; [f_equal; lia|].
      rewrite (Fit (a + b)); [f_equal; lia|unfold in_ty; lia|reflexivity].
  - specialize (M2 eq_refl).
    assert (ty_max t = 2 ^ bits t - 1) as EM by (unfold ty_max; rewrite S; reflexivity).
    assert (cast t (-1) = ty_max t) as ECm.
    { unfold cast. rewrite S, EM. unfold to_u. rewrite <- (Z_mod_plus_full (-1) 1).
      rewrite Z.mod_small by lia. lia. }
    destruct (Z_le_gt_dec (a + b) (ty_max t)) as [Hle|Hgt].
    + rewrite (Fit (a + b)); [|unfold in_ty; lia|reflexivity]. cbn [bind].
      destruct ((a + b <? a) || (a + b <? b)) eqn:E; [lia|]. f_equal; lia.
    + assert (s_add t a b = Some (a + b - 2 ^ bits t)) as ->.
      { destruct (s_add t a b) as [r|] eqn:E.
        - apply s_add_value in E; [|assumption]. destruct E as [Hr [k Hk]].
          unfold in_ty in Hr. f_equal. pose proof (pow2_pos (bits t) ltac:(lia)) as PP.
          set (g := 2 ^ bits t) in *. assert (0 < k) by nia. assert (k < 2) by nia. assert (k = 1) by lia. subst k. lia.
        - exfalso. revert E. unfold s_add. apply bind_some_casted. unfold carith.
          assert (Hs := H). ty_cases Hs; cbn in S; try discriminate; cbn [promote bits is_signed u8 u16 u32 u64 i32 Z.ltb Z.compare Pos.compare Pos.compare_cont];
            try discriminate;
            match goal with |- (if ?c then _ else _) <> None => destruct c eqn:EE; [discriminate|] end;
            cbn in *; lia. }
      cbn [bind]. destruct ((a + b - 2 ^ bits t <? a) || (a + b - 2 ^ bits t <? b)) eqn:E.
      * f_equal; lia.
      * lia.
Qed.

Lemma s_subs_ok t a b : In t int_types -> in_ty t a -> in_ty t b ->
  (is_signed t = true -> b <> ty_min t) -> s_subs t a b = Some (clamp t (a - b)).
Proof.
  intros H Ha Hb Hn. pose proof (bits_pos t H) as HB. unfold s_subs.
  assert (0 <= ty_max t /\ (is_signed t = true -> ty_min t = - ty_max t - 1) /\ (is_signed t = false -> ty_min t = 0)) as (M0 & M1 & M2).
  { unfold ty_min, ty_max. pose proof (pow2_pos (bits t) ltac:(lia)). pose proof (pow2_pos (bits t - 1) ltac:(lia)).
    destruct (is_signed t); repeat split; try discriminate; lia. }
  unfold in_ty in *. destruct (is_signed t) eqn:S; cbn [negb].
  - specialize (M1 eq_refl). specialize (Hn eq_refl).
    unfold s_neg. rewrite carith_promote_fits by (try assumption; unfold in_ty; lia). cbn [casted bind].
    rewrite cast_id by (try assumption; unfold in_ty; lia).
    rewrite s_adds_ok by (try assumption; unfold in_ty; lia). reflexivity.
  - specialize (M2 eq_refl). destruct (a <? b) eqn:E.
    + unfold clamp. f_equal. lia.
    + unfold s_sub. rewrite carith_promote_fits by (try assumption; unfold in_ty; lia). cbn [casted bind].
      rewrite cast_id by (try assumption; unfold in_ty; lia). unfold clamp. f_equal. lia.
Qed.

(** Subtracting the most negative value: narrow types add it instead, 32 and
    64 bits negate it (undefined). *)
Lemma s_subs_min t a : In t int_types -> is_signed t = true -> in_ty t a ->
  s_subs t a (ty_min t) = if bits t <? 32 then Some (clamp t (a + ty_min t)) else None.
Proof.
  intros H S Ha. unfold s_subs. rewrite S. cbn [negb].
  assert (s_neg t (ty_min t) = if bits t <? 32 then Some (ty_min t) else None) as ->.
  { assert (Hs := H). ty_cases Hs; cbn in S; try discriminate; vm_compute; reflexivity. }
  destruct (bits t <? 32); [|reflexivity]. cbn [bind].
  apply s_adds_ok; try assumption. unfold in_ty, ty_min, ty_max. rewrite S.
  pose proof (bits_pos t H). pose proof (pow2_pos (bits t - 1) ltac:(lia)). lia.
Qed.

(** *** shifts *)
Lemma promote_bits t : In t int_types -> bits t <= bits (promote t).
Proof. intros H; ty_cases H; cbn; lia. Qed.

Lemma uty_in t : In t int_types -> In (uty t) int_types.
Proof. intros H; ty_cases H; cbn; tauto. Qed.

Lemma s_shl_ok t a s : In t int_types -> 0 <= s < bits t ->
  exists r, s_shl t a s = Some r /\ wraps_to t (a * 2 ^ s) r.
Proof.
  intros H Hs. pose proof (promote_bits t H). unfold s_shl.
  destruct ((0 <=? s) && (s <? bits (promote t))) eqn:E; [|lia].
  eexists; split; [reflexivity|]. rewrite shiftl_mul by lia. apply cast_wraps. assumption.
Qed.

Lemma u_shr_ok t a s : In t int_types -> is_signed t = false -> in_ty t a -> 0 <= s < bits t ->
  u_shr t a s = Some (a / 2 ^ s).
Proof.
  intros H S Ha Hs. pose proof (promote_bits t H). unfold u_shr.
  destruct ((0 <=? s) && (s <? bits (promote t))) eqn:E; [|lia].
  rewrite shiftr_div by lia. rewrite cast_id; [reflexivity|assumption|].
  unfold in_ty, ty_min in *. rewrite S in *. pose proof (pow2_pos s ltac:(lia)).
  split; [apply Z.div_pos; lia|]. pose proof (Z.div_le_upper_bound a (2 ^ s) a ltac:(lia) ltac:(nia)). lia.
Qed.

Lemma cast_uty t a : In t int_types -> cast (uty t) a = a mod 2 ^ bits t.
Proof. reflexivity. Qed.

Lemma in_uty t a : In t int_types -> in_ty (uty t) (a mod 2 ^ bits t).
Proof.
  intros H. pose proof (bits_pos t H). pose proof (Z.mod_pos_bound a (2 ^ bits t) ltac:(apply pow2_pos; lia)).
  unfold in_ty, ty_min, ty_max, uty; cbn [is_signed bits]. lia.
Qed.

(** [shr] divides the unsigned reading of the operand. *)
Lemma s_shr_ok t a s : In t int_types -> in_ty t a -> 0 <= s < bits t ->
  exists r, s_shr t a s = Some r /\ wraps_to t ((a mod 2 ^ bits t) / 2 ^ s) r.
Proof.
  intros H Ha Hs. unfold s_shr. destruct (is_signed t) eqn:S; cbn [negb].
  - rewrite cast_uty by assumption. rewrite u_shr_ok; [|apply uty_in; assumption|reflexivity|apply in_uty; assumption|exact Hs].
    cbn [bind]. eexists; split; [reflexivity|]. apply cast_wraps; assumption.
  - rewrite u_shr_ok by assumption. eexists; split; [reflexivity|].
    unfold in_ty, ty_min, ty_max in Ha. rewrite S in Ha. rewrite (Z.mod_small a) by lia.
    split; [|rewrite Z.sub_diag; apply Z.divide_0_r].
    unfold in_ty, ty_min, ty_max. rewrite S. pose proof (pow2_pos s ltac:(lia)).
    split; [apply Z.div_pos; lia|]. pose proof (Z.div_le_upper_bound a (2 ^ s) a ltac:(lia) ltac:(nia)). lia.
Qed.

(** [shra] divides the value itself, rounding down. *)
Lemma s_shra_ok t a s : In t int_types -> in_ty t a -> 0 <= s < bits t ->
  s_shra t a s = Some (a / 2 ^ s).
Proof.
  intros H Ha Hs. pose proof (bits_pos t H) as HB. unfold s_shra. destruct (is_signed t) eqn:S; cbn [negb].
  2:{ apply u_shr_ok; assumption. }
  unfold in_ty, ty_min, ty_max in Ha. rewrite S in Ha.
  pose proof (pow2_split (bits t) ltac:(lia)) as P2. pose proof (pow2_pos (bits t - 1) ltac:(lia)) as P1.
  pose proof (pow2_pos s ltac:(lia)) as Ps.
  destruct (s =? 0) eqn:E0.
  { assert (s = 0) by lia. subst s. change (2 ^ 0) with 1. rewrite Z.div_1_r. reflexivity. }
  destruct (0 <=? a) eqn:E1.
  - rewrite cast_uty by assumption. rewrite (Z.mod_small a) by lia.
    rewrite u_shr_ok; [|apply uty_in; assumption|reflexivity| |exact Hs].
    2:{ unfold in_ty, ty_min, ty_max, uty; cbn [is_signed bits]. lia. }
    cbn [bind]. rewrite cast_id; [reflexivity|assumption|].
    unfold in_ty, ty_min, ty_max. rewrite S.
    pose proof (Z.div_pos a (2 ^ s) ltac:(lia) ltac:(lia)).
    pose proof (Z.div_le_upper_bound a (2 ^ s) a ltac:(lia) ltac:(nia)). lia.
  - (* negative *)
    set (n := bits t) in *.
    assert (cast (uty t) (-1) = 2 ^ n - 1) as Em1.
    { rewrite cast_uty by assumption. fold n. rewrite <- (Z_mod_plus_full (-1) 1). rewrite Z.mod_small by lia. lia. }
    assert (cast (uty t) a = a + 2 ^ n) as Ea.
    { rewrite cast_uty by assumption. fold n. rewrite <- (Z_mod_plus_full a 1), Z.mul_1_l. apply Z.mod_small. lia. }
    rewrite Em1, Ea.
    assert (2 ^ n = 2 ^ (n - s) * 2 ^ s) as Ens by (rewrite <- Z.pow_add_r by lia; f_equal; lia).
    pose proof (pow2_pos (n - s) ltac:(lia)) as Pns.
    assert (s_shl (uty t) (2 ^ n - 1) (n - s) = Some (2 ^ n - 2 ^ (n - s))) as ->.
    { unfold s_shl. pose proof (promote_bits (uty t) (uty_in t H)) as PB. change (bits (uty t)) with n in PB.
      destruct ((0 <=? n - s) && (n - s <? bits (promote (uty t)))) eqn:E; [|lia].
      f_equal. rewrite shiftl_mul by lia. rewrite cast_uty by assumption. fold n.
      replace ((2 ^ n - 1) * 2 ^ (n - s)) with ((2 ^ n - 2 ^ (n - s)) + (2 ^ (n - s) - 1) * 2 ^ n) by ring.
      rewrite Z_mod_plus_full. apply Z.mod_small. nia. }
    cbn [bind].
    rewrite u_shr_ok; [|apply uty_in; assumption|reflexivity| |exact Hs].
    2:{ unfold in_ty, ty_min, ty_max, uty; cbn [is_signed bits]. fold n. lia. }
    cbn [bind]. f_equal.
    assert ((a + 2 ^ n) / 2 ^ s = a / 2 ^ s + 2 ^ (n - s)) as Eq.
    { rewrite Ens. apply Z_div_plus_full. lia. }
    rewrite Eq.
    assert (- 2 ^ (n - s) <= a / 2 ^ s < 0) as Hq.
    { split; [apply Z.div_le_lower_bound; [lia|]|apply Z.div_lt_upper_bound; lia].
      replace (2 ^ s * - 2 ^ (n - s)) with (- 2 ^ n) by (rewrite Ens; ring). lia. }
    replace (2 ^ n - 2 ^ (n - s)) with ((2 ^ s - 1) * 2 ^ (n - s)) by (rewrite Ens; ring).
    rewrite lor_disjoint by lia.
    replace ((2 ^ s - 1) * 2 ^ (n - s) + (a / 2 ^ s + 2 ^ (n - s))) with (a / 2 ^ s + 2 ^ n) by (rewrite Ens; ring).
    transitivity (cast t (a / 2 ^ s)).
    + apply cast_congr. fold n. rewrite cast_uty by assumption. fold n. rewrite Z.mod_mod by lia.
      rewrite <- (Z_mod_plus_full (a / 2 ^ s) 1). f_equal. lia.
    + apply cast_id; [assumption|]. unfold in_ty, ty_min, ty_max. rewrite S. fold n.
      split; [|lia]. apply Z.div_le_lower_bound; [lia|]. nia.
Qed.

(** *** bits *)
Lemma testbit_mod z n i : 0 <= i < n -> Z.testbit (z mod 2 ^ n) i = Z.testbit z i.
Proof. intros Hi. apply Z.mod_pow2_bits_low. lia. Qed.

Lemma testbit_cast t z i : In t int_types -> 0 <= i < bits t -> Z.testbit (cast t z) i = Z.testbit z i.
Proof.
  intros H Hi. rewrite <- (testbit_mod (cast t z) (bits t)) by lia. rewrite cast_mod by assumption.
  apply testbit_mod; lia.
Qed.

Lemma s_opbit_ok t f g a b : In t int_types ->
  (forall x y i, 0 <= i -> Z.testbit (f x y) i = g (Z.testbit x i) (Z.testbit y i)) ->
  in_ty t (s_opbit t f a b) /\
  forall i, 0 <= i < bits t -> Z.testbit (s_opbit t f a b) i = g (Z.testbit a i) (Z.testbit b i).
Proof.
  intros H Hf. unfold s_opbit. destruct (is_signed t); cbn [negb]; (split; [apply cast_in_ty; assumption|]); intros i Hi.
  - rewrite testbit_cast by assumption. rewrite (testbit_cast (uty t)) by (try apply uty_in; try assumption; exact Hi).
    rewrite Hf by lia. rewrite !(testbit_cast (uty t)) by (try apply uty_in; try assumption; exact Hi). reflexivity.
  - rewrite testbit_cast by assumption. apply Hf; lia.
Qed.

(** *** popcnt *)
Lemma land_1_testbit a i : 0 <= i -> Z.land (Z.shiftr a i) 1 = if Z.testbit a i then 1 else 0.
Proof.
  intros Hi. change 1 with (2 ^ 1 - 1) at 1. rewrite land_mask, shiftr_div by lia. change (2 ^ 1) with 2.
  rewrite <- Z.testbit_spec' by lia. destruct (Z.testbit a i); reflexivity.
Qed.

Lemma popcnt_loop_ok n k a ret :
  popcnt_loop n (Z.of_nat k) a ret
  = ret + Z.of_nat (length (filter (fun i => Z.testbit a (Z.of_nat i)) (seq k n))).
Proof.
  revert k ret. induction n as [|n IH]; intros k ret; cbn [popcnt_loop seq filter length].
  - cbn. lia.
  - replace (Z.of_nat k + 1) with (Z.of_nat (S k)) by lia. rewrite IH.
    rewrite land_1_testbit by lia. destruct (Z.testbit a (Z.of_nat k)); cbn [length]; lia.
Qed.

Lemma popcnt32_ok a : popcnt32 a = ones_below 32 a.
Proof. unfold popcnt32, ones_below. rewrite (popcnt_loop_ok 32 0). lia. Qed.
Lemma popcnt64_ok a : popcnt64 a = ones_below 64 a.
Proof. unfold popcnt64, ones_below. rewrite (popcnt_loop_ok 64 0). lia. Qed.

Lemma filter_ext_len {A} (f g : A -> bool) l : (forall x, In x l -> f x = g x) -> length (filter f l) = length (filter g l).
Proof. intros H. f_equal. apply filter_ext_in. exact H. Qed.

Lemma filter_map_len {A B} (f : B -> bool) (h : A -> B) l :
  length (filter f (map h l)) = length (filter (fun x => f (h x)) l).
Proof. induction l as [|x l IH]; [reflexivity|]. cbn. destruct (f (h x)); cbn; lia. Qed.

Lemma popcnt64_split_ok a : in_u 64 a -> popcnt64_split a = popcnt64 a.
Proof.
  intros Ha. unfold popcnt64_split. rewrite !popcnt32_ok, popcnt64_ok. unfold ones_below.
  change 64%nat with (32 + 32)%nat. rewrite seq_app, filter_app, app_length, Nat2Z.inj_add.
  f_equal.
  - f_equal. apply filter_ext_len. intros i Hi. apply in_seq in Hi.
    change 0xFFFFFFFF with (2 ^ 32 - 1). rewrite land_mask by lia. apply testbit_mod. lia.
  - f_equal.
    assert (seq (0 + 32) 32 = map (fun i => (32 + i)%nat) (seq 0 32)) as -> by reflexivity.
    rewrite filter_map_len. apply filter_ext_len. intros i Hi. apply in_seq in Hi.
    unfold to_u. rewrite testbit_mod by lia. rewrite Z.shiftr_spec by lia. f_equal. lia.
Qed.
