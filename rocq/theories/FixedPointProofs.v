From Coq Require Import ZArith Lia Bool List ZifyBool.
From Verif Require Import CInt BitLemmas FloatSpec FloatProofs Fp16 RoundEven ScalarOps ScalarSpec ScalarProofs
  CpuSimd CpuSimdProofs FixedPoint FixedPointSpec FixedPointConv.
Import ListNotations.
Open Scope Z_scope.

Local Ltac sp := split; [cbn; tauto|]; split; [reflexivity|]; cbn [bits i8 i16 i32 i64];
  split; [lia|]; split; [lia|reflexivity].

Lemma storage_spec lf rt t : 0 <= lf -> 0 <= rt -> storage lf rt = Some t ->
  In t int_types /\ is_signed t = true /\ 0 < lf + 2 * rt <= bits t /\ 8 <= bits t <= 64 /\
  bits (promote t) = Z.max 32 (bits t).
Proof.
  intros Hl Hr. unfold storage.
  destruct ((0 <? lf + 2 * rt) && (lf + 2 * rt <=? 8)) eqn:E1;
    [intros [= <-]; sp|].
  destruct ((8 <? lf + 2 * rt) && (lf + 2 * rt <=? 16)) eqn:E2;
    [intros [= <-]; sp|].
  destruct ((16 <? lf + 2 * rt) && (lf + 2 * rt <=? 32)) eqn:E3;
    [intros [= <-]; sp|].
  destruct ((32 <? lf + 2 * rt) && (lf + 2 * rt <=? 64)) eqn:E4;
    [intros [= <-]; sp|discriminate].
Qed.

Lemma in_ty_signed t z : is_signed t = true -> (in_ty t z <-> - 2 ^ (bits t - 1) <= z < 2 ^ (bits t - 1)).
Proof. intros S. unfold in_ty, ty_min, ty_max. rewrite S. lia. Qed.

Lemma fmt_in_ty lf rt t z : 0 <= lf -> 0 <= rt -> storage lf rt = Some t -> in_fmt lf rt z -> in_ty t z.
Proof.
  intros Hl Hr Hs Hz. destruct (storage_spec lf rt t Hl Hr Hs) as (_ & S & B & _).
  apply in_ty_signed; [exact S|]. unfold in_fmt in Hz.
  assert (2 ^ (lf + rt - 1) <= 2 ^ (bits t - 1)) by (apply Z.pow_le_mono_r; lia). lia.
Qed.

(** products and left shifts of values of the format fit the storage type *)
Lemma shifted_in_ty lf rt t z : 0 <= lf -> 0 <= rt -> storage lf rt = Some t -> in_fmt lf rt z ->
  in_ty t (z * 2 ^ rt).
Proof.
  intros Hl Hr Hs Hz. destruct (storage_spec lf rt t Hl Hr Hs) as (_ & S & B & _).
  apply in_ty_signed; [exact S|]. unfold in_fmt in Hz.
  assert (2 ^ (lf + rt - 1) * 2 ^ rt <= 2 ^ (bits t - 1)).
  { rewrite <- Z.pow_add_r by lia. apply Z.pow_le_mono_r; lia. }
  pose proof (pow2_pos rt Hr). nia.
Qed.

Lemma quotient_in_ty lf rt t z : 0 <= lf -> 0 <= rt -> storage lf rt = Some t -> in_fmt lf rt (z / 2 ^ rt) ->
  in_ty t z.
Proof.
  intros Hl Hr Hs Hz. destruct (storage_spec lf rt t Hl Hr Hs) as (_ & S & B & _).
  apply in_ty_signed; [exact S|]. unfold in_fmt in Hz.
  assert (2 ^ (lf + rt - 1) * 2 ^ rt <= 2 ^ (bits t - 1)).
  { rewrite <- Z.pow_add_r by lia. apply Z.pow_le_mono_r; lia. }
  pose proof (pow2_pos rt Hr).
  pose proof (Z.div_mod z (2 ^ rt) ltac:(lia)). pose proof (Z.mod_pos_bound z (2 ^ rt) ltac:(lia)).
  set (q := z / 2 ^ rt) in *. nia.
Qed.

(** *** add, sub, neg *)
Lemma fp_add_l t a b : In t int_types -> in_ty t (a + b) -> fp_add t a b = Some (a + b).
Proof. intros H Hz. unfold fp_add, s_add. rewrite carith_promote_fits by assumption. cbn [casted bind]. rewrite cast_id by assumption. reflexivity. Qed.
Lemma fp_sub_l t a b : In t int_types -> in_ty t (a - b) -> fp_sub t a b = Some (a - b).
Proof. intros H Hz. unfold fp_sub, s_sub. rewrite carith_promote_fits by assumption. cbn [casted bind]. rewrite cast_id by assumption. reflexivity. Qed.
Lemma fp_neg_l t a : In t int_types -> in_ty t (- a) -> fp_neg t a = Some (- a).
Proof.
  intros H Hz. unfold fp_neg, s_mul. replace (a * -1) with (- a) by ring.
  rewrite carith_promote_fits by assumption. cbn [casted bind]. rewrite cast_id by assumption. reflexivity.
Qed.

(** *** mul *)
Lemma lor_sign x n : 0 <= n -> - 2 ^ n <= x < 0 -> Z.lor x (- 2 ^ n) = x.
Proof.
  intros Hn Hx. rewrite <- (Z.lnot_involutive (Z.lor x (- 2 ^ n))).
  rewrite Z.lnot_lor. unfold Z.lnot at 3. replace (Z.pred (- - 2 ^ n)) with (2 ^ n - 1) by lia.
  rewrite land_mask by lia. rewrite Z.mod_small; [apply Z.lnot_involutive|]. unfold Z.lnot. lia.
Qed.

Lemma cast_sign t n : In t int_types -> is_signed t = true -> 0 <= n < bits t ->
  cast t (cast (uty t) (Z.shiftl (cast (uty t) (-1)) n)) = - 2 ^ n.
Proof.
  intros H S Hn. pose proof (bits_pos t H) as HB.
  transitivity (cast t (- 2 ^ n)).
  2:{ apply cast_id; [assumption|]. apply in_ty_signed; [assumption|].
      assert (2 ^ n <= 2 ^ (bits t - 1)) by (apply Z.pow_le_mono_r; lia).
      pose proof (pow2_pos n ltac:(lia)). lia. }
  apply cast_congr. unfold cast at 1, uty; cbn [is_signed bits]. unfold to_u.
  rewrite Z.mod_mod by (pose proof (pow2_pos (bits t) ltac:(lia)); lia).
  rewrite shiftl_mul by lia.
  replace (- 2 ^ n) with ((-1) * 2 ^ n) by ring.
  rewrite <- (Z.mul_mod_idemp_l (-1)) by (pose proof (pow2_pos (bits t) ltac:(lia)); lia).
  unfold cast; cbn [is_signed bits]. unfold to_u. reflexivity.
Qed.

Lemma cast_sign_full t n : In t int_types -> n = bits t ->
  cast t (cast (uty t) (Z.shiftl (cast (uty t) (-1)) n)) = 0.
Proof.
  intros H ->. pose proof (bits_pos t H) as HB.
  transitivity (cast t 0); [|apply cast_id; [assumption|ty_cases H; vm_compute; split; discriminate]].
  apply cast_congr. unfold cast at 1, uty; cbn [is_signed bits]. unfold to_u.
  rewrite Z.mod_mod by (pose proof (pow2_pos (bits t) ltac:(lia)); lia).
  rewrite shiftl_mul by lia. rewrite Z_mod_mult. rewrite Z.mod_0_l by (pose proof (pow2_pos (bits t) ltac:(lia)); lia). reflexivity.
Qed.

Lemma shr_in_ty t z rt : In t int_types -> is_signed t = true -> 0 <= rt -> in_ty t z -> in_ty t (z / 2 ^ rt).
Proof.
  intros H S Hr Hz. apply in_ty_signed in Hz; [|assumption]. apply in_ty_signed; [assumption|].
  pose proof (pow2_pos rt Hr). set (g := 2 ^ (bits t - 1)) in *.
  assert (0 < g) by (apply pow2_pos; pose proof (bits_pos t H); lia).
  split; [apply Z.div_le_lower_bound; [lia|]; nia|apply Z.div_lt_upper_bound; [lia|]; nia].
Qed.

Lemma s_mul_fits t a b : In t int_types -> in_ty t (a * b) -> s_mul t a b = Some (a * b).
Proof. intros H Hz. unfold s_mul. rewrite carith_promote_fits by assumption. cbn [casted bind]. rewrite cast_id by assumption. reflexivity. Qed.

Lemma fp_mul_tmp t rt a b tmp : In t int_types -> is_signed t = true -> 0 <= rt < bits t -> (1 <= rt \/ bits t < 32) ->
  s_mul t a b = Some tmp -> fp_mul t rt a b = Some (tmp / 2 ^ rt).
Proof.
  intros H S Hr Hok Et. pose proof (bits_pos t H) as HB. unfold fp_mul, s_shl.
  assert (bits (promote (uty t)) = Z.max 32 (bits t)) as -> by (ty_cases H; reflexivity).
  assert ((0 <=? bits t - rt) && (bits t - rt <? Z.max 32 (bits t)) = true) as -> by lia. cbn [bind].
  destruct (s_mul_value t a b tmp H Et) as (Hp & _).
  rewrite Et. cbn [bind]. rewrite shiftr_div by lia.
  pose proof (shr_in_ty t tmp rt H S ltac:(lia) Hp) as Hq. rewrite (cast_id t (tmp / 2 ^ rt)) by assumption.
  f_equal. pose proof (pow2_pos rt ltac:(lia)) as Pr.
  destruct (tmp <? 0) eqn:E.
  - destruct (Z.eq_dec rt 0) as [->|Hne].
    + rewrite cast_sign_full by (try assumption; lia). rewrite Z.lor_0_r. apply cast_id; assumption.
    + rewrite cast_sign by (try assumption; lia). rewrite lor_sign; [apply cast_id; assumption|lia|].
      apply in_ty_signed in Hp; [|assumption].
      assert (2 ^ (bits t - 1) <= 2 ^ (bits t - rt) * 2 ^ rt).
      { rewrite <- Z.pow_add_r by lia. apply Z.pow_le_mono_r; lia. }
      split; [apply Z.div_le_lower_bound; [lia|]; lia|apply Z.div_lt_upper_bound; lia].
  - rewrite Z.lor_0_r. apply cast_id; assumption.
Qed.

Lemma fp_mul_l t rt a b : In t int_types -> is_signed t = true -> 0 <= rt < bits t -> (1 <= rt \/ bits t < 32) ->
  in_ty t (a * b) -> fp_mul t rt a b = Some (a * b / 2 ^ rt).
Proof. intros H S Hr Hok Hp. apply fp_mul_tmp; try assumption. apply s_mul_fits; assumption. Qed.

Lemma fp_mul_rt0_undefined t a b : In t int_types -> 32 <= bits t -> fp_mul t 0 a b = None.
Proof.
  intros H HB. unfold fp_mul, s_shl. assert (bits (promote (uty t)) = bits t) as -> by (ty_cases H; cbn in HB; try lia; reflexivity).
  assert ((0 <=? bits t - 0) && (bits t - 0 <? bits t) = false) as -> by lia. reflexivity.
Qed.

(** *** div *)
Lemma fp_div_l t rt a b : In t int_types -> is_signed t = true -> 0 <= rt < bits t -> in_ty t (a * 2 ^ rt) -> b <> 0 ->
  in_ty t (Z.quot (a * 2 ^ rt) b) -> fp_div t rt a b = Some (Z.quot (a * 2 ^ rt) b).
Proof.
  intros H S Hr Ha Hb Hq. unfold fp_div, s_shl.
  assert (bits t <= bits (promote t)) by (ty_cases H; cbn; lia).
  assert ((0 <=? rt) && (rt <? bits (promote t)) = true) as -> by lia. cbn [bind].
  rewrite shiftl_mul by lia. rewrite cast_id by assumption. unfold s_div.
  assert ((b =? 0) = false) as -> by lia. rewrite carith_promote_fits by assumption. cbn [casted bind].
  rewrite cast_id by assumption. reflexivity.
Qed.

Lemma fp_div_zero t rt a : fp_div t rt a 0 = None.
Proof. unfold fp_div, s_shl. destruct ((0 <=? rt) && (rt <? bits (promote t))); reflexivity. Qed.

(** *** comparisons *)
Lemma land_neg_pow2 a s : 0 <= s -> Z.land a (- 2 ^ s) = a / 2 ^ s * 2 ^ s.
Proof.
  intros Hs. replace (- 2 ^ s) with (Z.lnot (Z.ones s)) by (rewrite Z.ones_equiv; unfold Z.lnot; lia).
  rewrite <- Z.ldiff_land, Z.ldiff_ones_r by lia. rewrite shiftl_mul, shiftr_div by lia. reflexivity.
Qed.

Lemma mask_val lf rt t : 0 <= lf -> 0 <= rt -> storage lf rt = Some t ->
  cmp_mask t lf rt = - 2 ^ (bits t - lf - rt) /\ 0 <= bits t - lf - rt < bits t.
Proof.
  intros Hl Hr Hs. destruct (storage_spec lf rt t Hl Hr Hs) as (H & S & B & B2 & _).
  split; [|lia]. unfold cmp_mask. rewrite shiftl_mul by lia.
  replace (-1 * 2 ^ (bits t - lf - rt)) with (- 2 ^ (bits t - lf - rt)) by ring.
  apply cast_id; [assumption|]. apply in_ty_signed; [assumption|].
  assert (2 ^ (bits t - lf - rt) <= 2 ^ (bits t - 1)) by (apply Z.pow_le_mono_r; lia).
  pose proof (pow2_pos (bits t - lf - rt) ltac:(lia)). lia.
Qed.

Lemma masked lf rt t a : 0 <= lf -> 0 <= rt -> storage lf rt = Some t ->
  Z.land a (cmp_mask t lf rt) = a / 2 ^ (bits t - lf - rt) * 2 ^ (bits t - lf - rt).
Proof.
  intros Hl Hr Hs. destruct (mask_val lf rt t Hl Hr Hs) as (-> & Hb). apply land_neg_pow2. lia.
Qed.

Section Cmp.
Variables (lf rt : Z) (t : ity).
Hypothesis Hl : 0 <= lf.
Hypothesis Hr : 0 <= rt.
Hypothesis Hs : storage lf rt = Some t.
Local Notation g := (2 ^ (bits t - lf - rt)).

Lemma g_pos : 0 < g.
Proof. destruct (mask_val lf rt t Hl Hr Hs) as (_ & Hb). apply pow2_pos; lia. Qed.

Lemma fp_eq_l a b : fp_eq t lf rt a b = (a / g =? b / g).
Proof. unfold fp_eq. rewrite !(masked lf rt t) by assumption. pose proof g_pos. destruct (a / g =? b / g) eqn:E; nia. Qed.
Lemma fp_lt_l a b : fp_lt t lf rt a b = (a / g <? b / g).
Proof. unfold fp_lt. rewrite !(masked lf rt t) by assumption. pose proof g_pos. destruct (a / g <? b / g) eqn:E; nia. Qed.
Lemma fp_le_l a b : fp_le t lf rt a b = (a / g <=? b / g).
Proof. unfold fp_le. rewrite !(masked lf rt t) by assumption. pose proof g_pos. destruct (a / g <=? b / g) eqn:E; nia. Qed.
Lemma fp_gt_l a b : fp_gt t lf rt a b = (b / g <? a / g).
Proof. unfold fp_gt. rewrite !(masked lf rt t) by assumption. pose proof g_pos. destruct (b / g <? a / g) eqn:E; nia. Qed.
Lemma fp_ge_l a b : fp_ge t lf rt a b = (b / g <=? a / g).
Proof. unfold fp_ge. rewrite !(masked lf rt t) by assumption. pose proof g_pos. destruct (b / g <=? a / g) eqn:E; nia. Qed.

Lemma div_bound a : in_ty t a -> - 2 ^ (lf + rt - 1) <= a / g < 2 ^ (lf + rt - 1).
Proof.
  intros Ha. destruct (storage_spec lf rt t Hl Hr Hs) as (H & S & B & B2 & _).
  apply in_ty_signed in Ha; [|assumption]. pose proof g_pos.
  assert (2 ^ (lf + rt - 1) * g = 2 ^ (bits t - 1)) as E.
  { rewrite <- Z.pow_add_r by lia. f_equal. lia. }
  split; [apply Z.div_le_lower_bound; [lia|]; lia|apply Z.div_lt_upper_bound; lia].
Qed.

Lemma fp_eq_ulp_l a b ulp : in_ty t a -> in_ty t b -> in_ty t ((a / g - b / g) * g) ->
  - 2 ^ 31 < ulp <= 2 ^ 31 - 1 ->
  fp_eq_ulp t lf rt a b ulp = Some (Z.abs (a / g - b / g) <=? ulp).
Proof.
  intros Ha Hb Hd Hu. destruct (storage_spec lf rt t Hl Hr Hs) as (H & S & B & B2 & _).
  unfold fp_eq_ulp. rewrite !(masked lf rt t) by assumption.
  unfold s_sub. replace (a / g * g - b / g * g) with ((a / g - b / g) * g) by ring.
  rewrite carith_promote_fits by assumption. cbn [casted bind].
  rewrite (cast_id t ((a / g - b / g) * g)) by assumption.
  rewrite carith_i32 by lia. cbn [bind]. pose proof g_pos.
  rewrite shiftr_div by lia. rewrite Z_div_mult by lia.
  assert (in_ty t (a / g - b / g)) as Hq.
  { apply in_ty_signed in Hd; [|assumption]. apply in_ty_signed; [assumption|]. set (x := a / g - b / g) in *.
    assert (0 < 2 ^ (bits t - 1)) by (apply pow2_pos; lia). nia. }
  rewrite cast_id by assumption. f_equal. lia.
Qed.

(** operands of the format: the difference never overflows unless the storage
    is completely used *)
Lemma ulp_diff_ok a b : 1 <= bits t - lf - rt -> 2 <= lf + rt -> in_fmt lf rt a -> in_fmt lf rt b ->
  in_ty t ((a / g - b / g) * g).
Proof.
  intros Hg Hw Ha Hb. destruct (storage_spec lf rt t Hl Hr Hs) as (H & S & B & B2 & _). pose proof g_pos as PG.
  apply in_ty_signed; [assumption|]. unfold in_fmt in *.
  assert (2 * 2 ^ (lf + rt - 1) <= 2 ^ (bits t - 1)) as HF.
  { replace 2 with (2 ^ 1) at 1 by reflexivity. rewrite <- Z.pow_add_r by lia. apply Z.pow_le_mono_r; lia. }
  assert (2 * g <= 2 ^ (bits t - 1)) as HG.
  { replace 2 with (2 ^ 1) at 1 by reflexivity. rewrite <- Z.pow_add_r by lia. apply Z.pow_le_mono_r; lia. }
  assert (forall x, - 2 ^ (lf + rt - 1) <= x < 2 ^ (lf + rt - 1) ->
    (- 2 ^ (lf + rt - 1) <= x / g * g < 2 ^ (lf + rt - 1)) \/ (2 ^ (lf + rt - 1) < g /\ -1 <= x / g <= 0)) as K.
  { intros x Hx. pose proof (Z.div_mod x g ltac:(lia)) as E. pose proof (Z.mod_pos_bound x g PG) as M.
    destruct (Z_le_gt_dec (bits t - lf - rt) (lf + rt - 1)) as [L|L].
    - left. assert (2 ^ (lf + rt - 1) = 2 ^ (lf + rt - 1 - (bits t - lf - rt)) * g) as Ek.
      { rewrite <- Z.pow_add_r by lia. f_equal. lia. }
      set (k := 2 ^ (lf + rt - 1 - (bits t - lf - rt))) in *.
      assert (- k <= x / g) by (apply Z.div_le_lower_bound; lia).
      assert (- k * g <= x / g * g) by (apply Z.mul_le_mono_nonneg_r; lia). lia.
    - right. assert (2 ^ (lf + rt - 1) < g) as Lt by (apply Z.pow_lt_mono_r; lia). split; [exact Lt|].
      assert (-1 <= x / g) by (apply Z.div_le_lower_bound; lia).
      assert (x / g < 1) by (apply Z.div_lt_upper_bound; lia). lia. }
  rewrite Z.mul_sub_distr_r.
  destruct (K a Ha) as [Ka|(L & Ka)], (K b Hb) as [Kb|(L' & Kb)]; try lia; nia.
Qed.
End Cmp.

(** *** floor *)
Lemma mult_in_ty t a n : In t int_types -> is_signed t = true -> 0 <= n < bits t -> in_ty t a -> in_ty t (a / 2 ^ n * 2 ^ n).
Proof.
  intros H S Hn Ha. apply in_ty_signed in Ha; [|assumption]. apply in_ty_signed; [assumption|].
  pose proof (pow2_pos n ltac:(lia)) as Pn. pose proof (Z.div_mod a (2 ^ n) ltac:(lia)) as E.
  pose proof (Z.mod_pos_bound a (2 ^ n) Pn) as M.
  assert (2 ^ (bits t - 1) = 2 ^ (bits t - 1 - n) * 2 ^ n) as EB by (rewrite <- Z.pow_add_r by lia; f_equal; lia).
  set (k := 2 ^ (bits t - 1 - n)) in *.
  assert (- k <= a / 2 ^ n) by (apply Z.div_le_lower_bound; lia).
  assert (- k * 2 ^ n <= a / 2 ^ n * 2 ^ n) by (apply Z.mul_le_mono_nonneg_r; lia). lia.
Qed.

Lemma fp_floor_l lf rt t a : 1 <= lf -> 0 <= rt -> storage lf rt = Some t -> in_ty t a ->
  fp_floor t lf a = Some (a / 2 ^ (bits t - lf) * 2 ^ (bits t - lf)).
Proof.
  intros Hl Hr Hs Ha. destruct (storage_spec lf rt t ltac:(lia) Hr Hs) as (H & S & B & B2 & P).
  unfold fp_floor, fp_shr. rewrite P.
  assert ((0 <=? bits t - lf) && (bits t - lf <? Z.max 32 (bits t)) = true) as -> by lia. cbn [bind].
  assert ((bits t - lf <? Z.max 32 (bits t)) = true) as -> by lia.
  rewrite shiftr_div, shiftl_mul by lia.
  rewrite (cast_id t (a / 2 ^ (bits t - lf))) by (try assumption; apply shr_in_ty; try assumption; lia).
  rewrite cast_id; [reflexivity|assumption|]. apply mult_in_ty; try assumption; lia.
Qed.

Lemma fp_floor_lf0 rt t a : 0 <= rt -> storage 0 rt = Some t -> in_ty t a ->
  fp_floor t 0 a = if bits t <? 32 then Some 0 else None.
Proof.
  intros Hr Hs Ha. destruct (storage_spec 0 rt t ltac:(lia) Hr Hs) as (H & S & B & B2 & P).
  unfold fp_floor, fp_shr. rewrite P, Z.sub_0_r. destruct (bits t <? 32) eqn:E.
  - assert ((0 <=? bits t) && (bits t <? Z.max 32 (bits t)) = true) as -> by lia. cbn [bind].
    assert ((bits t <? Z.max 32 (bits t)) = true) as -> by lia.
    rewrite shiftl_mul by lia. f_equal. transitivity (cast t 0).
    + apply cast_congr. rewrite Z_mod_mult, Z.mod_0_l by (pose proof (pow2_pos (bits t) ltac:(lia)); lia). reflexivity.
    + apply cast_id; [assumption|]. apply in_ty_signed; [assumption|]. pose proof (pow2_pos (bits t - 1) ltac:(lia)). lia.
  - assert ((0 <=? bits t) && (bits t <? Z.max 32 (bits t)) = false) as -> by lia. reflexivity.
Qed.

(** *** SIMD *)
Lemma lanes2 n (f : Z -> Z -> option Z) (a b r : reg) : length a = n -> length b = n -> length r = n ->
  (forall i x y z, nth_error a i = Some x -> nth_error b i = Some y -> nth_error r i = Some z -> f x y = Some z) ->
  func_body n (fun i => bind2 (lane a i) (lane b i) f) = Some r.
Proof.
  intros La Lb Lr Hf. apply func_body_iff. split; [assumption|]. intros i Hi. unfold lane, bind2.
  destruct (nth_error a i) as [x|] eqn:Ea; [|apply nth_error_None in Ea; lia].
  destruct (nth_error b i) as [y|] eqn:Eb; [|apply nth_error_None in Eb; lia].
  destruct (nth_error r i) as [z|] eqn:Er; [|apply nth_error_None in Er; lia].
  cbn [bind]. eapply Hf; eassumption.
Qed.

(** the two-step operators *)
Lemma lanes2_two n (f : Z -> Z -> option Z) (h : Z -> option Z) (a b r : reg) :
  length a = n -> length b = n -> length r = n ->
  (forall i x y z, nth_error a i = Some x -> nth_error b i = Some y -> nth_error r i = Some z ->
     exists w, f x y = Some w /\ h w = Some z) ->
  bind (func_body n (fun i => bind2 (lane a i) (lane b i) f)) (fun v => func_body n (fun i => bind (lane v i) h)) = Some r.
Proof.
  intros La Lb Lr Hf.
  destruct (func_body_defined n (fun i => bind2 (lane a i) (lane b i) f)) as (v & Ev).
  { intros i Hi. unfold lane, bind2.
    destruct (nth_error a i) as [x|] eqn:Ea; [|apply nth_error_None in Ea; lia].
    destruct (nth_error b i) as [y|] eqn:Eb; [|apply nth_error_None in Eb; lia].
    destruct (nth_error r i) as [z|] eqn:Er; [|apply nth_error_None in Er; lia].
    cbn [bind]. destruct (Hf i x y z Ea Eb Er) as (w & -> & _). discriminate. }
  rewrite Ev. cbn [bind]. apply func_body_iff. split; [assumption|]. intros i Hi.
  rewrite (func_body_lane _ _ _ Ev i Hi). unfold lane, bind2.
  destruct (nth_error a i) as [x|] eqn:Ea; [|apply nth_error_None in Ea; lia].
  destruct (nth_error b i) as [y|] eqn:Eb; [|apply nth_error_None in Eb; lia].
  destruct (nth_error r i) as [z|] eqn:Er; [|apply nth_error_None in Er; lia].
  cbn [bind]. destruct (Hf i x y z Ea Eb Er) as (w & -> & Hw). exact Hw.
Qed.

Lemma simd_add_l t n a b r : length a = n -> length b = n -> length r = n ->
  (forall i x y z, nth_error a i = Some x -> nth_error b i = Some y -> nth_error r i = Some z -> fp_add t x y = Some z) ->
  simd_add t n a b = Some r.
Proof. intros. unfold simd_add, op2. apply lanes2; assumption. Qed.
Lemma simd_sub_l t n a b r : length a = n -> length b = n -> length r = n ->
  (forall i x y z, nth_error a i = Some x -> nth_error b i = Some y -> nth_error r i = Some z -> fp_sub t x y = Some z) ->
  simd_sub t n a b = Some r.
Proof. intros. unfold simd_sub, op2. apply lanes2; assumption. Qed.

Lemma fp_mul_inv t rt a b r : In t int_types -> is_signed t = true -> 0 <= rt < bits t ->
  fp_mul t rt a b = Some r -> exists tmp, s_mul t a b = Some tmp /\ r = tmp / 2 ^ rt.
Proof.
  intros H S Hr E. pose proof (bits_pos t H) as HB.
  assert (1 <= rt \/ bits t < 32) as Hok.
  { destruct (Z.eq_dec rt 0) as [->|]; [|left; lia]. destruct (Z_lt_le_dec (bits t) 32); [right; assumption|].
    rewrite fp_mul_rt0_undefined in E by assumption. discriminate. }
  destruct (s_mul t a b) as [tmp|] eqn:Et.
  - exists tmp. split; [reflexivity|]. rewrite (fp_mul_tmp t rt a b tmp) in E by assumption. congruence.
  - exfalso. unfold fp_mul in E. rewrite Et in E.
    destruct (s_shl (uty t) (cast (uty t) (-1)) (bits t - rt)); discriminate.
Qed.

Lemma simd_mul_l t rt n a b r : In t int_types -> is_signed t = true -> 0 <= rt < bits t ->
  length a = n -> length b = n -> length r = n ->
  (forall i x y z, nth_error a i = Some x -> nth_error b i = Some y -> nth_error r i = Some z -> fp_mul t rt x y = Some z) ->
  simd_mul t rt n a b = Some r.
Proof.
  intros H S Hr La Lb Lr Hf. unfold simd_mul, op2, scalar_impl_shift. apply lanes2_two; try assumption.
  intros i x y z Ea Eb Er. destruct (fp_mul_inv t rt x y z H S Hr (Hf i x y z Ea Eb Er)) as (tmp & Et & ->).
  exists tmp. split; [exact Et|]. destruct (s_mul_value t x y tmp H Et) as (Hp & _).
  rewrite s_shra_ok by (try assumption; lia). reflexivity.
Qed.

Lemma simd_div_l t rt n a b r :
  length a = n -> length b = n -> length r = n ->
  (forall i x y z, nth_error a i = Some x -> nth_error b i = Some y -> nth_error r i = Some z -> fp_div t rt x y = Some z) ->
  simd_div t rt n a b = Some r.
Proof.
  intros La Lb Lr Hf. unfold simd_div, op2_div, scalar_impl_shift.
  destruct (func_body_defined n (fun i => bind (lane a i) (fun x => s_shl t x rt))) as (v & Ev).
  { intros i Hi. unfold lane.
    destruct (nth_error a i) as [x|] eqn:Ea; [|apply nth_error_None in Ea; lia].
    destruct (nth_error b i) as [y|] eqn:Eb; [|apply nth_error_None in Eb; lia].
    destruct (nth_error r i) as [z|] eqn:Er; [|apply nth_error_None in Er; lia].
    cbn [bind]. specialize (Hf i x y z Ea Eb Er). unfold fp_div in Hf. destruct (s_shl t x rt); [discriminate|discriminate]. }
  rewrite Ev. cbn [bind]. apply func_body_iff. split; [assumption|]. intros i Hi.
  rewrite (func_body_lane _ _ _ Ev i Hi). unfold lane, bind2.
  destruct (nth_error a i) as [x|] eqn:Ea; [|apply nth_error_None in Ea; lia].
  destruct (nth_error b i) as [y|] eqn:Eb; [|apply nth_error_None in Eb; lia].
  destruct (nth_error r i) as [z|] eqn:Er; [|apply nth_error_None in Er; lia].
  cbn [bind]. specialize (Hf i x y z Ea Eb Er). unfold fp_div in Hf.
  destruct (s_shl t x rt) as [w|]; [|discriminate]. exact Hf.
Qed.

Lemma simd_fma_l t rt n a b c r : In t int_types -> is_signed t = true -> 0 <= rt < bits t ->
  length a = n -> length b = n -> length c = n -> length r = n ->
  (forall i x y w z, nth_error a i = Some x -> nth_error b i = Some y -> nth_error c i = Some w ->
     nth_error r i = Some z -> exists p, fp_mul t rt x y = Some p /\ fp_add t p w = Some z) ->
  simd_fma t rt n a b c = Some r.
Proof.
  intros H S Hr La Lb Lc Lr Hf.
  assert (exists v, simd_mul t rt n a b = Some v /\ length v = n /\
    forall i x y p, nth_error a i = Some x -> nth_error b i = Some y -> nth_error v i = Some p -> fp_mul t rt x y = Some p) as (v & Ev & Lv & Hv).
  { destruct (func_body_defined n (fun i => bind2 (lane a i) (lane b i) (fp_mul t rt))) as (v & Ev).
    { intros i Hi. unfold lane, bind2.
      destruct (nth_error a i) as [x|] eqn:Ea; [|apply nth_error_None in Ea; lia].
      destruct (nth_error b i) as [y|] eqn:Eb; [|apply nth_error_None in Eb; lia].
      destruct (nth_error c i) as [w|] eqn:Ec; [|apply nth_error_None in Ec; lia].
      destruct (nth_error r i) as [z|] eqn:Er; [|apply nth_error_None in Er; lia].
      cbn [bind]. destruct (Hf i x y w z Ea Eb Ec Er) as (p & -> & _). discriminate. }
    assert (forall i x y p, nth_error a i = Some x -> nth_error b i = Some y -> nth_error v i = Some p -> fp_mul t rt x y = Some p) as Hv.
    { intros i x y p Ea Eb Ep. assert (i < n)%nat as Hi by (rewrite <- La; apply nth_error_Some; congruence).
      pose proof (func_body_lane _ _ _ Ev i Hi) as L. unfold lane, bind2 in L. rewrite Ea, Eb, Ep in L. cbn [bind] in L. congruence. }
    exists v. pose proof (func_body_length _ _ _ Ev) as Lv. split; [|split; [assumption|exact Hv]].
    apply simd_mul_l; try assumption. }
  unfold simd_fma. rewrite Ev. cbn [bind]. apply simd_add_l; try assumption.
  intros i p w z Ep Ec Er. assert (i < n)%nat as Hi by (rewrite <- Lv; apply nth_error_Some; congruence).
  destruct (nth_error a i) as [x|] eqn:Ea; [|apply nth_error_None in Ea; lia].
  destruct (nth_error b i) as [y|] eqn:Eb; [|apply nth_error_None in Eb; lia].
  destruct (Hf i x y w z Ea Eb Ec Er) as (p' & Hp & Ha).
  rewrite (Hv i x y p Ea Eb Ep) in Hp. injection Hp as <-. exact Ha.
Qed.

Lemma simd_cmp_l op n a b r : length a = n -> length b = n -> cmp2 op n a b = Some r ->
  length r = n /\ forall i x y, nth_error a i = Some x -> nth_error b i = Some y ->
    nth_error r i = Some (if op x y then 2 ^ 32 - 1 else 0).
Proof.
  intros La Lb E. split; [apply (func_body_length _ _ _ E)|]. intros i x y Ea Eb.
  assert (i < n)%nat as Hi by (rewrite <- La; apply nth_error_Some; congruence).
  pose proof (func_body_lane _ _ _ E i Hi) as L. unfold lane in L at 1. rewrite L. unfold lane, bind2. rewrite Ea, Eb. cbn [bind].
  destruct (op x y); reflexivity.
Qed.
Lemma simd_cmp_defined op n a b : length a = n -> length b = n -> exists r, cmp2 op n a b = Some r.
Proof.
  intros La Lb. apply func_body_defined. intros i Hi. unfold lane, bind2.
  destruct (nth_error a i) as [x|] eqn:Ea; [|apply nth_error_None in Ea; lia].
  destruct (nth_error b i) as [y|] eqn:Eb; [|apply nth_error_None in Eb; lia]. discriminate.
Qed.
