(** C33-C37, C53-C55: the fixed_point module.  A raw integer [z] of type fp_t<lf,rt>
    denotes z / 2^rt; [storage lf rt] is the C integer type holding it. *)
From Coq Require Import ZArith Bool List Lia Zquot ZifyBool.
From Verif Require Import CInt BitLemmas FloatSpec FloatProofs Fp16 RoundEven ScalarOps ScalarSpec ScalarProofs
  CpuSimd CpuSimdProofs FixedPoint FixedPointSpec FixedPointConv FixedPointProofs FixedPointAlg FixedPointLog.
Import ListNotations.
Open Scope Z_scope.

(** *** C33: arithmetic *)
Theorem C33_add : forall lf rt t a b, 0 <= lf -> 0 <= rt -> storage lf rt = Some t ->
  in_fmt lf rt (a + b) -> fp_add t a b = Some (a + b).
Proof.
  intros lf rt t a b Hl Hr Hs Hf. apply fp_add_l; [apply (storage_spec lf rt); assumption|].
  apply (fmt_in_ty lf rt); assumption.
Qed.
Theorem C33_sub : forall lf rt t a b, 0 <= lf -> 0 <= rt -> storage lf rt = Some t ->
  in_fmt lf rt (a - b) -> fp_sub t a b = Some (a - b).
Proof.
  intros lf rt t a b Hl Hr Hs Hf. apply fp_sub_l; [apply (storage_spec lf rt); assumption|].
  apply (fmt_in_ty lf rt); assumption.
Qed.
Theorem C33_neg : forall lf rt t a, 0 <= lf -> 0 <= rt -> storage lf rt = Some t ->
  in_fmt lf rt (- a) -> fp_neg t a = Some (- a).
Proof.
  intros lf rt t a Hl Hr Hs Hf. apply fp_neg_l; [apply (storage_spec lf rt); assumption|].
  apply (fmt_in_ty lf rt); assumption.
Qed.
Print Assumptions C33_add.
Print Assumptions C33_sub.
Print Assumptions C33_neg.

Theorem C33_mul : forall lf rt t a b r, 0 <= lf -> 0 <= rt -> storage lf rt = Some t -> (1 <= rt \/ bits t < 32) ->
  is_product_down rt a b r -> in_fmt lf rt r -> fp_mul t rt a b = Some r.
Proof.
  intros lf rt t a b r Hl Hr Hs Hok Hp Hf. destruct (storage_spec lf rt t Hl Hr Hs) as (H & S & B & B2 & P).
  pose proof (pow2_pos rt Hr) as Pr. unfold is_product_down in Hp.
  assert (r = a * b / 2 ^ rt) as ->. { apply Z.div_unique with (r := a * b - 2 ^ rt * r); [left|]; lia. }
  apply fp_mul_l; try assumption; [lia|]. apply (quotient_in_ty lf rt); assumption.
Qed.
Print Assumptions C33_mul.

(** With rt = 0 on 32- and 64-bit storage the multiplication shifts by the width
    of the type: undefined whatever the operands. *)
Theorem C33_mul_rt0_refuted : forall lf t a b, 0 <= lf -> storage lf 0 = Some t -> 32 <= bits t -> fp_mul t 0 a b = None.
Proof. intros lf t a b Hl Hs Hb. apply fp_mul_rt0_undefined; [apply (storage_spec lf 0); auto; lia|assumption]. Qed.
Print Assumptions C33_mul_rt0_refuted.

Theorem C33_div : forall lf rt t a b r, 0 <= lf -> 0 <= rt -> storage lf rt = Some t ->
  in_fmt lf rt a -> b <> 0 -> is_quotient_trunc rt a b r -> in_fmt lf rt r -> fp_div t rt a b = Some r.
Proof.
  intros lf rt t a b r Hl Hr Hs Ha Hb (m & E & M & Mp & Mn) Hf.
  destruct (storage_spec lf rt t Hl Hr Hs) as (H & S & B & B2 & P). pose proof (pow2_pos rt Hr) as Pr.
  assert (r = Z.quot (a * 2 ^ rt) b) as Er.
  { apply Zquot_unique_full with (r := m); [|lia]. unfold Remainder.
    destruct (Z_le_gt_dec 0 a) as [Hp|Hn]; [left|right]; (split; [nia|]); lia. }
  rewrite Er. apply fp_div_l; try assumption; [lia|apply (shifted_in_ty lf rt); assumption|].
  rewrite <- Er. apply (fmt_in_ty lf rt); assumption.
Qed.
Theorem C33_div_zero : forall t rt a, fp_div t rt a 0 = None.
Proof. intros. apply fp_div_zero. Qed.
Print Assumptions C33_div.
Print Assumptions C33_div_zero.

Theorem C33_abs : forall lf rt t a, 0 <= lf -> 0 <= rt <= 30 -> storage lf rt = Some t -> (1 <= rt \/ bits t < 32) ->
  in_fmt lf rt (Z.abs a) -> fp_abs t rt a = Some (Z.abs a).
Proof.
  intros lf rt t a Hl Hr Hs Hok Hf. pose proof (pow2_pos rt ltac:(lia)) as Pr.
  assert (in_ty t (-1 * 2 ^ rt)) as Hm.
  { destruct (storage_spec lf rt t Hl ltac:(lia) Hs) as (H & S & B & B2 & P).
    assert (2 ^ rt <= 2 ^ (bits t - 1)) by (apply Z.pow_le_mono_r; lia).
    apply in_ty_signed; [assumption|]. lia. }
  unfold fp_abs. destruct (Z.ltb_spec 0 a); [rewrite Z.abs_eq by lia; reflexivity|].
  rewrite (fp_of_int_l t rt (-1)) by (try assumption; try lia; apply (storage_spec lf rt); try assumption; lia). cbn [bind].
  apply (C33_mul lf); try assumption; [lia|]. unfold is_product_down. nia.
Qed.
Print Assumptions C33_abs.
Example C33_abs_ex : in_fmt 8 8 (Z.abs (-640)) /\ fp_abs i32 8 (-640) = Some 640 /\ fp_abs i32 8 0 = Some 0 /\ fp_abs i32 8 7 = Some 7.
Proof. split; [unfold in_fmt; lia|]. repeat split; vm_compute; reflexivity. Qed.

(** fp_t<8,8>: -2.5 * 0.01171875 rounds down to -0.03125; -2.5 / 3 truncates to -0.83203125. *)
Example C33_ex : storage 8 8 = Some i32 /\ is_product_down 8 (-640) 3 (-8) /\ in_fmt 8 8 (-8) /\
  fp_mul i32 8 (-640) 3 = Some (-8) /\ is_quotient_trunc 8 (-640) 768 (-213) /\ fp_div i32 8 (-640) 768 = Some (-213).
Proof.
  split; [reflexivity|]. split; [unfold is_product_down; lia|]. split; [unfold in_fmt; lia|]. split; [reflexivity|].
  split; [|reflexivity]. exists (-256). lia.
Qed.

(** *** C34: comparisons.  With s = width of the storage - lf - rt unused bits, every
    comparison looks at floor (raw / 2^s) only. *)

Theorem C34_compare : forall lf rt t a b, 0 <= lf -> 0 <= rt -> storage lf rt = Some t ->
  let s := unused t lf rt in
  (fp_eq t lf rt a b = true <-> a / 2 ^ s = b / 2 ^ s) /\
  (fp_ne t lf rt a b = true <-> a / 2 ^ s <> b / 2 ^ s) /\
  (fp_lt t lf rt a b = true <-> a / 2 ^ s < b / 2 ^ s) /\
  (fp_le t lf rt a b = true <-> a / 2 ^ s <= b / 2 ^ s) /\
  (fp_gt t lf rt a b = true <-> a / 2 ^ s > b / 2 ^ s) /\
  (fp_ge t lf rt a b = true <-> a / 2 ^ s >= b / 2 ^ s).
Proof.
  intros lf rt t a b Hl Hr Hs. unfold unused. cbv zeta. unfold fp_ne.
  rewrite (fp_eq_l lf rt t Hl Hr Hs), (fp_lt_l lf rt t Hl Hr Hs), (fp_le_l lf rt t Hl Hr Hs),
    (fp_gt_l lf rt t Hl Hr Hs), (fp_ge_l lf rt t Hl Hr Hs).
  repeat split; lia.
Qed.
Print Assumptions C34_compare.

(** Hence they are right on numbers that are multiples of 2^s... *)
Theorem C34_compare_multiples : forall lf rt t x y, 0 <= lf -> 0 <= rt -> storage lf rt = Some t ->
  let a := x * 2 ^ unused t lf rt in let b := y * 2 ^ unused t lf rt in
  fp_eq t lf rt a b = (a =? b) /\ fp_ne t lf rt a b = negb (a =? b) /\ fp_lt t lf rt a b = (a <? b) /\
  fp_le t lf rt a b = (a <=? b) /\ fp_gt t lf rt a b = (b <? a) /\ fp_ge t lf rt a b = (b <=? a).
Proof.
  intros lf rt t x y Hl Hr Hs. unfold unused. cbv zeta. unfold fp_ne.
  pose proof (g_pos lf rt t Hl Hr Hs) as G.
  rewrite (fp_eq_l lf rt t Hl Hr Hs), (fp_lt_l lf rt t Hl Hr Hs), (fp_le_l lf rt t Hl Hr Hs),
    (fp_gt_l lf rt t Hl Hr Hs), (fp_ge_l lf rt t Hl Hr Hs). rewrite !Z_div_mult by lia.
  set (g := 2 ^ (bits t - lf - rt)) in *.
  assert ((x =? y) = (x * g =? y * g)) as -> by (destruct (x =? y) eqn:E; nia).
  assert ((x <? y) = (x * g <? y * g)) as -> by (destruct (x <? y) eqn:E; nia).
  assert ((x <=? y) = (x * g <=? y * g)) as -> by (destruct (x <=? y) eqn:E; nia).
  assert ((y <? x) = (y * g <? x * g)) as -> by (destruct (y <? x) eqn:E; nia).
  assert ((y <=? x) = (y * g <=? x * g)) as -> by (destruct (y <=? x) eqn:E; nia).
  repeat split.
Qed.
Print Assumptions C34_compare_multiples.

(** ... and right on all numbers of the format only in the degenerate formats. *)
Theorem C34_exact_iff : forall lf rt t, 0 <= lf -> 0 <= rt -> storage lf rt = Some t ->
  ((forall a b, in_fmt lf rt a -> in_fmt lf rt b -> fp_eq t lf rt a b = (a =? b) /\ fp_lt t lf rt a b = (a <? b))
   <-> unused t lf rt = 0 \/ lf + rt = 1).
Proof.
  intros lf rt t Hl Hr Hs. destruct (storage_spec lf rt t Hl Hr Hs) as (H & S & B & B2 & P). unfold unused. split.
  - intros Hall. destruct (Z.eq_dec (bits t - lf - rt) 0) as [|Hs0]; [left; assumption|right].
    destruct (Z.eq_dec (lf + rt) 1) as [|H1]; [assumption|exfalso].
    assert (2 <= 2 ^ (lf + rt - 1)) by (change 2 with (2 ^ 1) at 1; apply Z.pow_le_mono_r; lia).
    destruct (Hall 0 1 ltac:(unfold in_fmt; lia) ltac:(unfold in_fmt; lia)) as [E _].
    rewrite (fp_eq_l lf rt t Hl Hr Hs) in E.
    assert (2 <= 2 ^ (bits t - lf - rt)) by (change 2 with (2 ^ 1) at 1; apply Z.pow_le_mono_r; lia).
    rewrite !Z.div_small in E by lia. discriminate.
  - intros Hc a b Ha Hb. rewrite (fp_eq_l lf rt t Hl Hr Hs), (fp_lt_l lf rt t Hl Hr Hs).
    destruct Hc as [->|H1]; [rewrite !Z.div_1_r; split; reflexivity|].
    unfold in_fmt in *. rewrite H1 in *. change (2 ^ (1 - 1)) with 1 in *.
    pose proof (g_pos lf rt t Hl Hr Hs) as G.
    assert (forall z, -1 <= z < 1 -> z / 2 ^ (bits t - lf - rt) = z) as D.
    { intros z Hz. assert (z = 0 \/ z = -1) as [->| ->] by lia; [apply Z.div_0_l; lia|].
      symmetry. apply Z.div_unique with (r := 2 ^ (bits t - lf - rt) - 1); lia. }
    rewrite !D by assumption. split; reflexivity.
Qed.
Print Assumptions C34_exact_iff.

(** fp_t<8,8>: 1.0 == 2.0, and 1.0 < 2.0 is false. *)
Theorem C34_refuted : storage 8 8 = Some i32 /\ in_fmt 8 8 256 /\ in_fmt 8 8 512 /\
  fp_eq i32 8 8 256 512 = true /\ fp_lt i32 8 8 256 512 = false /\ fp_eq i32 8 8 (-256) 256 = false.
Proof. repeat split; vm_compute; congruence. Qed.
Print Assumptions C34_refuted.

(** equal with a tolerance of [ulp] units: the difference of the same truncated values. *)
Theorem C34_eq_ulp : forall lf rt t a b ulp, 0 <= lf -> 0 <= rt -> storage lf rt = Some t ->
  1 <= unused t lf rt -> 2 <= lf + rt -> in_fmt lf rt a -> in_fmt lf rt b -> 0 <= ulp < 2 ^ 31 ->
  fp_eq_ulp t lf rt a b ulp = Some (Z.abs (a / 2 ^ unused t lf rt - b / 2 ^ unused t lf rt) <=? ulp).
Proof.
  intros lf rt t a b ulp Hl Hr Hs Hu H2 Ha Hb Hulp. unfold unused in *.
  apply (fp_eq_ulp_l lf rt t Hl Hr Hs); [apply (fmt_in_ty lf rt)..|apply ulp_diff_ok|]; try assumption; lia.
Qed.
Print Assumptions C34_eq_ulp.
Example C34_eq_ulp_ex : storage 12 2 = Some i16 /\ fp_eq_ulp i16 12 2 40 48 1 = Some false /\ fp_eq_ulp i16 12 2 40 48 2 = Some true.
Proof. repeat split. Qed.

(** *** C35: floor *)
Theorem C35_floor : forall lf rt t a, 1 <= lf -> 0 <= rt -> storage lf rt = Some t -> in_ty t a ->
  exists r, fp_floor t lf a = Some r /\ is_floor (bits t - lf) a r.
Proof.
  intros lf rt t a Hl Hr Hs Ha. rewrite (fp_floor_l lf rt t) by assumption. eexists. split; [reflexivity|].
  destruct (storage_spec lf rt t ltac:(lia) Hr Hs) as (H & S & B & B2 & P).
  pose proof (pow2_pos (bits t - lf) ltac:(lia)). exists (a / 2 ^ (bits t - lf)). split; [reflexivity|].
  pose proof (Z.div_mod a (2 ^ (bits t - lf)) ltac:(lia)). pose proof (Z.mod_pos_bound a (2 ^ (bits t - lf)) ltac:(lia)). lia.
Qed.
Theorem C35_floor_lf0 : forall rt t a, 0 <= rt -> storage 0 rt = Some t -> in_ty t a ->
  fp_floor t 0 a = if bits t <? 32 then Some 0 else None.
Proof. intros. apply (fp_floor_lf0 rt); assumption. Qed.
(** The floor of the represented number a / 2^rt is returned for every number of the
    format only when there are no fractional bits at all. *)
Theorem C35_exact_iff : forall lf rt t, 1 <= lf -> 0 <= rt -> storage lf rt = Some t ->
  ((forall a, in_fmt lf rt a -> exists r, fp_floor t lf a = Some r /\ is_floor rt a r) <-> (rt = 0 /\ lf = bits t)).
Proof.
  intros lf rt t Hl Hr Hs. destruct (storage_spec lf rt t ltac:(lia) Hr Hs) as (H & S & B & B2 & P). split.
  - intros Hall. assert (~ rt < bits t - lf); [|lia]. intros Hlt.
    pose proof (pow2_pos rt Hr) as Pr. set (g := bits t - lf) in *.
    assert (2 ^ rt < 2 ^ g) as PG by (apply Z.pow_lt_mono_r; lia).
    destruct (Z.eq_dec lf 1) as [E1|E1].
    + assert (in_fmt lf rt (-1)) as I by (unfold in_fmt; pose proof (pow2_pos (lf + rt - 1) ltac:(lia)); lia).
      destruct (Hall (-1) I) as (r & Er & n & En & Hn).
      rewrite (fp_floor_l lf rt t) in Er; try assumption; [|apply (fmt_in_ty lf rt); try assumption; lia].
      injection Er as <-. fold g in Hn. replace (-1 / 2 ^ g) with (-1) in Hn; [lia|].
      apply Z.div_unique with (r := 2 ^ g - 1); lia.
    + assert (in_fmt lf rt (2 ^ rt)) as I.
      { unfold in_fmt. assert (2 ^ rt < 2 ^ (lf + rt - 1)) by (apply Z.pow_lt_mono_r; lia). lia. }
      destruct (Hall (2 ^ rt) I) as (r & Er & n & En & Hn).
      rewrite (fp_floor_l lf rt t) in Er; try assumption; [|apply (fmt_in_ty lf rt); try assumption; lia].
      injection Er as <-. fold g in Hn. rewrite Z.div_small in Hn by lia. lia.
  - intros [-> El] a Ha. destruct (C35_floor lf 0 t a Hl Hr Hs) as (r & Er & Fr).
    + apply (fmt_in_ty lf 0); try assumption; lia.
    + exists r. split; [exact Er|]. rewrite El, Z.sub_diag in Fr. exact Fr.
Qed.
Theorem C35_refuted : storage 8 8 = Some i32 /\ in_fmt 8 8 640 /\ is_floor 8 640 512 /\ fp_floor i32 8 640 = Some 0 /\
  is_floor 8 (-128) (-256) /\ fp_floor i32 8 (-128) = Some (- 2 ^ 24).
Proof. repeat split; try (vm_compute; congruence); [exists 2|exists (-1)]; repeat split; vm_compute; congruence. Qed.
Print Assumptions C35_floor.
Print Assumptions C35_floor_lf0.
Print Assumptions C35_exact_iff.
Print Assumptions C35_refuted.

(** *** C36: SIMD *)
Theorem C36_arith : forall lf rt t n (a b r : list Z), 0 <= lf -> 0 <= rt -> storage lf rt = Some t ->
  length a = n -> length b = n -> length r = n ->
  let lanes (op : Z -> Z -> option Z) := forall i x y z,
    nth_error a i = Some x -> nth_error b i = Some y -> nth_error r i = Some z -> op x y = Some z in
  (lanes (fp_add t) -> simd_add t n a b = Some r) /\
  (lanes (fp_sub t) -> simd_sub t n a b = Some r) /\
  (lanes (fp_mul t rt) -> simd_mul t rt n a b = Some r) /\
  (lanes (fp_div t rt) -> simd_div t rt n a b = Some r).
Proof.
  intros lf rt t n a b r Hl Hr Hs La Lb Lr lanes. destruct (storage_spec lf rt t Hl Hr Hs) as (H & S & B & B2 & P).
  split; [apply simd_add_l; assumption|]. split; [apply simd_sub_l; assumption|].
  split; [apply simd_mul_l; try assumption; lia|apply simd_div_l; assumption].
Qed.
Print Assumptions C36_arith.
Theorem C36_fma : forall lf rt t n (a b c r : list Z), 0 <= lf -> 0 <= rt -> storage lf rt = Some t ->
  length a = n -> length b = n -> length c = n -> length r = n ->
  (forall i x y w z, nth_error a i = Some x -> nth_error b i = Some y -> nth_error c i = Some w ->
     nth_error r i = Some z -> exists p, fp_mul t rt x y = Some p /\ fp_add t p w = Some z) ->
  simd_fma t rt n a b c = Some r.
Proof.
  intros lf rt t n a b c r Hl Hr Hs. destruct (storage_spec lf rt t Hl Hr Hs) as (H & S & B & B2 & P).
  intros. apply simd_fma_l; try assumption; lia.
Qed.
Print Assumptions C36_fma.
Theorem C36_min_max : forall n (a b : list Z), length a = n -> length b = n ->
  exists mn mx, simd_min n a b = Some mn /\ simd_max n a b = Some mx /\ length mn = n /\ length mx = n /\
    forall i x y, nth_error a i = Some x -> nth_error b i = Some y ->
      nth_error mn i = Some (Z.min x y) /\ nth_error mx i = Some (Z.max x y).
Proof.
  intros n a b La Lb.
  assert (forall f, exists r, scalar_impl2 n (fun x y => Some (f x y)) a b = Some r /\ length r = n /\
    forall i x y, nth_error a i = Some x -> nth_error b i = Some y -> nth_error r i = Some (f x y)) as G.
  { intros f. unfold scalar_impl2. destruct (func_body_defined n (fun i => bind2 (lane a i) (lane b i) (fun x y => Some (f x y)))) as (r & Er).
    { intros i Hi. unfold lane, bind2. destruct (nth_error a i) eqn:Ea; [|apply nth_error_None in Ea; lia].
      destruct (nth_error b i) eqn:Eb; [|apply nth_error_None in Eb; lia]. discriminate. }
    exists r. pose proof (proj1 (func_body_iff _ _ _) Er) as [Lr _]. split; [exact Er|]. split; [exact Lr|].
    intros i x y Hx Hy. assert (i < n)%nat as Hi. { rewrite <- La. apply nth_error_Some. rewrite Hx. discriminate. }
    pose proof (func_body_lane _ _ _ Er i Hi) as E. unfold lane, bind2 in E. rewrite Hx, Hy in E. cbn [bind] in E. congruence. }
  destruct (G s_min) as (mn & E1 & L1 & H1). destruct (G s_max) as (mx & E2 & L2 & H2).
  exists mn, mx. split; [exact E1|]. split; [exact E2|]. split; [exact L1|]. split; [exact L2|].
  intros i x y Hx Hy. rewrite (H1 i x y Hx Hy), (H2 i x y Hx Hy). unfold s_min, s_max. split; f_equal; (destruct (x <? y) eqn:?; destruct (y <? x) eqn:?; lia).
Qed.
Theorem C36_abs : forall lf rt t n (a : list Z), 0 <= lf -> 0 <= rt -> storage lf rt = Some t -> length a = n ->
  (forall i x, nth_error a i = Some x -> in_ty t x /\ in_ty t (Z.abs x)) ->
  exists r, simd_abs t n a = Some r /\ length r = n /\ forall i x, nth_error a i = Some x -> nth_error r i = Some (Z.abs x).
Proof.
  intros lf rt t n a Hl Hr Hs La Hf. destruct (storage_spec lf rt t Hl Hr Hs) as (H & S & B & B2 & P). unfold simd_abs, scalar_impl1.
  assert (forall i x, nth_error a i = Some x -> s_abs t x = Some (Z.abs x)) as E.
  { intros i x Hx. destruct (Hf i x Hx) as [Ix Ia]. unfold s_abs. rewrite S. cbn [negb].
    destruct (Z.leb_spec 0 x); [rewrite cast_id, Z.abs_eq by (assumption || lia); reflexivity|].
    rewrite Z.abs_neq in * by lia. rewrite carith_promote_fits by assumption. unfold casted. cbn [bind]. rewrite cast_id by assumption. reflexivity. }
  destruct (func_body_defined n (fun i => bind (lane a i) (s_abs t))) as (r & Er).
  { intros i Hi. unfold lane. destruct (nth_error a i) eqn:Ea; [|apply nth_error_None in Ea; lia]. cbn [bind]. rewrite (E _ _ Ea). discriminate. }
  exists r. pose proof (proj1 (func_body_iff _ _ _) Er) as [Lr _]. split; [exact Er|]. split; [exact Lr|]. intros i x Hx.
  assert (i < n)%nat as Hi. { rewrite <- La. apply nth_error_Some. rewrite Hx. discriminate. }
  pose proof (func_body_lane _ _ _ Er i Hi) as El. unfold lane in El. rewrite Hx in El. cbn [bind] in El. rewrite (E _ _ Hx) in El. exact El.
Qed.
Theorem C36_rec : forall lf rt t n (a r : list Z), 0 <= lf -> 0 <= rt <= 30 -> storage lf rt = Some t -> in_fmt lf rt (2 ^ rt) ->
  length a = n -> length r = n ->
  (forall i x z, nth_error a i = Some x -> nth_error r i = Some z -> x <> 0 /\ is_quotient_trunc rt (2 ^ rt) x z /\ in_fmt lf rt z) ->
  simd_rec t rt n a = Some r.
Proof.
  intros lf rt t n a r Hl Hr Hs Ho La Lr Hf. unfold simd_rec.
  destruct (storage_spec lf rt t Hl ltac:(lia) Hs) as (H & S & B & B2 & P).
  rewrite (fp_of_int_l t rt 1), Z.mul_1_l by (try assumption; try lia; rewrite Z.mul_1_l; apply (fmt_in_ty lf rt); try assumption; lia). cbn [bind].
  assert (set1 (EI t) n (2 ^ rt) = Some (repeat (2 ^ rt) n)) as ->.
  { unfold set1. apply func_body_iff. split; [apply repeat_length|]. intros i Hi. symmetry. apply nth_error_repeat. exact Hi. }
  cbn [bind]. apply simd_div_l; [apply repeat_length|exact La|exact Lr|]. intros i x y z Hx Hy Hz.
  apply nth_error_In, repeat_spec in Hx. subst x. destruct (Hf i y z Hy Hz) as (N & Q & F).
  apply (C33_div lf); try assumption; lia.
Qed.
Print Assumptions C36_min_max.
Print Assumptions C36_abs.
Print Assumptions C36_rec.
Example C36_rec_ex : simd_min 3 [1; -5; 7] [2; -6; 7] = Some [1; -6; 7] /\ simd_max 3 [1; -5; 7] [2; -6; 7] = Some [2; -5; 7] /\ simd_abs i32 3 [1; -5; 7] = Some [1; 5; 7] /\ simd_rec i32 8 3 [512; -768; 256] = Some [128; -85; 256] /\ in_fmt 8 8 (2 ^ 8) /\ is_quotient_trunc 8 (2 ^ 8) (-768) (-85).
Proof.
  repeat match goal with |- _ /\ _ => split end; try (vm_compute; reflexivity); [vm_compute; split; congruence|]. exists 256. cbn; lia.
Qed.
(** The SIMD comparisons compare the represented numbers (no masking). *)
Theorem C36_compare : forall n (a b : list Z), length a = n -> length b = n ->
  let is (simd : nat -> list Z -> list Z -> option (list Z)) (rel : Z -> Z -> Prop) :=
    exists r, simd n a b = Some r /\ length r = n /\ forall i x y, nth_error a i = Some x -> nth_error b i = Some y ->
      exists m, nth_error r i = Some m /\ (m = 2 ^ 32 - 1 /\ rel x y \/ m = 0 /\ ~ rel x y) in
  is simd_eq (fun x y => x = y) /\ is simd_ne (fun x y => x <> y) /\ is simd_lt Z.lt /\ is simd_le Z.le /\
  is simd_gt Z.gt /\ is simd_ge Z.ge.
Proof.
  intros n a b La Lb is.
  assert (forall op (rel : Z -> Z -> Prop), (forall x y, op x y = true <-> rel x y) -> is (cmp2 op) rel) as G.
  { intros op rel Hop. destruct (simd_cmp_defined op n a b La Lb) as [r Er].
    destruct (simd_cmp_l op n a b r La Lb Er) as [Lr Hr]. exists r. split; [exact Er|]. split; [exact Lr|].
    intros i x y Hx Hy. rewrite (Hr i x y Hx Hy). eexists. split; [reflexivity|].
    specialize (Hop x y). destruct (op x y); [left|right]; (split; [reflexivity|]).
    - apply Hop. reflexivity.
    - intros Hrel. apply Hop in Hrel. discriminate. }
  unfold simd_eq, simd_ne, simd_lt, simd_le, simd_gt, simd_ge, s_eq, s_ne, s_lt, s_le, s_gt, s_ge.
  repeat split; apply G; intros; lia.
Qed.
Print Assumptions C36_compare.
(** So they differ from the scalar operators outside the multiples of 2^s. *)
Theorem C36_compare_refuted : exists r, simd_eq 4 [256; 256; 0; 512] [512; 256; 1; 0] = Some r /\
  r = [0; 2 ^ 32 - 1; 0; 0] /\
  map (fun p => fp_eq i32 8 8 (fst p) (snd p)) [(256, 512); (256, 256); (0, 1); (512, 0)] = [true; true; true; true].
Proof. eexists. repeat split. Qed.
Print Assumptions C36_compare_refuted.
Example C36_ex : exists r, simd_mul i32 8 2 [640; -640] [3; 3] = Some r /\ r = [7; -8] /\
  simd_div i32 8 2 [640; -640] [768; 768] = Some [213; -213].
Proof. eexists. repeat split. Qed.

(** *** C37: integer powers *)
Theorem C37_exp : forall lf rt t a b (pw : Z -> Z), 0 <= lf -> 0 <= rt <= 30 -> storage lf rt = Some t ->
  (1 <= rt \/ bits t < 32) -> 0 < b < 2 ^ 63 ->
  (forall m, 1 <= m <= b -> is_power rt a m (pw m) /\ in_fmt lf rt (pw m)) ->
  fp_exp t rt 64 a b = Some (Some (pw b)).
Proof. exact fp_exp_pos. Qed.
Theorem C37_exp_terminates : forall t rt a b, - 2 ^ 63 <= b < 2 ^ 63 -> fp_exp t rt 64 a b <> None.
Proof. exact fp_exp_terminates. Qed.
Theorem C37_exp_zero : forall lf rt t a, 0 <= lf -> 0 <= rt <= 30 -> storage lf rt = Some t ->
  fp_exp t rt 64 a 0 = Some (Some (2 ^ rt)).
Proof. intros lf rt t a Hl Hr Hs. unfold fp_exp. cbn [Z.eqb]. f_equal. apply (one_ok lf rt t Hl Hr Hs). Qed.
(** A negative exponent raises the truncated inverse 1/a to the opposite power. *)
Theorem C37_exp_negative : forall lf rt t a b inv, 0 <= lf -> 0 <= rt <= 30 -> storage lf rt = Some t ->
  - 2 ^ 63 < b < 0 -> fp_div t rt (2 ^ rt) a = Some inv -> fp_exp t rt 64 a b = fp_exp t rt 64 inv (- b).
Proof.
  intros lf rt t a b inv Hl Hr Hs Hb Hd. apply (fp_exp_neg t rt 64 a b (2 ^ rt) inv); try assumption.
  apply (one_ok lf rt t Hl Hr Hs).
Qed.
Theorem C37_exp_min_undefined : forall t rt a, fp_exp t rt 64 a (- 2 ^ 63) = Some None.
Proof.
  intros. unfold fp_exp. change (- 2 ^ 63 =? 0) with false. change (- 2 ^ 63 <? 0) with true.
  change (carith i64 (- - 2 ^ 63)) with (@None Z). destruct (bind (fp_of_int t rt 1) _); reflexivity.
Qed.
Print Assumptions C37_exp.
Print Assumptions C37_exp_terminates.
Print Assumptions C37_exp_zero.
Print Assumptions C37_exp_negative.
Print Assumptions C37_exp_min_undefined.
(** 1.5^5 = 7.59375 in fp_t<8,8>: the hypotheses of C37_exp hold. *)
Example C37_ex : (forall m, 1 <= m <= 5 -> is_power 8 384 m (384 ^ m / 256 ^ (m - 1)) /\ in_fmt 8 8 (384 ^ m / 256 ^ (m - 1))) /\
  fp_exp i32 8 64 384 5 = Some (Some 1944) /\ fp_exp i32 8 64 512 (-3) = Some (Some 32).
Proof.
  split.
  - intros m Hm. assert (m = 1 \/ m = 2 \/ m = 3 \/ m = 4 \/ m = 5) as [-> | [-> | [-> | [-> | ->]]]] by lia;
      repeat split; vm_compute; congruence.
  - split; vm_compute; reflexivity.
Qed.

(** *** C53: square root.  [r] is the correctly truncated root. *)
Theorem C53_sqrt : forall lf rt t a r, 0 <= lf -> 0 <= rt <= 30 -> storage lf rt = Some t -> 0 < a ->
  in_ty t ((a + 2 ^ rt + 2) * 2 ^ rt) -> a <= 2 ^ 12 * 2 ^ rt -> 2 ^ rt <= 2 ^ 12 * a ->
  is_sqrt rt a r -> exists x, fp_sqrt t rt a = Some x /\ r <= x <= r + 1.
Proof.
  intros lf rt t a r Hl Hr Hs Ha Hin H1 H2 Hq. apply (fp_sqrt_quadratic lf rt t a r); try assumption.
  destruct (storage_spec lf rt t Hl ltac:(lia) Hs) as (H & S & B & B2 & P). apply in_ty_signed in Hin; [|assumption].
  pose proof (pow2_pos rt ltac:(lia)) as Pr. destruct (Z.eq_dec rt (bits t - 1)) as [E|E]; [lia|].
  apply (Z.mul_lt_mono_pos_r (2 ^ rt)); [assumption|]. rewrite <- Z.pow_add_r by lia.
  replace (bits t - 1 - rt + rt) with (bits t - 1) by lia. lia.
Qed.
Theorem C53_sqrt_any : forall lf rt t a r, 0 <= lf -> 0 <= rt <= 30 -> storage lf rt = Some t -> 0 < a ->
  in_ty t ((a + 2 ^ rt + 2) * 2 ^ rt) -> is_sqrt rt a r ->
  exists x, fp_sqrt t rt a = Some x /\ r <= x /\ x - r <= Z.max 1 ((a + 2 ^ rt) / 2 ^ 10).
Proof.
  intros lf rt t a r Hl Hr Hs Ha Hin Hq.
  destruct (fp_sqrt_linear lf rt t a r) as (x & Ex & Gx & Hx); try assumption.
  - destruct (storage_spec lf rt t Hl ltac:(lia) Hs) as (H & S & B & B2 & P). apply in_ty_signed in Hin; [|assumption].
    pose proof (pow2_pos rt ltac:(lia)) as Pr. destruct (Z.eq_dec rt (bits t - 1)) as [E|E]; [lia|].
    apply (Z.mul_lt_mono_pos_r (2 ^ rt)); [assumption|]. rewrite <- Z.pow_add_r by lia.
    replace (bits t - 1 - rt + rt) with (bits t - 1) by lia. lia.
  - exists x. split; [exact Ex|]. split; [exact Gx|]. destruct Hx as [Hx|Hx]; [lia|].
    assert (x - r <= (a + 2 ^ rt) / 2 ^ 10); [|lia]. apply Z.div_le_lower_bound; lia.
Qed.
Theorem C53_sqrt_zero_undefined : forall t rt, fp_sqrt t rt 0 = None.
Proof. exact fp_sqrt_zero. Qed.
(** Without the range hypothesis the wrapped intermediate results are wrong:
    fp_t<4,2> (int8 storage), sqrt 7.75 is not 2.75 or 3. *)
Theorem C53_sqrt_refuted : storage 4 2 = Some i8 /\ in_fmt 4 2 31 /\ is_sqrt 2 31 11 /\
  exists x, fp_sqrt i8 2 31 = Some x /\ ~ 11 <= x <= 12.
Proof. repeat split; try (vm_compute; congruence). eexists. split; [vm_compute; reflexivity|]. lia. Qed.
Print Assumptions C53_sqrt.
Print Assumptions C53_sqrt_any.
Print Assumptions C53_sqrt_zero_undefined.
Print Assumptions C53_sqrt_refuted.
Example C53_ex : storage 8 8 = Some i32 /\ fp_sqrt i32 8 512 = Some 362 /\ is_sqrt 8 512 362 /\
  fp_sqrt i32 8 1 = Some 16 /\ in_tyb i32 ((512 + 2 ^ 8 + 2) * 2 ^ 8) = true.
Proof. repeat split; vm_compute; congruence. Qed.
(** the upper end r + 1 is reached: a * 2^rt = 24 = 5^2 - 1 *)
Example C53_ex2 : storage 16 1 = Some i32 /\ is_sqrt 1 12 4 /\ fp_sqrt i32 1 12 = Some 5.
Proof. repeat split; vm_compute; congruence. Qed.

(** *** C54: log2 *)
Theorem C54_log2 : forall lf rt t a fuel, 2 <= lf -> 0 <= rt <= 30 -> storage lf rt = Some t -> 0 < a < 2 ^ unused t lf rt ->
  (31 <= fuel)%nat -> fp_log2 t lf rt fuel a = Ret (Z.min 0 (Z.log2 a - rt) * 2 ^ rt).
Proof. intros lf rt t a fuel Hl Hr Hs Ha Hf. apply fp_log2_small; try assumption; apply Ha. Qed.
(** The intended statement -- the result is within one unit of the logarithm -- fails:
    log2 4.0 = 0 in fp_t<8,8>, and log2 8.0 never returns in fp_t<12,2>. *)
Theorem C54_log2_refuted : in_fmt 8 8 1024 /\ fp_log2 i32 8 8 64 1024 = Ret 0 /\
  storage 12 2 = Some i16 /\ in_fmt 12 2 32 /\ forall fuel r, fp_log2 i16 12 2 fuel 32 <> Ret r.
Proof.
  split; [unfold in_fmt; lia|]. split; [vm_compute; reflexivity|]. split; [reflexivity|]. split; [unfold in_fmt; lia|].
  exact log2_stuck_8.
Qed.
Print Assumptions C54_log2.
Print Assumptions C54_log2_refuted.
Example C54_ex : storage 8 8 = Some i32 /\ fp_log2 i32 8 8 64 65 = Ret (-2 * 2 ^ 8).
Proof. split; vm_compute; reflexivity. Qed.

(** *** C55: conversions.  A finite binary32 of sign [s] and magnitude [m] denotes
    +-m / 2^149. *)
Theorem C55_of_float : forall lf rt t v s m z, 0 <= lf -> 0 <= rt <= 30 -> storage lf rt = Some t ->
  in_u 32 v -> decode binary32 v = FFin s m ->
  nearest_away (sval s m * 2 ^ rt) z -> in_ty t z -> float2int t rt v = Some z.
Proof.
  intros lf rt t v s m z Hl Hr Hs Hv Hd (N1 & N2) Hz. destruct (storage_spec lf rt t Hl ltac:(lia) Hs) as (H & S & B & B2 & P).
  rewrite (float2int_l t rt v s m) by assumption. cbv zeta.
  assert (0 <= m) as Hm. { destruct (decode32_form v s m Hv Hd) as (q & j & Hq & Hj & ->). pose proof (pow2_pos j Hj). nia. }
  assert (z = sval s (rnd (m * 2 ^ rt))) as <-.
  { unfold rnd. pose proof (pow2_pos rt ltac:(lia)) as Pr. 
    assert (sval s m * 2 ^ rt = sval s (m * 2 ^ rt)) as Esv by (unfold sval; destruct s; ring). rewrite Esv in N1, N2.
    assert (0 <= m * 2 ^ rt) as X0 by nia. set (x := m * 2 ^ rt) in *.
    change (2 ^ 149) with (2 * 2 ^ 148) in *. set (h := 2 ^ 148) in *. assert (0 < h) by reflexivity.
    pose proof (Z.div_mod (x + h) (2 * h) ltac:(lia)) as E. pose proof (Z.mod_pos_bound (x + h) (2 * h) ltac:(lia)) as M.
    set (q := (x + h) / (2 * h)) in *. set (y := (x + h) mod (2 * h)) in *.
    destruct s; cbn [sval] in *.
    - assert (- z = q); [|lia]. assert (2 * h * (- z - q) < 2 * h /\ - (2 * h) < 2 * h * (- z - q)); [|nia].
      split; [lia|]. destruct (Z.eq_dec (2 * Z.abs (z * (2 * h) - - x)) (2 * h)) as [Et|]; [specialize (N2 Et)|]; lia.
    - assert (z = q); [|lia]. assert (2 * h * (z - q) < 2 * h /\ - (2 * h) < 2 * h * (z - q)); [|nia].
      split; [lia|]. destruct (Z.eq_dec (2 * Z.abs (z * (2 * h) - x)) (2 * h)) as [Et|]; [specialize (N2 Et)|]; lia. }
  assert (in_tyb t z = true) as ->; [|reflexivity].
  unfold in_tyb, in_ty in *. lia.
Qed.
Print Assumptions C55_of_float.
(** To float: the correctly rounded quotient raw / 2^rt. *)
Theorem C55_to_float : forall rt z, 0 <= rt <= 30 -> Z.abs z <= 2 ^ 64 ->
  int2float rt z = Some (encode binary32 (z <? 0) (Z.abs z * 2 ^ (149 - rt)) 0).
Proof. exact int2float_l. Qed.
Print Assumptions C55_to_float.
Theorem C55_round_trip : forall lf rt t z, 0 <= lf -> 0 <= rt <= 30 -> storage lf rt = Some t ->
  Z.abs z <= 2 ^ 24 -> in_ty t z -> exists v, int2float rt z = Some v /\ float2int t rt v = Some z.
Proof. intros lf rt t z Hl Hr Hs. apply float_round_trip; [apply (storage_spec lf rt); try assumption; lia|assumption]. Qed.
Print Assumptions C55_round_trip.
(** Not beyond 2^24, the precision of float; and with rt >= 31 nothing is defined. *)
Theorem C55_round_trip_refuted : exists v, int2float 8 (2 ^ 24 + 1) = Some v /\ float2int i32 8 v = Some (2 ^ 24).
Proof. exists 0x47800000. split; vm_compute; reflexivity. Qed.
Theorem C55_rt31_undefined : forall t rt v, 31 <= rt -> float2int t rt v = None /\ int2float rt v = None /\ fp_of_int t rt v = None.
Proof.
  intros t rt v Hr. unfold fp_of_int, float2int, int2float, one_shl.
  assert ((0 <=? rt) && (rt <? 31) = false) as -> by lia. repeat split.
Qed.
Theorem C55_of_int : forall lf rt t n, 0 <= lf -> 0 <= rt <= 30 -> storage lf rt = Some t -> Z.abs n <= 2 ^ 24 ->
  in_ty t (n * 2 ^ rt) -> fp_of_int t rt n = Some (n * 2 ^ rt).
Proof. intros lf rt t n Hl Hr Hs. apply fp_of_int_l; [apply (storage_spec lf rt); try assumption; lia|assumption]. Qed.
Print Assumptions C55_round_trip_refuted.
Print Assumptions C55_rt31_undefined.
Print Assumptions C55_of_int.
Example C55_ex : float2int i32 8 0xC0200000 = Some (-640) /\ int2float 8 (-640) = Some 0xC0200000.
Proof. split; vm_compute; reflexivity. Qed.
