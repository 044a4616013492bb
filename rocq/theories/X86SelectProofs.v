(** Selection, minimum, maximum, absolute value, saturated arithmetic, division, fused operators,
    mask conversions and reductions. *)
From Coq Require Import ZArith Lia List Bool ZifyBool.
From Verif Require Import CInt BitLemmas ScalarOps ScalarSpec ScalarProofs X86Deg234 X86Arith X86ArithSpec
  X86LaneLemmas X86ArithProofs X86EmulProofs X86LogicProofs.
Import ListNotations.
Open Scope Z_scope.

(** ** Selection *)

Definition selects (n w : Z) (p : Z -> bool) (a b r : Z) : Prop :=
  in_reg n r /\ forall i, 0 <= i < n / w -> lane w i r = if p i then lane w i a else lane w i b.

Lemma testbit_build w k f m : 0 < w -> 0 <= m < w * Z.of_nat k ->
  Z.testbit (build w k f) m = Z.testbit (f (m / w)) (m mod w).
Proof.
  intros Hw Hm. pose proof (Z.div_mod m w ltac:(lia)) as D. pose proof (Z.mod_pos_bound m w ltac:(lia)) as M.
  assert (0 <= m / w < Z.of_nat k).
  { split; [apply Z.div_pos; lia|apply Z.div_lt_upper_bound; lia]. }
  pose proof (lane_build w k f (m / w) ltac:(lia) H) as L.
  apply (f_equal (fun z => Z.testbit z (m mod w))) in L. rewrite tb_lane in L by lia. decb.
  replace (0 <=? m mod w) with true in L by lia. replace (m mod w <? w) with true in L by lia. cbn [andb] in L.
  rewrite <- D in L. rewrite L, tb_mod by lia. replace (m mod w <? w) with true by lia. reflexivity.
Qed.

Lemma blend8_selects n k l p a b : okw n (8 * k) -> 0 < k -> reg_logical n (8 * k) l p ->
  selects n (8 * k) p a b (mm_blendv n 8 b a l).
Proof.
  intros H Hk [Rl Ll]. assert (O8 : okw n 8).
  { destruct (okw_fine n k 8 Hk ltac:(lia) ltac:(rewrite Z.mul_comm; exact H)) as [O _]. exact O. }
  split; [apply in_reg_build; assumption|]. intros i Hi.
  assert (Hn : 8 * k * (n / (8 * k)) = n) by (destruct H as (_&_&E); lia).
  apply Z.bits_inj'. intros q Hq. rewrite tb_lane by nia. decb.
  destruct (Z.ltb_spec q (8 * k)) as [Q|Q].
  2:{ destruct (p i); rewrite tb_lane by nia; replace (q <? 8 * k) with false by lia; decb; reflexivity. }
  cbn [andb].
  set (m := 8 * k * i + q). assert (Hm : 0 <= m < n) by (unfold m; nia).
  unfold mm_blendv. rewrite testbit_build by (rewrite ?nlanes_z by assumption; destruct O8 as (_&_&E8); lia).
  pose proof (Z.div_mod m 8 ltac:(lia)) as D. pose proof (Z.mod_pos_bound m 8 ltac:(lia)) as M.
  assert (M8 : 0 <= m / 8) by (apply Z.div_pos; lia).
  rewrite (msb_leb 8) by (try apply lane_range; lia).
  assert (T : Z.testbit (lane 8 (m / 8) l) (8 - 1) = p i).
  { rewrite tb_lane by lia. decb. cbn [andb].
    assert (E : 8 * (m / 8) + (8 - 1) = 8 * k * i + (8 * (q / 8) + 7)).
    { assert (m / 8 = k * i + q / 8); [|lia]. unfold m. replace (8 * k * i + q) with (q + (k * i) * 8) by lia.
      rewrite Z.div_add by lia. lia. }
    rewrite E. pose proof (Z.div_mod q 8 ltac:(lia)) as Dq. pose proof (Z.mod_pos_bound q 8 ltac:(lia)) as Mq.
    assert (0 <= q / 8 < k) by (split; [apply Z.div_pos; lia|apply Z.div_lt_upper_bound; lia]).
    pose proof (tb_lane (8 * k) i l (8 * (q / 8) + 7) ltac:(lia) ltac:(lia)) as T.
    rewrite Ll in T by assumption. replace (0 <=? 8 * (q / 8) + 7) with true in T by lia.
    replace (8 * (q / 8) + 7 <? 8 * k) with true in T by lia. cbn [andb] in T. rewrite <- T.
    destruct (p i); [rewrite tb_ones by lia; decb; reflexivity|apply Z.bits_0]. }
  rewrite T. destruct (p i); rewrite tb_lane by lia; decb; cbn [andb]; rewrite <- D; unfold m;
    rewrite tb_lane by nia; decb; reflexivity.
Qed.

Lemma manual_selects n w l p a b : okw n w -> in_reg n a -> in_reg n b -> reg_logical n w l p ->
  selects n w p a b (Z.lor (Z.land a l) (Z.land (Z.lnot l) b)).
Proof.
  intros H Ha Hb [Rl Ll]. pose proof H as (Hw & Hn & E). split.
  - apply in_reg_lor; [assumption|apply in_reg_land; assumption|apply in_reg_andnot; assumption].
  - intros i Hi. rewrite lane_lor, lane_land, lane_andnot, Ll by (assumption || lia).
    pose proof (lane_range w i a ltac:(lia)). pose proof (lane_range w i b ltac:(lia)).
    destruct (p i).
    + rewrite land_ones_r, lnot_ones_land, Z.lor_0_r by (assumption || lia). reflexivity.
    + rewrite Z.land_0_r, lnot_0_land. reflexivity.
Qed.

Lemma land1_shiftr l i : 0 <= i -> (Z.land (Z.shiftr l i) 1 =? 0) = negb (Z.testbit l i).
Proof.
  intros Hi. rewrite shiftr_div by lia. change 1 with (2 ^ 1 - 1). rewrite land_mask by lia. change (2 ^ 1) with 2.
  pose proof (Z.testbit_spec' l i Hi) as E. rewrite <- E. destruct (Z.testbit l i); reflexivity.
Qed.

Lemma mask_selects e t l p a b : In t int_types -> is512 e = true -> logical e t l p ->
  selects 512 (bits t) p a b (build (bits t) (nlanes 512 (bits t)) (fun i => if Z.testbit l i then lane (bits t) i a else lane (bits t) i b)).
Proof.
  intros H E L. assert (N : nb e = 512) by (destruct e; try discriminate E; reflexivity).
  pose proof (okw_nb e t H) as O. rewrite N in O. apply logical_mask in L; [|assumption]. rewrite N in L. destruct L as [_ L].
  split; [apply in_reg_build; assumption|]. intros i Hi. rewrite lane_buildn, L by assumption.
  destruct (p i); apply Z.mod_small; apply lane_range; destruct O; lia.
Qed.

Lemma build_ext w k f g : (forall i, 0 <= i -> f i = g i) -> build w k f = build w k g.
Proof. intros E. induction k as [|k IH]; [reflexivity|]. cbn [build]. rewrite IH, E by lia. reflexivity. Qed.

Lemma x_if_else1_ok e t l p a b : In t int_types -> in_reg (nb e) a -> in_reg (nb e) b -> logical e t l p ->
  selects (nb e) (bits t) p a b (x_if_else1 e t l a b).
Proof.
  intros H Ha Hb L. pose proof (okw_nb e t H) as O.
  assert (exists k, 0 < k /\ bits t = 8 * k) as (k & Hk & Ek) by (exists (bits t / 8); ty_cases H; split; reflexivity).
  unfold x_if_else1, x_orb, x_andb, x_andnotb, mm_or, mm_and, mm_andnot, mm_mask_blend.
  destruct e; try match type of L with logical ?e _ _ _ => apply (proj1 (logical_reg e t l p eq_refl)) in L end.
  - apply manual_selects; assumption.
  - rewrite Ek in *. apply blend8_selects; assumption.
  - apply manual_selects; assumption.
  - rewrite Ek in *. apply blend8_selects; assumption.
  - destruct (wide t); [exact (mask_selects Avx512Knl t l p a b H eq_refl L)|].
    rewrite (build_ext _ _ _ (fun i => if Z.testbit l i then lane (bits t) i a else lane (bits t) i b)).
    + exact (mask_selects Avx512Knl t l p a b H eq_refl L).
    + intros i Hi. rewrite land1_shiftr by assumption. destruct (Z.testbit l i); reflexivity.
  - exact (mask_selects Avx512Skylake t l p a b H eq_refl L).
Qed.

(** ** From lanes to elements *)

Lemma elt_lane t r i : elt t r i = cast t (lane (bits t) i r).
Proof. reflexivity. Qed.
Lemma lw1_vector e t f g a (P : Z -> Z -> Prop) : In t int_types -> lw1 (nb e) (bits t) f g -> in_reg (nb e) a ->
  (forall i, P i (cast t (g (lane (bits t) i a)))) -> vector e t (f a) P.
Proof.
  intros H L Ha HP. destruct (L a Ha) as [R E]. split; [exact R|]. intros i Hi. rewrite elt_lane, E by assumption. apply HP.
Qed.
Lemma lw2_vector e t f g a b (P : Z -> Z -> Prop) : In t int_types -> lw2 (nb e) (bits t) f g -> in_reg (nb e) a -> in_reg (nb e) b ->
  (forall i, P i (cast t (g (lane (bits t) i a) (lane (bits t) i b)))) -> vector e t (f a b) P.
Proof.
  intros H L Ha Hb HP. destruct (L a b Ha Hb) as [R E]. split; [exact R|]. intros i Hi. rewrite elt_lane, E by assumption. apply HP.
Qed.
Lemma cast_mod_pow t z : In t int_types -> cast t (z mod 2 ^ bits t) = cast t z.
Proof. intros H. apply cast_congr. apply Z.mod_mod. apply pow_bits_nz. assumption. Qed.
Lemma lane_as_mod t r i : In t int_types -> lane (bits t) i r = elt t r i mod 2 ^ bits t.
Proof. intros. symmetry. apply elt_congr. assumption. Qed.

(** ** Minimum and maximum *)

Lemma cast_back t x : In t int_types -> ulane (bits t) x -> cast t x mod 2 ^ bits t = x.
Proof. intros H Hx. rewrite cast_mod by assumption. apply Z.mod_small. exact Hx. Qed.

Lemma max_ie_lw e t : In t int_types ->
  lw2 (nb e) (bits t) (max_if_else e t) (fun x y => Z.max (cast t x) (cast t y) mod 2 ^ bits t).
Proof.
  intros H a b Ha Hb. pose proof (bits_pos t H) as Bp.
  destruct (x_if_else1_ok e t _ _ a b H Ha Hb (x_gt_ok e t a b H Ha Hb)) as [R L].
  split; [exact R|]. intros i Hi. unfold max_if_else. rewrite L by assumption. rewrite !elt_lane.
  pose proof (lane_range (bits t) i a ltac:(lia)). pose proof (lane_range (bits t) i b ltac:(lia)).
  destruct (Z.ltb_spec (cast t (lane (bits t) i b)) (cast t (lane (bits t) i a))).
  - rewrite Z.max_l by lia. symmetry. apply cast_back; assumption.
  - rewrite Z.max_r by lia. symmetry. apply cast_back; assumption.
Qed.
Lemma min_ie_lw e t : In t int_types ->
  lw2 (nb e) (bits t) (min_if_else e t) (fun x y => Z.min (cast t x) (cast t y) mod 2 ^ bits t).
Proof.
  intros H a b Ha Hb. pose proof (bits_pos t H) as Bp.
  destruct (x_if_else1_ok e t _ _ a b H Ha Hb (x_gt_ok e t b a H Hb Ha)) as [R L].
  split; [exact R|]. intros i Hi. unfold min_if_else. rewrite L by assumption. rewrite !elt_lane.
  pose proof (lane_range (bits t) i a ltac:(lia)). pose proof (lane_range (bits t) i b ltac:(lia)).
  destruct (Z.ltb_spec (cast t (lane (bits t) i a)) (cast t (lane (bits t) i b))).
  - rewrite Z.min_l by lia. symmetry. apply cast_back; assumption.
  - rewrite Z.min_r by lia. symmetry. apply cast_back; assumption.
Qed.
Lemma mm_max_lw n t : okw n (bits t) -> lw2 n (bits t) (mm_max n t) (fun x y => Z.max (cast t x) (cast t y) mod 2 ^ bits t).
Proof. intros. apply lanewise2_lw; [assumption|reflexivity]. Qed.
Lemma mm_min_lw n t : okw n (bits t) -> lw2 n (bits t) (mm_min n t) (fun x y => Z.min (cast t x) (cast t y) mod 2 ^ bits t).
Proof. intros. apply lanewise2_lw; [assumption|reflexivity]. Qed.

Lemma minmax_lw intr ie g e t : In t int_types ->
  (forall n, okw n (bits t) -> lw2 n (bits t) (intr n t) g) -> lw2 (nb e) (bits t) (ie e t) g ->
  lw2 (nb e) (bits t) (minmax intr ie e t) g.
Proof.
  intros H HI HE.
  assert (O1 : okw 128 (bits t)) by (ty_cases H; okw). assert (O2 : okw 256 (bits t)) by (ty_cases H; okw).
  assert (O3 : okw 512 (bits t)) by (ty_cases H; okw).
  intros a b Ha Hb. unfold minmax. cbv zeta. destruct e; cbn [nb] in *.
  - destruct (_ || _); [apply HI; assumption|apply HE; assumption].
  - destruct (_ =? _); [apply HE; assumption|apply HI; assumption].
  - destruct (_ =? _); [apply HE; assumption|]. apply (split2_lw 128 (bits t) (intr 128 t) g O1 (HI 128 O1)); assumption.
  - destruct (_ =? _); [apply HE; assumption|apply HI; assumption].
  - destruct (wide t); [apply HI; assumption|]. apply (split2_lw 256 (bits t) (intr 256 t) g O2 (HI 256 O2)); assumption.
  - apply HI; assumption.
Qed.
Lemma x_max_lw e t : In t int_types -> lw2 (nb e) (bits t) (x_max e t) (fun x y => Z.max (cast t x) (cast t y) mod 2 ^ bits t).
Proof. intros H. apply minmax_lw; [assumption|intros; apply mm_max_lw; assumption|apply max_ie_lw; assumption]. Qed.
Lemma x_min_lw e t : In t int_types -> lw2 (nb e) (bits t) (x_min e t) (fun x y => Z.min (cast t x) (cast t y) mod 2 ^ bits t).
Proof. intros H. apply minmax_lw; [assumption|intros; apply mm_min_lw; assumption|apply min_ie_lw; assumption]. Qed.

(** ** Absolute value *)

Lemma lxor_ones w z : 0 <= w -> ulane w z -> Z.lxor z (2 ^ w - 1) = 2 ^ w - 1 - z.
Proof.
  intros Hw Hz. assert (E : 2 ^ w - 1 - z = Z.lnot z mod 2 ^ w).
  { unfold Z.lnot. pose proof (pow2_pos w Hw). unfold ulane in Hz. apply (Z.mod_unique _ _ (-1)); lia. }
  rewrite E. apply Z.bits_inj'. intros q Hq. bitspec. decb. cbn [andb].
  destruct (Z.ltb_spec q w); cbn [andb].
  - apply xorb_true_r.
  - rewrite xorb_false_r. apply (testbit_ulane w); assumption.
Qed.
Lemma abs_scalar w x mask : 0 < w -> ulane w x ->
  mask = (if 2 ^ (w - 1) <=? x then 2 ^ w - 1 else 0) ->
  Z.lxor ((x + mask) mod 2 ^ w) mask = Z.abs (to_s w x) mod 2 ^ w.
Proof.
  intros Hw Hx ->. unfold ulane in Hx. pose proof (pow2_split w Hw). pose proof (pow2_pos (w - 1) ltac:(lia)).
  unfold to_s. cbv zeta. rewrite (Z.mod_small x) by lia. destruct (Z.leb_spec (2 ^ (w - 1)) x).
  - replace (x <? 2 ^ (w - 1)) with false by lia.
    replace (x + (2 ^ w - 1)) with (x - 1 + 1 * 2 ^ w) by lia. rewrite Z.mod_add, (Z.mod_small (x - 1)) by lia.
    rewrite lxor_ones by (unfold ulane; lia). rewrite Z.mod_small by lia. lia.
  - replace (x <? 2 ^ (w - 1)) with true by lia. rewrite Z.add_0_r, Z.lxor_0_r. f_equal. lia.
Qed.
Lemma mask_srl w x : 0 < w -> ulane w x ->
  (0 - x / 2 ^ (w - 1)) mod 2 ^ w = if 2 ^ (w - 1) <=? x then 2 ^ w - 1 else 0.
Proof.
  intros Hw Hx. rewrite msb_bit, msb_leb by assumption. destruct (Z.testbit _ _); cbn [Z.b2z].
  - apply m1_mod. lia.
  - apply Z.mod_0_l. apply Z.pow_nonzero; lia.
Qed.
Lemma mask_sra w x : 0 < w -> ulane w x ->
  (to_s w x / 2 ^ (w - 1)) mod 2 ^ w = if 2 ^ (w - 1) <=? x then 2 ^ w - 1 else 0.
Proof.
  intros Hw Hx. unfold to_s. cbv zeta. unfold ulane in Hx. rewrite (Z.mod_small x) by lia.
  pose proof (pow2_split w Hw). pose proof (pow2_pos (w - 1) ltac:(lia)).
  destruct (Z.leb_spec (2 ^ (w - 1)) x).
  - replace (x <? 2 ^ (w - 1)) with false by lia.
    replace ((x - 2 ^ w) / 2 ^ (w - 1)) with (-1); [apply m1_mod; lia|]. apply (Z.div_unique _ _ _ (x - 2 ^ (w - 1))); lia.
  - replace (x <? 2 ^ (w - 1)) with true by lia. rewrite Z.div_small by lia. apply Z.mod_0_l. lia.
Qed.

Lemma abs_arith_lw n w : okw n w -> w <= 64 -> lw1 n w (abs_arith_shift n w) (fun x => Z.abs (to_s w x) mod 2 ^ w).
Proof.
  intros H W a Ha. pose proof H as (Hw & Hn & E). unfold abs_arith_shift, mm_xor. cbv zeta.
  pose proof (in_reg_sra n w a (w - 1) H) as Rm. destruct (lw_add n w H a _ Ha Rm) as [Rs Ls]. split.
  - apply in_reg_lxor; assumption.
  - intros i Hi. rewrite lane_lxor, Ls, lane_sra by (assumption || lia).
    pose proof (lane_range w i a ltac:(lia)) as Rl. apply abs_scalar; [lia|assumption|].
    apply mask_sra; [lia|assumption].
Qed.
Lemma abs_no_arith_lw e t : In t int_types -> (e = Sse2 \/ e = Sse42) ->
  lw1 (nb e) (bits t) (abs_no_arith_shift e t) (fun x => Z.abs (to_s (bits t) x) mod 2 ^ bits t).
Proof.
  intros H He a Ha. pose proof (okw_nb e t H) as O. pose proof O as (Hw & Hn & E).
  unfold abs_no_arith_shift, mm_xor, mm_zero. cbv zeta.
  destruct (x_shr_lw e t (bits t - 1) H ltac:(lia) a Ha) as [Rh Lh].
  destruct (lw_sub (nb e) (bits t) O 0 _ (in_reg_0 _ Hn) Rh) as [Rm Lm].
  destruct (lw_add (nb e) (bits t) O a _ Ha Rm) as [Rs Ls]. split.
  - apply in_reg_lxor; assumption.
  - intros i Hi. pose proof (lane_range (bits t) i a ltac:(lia)) as Rl.
    rewrite lane_lxor, Ls by (assumption || lia). apply abs_scalar; [lia|assumption|].
    rewrite Lm by assumption. cbv beta in Lh. rewrite Lh, lane_0 by (assumption || lia). apply mask_srl; [lia|assumption].
Qed.
Lemma mm_abs_lw n w : okw n w -> lw1 n w (mm_abs n w) (fun x => Z.abs (to_s w x) mod 2 ^ w).
Proof. intros. apply lanewise1_lw; [assumption|reflexivity]. Qed.
Lemma abs_blendv_lw : lw1 256 64 abs_blendv (fun x => Z.abs (to_s 64 x) mod 2 ^ 64).
Proof.
  intros a Ha. assert (O : okw 256 64) by okw. unfold abs_blendv, mm_zero.
  destruct (lw_sub 256 64 O 0 a (in_reg_0 256 ltac:(lia)) Ha) as [Rm Lm].
  split; [apply in_reg_build; assumption|]. intros i Hi. unfold mm_blendv. rewrite lane_buildn by assumption.
  rewrite Lm, lane_0 by (assumption || lia). pose proof (lane_range 64 i a ltac:(lia)) as R.
  unfold to_s. cbv zeta. rewrite (Z.mod_small (lane 64 i a)) by exact R.
  destruct (Z.leb_spec (2 ^ (64 - 1)) (lane 64 i a)).
  - replace (lane 64 i a <? 2 ^ (64 - 1)) with false by lia. rewrite Z.mod_mod by lia.
    replace (Z.abs (lane 64 i a - 2 ^ 64)) with (0 - lane 64 i a + 1 * 2 ^ 64) by lia. rewrite Z.mod_add by lia. reflexivity.
  - replace (lane 64 i a <? 2 ^ (64 - 1)) with true by lia. rewrite Z.abs_eq by lia. reflexivity.
Qed.
Lemma abs_sse42_lw t : In t int_types -> lw1 128 (bits t) (abs_sse42 t) (fun x => Z.abs (to_s (bits t) x) mod 2 ^ bits t).
Proof.
  intros H a Ha. unfold abs_sse42. destruct (bits t =? 64).
  - exact (abs_no_arith_lw Sse42 t H (or_intror eq_refl) a Ha).
  - apply mm_abs_lw; [ty_cases H; okw|assumption].
Qed.
Lemma x_abs_lw e t : In t int_types -> lw1 (nb e) (bits t) (x_abs e t) (fun x => Z.abs (cast t x) mod 2 ^ bits t).
Proof.
  intros H a Ha. pose proof (bits_pos t H) as Bp. unfold x_abs, cast. cbv zeta. destruct (is_signed t) eqn:Sg; cbn [negb].
  2:{ split; [exact Ha|]. intros i Hi. pose proof (lane_range (bits t) i a ltac:(lia)) as R.
      rewrite to_u_id by exact R. rewrite Z.abs_eq by lia. symmetry. apply Z.mod_small. exact R. }
  assert (O1 : okw 128 (bits t)) by (ty_cases H; okw). assert (O2 : okw 256 (bits t)) by (ty_cases H; okw).
  assert (O3 : okw 512 (bits t)) by (ty_cases H; okw).
  destruct e; cbn [nb] in *.
  - destruct (_ || _); [apply abs_arith_lw; assumption || lia|].
    exact (abs_no_arith_lw Sse2 t H (or_introl eq_refl) a Ha).
  - apply abs_sse42_lw; assumption.
  - apply (split1_lw 128 (bits t) (abs_sse42 t) _ O1 (abs_sse42_lw t H)); assumption.
  - destruct (Z.eqb_spec (bits t) 64) as [->|]; [apply abs_blendv_lw; assumption|apply mm_abs_lw; assumption].
  - destruct (wide t); [apply mm_abs_lw; assumption|].
    apply (split1_lw 256 (bits t) (mm_abs 256 (bits t)) _ O2 (mm_abs_lw 256 (bits t) O2)); assumption.
  - apply mm_abs_lw; assumption.
Qed.

(** ** Saturated arithmetic *)

Lemma saturate_clamp t z : ty_min t <= ty_max t -> saturate t z = clamp t z.
Proof. intros. unfold saturate, clamp. destruct (Z.ltb_spec z (ty_min t)), (Z.ltb_spec (ty_max t) z); lia. Qed.
Lemma min_le_max t : In t int_types -> ty_min t <= ty_max t.
Proof. intros H. pose proof (cast_in_ty t 0 H) as C. unfold in_ty in C. lia. Qed.
Lemma clamp_in t z : In t int_types -> in_ty t (clamp t z).
Proof. intros H. pose proof (min_le_max t H). unfold in_ty, clamp. lia. Qed.

Lemma as816_lw intr g e t : In t int_types ->
  (forall n, okw n (bits t) -> lw2 n (bits t) (intr n t) g) -> lw2 (nb e) (bits t) (adds_subs_8_16 intr e t) g.
Proof.
  intros H HI.
  assert (O1 : okw 128 (bits t)) by (ty_cases H; okw). assert (O2 : okw 256 (bits t)) by (ty_cases H; okw).
  assert (O3 : okw 512 (bits t)) by (ty_cases H; okw).
  intros a b Ha Hb. unfold adds_subs_8_16. destruct e; cbn [nb] in *; try (apply HI; assumption).
  - apply (split2_lw 128 (bits t) (intr 128 t) g O1 (HI 128 O1)); assumption.
  - apply (split2_lw 256 (bits t) (intr 256 t) g O2 (HI 256 O2)); assumption.
Qed.
Lemma mm_adds_lw n t : In t int_types -> okw n (bits t) ->
  lw2 n (bits t) (mm_adds n t) (fun x y => clamp t (cast t x + cast t y) mod 2 ^ bits t).
Proof.
  intros H O. apply lanewise2_lw; [assumption|]. intros. rewrite saturate_clamp by (apply min_le_max; assumption). reflexivity.
Qed.
Lemma mm_subs_lw n t : In t int_types -> okw n (bits t) ->
  lw2 n (bits t) (mm_subs n t) (fun x y => clamp t (cast t x - cast t y) mod 2 ^ bits t).
Proof.
  intros H O. apply lanewise2_lw; [assumption|]. intros. rewrite saturate_clamp by (apply min_le_max; assumption). reflexivity.
Qed.

(** the overflow test of the signed versions *)
Lemma lor_ulane w x y : 0 <= w -> ulane w x -> ulane w y -> ulane w (Z.lor x y).
Proof. intros. apply (in_reg_lor w); assumption. Qed.
Lemma adds_scalar w x y r m : 0 < w -> ulane w x -> ulane w y -> r = (x + y) mod 2 ^ w ->
  m = Z.lor (Z.lxor x y) (2 ^ w - 1 - Z.lxor y r) ->
  (if Z.testbit m (w - 1) then r else (2 ^ (w - 1) - 1 + Z.lor x y / 2 ^ (w - 1)) mod 2 ^ w)
  = Z.max (- 2 ^ (w - 1)) (Z.min (to_s w x + to_s w y) (2 ^ (w - 1) - 1)) mod 2 ^ w.
Proof.
  intros Hw Hx Hy Er Em. pose proof (pow2_split w Hw) as S2. pose proof (pow2_pos (w - 1) ltac:(lia)) as P.
  assert (Hr : ulane w r) by (subst r; apply Z.mod_pos_bound; lia).
  assert (Hyr : ulane w (Z.lxor y r)) by (apply (in_reg_lxor w); assumption || lia).
  rewrite <- (lxor_ones w (Z.lxor y r)) in Em by (assumption || lia).
  rewrite msb_bit by (try apply lor_ulane; assumption || lia).
  subst m. rewrite !Z.lor_spec, !Z.lxor_spec. rewrite tb_ones by lia. replace (0 <=? w - 1) with true by lia.
  replace (w - 1 <? w) with true by lia. cbn [andb].
  rewrite <- !msb_leb by assumption. unfold to_s. cbv zeta. unfold ulane in *.
  rewrite (Z.mod_small x), (Z.mod_small y) by lia.
  assert (Er' : r = x + y \/ r = x + y - 2 ^ w).
  { subst r. destruct (Z.lt_ge_cases (x + y) (2 ^ w)); [left; apply Z.mod_small; lia|right].
    symmetry. apply (Z.mod_unique _ _ 1); lia. }
  clear Er.
  assert (M : forall z q, 0 <= z + q * 2 ^ w < 2 ^ w -> z mod 2 ^ w = z + q * 2 ^ w).
  { intros z q Hz. rewrite <- (Z.mod_small (z + q * 2 ^ w) (2 ^ w) Hz). rewrite Z.mod_add by lia. reflexivity. }
  set (h := 2 ^ (w - 1)) in *. set (H2 := 2 ^ w) in *. clearbody h H2.
  destruct (Z.leb_spec h x), (Z.leb_spec h y), (Z.leb_spec h r); cbn [xorb orb Z.b2z];
    (destruct (Z.ltb_spec x h); [try lia|try lia]); (destruct (Z.ltb_spec y h); [try lia|try lia]);
    rewrite ?(M (h - 1 + 1) 0) by lia; rewrite ?(M (h - 1 + 0) 0) by lia;
    match goal with |- _ = ?z mod _ => first [ rewrite (M z 0) by lia | rewrite (M z 1) by lia ] end; lia.
Qed.

Lemma uty_bits t : bits (uty t) = bits t.
Proof. reflexivity. Qed.

Lemma adds_select_ok e t mask a b : In t int_types -> wide t = true -> is_signed t = true ->
  in_reg (nb e) mask -> in_reg (nb e) a -> in_reg (nb e) b ->
  selects (nb e) (bits t) (fun i => Z.testbit (lane (bits t) i mask) (bits t - 1)) a b (adds_select e t mask a b).
Proof.
  intros H W Sg Hm Ha Hb. pose proof (okw_nb e t H) as O. pose proof O as (Hw & Hn & E).
  assert (BL : selects (nb e) (bits t) (fun i => Z.testbit (lane (bits t) i mask) (bits t - 1)) a b
                 (mm_blendv (nb e) (bits t) b a mask)).
  { split; [apply in_reg_build; assumption|]. intros i Hi. unfold mm_blendv. rewrite lane_buildn by assumption.
    rewrite msb_leb by (try apply lane_range; lia).
    destruct (Z.testbit _ _); apply Z.mod_small; apply lane_range; lia. }
  assert (IE : selects (nb e) (bits t) (fun i => Z.testbit (lane (bits t) i mask) (bits t - 1)) a b
                 (x_if_else1 e t (x_to_logical e t (x_shr e (uty t) mask (bits t - 1))) a b)).
  { apply x_if_else1_ok; try assumption.
    destruct (x_shr_lw e (uty t) (bits t - 1) (uty_in t H) ltac:(rewrite uty_bits; lia) mask Hm) as [Rs Ls].
    rewrite uty_bits in Ls. unfold x_to_logical, mm_zero.
    eapply logical_ext; [apply x_ne_ok; [assumption|exact Rs|apply in_reg_0; assumption]|].
    intros i Hi. cbv beta. cbv beta in Ls. rewrite !elt_lane, Ls, lane_0 by (assumption || lia).
    pose proof (lane_range (bits t) i mask ltac:(lia)) as R. rewrite msb_bit by (assumption || lia).
    rewrite cast_inj_lane.
    - destruct (Z.testbit _ _); reflexivity.
    - assumption.
    - pose proof (pow2_split (bits t) ltac:(lia)). pose proof (pow2_pos (bits t - 1) ltac:(lia)).
      unfold ulane. destruct (Z.testbit _ _); cbn [Z.b2z]; lia.
    - apply ulane_0. lia. }
  unfold adds_select. destruct e; assumption.
Qed.

Lemma x_adds_lw e t : In t int_types ->
  lw2 (nb e) (bits t) (x_adds e t) (fun x y => clamp t (cast t x + cast t y) mod 2 ^ bits t).
Proof.
  intros H a b Ha Hb. pose proof (okw_nb e t H) as O. pose proof O as (Hw & Hn & E).
  unfold x_adds. destruct (wide t) eqn:W; cbn [negb].
  2:{ apply (as816_lw mm_adds (fun x y => clamp t (cast t x + cast t y) mod 2 ^ bits t)); try assumption.
      intros. apply mm_adds_lw; assumption. }
  destruct (is_signed t) eqn:Sg; cbn [negb]; cbv zeta.
  - set (u := uty t). assert (Hu : In u int_types) by (apply uty_in; assumption).
    assert (Bu : bits u = bits t) by reflexivity.
    destruct (x_add_lw e u Hu a b Ha Hb) as [Rr Lr]. rewrite Bu in Lr.
    set (ures := x_add e u a b) in *.
    unfold x_xorb, x_orb, mm_xor, mm_or.
    assert (Rxy : in_reg (nb e) (Z.lxor a b)) by (apply in_reg_lxor; assumption).
    assert (Ryr : in_reg (nb e) (Z.lxor b ures)) by (apply in_reg_lxor; assumption).
    assert (Ror : in_reg (nb e) (Z.lor a b)) by (apply in_reg_lor; assumption).
    destruct (x_shr_lw e u (bits t - 1) Hu ltac:(rewrite Bu; lia) _ Ror) as [Rz Lz]. rewrite Bu in Lz. cbv beta in Lz.
    assert (Rset : in_reg (nb e) (x_set1 e u (ty_max t))) by (apply in_reg_set1; exact O).
    destruct (x_add_lw e u Hu _ _ Rset Rz) as [Rmm Lmm]. rewrite Bu in Lmm.
    assert (Rn : in_reg (nb e) (x_notb e u (Z.lxor b ures))).
    { rewrite x_notb_eq by assumption. unfold in_reg in *. lia. }
    assert (Rm : in_reg (nb e) (Z.lor (Z.lxor a b) (x_notb e u (Z.lxor b ures)))) by (apply in_reg_lor; assumption).
    destruct (adds_select_ok e t _ ures _ H W Sg Rm Rr Rmm) as [R L]. split; [exact R|].
    intros i Hi. rewrite L by assumption. rewrite Lmm by assumption. rewrite Lz by assumption.
    rewrite !lane_lor, lane_lxor by lia.
    destruct (x_notb_lane e u (Z.lxor b ures) (bits t) i O Ryr Hi) as [_ Ln]. rewrite Ln, lane_lxor by lia.
    rewrite Lr by assumption. unfold x_set1. rewrite Bu, lane_set1 by assumption.
    pose proof (lane_range (bits t) i a ltac:(lia)) as Ra. pose proof (lane_range (bits t) i b ltac:(lia)) as Rb.
    pose proof (pow2_split (bits t) ltac:(lia)) as S2. pose proof (pow2_pos (bits t - 1) ltac:(lia)) as P1.
    unfold clamp, cast. rewrite Sg. unfold ty_min, ty_max. rewrite Sg.
    rewrite (Z.mod_small (2 ^ (bits t - 1) - 1)) by lia.
    apply (adds_scalar (bits t) _ _ _ _ ltac:(lia) Ra Rb eq_refl eq_refl).
  - destruct (x_add_lw e t H a b Ha Hb) as [Rr Lr]. set (ures := x_add e t a b) in *.
    assert (Rset : in_reg (nb e) (x_set1 e t (ty_max t))) by (apply in_reg_set1; exact O).
    destruct (x_if_else1_ok e t _ _ _ _ H Rset Rr (x_lt_ok e t ures a H Rr Ha)) as [R L].
    split; [exact R|]. intros i Hi. rewrite L by assumption. rewrite !elt_lane, Lr by assumption.
    unfold x_set1. rewrite lane_set1 by assumption.
    pose proof (lane_range (bits t) i a ltac:(lia)) as Ra. pose proof (lane_range (bits t) i b ltac:(lia)) as Rb.
    unfold clamp, cast. rewrite Sg. unfold ty_min, ty_max. rewrite Sg. unfold to_u.
    rewrite (Z.mod_small (lane (bits t) i a)), (Z.mod_small (lane (bits t) i b)) by assumption.
    rewrite Z.mod_mod by lia.
    pose proof (pow2_pos (bits t) ltac:(lia)) as P.
    set (x := lane (bits t) i a) in *. set (y := lane (bits t) i b) in *. clearbody x y.
    destruct (Z.lt_ge_cases (x + y) (2 ^ bits t)).
    + rewrite (Z.mod_small (x + y)) by lia. replace (x + y <? x) with false by lia.
      replace (Z.max 0 (Z.min (x + y) (2 ^ bits t - 1))) with (x + y) by lia. symmetry. apply Z.mod_small. lia.
    + replace ((x + y) mod 2 ^ bits t) with (x + y - 2 ^ bits t) by (apply (Z.mod_unique _ _ 1); lia).
      replace (x + y - 2 ^ bits t <? x) with true by lia. f_equal. lia.
Qed.

(** what [subs] returns: on signed 32- and 64-bit types it adds the wrapped opposite *)
Definition subs_result (t : ity) (x y : Z) : Z :=
  if wide t && is_signed t then clamp t (x + cast t (- y)) else clamp t (x - y).
Lemma x_subs_lw e t : In t int_types ->
  lw2 (nb e) (bits t) (x_subs e t) (fun x y => subs_result t (cast t x) (cast t y) mod 2 ^ bits t).
Proof.
  intros H a b Ha Hb. pose proof (okw_nb e t H) as O. pose proof O as (Hw & Hn & E).
  unfold x_subs, subs_result. destruct (wide t) eqn:W; cbn [negb andb].
  2:{ apply (as816_lw mm_subs (fun x y => clamp t (cast t x - cast t y) mod 2 ^ bits t)); try assumption.
      intros. apply mm_subs_lw; assumption. }
  destruct (is_signed t) eqn:Sg.
  - destruct (x_neg_lw e t H b Hb) as [Rn Ln]. destruct (x_adds_lw e t H a _ Ha Rn) as [R L].
    split; [exact R|]. intros i Hi. rewrite L, Ln by assumption. do 3 f_equal.
    rewrite cast_mod_pow by assumption. apply cast_congr.
    pose proof (pow_bits_nz t H) as NZ.
    rewrite <- !(Z.sub_0_l). rewrite (Zminus_mod 0 (cast t _)), cast_mod, <- Zminus_mod by assumption. reflexivity.
  - destruct (x_sub_lw e t H a b Ha Hb) as [Rs Ls].
    assert (Rset : in_reg (nb e) (x_set1 e t (ty_min t))) by (apply in_reg_set1; exact O).
    destruct (x_if_else1_ok e t _ _ _ _ H Rset Rs (x_gt_ok e t b a H Hb Ha)) as [R L].
    split; [exact R|]. intros i Hi. rewrite L by assumption. rewrite !elt_lane, Ls by assumption.
    unfold x_set1. rewrite lane_set1 by assumption.
    pose proof (lane_range (bits t) i a ltac:(lia)) as Ra. pose proof (lane_range (bits t) i b ltac:(lia)) as Rb.
    unfold clamp, cast. rewrite Sg. unfold ty_min, ty_max. rewrite Sg. unfold to_u.
    rewrite (Z.mod_small (lane (bits t) i a)), (Z.mod_small (lane (bits t) i b)) by assumption.
    destruct (Z.ltb_spec (lane (bits t) i a) (lane (bits t) i b)); f_equal; lia.
Qed.
