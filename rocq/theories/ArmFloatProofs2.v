(** Proofs for ArmFloat.v: neg, abs, min, max, rounding to integers, iota and the loop tails. *)
From Coq Require Import ZArith List Bool Lia ZifyBool.
From Verif Require Import CInt BitLemmas FloatSpec FloatProofs Fp16 ScalarOps ScalarSpec ScalarProofs CpuSimd RoundEven RoundEvenProofs X86Deg234 X86Arith X86ArithSpec X86LaneLemmas
  X86ArithProofs X86EmulProofs X86LogicProofs X86SelectProofs X86RedProofs X86FmaProofs X86Mem X86MemSpec X86MemProofs X86Cvt X86CvtSpec X86CvtProofs2 X86CvtProofs4 X86Float X86FloatSpec
  X86FloatProofs X86FloatProofs2 X86FloatProofs3 X86FloatProofs7 Arm ArmSpec ArmProofs ArmProofs2 ArmProofs3 ArmProofs4 ArmPermSpec ArmMem ArmMemSpec ArmMemProofs ArmMemProofs2
  ArmFloat ArmFloatSpec ArmFloatProofs.
Import ListNotations.
Open Scope Z_scope.

(** the lanes of [r] are those of [a] through [f] *)
Definition mapsf (e : aext) (t : fty) (f : Z -> Z) (a r : Z) : Prop :=
  in_reg (an e) r /\ forall i, 0 <= i < felems e t -> lane (fw t) i r = f (lane (fw t) i a).
Definition maps2f (e : aext) (t : fty) (f : Z -> Z -> Z) (a b r : Z) : Prop :=
  in_reg (an e) r /\ forall i, 0 <= i < felems e t -> lane (fw t) i r = f (lane (fw t) i a) (lane (fw t) i b).
Lemma pat_range t r i : 0 <= lane (fw t) i r < 2 ^ width (ff t).
Proof. rewrite ff_width. apply lane_range. pose proof (fw_pos t). lia. Qed.

Lemma v_1_maps e t f a : is_neon e = true -> (forall x, 0 <= x < 2 ^ fw t -> 0 <= f x < 2 ^ fw t) -> mapsf e t f a (v_1 (fw t) f a).
Proof.
  intros E F. unfold v_1, lanewise1. rewrite <- (an_neon e E). pose proof (okw_fa e t) as O. pose proof (fw_pos t). split; [apply in_reg_build; exact O|].
  intros i Hi. rewrite lane_buildn by assumption. apply Z.mod_small, F, lane_range. lia.
Qed.
Lemma v_2_maps e t f a b : is_neon e = true -> (forall x y, 0 <= x < 2 ^ fw t -> 0 <= y < 2 ^ fw t -> 0 <= f x y < 2 ^ fw t) -> maps2f e t f a b (v_2 (fw t) f a b).
Proof.
  intros E F. unfold v_2, lanewise2. rewrite <- (an_neon e E). pose proof (okw_fa e t) as O. pose proof (fw_pos t). split; [apply in_reg_build; exact O|].
  intros i Hi. rewrite lane_buildn by assumption. apply Z.mod_small, F; apply lane_range; lia.
Qed.
Lemma both1_maps u e t f a : (forall x, 0 <= x < 2 ^ fw t -> 0 <= f x < 2 ^ fw t) -> mapsf e t f a (both1 u e (fu t) f a).
Proof.
  intros F. destruct e as [| |b vq]; unfold both1; rewrite ?fu_bits; [apply v_1_maps; [reflexivity|exact F]..|]. pose proof (okw_fa (Sve b vq) t) as O. pose proof (fw_pos t).
  unfold sv_1_x. split; [apply in_reg_build; exact O|]. intros i Hi. rewrite lane_buildn by assumption.
  rewrite <- (fu_bits t) at 1. rewrite active_true by (apply fu_in || (rewrite fu_bits; exact Hi)). apply Z.mod_small, F, lane_range. lia.
Qed.
Lemma both2_maps u e t f a b : (forall x y, 0 <= x < 2 ^ fw t -> 0 <= y < 2 ^ fw t -> 0 <= f x y < 2 ^ fw t) -> maps2f e t f a b (both2 u e (fu t) f a b).
Proof.
  intros F. destruct e as [| |b' vq]; unfold both2; rewrite ?fu_bits; [apply v_2_maps; [reflexivity|exact F]..|]. pose proof (okw_fa (Sve b' vq) t) as O. pose proof (fw_pos t).
  unfold sv_2_x. split; [apply in_reg_build; exact O|]. intros i Hi. rewrite lane_buildn by assumption.
  rewrite <- (fu_bits t) at 1. rewrite active_true by (apply fu_in || (rewrite fu_bits; exact Hi)). apply Z.mod_small, F; apply lane_range; lia.
Qed.

(** ** Signs *)

Lemma fopp_opp f b : good_fmt f -> 0 <= b < 2 ^ width f -> decode f (fopp f b) = opposite (decode f b) /\ 0 <= fopp f b < 2 ^ width f.
Proof.
  intros G Hb. destruct (split_pat f b G Hb) as (s & p & Hp & Eb & Es). unfold fopp. rewrite Es.
  assert (E : (if s then b - 2 ^ (ebits f + mbits f) else b + 2 ^ (ebits f + mbits f)) = sign_bit f (negb s) + p) by (rewrite Eb; unfold sign_bit; destruct s; cbn [negb]; lia).
  rewrite E. split; [rewrite Eb; apply opposite_pat; assumption|]. unfold width. destruct (good_sizes f G) as (M & EB & _).
  replace (1 + ebits f + mbits f) with (1 + (ebits f + mbits f)) by ring. rewrite (Z.pow_add_r 2 1) by lia. unfold sign_bit. destruct s; cbn [negb]; lia.
Qed.
Lemma sign_f t : ebits (ff t) + mbits (ff t) = fw t - 1. Proof. destruct t; reflexivity. Qed.
Lemma hw_abs_ok t b : 0 <= b < 2 ^ fw t -> decode (ff t) (hw_abs t b) = absolute (decode (ff t) b) /\ 0 <= hw_abs t b < 2 ^ fw t.
Proof.
  intros Hb. unfold hw_abs. pose proof (fw_pos t). split.
  - rewrite <- ff_width in Hb. destruct (split_pat (ff t) b (ff_good t) Hb) as (s & p & Hp & Eb & _). rewrite Eb, <- absolute_pat by (apply ff_good || assumption).
    f_equal. unfold sign_bit. rewrite sign_f in *. destruct s; [rewrite Z.add_comm; rewrite <- (Z.mul_1_l (2 ^ (fw t - 1))) at 1; rewrite Z_mod_plus_full|]; rewrite Z.mod_small by lia; lia.
  - assert (2 ^ (fw t - 1) < 2 ^ fw t) by (apply Z.pow_lt_mono_r; lia). pose proof (Z.mod_pos_bound b (2 ^ (fw t - 1)) ltac:(apply pow2_pos; lia)). lia.
Qed.
Lemma s_abs64_range x : 0 <= x < 2 ^ 64 -> 0 <= s_absf MF64 x < 2 ^ 64.
Proof.
  intros Hx. unfold s_absf. destruct (fle _ _); [exact Hx|]. exact (proj2 (fopp_opp binary64 x (or_intror (or_introl eq_refl)) Hx)).
Qed.

Lemma decode_inf_inv f b s : good_fmt f -> 0 <= b < 2 ^ width f -> decode f b = FInf s -> b = sign_bit f s + inf_bits f.
Proof.
  intros G Hb D. destruct (split_pat f b G Hb) as (s' & p & Hp & Eb & _). destruct (good_sizes f G) as (M & E & _). rewrite Eb, decode_pattern in D by (assumption || lia).
  destruct (Z.eqb_spec (p / 2 ^ mbits f) (2 ^ ebits f - 1)) as [Q|]; [|discriminate]. destruct (Z.eqb_spec (p mod 2 ^ mbits f) 0) as [R|]; [|discriminate].
  injection D as ->. rewrite Eb. f_equal. unfold inf_bits. pose proof (Z.div_mod p (2 ^ mbits f) ltac:(pose proof (pow2_pos (mbits f)); lia)). rewrite Q, R in H. lia.
Qed.
Lemma decode_zero f s : good_fmt f -> decode f (sign_bit f s) = FFin s 0 /\ 0 <= sign_bit f s < 2 ^ width f.
Proof. intros [->|[->| ->]]; destruct s; (split; [reflexivity|]); vm_compute; split; congruence. Qed.

(** two patterns that compare equal are the same, or the two zeros *)
Lemma equal_pats f x y : good_fmt f -> 0 <= x < 2 ^ width f -> 0 <= y < 2 ^ width f -> compare (decode f x) (decode f y) = Equal ->
  x = y \/ exists s, x = sign_bit f s /\ y = sign_bit f (negb s).
Proof.
  intros G Hx Hy C. destruct (decode f x) as [|s|s m] eqn:Dx, (decode f y) as [|s'|s' m'] eqn:Dy; try discriminate; cbn [compare] in C;
    try (destruct s; discriminate); try (destruct s'; discriminate).
  - left. destruct s, s'; try discriminate; rewrite (decode_inf_inv f x _ G Hx Dx), (decode_inf_inv f y _ G Hy Dy); reflexivity.
  - destruct (Z.compare_spec (sval s m) (sval s' m')) as [E| |]; try discriminate. pose proof (mag_nonneg f G x Hx s m Dx). pose proof (mag_nonneg f G y Hy s' m' Dy).
    destruct (Bool.eqb_spec s s') as [<-|N].
    + left. assert (m = m') as <- by (destruct s; cbn [sval] in E; lia). exact (decode_inj f x y s m G Hx Hy Dx Dy).
    + right. exists s. assert (m = 0 /\ m' = 0) as [-> ->] by (destruct s, s'; try congruence; cbn [sval] in E; lia).
      assert (s' = negb s) as -> by (destruct s, s'; try congruence; reflexivity). destruct (decode_zero f s G) as [Z1 Z2]. destruct (decode_zero f (negb s) G) as [Z3 Z4].
      split; [exact (decode_inj f _ _ s 0 G Hx Z2 Dx Z1)|exact (decode_inj f _ _ (negb s) 0 G Hy Z4 Dy Z3)].
Qed.
Lemma lor_zeros f s : good_fmt f -> Z.lor (sign_bit f s) (sign_bit f (negb s)) = sign_bit f true /\ Z.land (sign_bit f s) (sign_bit f (negb s)) = sign_bit f false.
Proof. intros [->|[->| ->]]; destruct s; split; reflexivity. Qed.
Lemma hw_min_ok f x y : good_fmt f -> 0 <= x < 2 ^ width f -> 0 <= y < 2 ^ width f ->
  decode f (hw_min f x y) = least (decode f x) (decode f y) /\ 0 <= hw_min f x y < 2 ^ width f.
Proof.
  intros G Hx Hy. assert (NR : 0 <= nan_bits f < 2 ^ width f) by (destruct G as [->|[->| ->]]; vm_compute; split; congruence). unfold hw_min, least.
  destruct (compare (decode f x) (decode f y)) eqn:C.
  - assert (L : flt (decode f x) (decode f y) = true) by (rewrite flt_less, C; reflexivity).
    destruct (decode f x) eqn:Dx; [discriminate C|..]; (destruct (decode f y) eqn:Dy; [discriminate C|..]); rewrite L; split; assumption.
  - assert (L : flt (decode f x) (decode f y) = false) by (rewrite flt_less, C; reflexivity).
    assert (L' : flt (decode f y) (decode f x) = false) by (rewrite flt_greater, C; reflexivity).
    assert (E : decode f (Z.lor x y) = (if negative (decode f x) then decode f x else decode f y) /\ 0 <= Z.lor x y < 2 ^ width f).
    { destruct (equal_pats f x y G Hx Hy C) as [->|(s & -> & ->)]; [rewrite Z.lor_diag; split; [destruct (negative _); reflexivity|assumption]|].
      destruct (lor_zeros f s G) as [-> _]. destruct (decode_zero f true G) as [Z1 Z2]. split; [|exact Z2]. rewrite Z1.
      destruct (decode_zero f s G) as [-> _]. destruct (decode_zero f (negb s) G) as [-> _]. destruct s; reflexivity. }
    destruct (decode f x) eqn:Dx; [discriminate C|..]; (destruct (decode f y) eqn:Dy; [discriminate C|..]); rewrite L, L'; exact E.
  - assert (L : flt (decode f x) (decode f y) = false) by (rewrite flt_less, C; reflexivity).
    assert (L' : flt (decode f y) (decode f x) = true) by (rewrite flt_greater, C; reflexivity).
    destruct (decode f x) eqn:Dx; [discriminate C|..]; (destruct (decode f y) eqn:Dy; [discriminate C|..]); rewrite L, L'; split; assumption.
  - assert (N : decode f (nan_bits f) = FNaN) by (apply decode_nan; exact G).
    destruct (decode f x) as [|s|s m] eqn:Dx; [split; assumption|..]; (destruct (decode f y) as [|s'|s' m'] eqn:Dy; [split; assumption|..]); cbn [compare] in C; repeat match type of C with context [if ?b then _ else _] => destruct b | context [?a ?= ?b] => destruct (a ?= b) end; discriminate.
Qed.
Lemma hw_max_ok f x y : good_fmt f -> 0 <= x < 2 ^ width f -> 0 <= y < 2 ^ width f ->
  decode f (hw_max f x y) = greatest (decode f x) (decode f y) /\ 0 <= hw_max f x y < 2 ^ width f.
Proof.
  intros G Hx Hy. assert (NR : 0 <= nan_bits f < 2 ^ width f) by (destruct G as [->|[->| ->]]; vm_compute; split; congruence). unfold hw_max, greatest.
  destruct (compare (decode f x) (decode f y)) eqn:C.
  - assert (L : flt (decode f x) (decode f y) = true) by (rewrite flt_less, C; reflexivity).
    assert (L' : flt (decode f y) (decode f x) = false) by (rewrite flt_greater, C; reflexivity).
    destruct (decode f x) eqn:Dx; [discriminate C|..]; (destruct (decode f y) eqn:Dy; [discriminate C|..]); rewrite L, L'; split; assumption.
  - assert (L : flt (decode f x) (decode f y) = false) by (rewrite flt_less, C; reflexivity).
    assert (L' : flt (decode f y) (decode f x) = false) by (rewrite flt_greater, C; reflexivity).
    assert (E : decode f (Z.land x y) = (if negative (decode f x) then decode f y else decode f x) /\ 0 <= Z.land x y < 2 ^ width f).
    { destruct (equal_pats f x y G Hx Hy C) as [->|(s & -> & ->)]; [rewrite Z.land_diag; split; [destruct (negative _); reflexivity|assumption]|].
      destruct (lor_zeros f s G) as [_ ->]. destruct (decode_zero f false G) as [Z1 Z2]. split; [|exact Z2]. rewrite Z1.
      destruct (decode_zero f s G) as [-> _]. destruct (decode_zero f (negb s) G) as [-> _]. destruct s; reflexivity. }
    destruct (decode f x) eqn:Dx; [discriminate C|..]; (destruct (decode f y) eqn:Dy; [discriminate C|..]); rewrite L, L'; exact E.
  - assert (L' : flt (decode f y) (decode f x) = true) by (rewrite flt_greater, C; reflexivity).
    destruct (decode f x) eqn:Dx; [discriminate C|..]; (destruct (decode f y) eqn:Dy; [discriminate C|..]); rewrite L'; split; assumption.
  - assert (N : decode f (nan_bits f) = FNaN) by (apply decode_nan; exact G).
    destruct (decode f x) as [|s|s m] eqn:Dx; [split; assumption|..]; (destruct (decode f y) as [|s'|s' m'] eqn:Dy; [split; assumption|..]); cbn [compare] in C; repeat match type of C with context [if ?b then _ else _] => destruct b | context [?a ?= ?b] => destruct (a ?= b) end; discriminate.
Qed.

Lemma a_negf_ok u e t a : mapsf e t (fopp (ff t)) a (a_negf u e t a).
Proof. apply both1_maps. intros x Hx. rewrite <- ff_width in *. apply fopp_opp; [apply ff_good|exact Hx]. Qed.
Lemma a_absf_ok u e t a : struct64 e t = false -> mapsf e t (hw_abs t) a (a_absf u e t a).
Proof. intros S. unfold a_absf. rewrite S. apply both1_maps. intros x Hx. apply hw_abs_ok. exact Hx. Qed.
Lemma a_absf_64 u a : mapsf Neon128 F64 (s_absf MF64) a (a_absf u Neon128 F64 a).
Proof. apply (v_1_maps Neon128 F64); [reflexivity|]. exact s_abs64_range. Qed.
Lemma a_minf_ok u e t a b : struct64 e t = false -> maps2f e t (hw_min (ff t)) a b (a_minf u e t a b).
Proof. intros S. unfold a_minf. rewrite S. apply both2_maps. intros x y Hx Hy. rewrite <- ff_width in *. apply hw_min_ok; [apply ff_good|assumption..]. Qed.
Lemma a_maxf_ok u e t a b : struct64 e t = false -> maps2f e t (hw_max (ff t)) a b (a_maxf u e t a b).
Proof. intros S. unfold a_maxf. rewrite S. apply both2_maps. intros x y Hx Hy. rewrite <- ff_width in *. apply hw_max_ok; [apply ff_good|assumption..]. Qed.
Lemma a_minf_64 u a b : maps2f Neon128 F64 (s_minf MF64) a b (a_minf u Neon128 F64 a b).
Proof. apply (v_2_maps Neon128 F64); [reflexivity|]. intros x y Hx Hy. unfold s_minf. destruct (flt _ _); assumption. Qed.
Lemma a_maxf_64 u a b : maps2f Neon128 F64 (s_maxf MF64) a b (a_maxf u Neon128 F64 a b).
Proof. apply (v_2_maps Neon128 F64); [reflexivity|]. intros x y Hx Hy. unfold s_maxf. destruct (flt _ _); assumption. Qed.

(** ** Rounding *)

Definition fits_allf (e : aext) (t : fty) (P : fmt -> Z -> Z -> Prop) (a r : Z) : Prop :=
  in_reg (an e) r /\ forall i, 0 <= i < felems e t -> rounded (ff t) (P (ff t)) (fvalue t a i) (fvalue t r i).
Lemma mapsf_fits e t f (P : fmt -> Z -> Z -> Prop) a r : (forall b, 0 <= b < 2 ^ width (ff t) -> X86FloatProofs2.fits (ff t) b (P (ff t)) (f b)) -> mapsf e t f a r -> fits_allf e t P a r.
Proof. intros F [R L]. split; [exact R|]. intros i Hi. rewrite !fvalue_lane, L by exact Hi. apply F. apply pat_range. Qed.
Lemma a_roundf_ok u scalar hw (P : fmt -> Z -> Z -> Prop) e t a :
  (forall f b, good_fmt f -> 0 <= b < 2 ^ width f -> X86FloatProofs2.fits f b (P f) (scalar f b)) ->
  (forall f b, good_fmt f -> 0 <= b < 2 ^ width f -> X86FloatProofs2.fits f b (P f) (hw f b)) ->
  fits_allf e t P a (a_roundf u scalar hw e t a).
Proof.
  intros A B. unfold a_roundf. destruct (is_neon128 e) eqn:E.
  - apply (mapsf_fits e t (scalar (ff t))); [intros b Hb; apply A; [apply ff_good|exact Hb]|]. apply v_1_maps; [destruct e; try discriminate; reflexivity|].
    intros x Hx. rewrite <- ff_width in *. apply A; [apply ff_good|exact Hx].
  - apply (mapsf_fits e t (hw (ff t))); [intros b Hb; apply B; [apply ff_good|exact Hb]|]. apply both1_maps. intros x Hx. rewrite <- ff_width in *.
    apply B; [apply ff_good|exact Hx].
Qed.
Lemma a_floorf_ok u e t a : fits_allf e t down a (a_floorf u e t a).
Proof. apply a_roundf_ok; intros f b G Hb; apply floor_fits; assumption. Qed.
Lemma a_ceilf_ok u e t a : fits_allf e t up a (a_ceilf u e t a).
Proof. apply a_roundf_ok; intros f b G Hb; apply ceil_fits; assumption. Qed.
Lemma a_truncf_ok u e t a : fits_allf e t toward_zero a (a_truncf u e t a).
Proof. apply a_roundf_ok; intros f b G Hb; [apply trunc_fits|apply hw_trunc_fits]; assumption. Qed.
Lemma a_round_to_evenf_ok u e t a : fits_allf e t nearest a (a_round_to_evenf u e t a).
Proof. apply a_roundf_ok; intros f b G Hb; [apply even_fits|apply hw_nearest_fits]; assumption. Qed.

(** ** Small integers *)

Lemma small_float t z : 0 <= z <= 2 ^ 10 -> decode (ff t) (float_of_int (ff t) z) = FFin false (z * one (ff t)) /\ 0 <= float_of_int (ff t) z < 2 ^ fw t.
Proof.
  intros Hz. unfold float_of_int. rewrite (proj2 (Z.ltb_ge z 0)), (Z.abs_eq z) by lia. rewrite <- (ff_width t). apply encode_exact; [apply ff_good| |].
  - assert (2 ^ 10 < 2 ^ (mbits (ff t) + 1)) by (destruct t; vm_compute; reflexivity). lia.
  - destruct t; vm_compute; split; discriminate.
Qed.
Lemma const16 : forallb (fun k => (f32_to_u16 (float_of_int binary32 k) =? float_of_int binary16 k)) (map Z.of_nat (seq 0 129)) = true.
Proof. vm_compute. reflexivity. Qed.
Lemma float_const_eq t z : 0 <= z <= 128 -> float_const t z = float_of_int (ff t) z.
Proof.
  intros Hz. destruct t; try reflexivity. cbn [float_const ff]. pose proof const16 as C. rewrite forallb_forall in C. apply Z.eqb_eq, C. apply in_map_iff.
  exists (Z.to_nat z). split; [lia|]. apply in_seq. lia.
Qed.
Lemma compare_small t i d : 0 <= i <= 2 ^ 10 -> 0 <= d <= 2 ^ 10 ->
  is (compare (decode (ff t) (float_of_int (ff t) i)) (decode (ff t) (float_of_int (ff t) d))) Less = (i <? d).
Proof.
  intros Hi Hd. destruct (small_float t i Hi) as [-> _]. destruct (small_float t d Hd) as [-> _]. pose proof (one_pos (ff t) (ff_good t)).
  cbn [compare sval]. destruct (Z.compare_spec (i * one (ff t)) (d * one (ff t))); cbn [is]; destruct (Z.ltb_spec i d); try reflexivity; nia.
Qed.
Lemma felems_arch e t : architectural e -> 0 < felems e t <= 128.
Proof.
  intros A. unfold architectural, felems in *. pose proof (okw_fa e t) as (O1 & O2 & O3). pose proof (fw_pos t). pose proof (an_pos e). split; [nia|].
  apply Z.div_le_upper_bound; lia.
Qed.
Lemma a_iotaf_ok u e t : architectural e -> fvector e t (a_iotaf u e t) (fun i x => x = float_of_int (ff t) i).
Proof.
  intros A. pose proof (okw_fa e t) as O. pose proof (felems_arch e t A) as L. pose proof (fw_pos t).
  assert (N : is_neon e = true -> fvector e t (build (fw t) (nlanes 128 (fw t)) (fun i => float_of_int (ff t) i)) (fun i x => x = float_of_int (ff t) i)).
  { intros E. rewrite <- (an_neon e E). split; [apply in_reg_build; exact O|]. intros i Hi. rewrite fpat_lane, lane_buildn by assumption.
    apply Z.mod_small, small_float. lia. }
  destruct e as [| |b vq]; [apply N; reflexivity..|]. unfold a_iotaf, sv_1_x. split; [apply in_reg_build; exact O|]. intros i Hi. rewrite fpat_lane, lane_buildn by assumption.
  rewrite <- (fu_bits t) at 1. rewrite active_true by (apply fu_in || (rewrite fu_bits; exact Hi)). unfold sv_index. rewrite lane_buildn by assumption.
  rewrite Z.mul_1_r. assert (i < 2 ^ (fw t - 1)) by (assert (2 ^ 15 <= 2 ^ (fw t - 1)) by (apply Z.pow_le_mono_r; lia); lia).
  rewrite (Z.mod_small i) by (assert (2 ^ (fw t - 1) < 2 ^ fw t) by (apply Z.pow_lt_mono_r; lia); lia). rewrite to_s_small by lia.
  apply Z.mod_small, small_float. lia.
Qed.
Lemma a_set1lf_ok e t x : native_logicals e -> alogical e (fu t) (a_set1lf e t x) (fun _ => negb (x =? 0)).
Proof. intros N. apply a_set1l_ok; [apply fu_in|exact N]. Qed.
Lemma a_tailf_ok u e t i k : architectural e -> native_logicals e -> k <= i \/ in_ty i32 (k - i) ->
  exists l, a_mask_for_loop_tailf u e t i k = Some l /\ alogical e (fu t) l (fun j => i + j <? k).
Proof.
  intros A N B. unfold a_mask_for_loop_tailf. pose proof (felems_arch e t A) as FE. destruct (Z.leb_spec k i) as [Hk|Hk].
  - eexists. split; [reflexivity|]. eapply alogical_ext; [apply a_set1lf_ok; exact N|]. intros j Hj. cbn beta. destruct (Z.ltb_spec (i + j) k); [lia|reflexivity].
  - assert (I : in_ty i32 (k - i)) by (destruct B; [lia|assumption]). rewrite carith_fits by (assumption || (unfold int_types; cbn; tauto)). cbn [bind].
    rewrite a_len_ok by (apply fu_in || exact A). rewrite fu_bits. fold (felems e t). destruct (Z.ltb_spec (k - i) (felems e t)) as [Hd|Hd].
    + eexists. split; [reflexivity|]. rewrite float_const_eq by lia. destruct (a_iotaf_ok u e t A) as [_ I2].
      destruct (a_set1f_ok e t (float_of_int (ff t) (k - i))) as [_ S]; [apply small_float; lia|].
      eapply alogical_ext; [apply a_ltf_ok|]. intros j Hj. rewrite fu_bits in Hj. fold (felems e t) in Hj. cbn beta. unfold frel, fvalue. rewrite I2, S by exact Hj.
      rewrite compare_small by lia. destruct (Z.ltb_spec j (k - i)), (Z.ltb_spec (i + j) k); reflexivity || lia.
    + eexists. split; [reflexivity|]. eapply alogical_ext; [apply a_set1lf_ok; exact N|]. intros j Hj. rewrite fu_bits in Hj. fold (felems e t) in Hj. cbn beta.
      destruct (Z.ltb_spec (i + j) k); [reflexivity|lia].
Qed.
