(** Proofs for X86Float.v: neg, abs, min, max and rounding to integers. *)
From Coq Require Import ZArith List Bool Lia ZifyBool.
From Verif Require Import CInt BitLemmas FloatSpec FloatProofs Fp16 ScalarOps ScalarSpec ScalarProofs RoundEven RoundEvenProofs X86Deg234 X86Arith X86ArithSpec X86LaneLemmas
  X86ArithProofs X86EmulProofs X86LogicProofs X86SelectProofs X86RedProofs X86Mem X86MemSpec X86MemProofs X86MemProofs2 X86Cvt X86CvtSpec X86CvtProofs
  X86CvtProofs2 X86Float X86FloatSpec X86FloatProofs.
Open Scope Z_scope.

Lemma mfmt_good t : good_fmt (mfmt t). Proof. destruct t; [left|left|right; left]; reflexivity. Qed.
Lemma mfmt_width t : is_float t = true -> width (mfmt t) = mw t. Proof. intros F. fcase t F; reflexivity. Qed.
Lemma lane_pat t r i : is_float t = true -> 0 <= lane (mw t) i r < 2 ^ width (mfmt t).
Proof. intros F. rewrite mfmt_width by exact F. apply lane_range. fcase t F; cbn; lia. Qed.

(** ** Signs *)

Lemma split_pat f b : good_fmt f -> 0 <= b < 2 ^ width f -> exists s p, 0 <= p < 2 ^ (ebits f + mbits f) /\ b = sign_bit f s + p /\ sign_of f b = s.
Proof.
  intros G Hb. destruct (good_sizes f G) as (M & E & _).
  destruct (decode_split f b ltac:(lia) E Hb) as (s & p & Hp & Eb & Es & _). exists s, p. auto.
Qed.
Lemma opposite_pat f s p : good_fmt f -> 0 <= p < 2 ^ (ebits f + mbits f) -> decode f (sign_bit f (negb s) + p) = opposite (decode f (sign_bit f s + p)).
Proof.
  intros G Hp. destruct (good_sizes f G) as (M & E & _). rewrite !decode_pattern by (assumption || lia).
  destruct (_ =? _); [destruct (_ =? _)|]; reflexivity.
Qed.
Lemma absolute_pat f s p : good_fmt f -> 0 <= p < 2 ^ (ebits f + mbits f) -> decode f (sign_bit f false + p) = absolute (decode f (sign_bit f s + p)).
Proof.
  intros G Hp. destruct (good_sizes f G) as (M & E & _). rewrite !decode_pattern by (assumption || lia).
  destruct (_ =? _); [destruct (_ =? _)|]; reflexivity.
Qed.
Lemma sign_pow t : is_float t = true -> sign_mask t = 2 ^ (mw t - 1) /\ abs_mask t = 2 ^ (mw t - 1) - 1 /\ ebits (mfmt t) + mbits (mfmt t) = mw t - 1 /\ 0 < mw t.
Proof. intros F. fcase t F; repeat split; reflexivity. Qed.

Lemma lxor_sign k s p : 0 <= k -> 0 <= p < 2 ^ k -> Z.lxor (2 ^ k) ((if s : bool then 2 ^ k else 0) + p) = (if s then 0 else 2 ^ k) + p.
Proof.
  intros Hk Hp.
  assert (L : forall q, 0 <= q < 2 ^ k -> Z.lxor (2 ^ k) q = 2 ^ k + q).
  { intros q Hq. assert (A : Z.land (2 ^ k) q = 0).
    { apply Z.bits_inj'. intros n Hn. rewrite Z.land_spec, Z.bits_0, Z.pow2_bits_eqb by lia. destruct (Z.eqb_spec k n) as [->|]; [|reflexivity].
      rewrite <- (Z.mod_small q (2 ^ n)) by lia. rewrite Z.mod_pow2_bits_high by lia. reflexivity. }
    rewrite Z.add_nocarry_lxor by exact A. reflexivity. }
  destruct s; [|apply L; assumption]. rewrite <- (L p Hp). rewrite <- Z.lxor_assoc, Z.lxor_nilpotent, Z.lxor_0_l. lia.
Qed.

Lemma x_negf_ok e t a : is_float t = true -> in_reg (nb e) a ->
  in_reg (nb e) (x_negf e t a) /\ forall i, 0 <= i < nb e / mw t -> lane (mw t) i (x_negf e t a) = fopp (mfmt t) (lane (mw t) i a).
Proof.
  intros F Ha. pose proof (okw_f e t F) as O. destruct (float_in t F) as (H & E & _). destruct (sign_pow t F) as (S1 & _ & S3 & Hw).
  unfold x_negf, x_xorb, mm_xor, x_set1. rewrite E. pose proof O as (_ & Hn & _). split.
  - apply in_reg_lxor; [assumption|apply in_reg_build; assumption|assumption].
  - intros i Hi. rewrite lane_lxor, lane_set1 by (assumption || lia). rewrite S1.
    pose proof (pow2_pos (mw t - 1) ltac:(lia)) as PP. assert (P2 : 2 ^ mw t = 2 * 2 ^ (mw t - 1)) by (rewrite <- Z.pow_succ_r by lia; f_equal; lia).
    rewrite (Z.mod_small (2 ^ (mw t - 1))) by lia.
    destruct (split_pat (mfmt t) (lane (mw t) i a) (mfmt_good t) (lane_pat t a i F)) as (s & p & Hp & Eb & Es).
    unfold fopp. rewrite Es, Eb. unfold sign_bit. rewrite S3 in *. rewrite lxor_sign by lia. destruct s; lia.
Qed.
Lemma fopp_opposite t b : is_float t = true -> 0 <= b < 2 ^ mw t -> decode (mfmt t) (fopp (mfmt t) b) = opposite (decode (mfmt t) b).
Proof.
  intros F Hb. rewrite <- mfmt_width in Hb by exact F. destruct (split_pat (mfmt t) b (mfmt_good t) Hb) as (s & p & Hp & Eb & Es).
  unfold fopp. rewrite Es, Eb. rewrite <- opposite_pat by (apply mfmt_good || assumption). f_equal. unfold sign_bit. destruct s; cbn [negb]; lia.
Qed.

Lemma x_absf_ok e t a : is_float t = true -> in_reg (nb e) a ->
  in_reg (nb e) (x_absf e t a) /\ forall i, 0 <= i < nb e / mw t -> lane (mw t) i (x_absf e t a) = lane (mw t) i a mod 2 ^ (mw t - 1).
Proof.
  intros F Ha. pose proof (okw_f e t F) as O. destruct (float_in t F) as (H & E & _). destruct (sign_pow t F) as (_ & S2 & S3 & Hw).
  unfold x_absf, x_andb, mm_and, x_set1. rewrite E. pose proof O as (_ & Hn & _). split.
  - apply in_reg_land; [assumption|assumption|apply in_reg_build; assumption].
  - intros i Hi. rewrite lane_land, lane_set1 by (assumption || lia). rewrite S2.
    pose proof (pow2_pos (mw t - 1) ltac:(lia)) as PP. assert (P2 : 2 ^ mw t = 2 * 2 ^ (mw t - 1)) by (rewrite <- Z.pow_succ_r by lia; f_equal; lia).
    rewrite (Z.mod_small (2 ^ (mw t - 1) - 1)) by lia. rewrite <- Z.land_ones by lia. rewrite Z.ones_equiv. reflexivity.
Qed.
Lemma mod_absolute t b : is_float t = true -> 0 <= b < 2 ^ mw t -> decode (mfmt t) (b mod 2 ^ (mw t - 1)) = absolute (decode (mfmt t) b).
Proof.
  intros F Hb. rewrite <- mfmt_width in Hb by exact F. destruct (split_pat (mfmt t) b (mfmt_good t) Hb) as (s & p & Hp & Eb & Es).
  destruct (sign_pow t F) as (_ & _ & S3 & Hw). rewrite Eb. rewrite <- absolute_pat by (apply mfmt_good || assumption). f_equal. unfold sign_bit. rewrite S3 in *.
  destruct s; [rewrite Z.add_comm; rewrite <- (Z.mul_1_l (2 ^ (mw t - 1))) at 1; rewrite Z_mod_plus_full|]; rewrite Z.mod_small by lia; lia.
Qed.

Lemma x_minf_ok e t a b : is_float t = true ->
  in_reg (nb e) (x_minf e t a b) /\ forall i, 0 <= i < nb e / mw t ->
    lane (mw t) i (x_minf e t a b) = if is (rel t a b i) Less then lane (mw t) i a else lane (mw t) i b.
Proof.
  intros F. pose proof (okw_f e t F) as O. unfold x_minf, mm_minf, lanewise2. split; [apply in_reg_build; assumption|].
  intros i Hi. rewrite lane_buildn by assumption. unfold rel. rewrite !value_lane, flt_less. pose proof O as (Hw & _).
  destruct (is _ _); apply Z.mod_small, lane_range; lia.
Qed.
Lemma flt_greater x y : flt y x = is (compare x y) Greater.
Proof. exact (is_greater x y). Qed.
Lemma x_maxf_ok e t a b : is_float t = true ->
  in_reg (nb e) (x_maxf e t a b) /\ forall i, 0 <= i < nb e / mw t ->
    lane (mw t) i (x_maxf e t a b) = if is (rel t a b i) Greater then lane (mw t) i a else lane (mw t) i b.
Proof.
  intros F. pose proof (okw_f e t F) as O. unfold x_maxf, mm_maxf, lanewise2. split; [apply in_reg_build; assumption|].
  intros i Hi. rewrite lane_buildn by assumption. unfold rel. rewrite !value_lane, flt_greater. pose proof O as (Hw & _).
  destruct (is _ _); apply Z.mod_small, lane_range; lia.
Qed.

(** ** Rounding *)

Lemma good_gen f : good_fmt f -> 1 <= mbits f /\ 3 <= ebits f /\ mbits f + 3 <= 2 ^ (ebits f - 1).
Proof. intros [->|[->| ->]]; cbn; repeat split; lia. Qed.
Lemma one_pos f : good_fmt f -> 0 < one f.
Proof. intros G. destruct (good_sizes f G) as (_ & _ & S & _). rewrite <- scale_one. apply pow2_pos. lia. Qed.

Section R.
Variable f : fmt.
Hypothesis G : good_fmt f.
Variable b : Z.
Hypothesis Hb : 0 <= b < 2 ^ width f.

Lemma mag_nonneg s m : decode f b = FFin s m -> 0 <= m.
Proof.
  intros D. destruct (good_gen f G) as (HM & HE & HW). destruct (finite_pattern f HM HE b s m Hb D) as (p & Hp & -> & _).
  apply vmag_nonneg; lia.
Qed.
Definition fits (P : Z -> Z -> Prop) (r : Z) : Prop := rounded f P (decode f b) (decode f r) /\ 0 <= r < 2 ^ width f.

Lemma floor_fits : fits (down f) (ffloor f b).
Proof.
  destruct (good_gen f G) as (HM & HE & HW). pose proof (one_pos f G) as P1. destruct (decode f b) as [|s|s m] eqn:D.
  - unfold fits, ffloor, rounded. rewrite D. auto.
  - unfold fits, ffloor, rounded. rewrite D. auto.
  - destruct (floor_ceil f HM HE HW b s m Hb D) as [(mf & Df & Ef & Rf) _]. split; [|exact Rf]. rewrite D, Df. exists mf, (sval s m / one f).
    split; [reflexivity|]. split; [exact Ef|]. unfold down. pose proof (Z.div_mod (sval s m) (one f) ltac:(lia)). pose proof (Z.mod_pos_bound (sval s m) (one f) P1). lia.
Qed.
Lemma ceil_fits : fits (up f) (fceil f b).
Proof.
  destruct (good_gen f G) as (HM & HE & HW). pose proof (one_pos f G) as P1. destruct (decode f b) as [|s|s m] eqn:D.
  - unfold fits, fceil, rounded. rewrite D. auto.
  - unfold fits, fceil, rounded. rewrite D. auto.
  - destruct (floor_ceil f HM HE HW b s m Hb D) as [_ (mf & Df & Ef & Rf)]. split; [|exact Rf]. rewrite D, Df. exists mf, (- (- sval s m / one f)).
    split; [reflexivity|]. split; [exact Ef|]. unfold up. pose proof (Z.div_mod (- sval s m) (one f) ltac:(lia)). pose proof (Z.mod_pos_bound (- sval s m) (one f) P1). lia.
Qed.
Lemma down_zero r : (forall s m, decode f b = FFin s m -> 0 <= sval s m) -> fits (down f) r -> fits (toward_zero f) r.
Proof.
  intros N [R Rr]. split; [|exact Rr]. unfold rounded in *. destruct (decode f b) as [|s|s m]; try exact R. destruct R as (m' & k & E1 & E2 & E3). exists m', k.
  split; [exact E1|]. split; [exact E2|]. specialize (N s m eq_refl). pose proof (one_pos f G). unfold down, toward_zero in *.
  assert (0 <= k) by nia. rewrite !Z.abs_eq by assumption. split; [exact E3|nia].
Qed.
Lemma up_zero r : (forall s m, decode f b = FFin s m -> sval s m <= 0) -> fits (up f) r -> fits (toward_zero f) r.
Proof.
  intros N [R Rr]. split; [|exact Rr]. unfold rounded in *. destruct (decode f b) as [|s|s m]; try exact R. destruct R as (m' & k & E1 & E2 & E3). exists m', k.
  split; [exact E1|]. split; [exact E2|]. specialize (N s m eq_refl). pose proof (one_pos f G). unfold up, toward_zero in *.
  assert (k <= 0) by nia. rewrite !Z.abs_neq by assumption. split; [nia|nia].
Qed.
Lemma trunc_fits : fits (toward_zero f) (ftrunc f b).
Proof.
  unfold ftrunc. assert (D0 : decode f 0 = FFin false 0) by (destruct G as [->|[->| ->]]; reflexivity). rewrite D0.
  destruct (fle _ _) eqn:L.
  - apply down_zero; [|apply floor_fits]. intros s m D. rewrite D in L. cbn [fle sval] in L. change (sval false 0) with 0 in L. lia.
  - apply up_zero; [|apply ceil_fits]. intros s m D. rewrite D in L. cbn [fle sval] in L. change (sval false 0) with 0 in L. lia.
Qed.
Lemma hw_trunc_fits : fits (toward_zero f) (hw_trunc f b).
Proof.
  destruct (decode f b) as [|s|s m] eqn:D.
  - unfold fits, hw_trunc, rounded. rewrite D. auto.
  - unfold fits, hw_trunc, rounded. rewrite D. auto.
  - pose proof (mag_nonneg s m D) as Hm. pose proof (one_pos f G) as P1. assert (Q : 0 <= m / one f) by (apply Z.div_pos; lia). destruct s.
    + replace (hw_trunc f b) with (fceil f b).
      * apply up_zero; [|apply ceil_fits]. intros s' m' D'. rewrite D in D'. injection D' as <- <-. cbn [sval]. lia.
      * unfold hw_trunc, fceil. rewrite D. cbn [sval]. change (2 ^ one_exp f) with (one f). rewrite scale_one. rewrite Z.opp_involutive. f_equal. lia.
    + replace (hw_trunc f b) with (ffloor f b).
      * apply down_zero; [|apply floor_fits]. intros s' m' D'. rewrite D in D'. injection D' as <- <-. cbn [sval]. lia.
      * unfold hw_trunc, ffloor. rewrite D. cbn [sval]. change (2 ^ one_exp f) with (one f). rewrite scale_one. f_equal. lia.
Qed.
Lemma even_fits : fits (nearest f) (round_to_even f b).
Proof.
  destruct (good_gen f G) as (HM & HE & HW). destruct (decode f b) as [|s|s m] eqn:D.
  - rewrite round_to_even_special_bits by (rewrite D; discriminate). unfold fits, rounded. rewrite D. auto.
  - rewrite round_to_even_special_bits by (rewrite D; discriminate). unfold fits, rounded. rewrite D. auto.
  - split; [|apply (round_to_even_range f HM HE HW b s m Hb D)].
    destruct (round_to_even_l f HM HE HW b s m Hb D) as (n & Dn & Hn & N1 & N2). rewrite D, Dn. change (2 ^ one_exp f) with (one f) in *.
    exists (n * one f), (sval s n). split; [reflexivity|]. split; [destruct s; cbn [sval]; lia|]. unfold nearest.
    assert (E : Z.abs (sval s n * one f - sval s m) = Z.abs (n * one f - m)) by (destruct s; cbn [sval]; lia). rewrite E. split; [exact N1|].
    intros H. destruct s; cbn [sval]; [rewrite Z.even_opp|]; auto.
Qed.
Lemma hw_nearest_fits : fits (nearest f) (hw_nearest f b).
Proof.
  destruct (decode f b) as [|s|s m] eqn:D.
  - unfold fits, hw_nearest, rounded. rewrite D. auto.
  - unfold fits, hw_nearest, rounded. rewrite D. auto.
  - pose proof (mag_nonneg s m D) as Hm. pose proof (one_pos f G) as P1. set (q := m / one f). set (r := m mod one f).
    assert (Eq : m = one f * q + r) by (apply Z.div_mod; lia). assert (Hr : 0 <= r < one f) by (apply Z.mod_pos_bound; lia).
    assert (Q : 0 <= q) by (apply Z.div_pos; lia).
    assert (F0 : encode f s (q * one f) 0 = if s then fceil f b else ffloor f b).
    { unfold fceil, ffloor. rewrite D. change (2 ^ one_exp f) with (one f). destruct s; cbn [sval]; [rewrite Z.opp_involutive|]; fold q; f_equal; lia. }
    assert (F1 : r <> 0 -> encode f s ((q + 1) * one f) 0 = if s then ffloor f b else fceil f b).
    { intros Nr. assert (- m / one f = - (q + 1)) as E by (symmetry; apply (Z.div_unique _ _ _ (one f - r)); lia).
      unfold fceil, ffloor. rewrite D. change (2 ^ one_exp f) with (one f). destruct s; cbn [sval]; rewrite E; f_equal; lia. }
    assert (N : rne m (scale f) = q /\ 2 * r <= one f /\ (2 * r = one f -> Z.even q = true) \/
                rne m (scale f) = q + 1 /\ one f <= 2 * r /\ (2 * r = one f -> Z.even (q + 1) = true)).
    { unfold rne. rewrite scale_one. fold q r. destruct (Z.ltb_spec (2 * r) (one f)); [left; split; [reflexivity|split; [lia|intros; exfalso; lia]]|]. destruct (Z.ltb_spec (one f) (2 * r)); [right; split; [reflexivity|split; [lia|intros; exfalso; lia]]|].
      destruct (Z.even q) eqn:Ev; [left; split; [reflexivity|split; [lia|intros _; reflexivity]]|right]. split; [reflexivity|split; [lia|intros _]].
      rewrite Z.add_1_r, Z.even_succ, <- Z.negb_even, Ev. reflexivity. }
    unfold fits, hw_nearest. rewrite D, scale_one.
    destruct floor_fits as [FF FR]. destruct ceil_fits as [CF CR]. unfold rounded, down, up in FF, CF. rewrite D in FF, CF.
    destruct FF as (mf & kf & DF & EF & BF). destruct CF as (mc & kc & DC & EC & BC).
    destruct N as [(-> & N1 & N2)|(-> & N1 & N2)]; [rewrite F0|rewrite F1 by lia].
    + destruct s; cbn [sval] in *.
      * split; [|exact CR]. exists mc, kc. split; [exact DC|]. split; [exact EC|]. assert (kc = - q) by nia. subst kc. unfold nearest. cbn [sval]. rewrite Z.even_opp.
        replace (Z.abs (- q * one f - - m)) with r by lia. split; [lia|exact N2].
      * split; [|exact FR]. exists mf, kf. split; [exact DF|]. split; [exact EF|]. assert (kf = q) by nia. subst kf. unfold nearest. cbn [sval].
        replace (Z.abs (q * one f - m)) with r by lia. split; [lia|exact N2].
    + destruct s; cbn [sval] in *.
      * split; [|exact FR]. exists mf, kf. split; [exact DF|]. split; [exact EF|]. assert (kf = - (q + 1)) by nia. subst kf. unfold nearest. cbn [sval]. rewrite Z.even_opp.
        replace (Z.abs (- (q + 1) * one f - - m)) with (one f - r) by lia. split; [lia|intros; apply N2; lia].
      * split; [|exact CR]. exists mc, kc. split; [exact DC|]. split; [exact EC|]. assert (kc = q + 1) by nia. subst kc. unfold nearest. cbn [sval].
        replace (Z.abs ((q + 1) * one f - m)) with (one f - r) by lia. split; [lia|intros; apply N2; lia].
Qed.
End R.
