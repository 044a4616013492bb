From Coq Require Import ZArith Lia Bool ZifyBool.
From Verif Require Import CInt BitLemmas FloatSpec FloatProofs Fp16 Fp16Spec Fp16Proofs RoundEven.
Open Scope Z_scope.

Section Gen.
Variable f : fmt.
Hypothesis HM : 1 <= mbits f.
Hypothesis HE : 3 <= ebits f.
(** integers up to 2^(mbits+1) do not overflow *)
Hypothesis HW : mbits f + 3 <= 2 ^ (ebits f - 1).
Local Notation M := (mbits f).
Let K := one_exp f.

Lemma K_pos : M + 2 <= K.
Proof.
  unfold K, one_exp.
  assert (2 ^ 2 <= 2 ^ (ebits f - 1)) by (apply Z.pow_le_mono_r; lia). change (2 ^ 2) with 4 in *. lia.
Qed.

Lemma P_M : 0 < 2 ^ M. Proof. apply pow2_pos; lia. Qed.
Lemma P_K : 0 < 2 ^ K. Proof. apply pow2_pos; pose proof K_pos; lia. Qed.

Lemma decode_small s p : 0 <= p < inf_bits f -> decode f (sign_bit f s + p) = FFin s (vmag f p).
Proof.
  intros Hp. unfold inf_bits in Hp. pose proof P_M.
  pose proof (pow2_pos (ebits f) ltac:(lia)).
  rewrite decode_pattern; [|lia|lia|].
  - assert (p / 2 ^ M < 2 ^ ebits f - 1) by (apply Z.div_lt_upper_bound; lia).
    destruct (p / 2 ^ M =? 2 ^ ebits f - 1) eqn:E; [lia|reflexivity].
  - rewrite Z.pow_add_r by (lia). nia.
Qed.

(** A finite pattern. *)
Lemma finite_pattern b s m : in_u (width f) b -> decode f b = FFin s m ->
  exists p, 0 <= p < inf_bits f /\ m = vmag f p /\ b = sign_bit f s + p /\ sign_of f b = s.
Proof.
  intros Hb Hd. destruct (decode_split f b ltac:(lia) ltac:(lia) Hb) as (s' & p & Hp & E & Es & _).
  pose proof Hd as Hd'. rewrite E, decode_pattern in Hd' by (try lia; assumption).
  destruct (p / 2 ^ mbits f =? 2 ^ ebits f - 1) eqn:E1; [destruct (p mod 2 ^ mbits f =? 0); discriminate|].
  injection Hd' as -> <-. exists p. repeat split; try assumption; try lia.
  unfold inf_bits. pose proof P_M.
  assert (p / 2 ^ M < 2 ^ ebits f).
  { apply Z.div_lt_upper_bound; [lia|]. rewrite <- Z.pow_add_r by (lia).
    replace (M + ebits f) with (ebits f + M) by lia. lia. }
  pose proof (Z.div_mod p (2 ^ M) ltac:(lia)). pose proof (Z.mod_pos_bound p (2 ^ M) ltac:(lia)). nia.
Qed.

(** Representable magnitudes: few significant bits, any exponent. *)
Lemma round_repr q j : 0 <= q < 2 ^ (M + 1) -> 0 <= j -> vmag f (round_mag f (q * 2 ^ j) 0) = q * 2 ^ j.
Proof.
  intros Hq Hj. pose proof (pow2_pos j Hj) as Pj. pose proof P_M.
  assert (0 <= q * 2 ^ j) as Hx by nia.
  destruct (round_mag_scale f HM (q * 2 ^ j) 0 ltac:(lia) Hx) as (E & _ & Hk & _).
  change (2 ^ 0) with 1 in E. rewrite Z.mul_1_r in E. rewrite E.
  set (k := Z.max 0 (Z.log2 (q * 2 ^ j) - M)) in *.
  assert (0 <= k <= j) as Hkj.
  { split; [lia|]. destruct (Z.eq_dec q 0) as [->|]; [change (0 * 2 ^ j) with 0 in *; subst k; cbn; lia|].
    unfold k. rewrite Z.log2_mul_pow2 by lia.
    assert (Z.log2 q < M + 1) by (apply Z.log2_lt_pow2; lia). lia. }
  replace (q * 2 ^ j) with ((q * 2 ^ (j - k)) * 2 ^ k).
  - rewrite rne_exact by lia. reflexivity.
  - rewrite <- Z.mul_assoc, <- Z.pow_add_r by lia. f_equal. f_equal. lia.
Qed.

(** No overflow below 2^(K+M+1). *)
Lemma round_bound x : 0 <= x <= 2 ^ (K + M) -> 0 <= round_mag f x 0 < inf_bits f.
Proof.
  intros Hx.
  split; [destruct (round_mag_scale f HM x 0 ltac:(lia) ltac:(lia)) as (_ & _ & _ & R); exact R|].
  eapply Z.le_lt_trans; [apply round_mag_mono with (y := 2 ^ (K + M)); lia|].
  unfold round_mag. pose proof K_pos as HK.
  rewrite Z.log2_pow2 by lia. replace (Z.max 0 (K + M - M)) with K by lia.
  replace (2 ^ (K + M)) with (2 ^ M * 2 ^ K) by (rewrite <- Z.pow_add_r by lia; f_equal; lia).
  rewrite rne_exact by lia. unfold inf_bits.
  pose proof P_M. rewrite (pow2_split (ebits f)) by lia.
  assert (1 + K < 2 * 2 ^ (ebits f - 1) - 1) as HKB by (unfold K, one_exp; lia).
  rewrite Z.sub_0_r. nia.
Qed.

Lemma decode_encode s x : 0 <= x <= 2 ^ (K + M) ->
  decode f (encode f s x 0) = FFin s (vmag f (round_mag f x 0)).
Proof.
  intros Hx. pose proof (round_bound x Hx). unfold encode. rewrite Z.min_l by lia. apply decode_small; lia.
Qed.

Lemma encode_range s x : 0 <= x <= 2 ^ (K + M) -> in_u (width f) (encode f s x 0).
Proof.
  intros Hx. pose proof (round_bound x Hx) as R. unfold encode. rewrite Z.min_l by lia.
  unfold in_u, width. unfold inf_bits in R. pose proof P_M. pose proof (pow2_pos (ebits f) ltac:(lia)).
  replace (1 + ebits f + M) with ((ebits f + M) + 1) by lia. rewrite (Z.pow_add_r 2 (ebits f + M)) by (lia).
  change (2 ^ 1) with 2. unfold sign_bit. rewrite (Z.pow_add_r 2 (ebits f)) by (lia).
  destruct s; nia.
Qed.

Lemma fopp_decode b s m : in_u (width f) b -> decode f b = FFin s m -> decode f (fopp f b) = FFin (negb s) m.
Proof.
  intros Hb Hd. destruct (finite_pattern b s m Hb Hd) as (p & Hp & -> & E & Es).
  unfold fopp. rewrite Es, E. unfold sign_bit. destruct s; cbn [negb].
  - replace (2 ^ (ebits f + mbits f) + p - 2 ^ (ebits f + mbits f)) with (sign_bit f false + p) by (cbn [sign_bit]; lia).
    apply decode_small; assumption.
  - replace (0 + p + 2 ^ (ebits f + mbits f)) with (sign_bit f true + p) by (cbn [sign_bit]; lia).
    apply decode_small; assumption.
Qed.

(** Subtraction of finite patterns with a small exact difference. *)
Lemma fsub_decode a b sa ma sb mb : in_u (width f) b ->
  decode f a = FFin sa ma -> decode f b = FFin sb mb ->
  Z.abs (sval sa ma - sval sb mb) <= 2 ^ (K + M) ->
  exists s, decode f (fsub f a b) = FFin s (vmag f (round_mag f (Z.abs (sval sa ma - sval sb mb)) 0))
  /\ (sval sa ma - sval sb mb < 0 -> s = true) /\ (0 < sval sa ma - sval sb mb -> s = false).
Proof.
  intros Hb Da Db Hs. unfold fsub, fadd. rewrite Da, (fopp_decode b sb mb Hb Db).
  assert (sval sa ma + sval (negb sb) mb = sval sa ma - sval sb mb) as -> by (destruct sb; cbn; lia).
  set (v := sval sa ma - sval sb mb) in *.
  destruct (v =? 0) eqn:E.
  - assert (v = 0) as -> by lia. exists (sa && negb sb). split; [|lia].
    replace (sign_bit f (sa && negb sb)) with (sign_bit f (sa && negb sb) + 0) by lia.
    rewrite decode_small.
    + f_equal. change (Z.abs 0) with 0. f_equal. symmetry.
      unfold round_mag. rewrite Z.log2_nonpos by lia.
      replace (Z.max 0 (0 - M)) with 0 by (lia). reflexivity.
    + unfold inf_bits. pose proof P_M.
      assert (2 ^ 3 <= 2 ^ ebits f) by (apply Z.pow_le_mono_r; lia). change (2 ^ 3) with 8 in *. nia.
  - exists (v <? 0). rewrite decode_encode by lia. split; [reflexivity|]. lia.
Qed.

(** floor and ceiling in units. *)
Definition fl_of (v : Z) := v / 2 ^ K * 2 ^ K.
Definition ce_of (v : Z) := - (- v / 2 ^ K) * 2 ^ K.

Lemma fl_bounds v : fl_of v <= v < fl_of v + 2 ^ K.
Proof.
  unfold fl_of. pose proof P_K. pose proof (Z.div_mod v (2 ^ K) ltac:(lia)).
  pose proof (Z.mod_pos_bound v (2 ^ K) ltac:(lia)). lia.
Qed.
Lemma ce_bounds v : ce_of v - 2 ^ K < v <= ce_of v.
Proof.
  unfold ce_of. pose proof P_K. pose proof (Z.div_mod (- v) (2 ^ K) ltac:(lia)).
  pose proof (Z.mod_pos_bound (- v) (2 ^ K) ltac:(lia)). lia.
Qed.

(** Values: representable, i.e. [vmag] of a finite pattern. *)
Lemma grid_large m p : m = vmag f p -> 0 <= p -> 2 ^ (K + M) <= m -> exists i, m = i * 2 ^ K /\ 0 <= i.
Proof.
  intros -> Hp Hm. pose proof K_pos.
  destruct (vmag_grid f p K ltac:(lia) Hp ltac:(lia)) as [(i & Hi & E)|Hlt].
  - exists i. split; assumption.
  - rewrite Z.add_comm in Hlt. lia.
Qed.

Lemma grid_half m p : m = vmag f p -> 0 <= p -> 2 ^ (K - 1) <= m -> exists i, m = i * 2 ^ (K - 1 - M) /\ 0 <= i.
Proof.
  intros -> Hp Hm. pose proof K_pos.
  destruct (vmag_grid f p (K - 1 - mbits f) ltac:(lia) Hp ltac:(lia)) as [(i & Hi & E)|Hlt].
  - exists i. split; assumption.
  - replace (mbits f + (K - 1 - mbits f)) with (K - 1) in Hlt by lia. lia.
Qed.

(** floor/ceil of a finite value are computed exactly. *)
Lemma int_repr v p : Z.abs v = vmag f p -> 0 <= p < inf_bits f ->
  forall w, (w = fl_of v \/ w = ce_of v) ->
  exists r, 0 <= r < inf_bits f /\ round_mag f (Z.abs w) 0 = r /\ vmag f r = Z.abs w /\ 0 <= sval (v <? 0) w.
Proof.
  intros Hv Hp w Hw. pose proof P_K as PK. pose proof P_M as PM. pose proof K_pos as HK.
  pose proof (fl_bounds v) as FB. pose proof (ce_bounds v) as CB.
  assert (Hsign : 0 <= sval (v <? 0) w).
  { destruct (v <? 0) eqn:E; cbn [sval].
    - destruct Hw as [->| ->]; [lia|].
      unfold ce_of. assert (0 <= (- v) / 2 ^ K) by (apply Z.div_pos; lia). nia.
    - destruct Hw as [->| ->]; [|lia].
      unfold fl_of. assert (0 <= v / 2 ^ K) by (apply Z.div_pos; lia). nia. }
  destruct (Z_le_gt_dec (2 ^ (K + M)) (Z.abs v)) as [Hbig|Hsm].
  - (* integer already *)
    destruct (grid_large (Z.abs v) p Hv ltac:(lia) Hbig) as (i & Hi & Hi0).
    assert (exists j, v = j * 2 ^ K) as (j & Hj).
    { destruct (Z_le_gt_dec 0 v); [exists i|exists (- i)]; lia. }
    assert (w = v) as ->.
    { destruct Hw as [->| ->]; unfold fl_of, ce_of; rewrite Hj.
      - rewrite Z.div_mul by lia. reflexivity.
      - replace (- (j * 2 ^ K)) with (- j * 2 ^ K) by ring. rewrite Z.div_mul by lia. ring. }
    exists p. repeat split; try lia; try assumption.
    rewrite Hv. rewrite <- (Z.mul_1_r (vmag f p)). change 1 with (2 ^ 0). apply round_mag_exact; lia.
  - (* small integer *)
    assert (exists n, w = n * 2 ^ K /\ Z.abs n <= 2 ^ M) as (n & Hn & Hnb).
    { assert (2 ^ (K + M) = 2 ^ M * 2 ^ K) as EKM by (rewrite <- Z.pow_add_r by (lia); f_equal; lia).
      destruct Hw as [->| ->].
      - exists (v / 2 ^ K). split; [reflexivity|]. unfold fl_of in FB. set (n := v / 2 ^ K) in *.
        apply Z.abs_le. split; nia.
      - exists (- (- v / 2 ^ K)). split; [reflexivity|]. unfold ce_of in CB. set (n := - v / 2 ^ K) in *.
        apply Z.abs_le. split; nia. }
    assert (Z.abs w = Z.abs n * 2 ^ K) as Ew by (rewrite Hn, Z.abs_mul, (Z.abs_eq (2 ^ K)) by lia; reflexivity).
    exists (round_mag f (Z.abs w) 0). rewrite Ew.
    assert (2 ^ (M + 1) = 2 * 2 ^ M) as EM1 by (rewrite Z.pow_add_r by (lia); change (2 ^ 1) with 2; lia).
    rewrite round_repr by lia.
    split; [|split; [reflexivity|split; [reflexivity|exact Hsign]]].
    apply round_bound. replace (2 ^ (K + M)) with (2 ^ M * 2 ^ K) by (rewrite <- Z.pow_add_r by (lia); f_equal; lia). nia.
Qed.

Lemma encode_repr s m p : m = vmag f p -> 0 <= p < inf_bits f -> encode f s m 0 = sign_bit f s + p.
Proof.
  intros -> Hp. unfold encode.
  assert (round_mag f (vmag f p) 0 = p) as ->.
  { rewrite <- (Z.mul_1_r (vmag f p)). change 1 with (2 ^ 0). apply round_mag_exact; lia. }
  rewrite Z.min_l by lia. reflexivity.
Qed.

Lemma pattern_range s p : 0 <= p < inf_bits f -> in_u (width f) (sign_bit f s + p).
Proof.
  intros Hp. unfold in_u, width. unfold inf_bits in Hp. pose proof P_M. pose proof (pow2_pos (ebits f) ltac:(lia)).
  replace (1 + ebits f + M) with ((ebits f + M) + 1) by lia. rewrite (Z.pow_add_r 2 (ebits f + M)) by (lia).
  change (2 ^ 1) with 2. unfold sign_bit. rewrite (Z.pow_add_r 2 (ebits f)) by (lia).
  destruct s; nia.
Qed.

Definition sgn_ok (s : bool) (v : Z) := (s = true -> v <= 0) /\ (s = false -> 0 <= v).

(** [ffloor]/[fceil] on finite patterns. *)
Lemma floor_ceil b s m : in_u (width f) b -> decode f b = FFin s m ->
  (exists mf, decode f (ffloor f b) = FFin s mf /\ sval s mf = fl_of (sval s m) /\ in_u (width f) (ffloor f b)) /\
  (exists mc, decode f (fceil f b) = FFin s mc /\ sval s mc = ce_of (sval s m) /\ in_u (width f) (fceil f b)).
Proof.
  intros Hb Hd. destruct (finite_pattern b s m Hb Hd) as (p & Hp & Em & Eb & Es).
  pose proof (vmag_nonneg f p ltac:(lia) ltac:(lia)) as Hm0. rewrite <- Em in Hm0.
  assert (Z.abs (sval s m) = vmag f p) as Hv by (destruct s; cbn [sval]; lia).
  pose proof (int_repr (sval s m) p Hv Hp) as IR.
  assert (forall w, 0 <= sval (sval s m <? 0) w -> (m = 0 -> w = 0) -> sval s (Z.abs w) = w) as Sg.
  { intros w Hw Hz. destruct s; cbn [sval] in *.
    - destruct (Z.eq_dec m 0) as [E|E]; [rewrite Hz by exact E; reflexivity|].
      assert ((- m <? 0) = true) as E' by lia. rewrite E' in Hw. cbn [sval] in Hw. lia.
    - assert ((m <? 0) = false) as E' by lia. rewrite E' in Hw. cbn [sval] in Hw. lia. }
  pose proof P_K as PK.
  split.
  - destruct (IR (fl_of (sval s m)) (or_introl eq_refl)) as (r & Hr & Er & Ev & Hsg).
    assert (ffloor f b = sign_bit f s + r) as Ef.
    { unfold ffloor. rewrite Hd. fold K. change (sval s m / 2 ^ K * 2 ^ K) with (fl_of (sval s m)).
      apply encode_repr; [symmetry; exact Ev|exact Hr]. }
    exists (Z.abs (fl_of (sval s m))). rewrite Ef. split; [rewrite decode_small by assumption; f_equal; exact Ev|].
    split; [|apply pattern_range; assumption].
    apply Sg; [exact Hsg|]. intros ->. destruct s; cbn [sval]; unfold fl_of; rewrite Z.div_0_l by lia; reflexivity.
  - destruct (IR (ce_of (sval s m)) (or_intror eq_refl)) as (r & Hr & Er & Ev & Hsg).
    assert (fceil f b = sign_bit f s + r) as Ef.
    { unfold fceil. rewrite Hd. fold K. change (- (- sval s m / 2 ^ K) * 2 ^ K) with (ce_of (sval s m)).
      apply encode_repr; [symmetry; exact Ev|exact Hr]. }
    exists (Z.abs (ce_of (sval s m))). rewrite Ef. split; [rewrite decode_small by assumption; f_equal; exact Ev|].
    split; [|apply pattern_range; assumption].
    apply Sg; [exact Hsg|]. intros ->. destruct s; cbn [sval]; unfold ce_of; rewrite Z.div_0_l by lia; reflexivity.
Qed.

(** Comparing the two rounded distances gives the order of the exact ones. *)
Lemma dist_compare v p : Z.abs v = vmag f p -> 0 <= p -> v <> fl_of v ->
  let a := v - fl_of v in let c := ce_of v - v in
  let ra := vmag f (round_mag f a 0) in let rc := vmag f (round_mag f c 0) in
  a + c = 2 ^ K /\ 0 < a /\ 0 < c /\
  (a < c -> ra < rc) /\ (c < a -> rc < ra) /\ (a = c -> ra = rc).
Proof.
  intros Hv Hp Hni a c ra rc.
  pose proof P_K as PK. pose proof P_M as PM. pose proof K_pos as HK.
  pose proof (fl_bounds v) as FB. pose proof (ce_bounds v) as CB.
  assert (ce_of v = fl_of v + 2 ^ K) as Ec.
  { unfold ce_of, fl_of in *. set (n := v / 2 ^ K) in *. set (n' := - v / 2 ^ K) in *.
    assert (- n' = n + 1) by nia. nia. }
  assert (a + c = 2 ^ K /\ 0 < a /\ 0 < c) as (Hac & Ha & Hc) by (unfold a, c; lia).
  split; [exact Hac|]. split; [exact Ha|]. split; [exact Hc|].
  pose proof (pow2_split K ltac:(lia)) as PS.
  pose proof (pow2_pos (K - 1) ltac:(lia)) as PK1.
  assert (2 ^ (M + 1) = 2 * 2 ^ M) as EM1 by (rewrite Z.pow_add_r by (lia); change (2 ^ 1) with 2; lia).
  assert (vmag f (round_mag f (2 ^ (K - 1)) 0) = 2 ^ (K - 1)) as Rhalf.
  { rewrite <- (Z.mul_1_l (2 ^ (K - 1))). apply round_repr; lia. }
  assert (forall x y, 0 <= x -> x <= y -> vmag f (round_mag f x 0) <= vmag f (round_mag f y 0)) as Mono.
  { intros x y Hx Hxy. apply vmag_mono; [exact HM| |apply round_mag_mono; lia].
    destruct (round_mag_scale f HM x 0 ltac:(lia) Hx) as (_ & _ & _ & R); exact R. }
  destruct (Z_lt_le_dec (Z.abs v) (2 ^ (K - 1))) as [Hsm|Hbig].
  - (* |v| < 1/2 *)
    assert (vmag f (round_mag f (vmag f p) 0) = vmag f p) as Rv.
    { f_equal. rewrite <- (Z.mul_1_r (vmag f p)). change 1 with (2 ^ 0). apply round_mag_exact; lia. }
    destruct (Z_lt_le_dec v 0) as [Hneg|Hpos].
    + assert (ce_of v = 0) as E0.
      { unfold ce_of. rewrite Z.div_small by lia. lia. }
      assert (c = vmag f p) as Ecp by (unfold c; lia).
      assert (rc = vmag f p) as Erc by (unfold rc; rewrite Ecp; exact Rv).
      assert (2 ^ (K - 1) <= ra) by (unfold ra; rewrite <- Rhalf; apply Mono; lia).
      lia.
    + assert (fl_of v = 0) as E0.
      { unfold fl_of. rewrite Z.div_small by lia. lia. }
      assert (a = vmag f p) as Eap by (unfold a; lia).
      assert (ra = vmag f p) as Era by (unfold ra; rewrite Eap; exact Rv).
      assert (2 ^ (K - 1) <= rc) by (unfold rc; rewrite <- Rhalf; apply Mono; lia).
      lia.
  - (* multiples of 2^(K-1-M): both differences exact *)
    destruct (grid_half (Z.abs v) p Hv Hp Hbig) as (i & Hi & Hi0).
    set (G := K - 1 - M) in *. assert (0 <= G) by (unfold G; lia).
    pose proof (pow2_pos G ltac:(lia)) as PG.
    assert (2 ^ K = 2 ^ (M + 1) * 2 ^ G) as EKG by (rewrite <- Z.pow_add_r by (unfold G; lia); f_equal; unfold G; lia).
    assert (exists j, v = j * 2 ^ G) as (j & Hj).
    { destruct (Z_le_gt_dec 0 v); [exists i|exists (- i)]; lia. }
    assert (exists x, a = x * 2 ^ G) as (x & Hx).
    { exists (j - v / 2 ^ K * 2 ^ (M + 1)). unfold a, fl_of. rewrite EKG at 2. rewrite Hj at 1. ring. }
    assert (exists y, c = y * 2 ^ G) as (y & Hy).
    { exists (2 ^ (M + 1) - x). assert (c = 2 ^ K - a) as -> by lia. rewrite EKG, Hx. ring. }
    assert (forall z q, z = q * 2 ^ G -> 0 < z -> z < 2 ^ K -> vmag f (round_mag f z 0) = z) as Ex.
    { intros z q -> H1 H2. apply round_repr; [|lia]. nia. }
    assert (ra = a) as -> by (apply (Ex a x); lia).
    assert (rc = c) as -> by (apply (Ex c y); lia).
    lia.
Qed.

Lemma flt_pos x y s t : 0 <= x -> 0 <= y -> (s = true -> x = 0) -> (t = true -> y = 0) ->
  flt (FFin s x) (FFin t y) = (x <? y).
Proof.
  intros. unfold flt, fle. destruct s, t; cbn [sval]; try rewrite (H1 eq_refl); try rewrite (H2 eq_refl); lia.
Qed.

(** Main lemma. *)
Lemma round_to_even_l b s m : in_u (width f) b -> decode f b = FFin s m ->
  exists n, decode f (round_to_even f b) = FFin s (n * 2 ^ K) /\ 0 <= n
    /\ 2 * Z.abs (n * 2 ^ K - m) <= 2 ^ K
    /\ (2 * Z.abs (n * 2 ^ K - m) = 2 ^ K -> Z.even n = true).
Proof.
  intros Hb Hd.
  destruct (floor_ceil b s m Hb Hd) as [(mf & Df & Ef & Rf) (mc & Dc & Ec & Rc)].
  destruct (finite_pattern b s m Hb Hd) as (p & Hp & Em & Eb & Es).
  pose proof (vmag_nonneg f p ltac:(lia) ltac:(lia)) as Hm0. rewrite <- Em in Hm0.
  pose proof P_K as PK. pose proof P_M as PM. pose proof K_pos as HK.
  set (v := sval s m) in *.
  assert (Z.abs v = vmag f p) as Hv by (unfold v; destruct s; cbn [sval]; lia).
  pose proof (fl_bounds v) as FB. pose proof (ce_bounds v) as CB.
  assert (2 ^ K <= 2 ^ (K + M)) as PKM by (apply Z.pow_le_mono_r; lia).
  destruct (fsub_decode b (ffloor f b) s m s mf Rf Hd Df) as (s1 & D1 & N1 & P1).
  { rewrite Ef. fold v. lia. }
  destruct (fsub_decode (fceil f b) b s mc s m Hb Dc Hd) as (s2 & D2 & N2 & P2).
  { rewrite Ec. fold v. lia. }
  rewrite Ef in D1, P1. rewrite Ec in D2, P2. fold v in D1, D2, P1, P2. clear N1 N2.
  (* multiples *)
  assert (fl_of v = v / 2 ^ K * 2 ^ K) as Efl by reflexivity.
  assert (ce_of v = - (- v / 2 ^ K) * 2 ^ K) as Ece by reflexivity.
  assert (forall w n, w = n * 2 ^ K -> forall mw, sval s mw = w -> 0 <= mw ->
     exists n', mw = n' * 2 ^ K /\ 0 <= n' /\ Z.even n' = Z.even n) as Mul.
  { intros w n -> mw Hmw H0. destruct s; cbn [sval] in Hmw.
    - exists (- n). split; [lia|]. split; [nia|]. apply Z.even_opp.
    - exists n. split; [lia|]. split; [nia|reflexivity]. }
  assert (0 <= mf /\ 0 <= mc) as [Hmf Hmc].
  { split.
    - destruct (finite_pattern _ _ _ Rf Df) as (q & Hq & -> & _). apply vmag_nonneg; lia.
    - destruct (finite_pattern _ _ _ Rc Dc) as (q & Hq & -> & _). apply vmag_nonneg; lia. }
  destruct (Mul _ _ Efl mf Ef Hmf) as (nf & Enf & Hnf & Evf).
  destruct (Mul _ _ Ece mc Ec Hmc) as (nc & Enc & Hnc & Evc).
  assert (forall mw, Z.abs (mw - m) = Z.abs (sval s mw - v)) as Dist by (intros; unfold v; destruct s; cbn [sval]; lia).
  unfold round_to_even.
  destruct (Z.eq_dec v (fl_of v)) as [Hint|Hni].
  - (* integer: every branch returns the argument's value *)
    assert (ce_of v = v) as Hce.
    { unfold ce_of. rewrite Efl in Hint. set (n := v / 2 ^ K) in *. rewrite Hint.
      replace (- (n * 2 ^ K)) with (- n * 2 ^ K) by ring. rewrite Z.div_mul by lia. ring. }
    assert (mf = m) as Emf by (unfold v in *; destruct s; cbn [sval] in *; lia).
    assert (mc = m) as Emc by (unfold v in *; destruct s; cbn [sval] in *; lia).
    assert (forall r, (r = ffloor f b \/ r = fceil f b) -> exists n, decode f r = FFin s (n * 2 ^ K) /\ 0 <= n
       /\ 2 * Z.abs (n * 2 ^ K - m) <= 2 ^ K /\ (2 * Z.abs (n * 2 ^ K - m) = 2 ^ K -> Z.even n = true)) as G.
    { intros r [->| ->]; [exists nf; rewrite <- Enf|exists nc; rewrite <- Enc]; split; try assumption; split; try assumption; lia. }
    destruct (flt _ _); [apply G; tauto|]. destruct (flt _ _); [apply G; tauto|]. destruct (feqb _ _); apply G; tauto.
  - destruct (dist_compare v p Hv ltac:(lia) Hni) as (Hac & Ha & Hc & L1 & L2 & L3).
    rewrite (Z.abs_eq (v - fl_of v)) in D1 by lia. rewrite (Z.abs_eq (ce_of v - v)) in D2 by lia.
    assert (0 < v - fl_of v) as Q1 by lia. assert (0 < ce_of v - v) as Q2 by lia.
    rewrite (P1 Q1) in D1. rewrite (P2 Q2) in D2. clear P1 P2 Q1 Q2. rewrite D1, D2. clear D1 D2.
    set (ra := vmag f (round_mag f (v - fl_of v) 0)) in *. set (rc := vmag f (round_mag f (ce_of v - v) 0)) in *.
    assert (0 <= ra /\ 0 <= rc) as [Hra Hrc].
    { split; apply vmag_nonneg; try lia.
      - destruct (round_mag_scale f HM (v - fl_of v) 0 ltac:(lia) ltac:(lia)) as (_ & _ & _ & R); exact R.
      - destruct (round_mag_scale f HM (ce_of v - v) 0 ltac:(lia) ltac:(lia)) as (_ & _ & _ & R); exact R. }
    rewrite !flt_pos by (try lia; discriminate).
    destruct (ra <? rc) eqn:E1.
    { exists nf. rewrite Df, Enf. split; [reflexivity|]. split; [exact Hnf|]. rewrite <- Enf, Dist, Ef.
      assert (v - fl_of v < ce_of v - v) by (destruct (Z.lt_trichotomy (v - fl_of v) (ce_of v - v)) as [H|[H|H]]; [exact H|specialize (L3 H); lia|specialize (L2 H); lia]).
      lia. }
    destruct (rc <? ra) eqn:E2.
    { exists nc. rewrite Dc, Enc. split; [reflexivity|]. split; [exact Hnc|]. rewrite <- Enc, Dist, Ec.
      assert (ce_of v - v < v - fl_of v) by (destruct (Z.lt_trichotomy (v - fl_of v) (ce_of v - v)) as [H|[H|H]]; [specialize (L1 H); lia|specialize (L3 H); lia|exact H]).
      lia. }
    assert (v - fl_of v = ce_of v - v) as Htie.
    { destruct (Z.lt_trichotomy (v - fl_of v) (ce_of v - v)) as [H|[H|H]]; [specialize (L1 H); lia|exact H|specialize (L2 H); lia]. }
    (* tie: look at the parity of the floor *)
    assert (Hn : - (- v / 2 ^ K) = v / 2 ^ K + 1).
    { unfold fl_of, ce_of in *. set (n := v / 2 ^ K) in *. set (n' := - v / 2 ^ K) in *. nia. }
    clear L1 L2 L3 E1 E2 Mul. clear dependent ra. clear dependent rc. rename Dist into DD.
    pose proof (fun z => DD z) as Dist. clear DD.
    (* |v| < 2^(K+M), so the floor is a small integer *)
    assert (Hvs : Z.abs v < 2 ^ (K + M)).
    { destruct (Z_lt_le_dec (Z.abs v) (2 ^ (K + M))) as [|Hbig]; [assumption|].
      destruct (grid_large (Z.abs v) p Hv ltac:(lia) Hbig) as (i & Hi & Hi0). exfalso. apply Hni.
      assert (exists j, v = j * 2 ^ K) as (j & Hj) by (destruct (Z_le_gt_dec 0 v); [exists i|exists (- i)]; lia).
      unfold fl_of. rewrite Hj at 2. rewrite Z.div_mul by lia. exact Hj. }
    assert (2 ^ (K + M) = 2 ^ M * 2 ^ K) as EKM by (rewrite <- Z.pow_add_r by (lia); f_equal; lia).
    assert (nf <= 2 ^ M) as Hnf2.
    { assert (Z.abs (sval s mf) = mf) by (destruct s; cbn [sval]; lia).
      assert (Z.abs (v / 2 ^ K) <= 2 ^ M).
      { unfold fl_of in FB. set (n := v / 2 ^ K) in *. apply Z.abs_le. split; nia. }
      assert (Z.abs (sval s mf) = Z.abs (v / 2 ^ K) * 2 ^ K).
      { rewrite Ef, Efl, Z.abs_mul, (Z.abs_eq (2 ^ K)) by lia. reflexivity. }
      nia. }
    pose proof (pow2_split K ltac:(lia)) as PS.
    pose proof (pow2_pos (K - 1) ltac:(lia)) as PK1.
    assert (2 ^ (M + 1) = 2 * 2 ^ M) as EM1 by (rewrite Z.pow_add_r by (lia); change (2 ^ 1) with 2; lia).
    assert (decode f (fhalf f (ffloor f b)) = FFin s (nf * 2 ^ (K - 1)) /\ in_u (width f) (fhalf f (ffloor f b))) as [Dh Rh].
    { unfold fhalf. rewrite Df.
      assert (encode f s mf 1 = encode f s (nf * 2 ^ (K - 1)) 0) as ->.
      { unfold encode. f_equal. f_equal. unfold round_mag. rewrite Enf.
        destruct (Z.eq_dec nf 0) as [->|Hn0].
        - change (0 * 2 ^ K) with 0. change (0 * 2 ^ (K - 1)) with 0. change (Z.log2 0) with 0.
          replace (Z.max 1 (0 - M)) with 1 by (lia). replace (Z.max 0 (0 - M)) with 0 by (lia). reflexivity.
        - rewrite !Z.log2_mul_pow2 by (lia).
          pose proof (Z.log2_nonneg nf).
          replace (Z.max 1 (K + Z.log2 nf - M)) with (Z.max 0 (K - 1 + Z.log2 nf - M) + 1) by lia.
          set (k := Z.max 0 (K - 1 + Z.log2 nf - M)).
          replace (nf * 2 ^ K) with (nf * 2 ^ (K - 1) * 2 ^ 1) by (rewrite PS; change (2 ^ 1) with 2; ring).
          rewrite rne_scale by lia. f_equal. lia. }
      assert (0 <= nf * 2 ^ (K - 1) <= 2 ^ (K + M)) as HB by nia.
      split; [|apply encode_range; exact HB].
      rewrite decode_encode by exact HB. f_equal. apply round_repr; lia. }
    destruct (floor_ceil _ s _ Rh Dh) as [(mh & Dfh & Efh & _) _].
    rewrite Dh, Dfh.
    assert (feqb (FFin s (nf * 2 ^ (K - 1))) (FFin s mh) = Z.even nf) as ->.
    { assert (feqb (FFin s (nf * 2 ^ (K - 1))) (FFin s mh) = (sval s (nf * 2 ^ (K - 1)) =? fl_of (sval s (nf * 2 ^ (K - 1))))) as ->.
      { unfold feqb, fle. rewrite Efh. lia. }
      assert (forall n, (n * 2 ^ (K - 1) =? fl_of (n * 2 ^ (K - 1))) = Z.even n) as Par.
      { intros n. unfold fl_of. rewrite PS. rewrite Z.div_mul_cancel_r by lia.
        rewrite (Zmod_even n) || pose proof (Z.div_mod n 2 ltac:(lia)) as Dn. rewrite Zmod_even in Dn.
        destruct (Z.even n); [apply Z.eqb_eq|apply Z.eqb_neq]; nia. }
      destruct s; cbn [sval].
      - replace (- (nf * 2 ^ (K - 1))) with ((- nf) * 2 ^ (K - 1)) by ring. rewrite Par. apply Z.even_opp.
      - apply Par. }
    destruct (Z.even nf) eqn:Ev.
    + exists nf. rewrite Df, Enf. split; [reflexivity|]. split; [exact Hnf|]. rewrite <- Enf, Dist, Ef. split; [lia|intros _; exact Ev].
    + exists nc. rewrite Dc, Enc. split; [reflexivity|]. split; [exact Hnc|]. rewrite <- Enc, Dist, Ec. split; [lia|].
      intros _. rewrite Evc, Hn, Z.even_add. rewrite <- Evf. try rewrite Ev. reflexivity.
Qed.

Lemma round_to_even_special_bits b : (forall s m, decode f b <> FFin s m) -> round_to_even f b = b.
Proof.
  intros H.
  assert (ffloor f b = b /\ fceil f b = b) as [E1 E2].
  { unfold ffloor, fceil. destruct (decode f b) as [|s|s m]; [tauto|tauto|exfalso; apply (H s m); reflexivity]. }
  unfold round_to_even. rewrite E1, E2. cbv zeta.
  repeat match goal with |- context [if ?c then _ else _] => destruct c end; reflexivity.
Qed.

Lemma round_to_even_range b s m : in_u (width f) b -> decode f b = FFin s m -> in_u (width f) (round_to_even f b).
Proof.
  intros Hb Hd. destruct (floor_ceil b s m Hb Hd) as [(mf & Df & Ef & Rf) (mc & Dc & Ec & Rc)].
  unfold round_to_even. destruct (flt _ _); [exact Rf|]. destruct (flt _ _); [exact Rc|]. destruct (feqb _ _); assumption.
Qed.

(** trunc *)
Lemma ftrunc_l b s m : in_u (width f) b -> decode f b = FFin s m ->
  decode f (ftrunc f b) = FFin s (m / 2 ^ K * 2 ^ K).
Proof.
  intros Hb Hd. destruct (floor_ceil b s m Hb Hd) as [(mf & Df & Ef & Rf) (mc & Dc & Ec & Rc)].
  destruct (finite_pattern b s m Hb Hd) as (p & Hp & Em & Eb & Es).
  pose proof (vmag_nonneg f p ltac:(lia) ltac:(lia)) as Hm0. rewrite <- Em in Hm0.
  pose proof P_K as PK.
  unfold ftrunc. rewrite Hd.
  assert (decode f 0 = FFin false 0) as ->.
  { change 0 with (sign_bit f false + 0) at 1. rewrite decode_small.
    - f_equal.
    - unfold inf_bits. pose proof P_M.
      assert (2 ^ 3 <= 2 ^ ebits f) by (apply Z.pow_le_mono_r; lia). change (2 ^ 3) with 8 in *. nia. }
  cbn [fle sval]. destruct s; cbn [sval] in *.
  - destruct (0 <=? - m) eqn:E.
    + assert (m = 0) as -> by lia. rewrite Df. f_equal. change (- 0) with 0 in Ef. unfold fl_of in Ef.
      rewrite Z.div_0_l in * by lia. lia.
    + rewrite Dc. f_equal. unfold ce_of in Ec. rewrite Z.opp_involutive in Ec. lia.
  - destruct (0 <=? m) eqn:E; [|lia]. rewrite Df. f_equal. exact Ef.
Qed.

End Gen.

