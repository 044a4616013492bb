(** Generic facts about [round_mag]: it rounds to the nearest representable
    magnitude, ties to even, monotonically. *)
From Coq Require Import ZArith Lia Bool ZifyBool.
From Verif Require Import CInt FloatSpec.
Open Scope Z_scope.

(** *** rne *)
Lemma rne_bounds x k : 0 <= k ->
  2 * Z.abs (rne x k * 2 ^ k - x) <= 2 ^ k.
Proof.
  intros Hk. pose proof (pow2_pos k Hk) as Hp. unfold rne.
  pose proof (Z.div_mod x (2 ^ k) ltac:(lia)) as E.
  pose proof (Z.mod_pos_bound x (2 ^ k) ltac:(lia)) as B.
  set (q := x / 2 ^ k) in *. set (r := x mod 2 ^ k) in *. set (g := 2 ^ k) in *.
  destruct (2 * r <? g) eqn:E1; [nia|].
  destruct (g <? 2 * r) eqn:E2; [nia|].
  destruct (Z.even q); nia.
Qed.

Lemma rne_tie_even x k : 0 < k ->
  2 * Z.abs (rne x k * 2 ^ k - x) = 2 ^ k -> Z.even (rne x k) = true.
Proof.
  intros Hk. pose proof (pow2_pos k ltac:(lia)) as Hp. unfold rne.
  pose proof (Z.div_mod x (2 ^ k) ltac:(lia)) as E.
  pose proof (Z.mod_pos_bound x (2 ^ k) ltac:(lia)) as B.
  set (q := x / 2 ^ k) in *. set (r := x mod 2 ^ k) in *. set (g := 2 ^ k) in *.
  destruct (2 * r <? g) eqn:E1; [intros; nia|].
  destruct (g <? 2 * r) eqn:E2; [intros; nia|].
  intros _. destruct (Z.even q) eqn:Ev; [exact Ev|].
  rewrite Z.even_add, Ev. reflexivity.
Qed.

Lemma rne_nearest x k j : 0 <= k ->
  Z.abs (rne x k * 2 ^ k - x) <= Z.abs (j * 2 ^ k - x).
Proof.
  intros Hk. pose proof (rne_bounds x k Hk) as B. pose proof (pow2_pos k Hk) as Hp.
  set (q := rne x k) in *. set (g := 2 ^ k) in *.
  destruct (Z.eq_dec j q) as [->|Hne]; [lia|].
  assert (Z.abs ((j - q) * g) >= g) by nia.
  replace (j * g - x) with ((j - q) * g + (q * g - x)) by ring. lia.
Qed.

Lemma rne_tie x k j : 0 <= k -> j <> rne x k ->
  Z.abs (rne x k * 2 ^ k - x) = Z.abs (j * 2 ^ k - x) -> Z.even (rne x k) = true.
Proof.
  intros Hk Hne Heq. pose proof (rne_bounds x k Hk) as B. pose proof (pow2_pos k Hk) as Hp.
  assert (2 * Z.abs (rne x k * 2 ^ k - x) = 2 ^ k) as T.
  { set (q := rne x k) in *. set (g := 2 ^ k) in *.
    assert (Z.abs ((j - q) * g) >= g) by nia.
    replace (j * g - x) with ((j - q) * g + (q * g - x)) in Heq by ring. lia. }
  destruct (Z.eq_dec k 0) as [->|].
  - exfalso. replace (2 ^ 0) with 1 in * by reflexivity. lia.
  - apply rne_tie_even; lia.
Qed.

Lemma rne_mono x y k : 0 <= k -> x <= y -> rne x k <= rne y k.
Proof.
  intros Hk Hxy. pose proof (pow2_pos k Hk) as Hp. unfold rne.
  pose proof (Z.div_mod x (2 ^ k) ltac:(lia)) as Ex.
  pose proof (Z.mod_pos_bound x (2 ^ k) ltac:(lia)) as Bx.
  pose proof (Z.div_mod y (2 ^ k) ltac:(lia)) as Ey.
  pose proof (Z.mod_pos_bound y (2 ^ k) ltac:(lia)) as By.
  set (q := x / 2 ^ k) in *. set (r := x mod 2 ^ k) in *.
  set (q' := y / 2 ^ k) in *. set (r' := y mod 2 ^ k) in *. set (g := 2 ^ k) in *.
  assert (q <= q') by nia.
  destruct (Z.eq_dec q q') as [<-|].
  - assert (r <= r') by nia.
    destruct (2 * r <? g) eqn:E1, (2 * r' <? g) eqn:E2; try lia;
    destruct (g <? 2 * r) eqn:E3, (g <? 2 * r') eqn:E4; try lia;
    destruct (Z.even q); lia.
  - destruct (2 * r <? g), (2 * r' <? g), (g <? 2 * r), (g <? 2 * r'),
      (Z.even q), (Z.even q'); lia.
Qed.

Lemma rne_exact q k : 0 <= k -> rne (q * 2 ^ k) k = q.
Proof.
  intros Hk. pose proof (pow2_pos k Hk). unfold rne.
  rewrite Z.div_mul, Z.mod_mul by lia.
  destruct (2 * 0 <? 2 ^ k) eqn:E; lia.
Qed.

Lemma rne_scale x k j : 0 <= k -> 0 <= j -> rne (x * 2 ^ j) (k + j) = rne x k.
Proof.
  intros Hk Hj. pose proof (pow2_pos k Hk). pose proof (pow2_pos j Hj). unfold rne.
  rewrite Z.pow_add_r by lia.
  rewrite Z.div_mul_cancel_r by lia. rewrite Zmult_mod_distr_r.
  assert (forall a b, (a * 2 ^ j <? b * 2 ^ j) = (a <? b)) as L.
  { intros a b. destruct (a <? b) eqn:E, (a * 2 ^ j <? b * 2 ^ j) eqn:F; nia. }
  replace (2 * (x mod 2 ^ k * 2 ^ j)) with ((2 * (x mod 2 ^ k)) * 2 ^ j) by ring.
  rewrite !L. reflexivity.
Qed.

Lemma rne_add x q k : 0 < k -> Z.even q = true -> rne (q * 2 ^ k + x) k = q + rne x k.
Proof.
  intros Hk Hq. pose proof (pow2_pos k ltac:(lia)). unfold rne.
  rewrite (Z.add_comm (q * 2 ^ k)). rewrite Z_div_plus_full, Z_mod_plus_full by lia.
  rewrite Z.even_add, Hq.
  destruct (2 * (x mod 2 ^ k) <? 2 ^ k); [lia|].
  destruct (2 ^ k <? 2 * (x mod 2 ^ k)); [lia|].
  destruct (Z.even (x / 2 ^ k)); cbn; lia.
Qed.

(** *** magnitude of a pattern of exponent and significand fields *)
(** Magnitude pattern [p] (exponent field * 2^M + significand), exponent
    unbounded: an intermediate notion used only in proofs. *)
Definition vmag (f : fmt) (p : Z) : Z := magnitude f (p / 2 ^ mbits f) (p mod 2 ^ mbits f).

Lemma vmag_sub f p : 0 <= mbits f -> 0 <= p < 2 ^ mbits f -> vmag f p = p.
Proof.
  intros HM Hp. unfold vmag, magnitude. rewrite Z.div_small, Z.mod_small by lia. reflexivity.
Qed.

(** A pattern [q + j*2^M] with [2^M <= q <= 2^(M+1)] (or [j = 0]) has magnitude [q*2^j]. *)
Lemma vmag_scaled f q j : 0 <= mbits f -> 0 <= j ->
  (2 ^ mbits f <= q \/ (j = 0 /\ 0 <= q)) -> q <= 2 ^ (mbits f + 1) ->
  vmag f (q + j * 2 ^ mbits f) = q * 2 ^ j.
Proof.
  intros HM Hj Hq Hq2. set (g := 2 ^ mbits f) in *.
  assert (0 < g) as Hg by (apply pow2_pos; lia).
  assert (2 ^ (mbits f + 1) = 2 * g) as E2.
  { unfold g. rewrite Z.pow_add_r by lia. change (2 ^ 1) with 2. lia. }
  unfold vmag. fold g.
  destruct (Z_lt_le_dec q g) as [Hlt|Hge].
  { destruct Hq as [Hq|[-> Hq]]; [lia|].
    rewrite Z.mul_0_l, Z.add_0_r, Z.div_small, Z.mod_small by lia. unfold magnitude. cbn. lia. }
  destruct (Z.eq_dec q (2 * g)) as [->|Hne].
  - rewrite Z_div_plus_full, Z_mod_plus_full by lia.
    rewrite Z_mod_mult, Z_div_mult by lia.
    unfold magnitude. fold g.
    destruct (2 + j =? 0) eqn:E; [lia|]. rewrite Z.add_0_r.
    replace (2 + j - 1) with (1 + j) by lia. rewrite Z.pow_add_r by lia.
    change (2 ^ 1) with 2. ring.
  - assert (q = (q - g) + 1 * g) as Eq by lia.
    rewrite Z_div_plus_full, Z_mod_plus_full by lia.
    rewrite Eq, Z_div_plus_full, Z_mod_plus_full by lia.
    rewrite Z.div_small, Z.mod_small by lia.
    unfold magnitude. fold g. destruct (0 + 1 + j =? 0) eqn:E; [lia|].
    replace (0 + 1 + j - 1) with j by lia. f_equal. lia.
Qed.

Lemma vmag_nonneg f p : 0 <= mbits f -> 0 <= p -> 0 <= vmag f p.
Proof.
  intros HM Hp. unfold vmag, magnitude.
  pose proof (pow2_pos _ HM).
  pose proof (Z.mod_pos_bound p (2 ^ mbits f) ltac:(lia)).
  pose proof (Z.div_pos p (2 ^ mbits f) ltac:(lia) ltac:(lia)).
  destruct (p / 2 ^ mbits f =? 0) eqn:E; [lia|].
  pose proof (pow2_pos (p / 2 ^ mbits f - 1) ltac:(lia)). nia.
Qed.

(** Every pattern is either a multiple of 2^j or less than 2^(M+j). *)
Lemma vmag_grid f p j : 0 <= mbits f -> 0 <= p -> 0 <= j ->
  (exists i, 0 <= i /\ vmag f p = i * 2 ^ j) \/ vmag f p < 2 ^ (mbits f + j).
Proof.
  intros HM Hp Hj. set (g := 2 ^ mbits f) in *.
  assert (0 < g) as Hg by (apply pow2_pos; lia).
  pose proof (Z.mod_pos_bound p g ltac:(lia)) as B.
  pose proof (Z.div_pos p g ltac:(lia) ltac:(lia)) as D.
  pose proof (pow2_pos j Hj) as Hpj.
  rewrite Z.pow_add_r by lia. fold g.
  unfold vmag. fold g. unfold magnitude. fold g.
  destruct (p / g =? 0) eqn:E.
  { right. nia. }
  destruct (Z_lt_le_dec (p / g - 1) j) as [Hlt|Hge].
  - right. replace j with ((p / g) + (j - p / g)) at 1 by lia.
    rewrite Z.pow_add_r by lia.
    pose proof (pow2_pos (j - p / g) ltac:(lia)).
    rewrite (pow2_split (p / g)) by lia.
    pose proof (pow2_pos (p / g - 1) ltac:(lia)). nia.
  - left. exists ((g + p mod g) * 2 ^ (p / g - 1 - j)).
    pose proof (pow2_pos (p / g - 1 - j) ltac:(lia)).
    split; [nia|].
    replace (p / g - 1) with ((p / g - 1 - j) + j) at 1 by lia.
    rewrite Z.pow_add_r by lia. ring.
Qed.

Section Round.
Variable f : fmt.
Hypothesis HM : 1 <= mbits f.

Let M := mbits f.

Lemma round_mag_scale x d : 0 <= d -> 0 <= x ->
  let k := Z.max d (Z.log2 x - M) in
  vmag f (round_mag f x d) * 2 ^ d = rne x k * 2 ^ k
  /\ (k = d \/ 2 ^ (M + k) <= x)
  /\ d <= k /\ 0 <= round_mag f x d.
Proof.
  intros Hd Hx k. unfold round_mag. fold M. fold k.
  assert (0 <= rne x k) as Hq0.
  { rewrite <- (rne_exact 0 k) by lia. apply rne_mono; lia. }
  pose proof (pow2_pos M ltac:(lia)) as HpM.
  assert (d <= k) by lia.
  assert (k = d \/ 2 ^ (M + k) <= x) as Hk.
  { destruct (Z.eq_dec k d); [left; lia|right].
    assert (M + k = Z.log2 x) by lia.
    assert (0 < x). { destruct (Z.eq_dec x 0); [|lia]. subst x. change (Z.log2 0) with 0 in *. lia. }
    replace (M + k) with (Z.log2 x) by lia. apply Z.log2_spec; lia. }
  assert (x < 2 ^ (M + k + 1)) as Hup.
  { destruct (Z.eq_dec x 0) as [->|]; [apply pow2_pos; lia|].
    pose proof (Z.log2_spec x ltac:(lia)) as [_ L].
    eapply Z.lt_le_trans; [exact L|]. apply Z.pow_le_mono_r; lia. }
  assert (rne x k <= 2 ^ (M + 1)) as Hq2.
  { rewrite <- (rne_exact (2 ^ (M + 1)) k) by lia. apply rne_mono; [lia|].
    rewrite <- Z.pow_add_r by lia. replace (M + 1 + k) with (M + k + 1) by lia. lia. }
  assert (2 ^ M <= rne x k \/ (k - d = 0 /\ 0 <= rne x k)) as Hq1.
  { destruct Hk as [->|Hk]; [right; lia|left].
    rewrite <- (rne_exact (2 ^ M) k) by lia. apply rne_mono; [lia|].
    rewrite <- Z.pow_add_r by lia. lia. }
  split; [|repeat split; try lia; nia].
  unfold M in *. rewrite vmag_scaled by (try lia; assumption).
  rewrite <- Z.mul_assoc, <- Z.pow_add_r by lia. f_equal. f_equal. lia.
Qed.

(** Nearest: no pattern [p] (of any exponent) is closer. *)
Lemma round_mag_nearest x d p : 0 <= d -> 0 <= x -> 0 <= p ->
  Z.abs (vmag f (round_mag f x d) * 2 ^ d - x) <= Z.abs (vmag f p * 2 ^ d - x).
Proof.
  intros Hd Hx Hp.
  destruct (round_mag_scale x d Hd Hx) as [E [Hk [Hdk _]]].
  set (k := Z.max d (Z.log2 x - M)) in *. rewrite E.
  destruct (vmag_grid f p (k - d) ltac:(lia) Hp ltac:(lia)) as [[i [Hi Ei]]|Hlt].
  - rewrite Ei. rewrite <- Z.mul_assoc, <- Z.pow_add_r by lia.
    replace (k - d + d) with k by lia. apply rne_nearest; lia.
  - destruct Hk as [Hk|Hk].
    + pose proof (rne_nearest x k (vmag f p) ltac:(lia)) as N.
      rewrite Hk in *. exact N.
    + pose proof (rne_nearest x k (2 ^ M) ltac:(lia)) as N.
      rewrite <- Z.pow_add_r in N by lia.
      assert (vmag f p * 2 ^ d < 2 ^ (M + k)).
      { replace (M + k) with (M + (k - d) + d) by lia. rewrite (Z.pow_add_r 2 (M + (k - d))) by lia.
        fold M in Hlt. pose proof (pow2_pos d Hd). nia. }
      lia.
Qed.

Lemma round_mag_tie x d p : 0 <= d -> 0 <= x -> 0 <= p ->
  vmag f p <> vmag f (round_mag f x d) ->
  Z.abs (vmag f (round_mag f x d) * 2 ^ d - x) = Z.abs (vmag f p * 2 ^ d - x) ->
  Z.even (round_mag f x d) = true.
Proof.
  intros Hd Hx Hp Hne Heq.
  destruct (round_mag_scale x d Hd Hx) as [E [Hk [Hdk _]]].
  set (k := Z.max d (Z.log2 x - M)) in *.
  assert (Z.even (rne x k) = true -> Z.even (round_mag f x d) = true) as Ev.
  { intros Hev. unfold round_mag. fold M. fold k. rewrite Z.even_add, Hev.
    rewrite Z.even_mul. rewrite (Z.even_pow 2 M) by lia. cbn. rewrite orb_true_r. reflexivity. }
  apply Ev. pose proof (pow2_pos d Hd) as Hpd.
  destruct (vmag_grid f p (k - d) ltac:(lia) Hp ltac:(lia)) as [[i [Hi Ei]]|Hlt].
  - assert (vmag f p * 2 ^ d = i * 2 ^ k) as Ep.
    { rewrite Ei, <- Z.mul_assoc, <- Z.pow_add_r by lia. f_equal. f_equal. lia. }
    rewrite E, Ep in Heq. apply (rne_tie x k i); [lia| |exact Heq].
    intros ->. apply Hne. apply (Z.mul_cancel_r _ _ (2 ^ d)); lia.
  - destruct Hk as [Hk|Hk].
    + apply (rne_tie x k (vmag f p)); [lia| |rewrite E in Heq; rewrite Hk in *; exact Heq].
      intros Hc. apply Hne. rewrite Hk in E. apply (Z.mul_cancel_r _ _ (2 ^ d)); [lia|].
      rewrite E. rewrite Hc. rewrite Hk. reflexivity.
    + exfalso. pose proof (rne_nearest x k (2 ^ M) ltac:(lia)) as N.
      rewrite <- Z.pow_add_r in N by lia.
      assert (vmag f p * 2 ^ d < 2 ^ (M + k)).
      { replace (M + k) with (M + (k - d) + d) by lia. rewrite (Z.pow_add_r 2 (M + (k - d))) by lia.
        fold M in Hlt. nia. }
      rewrite E in Heq. lia.
Qed.

Lemma round_mag_mono x y d : 0 <= d -> 0 <= x -> x <= y -> round_mag f x d <= round_mag f y d.
Proof.
  intros Hd Hx Hxy. unfold round_mag. fold M.
  set (k := Z.max d (Z.log2 x - M)). set (k' := Z.max d (Z.log2 y - M)).
  assert (k <= k') as Hkk. { pose proof (Z.log2_le_mono x y Hxy). lia. }
  destruct (Z.eq_dec k k') as [<-|Hne].
  { pose proof (rne_mono x y k ltac:(lia) Hxy). lia. }
  (* x < 2^(M+k+1), so rne x k <= 2^(M+1); y >= 2^(M+k'), rne y k' >= 2^M *)
  assert (x < 2 ^ (M + k + 1)) as Hup.
  { destruct (Z.eq_dec x 0) as [->|]; [apply pow2_pos; lia|].
    pose proof (Z.log2_spec x ltac:(lia)) as [_ L].
    eapply Z.lt_le_trans; [exact L|]. apply Z.pow_le_mono_r; lia. }
  assert (rne x k <= 2 ^ (M + 1)) as Hq2.
  { rewrite <- (rne_exact (2 ^ (M + 1)) k) by lia. apply rne_mono; [lia|].
    rewrite <- Z.pow_add_r by lia. replace (M + 1 + k) with (M + k + 1) by lia. lia. }
  assert (2 ^ M <= rne y k') as Hq1.
  { rewrite <- (rne_exact (2 ^ M) k') by lia. apply rne_mono; [lia|].
    rewrite <- Z.pow_add_r by lia.
    assert (M + k' = Z.log2 y) by lia.
    assert (0 < y). { destruct (Z.eq_dec y 0); [|lia]. subst y. change (Z.log2 0) with 0 in *. lia. }
    replace (M + k') with (Z.log2 y) by lia. apply Z.log2_spec; lia. }
  assert (2 ^ (M + 1) = 2 * 2 ^ M) as E1.
  { rewrite Z.pow_add_r by lia. change (2 ^ 1) with 2. lia. }
  pose proof (pow2_pos M ltac:(lia)). nia.
Qed.

Lemma vmag_mono p q : 0 <= p -> p <= q -> vmag f p <= vmag f q.
Proof.
  intros Hp Hpq. unfold vmag, magnitude. fold M.
  pose proof (pow2_pos M ltac:(lia)) as Hg. set (g := 2 ^ M) in *.
  pose proof (Z.mod_pos_bound p g ltac:(lia)). pose proof (Z.mod_pos_bound q g ltac:(lia)).
  pose proof (Z.div_mod p g ltac:(lia)). pose proof (Z.div_mod q g ltac:(lia)).
  pose proof (Z.div_pos p g ltac:(lia) ltac:(lia)).
  assert (p / g <= q / g) by (apply Z.div_le_mono; lia).
  destruct (p / g =? 0) eqn:E1, (q / g =? 0) eqn:E2.
  - nia.
  - pose proof (pow2_pos (q / g - 1) ltac:(lia)). nia.
  - lia.
  - pose proof (pow2_pos (p / g - 1) ltac:(lia)) as P1.
    destruct (Z.eq_dec (p / g) (q / g)) as [Ed|Hne].
    + rewrite Ed in *. assert (p mod g <= q mod g) by nia. nia.
    + assert (2 * 2 ^ (p / g - 1) <= 2 ^ (q / g - 1)).
      { rewrite <- (pow2_split (p / g)) by lia. apply Z.pow_le_mono_r; lia. }
      nia.
Qed.

Lemma vmag_strict p q : 0 <= p -> p < q -> vmag f p < vmag f q.
Proof.
  intros Hp Hpq. unfold vmag, magnitude. fold M.
  pose proof (pow2_pos M ltac:(lia)) as Hg. set (g := 2 ^ M) in *.
  pose proof (Z.mod_pos_bound p g ltac:(lia)). pose proof (Z.mod_pos_bound q g ltac:(lia)).
  pose proof (Z.div_mod p g ltac:(lia)). pose proof (Z.div_mod q g ltac:(lia)).
  pose proof (Z.div_pos p g ltac:(lia) ltac:(lia)).
  assert (p / g <= q / g) by (apply Z.div_le_mono; lia).
  destruct (p / g =? 0) eqn:E1, (q / g =? 0) eqn:E2.
  - nia.
  - pose proof (pow2_pos (q / g - 1) ltac:(lia)). nia.
  - lia.
  - pose proof (pow2_pos (p / g - 1) ltac:(lia)) as P1.
    destruct (Z.eq_dec (p / g) (q / g)) as [Ed|Hne].
    + rewrite Ed in *. assert (p mod g < q mod g) by nia. nia.
    + assert (2 * 2 ^ (p / g - 1) <= 2 ^ (q / g - 1)).
      { rewrite <- (pow2_split (p / g)) by lia. apply Z.pow_le_mono_r; lia. }
      nia.
Qed.

Lemma vmag_inj p q : 0 <= p -> 0 <= q -> vmag f p = vmag f q -> p = q.
Proof.
  intros Hp Hq E. destruct (Z.lt_trichotomy p q) as [H|[H|H]]; [|assumption|].
  - pose proof (vmag_strict p q Hp H). lia.
  - pose proof (vmag_strict q p Hq H). lia.
Qed.

(** Representable magnitudes are returned unchanged. *)
Lemma round_mag_exact p d : 0 <= d -> 0 <= p -> round_mag f (vmag f p * 2 ^ d) d = p.
Proof.
  intros Hd Hp. pose proof (vmag_nonneg f p ltac:(lia) Hp). pose proof (pow2_pos d Hd).
  assert (0 <= vmag f p * 2 ^ d) as Hx by nia.
  pose proof (round_mag_nearest (vmag f p * 2 ^ d) d p Hd Hx Hp) as N.
  rewrite Z.sub_diag in N. change (Z.abs 0) with 0 in N.
  destruct (round_mag_scale (vmag f p * 2 ^ d) d Hd Hx) as (_ & _ & _ & R0).
  apply vmag_inj; [assumption|assumption|].
  apply (Z.mul_cancel_r _ _ (2 ^ d)); lia.
Qed.

End Round.

(** A pattern splits in sign, and magnitude fields. *)
Lemma decode_split f b : 0 <= mbits f -> 0 <= ebits f -> 0 <= b < 2 ^ width f ->
  exists s p, 0 <= p < 2 ^ (ebits f + mbits f) /\ b = sign_bit f s + p
  /\ sign_of f b = s /\ exp_of f b = p / 2 ^ mbits f /\ man_of f b = p mod 2 ^ mbits f.
Proof.
  intros HM HE Hb. set (W := ebits f + mbits f) in *.
  pose proof (pow2_pos W ltac:(lia)) as HW. pose proof (pow2_pos (mbits f) HM) as Hg.
  exists (sign_of f b), (b mod 2 ^ W).
  pose proof (Z.mod_pos_bound b (2 ^ W) ltac:(lia)) as B.
  pose proof (Z.div_mod b (2 ^ W) ltac:(lia)) as D.
  assert (0 <= b / 2 ^ W < 2) as D2.
  { unfold width in Hb. split; [apply Z.div_pos; lia|]. apply Z.div_lt_upper_bound; [lia|].
    replace (1 + ebits f + mbits f) with (W + 1) in Hb by lia.
    rewrite Z.pow_add_r in Hb by lia. change (2 ^ 1) with 2 in Hb. lia. }
  split; [lia|]. split.
  { unfold sign_bit, sign_of. fold W. destruct (Z.eq_dec (b / 2 ^ W) 0) as [E|E].
    - rewrite E. cbn. lia.
    - assert (b / 2 ^ W = 1) as E1 by lia. rewrite E1. cbn. lia. }
  split; [reflexivity|]. unfold exp_of, man_of.
  assert (2 ^ W = 2 ^ mbits f * 2 ^ ebits f) as EW.
  { unfold W. rewrite Z.pow_add_r by lia. ring. }
  pose proof (pow2_pos (ebits f) HE).
  split.
  - rewrite EW. rewrite Z.rem_mul_r by lia.
    rewrite (Z.mul_comm (2 ^ mbits f) ((b / 2 ^ mbits f) mod 2 ^ ebits f)).
    rewrite Z_div_plus_full by lia.
    rewrite (Z.div_small (b mod 2 ^ mbits f)) by (apply Z.mod_pos_bound; lia). lia.
  - rewrite EW. rewrite Z.rem_mul_r by lia.
    rewrite (Z.mul_comm (2 ^ mbits f) ((b / 2 ^ mbits f) mod 2 ^ ebits f)).
    rewrite Z_mod_plus_full. rewrite Z.mod_mod by lia. reflexivity.
Qed.

Lemma decode_pattern f s p : 0 <= mbits f -> 0 <= ebits f -> 0 <= p < 2 ^ (ebits f + mbits f) ->
  decode f (sign_bit f s + p) =
    if p / 2 ^ mbits f =? 2 ^ ebits f - 1 then
      if p mod 2 ^ mbits f =? 0 then FInf s else FNaN
    else FFin s (vmag f p).
Proof.
  intros HM HE Hp.
  set (W := ebits f + mbits f) in *.
  pose proof (pow2_pos W ltac:(lia)) as HW.
  destruct (decode_split f (sign_bit f s + p) HM HE) as (s' & p' & Hp' & E & Es & Ee & Em).
  { unfold width. replace (1 + ebits f + mbits f) with (W + 1) by lia.
    rewrite Z.pow_add_r by lia. change (2 ^ 1) with 2. unfold sign_bit. fold W. destruct s; lia. }
  fold W in Hp'.
  assert (s' = s /\ p' = p) as [-> ->].
  { unfold sign_bit in E. fold W in E. destruct s, s'; split; try reflexivity; lia. }
  unfold decode. rewrite Es, Ee, Em. reflexivity.
Qed.
