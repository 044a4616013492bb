(** fmod is exact for quotients below 4096: the estimate of the quotient, the exact product and difference, the loop. *)
Require Import ZArith List Bool Lia.
Require Import Verif.FloatSpec Verif.FloatProofs Verif.FloatArith Verif.FloatArithSpec Verif.FloatArithProofs Verif.FloatArithProofs2 Verif.RoundEven Verif.X86Cvt Verif.X86CvtSpec Verif.X86CvtProofs2 Verif.X86CvtProofs4
  Verif.FixedPointConv Verif.SleefBase Verif.Sleef Verif.SleefSpec Verif.SleefProofs Verif.SleefProofs2 Verif.SleefProofs4 Verif.SleefProofs5 Verif.SleefProofs6 Verif.SleefProofs7 Verif.SleefProofs8 Verif.SleefProofs9 Verif.SleefProofs10 Verif.SleefRem.
Local Open Scope Z_scope.

Lemma rep_grid j k : Z.abs j < 2 ^ 24 -> 0 <= k <= 253 -> rep (j * 2 ^ k).
Proof.
  intros J K. assert (0 < 2 ^ k) by (apply Z.pow_pos_nonneg; lia). assert (2 ^ k <= 2 ^ 253) by (apply Z.pow_le_mono_r; lia).
  exists (Z.abs j), k. rewrite Z.abs_mul, (Z.abs_eq (2 ^ k)) by lia. repeat split; try lia. change (2 ^ 277) with (2 ^ 24 * 2 ^ 253). nia.
Qed.
Lemma sterbenz a b : rep a -> rep b -> 0 <= a -> 0 <= b -> a <= 2 * b -> b <= 2 * a -> rep (a - b).
Proof.
  intros (n & k & N & K & E & B) (n' & k' & N' & K' & E' & B') A0 B0 H H'. rewrite Z.abs_eq in * by lia.
  assert (0 < 2 ^ k) by (apply Z.pow_pos_nonneg; lia). assert (0 < 2 ^ k') by (apply Z.pow_pos_nonneg; lia).
  destruct (Z_le_gt_dec k k') as [L | L].
  - assert (2 ^ k' = 2 ^ (k' - k) * 2 ^ k) as P by (rewrite <- Z.pow_add_r by lia; f_equal; lia). assert (0 < 2 ^ (k' - k)) by (apply Z.pow_pos_nonneg; lia). rewrite P in *.
    exists (Z.abs (n - n' * 2 ^ (k' - k))), k. set (c := 2 ^ (k' - k)) in *. set (t := 2 ^ k) in *. assert (a - b = (n - n' * c) * t) as -> by nia. rewrite Z.abs_mul, (Z.abs_eq t) by lia.
    assert (Z.abs (n - n' * c) <= n) by nia. repeat split; try lia; try nia.
  - assert (2 ^ k = 2 ^ (k - k') * 2 ^ k') as P by (rewrite <- Z.pow_add_r by lia; f_equal; lia). assert (0 < 2 ^ (k - k')) by (apply Z.pow_pos_nonneg; lia). rewrite P in *.
    exists (Z.abs (n * 2 ^ (k - k') - n')), k'. set (c := 2 ^ (k - k')) in *. set (t := 2 ^ k') in *. assert (a - b = (n * c - n') * t) as -> by nia. rewrite Z.abs_mul, (Z.abs_eq t) by lia.
    assert (Z.abs (n * c - n') <= n') by nia. repeat split; try lia; try nia.
Qed.
(** a number of at least the size of one with 24 significant digits is on its grid *)
Lemma grid_ge z n k : rep z -> 2 ^ 23 <= n -> 0 <= k -> n * 2 ^ k <= Z.abs z -> exists j, z = j * 2 ^ k.
Proof.
  intros (n' & k' & N & K & E & B) H K0 L. assert (0 < 2 ^ k) by (apply Z.pow_pos_nonneg; lia). assert (0 < 2 ^ k') by (apply Z.pow_pos_nonneg; lia).
  assert (k <= k') as KK. { assert (2 ^ (23 + k) < 2 ^ (24 + k')) as T by (rewrite !Z.pow_add_r by lia; nia). apply Z.pow_lt_mono_r_iff in T; lia. }
  assert (2 ^ k' = 2 ^ (k' - k) * 2 ^ k) as P by (rewrite <- Z.pow_add_r by lia; f_equal; lia). rewrite P in E.
  destruct (Z_lt_le_dec z 0); [exists (- (n' * 2 ^ (k' - k))) | exists (n' * 2 ^ (k' - k))]; lia.
Qed.
(** rounding: the error, and the numbers the result is not less than *)
Lemma enc_round s x d z : 0 <= x -> 0 <= d -> rep z -> x <= Z.abs z * 2 ^ d ->
  exists M, val (encode binary32 s x d) = FFin s M /\ 0 <= M /\
    (exists e, 2 * Z.abs (M * 2 ^ d - x) <= e /\ (e = 2 ^ d \/ e * 2 ^ 23 <= x)) /\
    (forall w, rep w -> Z.abs w * 2 ^ d <= x -> Z.abs w <= M) /\ (forall w, rep w -> x <= Z.abs w * 2 ^ d -> M <= Z.abs w).
Proof.
  intros X D R L. destruct (rep_mag z R) as (p & Hp & E). rewrite <- E in L. pose proof (round_le p x d D ltac:(lia) X L) as RL. pose proof (round_nonneg x d D X) as RN.
  exists (vmag binary32 (round_mag binary32 x d)). split; [| split; [| split; [| split]]].
  - rewrite val_encode by lia. rewrite Z.min_l by lia. unfold of_mag. destruct (Z.eqb_spec (round_mag binary32 x d) (inf_bits binary32)); [lia | reflexivity].
  - apply vmag_nonneg; [discriminate | exact RN].
  - destruct (round_mag_scale binary32 m32 x d D X) as (S1 & S2 & S3 & S4). change (mbits binary32) with 23 in *. set (k := Z.max d (Z.log2 x - 23)) in *. exists (2 ^ k). rewrite S1. split; [apply rne_bounds; lia |].
    destruct S2 as [-> | S2]; [left; reflexivity | right]. rewrite Z.pow_add_r in S2 by lia. lia.
  - intros w W B. destruct (rep_mag w W) as (p' & Hp' & E'). rewrite <- E' in *. apply (vmag_mono binary32 ltac:(discriminate)); [lia |]. apply round_ge; (lia || assumption).
  - intros w W B. destruct (rep_mag w W) as (p' & Hp' & E'). rewrite <- E' in *. apply (vmag_mono binary32 ltac:(discriminate)); [lia |]. apply round_le; (lia || assumption).
Qed.
Definition near (c e : Z) : Prop := Z.abs (c - e) * 2 ^ 24 <= Z.abs e.
Lemma mul_round x y a b z : has x a -> has y b -> rep z -> Z.abs (a * b) <= Z.abs z * 2 ^ 149 ->
  exists c, has (mulf x y) c /\ (exists e, 2 * Z.abs (c * 2 ^ 149 - a * b) <= e /\ (e = 2 ^ 149 \/ e * 2 ^ 23 <= Z.abs (a * b))) /\
    (forall w, rep w -> Z.abs w * 2 ^ 149 <= Z.abs (a * b) -> Z.abs w <= Z.abs c) /\ (forall w, rep w -> Z.abs (a * b) <= Z.abs w * 2 ^ 149 -> Z.abs c <= Z.abs w).
Proof.
  intros (P & s & m & V & E) (P' & s' & m' & V' & E') R L. pose proof (val_nonneg _ _ _ V) as N. pose proof (val_nonneg _ _ _ V') as N'.
  assert (Z.abs (a * b) = m * m') as AB. { rewrite Z.abs_mul. subst. destruct s, s'; cbn [sval]; rewrite ?Z.abs_opp, !Z.abs_eq by lia; reflexivity. }
  rewrite AB in *. destruct (enc_round (xorb s s') (m * m') 149 z ltac:(nia) ltac:(lia) R L) as (M & VM & M0 & (e & E1 & E2) & G & G').
  exists (sval (xorb s s') M). assert (Z.abs (sval (xorb s s') M) = M) as AM by (destruct (xorb s s'); cbn [sval]; lia). rewrite AM. split.
  - split; [apply mulf_pat |]. exists (xorb s s'), M. rewrite (mul_val x y _ _ V V'). split; [exact VM | reflexivity].
  - split; [| split; [exact G | exact G']]. exists e. split; [| exact E2]. replace (Z.abs (sval (xorb s s') M * 2 ^ 149 - a * b)) with (Z.abs (M * 2 ^ 149 - m * m')); [exact E1 |].
    subst. destruct s, s'; cbn [sval xorb]; rewrite ?Z.mul_opp_l, ?Z.mul_opp_r; lia.
Qed.
Lemma add_round x y a b z : has x a -> has y b -> rep z -> 0 <= a + b <= z ->
  exists c, has (addf x y) c /\ 0 <= c /\ near c (a + b) /\ (rep (a + b) -> c = a + b) /\ (forall w, rep w -> Z.abs w <= a + b -> Z.abs w <= c).
Proof.
  intros X Y R L. pose proof X as (P & s & m & V & E). pose proof Y as (P' & s' & m' & V' & E').
  destruct (Z.eq_dec (a + b) 0) as [Z0 | NZ].
  - exists 0. pose proof (has_add x y a b X Y) as H. rewrite Z0 in *. split; [exact (H rep_0) |]. split; [lia |]. split; [unfold near; lia |]. split; [reflexivity |]. intros; lia.
  - destruct (enc_round false (a + b) 0 z ltac:(lia) ltac:(lia) R ltac:(lia)) as (M & VM & M0 & (e & E1 & E2) & G & G').
    change (2 ^ 0) with 1 in *. exists M. split.
    + split; [apply addf_pat |]. exists false, M. split; [| reflexivity]. unfold addf, fadd. fold (val x). fold (val y). rewrite V, V'. cbv zeta. rewrite E, E'.
      destruct (Z.eqb_spec (a + b) 0); [contradiction |]. destruct (Z.ltb_spec (a + b) 0); [lia |]. rewrite Z.abs_eq by lia. exact VM.
    + split; [exact M0 |]. split; [unfold near; destruct E2 as [-> | E2]; lia |]. split.
      * intros RR. pose proof (G (a + b) RR ltac:(lia)). pose proof (G' (a + b) RR ltac:(lia)). lia.
      * intros w W B. apply G; [exact W | lia].
Qed.
(** an exact zero sum is +0 when the first operand is not -0 *)
Lemma add_zero x y a b : has x a -> has y b -> a + b = 0 -> a <> 0 \/ x = 0 -> addf x y = 0.
Proof.
  intros (P & s & m & V & E) (P' & s' & m' & V' & E') H D. unfold addf, fadd. fold (val x). fold (val y). rewrite V, V'. cbv zeta. rewrite E, E', H. cbn [Z.eqb].
  assert (s && s' = false) as ->; [| reflexivity]. pose proof (val_nonneg _ _ _ V). pose proof (val_nonneg _ _ _ V').
  destruct D as [D | D].
  - destruct s, s'; cbn [sval andb] in *; try reflexivity. lia.
  - subst x. change (val 0) with (FFin false 0) in V. injection V as <- _. reflexivity.
Qed.

(** the upper half, in full *)
Lemma has_split x z : has x z -> exists s n k, z = sval s (n * 2 ^ k) /\ 0 <= n < 2 ^ 24 /\ 0 <= k <= 253 /\ (2 ^ 23 <= n \/ k = 0) /\ has (upperf x) (sval s ((n - n mod 2 ^ 12) * 2 ^ k)).
Proof.
  intros (P & s & m & V & <-). destruct (dec_mag binary32 x s m g32 P V) as (p & E & Hp & ->). change (inf_bits binary32) with (255 * 2 ^ 23) in Hp. subst x.
  set (r := p mod 2 ^ 12). assert (0 <= r < 2 ^ 12) as R by (apply Z.mod_pos_bound; reflexivity).
  assert (upperf (sign_bit binary32 s + p) = sign_bit binary32 s + (p - r)) as EU.
  { unfold upperf. change 4294963200 with (2 ^ 32 - 1 - (2 ^ 12 - 1)).
    assert (forall q, 0 <= q < 2 ^ 32 -> Z.land q (2 ^ 32 - 1 - (2 ^ 12 - 1)) = q - q mod 2 ^ 12) as L.
    { intros q Q. change (2 ^ 32 - 1 - (2 ^ 12 - 1)) with (Z.land (Z.ones 32) (Z.lnot (Z.ones 12))). rewrite Z.land_assoc, Z.land_ones by lia. rewrite Z.mod_small by exact Q.
      rewrite <- Z.ldiff_land, Z.ldiff_ones_r by lia. rewrite Z.shiftl_mul_pow2, Z.shiftr_div_pow2 by lia. pose proof (Z.div_mod q (2 ^ 12) ltac:(discriminate)). lia. }
    rewrite L. - replace ((sign_bit binary32 s + p) mod 2 ^ 12) with r; [lia |]. unfold r. destruct s; [change (sign_bit binary32 true) with (2 ^ 19 * 2 ^ 12); rewrite Z.add_comm, Z_mod_plus_full; reflexivity | reflexivity].
    - destruct s; [change (sign_bit binary32 true) with (2 ^ 31) | change (sign_bit binary32 false) with 0]; lia. }
  assert (0 <= p - r) as N by (unfold r; pose proof (Z.mod_le p (2 ^ 12) ltac:(lia) ltac:(reflexivity)); lia).
  assert (val (sign_bit binary32 s + (p - r)) = FFin s (vmag binary32 (p - r))) as VU.
  { rewrite val_mag by (change (inf_bits binary32) with (255 * 2 ^ 23); lia). unfold of_mag. change (inf_bits binary32) with (255 * 2 ^ 23). destruct (Z.eqb_spec (p - r) (255 * 2 ^ 23)); [lia | reflexivity]. }
  set (E := p / 2 ^ 23). assert (0 <= E < 255) as RE by (unfold E; split; [apply Z.div_pos; lia | apply Z.div_lt_upper_bound; lia]).
  pose proof (Z.mod_pos_bound p (2 ^ 23) ltac:(reflexivity)) as RM. pose proof (Z.div_mod p (2 ^ 23) ltac:(discriminate)) as DM. fold E in DM.
  assert ((p mod 2 ^ 23) mod 2 ^ 12 = r) as MM. { unfold r. change (2 ^ 23) with (2 ^ 12 * 2 ^ 11). rewrite Z.rem_mul_r by lia. rewrite Z.mul_comm, Z_mod_plus_full. apply Z.mod_mod. discriminate. }
  assert ((p - r) / 2 ^ 23 = E /\ (p - r) mod 2 ^ 23 = p mod 2 ^ 23 - r) as (D & M).
  { assert (r <= p mod 2 ^ 23) as LE by (rewrite <- MM; apply Z.mod_le; [lia | reflexivity]).
    split; [symmetry; apply (Z.div_unique _ _ _ (p mod 2 ^ 23 - r)); [left; lia | lia] | symmetry; apply (Z.mod_unique _ _ E); [left; lia | lia]]. }
  assert (pattern (sign_bit binary32 s + (p - r))) as PP by (apply split_pat; lia).
  unfold vmag, magnitude in *. change (mbits binary32) with 23 in *. rewrite D, M in VU. fold E. destruct (Z.eqb_spec E 0) as [E0 | E0].
  - exists s, (p mod 2 ^ 23), 0. rewrite Z.mul_1_r. split; [reflexivity |]. split; [lia |]. split; [lia |]. split; [right; reflexivity |]. rewrite EU, MM, Z.mul_1_r. split; [exact PP |]. exists s, (p mod 2 ^ 23 - r). split; [exact VU | reflexivity].
  - exists s, (2 ^ 23 + p mod 2 ^ 23), (E - 1). split; [reflexivity |]. split; [lia |]. split; [lia |]. split; [left; lia |].
    assert ((2 ^ 23 + p mod 2 ^ 23) mod 2 ^ 12 = r) as ->. { rewrite Z.add_comm. change (2 ^ 23) with (2 ^ 11 * 2 ^ 12) at 2. rewrite Z_mod_plus_full. exact MM. }
    rewrite EU. split; [exact PP |]. exists s, ((2 ^ 23 + (p mod 2 ^ 23 - r)) * 2 ^ (E - 1)). split; [exact VU | f_equal; f_equal; lia].
Qed.
Lemma upper_int x q : has x (q * 2 ^ 149) -> 0 < q < 2 ^ 12 -> has (upperf x) (q * 2 ^ 149).
Proof.
  intros H Q. destruct (has_split x _ H) as (s & n & k & E & N & K & NK & U). assert (0 < 2 ^ k) by (apply Z.pow_pos_nonneg; lia).
  assert (s = false) as -> by (destruct s; [cbn [sval] in E; assert (0 < 2 ^ 149) by reflexivity; nia | reflexivity]). cbn [sval] in *.
  assert (k <= 137) as K2. { destruct NK as [NK | ->]; [| lia]. assert (2 ^ (23 + k) < 2 ^ 161) as T. { rewrite Z.pow_add_r by lia. change (2 ^ 161) with (2 ^ 12 * 2 ^ 149). nia. } apply Z.pow_lt_mono_r_iff in T; lia. }
  assert (n = q * 2 ^ (137 - k) * 2 ^ 12) as En. { assert (2 ^ 149 = 2 ^ (137 - k) * 2 ^ 12 * 2 ^ k) as P by (rewrite <- !Z.pow_add_r by lia; f_equal; lia). rewrite P in E. apply (Z.mul_reg_r _ _ (2 ^ k)); [lia |]. lia. }
  assert (n mod 2 ^ 12 = 0) as E0 by (rewrite En; apply Z.mod_mul; discriminate). rewrite E0, Z.sub_0_r in U. rewrite E. exact U.
Qed.

Lemma small_prod q h : 0 <= q < 2 ^ 12 -> 0 <= h < 2 ^ 12 -> 0 <= q * h < 2 ^ 24.
Proof. intros. nia. Qed.
Lemma small_prod2 q r i : 0 <= q < 2 ^ 12 -> 0 <= r < 2 ^ 12 -> Z.abs i < q -> Z.abs (- i + q * r) < 2 ^ 24.
Proof. intros. nia. Qed.
Lemma pos_prod a b : 0 < a -> 0 < b -> 0 < a * b.
Proof. intros. nia. Qed.
Lemma near_scale q n k c : 1 <= q -> n < 2 ^ 24 -> 0 < 2 ^ k -> Z.abs c * 2 ^ 24 <= q * n * 2 ^ k -> Z.abs c < q * 2 ^ k.
Proof. intros. nia. Qed.
Lemma near_neg c q D : 0 < q * D -> Z.abs (c + q * D) * 2 ^ 24 <= q * D -> c < 0.
Proof. intros. lia. Qed.
Lemma abs_scale i q t : 0 < t -> Z.abs i * t < q * t -> Z.abs i < q.
Proof. intros. nia. Qed.
Lemma half_unit c t : 0 < t -> 2 * (Z.abs c * t) <= t -> Z.abs c = 0.
Proof. intros. nia. Qed.
Lemma err_scale c t e q : 0 < t -> 2 * (Z.abs c * t) <= e -> e * 2 ^ 23 <= q * t -> Z.abs c * 2 ^ 24 <= q.
Proof. intros. nia. Qed.

(** the exact product of an integer below 4096 and a number of 24 digits *)
Lemma product fq nd q D n k z : has fq (q * 2 ^ 149) -> has nd (- D) -> 1 <= q < 2 ^ 12 -> D = n * 2 ^ k -> 2 ^ 23 <= n < 2 ^ 24 -> 0 <= k -> rep z -> q * D <= Z.abs z ->
  exists c, has (fx (dfmul_f2_f_f fq nd)) (- c) /\ has (fy (dfmul_f2_f_f fq nd)) (c - q * D) /\ near c (q * D) /\ D <= c /\ (exists j, c = j * 2 ^ k) /\ Z.abs (c - q * D) < q * 2 ^ k /\ (q = 1 -> c = D).
Proof.
  intros Hq Hd Q ED N K Rz L. destruct (has_split nd _ Hd) as (s & n' & k' & E' & N' & K' & NK & HU). assert (0 < 2 ^ k) as Pk by (apply Z.pow_pos_nonneg; lia). assert (0 < 2 ^ k') by (apply Z.pow_pos_nonneg; lia).
  assert (0 < D) as D0 by (rewrite ED; apply pos_prod; lia). assert (s = true) as -> by (destruct s; [reflexivity | cbn [sval] in E'; nia]). cbn [sval] in E'.
  assert (k' = k) as ->. { assert (n * 2 ^ k = n' * 2 ^ k') as EE by lia. destruct (Z_lt_le_dec k k') as [C | C].
      - destruct NK as [NK | ->]; [| lia]. exfalso. assert (2 ^ k' = 2 ^ (k' - k - 1) * 2 * 2 ^ k) as P by (change 2 with (2 ^ 1) at 3; rewrite <- !Z.pow_add_r by lia; f_equal; lia). assert (0 < 2 ^ (k' - k - 1)) by (apply Z.pow_pos_nonneg; lia). rewrite P in EE. nia.
      - destruct (Z.eq_dec k' k); [assumption | exfalso]. assert (2 ^ k = 2 ^ (k - k' - 1) * 2 * 2 ^ k') as P by (change 2 with (2 ^ 1) at 3; rewrite <- !Z.pow_add_r by lia; f_equal; lia). assert (0 < 2 ^ (k - k' - 1)) by (apply Z.pow_pos_nonneg; lia). rewrite P in EE. nia. }
  assert (n' = n) as -> by (apply (Z.mul_reg_r _ _ (2 ^ k)); lia). clear E' N' NK H.
  cbn [sval] in HU. pose proof (Z.mod_pos_bound n (2 ^ 12) ltac:(reflexivity)) as Rr. pose proof (Z.div_mod n (2 ^ 12) ltac:(discriminate)) as DM. set (r := n mod 2 ^ 12) in *. set (h := n / 2 ^ 12) in *.
  assert (0 <= h < 2 ^ 12) as Hh by lia.
  assert (0 < 2 ^ 149) as P149 by reflexivity.
  (* the four parts *)
  pose proof (upper_int fq q Hq ltac:(lia)) as Hxh.
  assert (has (subf fq (upperf fq)) 0) as Hxl. { pose proof (has_sub _ _ _ _ Hq Hxh) as T. rewrite Z.sub_diag in T. exact (T rep_0). }
  assert (has (subf nd (upperf nd)) (- (r * 2 ^ k))) as Hyl. { pose proof (has_sub _ _ _ _ Hd HU) as T. replace (- D - - ((n - r) * 2 ^ k)) with (- (r * 2 ^ k)) in T by (rewrite ED; ring). apply T. apply rep_opp, rep_grid; lia. }
  pose proof (pos_prod q D ltac:(lia) D0) as QD0.
  assert (Z.abs (q * 2 ^ 149 * - D) = q * D * 2 ^ 149) as AB by (replace (q * 2 ^ 149 * - D) with (- (q * D * 2 ^ 149)) by ring; rewrite Z.abs_opp, Z.abs_eq by lia; reflexivity).
  destruct (mul_round fq nd _ _ z Hq Hd Rz) as (c & Hc & (e & E1 & E2) & G & _); [rewrite AB; apply Z.mul_le_mono_nonneg_r; lia |]. rewrite AB in E2, G.
  assert (D <= Z.abs c) as DC. { rewrite <- (Z.abs_eq D) by lia. apply G; [rewrite <- (Z.opp_involutive D); apply rep_opp, (has_rep _ _ Hd) |]. rewrite Z.abs_eq by lia. apply Z.mul_le_mono_nonneg_r; [lia |]. rewrite <- (Z.mul_1_l D) at 1. apply Z.mul_le_mono_nonneg_r; lia. }
  assert (Z.abs (c + q * D) * 2 ^ 24 <= q * D) as NR.
  { replace (c * 2 ^ 149 - q * 2 ^ 149 * - D) with ((c + q * D) * 2 ^ 149) in E1 by ring. rewrite Z.abs_mul, (Z.abs_eq (2 ^ 149)) in E1 by lia.
    destruct E2 as [-> | E2]; [rewrite (half_unit _ _ P149 E1); lia | exact (err_scale _ _ _ _ P149 E1 E2)]. }
  assert (c < 0) as C0 by exact (near_neg _ _ _ QD0 NR).
  destruct (grid_ge c n k (has_rep _ _ Hc) ltac:(lia) K ltac:(lia)) as (j & Ej).
  assert (q * D = q * n * 2 ^ k) as EQ by (rewrite ED; ring).
  assert (Z.abs (c + q * D) < q * 2 ^ k) as ES by (apply (near_scale q n k); [lia | lia | exact Pk | rewrite <- EQ; exact NR]).
  assert (c + q * D = (j + q * n) * 2 ^ k) as EG by (rewrite Ej, EQ; ring).
  assert (Z.abs (j + q * n) < q) as JS by (rewrite EG, Z.abs_mul, (Z.abs_eq (2 ^ k)) in ES by lia; exact (abs_scale _ _ _ Pk ES)).
  exists (- c). rewrite Z.opp_involutive. unfold dfmul_f2_f_f. cbn [fx fy]. split; [exact Hc |].
  assert (has (mulf (upperf fq) (upperf nd)) (- (q * h * 2 ^ (12 + k)))) as T1.
  { apply (has_mul _ _ _ _ _ Hxh HU); [rewrite Z.pow_add_r by lia; replace (n - r) with (2 ^ 12 * h) by lia; ring |]. apply rep_opp.
    assert (q * h * 2 ^ (12 + k) <= Z.abs z) as B. { rewrite Z.pow_add_r by lia. assert (q * h * (2 ^ 12 * 2 ^ k) <= q * n * 2 ^ k) by (replace (q * h * (2 ^ 12 * 2 ^ k)) with (q * (2 ^ 12 * h) * 2 ^ k) by ring; apply Z.mul_le_mono_nonneg_r; [lia |]; apply Z.mul_le_mono_nonneg_l; lia). lia. }
    exists (q * h), (12 + k). destruct Rz as (_ & _ & _ & _ & _ & Bz). assert (0 < 2 ^ (12 + k)) by (apply Z.pow_pos_nonneg; lia). pose proof (small_prod q h ltac:(lia) Hh) as QH. assert (0 <= q * h * 2 ^ (12 + k)) by (apply Z.mul_nonneg_nonneg; lia). rewrite Z.abs_eq by assumption.
    split; [exact QH |]. split; [lia |]. split; [reflexivity | lia]. }
  assert (has (subf (mulf (upperf fq) (upperf nd)) (mulf fq nd)) ((- (j + q * n) + q * r) * 2 ^ k)) as T2.
  { pose proof (has_sub _ _ _ _ T1 Hc) as T. replace (- (q * h * 2 ^ (12 + k)) - c) with ((- (j + q * n) + q * r) * 2 ^ k) in T; [apply T; apply rep_grid; [apply small_prod2; lia | lia] |].
    rewrite Ej, Z.pow_add_r by lia. replace (q * h * (2 ^ 12 * 2 ^ k)) with (q * (2 ^ 12 * h) * 2 ^ k) by ring. replace (2 ^ 12 * h) with (n - r) by lia. ring. }
  assert (has (mulf (subf fq (upperf fq)) (upperf nd)) 0) as T3 by (apply (has_mul _ _ _ _ _ Hxl HU); [ring | exact rep_0]).
  assert (has (mulf (upperf fq) (subf nd (upperf nd))) (- (q * r * 2 ^ k))) as T4 by (apply (has_mul _ _ _ _ _ Hxh Hyl); [ring | apply rep_opp, rep_grid; [pose proof (small_prod q r ltac:(lia) Rr); lia | lia]]).
  assert (has (mulf (subf fq (upperf fq)) (subf nd (upperf nd))) 0) as T5 by (apply (has_mul _ _ _ _ _ Hxl Hyl); [ring | exact rep_0]).
  assert (has (addf (subf (mulf (upperf fq) (upperf nd)) (mulf fq nd)) (mulf (subf fq (upperf fq)) (upperf nd))) ((- (j + q * n) + q * r) * 2 ^ k)) as T6.
  { pose proof (has_add _ _ _ _ T2 T3) as T. rewrite Z.add_0_r in T. apply T, (has_rep _ _ T2). }
  assert (has (addf (addf (subf (mulf (upperf fq) (upperf nd)) (mulf fq nd)) (mulf (subf fq (upperf fq)) (upperf nd))) (mulf (upperf fq) (subf nd (upperf nd)))) (- c - q * D)) as T7.
  { pose proof (has_add _ _ _ _ T6 T4) as T. replace ((- (j + q * n) + q * r) * 2 ^ k + - (q * r * 2 ^ k)) with (- c - q * D) in T by (rewrite EQ, Ej; ring). apply T.
    replace (- c - q * D) with ((- (j + q * n)) * 2 ^ k) by (rewrite EQ, Ej; ring). apply rep_grid; [lia | lia]. }
  split.
  { pose proof (has_add _ _ _ _ T7 T5) as T. rewrite Z.add_0_r in T. exact (T (has_rep _ _ T7)). }
  split; [unfold near; replace (- c - q * D) with (- (c + q * D)) by ring; rewrite Z.abs_opp, (Z.abs_eq (q * D)) by lia; exact NR |].
  split; [lia |]. split; [exists (- j); rewrite Ej; ring |]. split; [replace (- c - q * D) with (- (c + q * D)) by ring; rewrite Z.abs_opp; exact ES |].
  intros ->. assert (j + 1 * n = 0) by lia. rewrite Ej, ED. assert (j = - n) as -> by lia. ring.
Qed.
