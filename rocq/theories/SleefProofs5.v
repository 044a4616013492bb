(** Integers among the single precision numbers, and the sign of a difference. *)
Require Import ZArith List Bool Lia.
Require Import Verif.FloatSpec Verif.FloatProofs Verif.FloatArith Verif.FloatArithSpec Verif.RoundEven Verif.X86Cvt Verif.X86CvtSpec Verif.X86CvtProofs2 Verif.X86CvtProofs4
  Verif.FixedPointConv Verif.SleefBase Verif.Sleef Verif.SleefSpec Verif.SleefProofs Verif.SleefProofs2 Verif.SleefProofs4.
Local Open Scope Z_scope.

Lemma val_form x s m : pattern x -> val x = FFin s m -> exists q j, 0 <= q < 2 ^ 24 /\ 0 <= j /\ m = q * 2 ^ j.
Proof. intros P V. apply (decode32_form x s m); assumption. Qed.

(** from 2^24 on every number is an even integer *)
Lemma big_even x s m : pattern x -> val x = FFin s m -> 2 ^ 173 <= m -> exists k, m = 2 * k * 2 ^ 149.
Proof.
  intros P V B. destruct (val_form x s m P V) as (q & j & Q & J & ->).
  assert (150 <= j) as J'.
  { destruct (Z_lt_le_dec j 150) as [L | L]; [exfalso | exact L].
    assert (2 ^ j <= 2 ^ 149) by (apply Z.pow_le_mono_r; lia).
    assert (q * 2 ^ j < 2 ^ 24 * 2 ^ 149) by nia. change (2 ^ 24 * 2 ^ 149) with (2 ^ 173) in *. lia. }
  exists (q * 2 ^ (j - 150)). replace j with (1 + (j - 150) + 149) at 1 by lia. rewrite !Z.pow_add_r by lia. change (2 ^ 1) with 2. ring.
Qed.

Lemma int_mag n : 0 < n < 2 ^ 24 -> exists p, 0 <= p < inf_bits binary32 /\ vmag binary32 p = n * 2 ^ 149.
Proof.
  intros N. assert (0 <= Z.log2 n < 24) as L. { split; [apply Z.log2_nonneg |]. apply Z.log2_lt_pow2; lia. }
  pose proof (Z.log2_spec n ltac:(lia)) as [L1 L2].
  set (l := Z.log2 n) in *.
  assert (2 ^ 23 = 2 ^ l * 2 ^ (23 - l)) as E by (rewrite <- Z.pow_add_r by lia; f_equal; lia).
  assert (2 ^ 24 = 2 ^ (Z.succ l) * 2 ^ (23 - l)) as E2 by (rewrite <- Z.pow_add_r by lia; f_equal; lia).
  assert (0 < 2 ^ (23 - l)) by (apply Z.pow_pos_nonneg; lia).
  exists (n * 2 ^ (23 - l) + (126 + l) * 2 ^ mbits binary32).
  assert (2 ^ 23 <= n * 2 ^ (23 - l) < 2 ^ 24) as R by nia.
  split.
  - change (mbits binary32) with 23. change (inf_bits binary32) with (255 * 2 ^ 23). nia.
  - rewrite vmag_scaled; [| discriminate | lia | left; exact (proj1 R) | change (2 ^ (mbits binary32 + 1)) with (2 ^ 24); lia].
    rewrite <- Z.mul_assoc, <- Z.pow_add_r by lia. f_equal. f_equal. lia.
Qed.

Lemma fint_small n : Z.abs n < 2 ^ 24 -> val (fint n) = whole n.
Proof.
  intros N. destruct (Z.eq_dec n 0) as [-> | NZ]; [reflexivity |].
  destruct (int_mag (Z.abs n) ltac:(lia)) as (p & P & E). unfold fint, of_int. change (scale binary32) with 149. rewrite val_encode by lia.
  assert (round_mag binary32 (Z.abs n * 2 ^ 149) 0 = p) as ->.
  { rewrite <- E. replace (vmag binary32 p) with (vmag binary32 p * 2 ^ 0) by apply Z.mul_1_r. apply round_mag_exact; [exact m32 | lia | lia]. }
  rewrite Z.min_l by lia. unfold of_mag. destruct (Z.eqb_spec p (inf_bits binary32)); [lia |]. rewrite E. reflexivity.
Qed.

(** pow's tests of an integer and of an odd integer *)
Definition powint (U : Z -> Z) (y : Z) : bool := (eqf y (fint (toint U y))) || (lef (fint (Z.shiftl 1 24)) (fabsfk y)).
Definition powodd (U : Z -> Z) (y : Z) : bool := ((negb ((Z.land 1 (toint U y)) =? 0)) && powint U y) && (ltf (fabsfk y) (fint (Z.shiftl 1 24))).

Lemma val_2p24 : val (fint (Z.shiftl 1 24)) = FFin false (2 ^ 173).
Proof. vm_compute. reflexivity. Qed.

Lemma trunc_small U x s m : val x = FFin s m -> m < 2 ^ 173 -> toint U x = sval s (m / 2 ^ 149) /\ Z.abs (toint U x) < 2 ^ 24.
Proof.
  intros V M. pose proof (val_nonneg _ _ _ V) as N. unfold toint, to_int. fold (val x). rewrite V. change (scale binary32) with 149.
  assert (0 <= m / 2 ^ 149 < 2 ^ 24).
  { split; [apply Z.div_pos; [lia | reflexivity] |]. apply Z.div_lt_upper_bound; [reflexivity |]. change (2 ^ 149 * 2 ^ 24) with (2 ^ 173). lia. }
  assert ((- 2 ^ 31 <=? sval s (m / 2 ^ 149)) && (sval s (m / 2 ^ 149) <? 2 ^ 31) = true) as -> by (destruct s; cbn [sval]; lia).
  split; [reflexivity |]. destruct s; cbn [sval]; lia.
Qed.

Lemma eqf_trunc U x s m : val x = FFin s m -> m < 2 ^ 173 -> eqf x (fint (toint U x)) = (m mod 2 ^ 149 =? 0).
Proof.
  intros V M. pose proof (val_nonneg _ _ _ V) as N. destruct (trunc_small U x s m V M) as (T & A).
  rewrite eqf_val, V, fint_small by exact A. rewrite T. unfold feqb, whole. cbn [fle].
  set (k := m / 2 ^ 149) in *. assert (0 <= k) by (apply Z.div_pos; [lia | reflexivity]).
  assert (sval (sval s k <? 0) (Z.abs (sval s k) * 2 ^ 149) = sval s (k * 2 ^ 149)) as ->.
  { destruct s; cbn [sval].
    - destruct (Z.ltb_spec (- k) 0); cbn [sval]; rewrite ?Z.abs_opp, Z.abs_eq by lia; lia.
    - destruct (Z.ltb_spec k 0); cbn [sval]; rewrite Z.abs_eq by lia; lia. }
  pose proof (Z.div_mod m (2 ^ 149) ltac:(discriminate)) as D. fold k in D. pose proof (Z.mod_pos_bound m (2 ^ 149) ltac:(reflexivity)).
  apply eq_iff_eq_true. rewrite andb_true_iff, !Z.leb_le, Z.eqb_eq. destruct s; cbn [sval]; lia.
Qed.

Lemma powint_ok U y : pattern y -> finite y -> (powint U y = true <-> an_integer y).
Proof.
  intros P (s & m & V). pose proof (val_nonneg _ _ _ V) as N. unfold powint. rewrite lef_val, val_2p24, val_fabs, V by assumption. cbn [fle sval].
  destruct (Z.leb_spec (2 ^ 173) m) as [B | B].
  - rewrite orb_true_r. split; [| reflexivity]. intros _. exists s, m. split; [exact V |].
    destruct (big_even y s m P V B) as (k & ->). apply Z_mod_mult.
  - rewrite orb_false_r, (eqf_trunc U y s m V B), Z.eqb_eq. split.
    + intros E. exists s, m. auto.
    + intros (s' & m' & V' & E). rewrite V in V'. injection V' as <- <-. exact E.
Qed.
Lemma land1 n : (Z.land 1 n =? 0) = negb (Z.odd n).
Proof.
  rewrite Z.land_comm. change 1 with (Z.ones 1). rewrite Z.land_ones by lia. change (2 ^ 1) with 2. rewrite Zmod_odd.
  destruct (Z.odd n); reflexivity.
Qed.
Lemma powodd_ok U y : pattern y -> finite y -> (powodd U y = true <-> an_odd_integer y).
Proof.
  intros P F. pose proof (powint_ok U y P F) as I. destruct F as (s & m & V). pose proof (val_nonneg _ _ _ V) as N.
  unfold powodd. rewrite (ltf_val (fabsfk y)), val_2p24, val_fabs, V by assumption. cbn [flt fle sval].
  assert (negb (2 ^ 173 <=? m) = (m <? 2 ^ 173)) as -> by (rewrite Z.leb_antisym, negb_involutive; reflexivity).
  rewrite land1, negb_involutive, !andb_true_iff, I, Z.ltb_lt. split.
  - intros ((O & s' & m' & V' & E) & L). rewrite V in V'. injection V' as <- <-. exists s, m. split; [exact V |]. split; [exact E |].
    rewrite (proj1 (trunc_small U y s m V L)) in O. destruct s; cbn [sval] in O; [rewrite Z.odd_opp in O |]; exact O.
  - intros (s' & m' & V' & E & O). rewrite V in V'. injection V' as <- <-.
    destruct (Z_lt_le_dec m (2 ^ 173)) as [L | B].
    + split; [split; [| exists s, m; auto] | exact L]. rewrite (proj1 (trunc_small U y s m V L)). destruct s; cbn [sval]; [rewrite Z.odd_opp |]; exact O.
    + exfalso. destruct (big_even y s m P V B) as (k & ->). rewrite Z.div_mul in O by discriminate. rewrite Z.odd_mul in O. discriminate.
Qed.
Lemma powint_inf U y : pattern y -> an_infinity y -> powint U y = true.
Proof. intros P (s & V). unfold powint. rewrite (lef_val (fint _)), val_2p24, val_fabs, V by assumption. apply orb_true_r. Qed.
Lemma powodd_inf U y : pattern y -> an_infinity y -> powodd U y = false.
Proof. intros P (s & V). unfold powodd. rewrite (ltf_val (fabsfk y)), val_2p24, val_fabs, V by assumption. apply andb_false_r. Qed.

(** the sign of a difference *)
Lemma sub_sign a b s m s' m' : pattern b -> val a = FFin s m -> val b = FFin s' m' ->
  let v := sval s m - sval s' m' in
  (v = 0 /\ a_zero (subf a b)) \/
  (v <> 0 /\ (val (subf a b) = FInf (v <? 0) \/ exists k, val (subf a b) = FFin (v <? 0) k /\ 0 < k)).
Proof.
  intros P A B v. assert (subf a b = if v =? 0 then sign_bit binary32 (s && negb s') else encode binary32 (v <? 0) (Z.abs v) 0) as E.
  { unfold subf, fsub. change (fopp binary32 b) with (negf b). unfold fadd. fold (val a) (val (negf b)). rewrite A, val_neg, B by assumption. cbn [negated].
    assert (sval s m + sval (negb s') m' = v) as -> by (unfold v; destruct s'; cbn [sval negb]; lia). reflexivity. }
  rewrite E. clear E. clearbody v. destruct (Z.eqb_spec v 0) as [V0 | N].
  - left. split; [exact V0 |]. exists (s && negb s'). destruct (s && negb s'); reflexivity.
  - right. split; [exact N |]. apply encode_nonzero; [lia |]. change (2 ^ 0) with 1. lia.
Qed.
