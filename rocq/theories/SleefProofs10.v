(** Exact operations: [has x z] says that the pattern x stands for the number z, in units of 2^-149. *)
Require Import ZArith List Bool Lia.
Require Import Verif.FloatSpec Verif.FloatProofs Verif.FloatArith Verif.FloatArithSpec Verif.FloatArithProofs Verif.FloatArithProofs2 Verif.RoundEven Verif.X86Cvt Verif.X86CvtSpec Verif.X86CvtProofs2 Verif.X86CvtProofs4
  Verif.FixedPointConv Verif.SleefBase Verif.Sleef Verif.SleefSpec Verif.SleefProofs Verif.SleefProofs2 Verif.SleefProofs4 Verif.SleefProofs5 Verif.SleefProofs6 Verif.SleefProofs7 Verif.SleefProofs8.
Local Open Scope Z_scope.

Definition has (x z : Z) : Prop := pattern x /\ exists s m, val x = FFin s m /\ sval s m = z.
(** the format has the number z *)
Definition rep (z : Z) : Prop := exists n k, 0 <= n < 2 ^ 24 /\ 0 <= k /\ Z.abs z = n * 2 ^ k /\ Z.abs z < 2 ^ 277.

Lemma rep_mag z : rep z -> exists p, 0 <= p < inf_bits binary32 /\ vmag binary32 p = Z.abs z.
Proof.
  intros (n & k & N & K & E & B). rewrite E in *. destruct (Z.eq_dec n 0) as [-> | NZ]; [exists 0; split; [split; [lia | reflexivity] | rewrite Z.mul_0_l; reflexivity] |].
  assert (0 <= Z.log2 n < 24) as L. { split; [apply Z.log2_nonneg |]. apply Z.log2_lt_pow2; lia. }
  pose proof (Z.log2_spec n ltac:(lia)) as [L1 L2]. set (l := Z.log2 n) in *.
  assert (0 < 2 ^ k) by (apply Z.pow_pos_nonneg; lia). assert (0 < 2 ^ l) by (apply Z.pow_pos_nonneg; lia).
  assert (l + k < 277) as LK. { apply (Z.pow_lt_mono_r_iff 2); [lia | lia |]. rewrite Z.pow_add_r by lia. nia. }
  destruct (Z_lt_le_dec (k - 23 + l) 0) as [S | S].
  - assert (n * 2 ^ k < 2 ^ 23) as T.
    { assert (2 ^ (Z.succ l) * 2 ^ k <= 2 ^ 23) by (rewrite <- Z.pow_add_r by lia; apply Z.pow_le_mono_r; lia). nia. }
    exists (n * 2 ^ k). split; [split; [nia | change (inf_bits binary32) with (255 * 2 ^ 23); lia] |]. apply vmag_sub; [discriminate | change (mbits binary32) with 23; nia].
  - assert (2 ^ 23 = 2 ^ l * 2 ^ (23 - l)) as E1 by (rewrite <- Z.pow_add_r by lia; f_equal; lia).
    assert (2 ^ 24 = 2 ^ (Z.succ l) * 2 ^ (23 - l)) as E2 by (rewrite <- Z.pow_add_r by lia; f_equal; lia).
    assert (0 < 2 ^ (23 - l)) by (apply Z.pow_pos_nonneg; lia).
    exists (n * 2 ^ (23 - l) + (k - 23 + l) * 2 ^ mbits binary32).
    assert (2 ^ 23 <= n * 2 ^ (23 - l) < 2 ^ 24) as R by nia.
    split.
    + change (mbits binary32) with 23. change (inf_bits binary32) with (255 * 2 ^ 23). nia.
    + rewrite vmag_scaled; [| discriminate | lia | left; exact (proj1 R) | change (2 ^ (mbits binary32 + 1)) with (2 ^ 24); lia].
      rewrite <- Z.mul_assoc, <- Z.pow_add_r by lia. f_equal. f_equal. lia.
Qed.
Lemma rep_opp z : rep z -> rep (- z).
Proof. unfold rep. rewrite Z.abs_opp. exact (fun H => H). Qed.
Lemma rep_0 : rep 0.
Proof. exists 0, 0. repeat split; try discriminate. Qed.
Lemma val_bound x s m : pattern x -> val x = FFin s m -> 0 <= m < 2 ^ 277.
Proof.
  intros P V. destruct (dec_mag binary32 x s m g32 P V) as (p & _ & Hp & ->). split; [apply vmag_nonneg; [discriminate | lia] |].
  change (2 ^ 277) with (beyond binary32). rewrite <- (vmag_inf binary32 g32). apply (vmag_strict binary32 ltac:(discriminate)); lia.
Qed.
Lemma has_rep x z : has x z -> rep z.
Proof.
  intros (P & s & m & V & <-). destruct (val_form x s m P V) as (q & j & Q & J & E). pose proof (val_bound x s m P V) as B.
  assert (Z.abs (sval s m) = m) as A by (destruct s; cbn [sval]; lia). exists q, j. rewrite A. repeat split; (assumption || lia).
Qed.
Lemma has_pat x z : has x z -> pattern x.
Proof. intros (P & _). exact P. Qed.
(** the sign a nonzero number has *)
Lemma has_val x z : has x z -> z <> 0 -> val x = FFin (z <? 0) (Z.abs z).
Proof.
  intros (P & s & m & V & E) NZ. pose proof (val_nonneg _ _ _ V) as N. rewrite V. destruct s; cbn [sval] in E; f_equal; [symmetry; apply Z.ltb_lt; lia | lia | symmetry; apply Z.ltb_ge; lia | lia].
Qed.
Lemma encode_rep s z d : rep z -> 0 <= d -> val (encode binary32 s (Z.abs z * 2 ^ d) d) = FFin s (Z.abs z).
Proof.
  intros R D. destruct (rep_mag z R) as (p & Hp & E). assert (0 < 2 ^ d) by (apply Z.pow_pos_nonneg; lia). rewrite val_encode by nia. rewrite <- E.
  rewrite round_mag_exact by (exact m32 || lia). rewrite Z.min_l by lia. unfold of_mag. destruct (Z.eqb_spec p (inf_bits binary32)); [lia |]. reflexivity.
Qed.
Lemma has_neg x z : has x z -> has (negf x) (- z).
Proof. intros (P & s & m & V & E). split; [apply neg_pat, P |]. exists (negb s), m. rewrite val_neg, V by exact P. split; [reflexivity |]. destruct s; cbn [negb sval] in *; lia. Qed.
Lemma has_add x y a b : has x a -> has y b -> rep (a + b) -> has (addf x y) (a + b).
Proof.
  intros (P & s & m & V & E) (P' & s' & m' & V' & E') R. split; [apply addf_pat |]. unfold addf, fadd. fold (val x). fold (val y). rewrite V, V'. cbv zeta. rewrite E, E'.
  destruct (Z.eqb_spec (a + b) 0) as [Z0 | NZ].
  - exists (s && s'), 0. rewrite Z0. split; [destruct s, s'; reflexivity | destruct s, s'; reflexivity].
  - exists (a + b <? 0), (Z.abs (a + b)). split; [pose proof (encode_rep (a + b <? 0) (a + b) 0 R ltac:(lia)) as H; change (2 ^ 0) with 1 in H; rewrite Z.mul_1_r in H; exact H |].
    destruct (Z.ltb_spec (a + b) 0); cbn [sval]; lia.
Qed.
Lemma has_sub x y a b : has x a -> has y b -> rep (a - b) -> has (subf x y) (a - b).
Proof. intros X Y R. unfold subf, fsub. change (fadd binary32 x (fopp binary32 y)) with (addf x (negf y)). unfold Z.sub. apply has_add; [exact X | apply has_neg, Y | exact R]. Qed.
Lemma has_mul x y a b c : has x a -> has y b -> a * b = c * 2 ^ 149 -> rep c -> has (mulf x y) c.
Proof.
  intros (P & s & m & V & E) (P' & s' & m' & V' & E') H R. split; [apply mulf_pat |]. rewrite (mul_val x y _ _ V V'). pose proof (val_nonneg _ _ _ V). pose proof (val_nonneg _ _ _ V').
  assert (m * m' = Z.abs c * 2 ^ 149) as ->.
  { change (2 ^ 149) with (Z.abs (2 ^ 149)). rewrite <- Z.abs_mul, <- H, Z.abs_mul. destruct s, s'; cbn [sval] in *; subst; rewrite ?Z.abs_opp, !Z.abs_eq by lia; reflexivity. }
  exists (xorb s s'), (Z.abs c). split; [apply encode_rep; [exact R | lia] |].
  assert (0 < 2 ^ 149) by reflexivity. destruct s, s'; cbn [sval xorb] in *; nia.
Qed.
Lemma ltf_has x y a b : has x a -> has y b -> ltf x y = (a <? b).
Proof. intros (P & s & m & V & <-) (P' & s' & m' & V' & <-). rewrite ltf_val, V, V'. cbn [flt fle]. rewrite Z.ltb_antisym. reflexivity. Qed.
Lemma lef_has x y a b : has x a -> has y b -> lef x y = (a <=? b).
Proof. intros (P & s & m & V & <-) (P' & s' & m' & V' & <-). rewrite lef_val, V, V'. reflexivity. Qed.
Lemma eqf_has x y a b : has x a -> has y b -> eqf x y = (a =? b).
Proof. intros (P & s & m & V & <-) (P' & s' & m' & V' & <-). rewrite eqf_val, V, V'. unfold feqb. cbn [fle]. destruct (Z.eqb_spec (sval s m) (sval s' m')); lia. Qed.
Lemma has_fabs x z : has x z -> has (fabsfk x) (Z.abs z).
Proof.
  intros (P & s & m & V & <-). split; [apply fabs_pat |]. exists false, m. rewrite val_fabs, V by exact P. split; [reflexivity |]. pose proof (val_nonneg _ _ _ V). destruct s; cbn [sval]; lia.
Qed.
Lemma has_const c z : pattern c -> val c = FFin (z <? 0) (Z.abs z) -> has c z.
Proof. intros P V. split; [exact P |]. exists (z <? 0), (Z.abs z). split; [exact V |]. destruct (Z.ltb_spec z 0); cbn [sval]; lia. Qed.
Lemma has_one : has I_1 (2 ^ 149).
Proof. apply has_const; [split; vm_compute; congruence | vm_compute; reflexivity]. Qed.
Lemma has_zero : has I_0 0.
Proof. apply has_const; [split; vm_compute; congruence | vm_compute; reflexivity]. Qed.
