(** Products and signs. *)
Require Import ZArith List Bool Lia.
Require Import Verif.FloatSpec Verif.FloatProofs Verif.FloatArith Verif.FloatArithSpec Verif.FloatArithProofs2 Verif.RoundEven Verif.X86Cvt Verif.X86CvtSpec Verif.X86CvtProofs4
  Verif.SleefBase Verif.Sleef Verif.SleefSpec Verif.SleefProofs Verif.SleefProofs2 Verif.SleefProofs4 Verif.SleefProofs5 Verif.SleefProofs6.
Local Open Scope Z_scope.

Lemma mul_val a b v w : val a = v -> val b = w -> mulf a b = match v, w with
  | FNaN, _ | _, FNaN => nan_bits binary32
  | FInf s, FInf s' => sign_bit binary32 (xorb s s') + inf_bits binary32
  | FInf s, FFin s' m => if m =? 0 then nan_bits binary32 else sign_bit binary32 (xorb s s') + inf_bits binary32
  | FFin s m, FInf s' => if m =? 0 then nan_bits binary32 else sign_bit binary32 (xorb s s') + inf_bits binary32
  | FFin s m, FFin s' m' => encode binary32 (xorb s s') (m * m') 149
  end.
Proof. intros <- <-. reflexivity. Qed.

(** opposite operands *)
Lemma mul_negneg a : pattern a -> mulf (negf a) (negf a) = mulf a a.
Proof.
  intros P. rewrite (mul_val _ _ _ _ (val_neg a P) (val_neg a P)), (mul_val a a _ _ eq_refl eq_refl).
  destruct (val a) as [| s | s m]; cbn [negated]; [reflexivity | |]; destruct s; reflexivity.
Qed.

(** b is the opposite of a, or both are NaNs *)
Definition opp_or_nan (a b : Z) : Prop := (nan a /\ nan b) \/ (pattern a /\ b = negf a).
Lemma encode_neg s x d : 0 <= d -> 0 <= x -> negf (encode binary32 s x d) = encode binary32 (negb s) x d.
Proof.
  intros D X. unfold encode. apply opp_split. pose proof (round_nonneg x d D X). assert (0 <= inf_bits binary32 < 2 ^ 31) by (split; [discriminate | reflexivity]). lia.
Qed.
Lemma mul_opp a b c : opp_or_nan a b -> opp_or_nan (mulf a c) (mulf b c).
Proof.
  intros [[A B] | [P ->]]; [left; split; apply nan_mull; assumption |].
  rewrite (mul_val _ _ _ _ (val_neg a P) eq_refl), (mul_val a c _ _ eq_refl eq_refl).
  destruct (val a) as [| s | s m] eqn:A; cbn [negated]; [left; split; reflexivity | |].
  - destruct (val c) as [| t | t k] eqn:C; [left; split; reflexivity | right; split; [apply inf_pat | destruct s, t; reflexivity] |].
    destruct (k =? 0); [left; split; reflexivity | right; split; [apply inf_pat | destruct s, t; reflexivity]].
  - pose proof (val_nonneg _ _ _ A). destruct (val c) as [| t | t k] eqn:C; [left; split; reflexivity | |].
    + destruct (m =? 0); [left; split; reflexivity | right; split; [apply inf_pat | destruct s, t; reflexivity]].
    + pose proof (val_nonneg _ _ _ C). right. split; [apply encode_pat; nia |]. rewrite encode_neg by nia. rewrite negb_xorb_l. reflexivity.
Qed.
Lemma opp_val a b : opp_or_nan a b -> val b = negated (val a).
Proof. intros [[A B] | [P ->]]; [rewrite A, B; reflexivity | apply val_neg, P]. Qed.

(** an upper bound keeps a product finite *)
Lemma encode_finite s x d p : 0 <= d -> 0 <= p < inf_bits binary32 -> 0 <= x <= vmag binary32 p * 2 ^ d -> exists m, val (encode binary32 s x d) = FFin s m /\ m <= vmag binary32 p.
Proof.
  intros D P X. rewrite val_encode by lia. pose proof (round_le p x d D ltac:(lia) ltac:(lia) ltac:(lia)) as R. pose proof (round_nonneg x d D ltac:(lia)).
  rewrite Z.min_l by lia. unfold of_mag. destruct (Z.eqb_spec (round_mag binary32 x d) (inf_bits binary32)); [lia |]. eexists. split; [reflexivity |]. apply vmag_mono; [exact m32 | lia | lia].
Qed.

(** the number above 1 nearest to it is 1 + 2^-23 *)
Lemma above_one x s m : pattern x -> val x = FFin s m -> 2 ^ 149 < m -> 2 ^ 149 + 2 ^ 126 <= m.
Proof.
  intros P V M. destruct (dec_mag binary32 x s m g32 P V) as (p & _ & Hp & ->).
  assert (1065353216 < p) as L. { apply (FloatArithProofs.mono_lt binary32); [exact g32 | lia | lia |]. replace (vmag binary32 1065353216) with (2 ^ 149) by (vm_compute; reflexivity). exact M. }
  replace (2 ^ 149 + 2 ^ 126) with (vmag binary32 1065353217) by (vm_compute; reflexivity). apply vmag_mono; [exact m32 | lia | lia].
Qed.

(** (1 - |x|) / 2 beyond 1 *)
Lemma half_rest x : pattern x -> above 1 (absolute x) -> nan (SQRTF (mulf (subf I_1 (fabsfk x)) F_5_1)).
Proof.
  intros P A. unfold above in A. rewrite absolute_fabs, val_fabs in A by assumption. pose proof (val_fabs x P) as V.
  destruct (val x) as [| t | t m] eqn:W; [discriminate | |].
  - assert (val (subf I_1 (fabsfk x)) = FInf true) as S.
    { unfold subf, fsub. change (fopp binary32 (fabsfk x)) with (negf (fabsfk x)). unfold fadd. fold (val (negf (fabsfk x))). rewrite val_neg, V by apply fabs_pat. reflexivity. }
    unfold SQRTF. rewrite (mul_val _ _ _ _ S eq_refl). reflexivity.
  - change (whole 1) with (FFin false (2 ^ 149)) in A. cbn [flt fle sval] in A. apply negb_true_iff, Z.leb_gt in A.
    pose proof (above_one (fabsfk x) false m (fabs_pat x) V A) as M.
    assert (subf I_1 (fabsfk x) = encode binary32 true (m - 2 ^ 149) 0) as S.
    { unfold subf, fsub. change (fopp binary32 (fabsfk x)) with (negf (fabsfk x)). unfold fadd. fold (val (negf (fabsfk x))). rewrite val_neg, V by apply fabs_pat.
      change (decode binary32 I_1) with (FFin false (2 ^ 149)). cbn [negated negb sval]. cbv zeta.
      destruct (Z.eqb_spec (2 ^ 149 + - m) 0); [lia |]. destruct (Z.ltb_spec (2 ^ 149 + - m) 0); [| lia]. f_equal. lia. }
    destruct (dec_mag binary32 (fabsfk x) false m g32 (fabs_pat x) V) as (p & _ & Hp & Em).
    destruct (encode_finite true (m - 2 ^ 149) 0 p ltac:(lia) Hp ltac:(rewrite <- Em; lia)) as (k & K & _).
    assert (2 ^ 126 <= k) as K2.
    { assert (872415232 <= round_mag binary32 (m - 2 ^ 149) 0) as R.
      { apply round_ge; [lia | lia |]. replace (vmag binary32 872415232) with (2 ^ 126) by (vm_compute; reflexivity). lia. }
      rewrite val_encode in K by lia. unfold of_mag in K. destruct (_ =? _); [discriminate |]. injection K as <-.
      replace (2 ^ 126) with (vmag binary32 872415232) by (vm_compute; reflexivity). apply vmag_mono; [exact m32 | lia |].
      apply Z.min_glb; [exact R | discriminate]. }
    rewrite <- S in K. assert (val (mulf (subf I_1 (fabsfk x)) F_5_1) = FInf true \/ exists q, val (mulf (subf I_1 (fabsfk x)) F_5_1) = FFin true q /\ 0 < q) as R.
    { assert (val F_5_1 = FFin false (2 ^ 148)) as H5 by (vm_compute; reflexivity).
      rewrite (mul_val _ _ _ _ K H5). cbn [xorb]. apply encode_nonzero; [discriminate |]. change (2 ^ 149) with (2 * 2 ^ 148). assert (2 <= 2 ^ 126) by discriminate. assert (0 < 2 ^ 148) by reflexivity. nia. }
    unfold SQRTF, fsqrt. fold (val (mulf (subf I_1 (fabsfk x)) F_5_1)). destruct R as [-> | (q & -> & Q)]; [reflexivity |]. destruct q; try lia. reflexivity.
Qed.

Lemma widen_le u v : fle (widen64 u) (widen64 v) = fle u v.
Proof.
  destruct u as [| [] | s m], v as [| [] | s' m']; try reflexivity. cbn [widen64 fle].
  assert (forall t n, sval t (n * 2 ^ 925) = sval t n * 2 ^ 925) as S by (intros [] n; cbn [sval]; ring).
  rewrite !S. apply eq_iff_eq_true. rewrite !Z.leb_le. assert (0 < 2 ^ 925) by reflexivity. nia.
Qed.
Lemma eqd_single c c' x : decode binary64 c = widen64 (val c') -> eqd (f2d x) c = eqf x c'.
Proof.
  intros C. unfold eqd, f2d. destruct (double_of_single_ok x) as [D _]. rewrite D, C. rewrite eqf_val. unfold feqb. rewrite !widen_le. reflexivity.
Qed.

(** the sign of a number as a number *)
Lemma signf_eq x : pattern x -> signf x = if sign_of binary32 x then I_m1 else I_1.
Proof.
  intros P. split_p x. unfold signf. change c_one with (sign_bit binary32 false + I_1). rewrite mulsign_split, sign_split by (assumption || (split; [discriminate | reflexivity])).
  destruct s; reflexivity.
Qed.
Lemma sign_m1 x : pattern x -> eqf (signf x) I_m1 = sign_of binary32 x.
Proof. intros P. rewrite signf_eq by assumption. destruct (sign_of binary32 x); reflexivity. Qed.

Lemma mulf_comm a b : mulf a b = mulf b a.
Proof.
  rewrite (mul_val a b _ _ eq_refl eq_refl), (mul_val b a _ _ eq_refl eq_refl). destruct (val a) as [| s | s m], (val b) as [| s' | s' m']; try reflexivity.
  - rewrite xorb_comm. reflexivity.
  - rewrite xorb_comm. reflexivity.
  - rewrite xorb_comm. reflexivity.
  - rewrite xorb_comm, Z.mul_comm. reflexivity.
Qed.
Lemma mul_opp_r a b c : opp_or_nan a b -> opp_or_nan (mulf c a) (mulf c b).
Proof. rewrite (mulf_comm c a), (mulf_comm c b). apply mul_opp. Qed.
Lemma mulsign_opp x y : pattern x -> pattern y -> mulsignf x (negf y) = negf (mulsignf x y).
Proof. intros P Q. split_p x. split_p y. rewrite opp_split, !mulsign_split, opp_split by assumption. f_equal. destruct s, s0; reflexivity. Qed.

(** the test of an integer within the range of int *)
Lemma int_test U x s m : pattern x -> val x = FFin s m -> m mod 2 ^ 149 = 0 -> - 2 ^ 31 * 2 ^ 149 <= sval s m < 2 ^ 31 * 2 ^ 149 -> xisintf U x = true.
Proof.
  intros P V I R. pose proof (val_nonneg _ _ _ V) as N. destruct (dec_mag binary32 x s m g32 P V) as (p & _ & Hp & E).
  set (k := m / 2 ^ 149). assert (m = k * 2 ^ 149) as K by (pose proof (Z.div_mod m (2 ^ 149) ltac:(discriminate)); unfold k; lia).
  assert (0 <= k) by (apply Z.div_pos; [lia | reflexivity]).
  assert (0 < 2 ^ 149) by reflexivity.
  assert (toint U x = sval s k) as T.
  { unfold toint, to_int. fold (val x). rewrite V. change (scale binary32) with 149. fold k.
    assert (- 2 ^ 31 <= sval s k < 2 ^ 31) as B by (destruct s; cbn [sval] in *; nia). assert ((- 2 ^ 31 <=? sval s k) && (sval s k <? 2 ^ 31) = true) as -> by lia. reflexivity. }
  unfold xisintf. rewrite T, eqf_val, V. unfold fint, of_int. change (scale binary32) with 149. rewrite val_encode by lia.
  assert (Z.abs (sval s k) * 2 ^ 149 = m) as A by (destruct s; cbn [sval]; lia). rewrite A.
  assert (round_mag binary32 m 0 = p) as ->. { rewrite E. replace (vmag binary32 p) with (vmag binary32 p * 2 ^ 0) by apply Z.mul_1_r. apply round_mag_exact; [exact m32 | lia | lia]. }
  rewrite Z.min_l by lia. unfold of_mag. destruct (Z.eqb_spec p (inf_bits binary32)); [lia |]. rewrite <- E. unfold feqb. cbn [fle].
  assert (sval (sval s k <? 0) m = sval s m) as ->.
  { destruct s; cbn [sval]; [destruct (Z.ltb_spec (- k) 0) | destruct (Z.ltb_spec k 0)]; cbn [sval]; lia. }
  rewrite Z.leb_refl. reflexivity.
Qed.

(** through double precision and back *)
Lemma nan_d2f_f2d x : nan x -> nan (d2f (f2d x)).
Proof.
  intros N. unfold nan, d2f, f2d. destruct (double_of_single_ok x) as [D _]. unfold nan, val in N. rewrite N in D. unfold single_of_double. rewrite D. reflexivity.
Qed.
