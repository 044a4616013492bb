(** fmod and remainder as functions of their arguments: exact results, special cases, signs. *)
Require Import ZArith List Bool Lia.
Require Import Verif.FloatSpec Verif.FloatProofs Verif.FloatArith Verif.FloatArithSpec Verif.FloatArithProofs Verif.FloatArithProofs2 Verif.RoundEven Verif.X86Cvt Verif.X86CvtSpec Verif.X86CvtProofs2 Verif.X86CvtProofs4
  Verif.FixedPointConv Verif.SleefBase Verif.Sleef Verif.SleefSpec Verif.SleefProofs Verif.SleefProofs2 Verif.SleefProofs4 Verif.SleefProofs5 Verif.SleefProofs6 Verif.SleefProofs7 Verif.SleefProofs8 Verif.SleefProofs9 Verif.SleefProofs10 Verif.SleefRem Verif.SleefProofs11 Verif.SleefProofs12 Verif.SleefProofs13 Verif.SleefProofs14.
Local Open Scope Z_scope.

(** the part of fmod after the scaling of the arguments *)
Definition fmod_tail (U : Z -> Z) (x nu de s : Z) : Z :=
  let rde := toward0f (divf F_1_0 de) in
  let r := fmod_loop U 8 de rde (F2 nu I_0) in
  let ret := mulf (addf (fx r) (fy r)) s in
  let ret := if eqf (addf (fx r) (fy r)) de then I_0 else ret in
  let ret := mulsignf ret x in
  let ret := if ltf nu de then x else ret in
  if eqf de I_0 then SLEEF_NANf else ret.
Lemma fmod_eq U x y : xfmodf U x y =
  if ltf (fabsfk y) FLT_MIN then fmod_tail U x (mulf (fabsfk x) two25) (mulf (fabsfk y) two25) half25 else fmod_tail U x (fabsfk x) (fabsfk y) I_1.
Proof. unfold xfmodf, fmod_tail. destruct (ltf (fabsfk y) FLT_MIN); reflexivity. Qed.

Lemma tail_ok U x nu de s b m n c sg : pattern x -> val x = FFin b m -> has nu (m * c) -> has de (n * c) -> has s sg -> 0 < c -> 0 < sg -> c * sg = 2 ^ 149 -> 0 < n -> 2 ^ 23 <= n * c -> 0 <= m < 2 ^ 12 * n -> rep (m mod n) ->
  val (fmod_tail U x nu de s) = FFin b (m mod n).
Proof.
  intros P V Hn Hd Hs C0 S0 CS N0 D0 MB R. unfold fmod_tail. rewrite (eqf_has _ _ _ _ Hd has_zero). destruct (Z.eqb_spec (n * c) 0) as [E | _]; [lia |]. rewrite (ltf_has _ _ _ _ Hn Hd).
  destruct (Z.ltb_spec (m * c) (n * c)) as [L | L].
  - rewrite V. f_equal. symmetry. apply Z.mod_small. split; [lia |]. apply (Z.mul_lt_mono_pos_r c); lia.
  - assert (m * c < 2 ^ 12 * (n * c)) as UB by (rewrite Z.mul_assoc; apply Z.mul_lt_mono_pos_r; lia).
    destruct (loop_ok U nu de _ _ Hn Hd D0 (conj L UB)) as (HR & HZ). cbv zeta in HR, HZ. set (r := fmod_loop U 8 de (toward0f (divf F_1_0 de)) (F2 nu I_0)) in *.
    pose proof (Z.mod_pos_bound (m * c) (n * c) ltac:(lia)) as MB'. rewrite (eqf_has _ _ _ _ HR Hd). destruct (Z.eqb_spec ((m * c) mod (n * c)) (n * c)) as [E | _]; [lia |].
    assert ((m * c) mod (n * c) = m mod n * c) as EM by (apply Z.mul_mod_distr_r; lia). rewrite EM in *. pose proof (Z.mod_pos_bound m n N0) as MN.
    assert (val (mulf (addf (fx r) (fy r)) s) = FFin false (m mod n)) as VR.
    { destruct (Z.eq_dec (m mod n) 0) as [Z0 | NZ].
      - rewrite (HZ ltac:(rewrite Z0; reflexivity)), Z0. rewrite (mul_val 0 s (FFin false 0) _ eq_refl (pos_val _ _ Hs S0)). rewrite Z.mul_0_l. reflexivity.
      - apply pos_val; [| lia]. apply (has_mul _ _ _ _ _ HR Hs); [rewrite <- Z.mul_assoc, CS; reflexivity | exact R]. }
    rewrite val_mulsign by (apply mulf_pat || exact P). rewrite VR. pose proof (val_sign x P) as VS. rewrite V in VS. rewrite <- VS. destruct b; reflexivity.
Qed.
Lemma fabs_has x b m : pattern x -> val x = FFin b m -> has (fabsfk x) m.
Proof. intros P V. split; [apply fabs_pat |]. exists false, m. rewrite val_fabs, V by exact P. split; reflexivity. Qed.
Lemma has_two25 : has two25 (2 ^ 25 * 2 ^ 149).
Proof. apply has_const; [split; vm_compute; congruence | vm_compute; reflexivity]. Qed.
Lemma has_half25 : has half25 (2 ^ 124).
Proof. apply has_const; [split; vm_compute; congruence | vm_compute; reflexivity]. Qed.
Lemma has_fltmin : has FLT_MIN (2 ^ 23).
Proof. apply has_const; [split; vm_compute; congruence | vm_compute; reflexivity]. Qed.
Lemma rep_up z : rep z -> Z.abs z < 2 ^ 252 -> rep (z * 2 ^ 25).
Proof.
  intros (n & k & N & K & E & B) H. exists n, (k + 25). rewrite Z.abs_mul, (Z.abs_eq (2 ^ 25)), E by lia. rewrite Z.pow_add_r by lia. split; [exact N |]. split; [lia |]. split; [ring |]. rewrite <- E. change (2 ^ 277) with (2 ^ 252 * 2 ^ 25). apply Z.mul_lt_mono_pos_r; [reflexivity | exact H].
Qed.
Lemma scale_up x m : has x m -> Z.abs m < 2 ^ 252 -> has (mulf x two25) (m * 2 ^ 25).
Proof. intros H B. apply (has_mul _ _ _ _ _ H has_two25); [ring | apply rep_up; [exact (has_rep _ _ H) | exact B]]. Qed.
Lemma fmod_ok U x y b m b' n : pattern x -> pattern y -> val x = FFin b m -> val y = FFin b' n -> 0 < n -> m < 4096 * n -> val (xfmodf U x y) = FFin b (m mod n).
Proof.
  intros P P' V V' N0 MB. pose proof (val_nonneg _ _ _ V) as M0. pose proof (fabs_has _ _ _ P V) as Hx. pose proof (fabs_has _ _ _ P' V') as Hy. rewrite fmod_eq. rewrite (ltf_has _ _ _ _ Hy has_fltmin).
  pose proof (Z.mod_pos_bound m n N0) as MN. destruct (Z.ltb_spec n (2 ^ 23)) as [S | S].
  - assert (2 ^ 40 < 2 ^ 252) by reflexivity. apply (tail_ok U x _ _ half25 b m n (2 ^ 25) (2 ^ 124) P V); [apply scale_up; [exact Hx | lia] | apply scale_up; [exact Hy | lia] | exact has_half25 | reflexivity | reflexivity | reflexivity | exact N0 | lia | lia |].
    replace (m mod n) with (m mod n * 2 ^ 0) by (change (2 ^ 0) with 1; ring). apply rep_grid; lia.
  - assert (rep (m mod n)) as R.
    { destruct (Z_lt_le_dec m n) as [C | C]; [rewrite Z.mod_small by lia; exact (has_rep _ _ Hx) |]. destruct (loop_ok U _ _ _ _ Hx Hy S ltac:(lia)) as (HR & _). exact (has_rep _ _ HR). }
    apply (tail_ok U x _ _ I_1 b m n 1 (2 ^ 149) P V); rewrite ?Z.mul_1_r; (exact Hx || exact Hy || exact has_one || exact R || reflexivity || lia).
Qed.

(** signs *)
Lemma fmod_odd U x y : pattern x -> pattern y -> val (xfmodf U (negf x) y) = negated (val (xfmodf U x y)) /\ xfmodf U x (negf y) = xfmodf U x y.
Proof.
  intros P P'. split.
  - rewrite !fmod_eq, (fabs_neg x P). unfold fmod_tail.
    assert (forall r (c d e : bool), pattern r -> val (if c then SLEEF_NANf else if d then negf x else mulsignf (if e then I_0 else r) (negf x)) = negated (val (if c then SLEEF_NANf else if d then x else mulsignf (if e then I_0 else r) x))) as H.
    { intros r c d e R. destruct c; [reflexivity |]. destruct d; [apply val_neg, P |]. apply mulsign_neg; [destruct e; [split; vm_compute; congruence | exact R] | exact P]. }
    destruct (ltf (fabsfk y) FLT_MIN); apply H; apply mulf_pat.
  - unfold xfmodf. rewrite (fabs_neg y P'). reflexivity.
Qed.

(** what is not a number stays so *)
Definition out (x : Z) : Prop := nan x \/ an_infinity x.
Lemma turn_nan x y q d : pattern x -> nan x \/ val x = FInf false \/ nan d -> nan (fx (dfnormalize_f2_f2 (dfadd2_f2_f2_f2 (F2 x y) (dfmul_f2_f_f q (negf d))))).
Proof.
  intros P H. unfold dfnormalize_f2_f2, dfadd2_f2_f2_f2, dfmul_f2_f_f. cbn [fx fy].
  destruct H as [H | [V | H]].
  - apply nan_addl, nan_addl, H.
  - apply nan_addr, nan_addl, nan_addl, nan_subr, nan_subr. set (a := mulf q (negf d)).
    assert (val (addf x a) = FNaN \/ val (addf x a) = FInf false) as [H | H].
    { unfold addf, fadd. fold (val x). fold (val a). rewrite V. destruct (val a) as [| [] |]; vm_compute; tauto. }
    + apply nan_subl, H.
    + unfold nan, subf, fsub, fadd. fold (val (addf x a)). rewrite H. change (decode binary32 (fopp binary32 x)) with (val (negf x)). rewrite val_neg, V by exact P. vm_compute. reflexivity.
  - apply nan_addl, nan_addr, nan_mulr, nan_neg, H.
Qed.
Lemma turn_pat r r' : pattern (fx (dfnormalize_f2_f2 (dfadd2_f2_f2_f2 r r'))).
Proof. unfold dfnormalize_f2_f2. cbn [fx]. apply addf_pat. Qed.
Lemma loop_nan U t d rd r : pattern (fx r) -> nan (fx r) -> nan (fx (fmod_loop U t d rd r)).
Proof.
  revert r. induction t as [| t IH]; intros r P H; [exact H |]. rewrite loop_eq. cbv zeta. destruct r as [x y]. cbn [fx] in *.
  pose proof (turn_nan x y (pick U x rd d) d P (or_introl H)) as T. rewrite (ltf_nanl _ d T). apply IH; [apply turn_pat | exact T].
Qed.
Lemma loop_out U d rd x y : pattern x -> nan x \/ val x = FInf false \/ nan d -> nan (fx (fmod_loop U 8 d rd (F2 x y))).
Proof.
  intros P H. rewrite loop_eq. cbv zeta. cbn [fx]. pose proof (turn_nan x y (pick U x rd d) d P H) as T. rewrite (ltf_nanl _ d T). apply loop_nan; [apply turn_pat | exact T].
Qed.
Lemma tail_nan U x nu de s : pattern x -> pattern nu -> nan nu \/ val nu = FInf false \/ nan de -> ltf nu de = false -> nan (fmod_tail U x nu de s).
Proof.
  intros P P' H L. unfold fmod_tail. destruct (eqf de I_0); [apply nan_const |]. rewrite L. pose proof (loop_out U de (toward0f (divf F_1_0 de)) nu I_0 P' H) as T.
  pose proof (nan_addl _ (fy (fmod_loop U 8 de (toward0f (divf F_1_0 de)) (F2 nu I_0))) T) as T'. cbv zeta. rewrite (eqf_nanl _ _ T'). apply nan_mulsign; [apply mulf_pat | exact P |]. apply nan_mull, T'.
Qed.
Lemma inf_scaled x : val x = FInf false -> val (mulf x two25) = FInf false.
Proof. intros V. rewrite (mul_val x two25 _ _ V (pos_val _ _ has_two25 eq_refl)). vm_compute. reflexivity. Qed.
Lemma fmod_out U x y : pattern x -> pattern y -> nan x \/ an_infinity x \/ nan y \/ a_zero y -> nan (xfmodf U x y).
Proof.
  intros P P' H. rewrite fmod_eq. destruct H as [H | [H | [H | H]]].
  - pose proof (nan_fabs x P H) as N. destruct (ltf (fabsfk y) FLT_MIN); apply tail_nan; try exact P; try apply mulf_pat; try apply fabs_pat.
    + left. apply nan_mull, N. + apply ltf_nanl, nan_mull, N. + left. exact N. + apply ltf_nanl, N.
  - assert (val (fabsfk x) = FInf false) as V by (rewrite val_fabs by exact P; destruct H as (s & ->); reflexivity).
    assert (forall a b, val a = FInf false -> ltf a b = false) as L by (intros a b E; rewrite ltf_val, E; destruct (val b) as [| [] | [] ]; reflexivity).
    destruct (ltf (fabsfk y) FLT_MIN); apply tail_nan; try exact P; try apply mulf_pat; try apply fabs_pat.
    + right; left. apply inf_scaled, V. + apply L, inf_scaled, V. + right; left. exact V. + apply L, V.
  - pose proof (nan_fabs y P' H) as N. rewrite (ltf_nanl _ _ N). apply tail_nan; [exact P | apply fabs_pat | right; right; exact N | apply ltf_nanr, N].
  - destruct H as (s & H). pose proof (fabs_has _ _ _ P' H) as Hy. rewrite (ltf_has _ _ _ _ Hy has_fltmin). change (0 <? 2 ^ 23) with true. cbv beta iota. unfold fmod_tail.
    rewrite (eqf_has _ _ _ _ (scale_up _ _ Hy eq_refl) has_zero). change (0 * 2 ^ 25 =? 0) with true. cbv beta iota. apply nan_const.
Qed.
Lemma fmod_inf U x y : pattern x -> pattern y -> finite x -> an_infinity y -> xfmodf U x y = x.
Proof.
  intros P P' (b & m & V) (s & H). assert (val (fabsfk y) = FInf false) as VY by (rewrite val_fabs, H by exact P'; reflexivity). rewrite fmod_eq. 
  assert (ltf (fabsfk y) FLT_MIN = false) as -> by (rewrite ltf_val, VY; reflexivity). unfold fmod_tail.
  assert (eqf (fabsfk y) I_0 = false) as -> by (rewrite eqf_val, VY; reflexivity). rewrite (ltf_inf _ _ m (fabs_has _ _ _ P V) VY). reflexivity.
Qed.
