(** remainder: exact results for quotients that round to 0 and 1, special cases, signs. *)
Require Import ZArith List Bool Lia.
Require Import Verif.FloatSpec Verif.FloatProofs Verif.FloatArith Verif.FloatArithSpec Verif.FloatArithProofs Verif.FloatArithProofs2 Verif.RoundEven Verif.X86Cvt Verif.X86CvtSpec Verif.X86CvtProofs2 Verif.X86CvtProofs4
  Verif.FixedPointConv Verif.SleefBase Verif.Sleef Verif.SleefSpec Verif.SleefProofs Verif.SleefProofs2 Verif.SleefProofs4 Verif.SleefProofs5 Verif.SleefProofs6 Verif.SleefProofs7 Verif.SleefProofs8 Verif.SleefProofs9 Verif.SleefProofs10 Verif.SleefRem Verif.SleefProofs11 Verif.SleefProofs12 Verif.SleefProofs13 Verif.SleefProofs14 Verif.SleefProofs15.
Local Open Scope Z_scope.

Definition rem_pick (U : Z -> Z) (d rd : Z) (odd : bool) (x : Z) : Z :=
  let q := rintfk2 U (mulf x rd) in
  let q := if ltf (fabsfk x) (mulf F_15 d) then (if ltf x I_0 then I_m1 else I_1) else q in
  if ltf (fabsfk x) (mulf F_5_1 d) || (eqf (fabsfk x) (mulf F_5_1 d) && negb odd) then I_0 else q.
Definition rem_next (U : Z -> Z) (d q : Z) (r : f2) : Z := if xisinff (mulf q (negf d)) then addf q (mulsignf I_m1 (fx r)) else q.
Lemma rem_loop_eq U t d rd odd r : exists odd', rem_loop U (S t) d rd odd r =
  let q := rem_pick U d rd odd (fx r) in
  if eqf q I_0 then r else rem_loop U t d rd odd' (dfnormalize_f2_f2 (dfadd2_f2_f2_f2 r (dfmul_f2_f_f (rem_next U d q r) (negf d)))).
Proof. eexists. cbn [rem_loop]. unfold rem_pick, rem_next. cbv zeta. reflexivity. Qed.

Lemma half_has d D : has d D -> 2 ^ 24 <= D -> exists h, has (mulf F_5_1 d) h /\ 2 * h = D.
Proof.
  intros H B. destruct (norm_form d D H ltac:(lia)) as (n & k & E & N & K). assert (1 <= k) as K1. { destruct (Z.eq_dec k 0) as [-> |]; [change (2 ^ 0) with 1 in E; lia | lia]. }
  assert (2 ^ k = 2 * 2 ^ (k - 1)) as P by (change 2 with (2 ^ 1) at 2; rewrite <- Z.pow_add_r by lia; f_equal; lia).
  exists (n * 2 ^ (k - 1)). split; [| rewrite E, P; ring]. assert (has F_5_1 (2 ^ 148)) as HH by (apply has_const; [split; vm_compute; congruence | vm_compute; reflexivity]).
  apply (has_mul _ _ _ _ _ HH H); [rewrite E, P; change (2 ^ 149) with (2 * 2 ^ 148); ring | apply rep_grid; lia].
Qed.
Lemma rem_stop U t d rd odd r R D : has (fx r) R -> has d D -> 2 ^ 24 <= D -> 2 * Z.abs R < D \/ (2 * Z.abs R <= D /\ odd = false) -> rem_loop U (S t) d rd odd r = r.
Proof.
  intros Hr Hd B C. destruct (rem_loop_eq U t d rd odd r) as (odd' & ->). cbv zeta. destruct (half_has d D Hd B) as (h & Hh & E). unfold rem_pick.
  rewrite (ltf_has _ _ _ _ (has_fabs _ _ Hr) Hh), (eqf_has _ _ _ _ (has_fabs _ _ Hr) Hh).
  assert ((Z.abs R <? h) || ((Z.abs R =? h) && negb odd) = true) as ->; [| reflexivity].
  destruct C as [C | (C & ->)]; [apply orb_true_intro; left; apply Z.ltb_lt; lia |]. destruct (Z.ltb_spec (Z.abs R) h); [reflexivity |]. destruct (Z.eqb_spec (Z.abs R) h); [reflexivity | lia].
Qed.
Lemma times15 x d X D : has x X -> has d D -> 2 ^ 24 <= D -> 0 <= X -> 4 * X <= 5 * D -> ltf x (mulf F_15 d) = true.
Proof.
  intros Hx Hd D0 X0 L. assert (has F_15 (3 * 2 ^ 148)) as H3 by (apply has_const; [split; vm_compute; congruence | vm_compute; reflexivity]).
  set (F := (2 ^ 24 - 1) * 2 ^ 253). assert (rep F) as RF by (apply (rep_grid (2 ^ 24 - 1) 253); [reflexivity | lia]). assert (0 < F) as F0 by reflexivity. assert (2 ^ 277 * 10 < F * 11) as FB by reflexivity. clearbody F.
  assert (0 < 2 ^ 148) as P by reflexivity. assert (2 ^ 149 = 2 * 2 ^ 148) as P2 by reflexivity. set (g := 2 ^ 148) in *.
  rewrite ltf_val. rewrite (mul_val F_15 d _ _ (pos_val _ _ H3 ltac:(lia)) (pos_val _ _ Hd ltac:(lia))). cbn [xorb]. assert (0 <= 3 * g * D) as G0 by (apply Z.mul_nonneg_nonneg; lia).
  destruct (Z_le_gt_dec (3 * D) (2 * F)) as [C | C].
  - destruct (enc_round false (3 * g * D) 149 F G0 ltac:(lia) RF) as (M & VM & M0 & (e & E1 & E2) & _ & _).
    { rewrite Z.abs_eq by lia. rewrite P2. replace (3 * g * D) with (3 * D * g) by ring. replace (F * (2 * g)) with (2 * F * g) by ring. apply Z.mul_le_mono_nonneg_r; lia. }
    change (scale binary32) with 149. rewrite VM. pose proof Hx as (Px & sx & mx & Vx & Ex). rewrite Vx. cbn [flt fle]. rewrite Ex. change (sval false M) with M. apply negb_true_iff, Z.leb_gt.
    rewrite P2 in E1, E2. replace (M * (2 * g) - 3 * g * D) with ((2 * M - 3 * D) * g) in E1 by ring. rewrite Z.abs_mul, (Z.abs_eq g) in E1 by lia.
    assert (Z.abs (2 * M - 3 * D) * 2 ^ 22 <= 3 * D) as NR.
    { destruct E2 as [-> | E2]; [| replace (3 * g * D) with (3 * D * g) in E2 by ring; pose proof (err_scale _ _ _ _ P E1 E2); lia]. assert (Z.abs (2 * M - 3 * D) <= 1) by (apply (Z.mul_le_mono_pos_r _ _ g); lia). lia. }
    lia.
  - rewrite val_encode by lia. change (scale binary32) with 149. pose proof Hx as (Px & sx & mx & Vx & Ex). rewrite Vx.
    destruct (Z_le_gt_dec (2 * 2 ^ 277) (3 * D)) as [C2 | C2].
    + assert (inf_bits binary32 <= round_mag binary32 (3 * g * D) 149) as R.
      { apply round_ge; [lia | discriminate |]. rewrite (vmag_inf binary32 g32). change (beyond binary32) with (2 ^ 277). rewrite P2. replace (3 * g * D) with (3 * D * g) by ring. replace (2 ^ 277 * (2 * g)) with (2 * 2 ^ 277 * g) by ring. apply Z.mul_le_mono_nonneg_r; lia. }
      rewrite Z.min_r by exact R. reflexivity.
    + destruct (rep_mag F RF) as (pF & HpF & EpF). rewrite Z.abs_eq in EpF by lia.
      assert (pF <= round_mag binary32 (3 * g * D) 149) as RL. { apply round_ge; [lia | lia |]. rewrite EpF, P2. replace (3 * g * D) with (3 * D * g) by ring. replace (F * (2 * g)) with (2 * F * g) by ring. apply Z.mul_le_mono_nonneg_r; lia. }
      unfold of_mag. set (rm := Z.min (round_mag binary32 (3 * g * D) 149) (inf_bits binary32)) in *. destruct (Z.eqb_spec rm (inf_bits binary32)) as [W | W]; [reflexivity |].
      cbn [flt fle]. rewrite Ex. change (sval false (vmag binary32 rm)) with (vmag binary32 rm). assert (vmag binary32 pF <= vmag binary32 rm) by (apply (vmag_mono binary32 ltac:(discriminate)); lia). apply negb_true_iff, Z.leb_gt. lia.
Qed.
Lemma rem_one U d rd n A D : has n A -> has d D -> 2 ^ 24 <= D -> D < 2 * A -> 4 * A <= 5 * D ->
  has (fx (rem_loop U 8 d rd false (F2 n I_0))) (A - D) /\ (A = D -> fx (rem_loop U 8 d rd false (F2 n I_0)) = 0).
Proof.
  intros Hn Hd B L1 L2. destruct (rem_loop_eq U 7 d rd false (F2 n I_0)) as (odd' & ->). cbv zeta. cbn [fx]. destruct (half_has d D Hd B) as (h & Hh & E).
  assert (rem_pick U d rd false n = I_1) as ->.
  { unfold rem_pick. rewrite (ltf_has _ _ _ _ (has_fabs _ _ Hn) Hh), (eqf_has _ _ _ _ (has_fabs _ _ Hn) Hh). rewrite Z.abs_eq by lia.
    assert ((A <? h) || ((A =? h) && negb false) = false) as -> by (destruct (Z.ltb_spec A h); [lia |]; destruct (Z.eqb_spec A h); [lia | reflexivity]).
    pose proof (has_fabs _ _ Hn) as Ha. rewrite Z.abs_eq in Ha by lia. rewrite (times15 _ _ _ _ Ha Hd B ltac:(lia) L2). rewrite (ltf_has _ _ _ _ Hn has_zero). destruct (Z.ltb_spec A 0); [lia | reflexivity]. }
  rewrite (eqf_has _ _ _ _ has_one has_zero). change (2 ^ 149 =? 0) with false. cbv beta iota.
  destruct (norm_form d D Hd ltac:(lia)) as (m & k & ED & N & K). assert (has I_1 (1 * 2 ^ 149)) as H1 by exact has_one.
  destruct (product I_1 (negf d) 1 D m k D H1 (has_neg _ _ Hd) ltac:(lia) ED N ltac:(lia) (has_rep _ _ Hd) ltac:(lia)) as (c & F1 & F2' & _ & _ & _ & _ & Q1).
  rewrite (Q1 eq_refl) in *. rewrite Z.mul_1_l, Z.sub_diag in F2'.
  assert (rem_next U d I_1 (F2 n I_0) = I_1) as ->.
  { unfold rem_next. rewrite isinf_iff. unfold dfmul_f2_f_f in F1. cbn [fx] in F1. destruct F1 as (_ & s & m' & V & _). rewrite V. reflexivity. }
  destruct (dfmul_f2_f_f I_1 (negf d)) as [a b]. cbn [fx fy] in F1, F2'.
  assert (rep (A - D)) as RS by (apply sterbenz; [exact (has_rep _ _ Hn) | exact (has_rep _ _ Hd) | lia | lia | lia | lia]).
  destruct (cancel n I_0 a b A 0 D 0 Hn has_zero F1 F2' RS rep_0 ltac:(lia)) as (G1 & G2 & G3).
  destruct (dfadd2_f2_f2_f2 (F2 n I_0) (F2 a b)) as [t s]. cbn [fx fy] in G1, G2, G3.
  assert (has (fx (dfnormalize_f2_f2 (F2 t s))) (A - D)) as G4. { unfold dfnormalize_f2_f2. cbn [fx fy]. pose proof (has_add _ _ _ _ G1 G2) as T. replace (A - D + (0 + 0)) with (A - D) in T by ring. exact (T RS). }
  rewrite (rem_stop U 6 d rd odd' _ (A - D) D G4 Hd B ltac:(left; lia)). split; [exact G4 |].
  intros ->. unfold dfnormalize_f2_f2. cbn [fx fy]. apply (add_zero t s _ _ G1 G2); [lia | right; apply G3; lia].
Qed.

Definition rem_tail (U : Z -> Z) (x y n d s : Z) : Z :=
  let ret := mulsignf (mulf (fx (rem_loop U 8 d (divf F_1_0 d) false (F2 n I_0))) s) x in
  let ret := if xisinff y then (if xisinff x then SLEEF_NANf else x) else ret in
  if eqf d I_0 then SLEEF_NANf else ret.
Lemma rem_eq U x y : xremainderf U x y =
  if ltf (fabsfk y) (mulf FLT_MIN I_2) then rem_tail U x y (mulf (fabsfk x) two25) (mulf (fabsfk y) two25) half25 else rem_tail U x y (fabsfk x) (fabsfk y) I_1.
Proof. unfold xremainderf, rem_tail. destruct (ltf (fabsfk y) (mulf FLT_MIN I_2)); reflexivity. Qed.
Lemma has_fltmin2 : has (mulf FLT_MIN I_2) (2 ^ 24).
Proof. apply has_const; [split; vm_compute; congruence | vm_compute; reflexivity]. Qed.

(** the number z with the sign of b when it is 0 *)
Definition shows (v : fval) (b : bool) (z : Z) : Prop := v = FFin (if z =? 0 then b else z <? 0) (Z.abs z).
Lemma shows_sign x r b m z : pattern x -> pattern r -> val x = FFin b m -> shows (val r) false z -> shows (val (mulsignf r x)) b (sval b z).
Proof.
  unfold shows. intros P R V H. rewrite val_mulsign, H by assumption. pose proof (val_sign x P) as VS. rewrite V in VS. rewrite <- VS. destruct b; cbn [sval negated]; [| reflexivity].
  destruct (Z.eqb_spec z 0) as [-> | NZ]; [reflexivity |]. destruct (Z.eqb_spec (- z) 0); [lia |]. rewrite Z.abs_opp. f_equal. destruct (Z.ltb_spec z 0), (Z.ltb_spec (- z) 0); try reflexivity; lia.
Qed.
Lemma rem_tail_ok U x y n d s b m b' k c sg z : pattern x -> val x = FFin b m -> val y = FFin b' k -> has n (m * c) -> has d (k * c) -> has s sg -> 0 < c -> 0 < sg -> c * sg = 2 ^ 149 -> 0 < k -> 2 ^ 24 <= k * c -> 0 <= m -> rep z ->
  (2 * m <= k /\ z = m) \/ (k < 2 * m /\ 4 * m <= 5 * k /\ z = m - k) -> (2 * m <= k -> n = 0 \/ m <> 0) ->
  shows (val (rem_tail U x y n d s)) b (sval b z).
Proof.
  intros P V V' Hn Hd Hs C0 S0 CS K0 D0 M0 R Z0 NZ. unfold rem_tail. rewrite (eqf_has _ _ _ _ Hd has_zero). destruct (Z.eqb_spec (k * c) 0) as [E | _]; [lia |]. rewrite (isinf_iff y), V'. cbv zeta.
  apply (shows_sign x _ b m z P (mulf_pat _ _) V). set (r := fx (rem_loop U 8 d (divf F_1_0 d) false (F2 n I_0))).
  assert (has r (z * c) /\ (z = 0 -> r = 0)) as (Hr & Zr).
  { unfold r. destruct Z0 as [(L & ->) | (L1 & L2 & ->)].
    - assert (2 * (m * c) <= k * c) as L' by (rewrite Z.mul_assoc; apply Z.mul_le_mono_nonneg_r; lia). assert (0 <= m * c) by (apply Z.mul_nonneg_nonneg; lia).
      rewrite (rem_stop U 7 d _ false (F2 n I_0) (m * c) (k * c) Hn Hd D0) by (right; split; [lia | reflexivity]). cbn [fx]. split; [exact Hn |]. intros E. destruct (NZ L); [assumption | contradiction].
    - destruct (rem_one U d (divf F_1_0 d) n (m * c) (k * c) Hn Hd D0) as (H1 & H2); [rewrite Z.mul_assoc; apply Z.mul_lt_mono_pos_r; lia | rewrite !Z.mul_assoc; apply Z.mul_le_mono_nonneg_r; lia |].
      rewrite Z.mul_sub_distr_r. split; [exact H1 |]. intros E. apply H2. f_equal. lia. }
  unfold shows. destruct (Z.eqb_spec z 0) as [-> | NZ'].
  - rewrite (Zr eq_refl). rewrite (mul_val 0 s (FFin false 0) _ eq_refl (pos_val _ _ Hs S0)). rewrite Z.mul_0_l. reflexivity.
  - apply has_val; [| exact NZ']. apply (has_mul _ _ _ _ _ Hr Hs); [rewrite <- Z.mul_assoc, CS; reflexivity | exact R].
Qed.
Lemma fabs_zero x b : pattern x -> val x = FFin b 0 -> fabsfk x = 0.
Proof. intros P V. apply (val_eq (fabsfk x) 0 (fabs_pat x)); [split; lia | rewrite val_fabs, V by exact P; reflexivity | discriminate]. Qed.
Lemma rem_ok U x y b m b' k z : pattern x -> pattern y -> val x = FFin b m -> val y = FFin b' k -> 0 < k -> (2 * m <= k /\ z = m) \/ (k < 2 * m /\ 4 * m <= 5 * k /\ z = m - k) -> shows (val (xremainderf U x y)) b (sval b z).
Proof.
  intros P P' V V' K0 Z0. pose proof (val_nonneg _ _ _ V) as M0. pose proof (fabs_has _ _ _ P V) as Hx. pose proof (fabs_has _ _ _ P' V') as Hy. rewrite rem_eq. rewrite (ltf_has _ _ _ _ Hy has_fltmin2).
  assert (rep z) as R. { destruct Z0 as [(_ & ->) | (L1 & L2 & ->)]; [exact (has_rep _ _ Hx) |]. apply sterbenz; [exact (has_rep _ _ Hx) | exact (has_rep _ _ Hy) | lia | lia | lia | lia]. }
  destruct (Z.ltb_spec k (2 ^ 24)) as [S | S].
  - assert (2 ^ 40 < 2 ^ 252) by reflexivity. apply (rem_tail_ok U x y _ _ half25 b m b' k (2 ^ 25) (2 ^ 124) z P V V'); [apply scale_up; [exact Hx | lia] | apply scale_up; [exact Hy | lia] | exact has_half25 | reflexivity | reflexivity | reflexivity | exact K0 | lia | lia | exact R | exact Z0 |].
    intros _. destruct (Z.eq_dec m 0) as [-> |]; [left | right; assumption]. rewrite (fabs_zero x b P V). reflexivity.
  - apply (rem_tail_ok U x y _ _ I_1 b m b' k 1 (2 ^ 149) z P V V'); rewrite ?Z.mul_1_r; try (exact Hx || exact Hy || exact has_one || exact R || reflexivity || exact Z0 || lia).
    intros _. destruct (Z.eq_dec m 0) as [-> |]; [left | right; assumption]. exact (fabs_zero x b P V).
Qed.

Lemma rem_odd U x y : pattern x -> pattern y -> val (xremainderf U (negf x) y) = negated (val (xremainderf U x y)) /\ xremainderf U x (negf y) = xremainderf U x y.
Proof.
  intros P P'. split.
  - rewrite !rem_eq, (fabs_neg x P). unfold rem_tail.
    assert (xisinff (negf x) = xisinff x) as -> by (rewrite !isinf_iff, val_neg by exact P; destruct (val x); reflexivity).
    assert (forall r (c d e : bool), pattern r -> val (if c then SLEEF_NANf else if d then (if e then SLEEF_NANf else negf x) else mulsignf r (negf x)) = negated (val (if c then SLEEF_NANf else if d then (if e then SLEEF_NANf else x) else mulsignf r x))) as H.
    { intros r c d e R. destruct c; [reflexivity |]. destruct d; [destruct e; [reflexivity | apply val_neg, P] |]. apply mulsign_neg; [exact R | exact P]. }
    destruct (ltf (fabsfk y) (mulf FLT_MIN I_2)); apply H; apply mulf_pat.
  - rewrite !rem_eq. unfold rem_tail. rewrite (fabs_neg y P'). assert (xisinff (negf y) = xisinff y) as -> by (rewrite !isinf_iff, val_neg by exact P'; destruct (val y); reflexivity). reflexivity.
Qed.

Lemma rem_loop_nan U t d rd odd r : pattern (fx r) -> nan (fx r) -> nan (fx (rem_loop U t d rd odd r)).
Proof.
  revert odd r. induction t as [| t IH]; intros odd r P H; [exact H |]. destruct (rem_loop_eq U t d rd odd r) as (odd' & ->). cbv zeta. destruct (eqf _ I_0); [exact H |].
  apply IH; [apply turn_pat |]. destruct r as [x y]. apply turn_nan; [exact P | left; exact H].
Qed.
Lemma nan_rint2 U x : pattern x -> nan x -> nan (rintfk2 U x).
Proof.
  intros P H. unfold rintfk2. rewrite (lef_nanr _ _ (nan_fabs x P H)). cbv zeta. unfold copysignfk.
  assert (forall a, nan a -> pattern a -> nan (Z.lxor (Z.land a 0x7fffffff) (Z.land x (2 ^ 31)))) as K.
  { intros a A PA. rewrite (Z.land_comm a). change (nan (mulsignf (fabsfk a) x)). apply nan_mulsign; [apply fabs_pat | exact P | apply nan_fabs; assumption]. }
  apply K; [apply nan_subl, nan_addl, H | apply subf_pat].
Qed.
Lemma rem_pick_nan U d rd odd x : pattern x -> nan d -> nan rd -> nan (rem_pick U d rd odd x).
Proof.
  intros P D R. unfold rem_pick. rewrite !(ltf_nanr _ (mulf F_15 d)) by (apply nan_mulr, D). rewrite (ltf_nanr _ (mulf F_5_1 d)), (eqf_nanr _ (mulf F_5_1 d)) by (apply nan_mulr, D). cbn [orb andb].
  apply nan_rint2; [apply mulf_pat | apply nan_mulr, R].
Qed.
Lemma inf_ltf a b : val a = FInf false -> ltf a b = false.
Proof. intros E. rewrite ltf_val, E. destruct (val b) as [| [] | [] ]; reflexivity. Qed.
Lemma rd_inf x d D : val x = FInf false -> has d D -> 2 ^ 23 <= D -> val (mulf x (divf F_1_0 d)) = FInf false.
Proof.
  intros V H D0. pose proof (pos_val _ _ H ltac:(lia)) as VD. pose proof (has_bound _ _ H) as BD. rewrite Z.abs_eq in BD by lia.
  assert (exists v, val (divf F_1_0 d) = v /\ (v = FInf false \/ exists m, v = FFin false m /\ 0 < m)) as (v & Ev & C).
  { eexists. split; [reflexivity |]. unfold divf, fdiv. change (decode binary32 F_1_0) with (FFin false (2 ^ 149)). fold (val d). rewrite VD. destruct (Z.eqb_spec D 0); [lia |]. cbn [xorb]. change (2 ^ 149 * 2 ^ scale binary32) with (2 ^ 298).
    destruct (sticky_bounds D ltac:(lia)) as (SB & X0). cbv zeta in SB, X0. set (q := sticky_quotient (2 ^ 298) D) in *. rewrite val_encode by lia. set (rm := Z.min (round_mag binary32 q 2) (inf_bits binary32)).
    assert (1 <= round_mag binary32 q 2) as R1. { apply round_ge; [lia | lia |]. change (vmag binary32 1 * 2 ^ 2) with 4. destruct (Z_le_gt_dec 4 q); [assumption | exfalso]. assert (q * D <= 3 * D) by (apply Z.mul_le_mono_nonneg_r; lia). assert (2 ^ 277 * 4 < 2 ^ 298) by reflexivity. lia. }
    assert (1 <= rm) as R2 by (unfold rm; apply Z.min_glb; [exact R1 | discriminate]). unfold of_mag. destruct (rm =? inf_bits binary32); [left; reflexivity | right]. exists (vmag binary32 rm). split; [reflexivity |].
    pose proof (vmag_strict binary32 ltac:(discriminate) 0 rm ltac:(lia) ltac:(lia)) as S. exact S. }
  rewrite (mul_val x _ _ _ V Ev). destruct C as [-> | (m & -> & M)]; [reflexivity |]. destruct (Z.eqb_spec m 0); [lia | reflexivity].
Qed.
Lemma rem_pick_inf U d odd x D : pattern x -> val x = FInf false -> has d D -> 2 ^ 24 <= D -> val (rem_pick U d (divf F_1_0 d) odd x) = FInf false.
Proof.
  intros P V H D0. unfold rem_pick. destruct (half_has d D H D0) as (h & Hh & _). assert (val (fabsfk x) = FInf false) as VA by (rewrite val_fabs, V by exact P; reflexivity).
  rewrite !(inf_ltf (fabsfk x) _ VA). assert (eqf (fabsfk x) (mulf F_5_1 d) = false) as ->. { rewrite eqf_val, VA. destruct Hh as (_ & s & m & -> & _). destruct s; reflexivity. } cbn [orb andb].
  pose proof (rd_inf x d D V H ltac:(lia)) as VR. unfold rintfk2. assert (lef (fint (Z.shiftl 1 23)) (fabsfk (mulf x (divf F_1_0 d))) = true) as ->; [| exact VR].
  rewrite lef_val, (val_fabs _ (mulf_pat _ _)), VR. reflexivity.
Qed.
Lemma rem_out U x y : pattern x -> pattern y -> nan x \/ an_infinity x \/ nan y \/ a_zero y -> nan (xremainderf U x y).
Proof.
  intros P P' H. rewrite rem_eq.
  assert (forall nn d s, pattern nn -> nan nn \/ nan d \/ (val nn = FInf false /\ (an_infinity y \/ exists D, has d D /\ 2 ^ 24 <= D)) -> (an_infinity y -> an_infinity x \/ nan x) -> nan (rem_tail U x y nn d s)) as T.
  { intros nn d s PN C I. unfold rem_tail. destruct (eqf d I_0); [apply nan_const |].
    destruct (xisinff y) eqn:IY.
    - assert (an_infinity y) as YI. { rewrite isinf_iff in IY. destruct (val y) as [| s' |] eqn:VY; try discriminate IY. exists s'. exact VY. }
      destruct (I YI) as [XI | XN]; [destruct XI as (s' & V); rewrite isinf_iff, V; apply nan_const |]. apply nan_if; [apply nan_const | exact XN].
    - apply nan_mulsign; [apply mulf_pat | exact P | apply nan_mull].
      destruct (rem_loop_eq U 7 d (divf F_1_0 d) false (F2 nn I_0)) as (odd' & ->). cbv zeta. cbn [fx].
      destruct C as [C | [C | (C & [YI | (D & HD & BD)])]].
      + destruct (eqf _ I_0); [exact C |]. apply rem_loop_nan; [apply turn_pat | apply turn_nan; [exact PN | left; exact C]].
      + rewrite (eqf_nanl _ I_0 (rem_pick_nan U d (divf F_1_0 d) false nn PN C (nan_divr _ _ C))). apply rem_loop_nan; [apply turn_pat | apply turn_nan; [exact PN | right; right; exact C]].
      + destruct YI as (s' & V). rewrite isinf_iff, V in IY. discriminate IY.
      + assert (eqf (rem_pick U d (divf F_1_0 d) false nn) I_0 = false) as -> by (rewrite eqf_val, (rem_pick_inf U d false nn D PN C HD BD); reflexivity).
        apply rem_loop_nan; [apply turn_pat | apply turn_nan; [exact PN | right; left; exact C]]. }
  destruct H as [H | [H | [H | H]]].
  - pose proof (nan_fabs x P H) as N. destruct (ltf (fabsfk y) (mulf FLT_MIN I_2)); apply T; try apply mulf_pat; try apply fabs_pat; try (intros _; right; exact H); left; [apply nan_mull |]; exact N.
  - assert (val (fabsfk x) = FInf false) as V by (rewrite val_fabs by exact P; destruct H as (s & ->); reflexivity).
    destruct (val y) as [| s' | b' k] eqn:VY.
    + assert (nan (fabsfk y)) as N by (apply nan_fabs; [exact P' | exact VY]). rewrite (ltf_nanl _ _ N). apply T; [apply fabs_pat | right; left; exact N | intros _; left; exact H].
    + assert (val (fabsfk y) = FInf false) as VA by (rewrite val_fabs, VY by exact P'; reflexivity). rewrite (inf_ltf _ _ VA). apply T; [apply fabs_pat | right; right; split; [exact V | left; exists s'; exact VY] | intros _; left; exact H].
    + pose proof (fabs_has _ _ _ P' VY) as Hy. pose proof (val_nonneg _ _ _ VY) as K0. rewrite (ltf_has _ _ _ _ Hy has_fltmin2). destruct (Z.ltb_spec k (2 ^ 24)) as [S | S].
      * assert (2 ^ 40 < 2 ^ 252) by reflexivity. pose proof (scale_up _ _ Hy ltac:(lia)) as Hs. destruct (Z.eq_dec k 0) as [-> | KZ].
        -- unfold rem_tail. rewrite (eqf_has _ _ _ _ Hs has_zero). apply nan_const.
        -- apply T; [apply mulf_pat | right; right; split; [apply inf_scaled, V | right; exists (k * 2 ^ 25); split; [exact Hs | lia]] | intros _; left; exact H].
      * apply T; [apply fabs_pat | right; right; split; [exact V | right; exists k; split; [exact Hy | exact S]] | intros _; left; exact H].
  - pose proof (nan_fabs y P' H) as N. rewrite (ltf_nanl _ _ N). apply T; [apply fabs_pat | right; left; exact N |]. intros (s' & V). unfold nan in H. rewrite V in H. discriminate H.
  - destruct H as (s & H). pose proof (fabs_has _ _ _ P' H) as Hy. rewrite (ltf_has _ _ _ _ Hy has_fltmin2). change (0 <? 2 ^ 24) with true. cbv beta iota. unfold rem_tail.
    rewrite (eqf_has _ _ _ _ (scale_up _ _ Hy eq_refl) has_zero). apply nan_const.
Qed.
Lemma rem_inf U x y : pattern x -> pattern y -> finite x -> an_infinity y -> xremainderf U x y = x.
Proof.
  intros P P' (b & m & V) (s & H). assert (val (fabsfk y) = FInf false) as VY by (rewrite val_fabs, H by exact P'; reflexivity). rewrite rem_eq. rewrite (inf_ltf _ _ VY). unfold rem_tail.
  assert (eqf (fabsfk y) I_0 = false) as -> by (rewrite eqf_val, VY; reflexivity). rewrite (isinf_iff y), H, (isinf_iff x), V. reflexivity.
Qed.
