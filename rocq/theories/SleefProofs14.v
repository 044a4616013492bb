(** fmod is exact for quotients below 4096: the choice of the quotient, the loop and the function. *)
Require Import ZArith List Bool Lia.
Require Import Verif.FloatSpec Verif.FloatProofs Verif.FloatArith Verif.FloatArithSpec Verif.FloatArithProofs Verif.FloatArithProofs2 Verif.RoundEven Verif.X86Cvt Verif.X86CvtSpec Verif.X86CvtProofs2 Verif.X86CvtProofs4
  Verif.FixedPointConv Verif.SleefBase Verif.Sleef Verif.SleefSpec Verif.SleefProofs Verif.SleefProofs2 Verif.SleefProofs4 Verif.SleefProofs5 Verif.SleefProofs6 Verif.SleefProofs7 Verif.SleefProofs8 Verif.SleefProofs9 Verif.SleefProofs10 Verif.SleefRem Verif.SleefProofs11 Verif.SleefProofs12 Verif.SleefProofs13.
Local Open Scope Z_scope.

Lemma has_fint n : Z.abs n < 2 ^ 24 -> has (fint n) (n * 2 ^ 149).
Proof.
  intros H. split; [apply fint_pat |]. rewrite (fint_small n H). exists (n <? 0), (Z.abs n * 2 ^ 149). split; [reflexivity |]. destruct (Z.ltb_spec n 0); cbn [sval]; lia.
Qed.
Lemma ptrunc_ok U t M : has t M -> 0 <= M < 2 ^ 161 -> has (ptruncf U t) (M / 2 ^ 149 * 2 ^ 149).
Proof.
  intros H B. assert (0 < 2 ^ 149) as P by reflexivity. pose proof (Z.div_mod M (2 ^ 149) ltac:(lia)) as DM. pose proof (Z.mod_pos_bound M (2 ^ 149) P) as MB.
  assert (0 <= M / 2 ^ 149 < 2 ^ 12) as QB by (split; [apply Z.div_pos; lia | apply Z.div_lt_upper_bound; [lia | change (2 ^ 149 * 2 ^ 12) with (2 ^ 161); lia]]).
  unfold ptruncf. pose proof H as (PT & s & m & V & E). pose proof (val_nonneg _ _ _ V) as M0. set (q := M / 2 ^ 149) in *.
  assert (toint U t = q) as EQ.
  { destruct (trunc_small U t s m V) as (T & _); [destruct s; cbn [sval] in E; change (2 ^ 161) with (2 ^ 161) in B; assert (2 ^ 161 < 2 ^ 173) by reflexivity; lia |]. rewrite T. unfold q. destruct s; cbn [sval] in *; [assert (m = 0) as -> by lia; assert (M = 0) as -> by lia; reflexivity | subst M; reflexivity]. }
  assert (has (fint (Z.shiftl 1 23)) (2 ^ 23 * 2 ^ 149)) as H23 by (apply (has_fint (2 ^ 23)); reflexivity).
  rewrite (lef_has _ _ _ _ H23 (has_fabs _ _ H)). destruct (Z.leb_spec (2 ^ 23 * 2 ^ 149) (Z.abs M)) as [C | _]; [change (2 ^ 23 * 2 ^ 149) with (2 ^ 172) in C; assert (2 ^ 161 < 2 ^ 172) by reflexivity; lia |].
  rewrite EQ. pose proof (has_fint q ltac:(lia)) as HF.
  assert (has (subf t (fint q)) (M - q * 2 ^ 149)) as HS.
  { apply (has_sub _ _ _ _ H HF). replace (M - q * 2 ^ 149) with (M mod 2 ^ 149) by lia. destruct (has_rep _ _ H) as (n & k & N & K & EM & BM). rewrite Z.abs_eq in EM, BM by lia.
    assert (0 < 2 ^ k) by (apply Z.pow_pos_nonneg; lia). destruct (Z_le_gt_dec 149 k) as [C | C].
    - replace (M mod 2 ^ 149) with 0; [exact rep_0 |]. rewrite EM. replace (2 ^ k) with (2 ^ (k - 149) * 2 ^ 149) by (rewrite <- Z.pow_add_r by lia; f_equal; lia). rewrite Z.mul_assoc, Z.mod_mul by lia. reflexivity.
    - assert (2 ^ 149 = 2 ^ (149 - k) * 2 ^ k) as P2 by (rewrite <- Z.pow_add_r by lia; f_equal; lia). assert (0 < 2 ^ (149 - k)) by (apply Z.pow_pos_nonneg; lia).
      exists (n mod 2 ^ (149 - k)), k. rewrite Z.abs_eq by lia. pose proof (Z.mod_le n (2 ^ (149 - k)) ltac:(lia) ltac:(lia)). pose proof (Z.mod_pos_bound n (2 ^ (149 - k)) ltac:(lia)).
      split; [lia |]. split; [exact K |]. split; [| assert (2 ^ 149 < 2 ^ 277) by reflexivity; lia]. rewrite EM, P2. rewrite Z.mul_mod_distr_r by lia. reflexivity. }
  pose proof (has_sub _ _ _ _ H HS) as T. replace (M - (M - q * 2 ^ 149)) with (q * 2 ^ 149) in T by ring. apply T. apply rep_grid; lia.
Qed.

Lemma pos_val x z : has x z -> 0 < z -> val x = FFin false z.
Proof. intros H P. pose proof (has_val x z H ltac:(lia)) as V. destruct (Z.ltb_spec z 0); [lia |]. rewrite Z.abs_eq in V by lia. exact V. Qed.
Lemma mul_inf c d j D : has c (j * 2 ^ 149) -> has d D -> 0 < j -> 0 < D -> 2 ^ 277 <= j * D -> val (mulf c d) = FInf false.
Proof.
  intros Hc Hd J D0 B. assert (0 < 2 ^ 149) by reflexivity. rewrite (mul_val c d _ _ (pos_val _ _ Hc ltac:(lia)) (pos_val _ _ Hd D0)). cbn [xorb]. rewrite val_encode by lia.
  assert (inf_bits binary32 <= round_mag binary32 (j * 2 ^ 149 * D) 149) as R.
  { apply round_ge; [lia | discriminate |]. rewrite (vmag_inf binary32 g32). change (beyond binary32) with (2 ^ 277). replace (j * 2 ^ 149 * D) with (j * D * 2 ^ 149) by ring. apply Z.mul_le_mono_nonneg_r; lia. }
  rewrite Z.min_r by exact R. reflexivity.
Qed.
Lemma ltf_inf x y z : has x z -> val y = FInf false -> ltf x y = true.
Proof. intros (P & s & m & V & _) Y. rewrite ltf_val, V, Y. reflexivity. Qed.
Lemma has_bound x z : has x z -> Z.abs z < 2 ^ 277.
Proof. intros H. destruct (has_rep _ _ H) as (_ & _ & _ & _ & _ & B). exact B. Qed.
Lemma times2 x d X D : has x X -> has d D -> 0 < D -> ltf x (mulf I_2 d) = (X <? 2 * D).
Proof.
  intros Hx Hd D0. assert (has I_2 (2 * 2 ^ 149)) as H2 by (apply has_const; [split; vm_compute; congruence | vm_compute; reflexivity]).
  destruct (Z_lt_le_dec (2 * D) (2 ^ 277)) as [B | B].
  - assert (rep (2 * D)) as R. { destruct (has_rep _ _ Hd) as (n & k & N & K & E & _). exists n, (k + 1). rewrite Z.abs_eq in * by lia. rewrite Z.pow_add_r by lia. repeat split; lia. }
    apply (ltf_has _ _ _ _ Hx). apply (has_mul _ _ _ _ _ H2 Hd); [ring | exact R].
  - rewrite (ltf_inf x _ X Hx (mul_inf _ _ _ _ H2 Hd ltac:(lia) D0 B)). symmetry. apply Z.ltb_lt. pose proof (has_bound _ _ Hx). lia.
Qed.
Lemma times3 x d X D : has x X -> has d D -> 2 ^ 23 <= D -> 0 <= X -> if ltf x (mulf I_3 d) then X < 3 * D else 5 * D <= 2 * X.
Proof.
  intros Hx Hd D0 X0. assert (has I_3 (3 * 2 ^ 149)) as H3 by (apply has_const; [split; vm_compute; congruence | vm_compute; reflexivity]).
  destruct (Z_lt_le_dec (3 * D) (2 ^ 277)) as [B | B].
  2: { rewrite (ltf_inf x _ X Hx (mul_inf _ _ _ _ H3 Hd ltac:(lia) ltac:(lia) B)). pose proof (has_bound _ _ Hx). lia. }
  set (F := (2 ^ 24 - 1) * 2 ^ 253). assert (rep F) as RF by (apply (rep_grid (2 ^ 24 - 1) 253); [reflexivity | lia]). assert (0 < F) as F0 by reflexivity. assert (2 ^ 277 * 10 < F * 11) as FB by reflexivity. clearbody F.
  assert (0 < 2 ^ 149) as P by reflexivity. assert (Z.abs (3 * 2 ^ 149 * D) = 3 * D * 2 ^ 149) as AB by (rewrite Z.abs_eq by lia; ring).
  destruct (Z_le_gt_dec (3 * D) F) as [C | C].
  - destruct (mul_round _ _ _ _ _ H3 Hd RF) as (c & Hc & (e & E1 & E2) & G & G'); [rewrite AB; apply Z.mul_le_mono_nonneg_r; lia |]. rewrite AB in E2, G'.
    rewrite (ltf_has _ _ _ _ Hx Hc). destruct (Z.ltb_spec X c) as [L | L].
    + destruct (Z_lt_le_dec X (3 * D)) as [|W]; [assumption | exfalso]. pose proof (G' X (has_rep _ _ Hx)) as T. rewrite (Z.abs_eq X) in T by lia. assert (Z.abs c <= X) by (apply T; apply Z.mul_le_mono_nonneg_r; lia). lia.
    + replace (c * 2 ^ 149 - 3 * 2 ^ 149 * D) with ((c - 3 * D) * 2 ^ 149) in E1 by ring. rewrite Z.abs_mul, (Z.abs_eq (2 ^ 149)) in E1 by lia.
      assert (Z.abs (c - 3 * D) * 2 ^ 24 <= 3 * D) as NR by (destruct E2 as [-> | E2]; [rewrite (half_unit _ _ P E1); lia | exact (err_scale _ _ _ _ P E1 E2)]). lia.
  - (* between the largest number and 2^128 *)
    destruct (ltf x (mulf I_3 d)) eqn:LT.
    + pose proof (has_bound _ _ Hx). destruct (Z_lt_le_dec X (3 * D)) as [|W]; [assumption | exfalso].
      (* no number lies there *)
      rewrite ltf_val in LT. rewrite (mul_val I_3 d _ _ (pos_val _ _ H3 ltac:(lia)) (pos_val _ _ Hd ltac:(lia))) in LT. cbn [xorb] in LT.
      destruct (enc_round false (3 * 2 ^ 149 * D) 149 X ltac:(lia) ltac:(lia) (has_rep _ _ Hx)) as (M & VM & M0 & _ & _ & G'); [rewrite (Z.abs_eq X) by lia; nia |].
      rewrite VM, (pos_val _ _ Hx ltac:(lia)) in LT. cbn [flt fle sval] in LT. pose proof (G' X (has_rep _ _ Hx)) as T. rewrite (Z.abs_eq X) in T by lia. assert (M <= X) by (apply T; nia). lia.
    + rewrite ltf_val in LT. rewrite (mul_val I_3 d _ _ (pos_val _ _ H3 ltac:(lia)) (pos_val _ _ Hd ltac:(lia))) in LT. cbn [xorb] in LT.
      pose proof Hx as (Px & sx & mx & Vx & Ex). rewrite Vx in LT. rewrite val_encode in LT by lia.
      destruct (rep_mag F RF) as (pF & HpF & EpF). rewrite Z.abs_eq in EpF by lia.
      assert (pF <= round_mag binary32 (3 * 2 ^ 149 * D) 149) as RL. { apply round_ge; [lia | lia |]. rewrite EpF. replace (3 * 2 ^ 149 * D) with (3 * D * 2 ^ 149) by ring. apply Z.mul_le_mono_nonneg_r; lia. }
      unfold of_mag in LT. set (rm := Z.min (round_mag binary32 (3 * 2 ^ 149 * D) 149) (inf_bits binary32)) in *. destruct (Z.eqb_spec rm (inf_bits binary32)) as [W | W]; [discriminate LT |].
      cbn [flt fle sval] in LT. assert (vmag binary32 pF <= vmag binary32 rm) by (apply (vmag_mono binary32 ltac:(discriminate)); lia). pose proof (val_nonneg _ _ _ Vx).
      assert (vmag binary32 rm <= sval sx mx) as L. { destruct (Z.leb_spec (vmag binary32 rm) (sval sx mx)); [assumption | discriminate LT]. } lia.
Qed.

Definition pick (U : Z -> Z) (x rde de : Z) : Z :=
  let q := ptruncf U (mulf (toward0f x) rde) in
  let q := if ltf x (mulf I_3 de) && lef de x then I_2 else q in
  if ltf x (mulf I_2 de) && lef de x then I_1 else q.
Lemma loop_eq U turns de rde r : fmod_loop U (S turns) de rde r =
  let r' := dfnormalize_f2_f2 (dfadd2_f2_f2_f2 r (dfmul_f2_f_f (pick U (fx r) rde de) (negf de))) in if ltf (fx r') de then r' else fmod_loop U turns de rde r'.
Proof. reflexivity. Qed.
Lemma choose_arith A D M q h : h = 2 ^ 149 -> 0 < D -> D <= A < 2 ^ 12 * D -> 5 * D <= 2 * A -> M < (q + 1) * h -> A * (2 ^ 18 - 1) * h <= M * D * 2 ^ 18 -> 2 <= q /\ 64 * (A - q * D) <= 65 * D.
Proof.
  intros Eh D0 AD A5 MQ LO. assert (0 < h) as H0 by (rewrite Eh; reflexivity). change (2 ^ 18) with 262144 in *. change (2 ^ 12) with 4096 in *. change (262144 - 1) with 262143 in *.
  assert (A * 262143 < (q + 1) * D * 262144) as K.
  { apply (Z.mul_lt_mono_pos_r h); [exact H0 |]. assert (M * D < (q + 1) * h * D) by (apply Z.mul_lt_mono_pos_r; lia). replace ((q + 1) * D * 262144 * h) with ((q + 1) * h * D * 262144) by ring. lia. }
  split; [| lia]. destruct (Z_le_gt_dec 2 q); [assumption | exfalso]. assert ((q + 1) * D <= 2 * D) by (apply Z.mul_le_mono_nonneg_r; lia). lia.
Qed.
Lemma choose U nu de A D : has nu A -> has de D -> 2 ^ 23 <= D -> D <= A < 2 ^ 12 * D ->
  exists q, has (pick U nu (toward0f (divf F_1_0 de)) de) (q * 2 ^ 149) /\ 1 <= q < 2 ^ 12 /\ q * D <= A /\ ((q = 1 /\ A < 2 * D) \/ (2 <= q /\ 64 * (A - q * D) <= 65 * D)).
Proof.
  intros HA HD D0 AD. unfold pick. rewrite (times2 _ _ _ _ HA HD) by lia. rewrite (lef_has _ _ _ _ HD HA). assert ((D <=? A) = true) as -> by (apply Z.leb_le; lia). rewrite !andb_true_r.
  destruct (Z.ltb_spec A (2 * D)) as [L2 | L2].
  - exists 1. split; [exact has_one |]. split; [lia |]. split; [lia |]. left. split; [reflexivity | exact L2].
  - pose proof (times3 _ _ _ _ HA HD D0 ltac:(lia)) as T3. destruct (ltf nu (mulf I_3 de)).
    + exists 2. split; [apply has_const; [split; vm_compute; congruence | vm_compute; reflexivity] |]. split; [lia |]. split; [lia |]. right. lia.
    + destruct (estimate nu de A D HA HD D0 AD) as (M & HM & MB & LO). assert (0 < 2 ^ 149) as P by reflexivity.
      pose proof (Z.div_mod A D ltac:(lia)) as DM. pose proof (Z.mod_pos_bound A D ltac:(lia)) as MM. assert (A / D < 2 ^ 12) as QU by (apply Z.div_lt_upper_bound; lia).
      set (q := M / 2 ^ 149). pose proof (Z.div_mod M (2 ^ 149) ltac:(lia)) as DM'. pose proof (Z.mod_pos_bound M (2 ^ 149) P) as MM'. fold q in DM'.
      assert (M < 2 ^ 161) as MU. { change (2 ^ 161) with (2 ^ 12 * 2 ^ 149). assert ((A / D + 1) * 2 ^ 149 <= 2 ^ 12 * 2 ^ 149) by (apply Z.mul_le_mono_nonneg_r; lia). lia. }
      assert (q < A / D + 1) as QL by (unfold q; apply Z.div_lt_upper_bound; lia).
      exists q. split; [apply ptrunc_ok; [exact HM | lia] |].
      destruct (choose_arith A D M q (2 ^ 149) eq_refl ltac:(lia) AD T3 ltac:(lia) LO) as (Q2 & QR).
      split; [lia |]. split; [| right; exact (conj Q2 QR)]. assert (q * D <= A / D * D) by (apply Z.mul_le_mono_nonneg_r; lia). lia.
Qed.

Lemma norm_form x D : has x D -> 2 ^ 23 <= D -> exists n k, D = n * 2 ^ k /\ 2 ^ 23 <= n < 2 ^ 24 /\ 0 <= k <= 253.
Proof.
  intros H B. destruct (has_split x D H) as (s & n & k & E & N & K & NK & _). assert (0 < 2 ^ k) by (apply Z.pow_pos_nonneg; lia).
  assert (s = false) as -> by (destruct s; [cbn [sval] in E; nia | reflexivity]). cbn [sval] in E. exists n, k. split; [exact E |]. split; [| exact K]. destruct NK as [NK | ->]; [lia |]. rewrite Z.mul_1_r in E. lia.
Qed.
Lemma finish r R : has (fx r) R -> has (fy r) 0 -> (R = 0 -> fx r = 0) -> has (addf (fx r) (fy r)) R /\ (R = 0 -> addf (fx r) (fy r) = 0).
Proof.
  intros H1 H2 H3. split; [pose proof (has_add _ _ _ _ H1 H2) as T; rewrite Z.add_0_r in T; exact (T (has_rep _ _ H1)) |].
  intros R0. apply (add_zero _ _ R 0 H1 H2); [lia | right; exact (H3 R0)].
Qed.
Lemma loop_ok U nu de A D : has nu A -> has de D -> 2 ^ 23 <= D -> D <= A < 2 ^ 12 * D ->
  let r := fmod_loop U 8 de (toward0f (divf F_1_0 de)) (F2 nu I_0) in has (addf (fx r) (fy r)) (A mod D) /\ (A mod D = 0 -> addf (fx r) (fy r) = 0).
Proof.
  intros HA HD D0 AD. destruct (norm_form de D HD D0) as (n & k & ED & N & K). assert (0 < 2 ^ k) as Pk by (apply Z.pow_pos_nonneg; lia).
  set (rde := toward0f (divf F_1_0 de)). destruct (choose U nu de A D HA HD D0 AD) as (q & Hq & Q & QL & QC). fold rde in Hq.
  assert (D < 2 ^ 24 * 2 ^ k) as DB by (rewrite ED; apply Z.mul_lt_mono_pos_r; lia). assert (2 ^ 23 * 2 ^ k <= D) as DB' by (rewrite ED; apply Z.mul_le_mono_nonneg_r; lia).
  assert (64 * (A - q * D) <= 65 * D) as RB by (destruct QC as [(-> & C) | (_ & C)]; lia).
  cbv zeta. rewrite loop_eq. cbn [fx]. cbv zeta.
  destruct (turn nu I_0 _ de q A 0 D n k (A - q * D) HA has_zero Hq HD Q ED N K QL ltac:(lia) (ex_intro _ 0 eq_refl) (or_introl eq_refl) QC ltac:(lia) ltac:(lia)) as (X' & P1 & P2 & P3 & P4 & P5 & P6 & P7).
  cbv zeta in P1, P2, P7. destruct (dfnormalize_f2_f2 (dfadd2_f2_f2_f2 (F2 nu I_0) (dfmul_f2_f_f (pick U nu rde de) (negf de)))) as [x y]. cbn [fx fy] in P1, P2, P7 |- *.
  rewrite (ltf_has _ _ _ _ P1 HD). destruct (Z_lt_le_dec (A - q * D) D) as [RD | RD].
  - rewrite (P5 ltac:(lia)) in *. destruct (Z.ltb_spec (A - q * D) D) as [_ | C]; [| lia]. rewrite Z.sub_diag in P2.
    assert (A mod D = A - q * D) as ->. { symmetry. apply (Z.mod_unique A D q); [left; lia | lia]. }
    apply finish; cbn [fx fy]; assumption.
  - assert (D <= X') as DX. { pose proof (P6 D (has_rep _ _ HD)) as T. rewrite Z.abs_eq in T by lia. exact (T RD). }
    destruct (Z.ltb_spec X' D) as [C | _]; [lia |]. rewrite loop_eq. cbn [fx]. cbv zeta.
    assert (X' < 2 * D) as X2 by lia.
    assert (has (pick U x rde de) (1 * 2 ^ 149)) as Hq1.
    { unfold pick. rewrite (times2 _ _ _ _ P1 HD) by lia. rewrite (lef_has _ _ _ _ HD P1). assert ((D <=? X') = true) as -> by (apply Z.leb_le; lia). assert ((X' <? 2 * D) = true) as -> by (apply Z.ltb_lt; lia). exact has_one. }
    destruct (turn x y _ de 1 X' (A - q * D - X') D n k (A - q * D - D) P1 P2 Hq1 HD ltac:(lia) ED N K ltac:(lia) P3 P4 (or_intror eq_refl) (or_introl (conj eq_refl X2)) ltac:(lia) ltac:(lia)) as (X2' & Q1 & Q2 & Q3 & Q4 & Q5 & Q6 & Q7).
    cbv zeta in Q1, Q2, Q7. destruct (dfnormalize_f2_f2 (dfadd2_f2_f2_f2 (F2 x y) (dfmul_f2_f_f (pick U x rde de) (negf de)))) as [x2 y2]. cbn [fx fy] in Q1, Q2, Q7 |- *.
    rewrite (Q5 ltac:(lia)) in *. rewrite (ltf_has _ _ _ _ Q1 HD). destruct (Z.ltb_spec (A - q * D - D) D) as [_ | C]; [| lia]. rewrite Z.sub_diag in Q2.
    assert (A mod D = A - q * D - D) as ->. { symmetry. apply (Z.mod_unique A D (q + 1)); [left; lia | lia]. }
    apply finish; cbn [fx fy]; assumption.
Qed.
