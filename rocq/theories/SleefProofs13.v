(** fmod is exact for quotients below 4096, concluded: the estimate of the quotient and the whole function. *)
Require Import ZArith List Bool Lia.
Require Import Verif.FloatSpec Verif.FloatProofs Verif.FloatArith Verif.FloatArithSpec Verif.FloatArithProofs Verif.FloatArithProofs2 Verif.RoundEven Verif.X86Cvt Verif.X86CvtSpec Verif.X86CvtProofs2 Verif.X86CvtProofs4
  Verif.FixedPointConv Verif.SleefBase Verif.Sleef Verif.SleefSpec Verif.SleefProofs Verif.SleefProofs2 Verif.SleefProofs4 Verif.SleefProofs5 Verif.SleefProofs6 Verif.SleefProofs7 Verif.SleefProofs8 Verif.SleefProofs9 Verif.SleefProofs10 Verif.SleefRem Verif.SleefProofs11 Verif.SleefProofs12.
Local Open Scope Z_scope.

Lemma gap p : 0 < p -> exists g, vmag binary32 p - vmag binary32 (p - 1) = g /\ 0 < g /\ vmag binary32 p <= g * 2 ^ 24 /\ (2 ^ 20 <= vmag binary32 p -> g * 2 ^ 20 <= vmag binary32 p).
Proof.
  intros P. change (2 ^ 24) with 16777216. change (2 ^ 20) with 1048576. destruct (Z_lt_le_dec p (2 ^ 23)) as [S | S].
  - rewrite !vmag_sub by (discriminate || (change (mbits binary32) with 23; lia)). exists 1. change (2 ^ 23) with 8388608 in S. lia.
  - set (f := p mod 2 ^ 23). set (E := p / 2 ^ 23). pose proof (Z.mod_pos_bound p (2 ^ 23) ltac:(reflexivity)) as F. pose proof (Z.div_mod p (2 ^ 23) ltac:(discriminate)) as D. fold f E in F, D.
    assert (1 <= E) as E1 by (unfold E; apply Z.div_le_lower_bound; lia).
    assert (vmag binary32 p = (2 ^ 23 + f) * 2 ^ (E - 1)) as V1.
    { replace p with ((2 ^ 23 + f) + (E - 1) * 2 ^ mbits binary32) by (change (mbits binary32) with 23; lia). apply vmag_scaled; [discriminate | lia | left; change (mbits binary32) with 23; lia | change (2 ^ (mbits binary32 + 1)) with (2 ^ 24); lia]. }
    assert (0 < 2 ^ (E - 1)) as PE by (apply Z.pow_pos_nonneg; lia). change (2 ^ 23) with 8388608 in *.
    destruct (Z.eq_dec f 0) as [F0 | F0].
    + destruct (Z.eq_dec E 1) as [-> | EE].
      * exists 1. rewrite V1, F0. rewrite vmag_sub by (discriminate || (change (2 ^ mbits binary32) with 8388608; lia)). change (2 ^ (1 - 1)) with 1. lia.
      * assert (vmag binary32 (p - 1) = 16777215 * 2 ^ (E - 2)) as V2.
        { replace (p - 1) with (16777215 + (E - 2) * 2 ^ mbits binary32) by (change (2 ^ mbits binary32) with 8388608; lia). apply vmag_scaled; [discriminate | lia | left; change (2 ^ mbits binary32) with 8388608; lia | change (2 ^ (mbits binary32 + 1)) with 16777216; lia]. }
        assert (2 ^ (E - 1) = 2 * 2 ^ (E - 2)) as P2 by (change 2 with (2 ^ 1) at 2; rewrite <- Z.pow_add_r by lia; f_equal; lia).
        exists (2 ^ (E - 2)). rewrite V1, V2, F0, P2. rewrite P2 in PE. lia.
    + assert (vmag binary32 (p - 1) = (8388608 + f - 1) * 2 ^ (E - 1)) as V2.
      { replace (p - 1) with ((8388608 + f - 1) + (E - 1) * 2 ^ mbits binary32) by (change (2 ^ mbits binary32) with 8388608; lia). apply vmag_scaled; [discriminate | lia | left; change (2 ^ mbits binary32) with 8388608; lia | change (2 ^ (mbits binary32 + 1)) with 16777216; lia]. }
      exists (2 ^ (E - 1)). rewrite V1, V2. split; [ring |]. split; [exact PE |]. set (t := 2 ^ (E - 1)) in *. clearbody t. clear - F PE. split; [| intros _]; nia.
Qed.
Lemma toward0_mag p : 0 < p < inf_bits binary32 -> has (toward0f p) (vmag binary32 (p - 1)).
Proof.
  intros P. change (inf_bits binary32) with (255 * 2 ^ 23) in P.
  assert (forall q, 0 <= q < 255 * 2 ^ 23 -> val q = FFin false (vmag binary32 q)) as VQ.
  { intros q Q. pose proof (val_mag false q) as V. change (sign_bit binary32 false + q) with q in V. rewrite V by (change (inf_bits binary32) with (255 * 2 ^ 23); lia). unfold of_mag. change (inf_bits binary32) with (255 * 2 ^ 23). destruct (Z.eqb_spec q (255 * 2 ^ 23)); [lia | reflexivity]. }
  assert (pattern p) as PP by (unfold pattern; lia).
  unfold toward0f. assert (eqf p I_0 = false) as ->.
  { rewrite (eqf_has p I_0 (vmag binary32 p) 0); [| split; [exact PP | exists false, (vmag binary32 p); split; [apply VQ; lia | reflexivity]] | exact has_zero].
    apply Z.eqb_neq. pose proof (vmag_strict binary32 ltac:(discriminate) 0 p ltac:(lia) ltac:(lia)) as S. change (vmag binary32 0) with 0 in S. lia. }
  unfold intBitsToFloat, floatToRawIntBits. assert (bits32 (p - 1) = p - 1) as -> by (unfold bits32; apply Z.mod_small; lia).
  split; [unfold pattern; lia |]. exists false, (vmag binary32 (p - 1)). split; [apply VQ; lia | reflexivity].
Qed.
Lemma has_pos x z : has x z -> 0 < z -> 0 < x < inf_bits binary32 /\ z = vmag binary32 x.
Proof.
  intros H Z0. pose proof (has_val x z H ltac:(lia)) as V. destruct (Z.ltb_spec z 0); [lia |]. rewrite Z.abs_eq in V by lia.
  destruct (dec_mag binary32 x false z g32 (has_pat _ _ H) V) as (p & E & Hp & EV). change (sign_bit binary32 false + p) with p in E. subst p. split; [| exact EV].
  split; [| lia]. destruct (Z.eq_dec x 0) as [-> |]; [change (vmag binary32 0) with 0 in EV; lia | lia].
Qed.
Lemma toward0_has x z : has x z -> 2 ^ 20 <= z -> exists a, has (toward0f x) a /\ 0 <= a /\ z <= (z - a) * 2 ^ 24 /\ (z - a) * 2 ^ 20 <= z.
Proof.
  intros H B. destruct (has_pos x z H ltac:(lia)) as (P & ->). exists (vmag binary32 (x - 1)). destruct (gap x ltac:(lia)) as (g & G1 & G2 & G3 & G4). rewrite G1.
  split; [apply toward0_mag, P |]. split; [apply vmag_nonneg; [discriminate | lia] |]. split; [exact G3 | exact (G4 B)].
Qed.

Lemma sticky_bounds D : 0 < D -> let x := sticky_quotient (2 ^ 298) D in 4 * 2 ^ 298 - D < x * D < 4 * 2 ^ 298 + D /\ 0 <= x.
Proof.
  intros D0 x. unfold x, sticky_quotient. clear x. change (2 ^ 298) with (2 ^ 149 * 2 ^ 149). set (n := 2 ^ 149 * 2 ^ 149). assert (0 < n) as N0 by reflexivity. clearbody n. pose proof (Z.div_mod (2 * n) D ltac:(lia)) as DM. pose proof (Z.mod_pos_bound (2 * n) D D0) as M.
  assert (0 <= 2 * n / D) by (apply Z.div_pos; lia). set (f := 2 * n / D) in *. set (r := (2 * n) mod D) in *.
  destruct (Z.eqb_spec r 0) as [R | R]; (split; [| lia]); [replace ((2 * f + 0) * D) with (2 * (D * f)) by ring | replace ((2 * f + 1) * D) with (2 * (D * f) + D) by ring]; set (Df := D * f) in *; clearbody Df; lia.
Qed.
Lemma recip_arith n D x p e b : n = 2 ^ 298 -> 0 < D < 2 ^ 277 -> 4 * n - D < x * D < 4 * n + D -> 2 * Z.abs (p * 2 ^ 2 - x) <= e -> e = 2 ^ 2 \/ e * 2 ^ 23 <= x -> 0 <= x -> (2 ^ 20 <= p -> (p - b) * 2 ^ 20 <= p) -> b * 4 < x -> 0 <= b ->
  b * D < n /\ (n - b * D) * 2 ^ 19 <= n /\ 2 ^ 20 <= p.
Proof.
  intros En D0 X E1 E2 X0 G B B0. change (2 ^ 2) with 4 in *. change (2 ^ 23) with 8388608 in *. change (2 ^ 19) with 524288. change (2 ^ 20) with 1048576 in *.
  assert (2097152 * D <= n) as DN by (rewrite En; change (2 ^ 298) with (2097152 * 2 ^ 277); lia).
  assert (8388608 <= x) as XL. { destruct (Z_le_gt_dec 8388608 x); [assumption | exfalso]. assert (x * D <= (8388608 - 1) * D) by (apply Z.mul_le_mono_nonneg_r; lia). lia. }
  assert (e * 2097152 <= x) as E3 by lia.
  assert (Z.abs (p * 4 - x) * 4194304 <= x) as E4 by lia.
  assert (1048576 <= p) as P by lia. specialize (G P).
  split; [| split; [| exact P]].
  - assert ((b * 4) * D <= (x - 1) * D) by (apply Z.mul_le_mono_nonneg_r; lia). lia.
  - assert (p * 4194304 * 4 * D >= x * 4194303 * D) as H1 by (apply Z.le_ge, Z.mul_le_mono_nonneg_r; lia).
    assert (p * 1048575 * D <= b * 1048576 * D) as H2 by (apply Z.mul_le_mono_nonneg_r; lia).
    set (pD := p * D) in *. set (bD := b * D) in *. set (xD := x * D) in *.
    replace (p * 4194304 * 4 * D) with (pD * 16777216) in H1 by (unfold pD; ring). replace (x * 4194303 * D) with (xD * 4194303) in H1 by (unfold xD; ring).
    replace (p * 1048575 * D) with (pD * 1048575) in H2 by (unfold pD; ring). replace (b * 1048576 * D) with (bD * 1048576) in H2 by (unfold bD; ring).
    clearbody pD bD xD. clear - X H1 H2 DN D0. lia.
Qed.
Lemma recip_ok de D : has de D -> 2 ^ 23 <= D -> exists b, has (toward0f (divf F_1_0 de)) b /\ 0 <= b /\ b * D < 2 ^ 298 /\ (2 ^ 298 - b * D) * 2 ^ 19 <= 2 ^ 298.
Proof.
  intros H D0. pose proof (has_val de D H ltac:(lia)) as V. destruct (Z.ltb_spec D 0); [lia |]. rewrite Z.abs_eq in V by lia.
  pose proof (val_bound de false D (has_pat _ _ H) V) as BD.
  set (x := sticky_quotient (2 ^ 298) D).
  assert (divf F_1_0 de = encode binary32 false x 2) as ED.
  { unfold divf, fdiv. change (decode binary32 F_1_0) with (FFin false (2 ^ 149)). fold (val de). rewrite V. destruct (Z.eqb_spec D 0); [lia |]. cbn [xorb]. change (2 ^ 149 * 2 ^ scale binary32) with (2 ^ 298). reflexivity. }
  destruct (sticky_bounds D ltac:(lia)) as (SB & X0). fold x in SB, X0.
  assert (rep (2 ^ 276)) as R276 by (exists 1, 276; repeat split; (discriminate || reflexivity)).
  destruct (rep_mag _ R276) as (p0 & Hp0 & Ep0). rewrite Z.abs_eq in Ep0 by lia.
  destruct (round_mag_scale binary32 m32 x 2 ltac:(lia) X0) as (S1 & S2 & S3 & S4). change (mbits binary32) with 23 in S2.
  set (p := round_mag binary32 x 2) in *.
  assert (p <= p0) as PL. { apply round_le; [lia | lia | exact X0 |]. rewrite Ep0. change (2 ^ 276 * 2 ^ 2) with (2 ^ 278 + 0). destruct (Z_lt_le_dec x (2 ^ 278)); [lia | exfalso].
    assert (2 ^ 278 * D <= x * D) by (apply Z.mul_le_mono_nonneg_r; lia). assert (2 ^ 278 * 2 ^ 23 <= 2 ^ 278 * D) by (apply Z.mul_le_mono_nonneg_l; lia). change (2 ^ 278 * 2 ^ 23) with (4 * 2 ^ 298 + 4 * 2 ^ 298) in *. assert (2 ^ 277 < 2 ^ 298) by reflexivity. lia. }
  assert (divf F_1_0 de = p) as EP by (rewrite ED; unfold encode; fold p; rewrite Z.min_l by lia; reflexivity). rewrite EP.
  assert (0 < p) as PP. { assert (1 <= p); [| lia]. apply round_ge; [lia | lia |]. change (vmag binary32 1 * 2 ^ 2) with 4. destruct (Z_le_gt_dec 4 x); [assumption | exfalso]. assert (x * D <= 3 * D) by (apply Z.mul_le_mono_nonneg_r; lia). assert (2 ^ 277 * 4 < 2 ^ 298) by reflexivity. lia. }
  exists (vmag binary32 (p - 1)). assert (0 <= vmag binary32 (p - 1)) as B0 by (apply vmag_nonneg; [discriminate | lia]).
  destruct (gap p PP) as (g & G1 & G2 & G3 & G4).
  assert (vmag binary32 (p - 1) * 4 < x) as BX. { destruct (Z_lt_le_dec (vmag binary32 (p - 1) * 4) x); [assumption | exfalso]. assert (p <= p - 1); [| lia]. apply round_le; [lia | lia | exact X0 | exact l]. }
  set (k := Z.max 2 (Z.log2 x - 23)) in *.
  destruct (recip_arith (2 ^ 298) D x (vmag binary32 p) (2 ^ k) (vmag binary32 (p - 1)) eq_refl ltac:(lia) SB) as (C1 & C2 & _).
  - rewrite S1. apply rne_bounds. lia.
  - destruct S2 as [-> | S2]; [left; reflexivity | right]. rewrite Z.pow_add_r in S2 by lia. lia.
  - exact X0.
  - rewrite G1. exact G4.
  - exact BX.
  - exact B0.
  - split; [apply toward0_mag; lia |]. exact (conj B0 (conj C1 C2)).
Qed.

(** the estimate of the quotient *)
Lemma est_up n h A D N a b x M e : n = h * h -> 2 ^ 149 = h -> 0 < D -> 0 <= a -> 0 <= b -> x = a * b -> b * D < n -> A <= (A - a) * 2 ^ 24 -> 0 < A < N * D -> 1 <= N -> 2 * Z.abs (M * h - x) <= e -> e = h \/ e * 2 ^ 23 <= x -> M < N * h.
Proof.
  intros En Eh D0 A0 B0 Ex BD GA AN N1 E1 E2. destruct (Z_lt_le_dec M (N * h)) as [| C]; [assumption | exfalso].
  assert (1024 <= h) as H0 by (rewrite <- Eh; discriminate). change (2 ^ 24) with 16777216 in *. change (2 ^ 23) with 8388608 in *.
  assert (x * 16777216 < N * 16777215 * n) as XB.
  { assert (x * D * 16777216 < N * D * 16777215 * n) as T.
    { rewrite Ex. replace (a * b * D * 16777216) with ((a * 16777216) * (b * D)) by ring.
      assert ((a * 16777216) * (b * D) <= (A * 16777215) * (b * D)) as T1 by (apply Z.mul_le_mono_nonneg_r; [apply Z.mul_nonneg_nonneg; lia | lia]).
      assert ((A * 16777215) * (b * D) < (A * 16777215) * n) as T2 by (apply Z.mul_lt_mono_pos_l; lia).
      assert ((A * 16777215) * n <= (N * D * 16777215) * n) as T3 by (apply Z.mul_le_mono_nonneg_r; [rewrite En; nia | lia]). lia. }
    apply (Z.mul_lt_mono_pos_r D); [exact D0 |]. replace (N * 16777215 * n * D) with (N * D * 16777215 * n) by ring. lia. }
  assert (N * h * h <= M * h) as MH by (apply Z.mul_le_mono_nonneg_r; lia). replace (N * h * h) with (N * n) in MH by (rewrite En; ring). replace (N * 16777215 * n) with (N * n * 16777215) in XB by ring.
  assert (h * h <= N * n) as NB by (rewrite En; rewrite <- (Z.mul_1_l (h * h)) at 1; apply Z.mul_le_mono_nonneg_r; nia).
  assert (1024 * h <= h * h) by (apply Z.mul_le_mono_nonneg_r; lia).
  assert (2 ^ 149 * 2 ^ 149 = h * h) as EH by (rewrite Eh; reflexivity).
  assert (h * 16777216 < h * h) by (rewrite <- Eh; reflexivity).
  set (Nn := N * n) in *. set (Mh := M * h) in *. set (hh := h * h) in *. clearbody Nn Mh hh. clear - XB MH NB H H1 E1 E2 H0. destruct E2 as [-> | E2]; lia.
Qed.
Lemma est_lo n h A D a b x M e : n = h * h -> 2 ^ 149 = h -> 0 < D -> 0 <= a -> 0 <= b -> x = a * b -> (n - b * D) * 2 ^ 19 <= n -> (A - a) * 2 ^ 20 <= A -> D <= A -> 2 * Z.abs (M * h - x) <= e -> e = h \/ e * 2 ^ 23 <= x -> A * (2 ^ 18 - 1) * h <= M * D * 2 ^ 18.
Proof.
  intros En Eh D0 A0 B0 Ex BD GA AD E1 E2. assert (h * 16777216 < h * h) as HH by (rewrite <- Eh; reflexivity). assert (0 < h) as H0 by (rewrite <- Eh; reflexivity).
  change (2 ^ 20) with 1048576 in *. change (2 ^ 23) with 8388608 in *. change (2 ^ 19) with 524288 in *. change (2 ^ 18) with 262144 in *. change (262144 - 1) with 262143.
  assert (A * 1048575 * (n * 524287) <= x * D * 1048576 * 524288) as XL.
  { rewrite Ex. replace (a * b * D * 1048576 * 524288) with ((a * 1048576) * (b * D * 524288)) by ring. apply Z.mul_le_mono_nonneg; [lia | lia | | lia]. rewrite En. nia. }
  assert (n <= 2 * x) as XN.
  { apply (Z.mul_le_mono_pos_r _ _ D); [exact D0 |]. assert (D * n <= A * n) as T by (apply Z.mul_le_mono_nonneg_r; [rewrite En; nia | exact AD]). assert (0 <= D * n) by (rewrite En; nia).
    replace (A * 1048575 * (n * 524287)) with (A * n * (1048575 * 524287)) in XL by ring. replace (x * D * 1048576 * 524288) with (x * D * (1048576 * 524288)) in XL by ring. replace (2 * x * D) with (2 * (x * D)) by ring. rewrite (Z.mul_comm n D).
    set (xD := x * D) in *. set (An := A * n) in *. set (Dn := D * n) in *. clearbody xD An Dn. lia. }
  assert (x * 16777215 <= M * h * 16777216) as ML. { rewrite <- En in HH. destruct E2 as [-> | E2]; lia. }
  assert (x * 16777215 * D <= M * h * 16777216 * D) as MD by (apply Z.mul_le_mono_nonneg_r; lia).
  apply (Z.mul_le_mono_pos_r _ _ h); [exact H0 |].
  replace (A * 262143 * h * h) with (A * n * 262143) by (rewrite En; ring). replace (M * D * 262144 * h) with (M * h * D * 262144) by ring.
  replace (A * 1048575 * (n * 524287)) with (A * n * (1048575 * 524287)) in XL by ring. replace (x * D * 1048576 * 524288) with (x * D * (1048576 * 524288)) in XL by ring.
  replace (x * 16777215 * D) with (x * D * 16777215) in MD by ring. replace (M * h * 16777216 * D) with (M * h * D * 16777216) in MD by ring.
  assert (0 <= A * n) by (rewrite En; apply Z.mul_nonneg_nonneg; nia).
  set (xD := x * D) in *. set (An := A * n) in *. set (MhD := M * h * D) in *. clearbody xD An MhD. clear - XL MD H. lia.
Qed.
Lemma estimate nu de A D : has nu A -> has de D -> 2 ^ 23 <= D -> D <= A < 2 ^ 12 * D ->
  exists M, has (mulf (toward0f nu) (toward0f (divf F_1_0 de))) M /\ 0 <= M < (A / D + 1) * 2 ^ 149 /\ A * (2 ^ 18 - 1) * 2 ^ 149 <= M * D * 2 ^ 18.
Proof.
  intros HA HD D0 AD. destruct (toward0_has nu A HA ltac:(lia)) as (a & Ha & A0 & G1 & G2). destruct (recip_ok de D HD D0) as (b & Hb & B0 & C1 & C2).
  assert (0 <= a * b) as X0 by (apply Z.mul_nonneg_nonneg; lia).
  assert (rep (2 ^ 161)) as RZ by (exists 1, 161; repeat split; (discriminate || reflexivity)).
  assert (a * b <= 2 ^ 161 * 2 ^ 149) as XB.
  { destruct (Z_le_gt_dec (a * b) (2 ^ 161 * 2 ^ 149)) as [|C]; [assumption | exfalso]. assert (2 ^ 161 * 2 ^ 149 * D <= a * b * D) as T1 by (apply Z.mul_le_mono_nonneg_r; lia).
    assert (a * (b * D) <= a * 2 ^ 298) as T2 by (apply Z.mul_le_mono_nonneg_l; lia). rewrite Z.mul_assoc in T2. change (2 ^ 161 * 2 ^ 149) with (2 ^ 298 * 2 ^ 12) in T1. assert (a <= A) by lia. assert (a * 2 ^ 298 <= A * 2 ^ 298) by (apply Z.mul_le_mono_nonneg_r; lia). assert (A * 2 ^ 298 < 2 ^ 12 * D * 2 ^ 298) by (apply Z.mul_lt_mono_pos_r; lia). lia. }
  destruct (mul_round _ _ _ _ _ Ha Hb RZ) as (M & HM & (e & E1 & E2) & G & _); [rewrite !Z.abs_eq by lia; exact XB |]. rewrite Z.abs_eq in E2, G by lia.
  pose proof (Z.div_mod A D ltac:(lia)) as DM. pose proof (Z.mod_pos_bound A D ltac:(lia)) as MB.
  assert (1 <= A / D) as Q1 by (apply Z.div_le_lower_bound; lia).
  exists M. split; [exact HM |].
  assert (A * (2 ^ 18 - 1) * 2 ^ 149 <= M * D * 2 ^ 18) as LO by exact (est_lo (2 ^ 298) (2 ^ 149) A D a b (a * b) M e eq_refl eq_refl ltac:(lia) A0 B0 eq_refl C2 G2 ltac:(lia) E1 E2).
  split; [| exact LO]. split.
  - assert (0 < A * (2 ^ 18 - 1) * 2 ^ 149) as T by lia. destruct (Z_le_gt_dec 0 M); [assumption | exfalso]. assert (M * D <= 0) by nia. lia.
  - apply (est_up (2 ^ 298) (2 ^ 149) A D (A / D + 1) a b (a * b) M e eq_refl eq_refl); (assumption || lia || reflexivity || idtac).
Qed.
