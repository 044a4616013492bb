(** fmod is exact for quotients below 4096, continued: one turn of the loop. *)
Require Import ZArith List Bool Lia.
Require Import Verif.FloatSpec Verif.FloatProofs Verif.FloatArith Verif.FloatArithSpec Verif.FloatArithProofs Verif.FloatArithProofs2 Verif.RoundEven Verif.X86Cvt Verif.X86CvtSpec Verif.X86CvtProofs2 Verif.X86CvtProofs4
  Verif.FixedPointConv Verif.SleefBase Verif.Sleef Verif.SleefSpec Verif.SleefProofs Verif.SleefProofs2 Verif.SleefProofs4 Verif.SleefProofs5 Verif.SleefProofs6 Verif.SleefProofs7 Verif.SleefProofs8 Verif.SleefProofs9 Verif.SleefProofs10 Verif.SleefRem Verif.SleefProofs11.
Local Open Scope Z_scope.

Lemma grid_small i k b : 0 < 2 ^ k -> Z.abs (i * 2 ^ k) < b * 2 ^ k -> Z.abs i < b.
Proof. intros P H. rewrite Z.abs_mul, (Z.abs_eq (2 ^ k)) in H by lia. exact (abs_scale _ _ _ P H). Qed.
Lemma near_two x r t : 0 < t -> 0 <= r < 2 ^ 25 * t -> Z.abs (x - r) * 2 ^ 24 <= r -> Z.abs (x - r) < 2 * t.
Proof. intros. lia. Qed.

(** the double-float sum of (x, y) and (-c, e) when the leading parts cancel *)
Lemma cancel x y a b X Y c e : has x X -> has y Y -> has a (- c) -> has b e -> rep (X - c) -> rep (Y + e) -> 0 < X ->
  has (fx (dfadd2_f2_f2_f2 (F2 x y) (F2 a b))) (X - c) /\ has (fy (dfadd2_f2_f2_f2 (F2 x y) (F2 a b))) (Y + e) /\ (X - c = 0 -> fx (dfadd2_f2_f2_f2 (F2 x y) (F2 a b)) = 0).
Proof.
  intros Hx Hy Ha Hb R1 R2 X0. unfold dfadd2_f2_f2_f2. cbn [fx fy].
  assert (has (addf x a) (X - c)) as S by (apply (has_add _ _ _ _ Hx Ha); exact R1).
  assert (has (subf (addf x a) x) (- c)) as V. { pose proof (has_sub _ _ _ _ S Hx) as T. replace (X - c - X) with (- c) in T by ring. exact (T (has_rep _ _ Ha)). }
  assert (has (subf (addf x a) (subf (addf x a) x)) X) as W. { pose proof (has_sub _ _ _ _ S V) as T. replace (X - c - - c) with X in T by ring. exact (T (has_rep _ _ Hx)). }
  assert (has (subf x (subf (addf x a) (subf (addf x a) x))) 0) as W1. { pose proof (has_sub _ _ _ _ Hx W) as T. rewrite Z.sub_diag in T. exact (T rep_0). }
  assert (has (subf a (subf (addf x a) x)) 0) as W2. { pose proof (has_sub _ _ _ _ Ha V) as T. rewrite Z.sub_diag in T. exact (T rep_0). }
  pose proof (has_add _ _ _ _ W1 W2 rep_0) as W3. pose proof (has_add _ _ _ _ Hy Hb R2) as W4.
  split; [exact S |]. split; [apply (has_add _ _ _ _ W3 W4 R2) |]. intros Z0. apply (add_zero x a X (- c)); [exact Hx | exact Ha | lia | lia].
Qed.
Lemma normal t s T S k R : has t T -> has s S -> R = T + S -> (exists i, T = i * 2 ^ k) -> (exists i, S = i * 2 ^ k) -> 0 <= k <= 253 -> Z.abs S <= 2 ^ 12 * 2 ^ k -> 0 <= R < 2 ^ 25 * 2 ^ k -> (exists z, rep z /\ R <= z) -> (T = 0 -> t = 0) ->
  exists X, has (fx (dfnormalize_f2_f2 (F2 t s))) X /\ has (fy (dfnormalize_f2_f2 (F2 t s))) (R - X) /\ Z.abs (R - X) <= 2 ^ k /\ (exists i, R - X = i * 2 ^ k) /\ (R < 2 ^ 24 * 2 ^ k -> X = R) /\ (forall w, rep w -> Z.abs w <= R -> Z.abs w <= X) /\
    (R = 0 -> fx (dfnormalize_f2_f2 (F2 t s)) = 0).
Proof.
  intros Ht Hs ER (i & Ei) (j & Ej) K BS BR (z & Rz & Bz) Zt. assert (0 < 2 ^ k) as Pk by (apply Z.pow_pos_nonneg; lia). unfold dfnormalize_f2_f2. cbn [fx fy].
  destruct (add_round t s T S z Ht Hs Rz ltac:(lia)) as (X & HX & X0 & NX & EX & GX). rewrite <- ER in *.
  assert (R = (i + j) * 2 ^ k) as EG by (rewrite ER, Ei, Ej; ring).
  assert (R < 2 ^ 24 * 2 ^ k -> X = R) as Ex. { intros B. apply EX. rewrite EG in *. apply rep_grid; [| lia]. apply (grid_small _ k); [exact Pk | lia]. }
  unfold near in NX. rewrite (Z.abs_eq R) in NX by lia. pose proof (near_two X R _ Pk BR NX) as N2.
  assert (exists l, R - X = l * 2 ^ k /\ Z.abs l <= 1) as (l & El & Bl).
  { destruct (Z_lt_le_dec R (2 ^ 24 * 2 ^ k)) as [B | B]; [exists 0; rewrite (Ex B); split; [ring | lia] |].
    destruct (grid_ge X (2 ^ 23) k (has_rep _ _ HX) ltac:(lia) ltac:(lia)) as (g & Eg).
    { assert (rep (2 ^ 23 * 2 ^ k)) as RR by (apply rep_grid; [reflexivity | lia]). pose proof (GX _ RR) as T9. rewrite (Z.abs_eq X) by lia. rewrite (Z.abs_eq (2 ^ 23 * 2 ^ k)) in T9 by lia. apply T9. lia. }
    exists (i + j - g). assert (R - X = (i + j - g) * 2 ^ k) as EE by (rewrite EG, Eg; ring). split; [exact EE |].
    assert (Z.abs (i + j - g) < 2); [| lia]. apply (grid_small _ k); [exact Pk |]. rewrite <- EE. replace (R - X) with (- (X - R)) by ring. rewrite Z.abs_opp. exact N2. }
  exists X. split; [exact HX |].
  assert (Z.abs j <= 2 ^ 12) as BJ. { rewrite Ej in BS. assert (Z.abs j < 2 ^ 12 + 1); [| lia]. apply (grid_small _ k); [exact Pk | lia]. }
  assert (has (subf t (addf t s)) ((l - j) * 2 ^ k)) as D1.
  { pose proof (has_sub _ _ _ _ Ht HX) as Q. replace (T - X) with ((l - j) * 2 ^ k) in Q by (rewrite Z.mul_sub_distr_r, <- El, <- Ej, ER; ring). apply Q. apply rep_grid; [lia | lia]. }
  split; [| split; [| split; [| split; [exact Ex | split]]]].
  - pose proof (has_add _ _ _ _ D1 Hs) as Q. replace ((l - j) * 2 ^ k + S) with (R - X) in Q by (rewrite El, Ej; ring). apply Q. rewrite El. apply rep_grid; lia.
  - rewrite El, Z.abs_mul, (Z.abs_eq (2 ^ k)) by lia. rewrite <- (Z.mul_1_l (2 ^ k)) at 2. apply Z.mul_le_mono_nonneg_r; lia.
  - exists l. exact El.
  - intros w W B. apply GX; [exact W | lia].
  - intros R0. apply (add_zero t s T S Ht Hs); [lia |]. destruct (Z.eq_dec T 0) as [T0 | T0]; [right; exact (Zt T0) | left; exact T0].
Qed.
Lemma sterb_ok q A c D : 1 <= q -> 0 < D -> near c (q * D) -> D <= c -> q * D <= A -> (q = 1 /\ A < 2 * D) \/ (2 <= q /\ 64 * (A - q * D) <= 65 * D) -> A <= 2 * c /\ c <= 2 * A.
Proof. unfold near. intros Q D0 N C L [(-> & H) | (Q2 & H)]; [lia |]. assert (2 * D <= q * D) by (apply Z.mul_le_mono_nonneg_r; lia). rewrite (Z.abs_eq (q * D)) in N by lia. lia. Qed.

(** one turn *)
Lemma turn x y fq de q X Y D n k R : has x X -> has y Y -> has fq (q * 2 ^ 149) -> has de D -> 1 <= q < 2 ^ 12 -> D = n * 2 ^ k -> 2 ^ 23 <= n < 2 ^ 24 -> 0 <= k <= 253 ->
  q * D <= X -> Z.abs Y <= 2 ^ k -> (exists i, Y = i * 2 ^ k) -> (Y = 0 \/ q = 1) -> (q = 1 /\ X < 2 * D) \/ (2 <= q /\ 64 * (X - q * D) <= 65 * D) -> R = X + Y - q * D -> 0 <= R < 2 ^ 25 * 2 ^ k ->
  exists X', let r := dfnormalize_f2_f2 (dfadd2_f2_f2_f2 (F2 x y) (dfmul_f2_f_f fq (negf de))) in
    has (fx r) X' /\ has (fy r) (R - X') /\ Z.abs (R - X') <= 2 ^ k /\ (exists i, R - X' = i * 2 ^ k) /\ (R < 2 ^ 24 * 2 ^ k -> X' = R) /\ (forall w, rep w -> Z.abs w <= R -> Z.abs w <= X') /\ (R = 0 -> fx r = 0).
Proof.
  intros Hx Hy Hq Hd Q ED N K L BY GY YQ St ER BR. assert (0 < 2 ^ k) as Pk by (apply Z.pow_pos_nonneg; lia). assert (0 < D) as D0 by (rewrite ED; apply pos_prod; lia).
  pose proof (pos_prod q D ltac:(lia) D0) as QD0.
  destruct (product fq (negf de) q D n k X Hq (has_neg _ _ Hd) Q ED N ltac:(lia) (has_rep _ _ Hx) ltac:(lia)) as (c & H1 & H2 & NC & DC & (j & Ej) & SC & Q1).
  destruct (dfmul_f2_f_f fq (negf de)) as [a b]. cbn [fx fy] in H1, H2.
  destruct (sterb_ok q X c D ltac:(lia) D0 NC DC L St) as (B1 & B2).
  assert (rep c) as Rc by (rewrite <- (Z.opp_involutive c); apply rep_opp, (has_rep _ _ H1)).
  pose proof (sterbenz X c (has_rep _ _ Hx) Rc ltac:(lia) ltac:(lia) B1 B2) as RS.
  destruct GY as (i & Ei).
  assert (exists g, Y + (c - q * D) = g * 2 ^ k /\ Z.abs g <= 2 ^ 12) as (g & Eg & Bg).
  { destruct YQ as [Y0 | ->].
    - exists (j - q * n). assert (c - q * D = (j - q * n) * 2 ^ k) as EE by (rewrite Ej, ED; ring). split; [rewrite Y0, Z.add_0_l; exact EE |]. rewrite EE in SC. pose proof (grid_small _ k _ Pk SC). lia.
    - rewrite (Q1 eq_refl), Z.mul_1_l, Z.sub_diag, Z.add_0_r. exists i. split; [exact Ei |]. rewrite Ei in BY. assert (Z.abs i < 2); [| lia]. apply (grid_small _ k); [exact Pk | lia]. }
  assert (rep (Y + (c - q * D))) as RT by (rewrite Eg; apply rep_grid; lia).
  destruct (cancel x y a b X Y c (c - q * D) Hx Hy H1 H2 RS RT ltac:(lia)) as (F1 & F2' & F3).
  destruct (dfadd2_f2_f2_f2 (F2 x y) (F2 a b)) as [t s]. cbn [fx fy] in F1, F2', F3.
  assert (exists i, X = i * 2 ^ k) as (ix & Eix). { apply (grid_ge X n k (has_rep _ _ Hx)); [lia | lia |]. rewrite <- ED. assert (1 * D <= q * D) by (apply Z.mul_le_mono_nonneg_r; lia). lia. }
  destruct (normal t s (X - c) (Y + (c - q * D)) k R F1 F2') as (X' & P1 & P2 & P3 & P4 & P5 & P6 & P7).
  - rewrite ER; ring.
  - exists (ix - j). rewrite Eix, Ej. ring.
  - exists g. exact Eg.
  - exact K.
  - rewrite Eg, Z.abs_mul, (Z.abs_eq (2 ^ k)) by lia. apply Z.mul_le_mono_nonneg_r; lia.
  - exact BR.
  - exists X. split; [exact (has_rep _ _ Hx) |]. rewrite ER. assert (Y <= q * D); [| lia]. destruct YQ as [-> | ->]; [lia |]. assert (2 ^ k <= n * 2 ^ k) by (rewrite <- (Z.mul_1_l (2 ^ k)) at 1; apply Z.mul_le_mono_nonneg_r; lia). lia.
  - exact F3.
  - exists X'. cbv zeta. exact (conj P1 (conj P2 (conj P3 (conj P4 (conj P5 (conj P6 P7)))))).
Qed.
