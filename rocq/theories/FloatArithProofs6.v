(** Operations on narrow numbers done in the wide format and rounded to the
    narrow one are the correctly rounded narrow operations. *)
Require Import ZArith Bool Lia ZifyBool List.
Require Import Verif.FloatSpec Verif.RoundEven Verif.X86Cvt Verif.X86CvtSpec Verif.FloatProofs Verif.X86CvtProofs2 Verif.X86CvtProofs4.
Require Import Verif.CInt Verif.FloatArith Verif.FloatArithSpec Verif.FloatArithProofs Verif.FloatArithProofs2 Verif.FloatArithProofs3 Verif.FloatArithProofs4 Verif.FloatArithProofs5.
Local Open Scope Z_scope.

Definition widened (f g : fmt) (v : fval) : fval := match v with FFin s m => FFin s (m * 2 ^ ratio f g) | _ => v end.
(** [r] is [y] rounded to the narrow format *)
Definition narrowed (f g : fmt) (y r : Z) : Prop :=
  (decode g y = FNaN -> is_nan f r) /\
  (forall s m, signed (decode g y) s -> size g (decode g y) = Some m -> correctly_rounded f s (twice_ratio m (2 ^ ratio f g)) r).

Section Via.
Variables f g : fmt.
Hypothesis W : wider f g.

Lemma via_pos : 0 < 2 ^ ratio f g.
Proof. destruct (wider_sizes f g W) as (Gf & Gg & X & K & BB & M1). destruct (good_sizes g Gg) as (Mg & _). apply pow2_pos. lia. Qed.

Lemma narrow_inf s y r : infinite g s y -> narrowed f g y r -> infinite f s r.
Proof.
  intros I (_ & N). destruct (wider_sizes f g W) as (Gf & Gg & X & K & BB & M1). pose proof via_pos as Pk. unfold infinite in I. rewrite I in N. cbn in N. specialize (N s (beyond g) eq_refl eq_refl).
  assert (E : r = sign_bit f s + inf_bits f).
  { eapply (rounded_unique f s _ _ _ Gf (comparing_ratio _ _ Pk) N). apply rounded_iff; [exact Gf|]. exists (inf_bits f). split; [reflexivity|].
    pose proof (inf_bits_pos f Gf). split; [lia|]. intros q Hq. split; intros O; [lia|left]. unfold twice_ratio. apply Z.compare_gt_iff.
    apply (vmag_strict f M1) in O; [|lia]. rewrite vmag_inf in * by exact Gf. assert (0 < beyond f) by (apply pow2_pos; destruct (good_sizes f Gf); lia). nia. }
  rewrite E. apply decode_inf. exact Gf.
Qed.
Lemma narrow_zero s y r : zero g s y -> narrowed f g y r -> zero f s r.
Proof.
  intros I (_ & N). destruct (wider_sizes f g W) as (Gf & Gg & X & K & BB & M1). pose proof via_pos as Pk. unfold zero in I. rewrite I in N. cbn in N. specialize (N s 0 eq_refl eq_refl).
  assert (V0 : vmag f 0 = 0) by (apply vmag_sub; [lia|]; pose proof (pow2_pos (mbits f) ltac:(lia)); lia).
  assert (E : r = sign_bit f s + 0).
  { eapply (rounded_unique f s _ _ _ Gf (comparing_ratio _ _ Pk) N). apply rounded_iff; [exact Gf|]. exists 0. split; [reflexivity|].
    pose proof (inf_bits_pos f Gf). split; [lia|]. intros q Hq. split; intros O; [left|lia]. unfold twice_ratio. apply Z.compare_lt_iff.
    apply (vmag_strict f M1) in O; [|lia]. rewrite V0 in *. nia. }
  rewrite E, Z.add_0_r. apply dec_zero. exact Gf.
Qed.
Lemma narrow_nan y r : is_nan g y -> narrowed f g y r -> is_nan f r.
Proof. intros I (N & _). exact (N I). Qed.

Lemma narrow_rounded s c y r : comparing c -> correctly_rounded g s c y -> narrowed f g y r ->
  (forall p0 M j, middle f g p0 M j -> near f g c M j -> c (2 * (M * 2 ^ j)) = Eq) ->
  correctly_rounded f s (fun n => c (n * 2 ^ ratio f g)) r.
Proof.
  intros C Ry (_ & N) H. destruct (wider_sizes f g W) as (Gf & Gg & _). apply (rounded_iff g s) in Ry; [|exact Gg]. destruct Ry as (py & Ey & Ry).
  destruct (pattern_size g s py Gg (proj1 Ry)) as (Sz & Sg & _). rewrite <- Ey in Sz, Sg. specialize (N s _ Sg Sz). apply (rounded_iff f s) in N; [|exact Gf].
  destruct N as (p & Er & Rp). apply rounded_iff; [exact Gf|]. exists p. split; [exact Er|]. eapply double_rounding; eauto.
Qed.

(** numbers of the narrow format *)
Definition number (v : fval) : Prop := exists b, 0 <= b < 2 ^ width f /\ decode f b = v.
Lemma number_digits s m : number (FFin s m) -> exists p A i, 0 <= p < inf_bits f /\ m = vmag f p /\ m = A * 2 ^ i /\ 0 <= A < 2 ^ (mbits f + 1) /\ 0 <= i <= scale g /\ i <= 2 ^ ebits f - 1.
Proof.
  intros (b & Hb & D). destruct (wider_sizes f g W) as (Gf & Gg & X & K & BB & M1). destruct (dec_mag f b s m Gf Hb D) as (p & _ & Hp & Em).
  destruct (digits f p M1 ltac:(lia)) as (q & j & Ep & Hj & Hq & Q & Ev & _). exists p, q, j. split; [exact Hp|]. split; [exact Em|]. split; [congruence|]. split; [exact Hq|].
  assert (j <= 2 ^ ebits f - 1).
  { unfold inf_bits in Hp. pose proof (pow2_pos (mbits f) ltac:(lia)). nia. }
  assert (2 ^ ebits f - 1 <= scale g) by (destruct W as [[-> ->]|[-> ->]]; vm_compute; discriminate). lia.
Qed.
Lemma number_nonneg s m : number (FFin s m) -> 0 <= m.
Proof. intros (b & Hb & D). destruct (wider_sizes f g W) as (Gf & _). exact (dec_nonneg f b s m Gf Hb D). Qed.

Ltac narrow := match goal with
  | H : is_nan _ _ |- is_nan _ _ => eapply narrow_nan; eassumption
  | H : infinite _ _ _ |- infinite _ _ _ => eapply narrow_inf; eassumption
  | H : zero _ _ _ |- zero _ _ _ => eapply narrow_zero; eassumption end.

Lemma sval_scaled s m k : sval s (m * k) = sval s m * k.
Proof. unfold sval. destruct s; ring. Qed.

Lemma via_sum v w y r : number v -> number w -> sum_is g (widened f g v) (widened f g w) y -> narrowed f g y r -> sum_is f v w r.
Proof.
  intros Nv Nw S N. pose proof via_pos as Pk. destruct (wider_sizes f g W) as (Gf & Gg & Xx & K & BB & M1). destruct v as [|s|s m], w as [|s'|s' m']; cbn [sum_is widened] in *; try narrow.
  - destruct (Bool.eqb s s'); narrow.
  - cbv zeta in *. rewrite !sval_scaled, <- Z.mul_add_distr_r in S. set (z := sval s m + sval s' m') in *.
    destruct (Z.eqb_spec z 0) as [Z0|Z0]; [rewrite Z0 in S; cbn [Z.mul Z.eqb] in S; narrow|].
    destruct (Z.eqb_spec (z * 2 ^ ratio f g) 0); [nia|]. replace (z * 2 ^ ratio f g <? 0) with (z <? 0) in S by nia.
    rewrite Z.abs_mul, (Z.abs_eq (2 ^ ratio f g)) in S by lia.
    eapply rounded_ext; [|exact Gf|eapply (narrow_rounded _ _ _ _ (comparing_ratio _ 1 Z.lt_0_1) S N)].
    + intros n' _. unfold twice_ratio. rewrite !Z.mul_1_r, Z.mul_assoc, <- Zmult_compare_compat_r by lia. reflexivity.
    + intros p0 M j Mi Ne. unfold twice_ratio. apply Z.compare_eq_iff. rewrite Z.mul_1_r. f_equal.
      destruct (number_digits s m Nv) as (p & A & i & Hp & Em & EA & HA & Hi). destruct (number_digits s' m' Nw) as (p' & B & i' & Hp' & Em' & EB & HB & Hi').
      assert (D1 : Z.abs (Z.abs z - m) <= m') by (pose proof (number_nonneg _ _ Nv); pose proof (number_nonneg _ _ Nw); unfold z, sval; destruct s, s'; lia).
      assert (D2 : Z.abs (Z.abs z - m') <= m) by (pose proof (number_nonneg _ _ Nv); pose proof (number_nonneg _ _ Nw); unfold z, sval; destruct s, s'; lia).
      assert (Dv : forall k, (exists a, m = a * 2 ^ k) -> (exists b, m' = b * 2 ^ k) -> exists n, Z.abs z = n * 2 ^ k).
      { intros k (a & Ea) (b & Eb). destruct (Z_le_gt_dec 0 z); [exists (sval s a + sval s' b)|exists (- (sval s a + sval s' b))];
          [rewrite Z.abs_eq by lia|rewrite Z.abs_neq by lia]; unfold z; rewrite Ea, Eb, !sval_scaled; ring. }
      destruct (Z_le_gt_dec i' i) as [L|L].
      * assert (exists a, m = a * 2 ^ i') as Da by (exists (A * 2 ^ (i - i')); rewrite EA, (pow_split i i') by lia; ring).
        eapply (sum_middle f g p0 M j (Z.abs z) p B i'); try assumption; try lia; [rewrite <- Em; exact Da|apply Dv; [exact Da|exists B; exact EB]].
      * assert (exists b, m' = b * 2 ^ i) as Db by (exists (B * 2 ^ (i' - i)); rewrite EB, (pow_split i' i) by lia; ring).
        eapply (sum_middle f g p0 M j (Z.abs z) p' A i); try assumption; try lia; [rewrite <- Em'; exact Db|apply Dv; [exists A; exact EA|exact Db]].
Qed.

Lemma minus_widened v : widened f g (minus v) = minus (widened f g v).
Proof. destruct v; reflexivity. Qed.
Lemma minus_number v : number v -> number (minus v).
Proof. intros (b & Hb & <-). destruct (wider_sizes f g W) as (Gf & _). exists (fopp f b). destruct (fopp_minus f b Gf Hb). auto. Qed.
Lemma via_difference v w y r : number v -> number w -> difference_is g (widened f g v) (widened f g w) y -> narrowed f g y r -> difference_is f v w r.
Proof. intros Nv Nw S N. unfold difference_is in *. rewrite <- minus_widened in S. eapply via_sum; eauto using minus_number. Qed.

Lemma via_product v w y r : number v -> number w -> product_is g (widened f g v) (widened f g w) y -> narrowed f g y r -> product_is f v w r.
Proof.
  intros Nv Nw S N. pose proof via_pos as Pk. destruct (wider_sizes f g W) as (Gf & Gg & Xx & K & BB & M1). destruct v as [|s|s m], w as [|s'|s' m']; cbn [product_is widened] in *; try narrow.
  - destruct (Z.eqb_spec m' 0) as [->|]; [cbn in S; narrow|]. destruct (Z.eqb_spec (m' * 2 ^ ratio f g) 0); [nia|narrow].
  - destruct (Z.eqb_spec m 0) as [->|]; [cbn in S; narrow|]. destruct (Z.eqb_spec (m * 2 ^ ratio f g) 0); [nia|narrow].
  - eapply rounded_ext; [|exact Gf|eapply (narrow_rounded _ _ _ _ (comparing_ratio _ _ (one_pos g Gg)) S N)].
    + intros n _. unfold twice_ratio. assert (E : one g = one f * 2 ^ ratio f g) by (rewrite <- !scale_one, <- Z.pow_add_r by (destruct (good_sizes f Gf) as (_ & _ & ? & _); destruct (good_sizes g Gg); lia); f_equal; unfold ratio; lia).
      rewrite E. replace (2 * (m * 2 ^ ratio f g * (m' * 2 ^ ratio f g))) with (2 * (m * m') * (2 ^ ratio f g * 2 ^ ratio f g)) by ring.
      replace (n * 2 ^ ratio f g * (one f * 2 ^ ratio f g)) with (n * one f * (2 ^ ratio f g * 2 ^ ratio f g)) by ring. rewrite <- Zmult_compare_compat_r by nia. reflexivity.
    + intros p0 M j Mi Ne. unfold twice_ratio. apply Z.compare_eq_iff.
      destruct (number_digits s m Nv) as (p & A & i & Hp & Em & EA & HA & Hi). destruct (number_digits s' m' Nw) as (p' & B & i' & Hp' & Em' & EB & HB & Hi').
      rewrite EA, EB in *. rewrite (product_middle f g p0 M j A B i i'); try assumption; try lia; ring.
Qed.

Lemma via_quotient v w y r : number v -> number w -> quotient_is g (widened f g v) (widened f g w) y -> narrowed f g y r -> quotient_is f v w r.
Proof.
  intros Nv Nw S N. pose proof via_pos as Pk. destruct (wider_sizes f g W) as (Gf & Gg & Xx & K & BB & M1). destruct v as [|s|s m], w as [|s'|s' m']; cbn [quotient_is widened] in *; try narrow.
  pose proof (number_nonneg _ _ Nv) as P. pose proof (number_nonneg _ _ Nw) as P'.
  destruct (Z.eqb_spec m' 0) as [->|].
  { cbn [Z.mul Z.eqb] in S. destruct (Z.eqb_spec m 0) as [->|]; [cbn in S; narrow|]. destruct (Z.eqb_spec (m * 2 ^ ratio f g) 0); [nia|narrow]. }
  destruct (Z.eqb_spec (m' * 2 ^ ratio f g) 0); [nia|]. assert (Pd : 0 < m' * 2 ^ ratio f g) by nia.
  eapply rounded_ext; [|exact Gf|eapply (narrow_rounded _ _ _ _ (comparing_ratio _ _ Pd) S N)].
  + intros n' _. unfold twice_ratio. assert (E : one g = one f * 2 ^ ratio f g) by (rewrite <- !scale_one, <- Z.pow_add_r by (destruct (good_sizes f Gf) as (_ & _ & ? & _); destruct (good_sizes g Gg); lia); f_equal; unfold ratio; lia).
    rewrite E. replace (2 * (m * 2 ^ ratio f g * (one f * 2 ^ ratio f g))) with (2 * (m * one f) * (2 ^ ratio f g * 2 ^ ratio f g)) by ring.
    replace (n' * 2 ^ ratio f g * (m' * 2 ^ ratio f g)) with (n' * m' * (2 ^ ratio f g * 2 ^ ratio f g)) by ring. rewrite <- Zmult_compare_compat_r by nia. reflexivity.
  + intros p0 M j Mi Ne. unfold twice_ratio. apply Z.compare_eq_iff.
    destruct (number_digits s m Nv) as (p & A & i & Hp & Em & EA & HA & Hi). destruct (number_digits s' m' Nw) as (p' & B & i' & Hp' & Em' & EB & HB & Hi').
    rewrite EA, EB in *. rewrite (quotient_middle f g p0 M j A B i i'); try assumption; lia.
Qed.

Lemma via_root v y r : number v -> root_is g (widened f g v) y -> narrowed f g y r -> root_is f v r.
Proof.
  intros Nv S N. pose proof via_pos as Pk. destruct (wider_sizes f g W) as (Gf & Gg & Xx & K & BB & M1). destruct v as [|s|s m]; cbn [root_is widened] in *; try narrow.
  - destruct s; narrow.
  - destruct (Z.eqb_spec m 0) as [->|]; [cbn in S; narrow|]. destruct (Z.eqb_spec (m * 2 ^ ratio f g) 0); [nia|]. destruct s; [narrow|].
    eapply rounded_ext; [|exact Gf|eapply (narrow_rounded _ _ _ _ (comparing_root _) S N)].
    + intros n' _. unfold twice_root. assert (E : one g = one f * 2 ^ ratio f g) by (rewrite <- !scale_one, <- Z.pow_add_r by (destruct (good_sizes f Gf) as (_ & _ & ? & _); destruct (good_sizes g Gg); lia); f_equal; unfold ratio; lia).
      rewrite E. replace (4 * (m * 2 ^ ratio f g * (one f * 2 ^ ratio f g))) with (4 * (m * one f) * (2 ^ ratio f g * 2 ^ ratio f g)) by ring.
      replace (n' * 2 ^ ratio f g * (n' * 2 ^ ratio f g)) with (n' * n' * (2 ^ ratio f g * 2 ^ ratio f g)) by ring. rewrite <- Zmult_compare_compat_r by nia. reflexivity.
    + intros p0 M j Mi Ne. unfold twice_root. apply Z.compare_eq_iff. replace (2 * (M * 2 ^ j) * (2 * (M * 2 ^ j))) with (4 * (M * 2 ^ j * (M * 2 ^ j))) by ring. f_equal.
      destruct (number_digits false m Nv) as (p & A & i & Hp & Em & EA & HA & Hi). rewrite EA in *. eapply root_middle; try eassumption; lia.
Qed.
End Via.
