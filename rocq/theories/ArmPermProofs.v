(** Lanes of the ARM permutations. *)
From Coq Require Import ZArith Lia List Bool ZifyBool.
From Verif Require Import CInt BitLemmas ScalarOps ScalarSpec ScalarProofs X86Deg234 X86Arith X86ArithSpec X86LaneLemmas
  X86EmulProofs X86SelectProofs X86Mem X86MemSpec Arm ArmSpec ArmProofs ArmProofs4 ArmPerm ArmPermSpec.
Import ListNotations.
Open Scope Z_scope.

Lemma mw_cases t : mem_type t -> mw t = 8 \/ mw t = 16 \/ mw t = 32 \/ mw t = 64.
Proof. destruct t as [t| |]; cbn [mem_type]; intros H; [apply bits_cases, H|cbn; tauto|cbn; tauto]. Qed.
Lemma okw_amw e t : mem_type t -> okw (an e) (mw t).
Proof. intros H. apply okw_an, mw_cases, H. Qed.
Lemma even_lanes e t : mem_type t -> aelems e t = 2 * (aelems e t / 2) /\ 2 <= aelems e t.
Proof.
  intros H. unfold aelems. assert (exists q, an e = 128 * q /\ 0 < q) as (q & -> & Hq).
  { destruct e as [| |b vq]; [exists 1|exists 1|exists (Zpos vq)]; cbn [an]; lia. }
  destruct (mw_cases t H) as [->|[->|[->| ->]]]; Z.to_euclidean_division_equations; lia.
Qed.
Lemma pattern_lane t r i : pattern t r i = lane (mw t) i r.
Proof. reflexivity. Qed.
Lemma lane_modw w i a : 0 <= w -> lane w i a mod 2 ^ w = lane w i a.
Proof. intros H. apply Z.mod_small, lane_range, H. Qed.

Section P.
Context (n w : Z) (O : okw n w) (Ev : n / w = 2 * (n / w / 2)).
Lemma i_zip_ok hi a b : in_reg n (i_zip hi n w a b) /\
  forall i, 0 <= i < n / w / 2 ->
    lane w (2 * i) (i_zip hi n w a b) = lane w ((if hi then n / w / 2 else 0) + i) a /\
    lane w (2 * i + 1) (i_zip hi n w a b) = lane w ((if hi then n / w / 2 else 0) + i) b.
Proof.
  assert (0 <= w) by (destruct O; lia). split; [apply in_reg_build, O|]. intros i Hi. unfold i_zip.
  rewrite !lane_buildn by (assumption || lia). rewrite Z.even_mul. cbn [Z.even orb].
  replace (Z.even (2 * i + 1)) with false by (rewrite Z.even_add, Z.even_mul; reflexivity).
  replace (2 * i / 2) with i by (Z.to_euclidean_division_equations; lia).
  replace ((2 * i + 1) / 2) with i by (Z.to_euclidean_division_equations; lia). rewrite !lane_modw by assumption. split; reflexivity.
Qed.
Lemma i_uzp_ok hi a b : in_reg n (i_uzp hi n w a b) /\
  forall i, 0 <= i < n / w / 2 ->
    lane w i (i_uzp hi n w a b) = lane w (2 * i + (if hi then 1 else 0)) a /\
    lane w (n / w / 2 + i) (i_uzp hi n w a b) = lane w (2 * i + (if hi then 1 else 0)) b.
Proof.
  assert (0 <= w) by (destruct O; lia). split; [apply in_reg_build, O|]. intros i Hi. unfold i_uzp.
  rewrite !lane_buildn by (assumption || lia). replace (i <? n / w / 2) with true by lia.
  replace (n / w / 2 + i <? n / w / 2) with false by lia. replace (n / w / 2 + i - n / w / 2) with i by lia.
  rewrite !lane_modw by assumption. split; reflexivity.
Qed.
Lemma i_rev_ok a : in_reg n (i_rev n w a) /\ forall i, 0 <= i < n / w -> lane w i (i_rev n w a) = lane w (n / w - 1 - i) a.
Proof.
  split; [apply in_reg_build, O|]. intros i Hi. unfold i_rev. rewrite lane_buildn by assumption. apply lane_modw. destruct O; lia.
Qed.
End P.

Lemma half64_zip hi a b : half64 hi a b = i_zip hi 128 64 a b.
Proof. unfold half64, i_zip. change (nlanes 128 64) with 2%nat. cbn [build]. destruct hi; reflexivity. Qed.
Lemma half64_uzp hi a b : half64 hi a b = i_uzp hi 128 64 a b.
Proof. unfold half64, i_uzp. change (nlanes 128 64) with 2%nat. cbn [build]. destruct hi; reflexivity. Qed.

Lemma a_zip_half_eq hi e t a b : a_zip_half hi e t a b = i_zip hi (an e) (mw t) a b.
Proof.
  unfold a_zip_half. destruct (is_neon128 e && (mw t =? 64)) eqn:E; [|reflexivity]. destruct e; try discriminate.
  cbn in E. apply Z.eqb_eq in E. rewrite E. apply half64_zip.
Qed.
Lemma a_unzip_half_eq hi e t a b : a_unzip_half hi e t a b = i_uzp hi (an e) (mw t) a b.
Proof.
  unfold a_unzip_half. destruct (is_neon128 e && (mw t =? 64)) eqn:E; [|reflexivity]. destruct e; try discriminate.
  cbn in E. apply Z.eqb_eq in E. rewrite E. apply half64_uzp.
Qed.
Lemma a_zip_eq e t a b : a_zip e t a b = (a_zip_half false e t a b, a_zip_half true e t a b).
Proof. unfold a_zip. rewrite !a_zip_half_eq. destruct (_ && _); reflexivity. Qed.
Lemma a_unzip_eq e t a b : a_unzip e t a b = (a_unzip_half false e t a b, a_unzip_half true e t a b).
Proof. unfold a_unzip. rewrite !a_unzip_half_eq. destruct (_ && _); reflexivity. Qed.

Lemma v_swap_lane w a i : w = 8 \/ w = 16 \/ w = 32 \/ w = 64 -> 0 <= i < 128 / w ->
  lane w i (v_swap a) = lane w (if i <? 64 / w then i + 64 / w else i - 64 / w) a.
Proof.
  intros Hw Hi. assert (exists k, 64 = k * w /\ 0 < k /\ 64 / w = k /\ 128 / w = 2 * k) as (k & Ek & Hk & E6 & E12).
  { exists (64 / w). destruct Hw as [->|[->|[->| ->]]]; cbn; lia. }
  rewrite E6. rewrite E12 in Hi.
  assert (forall j l, 0 <= l <= 1 -> 0 <= j < k -> lane w (k * l + j) (v_swap a) = lane w (k * (1 - l) + j) a) as G.
  { intros j l Hl Hj. rewrite !lane_lane by lia. rewrite <- Ek. f_equal. unfold v_swap.
    rewrite lane_build by (cbn; lia). apply lane_modw. lia. }
  destruct (Z.ltb_spec i k).
  - specialize (G i 0 ltac:(lia) ltac:(lia)). replace (k * 0 + i) with i in G by lia. rewrite G. f_equal. lia.
  - specialize (G (i - k) 1 ltac:(lia) ltac:(lia)). replace (k * 1 + (i - k)) with i in G by lia. rewrite G. f_equal. lia.
Qed.

Lemma a_reverse_ok e t a : mem_type t -> in_reg (an e) (a_reverse e t a) /\
  forall i, 0 <= i < aelems e t -> lane (mw t) i (a_reverse e t a) = lane (mw t) (aelems e t - 1 - i) a.
Proof.
  intros H. pose proof (mw_cases t H) as Hw. unfold aelems.
  assert (forall r, in_reg 128 (v_swap r)) as R.
  { intros r. unfold v_swap. change 2%nat with (nlanes 128 64). apply in_reg_build. unfold okw; cbn; lia. }
  assert (is_neon e = true -> a_reverse e t a = (if mw t =? 64 then v_swap a else v_swap (v_rev64 (mw t) a)) /\ an e = 128) as N.
  { destruct e; [split; reflexivity|split; reflexivity|discriminate]. }
  destruct (is_neon e) eqn:Ne.
  2: { destruct e; try discriminate. apply i_rev_ok. apply okw_amw, H. }
  destruct (N eq_refl) as [-> ->]. destruct (Z.eqb_spec (mw t) 64) as [E|E].
  - split; [apply R|]. intros i Hi. rewrite E in *. change (128 / 64) with 2 in *.
    rewrite v_swap_lane by (cbn; lia). f_equal. change (64 / 64) with 1. destruct (Z.ltb_spec i 1); lia.
  - split; [apply R|]. intros i Hi. rewrite v_swap_lane by assumption. unfold v_rev64.
    assert (okw 128 (mw t)) by (apply (okw_amw Neon128), H).
    assert (0 <= (if i <? 64 / mw t then i + 64 / mw t else i - 64 / mw t) < 128 / mw t) as Hj.
    { destruct Hw as [Hw|[Hw|[Hw|Hw]]]; rewrite Hw in *; match goal with |- context [if ?c then _ else _] => destruct c eqn:? end; Z.to_euclidean_division_equations; lia. }
    rewrite lane_buildn by assumption. rewrite lane_modw by lia. f_equal. cbv zeta.
    destruct Hw as [Hw|[Hw|[Hw|Hw]]]; rewrite Hw in *; try congruence; clear - Hi;
    [change (64 / 8) with 8; change (128 / 8) with 16 in *|change (64 / 16) with 4; change (128 / 16) with 8 in *|
     change (64 / 32) with 2; change (128 / 32) with 4 in *]; match goal with |- context [if ?c then _ else _] => destruct c eqn:? end; Z.to_euclidean_division_equations; lia.
Qed.

(** *** f16 as pairs *)
Lemma apattern16_lo v i : i < 4 -> apattern16 v i = lane 32 i (fst v).
Proof. intros H. unfold apattern16. replace (i <? 4) with true by lia. reflexivity. Qed.
Lemma apattern16_hi v i : 4 <= i -> apattern16 v i = lane 32 (i - 4) (snd v).
Proof. intros H. unfold apattern16. replace (i <? 4) with false by lia. reflexivity. Qed.
Lemma okw_32 : okw 128 32.
Proof. unfold okw; cbn; lia. Qed.

Lemma a_reverse16_ok e v : is_neon e = true -> in_regs16 (a_reverse16 e v) /\
  forall i, 0 <= i < 8 -> apattern16 (a_reverse16 e v) i = apattern16 v (7 - i).
Proof.
  intros N. assert (an e = 128) as En by (destruct e; [reflexivity..|discriminate]).
  pose proof (a_reverse_ok e MF32 (snd v) I) as [R1 L1]. pose proof (a_reverse_ok e MF32 (fst v) I) as [R2 L2].
  unfold aelems in *. rewrite En in *. change (mw MF32) with 32 in *. change (128 / 32) with 4 in *.
  split; [split; assumption|]. intros i Hi. destruct (Z_lt_dec i 4).
  - rewrite apattern16_lo, apattern16_hi by lia. unfold a_reverse16. cbn [fst]. rewrite L1 by lia. f_equal; lia.
  - rewrite apattern16_hi, apattern16_lo by lia. unfold a_reverse16. cbn [snd]. rewrite L2 by lia. f_equal; lia.
Qed.
Lemma a_zip_half16_ok hi v w : in_regs16 (a_zip_half16 hi v w) /\
  forall i, 0 <= i < 4 ->
    apattern16 (a_zip_half16 hi v w) (2 * i) = apattern16 v ((if hi then 4 else 0) + i) /\
    apattern16 (a_zip_half16 hi v w) (2 * i + 1) = apattern16 w ((if hi then 4 else 0) + i).
Proof.
  unfold a_zip_half16. set (a := if hi then snd v else fst v). set (b := if hi then snd w else fst w).
  destruct (i_zip_ok 128 32 okw_32 eq_refl false a b) as [R1 L1]. destruct (i_zip_ok 128 32 okw_32 eq_refl true a b) as [R2 L2].
  change (128 / 32 / 2) with 2 in *. split; [split; assumption|].
  assert (forall i, 0 <= i < 4 -> apattern16 v ((if hi then 4 else 0) + i) = lane 32 i a /\ apattern16 w ((if hi then 4 else 0) + i) = lane 32 i b) as G.
  { intros i Hi. subst a b. destruct hi; [rewrite !apattern16_hi by lia|rewrite !apattern16_lo by lia]; split; f_equal; lia. }
  intros i Hi. destruct (G i Hi) as [-> ->]. destruct (Z_lt_dec i 2).
  - rewrite !apattern16_lo by lia. cbn [fst]. destruct (L1 i ltac:(lia)) as [-> ->]. split; reflexivity.
  - rewrite !apattern16_hi by lia. cbn [snd]. replace (2 * i - 4) with (2 * (i - 2)) by lia. replace (2 * i + 1 - 4) with (2 * (i - 2) + 1) by lia.
    destruct (L2 (i - 2) ltac:(lia)) as [-> ->]. split; f_equal; lia.
Qed.
Lemma a_unzip_half16_ok hi v w : in_regs16 (a_unzip_half16 hi v w) /\
  forall i, 0 <= i < 4 ->
    apattern16 (a_unzip_half16 hi v w) i = apattern16 v (2 * i + (if hi then 1 else 0)) /\
    apattern16 (a_unzip_half16 hi v w) (4 + i) = apattern16 w (2 * i + (if hi then 1 else 0)).
Proof.
  unfold a_unzip_half16. destruct (i_uzp_ok 128 32 okw_32 eq_refl hi (fst v) (snd v)) as [R1 L1].
  destruct (i_uzp_ok 128 32 okw_32 eq_refl hi (fst w) (snd w)) as [R2 L2].
  change (128 / 32 / 2) with 2 in *. split; [split; assumption|]. intros i Hi.
  rewrite apattern16_lo, (apattern16_hi _ (4 + i)) by lia. cbn [fst snd]. replace (4 + i - 4) with i by lia.
  destruct (Z_lt_dec i 2).
  - rewrite !apattern16_lo by (destruct hi; lia). split; [apply L1|apply L2]; lia.
  - rewrite !apattern16_hi by (destruct hi; lia). replace i with (2 + (i - 2)) at 1 3 by lia.
    destruct (L1 (i - 2) ltac:(lia)) as [_ ->]. destruct (L2 (i - 2) ltac:(lia)) as [_ ->]. split; f_equal; lia.
Qed.
Lemma regs16_ext a b : in_regs16 a -> in_regs16 b -> (forall i, 0 <= i < 8 -> apattern16 a i = apattern16 b i) -> a = b.
Proof.
  intros [A1 A2] [B1 B2] E. destruct a as [a0 a1], b as [b0 b1]. cbn [fst snd] in *. f_equal; apply (reg_ext 128 32 _ _ okw_32); try assumption;
  change (128 / 32) with 4; intros i Hi.
  - specialize (E i ltac:(lia)). rewrite !apattern16_lo in E by lia. exact E.
  - specialize (E (i + 4) ltac:(lia)). rewrite !apattern16_hi in E by lia. replace (i + 4 - 4) with i in E by lia. exact E.
Qed.
