From Coq Require Import ZArith Lia Bool ZifyBool.
From Verif Require Import CInt BitLemmas FloatSpec FloatProofs Fp16 Fp16Spec Fp16Proofs RoundEven RoundEvenProofs.
Open Scope Z_scope.

(** *** the f16 version *)
Lemma round_to_even_f16_l a s h : in_u 16 a -> decode binary16 a = FFin s h ->
  exists r n, round_to_even_f16 a = Some r /\ decode binary16 r = FFin s (n * 2 ^ 24) /\ 0 <= n
    /\ 2 * Z.abs (n * 2 ^ 24 - h) <= 2 ^ 24
    /\ (2 * Z.abs (n * 2 ^ 24 - h) = 2 ^ 24 -> Z.even n = true).
Proof.
  intros Ha Hd. destruct (u16_to_f32_exact_l a Ha) as (u & Eu & Hu & Du).
  rewrite Hd in Du. cbn [widen] in Du.
  assert (HM : 1 <= mbits binary32) by (cbn; lia).
  assert (HE : 3 <= ebits binary32) by (cbn; lia).
  assert (HW : mbits binary32 + 3 <= 2 ^ (ebits binary32 - 1)) by (cbn; lia).
  destruct (round_to_even_l binary32 HM HE HW u s (h * 2 ^ 125) Hu Du) as (n & Dr & Hn & Hnear & Htie).
  pose proof (round_to_even_range binary32 HM HE HW u s (h * 2 ^ 125) Hu Du) as Rr.
  change (one_exp binary32) with 149 in *.
  set (g := 2 ^ 125) in *. assert (2 ^ 149 = 2 ^ 24 * g) as Eg by (unfold g; reflexivity). rewrite Eg in *.
  assert (0 < g) by (unfold g; reflexivity).
  replace (n * (2 ^ 24 * g) - h * g) with ((n * 2 ^ 24 - h) * g) in * by ring.
  rewrite Z.abs_mul, (Z.abs_eq g) in * by lia.
  assert (2 * Z.abs (n * 2 ^ 24 - h) <= 2 ^ 24) as Hnear'.
  { apply (Z.mul_le_mono_pos_r _ _ g); lia. }
  assert (2 * Z.abs (n * 2 ^ 24 - h) = 2 ^ 24 -> Z.even n = true) as Htie' by (intros Ht; apply Htie; rewrite Z.mul_assoc, Ht; reflexivity).
  clear Hnear Htie.
  (* the half is representable *)
  destruct (decode16_split a Ha) as (s0 & p & Hp & Ea & Hf). destruct (Hf _ _ Hd) as (Hp2 & <- & ->). clear Hf.
  set (x := vmag binary16 p) in *.
  assert (0 <= x) as Hx0 by (apply vmag_nonneg; cbn [mbits binary16]; lia).
  assert (exists q, 0 <= q <= 31743 /\ vmag binary16 q = n * 2 ^ 24) as (q & Hq & Eq).
  { destruct (Z_lt_le_dec x (2 ^ 34)) as [Hs|Hb].
    - (* n <= 2^10: representable *)
      assert (n <= 2 ^ 10) by (change (2 ^ 34) with 17179869184 in Hs; change (2 ^ 24) with 16777216 in *; change (2 ^ 10) with 1024; lia).
      assert (1 <= mbits binary16) as HM16 by (cbn; lia).
      exists (round_mag binary16 (n * 2 ^ 24) 0). split.
      + split.
        * change 0 with (round_mag binary16 0 0) at 1. apply round_mag_mono; lia.
        * eapply Z.le_trans; [apply (round_mag_mono binary16 HM16 (n * 2 ^ 24) (2 ^ 10 * 2 ^ 24) 0); lia|]. vm_compute. discriminate.
      + apply round_repr; [exact HM16|cbn; lia|change (2 ^ (mbits binary16 + 1)) with 2048; change (2 ^ 10) with 1024 in *; lia|lia].
    - (* already an integer *)
      destruct (vmag_grid binary16 p 24 ltac:(cbn; lia) ltac:(lia) ltac:(lia)) as [(i & Hi & Ei)|Hlt].
      + fold x in Ei. exists p. split; [lia|]. fold x. rewrite Ei in *.
        assert (n = i) by (change (2 ^ 24) with 16777216 in *; lia). subst. reflexivity.
      + cbn [mbits binary16] in Hlt. change (10 + 24) with 34 in Hlt. fold x in Hlt. lia. }
  destruct (decode32_split _ Rr) as (s1 & pr & Hpr & Er & Hf & _).
  destruct (Hf _ _ Dr) as (Hpi & -> & Ev). clear Hf.
  exists (sign_bit binary16 s1 + q), n. unfold round_to_even_f16. rewrite Eu. split; [|split; [|split; [|split]]].
  - f_equal. rewrite Er, f32_to_u16_round by lia. rewrite <- Ev.
    replace (n * (2 ^ 24 * g)) with (vmag binary16 q * 2 ^ 125) by (rewrite Eq; unfold g; ring).
    rewrite round_mag_exact by (cbn [mbits binary16]; lia). f_equal. lia.
  - rewrite decode16 by lia. f_equal. exact Eq.
  - exact Hn.
  - exact Hnear'.
  - exact Htie'.
Qed.
