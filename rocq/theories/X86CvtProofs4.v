(** Conversions between the two float types. *)
From Coq Require Import ZArith Lia List Bool.
From Verif Require Import CInt BitLemmas FloatSpec FloatProofs ScalarOps X86Deg234 X86Arith X86ArithSpec X86LaneLemmas
  X86Mem X86MemSpec X86Cvt X86CvtSpec X86CvtProofs X86CvtProofs2.
Import ListNotations.
Open Scope Z_scope.

Lemma decode_inf f s : good_fmt f -> decode f (sign_bit f s + inf_bits f) = FInf s.
Proof. intros [->|[->| ->]]; destruct s; reflexivity. Qed.
Lemma decode_nan f : good_fmt f -> decode f (nan_bits f) = FNaN.
Proof. intros [->|[->| ->]]; reflexivity. Qed.

Lemma finite_digits b s m : decode binary32 b = FFin s m -> exists q j, m = q * 2 ^ j /\ 0 <= q < 2 ^ 24 /\ 0 <= j <= 253.
Proof.
  unfold decode. set (e := exp_of binary32 b). set (k := man_of binary32 b).
  assert (He : 0 <= e < 2 ^ 8) by (apply Z.mod_pos_bound; lia). assert (Hk : 0 <= k < 2 ^ 23) by (apply Z.mod_pos_bound; lia).
  change (2 ^ ebits binary32 - 1) with 255. change (2 ^ 8) with 256 in He. destruct (Z.eqb_spec e 255); [destruct (_ =? _); discriminate|]. intros D. injection D as _ <-.
  unfold magnitude. change (mbits binary32) with 23. change (2 ^ 24) with (2 ^ 23 + 2 ^ 23). destruct (Z.eqb_spec e 0).
  - exists k, 0. lia.
  - exists (2 ^ 23 + k), (e - 1). split; [reflexivity|]. lia.
Qed.

Lemma double_of_single_ok b : decode binary64 (double_of_single b) = widen64 (decode binary32 b) /\ 0 <= double_of_single b < 2 ^ 64.
Proof.
  assert (G : good_fmt binary64) by (right; left; reflexivity). unfold double_of_single. destruct (decode binary32 b) as [| |s m] eqn:D; cbn [widen64].
  - split; [reflexivity|vm_compute; split; discriminate || reflexivity].
  - split; [apply decode_inf; exact G|destruct neg; vm_compute; split; discriminate || reflexivity].
  - destruct (finite_digits b s m D) as (q & j & -> & Hq & Hj). rewrite <- Z.mul_assoc, <- Z.pow_add_r by lia.
    apply (encode_exact binary64 s q (j + 925) G).
    + change (mbits binary64 + 1) with 53. assert (2 ^ 24 < 2 ^ 53) by (vm_compute; reflexivity). lia.
    + change (2 ^ ebits binary64 - 3) with 2045. lia.
Qed.

Lemma single_of_double_ok b : 0 <= b < 2 ^ 64 -> nearest_single b (single_of_double b) /\ 0 <= single_of_double b < 2 ^ 32.
Proof.
  intros Hb. assert (G : good_fmt binary32) by (left; reflexivity). unfold nearest_single, single_of_double. destruct (decode binary64 b) as [| |s x] eqn:D.
  - split; [reflexivity|vm_compute; split; discriminate || reflexivity].
  - split; [apply decode_inf; exact G|destruct neg; vm_compute; split; discriminate || reflexivity].
  - assert (Hx : 0 <= x). { destruct (decode_split binary64 b) as (s0 & p & Hp & Eb & _); [cbn; lia|cbn; lia|exact Hb|]. rewrite Eb, decode_pattern in D by (cbn; lia || exact Hp).
      destruct (_ =? _); [destruct (_ =? _); discriminate|]. injection D as _ <-. apply vmag_nonneg; [cbn; lia|lia]. }
    assert (M : 1 <= mbits binary32) by (cbn; lia).
    destruct (round_mag_scale binary32 M x 925 ltac:(lia) Hx) as (_ & _ & _ & R0). set (r := round_mag binary32 x 925) in *.
    pose proof (fun p => round_mag_nearest binary32 M x 925 p ltac:(lia) Hx) as NE. fold r in NE.
    pose proof (fun p => round_mag_tie binary32 M x 925 p ltac:(lia) Hx) as TI. fold r in TI.
    set (I := inf_bits binary32) in *. assert (EI : I = 2139095040) by reflexivity.
    assert (VI : vmag binary32 I = 2 ^ 24 * 2 ^ 253).
    { replace I with (2 ^ 24 + 253 * 2 ^ mbits binary32) by reflexivity. apply vmag_scaled; cbn; lia. }
    assert (VM : vmag binary32 (I - 1) = (2 ^ 24 - 1) * 2 ^ 253).
    { replace (I - 1) with ((2 ^ 24 - 1) + 253 * 2 ^ mbits binary32) by reflexivity. apply vmag_scaled; cbn; lia. }
    assert (TH : overflow32 = (2 ^ 25 - 1) * (2 ^ 252 * 2 ^ 925)) by (unfold overflow32; rewrite <- Z.pow_add_r by lia; reflexivity).
    assert (P252 : 2 ^ 253 = 2 * 2 ^ 252) by (rewrite <- Z.pow_succ_r by lia; reflexivity). rewrite P252 in VI, VM.
    pose proof (pow2_pos 252 ltac:(lia)) as P1. pose proof (pow2_pos 925 ltac:(lia)) as P2. set (u := 2 ^ 252) in *. set (v := 2 ^ 925) in *.
    change (2 ^ 24) with 16777216 in *. change (2 ^ 25) with 33554432 in *. assert (PUV : 0 < u * v) by nia. remember (u * v) as uv eqn:Euv.
    assert (VIv : vmag binary32 I * v = 33554432 * uv) by (rewrite VI, Euv; ring). assert (VMv : vmag binary32 (I - 1) * v = 33554430 * uv) by (rewrite VM, Euv; ring).
    unfold encode. fold r. fold I. destruct (Z.leb_spec overflow32 x) as [O|O].
    + assert (RI : I <= r).
      { destruct (Z.le_gt_cases I r) as [|Lt]; [assumption|exfalso].
        pose proof (vmag_mono binary32 M r (I - 1) R0 ltac:(lia)) as MO. pose proof (NE I ltac:(lia)) as N.
        assert (vmag binary32 r * v <= 33554430 * uv) by (rewrite <- VMv; apply Z.mul_le_mono_nonneg_r; lia).
        rewrite VIv in N. assert (x = 33554431 * uv /\ vmag binary32 r * v = 33554430 * uv) as [X1 X2] by lia.
        assert (Rm : r = I - 1). { apply (vmag_inj binary32 M r (I - 1) R0 ltac:(lia)). apply (Z.mul_reg_r _ _ v); [lia|]. rewrite VMv. exact X2. }
        assert (Z.even r = true) as Ev. { apply (TI I); [lia| |]. intros Q. rewrite Q in VIv. lia. rewrite VIv. lia. }
        rewrite Rm, EI in Ev. discriminate. }
      rewrite Z.min_r by exact RI. split; [apply decode_inf; exact G|]. destruct s; rewrite EI; vm_compute; split; discriminate || reflexivity.
    + assert (RI : r < I).
      { destruct (Z.le_gt_cases I r) as [Ge|]; [exfalso|assumption]. pose proof (vmag_mono binary32 M I r ltac:(lia) Ge) as MO. pose proof (NE (I - 1) ltac:(lia)) as N.
        assert (33554432 * uv <= vmag binary32 r * v) by (rewrite <- VIv; apply Z.mul_le_mono_nonneg_r; lia). rewrite VMv in N. lia. }
      rewrite Z.min_l by lia. destruct (encode_pattern binary32 s r G ltac:(lia)) as [-> RR]. split; [|exact RR].
      eexists. split; [reflexivity|]. intros b' s' m' Hb' D'. destruct (decode_split binary32 b') as (s0 & p & Hp & Eb & _); [cbn; lia|cbn; lia|exact Hb'|].
      rewrite Eb, decode_pattern in D' by (cbn; lia || exact Hp). destruct (_ =? _); [destruct (_ =? _); discriminate|]. injection D' as _ <-. split; [apply NE; lia|].
      intros Ne Q. rewrite Z.even_add. replace (Z.even (sign_bit binary32 s)) with true by (destruct s; reflexivity). rewrite (TI p ltac:(lia) Ne Q). reflexivity.
Qed.

(** ** Registers with the same lanes *)
Lemma lanes_eq n w a b : okw n w -> in_reg n a -> in_reg n b -> (forall i, 0 <= i < n / w -> lane w i a = lane w i b) -> a = b.
Proof.
  intros (W & N & E) Ha Hb L. apply Z.bits_inj'. intros k Hk. destruct (Z.lt_ge_cases k n) as [Lt|Ge].
  - pose proof (Z.div_mod k w ltac:(lia)) as DM. pose proof (Z.mod_pos_bound k w W) as MB.
    assert (Hi : 0 <= k / w < n / w). { split; [apply Z.div_pos; lia|]. apply Z.div_lt_upper_bound; [lia|]. lia. }
    pose proof (f_equal (fun x => Z.testbit x (k mod w)) (L (k / w) Hi)) as Q. cbv beta in Q. rewrite !testbit_lane in Q by lia.
    destruct (Z.ltb_spec (k mod w) w); [|lia]. cbn [andb] in Q. rewrite <- DM in Q. exact Q.
  - rewrite !(reg_high n _ k) by assumption. reflexivity.
Qed.
