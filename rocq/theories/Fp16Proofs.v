From Coq Require Import ZArith Lia Bool List ZifyBool.
From Verif Require Import CInt BitLemmas FloatSpec FloatProofs Fp16 Fp16Spec.
Open Scope Z_scope.

Definition inf32 : Z := 0x7f800000.

(** *** Reading the fields of a single *)
Lemma f32_fields s p : 0 <= p < 2 ^ 31 ->
  let u := sign_bit binary32 s + p in
  Z.land u 0x80000000 = sign_bit binary32 s
  /\ Z.land (Z.shiftr u 23) 0xFF = p / 2 ^ 23
  /\ Z.land u 0x7FFFFF = p mod 2 ^ 23
  /\ Z.land u (2 ^ 32 - 1 - 0x80000000) = p.
Proof.
  intros Hp u.
  assert (sign_bit binary32 s = (if s then 1 else 0) * 2 ^ 31) as Es by (destruct s; reflexivity).
  assert (u = p + (if s then 1 else 0) * 2 ^ 31) as Eu by (unfold u; lia).
  repeat split.
  - change 0x80000000 with (2 ^ 31). rewrite land_pow2 by lia. rewrite Eu.
    rewrite Z_div_plus_full by lia. rewrite (Z.div_small p) by lia. rewrite Es. destruct s; reflexivity.
  - change 0xFF with (2 ^ 8 - 1). rewrite land_mask, shiftr_div by lia. rewrite Eu.
    replace ((if s then 1 else 0) * 2 ^ 31) with (((if s then 1 else 0) * 2 ^ 8) * 2 ^ 23) by (destruct s; reflexivity).
    rewrite Z_div_plus_full by lia. rewrite Z_mod_plus_full.
    apply Z.mod_small. split; [apply Z.div_pos; lia|apply Z.div_lt_upper_bound; lia].
  - change 0x7FFFFF with (2 ^ 23 - 1). rewrite land_mask by lia. rewrite Eu.
    replace ((if s then 1 else 0) * 2 ^ 31) with (((if s then 1 else 0) * 2 ^ 8) * 2 ^ 23) by (destruct s; reflexivity).
    apply Z_mod_plus_full.
  - change (2 ^ 32 - 1 - 0x80000000) with (2 ^ 31 - 1). rewrite land_mask by lia. rewrite Eu.
    rewrite Z_mod_plus_full. apply Z.mod_small; lia.
Qed.

Lemma sign32_shift s : Z.shiftr (sign_bit binary32 s) 16 = sign_bit binary16 s.
Proof. destruct s; reflexivity. Qed.

Lemma decode32 s p : 0 <= p < inf32 ->
  decode binary32 (sign_bit binary32 s + p) = FFin s (vmag binary32 p).
Proof.
  intros Hp. unfold inf32 in Hp. rewrite decode_pattern by (cbn; lia).
  assert (p / 2 ^ mbits binary32 < 255) by (apply Z.div_lt_upper_bound; cbn; lia).
  change (2 ^ ebits binary32 - 1) with 255.
  destruct (p / 2 ^ mbits binary32 =? 255) eqn:E; [lia|reflexivity].
Qed.

Lemma decode32_inf s : decode binary32 (sign_bit binary32 s + inf32) = FInf s.
Proof. destruct s; reflexivity. Qed.

Lemma vmag32_le p q : 0 <= p -> 0 <= q -> (vmag binary32 p <=? vmag binary32 q) = (p <=? q).
Proof.
  intros Hp Hq. destruct (p <=? q) eqn:E.
  - apply Z.leb_le. apply vmag_mono; cbn; lia.
  - apply Z.leb_gt. apply vmag_strict; cbn; lia.
Qed.

(** The three range tests of [f32_to_u16] in terms of the magnitude pattern. *)
Lemma lit32 c : 0 <= c < inf32 -> decode binary32 c = FFin false (vmag binary32 c).
Proof. intros H. apply (decode32 false c H). Qed.

Lemma test_ge s p c : 0 <= p < inf32 -> 0 < c < inf32 ->
  (fle (decode binary32 c) (decode binary32 (sign_bit binary32 s + p))
   || fle (decode binary32 (sign_bit binary32 s + p)) (fneg (decode binary32 c))) = (c <=? p).
Proof.
  intros Hp Hc. rewrite decode32, lit32 by lia. cbn [fneg fle sval negb].
  rewrite <- (vmag32_le c p) by lia.
  pose proof (vmag_nonneg binary32 p ltac:(cbn; lia) ltac:(lia)).
  pose proof (vmag_strict binary32 ltac:(cbn; lia) 0 c ltac:(lia) ltac:(lia)) as Hs.
  change (vmag binary32 0) with 0 in Hs.
  destruct s; cbn [sval]; lia.
Qed.

Lemma test_le s p c : 0 <= p < inf32 -> 0 < c < inf32 ->
  (fle (decode binary32 (sign_bit binary32 s + p)) (decode binary32 c)
   && fle (fneg (decode binary32 c)) (decode binary32 (sign_bit binary32 s + p))) = (p <=? c).
Proof.
  intros Hp Hc. rewrite decode32, lit32 by lia. cbn [fneg fle sval negb].
  rewrite <- (vmag32_le p c) by lia.
  pose proof (vmag_nonneg binary32 p ltac:(cbn; lia) ltac:(lia)).
  pose proof (vmag_strict binary32 ltac:(cbn; lia) 0 c ltac:(lia) ltac:(lia)) as Hs.
  change (vmag binary32 0) with 0 in Hs.
  destruct s; cbn [sval]; lia.
Qed.

Lemma test_lt s p c : 0 <= p < inf32 -> 0 < c < inf32 ->
  (flt (decode binary32 (sign_bit binary32 s + p)) (decode binary32 c)
   && flt (fneg (decode binary32 c)) (decode binary32 (sign_bit binary32 s + p))) = (p <? c).
Proof.
  intros Hp Hc. rewrite decode32, lit32 by lia. cbn [fneg flt fle sval negb].
  rewrite (Z.ltb_antisym c p), <- (vmag32_le c p) by lia.
  pose proof (vmag_nonneg binary32 p ltac:(cbn; lia) ltac:(lia)).
  pose proof (vmag_strict binary32 ltac:(cbn; lia) 0 c ltac:(lia) ltac:(lia)) as Hs.
  change (vmag binary32 0) with 0 in Hs.
  destruct s; cbn [sval]; lia.
Qed.

(** *** Rounding of the magnitude *)
Lemma round16_mono x y : 0 <= x -> x <= y -> round_mag binary16 x 125 <= round_mag binary16 y 125.
Proof. intros. apply round_mag_mono; cbn; lia. Qed.

Lemma round16_sub x : 0 <= x < 2 ^ 136 -> round_mag binary16 x 125 = rne x 125.
Proof.
  intros Hx. unfold round_mag. cbn [mbits binary16].
  assert (Z.log2 x < 136).
  { destruct (Z.eq_dec x 0) as [->|]; [cbn; lia|]. apply Z.log2_lt_pow2; lia. }
  replace (Z.max 125 (Z.log2 x - 10)) with 125 by lia. lia.
Qed.

Lemma round16_small p : 0 <= p <= 0x33000000 -> round_mag binary16 (vmag binary32 p) 125 = 0.
Proof.
  intros Hp.
  assert (vmag binary32 p <= 2 ^ 124).
  { change (2 ^ 124) with (vmag binary32 0x33000000). apply vmag_mono; cbn; lia. }
  pose proof (vmag_nonneg binary32 p ltac:(cbn; lia) ltac:(lia)).
  assert (0 <= round_mag binary16 (vmag binary32 p) 125 <= 0); [|lia]. split.
  - change 0 with (round_mag binary16 0 125) at 1. apply round16_mono; lia.
  - change 0 with (round_mag binary16 (2 ^ 124) 125). apply round16_mono; lia.
Qed.

Lemma round16_overflow p : 0x477ff000 <= p -> 31744 <= round_mag binary16 (vmag binary32 p) 125.
Proof.
  intros Hp.
  replace 31744 with (round_mag binary16 (vmag binary32 0x477ff000) 125) by (vm_compute; reflexivity).
  apply round16_mono; [vm_compute; discriminate|]. apply vmag_mono; cbn; lia.
Qed.

Lemma round16_nonneg x : 0 <= x -> 0 <= round_mag binary16 x 125.
Proof. intros. change 0 with (round_mag binary16 0 125). apply round16_mono; lia. Qed.

Lemma round16_no_overflow x : 0 <= x -> x < overflow_threshold -> round_mag binary16 x 125 <= 31743.
Proof.
  intros Hx Hlt.
  replace 31743 with (round_mag binary16 (overflow_threshold - 1) 125) by (vm_compute; reflexivity).
  apply round16_mono; lia.
Qed.

Lemma vmag32_threshold : vmag binary32 0x477ff000 = overflow_threshold.
Proof. vm_compute. reflexivity. Qed.

Lemma round16_no_overflow_p p : 0 <= p < 0x477ff000 ->
  0 <= round_mag binary16 (vmag binary32 p) 125 <= 31743.
Proof.
  intros Hp. pose proof (vmag_nonneg binary32 p ltac:(cbn; lia) ltac:(lia)).
  split; [apply round16_nonneg; lia|]. apply round16_no_overflow; [lia|].
  rewrite <- vmag32_threshold. apply vmag_strict; cbn; lia.
Qed.

(** the denormal branch: adding 0.5f aligns the significand *)
Lemma denormal_branch p : 0 <= p < 0x38800000 ->
  to_u 32 (fadd binary32 p (Z.shiftl ((127 - 15) + (23 - 10) + 1) 23)
           - Z.shiftl ((127 - 15) + (23 - 10) + 1) 23)
  = round_mag binary16 (vmag binary32 p) 125.
Proof.
  intros Hp. change (Z.shiftl ((127 - 15) + (23 - 10) + 1) 23) with 0x3f000000.
  assert (0 <= vmag binary32 p < 2 ^ 135) as HX.
  { split; [apply vmag_nonneg; cbn; lia|].
    change (2 ^ 135) with (vmag binary32 0x38800000). apply vmag_strict; cbn; lia. }
  unfold fadd. rewrite lit32 by (unfold inf32; lia).
  change (decode binary32 0x3f000000) with (FFin false (2 ^ 148)).
  cbn [sval andb]. set (x := vmag binary32 p) in *.
  assert ((x + 2 ^ 148 =? 0) = false) as -> by lia.
  assert ((x + 2 ^ 148 <? 0) = false) as -> by lia.
  unfold encode. cbn [sign_bit]. rewrite Z.abs_eq by lia.
  unfold round_mag at 1. cbn [mbits binary32].
  assert (Z.log2 (x + 2 ^ 148) = 148) as ->.
  { apply Z.log2_unique; [lia|]. split; [lia|]. change (2 ^ Z.succ 148) with (2 * 2 ^ 148).
    assert (2 ^ 135 < 2 ^ 148) by reflexivity. lia. }
  change (Z.max 0 (148 - 23)) with 125.
  replace (x + 2 ^ 148) with (2 ^ 23 * 2 ^ 125 + x) by (change (2 ^ 23 * 2 ^ 125) with (2 ^ 148); lia).
  rewrite rne_add by (cbn; lia).
  rewrite round16_sub by (assert (2 ^ 135 < 2 ^ 136) by reflexivity; lia).
  assert (0 <= rne x 125 <= 2 ^ 10) as HR.
  { split.
    - rewrite <- (rne_exact 0 125) by lia. apply rne_mono; lia.
    - rewrite <- (rne_exact (2 ^ 10) 125) by lia. apply rne_mono; [lia|].
      change (2 ^ 10 * 2 ^ 125) with (2 ^ 135). lia. }
  change (inf_bits binary32) with 2139095040.
  rewrite Z.min_l by lia.
  rewrite to_u_id by (unfold in_u; lia). lia.
Qed.

(** the normal branch: add 0xfff plus the parity bit, then truncate *)
Lemma rne_trick m : 0 <= m ->
  (m + 0xfff + (m / 2 ^ 13) mod 2) / 2 ^ 13 = rne m 13.
Proof.
  intros Hm. unfold rne.
  assert (forall z, Z.even z = (z mod 2 =? 0)) as Ev by (intros z; rewrite Zmod_even; destruct (Z.even z); reflexivity).
  rewrite Ev. change (2 ^ 13) with 8192.
  pose proof (Z.div_mod m 8192 ltac:(lia)). pose proof (Z.mod_pos_bound m 8192 ltac:(lia)).
  set (q := m / 8192) in *. set (r := m mod 8192) in *.
  pose proof (Z.mod_pos_bound q 2 ltac:(lia)).
  replace (m + 0xfff + q mod 2) with ((r + 4095 + q mod 2) + q * 8192) by lia.
  rewrite Z_div_plus_full by lia.
  destruct (2 * r <? 8192) eqn:E1.
  { rewrite Z.div_small by lia. lia. }
  assert ((r + 4095 + q mod 2) = (r + 4095 + q mod 2 - 8192) + 1 * 8192) as E by lia.
  destruct (8192 <? 2 * r) eqn:E2.
  { rewrite E, Z_div_plus_full by lia. rewrite Z.div_small by lia. lia. }
  destruct (q mod 2 =? 0) eqn:E3.
  { rewrite Z.div_small by lia. lia. }
  rewrite E, Z_div_plus_full by lia. rewrite Z.div_small by lia. lia.
Qed.

Lemma normal_branch p : 0x38800000 <= p < 0x477ff000 ->
  let mant_odd := Z.land (Z.shiftr p 13) 1 in
  let in_u3 := to_u 32 (p + to_u 32 (to_u 32 (Z.shiftl (to_u 32 (15 - 127)) 23) + 0xfff)) in
  let in_u4 := to_u 32 (in_u3 + mant_odd) in
  Z.shiftr in_u4 13 = round_mag binary16 (vmag binary32 p) 125.
Proof.
  intros Hp mant_odd in_u3 in_u4.
  assert (mant_odd = (p / 2 ^ 13) mod 2) as Eo.
  { unfold mant_odd. change 1 with (2 ^ 1 - 1). rewrite land_mask, shiftr_div by lia. reflexivity. }
  assert (in_u3 = p - 112 * 2 ^ 23 + 0xfff) as E3.
  { unfold in_u3. change (to_u 32 (to_u 32 (Z.shiftl (to_u 32 (15 - 127)) 23) + 0xfff)) with (2 ^ 32 - 112 * 2 ^ 23 + 0xfff).
    unfold to_u. rewrite <- (Z_mod_plus_full _ (-1)).
    rewrite Z.mod_small by lia. lia. }
  assert (in_u4 = p - 112 * 2 ^ 23 + 0xfff + (p / 2 ^ 13) mod 2) as E4.
  { unfold in_u4. rewrite E3, Eo. pose proof (Z.mod_pos_bound (p / 2 ^ 13) 2 ltac:(lia)).
    apply to_u_id. unfold in_u. lia. }
  rewrite shiftr_div by lia. rewrite E4. clear E4 E3 Eo in_u3 in_u4 mant_odd.
  (* fields *)
  pose proof (Z.div_mod p (2 ^ 23) ltac:(lia)) as D.
  pose proof (Z.mod_pos_bound p (2 ^ 23) ltac:(lia)) as B.
  set (b := p / 2 ^ 23) in *. set (m := p mod 2 ^ 23) in *.
  assert (113 <= b <= 142) as Hb by lia.
  assert (vmag binary32 p = (2 ^ 23 + m) * 2 ^ (b - 1)) as EV.
  { unfold vmag, magnitude. cbn [mbits binary32]. fold b. fold m.
    destruct (b =? 0) eqn:E; [lia|reflexivity]. }
  rewrite EV. unfold round_mag. cbn [mbits binary16].
  assert (Z.log2 ((2 ^ 23 + m) * 2 ^ (b - 1)) = b + 22) as ->.
  { rewrite Z.log2_mul_pow2 by lia.
    rewrite (Z.log2_unique (2 ^ 23 + m) 23) by (change (2 ^ Z.succ 23) with (2 * 2 ^ 23); lia). lia. }
  replace (Z.max 125 (b + 22 - 10)) with (13 + (b - 1)) by lia.
  rewrite rne_scale by lia.
  replace (13 + (b - 1) - 125) with (b - 113) by lia.
  rewrite <- rne_trick by lia.
  replace (2 ^ 23 + m) with (p + (1 - b) * 1024 * 2 ^ 13) by lia.
  rewrite Z_div_plus_full by lia.
  assert ((p / 2 ^ 13 + (1 - b) * 1024) mod 2 = (p / 2 ^ 13) mod 2) as ->.
  { replace ((1 - b) * 1024) with (((1 - b) * 512) * 2) by lia. apply Z_mod_plus_full. }
  replace (p + (1 - b) * 1024 * 2 ^ 13 + 4095 + (p / 2 ^ 13) mod 2)
    with ((p - 112 * 2 ^ 23 + 4095 + (p / 2 ^ 13) mod 2) + (113 - b) * 1024 * 2 ^ 13) by lia.
  rewrite Z_div_plus_full by lia. change (2 ^ 10) with 1024. lia.
Qed.

Lemma glue16 s r : 0 <= r < 2 ^ 15 ->
  to_u 16 (Z.lor (sign_bit binary16 s) r) = sign_bit binary16 s + r.
Proof.
  intros Hr. replace (sign_bit binary16 s) with ((if s then 1 else 0) * 2 ^ 15) by (destruct s; reflexivity).
  rewrite lor_disjoint by lia. apply to_u_id. unfold in_u. destruct s; lia.
Qed.

(** Main characterisation of [f32_to_u16]. *)
Theorem f32_to_u16_round s p : 0 <= p <= inf32 ->
  f32_to_u16 (sign_bit binary32 s + p)
  = sign_bit binary16 s + Z.min (round_mag binary16 (vmag binary32 p) 125) 31744.
Proof.
  intros Hp.
  destruct (f32_fields s p ltac:(unfold inf32 in *; lia)) as (F1 & F2 & F3 & F4).
  unfold f32_to_u16. rewrite F1, F2, F3, F4.
  destruct (Z.eq_dec p inf32) as [->|Hne].
  { change (inf32 / 2 ^ 23 =? 255) with true. change (negb (inf32 mod 2 ^ 23 =? 0)) with false.
    cbn [andb]. rewrite decode32_inf, sign32_shift.
    assert (fle (decode binary32 0x477ff000) (FInf s)
         || fle (FInf s) (fneg (decode binary32 0x477ff000)) = true) as ->.
    { rewrite lit32 by (unfold inf32; lia). destruct s; reflexivity. }
    rewrite Z.min_r by (apply round16_overflow; unfold inf32; lia).
    destruct s; reflexivity. }
  assert (0 <= p < inf32) as Hp' by lia. unfold inf32 in Hp'.
  assert ((p / 2 ^ 23 =? 255) = false) as ->.
  { assert (p / 2 ^ 23 < 255) by (apply Z.div_lt_upper_bound; lia). lia. }
  cbn [andb]. cbv zeta. rewrite sign32_shift.
  rewrite test_ge, test_le, test_lt by (unfold inf32; lia).
  destruct (0x477ff000 <=? p) eqn:E1.
  { rewrite Z.min_r by (apply round16_overflow; lia). destruct s; reflexivity. }
  pose proof (round16_no_overflow_p p ltac:(lia)) as HR.
  rewrite Z.min_l by lia.
  destruct (p <=? 0x33000000) eqn:E2.
  { rewrite round16_small by lia. destruct s; reflexivity. }
  destruct (p <? 0x38800000) eqn:E3.
  { rewrite denormal_branch by lia. apply glue16. lia. }
  rewrite normal_branch by lia. apply glue16. lia.
Qed.

(** Reading back a half. *)
Lemma decode16 s r : 0 <= r <= 31743 -> decode binary16 (sign_bit binary16 s + r) = FFin s (vmag binary16 r).
Proof.
  intros Hr. rewrite decode_pattern by (cbn; lia).
  change (2 ^ ebits binary16 - 1) with 31. cbn [mbits binary16].
  assert (r / 2 ^ 10 < 31) by (apply Z.div_lt_upper_bound; lia).
  destruct (r / 2 ^ 10 =? 31) eqn:E; [lia|reflexivity].
Qed.

Lemma decode16_split b : in_u 16 b -> exists s p, 0 <= p < 2 ^ 15 /\ b = sign_bit binary16 s + p
  /\ (forall s' h, decode binary16 b = FFin s' h -> p <= 31743 /\ s' = s /\ h = vmag binary16 p).
Proof.
  intros Hb. destruct (decode_split binary16 b ltac:(cbn; lia) ltac:(cbn; lia) Hb) as (s & p & Hp & E & _).
  exists s, p. split; [exact Hp|]. split; [exact E|]. intros s' h Hd.
  rewrite E, decode_pattern in Hd by (cbn; cbn in Hp; lia).
  change (2 ^ ebits binary16 - 1) with 31 in Hd. cbn [mbits binary16] in Hd.
  change (ebits binary16 + mbits binary16) with 15 in Hp.
  destruct (p / 2 ^ 10 =? 31) eqn:E1; [destruct (p mod 2 ^ 10 =? 0); discriminate|].
  inversion Hd; subst. repeat split.
  assert (p / 2 ^ 10 < 32) by (apply Z.div_lt_upper_bound; lia).
  pose proof (Z.div_mod p (2 ^ 10) ltac:(lia)). pose proof (Z.mod_pos_bound p (2 ^ 10) ltac:(lia)). lia.
Qed.

Lemma decode32_split b : in_u 32 b -> exists s p, 0 <= p < 2 ^ 31 /\ b = sign_bit binary32 s + p
  /\ (forall s' x, decode binary32 b = FFin s' x -> p < inf32 /\ s' = s /\ x = vmag binary32 p)
  /\ (forall s', decode binary32 b = FInf s' -> p = inf32 /\ s' = s)
  /\ (decode binary32 b = FNaN -> inf32 < p).
Proof.
  intros Hb. destruct (decode_split binary32 b ltac:(cbn; lia) ltac:(cbn; lia) Hb) as (s & p & Hp & E & _).
  exists s, p. change (ebits binary32 + mbits binary32) with 31 in Hp.
  split; [exact Hp|]. split; [exact E|].
  assert (decode binary32 b = if p / 2 ^ 23 =? 255 then if p mod 2 ^ 23 =? 0 then FInf s else FNaN
                              else FFin s (vmag binary32 p)) as D.
  { rewrite E, decode_pattern by (cbn; lia). reflexivity. }
  assert (p / 2 ^ 23 < 256) by (apply Z.div_lt_upper_bound; lia).
  pose proof (Z.div_mod p (2 ^ 23) ltac:(lia)). pose proof (Z.mod_pos_bound p (2 ^ 23) ltac:(lia)).
  unfold inf32. rewrite D.
  destruct (p / 2 ^ 23 =? 255) eqn:E1; [destruct (p mod 2 ^ 23 =? 0) eqn:E2|];
    repeat split; intros; try discriminate; try congruence; try lia.
Qed.

Lemma f32_to_u16_finite_l u s x : in_u 32 u -> decode binary32 u = FFin s x -> x < overflow_threshold ->
  nearest_half_ties_even s x (f32_to_u16 u).
Proof.
  intros Hu Hd Hx. destruct (decode32_split u Hu) as (s0 & p & Hp & E & Hf & _).
  destruct (Hf _ _ Hd) as (Hpi & -> & ->). clear Hf Hd.
  subst u. rewrite f32_to_u16_round by lia.
  pose proof (vmag_nonneg binary32 p ltac:(cbn; lia) ltac:(lia)) as HX.
  pose proof (round16_no_overflow _ HX Hx) as HR.
  pose proof (round16_nonneg _ HX) as HR0.
  rewrite Z.min_l by lia.
  set (x := vmag binary32 p) in *. set (r := round_mag binary16 x 125) in *.
  exists (vmag binary16 r). split; [apply decode16; lia|].
  intros b' s' h' Hb' Hd'. destruct (decode16_split b' Hb') as (s1 & q & Hq & Eb & Hf').
  destruct (Hf' _ _ Hd') as (Hqi & -> & ->). clear Hf' Hd'.
  pose proof (round_mag_nearest binary16 ltac:(cbn; lia) x 125 q ltac:(lia) HX ltac:(lia)) as N.
  pose proof (round_mag_tie binary16 ltac:(cbn; lia) x 125 q ltac:(lia) HX ltac:(lia)) as T.
  pose proof (round_mag_nearest binary16 ltac:(cbn; lia) x 125 0 ltac:(lia) HX ltac:(lia)) as N0.
  change (vmag binary16 0) with 0 in N0.
  fold r in N, T, N0.
  pose proof (vmag_nonneg binary16 q ltac:(cbn; lia) ltac:(lia)) as Hvq.
  pose proof (vmag_nonneg binary16 r ltac:(cbn; lia) ltac:(lia)) as Hvr.
  set (hv := vmag binary16 r) in *. set (qv := vmag binary16 q) in *.
  assert (Z.even (sign_bit binary16 s0 + r) = Z.even r) as Ev.
  { rewrite Z.even_add. destruct s0; cbn; destruct (Z.even r); reflexivity. }
  rewrite Ev. unfold dist.
  assert (0 < 2 ^ 125) by reflexivity. set (g := 2 ^ 125) in *.
  destruct s0, s1; cbn [sval].
  - split; [lia|]. intros He Hn. apply T; lia.
  - split.
    + assert (0 <= qv * g) by nia. lia.
    + intros He Hn. assert (0 <= qv * g) by nia.
      (* candidate of the opposite sign at the same distance: zero would be as good *)
      assert (qv = 0 \/ 0 < qv) as [Hz|Hpos] by lia.
      * apply T; lia.
      * assert (g <= qv * g) by nia. lia.
  - split.
    + assert (0 <= qv * g) by nia. lia.
    + intros He Hn. assert (0 <= qv * g) by nia.
      assert (qv = 0 \/ 0 < qv) as [Hz|Hpos] by lia.
      * apply T; lia.
      * assert (g <= qv * g) by nia. lia.
  - split; [lia|]. intros He Hn. apply T; lia.
Qed.

Lemma f32_to_u16_overflow_l u s x : in_u 32 u ->
  decode binary32 u = FFin s x -> overflow_threshold <= x -> decode binary16 (f32_to_u16 u) = FInf s.
Proof.
  intros Hu Hd Hx. destruct (decode32_split u Hu) as (s0 & p & Hp & E & Hf & _).
  destruct (Hf _ _ Hd) as (Hpi & -> & ->). subst u. rewrite f32_to_u16_round by lia.
  assert (0x477ff000 <= p).
  { destruct (Z_lt_le_dec p 0x477ff000) as [Hlt|]; [|assumption].
    pose proof (vmag_strict binary32 ltac:(cbn; lia) p 0x477ff000 ltac:(lia) Hlt) as Hs.
    rewrite vmag32_threshold in Hs. lia. }
  rewrite Z.min_r by (apply round16_overflow; lia). destruct s0; reflexivity.
Qed.

Lemma f32_to_u16_inf_l u s : in_u 32 u -> decode binary32 u = FInf s -> decode binary16 (f32_to_u16 u) = FInf s.
Proof.
  intros Hu Hd. destruct (decode32_split u Hu) as (s0 & p & Hp & E & _ & Hi & _).
  destruct (Hi _ Hd) as (-> & ->). subst u. rewrite f32_to_u16_round by lia.
  rewrite Z.min_r by (apply round16_overflow; unfold inf32; lia). destruct s0; reflexivity.
Qed.

Lemma f32_to_u16_nan_bits u : in_u 32 u -> decode binary32 u = FNaN -> f32_to_u16 u = 0xffff.
Proof.
  intros Hu Hd. destruct (decode32_split u Hu) as (s0 & p & Hp & E & _ & _ & Hn).
  specialize (Hn Hd). subst u. unfold f32_to_u16.
  destruct (f32_fields s0 p Hp) as (F1 & F2 & F3 & F4). rewrite F1, F2, F3, F4.
  unfold inf32 in Hn.
  assert (p / 2 ^ 23 = 255) as E1.
  { assert (255 <= p / 2 ^ 23) by (apply Z.div_le_lower_bound; lia).
    assert (p / 2 ^ 23 < 256) by (apply Z.div_lt_upper_bound; lia). lia. }
  pose proof (Z.div_mod p (2 ^ 23) ltac:(lia)).
  rewrite E1 in *. assert ((p mod 2 ^ 23 =? 0) = false) as -> by lia. reflexivity.
Qed.

Lemma f32_to_u16_nan_l u : in_u 32 u -> decode binary32 u = FNaN -> decode binary16 (f32_to_u16 u) = FNaN.
Proof. intros Hu Hd. rewrite f32_to_u16_nan_bits by assumption. reflexivity. Qed.

Lemma f32_to_u16_range_l u : in_u 32 u -> in_u 16 (f32_to_u16 u).
Proof.
  intros Hu. destruct (decode32_split u Hu) as (s0 & p & Hp & E & _).
  destruct (Z_le_gt_dec p inf32) as [Hle|Hgt].
  - subst u. rewrite f32_to_u16_round by lia. unfold in_u.
    pose proof (round16_nonneg (vmag binary32 p) ltac:(apply vmag_nonneg; cbn; lia)).
    assert (0 <= sign_bit binary16 s0 <= 2 ^ 15) by (destruct s0; cbn; lia). lia.
  - unfold f32_to_u16. destruct (f32_fields s0 p Hp) as (F1 & F2 & F3 & F4). subst u. rewrite F1, F2, F3, F4.
    unfold inf32 in Hgt.
    assert (p / 2 ^ 23 = 255) as E1.
    { assert (255 <= p / 2 ^ 23) by (apply Z.div_le_lower_bound; lia).
      assert (p / 2 ^ 23 < 256) by (apply Z.div_lt_upper_bound; lia). lia. }
    pose proof (Z.div_mod p (2 ^ 23) ltac:(lia)).
    rewrite E1 in *. assert ((p mod 2 ^ 23 =? 0) = false) as -> by lia. unfold in_u. cbn. lia.
Qed.

(** *** Monotonicity *)
Definition key16 (s : bool) (p : Z) := sval s (Z.min (round_mag binary16 (vmag binary32 p) 125) 31744).

Lemma vmag16_le p q : 0 <= p -> 0 <= q -> p <= q -> vmag binary16 p <= vmag binary16 q.
Proof. intros. apply vmag_mono; cbn; lia. Qed.

Lemma fle16 s1 r1 s2 r2 : 0 <= r1 <= 31744 -> 0 <= r2 <= 31744 -> sval s1 r1 <= sval s2 r2 ->
  fle (decode binary16 (sign_bit binary16 s1 + r1)) (decode binary16 (sign_bit binary16 s2 + r2)) = true.
Proof.
  intros H1 H2 Hle.
  assert (forall s, decode binary16 (sign_bit binary16 s + 31744) = FInf s) as DI by (destruct s; reflexivity).
  destruct (Z.eq_dec r1 31744) as [->|N1], (Z.eq_dec r2 31744) as [->|N2].
  - rewrite !DI. destruct s1, s2; cbn in *; try reflexivity; lia.
  - rewrite DI, decode16 by lia. destruct s1, s2; cbn [sval fle] in *; try reflexivity; lia.
  - rewrite DI, decode16 by lia. destruct s1, s2; cbn [sval fle] in *; try reflexivity; lia.
  - rewrite !decode16 by lia. cbn [fle].
    pose proof (vmag_nonneg binary16 r1 ltac:(cbn; lia) ltac:(lia)).
    pose proof (vmag_nonneg binary16 r2 ltac:(cbn; lia) ltac:(lia)).
    pose proof (vmag16_le r1 r2 ltac:(lia) ltac:(lia)).
    pose proof (vmag16_le r2 r1 ltac:(lia) ltac:(lia)).
    assert (vmag binary16 0 = 0) as V0 by reflexivity.
    pose proof (vmag16_le r1 0 ltac:(lia) ltac:(lia)).
    pose proof (vmag16_le r2 0 ltac:(lia) ltac:(lia)).
    destruct s1, s2; cbn [sval] in *; lia.
Qed.

Lemma f32_to_u16_mono_l u v : in_u 32 u -> in_u 32 v ->
  fle (decode binary32 u) (decode binary32 v) = true ->
  fle (decode binary16 (f32_to_u16 u)) (decode binary16 (f32_to_u16 v)) = true.
Proof.
  intros Hu Hv Hle.
  destruct (decode32_split u Hu) as (s1 & p & Hp & Eu & Hf1 & Hi1 & Hn1).
  destruct (decode32_split v Hv) as (s2 & q & Hq & Ev & Hf2 & Hi2 & Hn2).
  assert (p <= inf32 /\ q <= inf32 /\ sval s1 p <= sval s2 q \/ (p = 0 /\ q = 0)) as Hpq.
  { destruct (decode binary32 u) as [|t1|t1 x1] eqn:Du; [destruct (decode binary32 v); discriminate| |].
    - destruct (Hi1 _ eq_refl) as [-> ->].
      destruct (decode binary32 v) as [|t2|t2 x2] eqn:Dv; [destruct s1; discriminate| |].
      + destruct (Hi2 _ eq_refl) as [-> ->]. left. destruct s1, s2; cbn in *; unfold inf32; repeat split; try lia; discriminate.
      + destruct (Hf2 _ _ eq_refl) as (H2 & -> & ->). left. destruct s1; [|discriminate].
        unfold inf32 in *. destruct s2; cbn; lia.
    - destruct (Hf1 _ _ eq_refl) as (H1 & -> & ->).
      destruct (decode binary32 v) as [|t2|t2 x2] eqn:Dv; [discriminate| |].
      + destruct (Hi2 _ eq_refl) as [-> ->]. left. destruct s2; [discriminate|].
        unfold inf32 in *. destruct s1; cbn; lia.
      + destruct (Hf2 _ _ eq_refl) as (H2 & -> & ->). cbn [fle] in Hle.
        pose proof (vmag_nonneg binary32 p ltac:(cbn; lia) ltac:(lia)).
        pose proof (vmag_nonneg binary32 q ltac:(cbn; lia) ltac:(lia)).
        pose proof (vmag32_le p q ltac:(lia) ltac:(lia)).
        pose proof (vmag32_le q p ltac:(lia) ltac:(lia)).
        pose proof (vmag32_le p 0 ltac:(lia) ltac:(lia)) as P0.
        pose proof (vmag32_le q 0 ltac:(lia) ltac:(lia)) as Q0.
        change (vmag binary32 0) with 0 in P0, Q0.
        destruct s1, s2; cbn [sval] in *; lia. }
  assert (forall a b, 0 <= a -> a <= b -> b <= inf32 ->
    Z.min (round_mag binary16 (vmag binary32 a) 125) 31744 <= Z.min (round_mag binary16 (vmag binary32 b) 125) 31744) as Mono.
  { intros a b Ha Hab Hb. pose proof (round16_mono (vmag binary32 a) (vmag binary32 b)
      ltac:(apply vmag_nonneg; cbn; lia) ltac:(apply vmag_mono; cbn; lia)). lia. }
  assert (forall a, 0 <= a -> 0 <= Z.min (round_mag binary16 (vmag binary32 a) 125) 31744) as Nn.
  { intros a Ha. pose proof (round16_nonneg (vmag binary32 a) ltac:(apply vmag_nonneg; cbn; lia)). lia. }
  pose proof (Nn p ltac:(lia)). pose proof (Nn q ltac:(lia)).
  assert (p <= inf32 /\ q <= inf32) as [Hpi Hqi] by (unfold inf32 in *; lia).
  rewrite Eu, Ev, !f32_to_u16_round by lia.
  apply fle16; [lia|lia|].
  pose proof (Mono p q ltac:(lia)). pose proof (Mono q p ltac:(lia)).
  destruct Hpq as [(_ & _ & Hs)|[-> ->]].
  - destruct s1, s2; cbn [sval] in *; try lia.
    assert (p = 0 /\ q = 0) as [-> ->] by lia.
    change (Z.min (round_mag binary16 (vmag binary32 0) 125) 31744) with 0. lia.
  - change (Z.min (round_mag binary16 (vmag binary32 0) 125) 31744) with 0. destruct s1, s2; cbn; lia.
Qed.

(** *** Half to single: exhaustive evaluation over the 65536 patterns *)
Lemma f16_fields s p : 0 <= p < 2 ^ 15 ->
  let a := sign_bit binary16 s + p in
  Z.land a 0x8000 = sign_bit binary16 s
  /\ Z.land (Z.shiftr a 10) 0x1F = p / 2 ^ 10
  /\ Z.land a 0x3FF = p mod 2 ^ 10.
Proof.
  intros Hp a.
  assert (sign_bit binary16 s = (if s then 1 else 0) * 2 ^ 15) as Es by (destruct s; reflexivity).
  assert (a = p + (if s then 1 else 0) * 2 ^ 15) as Eu by (unfold a; lia).
  repeat split.
  - change 0x8000 with (2 ^ 15). rewrite land_pow2 by lia. rewrite Eu.
    rewrite Z_div_plus_full by lia. rewrite (Z.div_small p) by lia. rewrite Es. destruct s; reflexivity.
  - change 0x1F with (2 ^ 5 - 1). rewrite land_mask, shiftr_div by lia. rewrite Eu.
    replace ((if s then 1 else 0) * 2 ^ 15) with (((if s then 1 else 0) * 2 ^ 5) * 2 ^ 10) by (destruct s; reflexivity).
    rewrite Z_div_plus_full by lia. rewrite Z_mod_plus_full.
    apply Z.mod_small. split; [apply Z.div_pos; lia|apply Z.div_lt_upper_bound; lia].
  - change 0x3FF with (2 ^ 10 - 1). rewrite land_mask by lia. rewrite Eu.
    replace ((if s then 1 else 0) * 2 ^ 15) with (((if s then 1 else 0) * 2 ^ 5) * 2 ^ 10) by (destruct s; reflexivity).
    apply Z_mod_plus_full.
Qed.

Lemma rebuild_value s e m : 0 <= e < 2 ^ 8 -> 0 <= m < 2 ^ 10 ->
  rebuild_f32 (sign_bit binary16 s) e m = sign_bit binary32 s + (e * 2 ^ 23 + m * 2 ^ 13).
Proof.
  intros He Hm. unfold rebuild_f32. rewrite !shiftl_mul by lia.
  assert (to_u 32 (sign_bit binary16 s * 2 ^ 16) = (if s then 1 else 0) * 2 ^ 31) as -> by (destruct s; reflexivity).
  rewrite !to_u_id by (unfold in_u; lia).
  rewrite (lor_disjoint _ (e * 2 ^ 23) 31) by lia.
  replace ((if s then 1 else 0) * 2 ^ 31 + e * 2 ^ 23) with (((if s then 1 else 0) * 2 ^ 8 + e) * 2 ^ 23) by (destruct s; lia).
  rewrite lor_disjoint by lia. destruct s; cbn [sign_bit]; change (2 ^ (ebits binary32 + mbits binary32)) with (2 ^ 8 * 2 ^ 23); lia.
Qed.

Lemma decode_rebuilt s e m : 1 <= e < 255 -> 0 <= m < 2 ^ 10 ->
  decode binary32 (sign_bit binary32 s + (e * 2 ^ 23 + m * 2 ^ 13)) = FFin s ((2 ^ 10 + m) * 2 ^ (e + 12)).
Proof.
  intros He Hm. rewrite decode32 by (unfold inf32; lia). f_equal.
  replace (e * 2 ^ 23 + m * 2 ^ 13) with ((2 ^ 10 + m) * 2 ^ 13 + (e - 1) * 2 ^ mbits binary32) by (cbn [mbits binary32]; lia).
  rewrite vmag_scaled by (cbn [mbits binary32]; lia). rewrite <- Z.mul_assoc, <- Z.pow_add_r by lia. f_equal. f_equal. lia.
Qed.

(** the subnormal halves: the normalisation loop on the 1023 significands *)
Definition chk_sub (m : Z) : bool :=
  match msb_loop 64 (-1) m with
  | None => false
  | Some (i, mask) =>
      (0 <=? i) && (i <=? 9) && (0 <=? Z.land mask 0x3ff) && (Z.land mask 0x3ff <? 1024)
      && ((1024 + Z.land mask 0x3ff) =? m * 2 ^ (i + 1))
  end.

Lemma chk_sub_all : all_from chk_sub 1023 1 = true.
Proof. vm_compute. reflexivity. Qed.

Lemma u16_to_f32_exact_l a : in_u 16 a ->
  exists u, u16_to_f32 a = Some u /\ in_u 32 u /\ decode binary32 u = widen (decode binary16 a).
Proof.
  intros Ha. destruct (decode_split binary16 a ltac:(cbn; lia) ltac:(cbn; lia) Ha) as (s & p & Hp & E & _).
  change (ebits binary16 + mbits binary16) with 15 in Hp.
  destruct (f16_fields s p Hp) as (F1 & F2 & F3). rewrite <- E in F1, F2, F3.
  assert (decode binary16 a = if p / 2 ^ 10 =? 31 then if p mod 2 ^ 10 =? 0 then FInf s else FNaN
                              else FFin s (vmag binary16 p)) as D.
  { rewrite E, decode_pattern by (cbn; lia). reflexivity. }
  assert (vmag binary16 p = if p / 2 ^ 10 =? 0 then p mod 2 ^ 10 else (2 ^ 10 + p mod 2 ^ 10) * 2 ^ (p / 2 ^ 10 - 1)) as V by reflexivity.
  unfold u16_to_f32. rewrite F1, F2, F3, D, V. clear F1 F2 F3 D V.
  assert (0 <= p / 2 ^ 10 < 32) as He by (split; [apply Z.div_pos|apply Z.div_lt_upper_bound]; lia).
  pose proof (Z.mod_pos_bound p (2 ^ 10) ltac:(lia)) as Hm.
  set (e := p / 2 ^ 10) in *. set (m := p mod 2 ^ 10) in *.
  assert (forall x y, 0 <= x < 2 ^ 8 -> 0 <= y < 2 ^ 10 -> in_u 32 (sign_bit binary32 s + (x * 2 ^ 23 + y * 2 ^ 13))) as R.
  { intros x y Hx Hy. unfold in_u. destruct s; cbn [sign_bit]; change (2 ^ (ebits binary32 + mbits binary32)) with (2 ^ 31); lia. }
  destruct (e =? 31) eqn:E31.
  { rewrite rebuild_value by lia. eexists; split; [reflexivity|]. split; [apply R; lia|].
    rewrite decode_pattern by (cbn [mbits ebits binary32]; lia). cbn [mbits ebits binary32].
    rewrite (Z.add_comm (255 * 2 ^ 23)), Z_div_plus_full, Z_mod_plus_full by lia.
    rewrite (Z.div_small (m * 2 ^ 13)), (Z.mod_small (m * 2 ^ 13)) by lia.
    change (0 + 255 =? 2 ^ 8 - 1) with true. cbv iota.
    destruct (m =? 0) eqn:E0; [assert (m * 2 ^ 13 =? 0 = true) as -> by lia|assert (m * 2 ^ 13 =? 0 = false) as -> by lia]; reflexivity. }
  destruct (e =? 0) eqn:Ee0; cbn [andb].
  - destruct (m =? 0) eqn:Em0.
    + rewrite rebuild_value by lia. eexists; split; [reflexivity|]. split; [apply R; lia|].
      assert (e = 0) as -> by lia. assert (m = 0) as -> by lia. destruct s; reflexivity.
    + pose proof (all_from_spec chk_sub 1023 1 chk_sub_all m ltac:(lia)) as C. unfold chk_sub in C.
      destruct (msb_loop 64 (-1) m) as [[i mask]|]; [|discriminate].
      assert (e = 0) as -> by lia.
      assert (to_u 32 (0 + to_u 32 (112 - i)) = 112 - i) as ->.
      { rewrite !to_u_id; unfold in_u; try lia. rewrite to_u_id; unfold in_u; lia. }
      rewrite rebuild_value by lia. eexists; split; [reflexivity|]. split; [apply R; lia|].
      rewrite decode_rebuilt by lia. cbn [widen]. f_equal.
      change (2 ^ 10) with 1024. assert (1024 + Z.land mask 0x3ff = m * 2 ^ (i + 1)) as -> by lia.
      rewrite <- Z.mul_assoc, <- Z.pow_add_r by lia. f_equal. f_equal. lia.
  - assert (to_u 32 (e + 112) = e + 112) as -> by (apply to_u_id; unfold in_u; lia).
    rewrite rebuild_value by lia. eexists; split; [reflexivity|]. split; [apply R; lia|].
    rewrite decode_rebuilt by lia. cbn [widen]. f_equal.
    rewrite <- Z.mul_assoc, <- Z.pow_add_r by lia. f_equal. f_equal. lia.
Qed.

Lemma round_trip_l a : in_u 16 a ->
  exists u, u16_to_f32 a = Some u /\
    (decode binary16 a <> FNaN -> f32_to_u16 u = a) /\
    (decode binary16 a = FNaN -> decode binary16 (f32_to_u16 u) = FNaN).
Proof.
  intros Ha. destruct (u16_to_f32_exact_l a Ha) as (u & Eu & Hu & Hd).
  exists u. split; [exact Eu|]. split.
  - intros Hn.
    destruct (decode_split binary16 a ltac:(cbn; lia) ltac:(cbn; lia) Ha) as (s & r & Hr & E & _).
    change (ebits binary16 + mbits binary16) with 15 in Hr.
    destruct (decode32_split u Hu) as (s0 & p & Hp & E32 & Hf & Hi & _).
    assert (decode binary16 a = if r / 2 ^ 10 =? 31 then if r mod 2 ^ 10 =? 0 then FInf s else FNaN
                                else FFin s (vmag binary16 r)) as D.
    { rewrite E, decode_pattern by (cbn; lia). reflexivity. }
    assert (r / 2 ^ 10 < 32) by (apply Z.div_lt_upper_bound; lia).
    pose proof (Z.div_mod r (2 ^ 10) ltac:(lia)). pose proof (Z.mod_pos_bound r (2 ^ 10) ltac:(lia)).
    rewrite D in Hd, Hn. destruct (r / 2 ^ 10 =? 31) eqn:E1; [destruct (r mod 2 ^ 10 =? 0) eqn:E2|]; [| congruence |].
    + cbn [widen] in Hd. destruct (Hi _ Hd) as [-> <-].
      rewrite E32, f32_to_u16_round by (unfold inf32; lia).
      rewrite Z.min_r by (apply round16_overflow; unfold inf32; lia). rewrite E. f_equal. lia.
    + cbn [widen] in Hd. destruct (Hf _ _ Hd) as (Hpi & <- & Ev).
      rewrite E32, f32_to_u16_round by lia. rewrite <- Ev.
      rewrite round_mag_exact by (cbn; lia). rewrite E. f_equal. lia.
  - intros Hn. rewrite Hn in Hd. apply f32_to_u16_nan_l; assumption.
Qed.

(** *** NSIMD_NO_IEEE754 *)
Lemma u16_to_f32_noieee_exact_l a s h : in_u 16 a -> decode binary16 a = FFin s h ->
  u16_to_f32_noieee a = FFin s (h * 2 ^ 125).
Proof.
  intros Ha Hd. destruct (decode_split binary16 a ltac:(cbn; lia) ltac:(cbn; lia) Ha) as (t & p & Hp & E & _).
  change (ebits binary16 + mbits binary16) with 15 in Hp.
  destruct (f16_fields t p Hp) as (F1 & F2 & F3). rewrite <- E in F1, F2, F3.
  assert (decode binary16 a = if p / 2 ^ 10 =? 31 then if p mod 2 ^ 10 =? 0 then FInf t else FNaN
                              else FFin t (vmag binary16 p)) as D.
  { rewrite E, decode_pattern by (cbn; lia). reflexivity. }
  assert (vmag binary16 p = if p / 2 ^ 10 =? 0 then p mod 2 ^ 10 else (2 ^ 10 + p mod 2 ^ 10) * 2 ^ (p / 2 ^ 10 - 1)) as V by reflexivity.
  rewrite D, V in Hd. unfold u16_to_f32_noieee. rewrite F2, F3.
  assert ((Z.shiftr a 15 =? 1) = t) as ->.
  { rewrite shiftr_div by lia. rewrite E.
    replace (sign_bit binary16 t + p) with (p + (if t then 1 else 0) * 2 ^ 15) by (destruct t; cbn [sign_bit]; change (2 ^ (ebits binary16 + mbits binary16)) with (2 ^ 15); lia).
    rewrite Z_div_plus_full, Z.div_small by lia. destruct t; reflexivity. }
  assert (0 <= p / 2 ^ 10 < 32) as He by (split; [apply Z.div_pos|apply Z.div_lt_upper_bound]; lia).
  pose proof (Z.mod_pos_bound p (2 ^ 10) ltac:(lia)) as Hm.
  set (e := p / 2 ^ 10) in *. set (m := p mod 2 ^ 10) in *.
  destruct (e =? 31) eqn:E31; [destruct (m =? 0); discriminate|].
  injection Hd as <- <-. destruct (e =? 0) eqn:E0; [reflexivity|]. f_equal.
  change 0x400 with (1 * 2 ^ 10). rewrite lor_disjoint by lia. rewrite Z.mul_1_l.
  rewrite <- Z.mul_assoc, <- Z.pow_add_r by lia. f_equal. f_equal. lia.
Qed.

Lemma f32_to_u16_noieee_l s x : 2 ^ 133 <= x < 2 ^ 163 ->
  exists r h, f32_to_u16_noieee (FFin s x) = Some r /\ in_u 16 r /\ decode binary16 r = FFin s h /\
    h * 2 ^ 123 = x - x mod 2 ^ (Z.log2 x - 10).
Proof.
  intros Hx. unfold f32_to_u16_noieee.
  assert (0 < 2 ^ 133) by reflexivity.
  destruct (x =? 0) eqn:E0; [lia|].
  assert (133 <= Z.log2 x) as L1 by (apply Z.log2_le_pow2; lia).
  assert (Z.log2 x < 163) as L2 by (apply Z.log2_lt_pow2; lia).
  pose proof (Z.log2_spec x ltac:(lia)) as [S1 S2].
  set (L := Z.log2 x) in *.
  assert ((L + 1 - 149 + 1 <? -14) = false) as -> by lia.
  assert ((15 <? L + 1 - 149 + 1) = false) as -> by lia.
  assert (x * 2048 / 2 ^ (L + 1) = x / 2 ^ (L - 10)) as ->.
  { change 2048 with (2 ^ 11). replace (L + 1) with ((L - 10) + 11) by lia.
    rewrite Z.pow_add_r by lia. apply Z.div_mul_cancel_r; [apply Z.pow_nonzero|]; lia. }
  pose proof (pow2_pos (L - 10) ltac:(lia)) as HG.
  assert (1024 <= x / 2 ^ (L - 10) < 2048) as HQ.
  { split.
    - apply Z.div_le_lower_bound; [lia|]. change 1024 with (2 ^ 10). rewrite <- Z.pow_add_r by lia.
      replace (L - 10 + 10) with L by lia. lia.
    - apply Z.div_lt_upper_bound; [lia|]. change 2048 with (2 ^ 11). rewrite <- Z.pow_add_r by lia.
      replace (L - 10 + 11) with (Z.succ L) by lia. lia. }
  set (q := x / 2 ^ (L - 10)) in *.
  assert (Z.land q 0x3FF = q - 1024) as ->.
  { change 0x3FF with (2 ^ 10 - 1). rewrite land_mask by lia.
    rewrite <- (Z_mod_plus_full q (-1)). apply Z.mod_small. change (2 ^ 10) with 1024. lia. }
  rewrite !shiftl_mul by lia.
  set (sg := if s then 1 else 0).
  assert (0 <= sg <= 1) by (unfold sg; destruct s; lia).
  assert (Z.lor (sg * 2 ^ 15) ((L + 1 - 149 + 1 + 15) * 2 ^ 10) = sg * 2 ^ 15 + (L - 132) * 2 ^ 10) as ->.
  { rewrite lor_disjoint by lia. lia. }
  replace (sg * 2 ^ 15 + (L - 132) * 2 ^ 10) with ((sg * 32 + (L - 132)) * 2 ^ 10) by lia.
  rewrite lor_disjoint by lia.
  rewrite to_u_id by (unfold in_u; lia).
  set (p := (L - 132) * 2 ^ 10 + (q - 1024)).
  assert ((sg * 32 + (L - 132)) * 2 ^ 10 + (q - 1024) = sign_bit binary16 s + p) as ->.
  { unfold p, sg. destruct s; cbn [sign_bit]; change (2 ^ (ebits binary16 + mbits binary16)) with (32 * 2 ^ 10); lia. }
  exists (sign_bit binary16 s + p), (vmag binary16 p). split; [reflexivity|].
  split; [unfold in_u, p; destruct s; cbn [sign_bit]; change (2 ^ (ebits binary16 + mbits binary16)) with (32 * 2 ^ 10); lia|].
  split; [apply decode16; unfold p; lia|].
  unfold p. replace ((L - 132) * 2 ^ 10 + (q - 1024)) with (q + (L - 133) * 2 ^ mbits binary16) by (cbn [mbits binary16]; lia).
  rewrite vmag_scaled by (cbn; lia).
  rewrite <- Z.mul_assoc, <- Z.pow_add_r by lia. replace (L - 133 + 123) with (L - 10) by lia.
  pose proof (Z.div_mod x (2 ^ (L - 10)) ltac:(lia)) as D. fold q in D. lia.
Qed.

