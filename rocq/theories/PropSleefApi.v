(** C138: the mathematical operators of the API on f16 scalars, on the vectors of the CPU back end and on POWER vectors. *)
From Coq Require Import ZArith List Lia Bool.
From Verif Require Import CInt FloatSpec Fp16 Fp16Spec CpuSimd SleefBase Sleef SleefSpec SleefRem SleefApi.
From Verif Require Import PropFp16 PropSleefExp PropSleefLog PropSleefHyp PropSleefInv PropSleefSpecial PropSleefTrig PropSleefPi PropSleefRem PropSleefPow PropSleefPowers.
Import ListNotations. Open Scope Z_scope.

(** the number a half pattern stands for; a magnitude counts units of 2^-24 *)
Definition hval (a : Z) : fval := decode binary16 a.
(** r is the half nearest to the number v, ties to even; an infinity from 65520 on *)
Definition rounds (v : fval) (r : Z) : Prop :=
  match v with
  | FNaN => hval r = FNaN
  | FInf s => hval r = FInf s
  | FFin s x => (x < overflow_threshold -> nearest_half_ties_even s x r) /\ (overflow_threshold <= x -> hval r = FInf s)
  end.

Local Lemma bits_pat x : pattern (bits32 x).
Proof. unfold pattern, bits32. apply Z.mod_pos_bound. lia. Qed.
Local Lemma bits_val x : val (bits32 x) = val x.
Proof.
  unfold val, decode, bits32. change (2 ^ 32) with 4294967296.
  assert (man_of binary32 (x mod 4294967296) = man_of binary32 x) as ->. { unfold man_of. cbn [mbits binary32]. change (2 ^ 23) with 8388608. rewrite (Z.div_mod x 4294967296) at 2 by lia. replace (4294967296 * (x / 4294967296) + x mod 4294967296) with (x mod 4294967296 + 512 * (x / 4294967296) * 8388608) by ring. symmetry. apply Z.mod_add. lia. }
  assert (x / 8388608 = (x mod 4294967296) / 8388608 + 512 * (x / 4294967296)) as E.
  { rewrite (Z.div_mod x 4294967296) at 1 by lia. replace (4294967296 * (x / 4294967296) + x mod 4294967296) with (x mod 4294967296 + 512 * (x / 4294967296) * 8388608) by ring. apply Z.div_add. lia. }
  assert (x / 2147483648 = (x mod 4294967296) / 2147483648 + 2 * (x / 4294967296)) as E'.
  { rewrite (Z.div_mod x 4294967296) at 1 by lia. replace (4294967296 * (x / 4294967296) + x mod 4294967296) with (x mod 4294967296 + 2 * (x / 4294967296) * 2147483648) by ring. apply Z.div_add. lia. }
  assert (exp_of binary32 (x mod 4294967296) = exp_of binary32 x) as ->.
  { unfold exp_of. cbn [mbits ebits binary32]. change (2 ^ 23) with 8388608. change (2 ^ 8) with 256. rewrite E. replace (512 * (x / 4294967296)) with (2 * (x / 4294967296) * 256) by ring. symmetry. apply Z.mod_add. lia. }
  assert (sign_of binary32 (x mod 4294967296) = sign_of binary32 x) as ->; [| reflexivity].
  unfold sign_of. cbn [mbits ebits binary32]. change (2 ^ (8 + 23)) with 2147483648. rewrite E'. rewrite Z.odd_add_mul_2. reflexivity.
Qed.
Local Lemma rounds_bits v : rounds (val v) (f32_to_u16 (bits32 v)).
Proof.
  pose proof (bits_pat v) as P. rewrite <- (bits_val v). unfold rounds, hval. remember (bits32 v) as u. unfold val. destruct (decode binary32 u) as [| s | s x] eqn:E.
  - apply C02_f32_to_u16_nan; [exact P | exact E].
  - apply C02_f32_to_u16_inf; [exact P | exact E].
  - split; intros H; [apply C02_f32_to_u16_nearest_even; [exact P | exact E | exact H] | apply (C02_f32_to_u16_overflow u s x P E H)].
Qed.

(** on f16 every operator is the f32 operator on the same numbers, rounded once *)
Theorem C138_f16 U W : (forall o a, in_u 16 a -> exists x r, pattern x /\ val x = widen (hval a) /\
    scalar1_f16 U W o a = Some r /\ in_u 16 r /\ rounds (val (scalar1_f32 U W o x)) r) /\
  (forall o a b, in_u 16 a -> in_u 16 b -> exists x y r, pattern x /\ pattern y /\ val x = widen (hval a) /\ val y = widen (hval b) /\
    scalar2_f16 U o a b = Some r /\ in_u 16 r /\ rounds (val (scalar2_f32 U o x y)) r).
Proof.
  split.
  - intros o a A. destruct (C01_u16_to_f32_exact a A) as (x & E & P & V). exists x, (f32_to_u16 (scalar1_f32 U W o x)). unfold scalar1_f16. rewrite E.
    repeat split; try exact V; try apply P; try (apply C02_f32_to_u16_range, bits_pat). unfold scalar1_f32. rewrite bits_val. apply rounds_bits.
  - intros o a b A B. destruct (C01_u16_to_f32_exact a A) as (x & E & P & V). destruct (C01_u16_to_f32_exact b B) as (y & E' & P' & V'). exists x, y, (f32_to_u16 (scalar2_f32 U o x y)). unfold scalar2_f16. rewrite E, E'.
    repeat split; try exact V; try exact V'; try apply P; try apply P'; try (apply C02_f32_to_u16_range, bits_pat). unfold scalar2_f32. rewrite bits_val. apply rounds_bits.
Qed.
Print Assumptions C138_f16.
(** exp2 of the half 3 is the half 8 *)
Example C138_f16_nontrivial : in_u 16 16896 /\ hval 16896 = FFin false (3 * 2 ^ 24) /\ scalar1_f16 (fun _ => 0) (fun _ => 0) exp2_u10 16896 = Some 18432 /\ hval 18432 = FFin false (8 * 2 ^ 24).
Proof. unfold in_u. repeat split; vm_compute; (reflexivity || congruence). Qed.

(** a NaN gives a NaN: f32, every operator of one argument; of those of two, all but pow and hypot *)
Local Lemma nan1 U W o x : pattern x -> nan x -> nan (sleef1 U W o x).
Proof.
  intros P N.
  pose proof (C135_special U W) as (S1 & S2 & S3 & S4 & S5 & S6). pose proof C132_asin as (A1 & A2). pose proof C132_acos as (A3 & A4). pose proof C132_atan as (A5 & A6).
  pose proof C129_log as (L1 & L2 & L3 & L4 & L5). pose proof C133_cbrt as (B1 & B2 & _).
  pose proof (C131_sinh U) as ((_ & H1 & _) & (_ & H2 & _)). pose proof (C131_cosh U) as ((_ & H3 & _) & (_ & H4 & _)). pose proof (C131_tanh U) as ((_ & H5 & _) & (_ & H6 & _)).
  pose proof (C128_exp2 U x P) as ((E1 & _) & (E2 & _)). pose proof (C128_exp10 U x P) as ((E3 & _) & (E4 & _)).
  destruct o; cbn [sleef1].
  - exact (proj1 S1 x P N).
  - exact (proj1 S3 x P N).
  - exact (proj1 S5 x P N).
  - exact (proj1 (proj2 A1) x P N).
  - exact (proj1 A3 x P N).
  - exact (proj1 (proj2 A5) x P N).
  - exact (proj1 (L2 x P) N).
  - exact (proj1 B1 x P N).
  - exact (proj1 S2 x P N).
  - exact (proj1 S4 x P N).
  - exact (proj1 S6 x P N).
  - exact (proj1 (proj2 A2) x P N).
  - exact (proj1 A4 x P N).
  - exact (proj1 (proj2 A6) x P N).
  - exact (proj1 (L1 x P) N).
  - exact (proj1 B2 x P N).
  - exact (proj1 (C128_exp U x P) N).
  - exact (H1 x P N).
  - exact (H3 x P N).
  - exact (H5 x P N).
  - exact (H2 x P N).
  - exact (H4 x P N).
  - exact (H6 x P N).
  - exact (proj1 C131_asinh x P N).
  - exact (proj1 (C131_acosh x P) N).
  - exact (proj1 (proj2 C131_atanh) x P N).
  - exact (E1 N).
  - exact (E2 N).
  - exact (E3 N).
  - exact (E4 N).
  - exact (proj1 (C128_expm1 U x P) N).
  - exact (proj1 (L5 x P) N).
  - exact (proj1 (L3 x P) N).
  - exact (proj1 (L4 x P) N).
  - exact (proj1 (C129_log1p x P) N).
  - exact (proj1 (C134_special U) x P N).
  - exact (proj1 (proj2 (proj2 (C134_special U))) x P N).
  - exact (proj1 (proj1 (C133_lgamma U x P)) N).
  - exact (proj1 (C133_tgamma U x P) N).
  - exact (proj1 (proj2 (C133_erf U)) x P N).
  - exact (proj1 (C133_erfc U) x P N).
Qed.
Local Lemma nan2 U o x y : pattern x -> pattern y -> o <> pow_u10 -> o <> hypot_u05 -> o <> hypot_u35 -> nan x \/ nan y -> nan (sleef2 U o x y).
Proof.
  intros P Q N1 N2 N3 N. pose proof C132_atan2 as (A1 & A2).
  destruct o; cbn [sleef2]; try contradiction.
  - apply (A1 x y P Q), N.
  - apply (A2 x y P Q), N.
  - apply (C136_special U x y P Q). tauto.
  - apply (C136_special U x y P Q). tauto.
Qed.
(** f32 and f16 *)
Theorem C138_nan U W :
  (forall o x, pattern x -> nan x -> nan (scalar1_f32 U W o x)) /\
  (forall o a, in_u 16 a -> hval a = FNaN -> exists r, scalar1_f16 U W o a = Some r /\ hval r = FNaN) /\
  (forall o, o <> pow_u10 -> o <> hypot_u05 -> o <> hypot_u35 ->
    (forall x y, pattern x -> pattern y -> nan x \/ nan y -> nan (scalar2_f32 U o x y)) /\
    (forall a b, in_u 16 a -> in_u 16 b -> hval a = FNaN \/ hval b = FNaN -> exists r, scalar2_f16 U o a b = Some r /\ hval r = FNaN)).
Proof.
  pose proof (C138_f16 U W) as (F1 & F2).
  assert (forall o x, pattern x -> nan x -> nan (scalar1_f32 U W o x)) as G1 by (intros; unfold nan, scalar1_f32; rewrite bits_val; apply nan1; assumption).
  split; [exact G1 | split].
  - intros o a A N. destruct (F1 o a A) as (x & r & P & V & S & _ & R). exists r. split; [exact S |]. rewrite N in V. pose proof (G1 o x P V) as G. unfold nan in G. rewrite G in R. exact R.
  - intros o O1 O2 O3.
    assert (forall x y, pattern x -> pattern y -> nan x \/ nan y -> nan (scalar2_f32 U o x y)) as G2 by (intros; unfold nan, scalar2_f32; rewrite bits_val; apply nan2; assumption).
    split; [exact G2 |]. intros a b A B N. destruct (F2 o a b A B) as (x & y & r & P & Q & V & V' & S & _ & R). exists r. split; [exact S |].
    assert (nan x \/ nan y) as M by (unfold nan; rewrite V, V'; destruct N as [-> | ->]; [left | right]; reflexivity).
    pose proof (G2 x y P Q M) as G. unfold nan in G. rewrite G in R. exact R.
Qed.
Print Assumptions C138_nan.
Example C138_nan_nontrivial : in_u 16 32256 /\ hval 32256 = FNaN /\ hval 15360 = FFin false (2 ^ 24) /\ scalar2_f16 (fun _ => 0) pow_u10 15360 32256 = Some 15360.
Proof. unfold in_u. repeat split; vm_compute; (reflexivity || congruence). Qed.

(** each name stands for the function it says: the special cases of C128 to C137 by the names of the API *)
Theorem C138_names U W :
  (forall o x, val (scalar1_f32 U W o x) = val (sleef1 U W o x)) /\ (forall o x y, val (scalar2_f32 U o x y) = val (sleef2 U o x y)) /\
  let f := sleef1 U W in let f2 := sleef2 U in
  (like_sine (f sin_u35) /\ like_sine (f sin_u10) /\ like_cosine (f cos_u35) /\ like_cosine (f cos_u10) /\ like_sine (f tan_u35) /\ like_sine (f tan_u10)) /\
  (like_asin (f asin_u35) /\ like_asin (f asin_u10)) /\ (like_acos (f acos_u35) /\ like_acos (f acos_u10)) /\ (like_atan (f atan_u35) /\ like_atan (f atan_u10)) /\
  (like_atan2 (f2 atan2_u35) /\ like_atan2 (f2 atan2_u10)) /\ (like_hypot (f2 hypot_u05) /\ like_hypot (f2 hypot_u35)) /\
  (like_a_logarithm (f log_u10) /\ like_a_logarithm (f log_u35) /\ like_a_logarithm (f log2_u10) /\ like_a_logarithm (f log2_u35) /\ like_a_logarithm (f log10_u10)) /\
  (like_cbrt (f cbrt_u35) /\ like_cbrt (f cbrt_u10) /\ odd_function (f cbrt_u35)) /\ like_erf (f erf_u10) /\ like_gamma (2 ^ 31) (f tgamma_u10) /\ like_log_gamma (2 ^ 31) (f lgamma_u10) /\
  (saturates 89 (FInf false) (FInf true) (f sinh_u10) /\ saturates 88 (FInf false) (FInf true) (f sinh_u35)) /\
  (saturates 89 (FInf false) (FInf false) (f cosh_u10) /\ saturates 88 (FInf false) (FInf false) (f cosh_u35)) /\
  (saturates 19 (whole 1) (whole (-1)) (f tanh_u10) /\ saturates 19 (whole 1) (whole (-1)) (f tanh_u35)) /\
  (keeps_zeros (f asinh_u10) /\ saturates root_of_max (FInf false) (FInf true) (f asinh_u10)) /\
  saturates 11 (FFin false 0) (whole 2) (f erfc_u15) /\
  (forall x, pattern x -> an_infinity x -> nan (f sinpi_u05 x) /\ nan (f cospi_u05 x)) /\ keeps_zeros (f sinpi_u05) /\
  (forall x, pattern x ->
    (is (whole 1) x -> plus_zero (f acosh_u10 x) /\ plus_infinity (f atanh_u10 x)) /\
    (is (whole (-1)) x -> minus_infinity (f log1p_u10 x)) /\ (below (-17) x -> is (whole (-1)) (f expm1_u10 x)) /\
    (above 104 x -> plus_infinity (f exp_u10 x)) /\ (below (-104) x -> plus_zero (f exp_u10 x)) /\ (a_zero x -> is (whole 1) (f exp_u10 x)) /\
    (forall k, -149 <= k <= 127 -> (is (whole k) x -> is (power_of_two k) (f exp2_u10 x) /\ is (power_of_two k) (f exp2_u35 x)) /\
                                   (is (power_of_two k) x -> is (whole k) (f log2_u10 x) /\ is (whole k) (f log2_u35 x))) /\
    (forall k, 0 <= k <= 10 -> (is (whole k) x -> is (whole (10 ^ k)) (f exp10_u10 x) /\ is (whole (10 ^ k)) (f exp10_u35 x)) /\
                               (is (whole (10 ^ k)) x -> is (whole k) (f log10_u10 x)))) /\
  (forall x y, a_zero y \/ is (whole 1) x -> is (whole 1) (f2 pow_u10 x y)) /\
  (forall x y s m t n, pattern x -> pattern y -> val x = FFin s m -> val y = FFin t n -> n <> 0 ->
    (m < 4096 * n -> val (f2 fmod x y) = FFin s (m mod n)) /\
    (n < 2 * m -> 4 * m <= 5 * n -> val (f2 remainder x y) = FFin (if m <? n then negb s else s) (Z.abs (m - n)))).
Proof.
  split; [intros; apply bits_val |]. split; [intros; apply bits_val |]. cbv zeta. cbn [sleef1 sleef2].
  split; [exact (C135_special U W) |]. split; [exact C132_asin |]. split; [exact C132_acos |]. split; [exact C132_atan |]. split; [exact C132_atan2 |]. split; [exact C133_hypot |].
  split; [exact C129_log |]. split; [exact C133_cbrt |]. split; [exact (C133_erf U) |]. split; [exact (C133_tgamma U) |]. split; [exact (C133_lgamma U) |].
  pose proof (C131_sinh U) as ((_ & _ & _ & H1) & (_ & _ & _ & H2)). split; [exact (conj H1 H2) |].
  pose proof (C131_cosh U) as ((_ & _ & _ & H3) & (_ & _ & _ & H4)). split; [exact (conj H3 H4) |].
  pose proof (C131_tanh U) as ((_ & _ & _ & H5) & (_ & _ & _ & H6)). split; [exact (conj H5 H6) |].
  split; [exact (proj2 C131_asinh) |]. split; [exact (proj2 (proj2 (C133_erfc U))) |].
  pose proof (C134_special U) as (_ & Z1 & _ & Z2). split; [exact Z2 |]. split; [exact Z1 |].
  split; [| split; [exact (C130_one U) |]].
  - intros x P. pose proof (C131_acosh x P) as (_ & _ & I1 & _). pose proof C131_atanh as (_ & _ & _ & I2). pose proof (C129_log1p x P) as (_ & _ & I3 & _). pose proof (C128_expm1 U x P) as (_ & _ & I4 & _). pose proof (C128_exp U x P) as (_ & I5 & I6 & I7).
    split; [exact (fun H => conj (I1 H) (proj1 (proj2 (I2 x P)) H)) |]. split; [exact I3 |]. split; [exact I4 |]. split; [exact I5 |]. split; [exact I6 |]. split; [exact I7 |].
    split; intros k K; [split; [exact (C137_exp2 U k x K P) | exact (C137_log2 k x K P)] | exact (C137_ten U k x K P)].
  - intros x y s m t n P Q V V' N. split; [exact (C136_fmod_exact U x y s m t n P Q V V' N) | exact (proj2 (C136_remainder_exact U x y s m t n P Q V V' N))].
Qed.
Print Assumptions C138_names.
(** 2 to the 10 *)
Example C138_names_nontrivial : pattern 1092616192 /\ is (whole 10) 1092616192 /\ is (power_of_two 10) (sleef1 (fun _ => 0) (fun _ => 0) exp2_u10 1092616192) /\ power_of_two 10 = whole 1024.
Proof. unfold pattern. repeat split; vm_compute; (reflexivity || congruence). Qed.

(** a half with magnitude c 2^e *)
Local Lemma half_of s c e : 0 <= c < 2 ^ 11 -> 0 <= e <= 29 -> exists r, in_u 16 r /\ hval r = FFin s (c * 2 ^ e).
Proof.
  intros C E. assert (exists r, 0 <= r < 2 ^ 15 /\ hval r = FFin false (c * 2 ^ e)) as (r & R & V).
  { clear s. assert (0 <= e) as E0 by lia. destruct E as (_ & E). revert c C E. pattern e. apply natlike_ind; [| | exact E0].
    - intros c C _. exists c. split; [change (2 ^ 11) with 2048 in C; change (2 ^ 15) with 32768; lia |]. rewrite Z.pow_0_r, Z.mul_1_r.
      unfold hval, decode, sign_of, exp_of, man_of, magnitude. cbn [mbits ebits binary16]. change (2 ^ (5 + 10)) with 32768. change (2 ^ 10) with 1024. change (2 ^ 5) with 32. change (2 ^ 11) with 2048 in C.
      rewrite (Z.div_small c 32768) by lia. destruct (Z.lt_ge_cases c 1024).
      + rewrite (Z.div_small c 1024), (Z.mod_small c 1024) by lia. reflexivity.
      + assert (c / 1024 = 1) as -> by (symmetry; apply (Z.div_unique c 1024 1 (c - 1024)); lia). assert (c mod 1024 = c - 1024) as -> by (symmetry; apply (Z.mod_unique c 1024 1 (c - 1024)); lia).
        change (FFin false ((1024 + (c - 1024)) * 1) = FFin false c). f_equal. lia.
    - clear e E0. intros e E0 IH c C E. destruct (Z.lt_ge_cases c (2 ^ 10)) as [L | G].
      + destruct (IH (2 * c)) as (r & R & V); [change (2 ^ 10) with 1024 in L; change (2 ^ 11) with 2048; lia | lia |]. exists r. split; [exact R |]. rewrite V. f_equal. rewrite Z.pow_succ_r by lia. ring.
      + change (2 ^ 10) with 1024 in G. change (2 ^ 11) with 2048 in C. exists ((Z.succ e + 1) * 1024 + (c - 1024)). split; [change (2 ^ 15) with 32768; lia |].
        unfold hval, decode, sign_of, exp_of, man_of, magnitude. cbn [mbits ebits binary16]. change (2 ^ (5 + 10)) with 32768. change (2 ^ 10) with 1024. change (2 ^ 5) with 32.
        set (r := (Z.succ e + 1) * 1024 + (c - 1024)). rewrite (Z.div_small r 32768) by (unfold r; lia).
        assert (r / 1024 = Z.succ e + 1) as -> by (symmetry; apply (Z.div_unique r 1024 _ (c - 1024)); unfold r; lia). assert (r mod 1024 = c - 1024) as -> by (symmetry; apply (Z.mod_unique r 1024 (Z.succ e + 1) (c - 1024)); unfold r; lia).
        rewrite Z.mod_small by lia. destruct (Z.eqb_spec (Z.succ e + 1) (32 - 1)); [lia |]. destruct (Z.eqb_spec (Z.succ e + 1) 0); [lia |]. change (Z.odd 0) with false. f_equal. replace (Z.succ e + 1 - 1) with (Z.succ e) by lia. f_equal. lia. }
  destruct s; [| exists r; split; [unfold in_u; change (2 ^ 15) with 32768 in R; change (2 ^ 16) with 65536; lia | exact V]].
  exists (r + 32768). change (2 ^ 15) with 32768 in R. split; [unfold in_u; change (2 ^ 16) with 65536; lia |].
  revert V. unfold hval, decode, sign_of, exp_of, man_of. cbn [mbits ebits binary16]. change (2 ^ (5 + 10)) with 32768. change (2 ^ 10) with 1024. change (2 ^ 5) with 32.
  rewrite (Z.div_small r 32768) by lia. assert ((r + 32768) / 32768 = 1) as -> by (symmetry; apply (Z.div_unique _ 32768 1 r); lia).
  assert ((r + 32768) mod 1024 = r mod 1024) as -> by (replace (r + 32768) with (r + 32 * 1024) by ring; apply Z.mod_add; lia).
  assert ((r + 32768) / 1024 = r / 1024 + 32) as -> by (replace (r + 32768) with (r + 32 * 1024) by ring; apply Z.div_add; lia).
  assert ((r / 1024 + 32) mod 32 = (r / 1024) mod 32) as -> by (replace (r / 1024 + 32) with (r / 1024 + 1 * 32) by ring; apply Z.mod_add; lia).
  change (Z.odd 0) with false. change (Z.odd 1) with true. destruct ((r / 1024) mod 32 =? 32 - 1); [destruct (r mod 1024 =? 0); discriminate |]. intros [= ->]. reflexivity.
Qed.
(** the magnitude of a finite half is c 2^e *)
Local Lemma half_form a s m : hval a = FFin s m -> exists c e, 0 <= c < 2 ^ 11 /\ 0 <= e <= 29 /\ m = c * 2 ^ e.
Proof.
  unfold hval, decode, magnitude. cbn [mbits ebits binary16]. assert (0 <= man_of binary16 a < 1024) as M by (unfold man_of; cbn [mbits binary16]; apply Z.mod_pos_bound; lia). assert (0 <= exp_of binary16 a < 32) as E by (unfold exp_of; cbn [ebits mbits binary16]; apply Z.mod_pos_bound; lia).
  change (2 ^ 5 - 1) with 31. change (2 ^ 10) with 1024. change (2 ^ 11) with 2048. destruct (Z.eqb_spec (exp_of binary16 a) 31) as [| NE]; [destruct (man_of binary16 a =? 0); discriminate |]. intros V. apply (f_equal (fun v => match v with FFin _ k => k | _ => 0 end)) in V. cbv beta iota in V. subst m.
  destruct (Z.eqb_spec (exp_of binary16 a) 0); [exists (man_of binary16 a), 0; rewrite Z.pow_0_r; lia |]. exists (1024 + man_of binary16 a), (exp_of binary16 a - 1). repeat split; lia.
Qed.
(** a half result that is exact is not changed by the rounding *)
Local Lemma exact_half s h r r0 : hval r0 = FFin s h -> in_u 16 r0 -> rounds (FFin s (h * 2 ^ 125)) r -> hval r = FFin s h.
Proof.
  intros V P (R & R'). destruct (Z.lt_ge_cases (h * 2 ^ 125) overflow_threshold) as [L | G].
  - destruct (R L) as (h' & V' & M). destruct (M r0 s h P V) as (D & _). unfold dist in D. unfold hval. rewrite V'. f_equal. assert (h' * 2 ^ 125 = h * 2 ^ 125) as E by (destruct s; cbn [sval] in D; lia). lia.
  - exfalso. assert (h <= 2047 * 2 ^ 29) as B.
    { destruct (half_form r0 s h V) as (c & e & C & E & ->). assert (0 < 2 ^ e <= 2 ^ 29) as (Q1 & Q2) by (split; [apply Z.pow_pos_nonneg; lia | apply Z.pow_le_mono_r; lia]). apply Z.le_trans with (2047 * 2 ^ e); [apply Z.mul_le_mono_nonneg_r; lia | apply Z.mul_le_mono_nonneg_l; lia]. }
    unfold overflow_threshold in G. change (2 ^ 149) with (2 ^ 24 * 2 ^ 125) in G. change (2 ^ 24) with 16777216 in G. change (2 ^ 29) with 536870912 in B. assert (0 < 2 ^ 125) by lia. lia.
Qed.
Local Lemma half_mod s c e c' e' : 0 <= c < 2 ^ 11 -> 0 <= e <= 29 -> 0 < c' < 2 ^ 11 -> 0 <= e' <= 29 ->
  exists r, in_u 16 r /\ hval r = FFin s ((c * 2 ^ e) mod (c' * 2 ^ e')).
Proof.
  intros C E C' E'. assert (0 < 2 ^ e) as P by (apply Z.pow_pos_nonneg; lia). assert (0 < 2 ^ e') as P' by (apply Z.pow_pos_nonneg; lia). destruct (Z.le_gt_cases e' e) as [L | G].
  - replace (c * 2 ^ e) with (c * 2 ^ (e - e') * 2 ^ e') by (rewrite <- Z.mul_assoc, <- Z.pow_add_r by lia; do 2 f_equal; lia). rewrite Z.mul_mod_distr_r by lia. apply half_of; [| exact E'].
    pose proof (Z.mod_pos_bound (c * 2 ^ (e - e')) c' ltac:(lia)). lia.
  - replace (c' * 2 ^ e') with (c' * 2 ^ (e' - e) * 2 ^ e) by (rewrite <- Z.mul_assoc, <- Z.pow_add_r by lia; do 2 f_equal; lia).
    assert (0 < 2 ^ (e' - e)) by (apply Z.pow_pos_nonneg; lia). rewrite Z.mul_mod_distr_r by nia. apply half_of; [| exact E].
    pose proof (Z.mod_pos_bound c (c' * 2 ^ (e' - e)) ltac:(nia)). pose proof (Z.mod_le c (c' * 2 ^ (e' - e)) ltac:(lia) ltac:(nia)). lia.
Qed.

(** fmod on f16 is exact when the quotient is below 4096 *)
Theorem C138_fmod_f16 U a b s m t n : in_u 16 a -> in_u 16 b -> hval a = FFin s m -> hval b = FFin t n -> n <> 0 -> m < 4096 * n ->
  exists r, scalar2_f16 U fmod a b = Some r /\ in_u 16 r /\ hval r = FFin s (m mod n).
Proof.
  intros A B V V' N L. destruct (proj2 (C138_f16 U U) fmod a b A B) as (x & y & r & P & Q & X & Y & S & I & R). exists r. split; [exact S | split; [exact I |]].
  destruct (half_form a s m V) as (c & e & C & E & ->). destruct (half_form b t n V') as (c' & e' & C' & E' & ->). assert (0 < 2 ^ e') by (apply Z.pow_pos_nonneg; lia). assert (c' <> 0) by (intros ->; apply N; reflexivity).
  destruct (half_mod s c e c' e' C E ltac:(lia) E') as (r0 & I0 & V0). apply (exact_half s _ r r0 V0 I0). rewrite V in X. rewrite V' in Y. cbn [widen] in X, Y.
  unfold scalar2_f32 in R. rewrite bits_val in R. cbn [sleef2] in R. rewrite (C136_fmod_exact U x y s _ t _ P Q X Y) in R; [| lia | lia].
  rewrite Z.mul_mod_distr_r in R; [exact R | nia | lia].
Qed.
Print Assumptions C138_fmod_f16.
(** -7.5 and 2 *)
Example C138_fmod_f16_nontrivial : hval 51072 = FFin true (15 * 2 ^ 23) /\ hval 16384 = FFin false (2 ^ 25) /\ 15 * 2 ^ 23 < 4096 * 2 ^ 25 /\ exists r, scalar2_f16 (fun _ => 0) fmod 51072 16384 = Some r /\ hval r = FFin true (3 * 2 ^ 23).
Proof. split; [vm_compute; reflexivity | split; [vm_compute; reflexivity | split; [lia |]]]. exists 48640. split; vm_compute; reflexivity. Qed.

(** exp2 and log2 on f16 are exact at every power of two that is a half; both precisions *)
Theorem C138_powers_f16 U W k a o : -24 <= k <= 15 -> in_u 16 a ->
  (o = exp2_u10 \/ o = exp2_u35 -> hval a = FFin (k <? 0) (Z.abs k * 2 ^ 24) -> exists r, scalar1_f16 U W o a = Some r /\ hval r = FFin false (2 ^ (k + 24))) /\
  (o = log2_u10 \/ o = log2_u35 -> hval a = FFin false (2 ^ (k + 24)) -> exists r, scalar1_f16 U W o a = Some r /\ hval r = FFin (k <? 0) (Z.abs k * 2 ^ 24)).
Proof.
  intros K A. destruct (proj1 (C138_f16 U W) o a A) as (x & r & P & X & S & I & R). unfold scalar1_f32 in R. rewrite bits_val in R. split; intros O V; exists r; (split; [exact S |]); rewrite V in X; cbn [widen] in X.
  - rewrite <- Z.mul_assoc in X. change (2 ^ 24 * 2 ^ 125) with (2 ^ 149) in X. destruct (C137_exp2 U k x ltac:(lia) P X) as (G1 & G2).
    assert (val (sleef1 U W o x) = FFin false (2 ^ (k + 24) * 2 ^ 125)) as G. { rewrite <- Z.pow_add_r by lia. replace (k + 24 + 125) with (149 + k) by lia. destruct O as [-> | ->]; [exact G1 | exact G2]. }
    rewrite G in R. destruct (Z.le_gt_cases (k + 24) 29) as [L | L].
    + destruct (half_of false 1 (k + 24) ltac:(lia) ltac:(lia)) as (r0 & I0 & V0). rewrite Z.mul_1_l in V0. exact (exact_half _ _ r r0 V0 I0 R).
    + destruct (half_of false (2 ^ (k + 24 - 29)) 29 ltac:(split; [apply Z.pow_nonneg; lia | apply Z.pow_lt_mono_r; lia]) ltac:(lia)) as (r0 & I0 & V0). rewrite <- Z.pow_add_r in V0 by lia. replace (k + 24 - 29 + 29) with (k + 24) in V0 by lia. exact (exact_half _ _ r r0 V0 I0 R).
  - rewrite <- Z.pow_add_r in X by lia. replace (k + 24 + 125) with (149 + k) in X by lia. destruct (C137_log2 k x ltac:(lia) P X) as (G1 & G2).
    assert (val (sleef1 U W o x) = FFin (k <? 0) (Z.abs k * 2 ^ 24 * 2 ^ 125)) as G. { rewrite <- Z.mul_assoc. change (2 ^ 24 * 2 ^ 125) with (2 ^ 149). destruct O as [-> | ->]; [exact G1 | exact G2]. }
    rewrite G in R. destruct (half_of (k <? 0) (Z.abs k) 24 ltac:(lia) ltac:(lia)) as (r0 & I0 & V0). exact (exact_half _ _ r r0 V0 I0 R).
Qed.
Print Assumptions C138_powers_f16.
(** the least half, 2^-24 *)
Example C138_powers_f16_nontrivial : hval 1 = FFin false (2 ^ (-24 + 24)) /\ scalar1_f16 (fun _ => 0) (fun _ => 0) log2_u10 1 = Some 52736 /\ hval 52736 = FFin true (24 * 2 ^ 24).
Proof. repeat split; vm_compute; reflexivity. Qed.

(** the lanes of a vector are the scalar results: CPU f32 and the emulated functions of POWER *)
Theorem C138_lanes U W g : 
  (forall o x, length x = 4%nat -> cpu1 U W EF32 o x = map (scalar1_f32 U W o) x /\ vmx1 U W g o x = map (scalar1_f32 U W o) x) /\
  (forall o x y, length x = 4%nat -> length y = 4%nat ->
    let z := map (fun p => scalar2_f32 U o (fst p) (snd p)) (combine x y) in cpu2 U EF32 o x y = z /\ vmx2 U g o x y = z).
Proof.
  split.
  - intros o x L. destruct x as [| a [| b [| c [| d [|]]]]]; try discriminate L. split; reflexivity.
  - intros o x y L L'. destruct x as [| a [| b [| c [| d [|]]]]]; try discriminate L. destruct y as [| a' [| b' [| c' [| d' [|]]]]]; try discriminate L'. split; reflexivity.
Qed.
Print Assumptions C138_lanes.

(** f16 vectors, whose lanes are f32: halves loaded from memory, an operator and a store give the scalar f16 results *)
Definition loaded (t : ety) (h l : list Z) : Prop := map (lane_in t) h = map Some l.
Definition stored (t : ety) (l : list Z) : list (option Z) := map (fun x => Some (lane_out t x)) l.
Theorem C138_vectors_f16 U W g :
  (forall o h l, length h = 8%nat -> loaded EF16 h l -> stored EF16 (cpu1 U W EF16 o l) = map (scalar1_f16 U W o) h) /\
  (forall o h k l m, length h = 8%nat -> length k = 8%nat -> loaded EF16 h l -> loaded EF16 k m ->
    stored EF16 (cpu2 U EF16 o l m) = map (fun p => scalar2_f16 U o (fst p) (snd p)) (combine h k)) /\
  (forall o h h' l l', length h = 4%nat -> length h' = 4%nat -> loaded EF16 h l -> loaded EF16 h' l' ->
    let v := vmx1_f16 U W g o (l, l') in stored EF16 (fst v ++ snd v) = map (scalar1_f16 U W o) (h ++ h')) /\
  (forall o h h' k k' l l' m m', length h = 4%nat -> length h' = 4%nat -> length k = 4%nat -> length k' = 4%nat ->
    loaded EF16 h l -> loaded EF16 h' l' -> loaded EF16 k m -> loaded EF16 k' m' ->
    let v := vmx2_f16 U g o (l, l') (m, m') in
    stored EF16 (fst v ++ snd v) = map (fun p => scalar2_f16 U o (fst p) (snd p)) (combine (h ++ h') (k ++ k'))).
Proof.
  assert (forall h l, loaded EF16 h l -> length l = length h) as LL by (intros h l H; apply (f_equal (@length _)) in H; rewrite !map_length in H; symmetry; exact H).
  assert (forall o h l, loaded EF16 h l -> stored EF16 (map (scalar1_f32 U W o) l) = map (scalar1_f16 U W o) h) as K1.
  { intros o h. induction h as [| a h IH]; intros [| x l] H; try discriminate H; [reflexivity |]. unfold loaded in H. cbn [map lane_in] in H. injection H as E H. cbn [map stored]. unfold scalar1_f16 at 1. rewrite E. f_equal. apply (IH l H). }
  assert (forall o h l k m, loaded EF16 h l -> loaded EF16 k m -> stored EF16 (map (fun p => scalar2_f32 U o (fst p) (snd p)) (combine l m)) = map (fun p => scalar2_f16 U o (fst p) (snd p)) (combine h k)) as K2.
  { intros o h. induction h as [| a h IH]; intros [| x l] [| b k] [| y m] H H'; try discriminate H; try discriminate H'; try reflexivity. unfold loaded in H, H'. cbn [map lane_in] in H, H'. injection H as E H. injection H' as E' H'. cbn [map stored combine fst snd]. unfold scalar2_f16 at 1. rewrite E, E'. f_equal. apply (IH l k m H H'). }
  repeat split.
  - intros o h l L H. rewrite <- (K1 o h l H). f_equal. apply LL in H. rewrite L in H. do 9 (destruct l as [| ? l]; try discriminate H). reflexivity.
  - intros o h k l m L L' H H'. rewrite <- (K2 o h l k m H H'). f_equal. apply LL in H, H'. rewrite L in H. rewrite L' in H'. do 9 (destruct l as [| ? l]; try discriminate H). do 9 (destruct m as [| ? m]; try discriminate H'). reflexivity.
  - intros o h h' l l' L L' H H' v. unfold stored. rewrite !map_app. rewrite <- (K1 o h l H), <- (K1 o h' l' H'). unfold v, vmx1_f16. cbn [fst snd]. pose proof (LL _ _ H) as Q. pose proof (LL _ _ H') as Q'.
    rewrite (proj2 (proj1 (C138_lanes U W g) o l ltac:(congruence))), (proj2 (proj1 (C138_lanes U W g) o l' ltac:(congruence))). reflexivity.
  - intros o h h' k k' l l' m m' L1 L2 L3 L4 H1 H2 H3 H4 v. pose proof (LL _ _ H1) as Q1. pose proof (LL _ _ H2) as Q2. pose proof (LL _ _ H3) as Q3. pose proof (LL _ _ H4) as Q4.
    assert (loaded EF16 (h ++ h') (l ++ l')) as A by (unfold loaded in *; rewrite !map_app; congruence). assert (loaded EF16 (k ++ k') (m ++ m')) as B by (unfold loaded in *; rewrite !map_app; congruence).
    rewrite <- (K2 o _ _ _ _ A B). unfold v, vmx2_f16. cbn [fst snd]. pose proof (proj2 (C138_lanes U W g) o) as Z2. cbv zeta in Z2.
    rewrite (proj2 (Z2 l m ltac:(congruence) ltac:(congruence))), (proj2 (Z2 l' m' ltac:(congruence) ltac:(congruence))). rewrite <- map_app. do 2 f_equal.
    rewrite L1 in Q1. rewrite L3 in Q3. do 5 (destruct l as [| ? l]; try discriminate Q1). do 5 (destruct m as [| ? m]; try discriminate Q3). reflexivity.
Qed.
Print Assumptions C138_vectors_f16.
(** 3 and 1, as halves *)
Example C138_vectors_f16_nontrivial : loaded EF16 [16896; 15360] [1077936128; 1065353216] /\ scalar1_f16 (fun _ => 0) (fun _ => 0) exp2_u35 15360 = Some 16384.
Proof. split; vm_compute; reflexivity. Qed.

(** the lanes of an f16 vector of the CPU need not be halves before they are stored: exp2 of the half -8.5 *)
Theorem C138_f16_lane_refuted : ~ forall U W o h l, length h = 8%nat -> loaded EF16 h l -> forall x, In x (cpu1 U W EF16 o l) -> val x <> FNaN -> exists a, in_u 16 a /\ val x = widen (hval a).
Proof.
  intros H. pose (x := nth 0 (cpu1 (fun _ => 0) (fun _ => 0) EF16 exp2_u35 (repeat 3238526976 8)) 0).
  assert ((match val x with FFin _ k => k mod 2 ^ 125 | _ => 0 end =? 0) = false) as M by (vm_compute; reflexivity).
  assert (val x <> FNaN) as N by (vm_compute; discriminate).
  destruct (H (fun _ => 0) (fun _ => 0) exp2_u35 (repeat 51264 8) (repeat 3238526976 8) eq_refl ltac:(vm_compute; reflexivity) x ltac:(left; reflexivity) N) as (a & A & V).
  rewrite V in M. destruct (hval a) as [| s | s m]; cbn [widen] in M; try discriminate M. rewrite Z.mod_mul in M by lia. discriminate M.
Qed.
Print Assumptions C138_f16_lane_refuted.
