(** C56, C57: the lane permutations of the x86 extensions. *)

From Coq Require Import ZArith String List Arith Lia.
From Verif Require Import X86Shuffle X86Deg234 X86ShuffleSpec X86Perm
  X86PermSpec X86PermProofs.
Import ListNotations.

(** ** C56: reverse *)

(** On every type but f16, and but f64 on AVX-512, lane [i] of the result is
    lane [n - 1 - i] of the argument. *)
Theorem C56_reverse : forall e t v, vector e (El t) v ->
  ~ (t = F64 /\ (e = Avx512Knl \/ e = Avx512Skylake)) ->
  exists r, reverse_x86 e (El t) v = Some r /\ vector e (El t) r /\
    forall i, i < lanes e (El t) ->
      lane (El t) i r = lane (El t) (lanes e (El t) - 1 - i) v.
Proof.
  intros e t v V N.
  apply (reverse_ok e (El t) v V). intros [E H]. apply N. now inversion E.
Qed.
Print Assumptions C56_reverse.

Theorem C56_reverse_twice : forall e t v r, vector e (El t) v ->
  reverse_x86 e (El t) v = Some r -> reverse_x86 e (El t) r = Some v.
Proof.
  intros e t v r V E.
  assert (N : ~ (t = F64 /\ (e = Avx512Knl \/ e = Avx512Skylake)))
    by (intros [-> [-> | ->]]; discriminate).
  destruct (C56_reverse e t v V N) as [r1 [E1 [V1 H1]]].
  destruct (C56_reverse e t r1 V1 N) as [r2 [E2 [V2 H2]]].
  replace r with r1 by congruence. rewrite E2. f_equal.
  apply (vector_eq e (El t)); [assumption..|]. intros i Hi.
  rewrite H2, H1 by lia. f_equal. lia.
Qed.
Print Assumptions C56_reverse_twice.

(** On f16 each half of the vector is reversed in place... *)
Theorem C56_reverse_f16 : forall e v, vector e F16 v ->
  exists r, reverse_x86 e F16 v = Some r /\ vector e F16 r /\
    forall i, i < lanes e F16 / 2 ->
      lane F16 i r = lane F16 (lanes e F16 / 2 - 1 - i) v /\
      lane F16 (lanes e F16 / 2 + i) r = lane F16 (lanes e F16 - 1 - i) v.
Proof.
  intros e v V. destruct (reverse_ok e F16 v V) as [r [E [Vr H]]];
    [now intros [E _]|].
  exists r. split; [exact E|]. split; [exact Vr|]. intros i Hi.
  pose proof (lanes_even e F16) as Ev. unfold reverse_src in H.
  set (h := lanes e F16 / 2) in *. split.
  - rewrite H by lia. now replace (i <? h) with true
      by (symmetry; apply Nat.ltb_lt; lia).
  - rewrite H by lia. replace (h + i <? h) with false
      by (symmetry; apply Nat.ltb_ge; lia). f_equal. lia.
Qed.
Print Assumptions C56_reverse_f16.

(** ... so that it is not the reverse of the vector, on any extension. *)
Theorem C56_reverse_f16_refuted : forall e,
  exists v r, vector e F16 v /\ reverse_x86 e F16 v = Some r /\
    lane F16 0 r <> lane F16 (lanes e F16 - 1) v.
Proof.
  intro e.
  set (v := [repeat 1%Z (reg_bytes e); repeat 2%Z (reg_bytes e)]).
  assert (V : vector e F16 v).
  { split; [reflexivity|]. unfold v. repeat constructor; apply repeat_length. }
  destruct (C56_reverse_f16 e v V) as [r [E [_ H]]].
  exists v, r. split; [exact V|]. split; [exact E|].
  destruct (H 0) as [H0 _]; [destruct e; cbn; lia|].
  rewrite H0. destruct e; discriminate.
Qed.
Print Assumptions C56_reverse_f16_refuted.

(** On f64 the code emitted for AVX-512 is not C. *)
Theorem C56_reverse_f64_avx512_refuted : forall e v,
  e = Avx512Knl \/ e = Avx512Skylake -> reverse_x86 e (El F64) v = None.
Proof. intros e v [-> | ->]; reflexivity. Qed.
Print Assumptions C56_reverse_f64_avx512_refuted.

(** The hypotheses are met. *)
Example C56_example :
  exists v, vector Avx2 (El I16) v /\
    reverse_x86 Avx2 (El I16) v =
    Some [map Z.of_nat [30; 31; 28; 29; 26; 27; 24; 25; 22; 23; 20; 21; 18; 19;
                        16; 17; 14; 15; 12; 13; 10; 11; 8; 9; 6; 7; 4; 5; 2; 3;
                        0; 1]].
Proof.
  exists [map Z.of_nat (seq 0 32)].
  split; [split; [reflexivity|repeat constructor]|reflexivity].
Qed.

(** ** C57: zip and unzip *)

(** ziplo interleaves the first halves of its arguments, ziphi the second
    halves. *)
Theorem C57_ziplo : forall e t a b, vector e t a -> vector e t b ->
  exists r, zip_half_x86 false e t a b = Some r /\ vector e t r /\
    forall i, i < lanes e t / 2 ->
      lane t (2 * i) r = lane t i a /\ lane t (2 * i + 1) r = lane t i b.
Proof. exact (zip_ok false). Qed.
Print Assumptions C57_ziplo.

Theorem C57_ziphi : forall e t a b, vector e t a -> vector e t b ->
  exists r, zip_half_x86 true e t a b = Some r /\ vector e t r /\
    forall i, i < lanes e t / 2 ->
      lane t (2 * i) r = lane t (lanes e t / 2 + i) a /\
      lane t (2 * i + 1) r = lane t (lanes e t / 2 + i) b.
Proof. exact (zip_ok true). Qed.
Print Assumptions C57_ziphi.

(** unziplo keeps the lanes of even index of its two arguments, unziphi those
    of odd index; what the local arrays contained does not matter. *)
Theorem C57_unziplo : forall e t a b m, vector e t a -> vector e t b ->
  stack e m ->
  exists r, unzip_half_x86 false e t a b m = Some r /\ vector e t r /\
    forall i, i < lanes e t / 2 ->
      lane t i r = lane t (2 * i) a /\
      lane t (lanes e t / 2 + i) r = lane t (2 * i) b.
Proof.
  intros e t a b m Va Vb S.
  destruct (unzip_ok false e t a b m Va Vb S) as [r [E [V H]]].
  exists r. split; [exact E|]. split; [exact V|]. intros i Hi.
  specialize (H i Hi). now rewrite Nat.add_0_r in H.
Qed.
Print Assumptions C57_unziplo.

Theorem C57_unziphi : forall e t a b m, vector e t a -> vector e t b ->
  stack e m ->
  exists r, unzip_half_x86 true e t a b m = Some r /\ vector e t r /\
    forall i, i < lanes e t / 2 ->
      lane t i r = lane t (2 * i + 1) a /\
      lane t (lanes e t / 2 + i) r = lane t (2 * i + 1) b.
Proof. exact (unzip_ok true). Qed.
Print Assumptions C57_unziphi.

(** zip and unzip are inverse of each other. *)
Theorem C57_unzip_zip : forall e t a b m, vector e t a -> vector e t b ->
  stack e m ->
  exists lo hi, zip_x86 e t a b = Some (lo, hi) /\
    unzip_x86 e t lo hi m = Some (a, b).
Proof.
  intros e t a b m Va Vb S.
  destruct (C57_ziplo e t a b Va Vb) as [lo [El [Vl Hl]]].
  destruct (C57_ziphi e t a b Va Vb) as [hi [Eh [Vh Hh]]].
  exists lo, hi. split; [unfold zip_x86; now rewrite El, Eh|].
  destruct (C57_unziplo e t lo hi m Vl Vh S) as [a' [Ea [Va' Ha]]].
  destruct (C57_unziphi e t lo hi m Vl Vh S) as [b' [Eb [Vb' Hb]]].
  unfold unzip_x86. rewrite Ea, Eb. pose proof (lanes_even e t) as Ev.
  set (h := lanes e t / 2) in *.
  do 2 f_equal; apply (vector_eq e t); auto; intros i Hi;
    (destruct (Nat.lt_ge_cases i h) as [C|C];
     [| replace i with (h + (i - h)) by lia]).
  - rewrite (proj1 (Ha i C)). apply Hl, C.
  - rewrite (proj2 (Ha (i - h) ltac:(lia))). apply Hh. lia.
  - rewrite (proj1 (Hb i C)). apply Hl, C.
  - rewrite (proj2 (Hb (i - h) ltac:(lia))). apply Hh. lia.
Qed.
Print Assumptions C57_unzip_zip.

Theorem C57_zip_unzip : forall e t a b m, vector e t a -> vector e t b ->
  stack e m ->
  exists lo hi, unzip_x86 e t a b m = Some (lo, hi) /\
    zip_x86 e t lo hi = Some (a, b).
Proof.
  intros e t a b m Va Vb S.
  destruct (C57_unziplo e t a b m Va Vb S) as [lo [El [Vl Hl]]].
  destruct (C57_unziphi e t a b m Va Vb S) as [hi [Eh [Vh Hh]]].
  exists lo, hi. split; [unfold unzip_x86; now rewrite El, Eh|].
  destruct (C57_ziplo e t lo hi Vl Vh) as [a' [Ea [Va' Ha]]].
  destruct (C57_ziphi e t lo hi Vl Vh) as [b' [Eb [Vb' Hb]]].
  unfold zip_x86. rewrite Ea, Eb. pose proof (lanes_even e t) as Ev.
  set (h := lanes e t / 2) in *.
  do 2 f_equal; apply (vector_eq e t); auto; intros i Hi;
    pose proof (Nat.div_mod i 2 ltac:(lia)) as D;
    pose proof (Nat.mod_upper_bound i 2 ltac:(lia)) as U;
    set (q := i / 2) in *;
    (destruct (Nat.eq_dec (i mod 2) 0) as [C|C];
     [replace i with (2 * q) by lia | replace i with (2 * q + 1) by lia]);
    assert (Q : q < h) by lia.
  - rewrite (proj1 (Ha q Q)). apply Hl, Q.
  - rewrite (proj2 (Ha q Q)). apply Hh, Q.
  - rewrite (proj1 (Hb q Q)). apply Hl, Q.
  - rewrite (proj2 (Hb q Q)). apply Hh, Q.
Qed.
Print Assumptions C57_zip_unzip.

(** The hypotheses are met: 8-bit lanes on AVX, where unzip goes through its
    local arrays. *)
Example C57_example :
  let a := [map Z.of_nat (seq 0 32)] in
  let b := [map Z.of_nat (seq 100 32)] in
  let m := repeat (-1)%Z 96 in
  vector Avx (El U8) a /\ vector Avx (El U8) b /\ stack Avx m /\
  option_map (fun r => firstn 4 (concat r))
    (zip_half_x86 false Avx (El U8) a b) = Some [0; 100; 1; 101]%Z /\
  option_map (fun r => firstn 4 (concat r))
    (unzip_half_x86 true Avx (El U8) a b m) = Some [1; 3; 5; 7]%Z.
Proof.
  cbv zeta. split; [split; [reflexivity|repeat constructor]|].
  split; [split; [reflexivity|repeat constructor]|].
  split; [apply Nat.leb_le; reflexivity|]. split; reflexivity.
Qed.
