(** C61, C62, C63: the x86 conversions cvt, upcvt and downcvt. *)
From Coq Require Import ZArith Lia List Bool.
From Verif Require Import CInt BitLemmas FloatSpec FloatProofs Fp16 ScalarOps ScalarSpec ScalarProofs X86Deg234 X86Arith X86ArithSpec X86LaneLemmas X86ArithProofs X86EmulProofs X86SelectProofs
  X86Mem X86MemSpec X86MemProofs X86MemProofs2 X86FmaProofs X86Cvt X86CvtSpec X86CvtProofs X86CvtProofs2 X86CvtProofs3 X86CvtProofs4.
Import ListNotations.
Open Scope Z_scope.

Lemma elt_wraps t r i z : In t int_types -> lane (bits t) i r = z mod 2 ^ bits t -> wraps_to t z (elt t r i).
Proof. intros H L. rewrite (elt_of_lane t r i z H L). apply cast_wraps. exact H. Qed.
Lemma elt_value t r i z : In t int_types -> in_ty t z -> lane (bits t) i r = z mod 2 ^ bits t -> elt t r i = z.
Proof. intros H I L. rewrite (elt_of_lane t r i z H L). apply cast_id; assumption. Qed.

(** ** C61: integers to integers *)

(** upcvt: the first result holds the first half of the elements in order, the second the second half, each converted to the type of twice the width. *)
Theorem C61_upcvt : forall e t u a, In t int_types -> In u int_types -> bits u = 2 * bits t -> in_reg (nb e) a ->
  exists r0 r1, x_upcvt e (MI t) (MI u) a = Some (r0, r1) /\
    vector e u r0 (fun i v => wraps_to u (elt t a i) v) /\
    vector e u r1 (fun i v => wraps_to u (elt t a (nb e / bits u + i)) v).
Proof.
  intros e t u a H H2 W Ha. assert (D : double_width (MI t) (MI u)) by (split; [exact H|split; [exact H2|exact W]]).
  destruct (upcvt_int_ups e t u a D Ha) as (R0 & R1 & L). destruct (upcvt_int e t u a) as [r0 r1] eqn:E. exists r0, r1. cbn [x_upcvt fst snd] in *. rewrite E. split; [reflexivity|].
  rewrite <- W in L. split; (split; [assumption|]); intros i Hi; destruct (L i Hi) as [L0 L1]; apply elt_wraps; try exact H2; rewrite elt_lane; assumption.
Qed.
Print Assumptions C61_upcvt.

(** downcvt: the elements of the first argument, then those of the second, reduced to the type of half the width. *)
Theorem C61_downcvt : forall e t u a b, In t int_types -> In u int_types -> bits t = 2 * bits u ->
  exists r, x_downcvt e (MI t) (MI u) a b = Some r /\
    vector e u r (fun i v => wraps_to u (pick (nb e / bits t) (elt t a) (elt t b) i) v).
Proof.
  intros e t u a b H H2 W. destruct (down_int e t u a b H H2 W) as (r & E & R & L). exists r. split; [exact E|]. split; [exact R|].
  intros i Hi. apply elt_wraps; [exact H2|]. apply L, Hi.
Qed.
Print Assumptions C61_downcvt.

Theorem C61_cvt : forall e t u a, In t int_types -> In u int_types -> bits u = bits t -> in_reg (nb e) a ->
  exists r, x_cvt e (MI t) (MI u) a = Some r /\ vector e u r (fun i v => wraps_to u (elt t a i) v).
Proof.
  intros e t u a H H2 W Ha. destruct (x_cvt_lanes e (MI t) (MI u) a) as (r & E & R & L); [split; [exact H|split; [exact H2|exact W]]|exact Ha|intros; discriminate|].
  exists r. split; [exact E|]. split; [exact R|]. intros i Hi. apply elt_wraps; [exact H2|]. destruct (L i Hi) as (y & Ey & Ly). injection Ey as <-.
  etransitivity; [exact Ly|]. change (mw (MI u)) with (bits u). change (mw (MI t)) with (bits t). rewrite <- (elt_congr t a i H), W, Z.mod_mod; [reflexivity|apply Z.pow_nonzero; [lia|ty_cases H; cbn; lia]].
Qed.
Print Assumptions C61_cvt.

(** Narrowing what was widened gives back the vector. *)
Theorem C61_round_trip : forall e t u a, In t int_types -> In u int_types -> bits u = 2 * bits t -> in_reg (nb e) a ->
  exists r0 r1, x_upcvt e (MI t) (MI u) a = Some (r0, r1) /\ x_downcvt e (MI u) (MI t) r0 r1 = Some a.
Proof.
  intros e t u a H H2 W Ha. destruct (C61_upcvt e t u a H H2 W Ha) as (r0 & r1 & E & [R0 V0] & [R1 V1]). exists r0, r1. split; [exact E|].
  destruct (down_int e u t r0 r1 H2 H W) as (r & Er & R & L). rewrite Er. f_equal.
  pose proof (okw_mw e (MI t) H) as O. change (mw (MI t)) with (bits t) in O. apply (lanes_eq (nb e) (bits t)); try assumption.
  assert (D : double_width (MI t) (MI u)) by (split; [exact H|split; [exact H2|exact W]]). destruct (okw_dw e _ _ D) as (_ & _ & EE). change (mw (MI t)) with (bits t) in EE. rewrite <- W in EE.
  assert (P : 0 < 2 ^ bits t) by (apply pow2_pos; ty_cases H; cbn; lia).
  assert (Q : forall z v, wraps_to u z v -> v mod 2 ^ bits t = z mod 2 ^ bits t).
  { intros z v [_ [k K]]. assert (v = z + - k * 2 ^ bits t * 2 ^ bits t) as ->. { rewrite W in K. replace (2 * bits t) with (bits t + bits t) in K by ring. rewrite Z.pow_add_r in K by (ty_cases H; cbn; lia). lia. }
    apply Z.mod_add. lia. }
  intros i Hi. rewrite L by exact Hi. unfold pick. destruct (Z.ltb_spec i (nb e / bits u)).
  - rewrite (Q _ _ (V0 i ltac:(lia))). apply elt_congr, H.
  - rewrite (Q _ _ (V1 (i - nb e / bits u) ltac:(lia))). replace (nb e / bits u + (i - nb e / bits u)) with i by lia. apply elt_congr, H.
Qed.
Print Assumptions C61_round_trip.

(** Elements 0, -1, 2, -3: the same wide elements on two extensions. *)
Example C61_example : forall e, e = Sse2 \/ e = Sse42 -> let a := 0 + (2 ^ 32 - 1) * 2 ^ 32 + 2 * 2 ^ 64 + (2 ^ 32 - 3) * 2 ^ 96 in
  in_reg (nb e) a /\ elt i32 a 1 = -1 /\ elt i64 (fst (upcvt_int e i32 i64 a)) 1 = -1 /\ elt i64 (snd (upcvt_int e i32 i64 a)) 1 = - 3.
Proof. intros e [->| ->]; (split; [vm_compute; split; discriminate || reflexivity|]); repeat split; vm_compute; reflexivity. Qed.

(** ** C62: between integers and floats of the same width *)

(** What the nearest float is: no number of the format is closer; integers of at most 24 (53) bits are exact. *)
Theorem C62_nearest_float : forall t z, is_float t = true -> Z.abs z < 2 ^ 64 ->
  let f := format t in
  0 <= nearest_float f z < 2 ^ mw t /\
  exists s m, decode f (nearest_float f z) = FFin s m /\
    (forall b s' m', 0 <= b < 2 ^ mw t -> decode f b = FFin s' m' ->
       Z.abs (sval s m - z * one f) <= Z.abs (sval s' m' - z * one f)) /\
    (Z.abs z <= 2 ^ (mbits f + 1) -> sval s m = z * one f).
Proof.
  intros t z F Hz f. pose proof (good_format t) as G. fold f in G. pose proof (nearest_float_range f z G) as R. unfold f in R at 3. rewrite width_mw in R by exact F. split; [exact R|].
  assert (N16 : f <> binary16) by (unfold f; destruct t; cbn; discriminate). destruct (nearest_float_nearest f z G N16 Hz) as (m & D & N). exists (z <? 0), m. split; [exact D|].
  assert (O : 0 < one f) by (rewrite <- scale_one; apply pow2_pos; destruct (good_sizes f G); lia).
  assert (M0 : forall b s' m', 0 <= b < 2 ^ mw t -> decode f b = FFin s' m' -> 0 <= m').
  { intros b s' m' Hb D'. destruct (good_sizes f G) as (GM & GE & _). destruct (decode_split f b ltac:(lia) GE) as (s0 & p & Hp & Eb & _); [unfold f; rewrite width_mw by exact F; exact Hb|].
    rewrite Eb, decode_pattern in D' by lia. destruct (_ =? _); [destruct (_ =? _); discriminate|]. injection D' as _ <-. apply vmag_nonneg; lia. }
  split.
  - intros b s' m' Hb D'. specialize (N b s' m'). unfold f in N at 1. rewrite width_mw in N by exact F. specialize (N Hb D'). pose proof (M0 _ _ _ Hb D') as P'. pose proof (M0 _ _ _ R D) as P.
    unfold sval. destruct (Z.ltb_spec z 0) as [Lz|Lz].
    + rewrite (Z.abs_neq z) in N by lia. assert (Z.abs (- m - z * one f) = Z.abs (m - - z * one f)) as -> by (replace (- m - z * one f) with (- (m - - z * one f)) by ring; apply Z.abs_opp).
      etransitivity; [exact N|]. assert (z * one f <= 0) by (apply Z.mul_nonpos_nonneg; lia). rewrite Z.mul_opp_l. destruct s'; lia.
    + rewrite (Z.abs_eq z) in N by lia. etransitivity; [exact N|]. assert (0 <= z * one f) by (apply Z.mul_nonneg_nonneg; lia). destruct s'; lia.
  - intros Sm. rewrite (nearest_float_exact f z G Sm) in D. injection D as <-. unfold sval. destruct (Z.ltb_spec z 0); [rewrite Z.abs_neq by lia|rewrite Z.abs_eq by lia]; ring.
Qed.
Print Assumptions C62_nearest_float.

(** cvt from an integer type: on every extension, the float nearest to each element. *)
Theorem C62_cvt_from_int : forall e f t a, is_float f = true -> In t int_types -> bits t = mw f -> in_reg (nb e) a ->
  exists r, x_cvt e (MI t) f a = Some r /\ in_reg (nb e) r /\
    forall i, 0 <= i < elems e f -> pattern f r i = nearest_float (format f) (elt t a i).
Proof. intros e f t a F H W Ha. exact (cvt_of_int_ok e f t a (conj F (conj H W)) Ha). Qed.
Print Assumptions C62_cvt_from_int.

(** cvt to an integer type: truncation or rounding to nearest, see [cvt_rounds]. *)
Theorem C62_cvt_to_int : forall e f t a z, is_float f = true -> In t int_types -> bits t = mw f -> in_reg (nb e) a ->
  (forall i, 0 <= i < elems e f -> to_int e t (format f) (pattern f a i) (z i) /\ in_ty t (z i)) ->
  exists r, x_cvt e f (MI t) a = Some r /\ vector e t r (fun i v => v = z i).
Proof.
  intros e f t a z F H W Ha Hz. unfold elems in Hz. destruct (cvt_to_int_ok e f t a z (conj F (conj H W)) Ha) as (r & E & R & L). { rewrite W. exact Hz. }
  exists r. split; [exact E|]. split; [exact R|]. intros i Hi. apply elt_value; [exact H| |apply L, Hi]. apply Hz. rewrite <- W. exact Hi.
Qed.
Print Assumptions C62_cvt_to_int.

(** The specification is met by exactly one integer. *)
Theorem C62_to_int_unique : forall e t f b z z', is_float f = true -> to_int e t (format f) b z -> to_int e t (format f) b z' -> z = z'.
Proof.
  intros e t f b z z' F. unfold to_int. destruct (cvt_rounds e t).
  - apply rounds_unique, good_format.
  - intros (s & m & D & ->) (s' & m' & D' & ->). rewrite D in D'. injection D' as <- <-. reflexivity.
Qed.
Print Assumptions C62_to_int_unique.

(** 1.5 is converted to 2 or to 1 depending on the type and the extension, where the CPU extension gives 1: 1.5f = 0x3fc00000, 1.5 = 0x3ff8000000000000. *)
Theorem C62_same_result_refuted :
  (exists a r, in_reg 128 a /\ pattern MF32 a 0 = 1069547520 /\ x_cvt Sse2 MF32 (MI i32) a = Some r /\ elt i32 r 0 = 2) /\
  (exists a r, in_reg 128 a /\ pattern MF32 a 0 = 1069547520 /\ x_cvt Sse2 MF32 (MI u32) a = Some r /\ elt u32 r 0 = 1) /\
  (exists a r, in_reg 512 a /\ pattern MF32 a 0 = 1069547520 /\ x_cvt Avx512Knl MF32 (MI u32) a = Some r /\ elt u32 r 0 = 2) /\
  (exists a r, in_reg 512 a /\ pattern MF64 a 0 = 4609434218613702656 /\ x_cvt Avx512Knl MF64 (MI i64) a = Some r /\ elt i64 r 0 = 1) /\
  (exists a r, in_reg 512 a /\ pattern MF64 a 0 = 4609434218613702656 /\ x_cvt Avx512Skylake MF64 (MI i64) a = Some r /\ elt i64 r 0 = 2) /\
  truncates binary32 1069547520 1.
Proof.
  split; [exists 1069547520|split; [exists 1069547520|split; [exists 1069547520|split; [exists 4609434218613702656|split; [exists 4609434218613702656|]]]]].
  6: exists false; eexists; split; reflexivity.
  all: eexists; split; [vm_compute; split; discriminate || reflexivity|]; split; [reflexivity|]; split; [vm_compute; reflexivity|vm_compute; reflexivity].
Qed.
Print Assumptions C62_same_result_refuted.

(** ** C63: upcvt and downcvt with floats *)

(** Integers to floats of twice the width: every value is exact (C62_nearest_float). *)
Theorem C63_upcvt_from_int : forall e t f a, is_float f = true -> In t int_types -> mw f = 2 * bits t -> in_reg (nb e) a ->
  exists r0 r1, x_upcvt e (MI t) f a = Some (r0, r1) /\ in_reg (nb e) r0 /\ in_reg (nb e) r1 /\
    forall i, 0 <= i < elems e f ->
      pattern f r0 i = nearest_float (format f) (elt t a i) /\ pattern f r1 i = nearest_float (format f) (elt t a (elems e f + i)).
Proof.
  intros e t f a F H W Ha. destruct (up_of_int e t f a F H W Ha) as ([r0 r1] & E & R0 & R1 & L). exists r0, r1. split; [exact E|]. split; [exact R0|]. split; [exact R1|].
  unfold elems. rewrite <- W in L. exact L.
Qed.
Print Assumptions C63_upcvt_from_int.

(** f32 to i64, u64: right when the value fits in 32 bits. *)
Theorem C63_upcvt_to_int : forall e u a z, In u int_types -> bits u = 64 -> in_reg (nb e) a ->
  (forall i, 0 <= i < elems e MF32 -> to_int e (narrow u) binary32 (pattern MF32 a i) (z i) /\ in_ty (narrow u) (z i)) ->
  exists r0 r1, x_upcvt e MF32 (MI u) a = Some (r0, r1) /\
    vector e u r0 (fun i v => v = z i) /\ vector e u r1 (fun i v => v = z (nb e / bits u + i)).
Proof.
  intros e u a z H W Ha Hz. assert (En : narrow u = resized u 32) by (destruct u as [[|] ?]; reflexivity). rewrite En in Hz.
  destruct (up_to_int e u a z H W Ha Hz) as ([r0 r1] & E & R0 & R1 & L). exists r0, r1. split; [exact E|].
  assert (I : forall i, 0 <= i < elems e MF32 -> in_ty u (z i)).
  { intros i Hi. destruct (Hz i Hi) as [_ [A B]]. revert A B. generalize (z i). clear - H W. ty_cases H; cbn in W; try lia; unfold in_ty; cbn; intros; lia. }
  assert (EE : elems e MF32 = 2 * (nb e / 64)) by (destruct e; reflexivity). rewrite <- W in L, EE.
  split; (split; [assumption|]); intros i Hi; apply elt_value; try exact H; try (apply I; lia); apply (L i Hi).
Qed.
Print Assumptions C63_upcvt_to_int.

(** ... and otherwise not: 2^32 becomes -2^31 in i64. *)
Theorem C63_upcvt_to_int_refuted : exists a r0 r1, in_reg (nb Avx2) a /\ decode binary32 (pattern MF32 a 0) = FFin false (2 ^ 32 * one binary32) /\
  x_upcvt Avx2 MF32 (MI i64) a = Some (r0, r1) /\ elt i64 r0 0 = - 2 ^ 31.
Proof.
  exists (nearest_float binary32 (2 ^ 32)). do 2 eexists. split; [vm_compute; split; discriminate || reflexivity|]. split; [vm_compute; reflexivity|]. split; [vm_compute; reflexivity|vm_compute; reflexivity].
Qed.
Print Assumptions C63_upcvt_to_int_refuted.

(** f32 to f64 is exact, infinities and NaNs included. *)
Theorem C63_upcvt_float : forall e a, in_reg (nb e) a ->
  exists r0 r1, x_upcvt e MF32 MF64 a = Some (r0, r1) /\ in_reg (nb e) r0 /\ in_reg (nb e) r1 /\
    forall i, 0 <= i < elems e MF64 ->
      decode binary64 (pattern MF64 r0 i) = widen64 (decode binary32 (pattern MF32 a i)) /\
      decode binary64 (pattern MF64 r1 i) = widen64 (decode binary32 (pattern MF32 a (elems e MF64 + i))).
Proof.
  intros e a Ha. destruct (upcvt_float_ups e a Ha) as (R0 & R1 & L). destruct (upcvt_float e a) as [r0 r1] eqn:E. exists r0, r1. cbn [x_upcvt]. rewrite E. split; [reflexivity|].
  split; [exact R0|]. split; [exact R1|]. cbn [fst snd] in L. intros i Hi. destruct (L i Hi) as [L0 L1].
  assert (Q : forall x, decode binary64 (double_of_single x mod 2 ^ 64) = widen64 (decode binary32 x)) by (intros x; destruct (double_of_single_ok x) as [D B]; rewrite Z.mod_small by exact B; exact D).
  split; (etransitivity; [apply f_equal; eassumption|]); apply Q.
Qed.
Print Assumptions C63_upcvt_float.

(** f64 to f32 gives the nearest single. *)
Theorem C63_downcvt_float : forall e a b, in_reg (nb e) a -> in_reg (nb e) b ->
  exists r, x_downcvt e MF64 MF32 a b = Some r /\ in_reg (nb e) r /\
    forall i, 0 <= i < elems e MF32 -> nearest_single (pick (elems e MF64) (pattern MF64 a) (pattern MF64 b) i) (pattern MF32 r i).
Proof.
  intros e a b Ha Hb. destruct (downcvt_f64_f32 e a b) as (r & E & R & L). exists r. split; [exact E|]. split; [exact R|]. intros i Hi. destruct (L i Hi) as (y & Ey & Ly). injection Ey as <-.
  set (x := pick _ _ _ i) in *. change (pick (elems e MF64) (pattern MF64 a) (pattern MF64 b) i) with x. assert (Hx : 0 <= x < 2 ^ 64) by (unfold x, pick; destruct (_ <? _); apply (lane_range 64); lia).
  destruct (single_of_double_ok x Hx) as [N B]. change (pattern MF32 r i) with (lane 32 i r). rewrite Ly, Z.mod_small by exact B. exact N.
Qed.
Print Assumptions C63_downcvt_float.

(** i64, u64 to f32 gives the nearest single except for i64 on AVX-512 ... *)
Theorem C63_downcvt_from_int : forall e t a b, In t int_types -> bits t = 64 -> is512 e && is_signed t = false ->
  exists r, x_downcvt e (MI t) MF32 a b = Some r /\ in_reg (nb e) r /\
    forall i, 0 <= i < elems e MF32 -> pattern MF32 r i = nearest_float binary32 (pick (nb e / 64) (elt t a) (elt t b) i).
Proof. exact down_of_int. Qed.
Print Assumptions C63_downcvt_from_int.

(** ... where the elements are first reduced to 32 bits: right only for elements which fit in i32. *)
Theorem C63_downcvt_i64_avx512 : forall e a b, is512 e = true ->
  exists r, x_downcvt e (MI i64) MF32 a b = Some r /\ in_reg (nb e) r /\
    forall i, 0 <= i < elems e MF32 -> exists w, wraps_to i32 (pick (nb e / 64) (elt i64 a) (elt i64 b) i) w /\ pattern MF32 r i = nearest_float binary32 w.
Proof.
  intros e a b S. destruct (down_i64_512 e a b S) as (r & E & R & L). exists r. split; [exact E|]. split; [exact R|]. intros i Hi. eexists. split; [|apply L; exact Hi]. apply cast_wraps. cbn; tauto.
Qed.
Print Assumptions C63_downcvt_i64_avx512.

Theorem C63_downcvt_from_int_refuted : exists a r, in_reg 512 a /\ elt i64 a 0 = 2 ^ 32 + 5 /\
  x_downcvt Avx512Skylake (MI i64) MF32 a a = Some r /\ pattern MF32 r 0 = nearest_float binary32 5.
Proof. exists (2 ^ 32 + 5). eexists. split; [vm_compute; split; discriminate || reflexivity|]. split; [reflexivity|]. split; [vm_compute; reflexivity|vm_compute; reflexivity]. Qed.
Print Assumptions C63_downcvt_from_int_refuted.

(** f64 to i32, u32 and f32 to i16, u16 truncate on every extension. *)
Theorem C63_downcvt_to_int : forall e f t a b z, is_float f = true -> In t int_types -> mw f = 2 * bits t ->
  (forall i, 0 <= i < nb e / bits t -> truncates (format f) (pick (elems e f) (pattern f a) (pattern f b) i) (z i) /\ in_ty t (z i)) ->
  exists r, x_downcvt e f (MI t) a b = Some r /\ vector e t r (fun i v => v = z i).
Proof.
  intros e f t a b z F H W Hz. destruct (down_to_int e f t a b z F H W Hz) as (r & E & R & L). exists r. split; [exact E|]. split; [exact R|].
  intros i Hi. apply elt_value; [exact H|apply Hz; exact Hi|apply L; exact Hi].
Qed.
Print Assumptions C63_downcvt_to_int.

(** ** f16, whose elements are held in single precision *)

Theorem C63_cvt_to_f16 : forall e t a, In t int_types -> bits t = 16 -> in_reg (nb e) a ->
  exists v, x_cvt_to16 e t a = Some v /\ in_reg16 e v /\ forall i, 0 <= i < nb e / 16 -> pattern16 e v i = nearest_float binary32 (elt t a i).
Proof. exact to16_ok. Qed.
Print Assumptions C63_cvt_to_f16.

Theorem C63_cvt_from_f16 : forall e t v z, In t int_types -> bits t = 16 ->
  (forall i, 0 <= i < nb e / 16 -> truncates binary32 (pattern16 e v i) (z i) /\ in_ty t (z i)) ->
  exists r, x_cvt_from16 e t v = Some r /\ vector e t r (fun i y => y = z i).
Proof.
  intros e t v z H W Hz. destruct (from16_ok e t v z H W Hz) as (r & E & R & L). exists r. split; [exact E|]. split; [exact R|]. rewrite W.
  intros i Hi. apply elt_value; [exact H|apply Hz; exact Hi|rewrite W; apply L; exact Hi].
Qed.
Print Assumptions C63_cvt_from_f16.

(** Every 16-bit integer survives the way through an f16 vector, although most are no halves. *)
Theorem C63_f16_round_trip : forall e t a, In t int_types -> bits t = 16 -> in_reg (nb e) a ->
  exists v, x_cvt_to16 e t a = Some v /\ x_cvt_from16 e t v = Some a.
Proof.
  intros e t a H W Ha. destruct (to16_ok e t a H W Ha) as (v & E & R & P). exists v. split; [exact E|].
  destruct (from16_ok e t v (elt t a) H W) as (r & Er & Rr & L).
  - intros i Hi. split; [|apply elt_range; exact H]. rewrite P by exact Hi. pose proof (elt_range t a i H) as [A B]. exists (elt t a i <? 0), (Z.abs (elt t a i) * one binary32). split.
    + apply nearest_float_exact; [left; reflexivity|]. change (2 ^ (mbits binary32 + 1)) with 16777216. revert A B. generalize (elt t a i). clear - H W. ty_cases H; cbn in W; try lia; cbn; intros; lia.
    + rewrite Z.div_mul by (vm_compute; discriminate). unfold sval. destruct (Z.ltb_spec (elt t a i) 0); lia.
  - rewrite Er. f_equal. pose proof (okw_mw e (MI t) H) as O. change (mw (MI t)) with (bits t) in O. rewrite W in O. apply (lanes_eq (nb e) 16); try assumption.
    intros i Hi. rewrite L by exact Hi. pose proof (elt_congr t a i H) as Q. rewrite W in Q. exact Q.
Qed.
Print Assumptions C63_f16_round_trip.

Theorem C63_upcvt_from_f16 : forall e v, in_reg16 e v ->
  exists r0 r1, x_upcvt_from16 e MF32 v = Some (r0, r1) /\ in_reg (nb e) r0 /\ in_reg (nb e) r1 /\
    forall i, 0 <= i < elems e MF32 -> pattern MF32 r0 i = pattern16 e v i /\ pattern MF32 r1 i = pattern16 e v (elems e MF32 + i).
Proof.
  intros e [r0 r1] [R0 R1]. exists r0, r1. split; [reflexivity|]. split; [exact R0|]. split; [exact R1|]. intros i Hi. unfold pattern16. change (elems e MF32) with (nb e / 32) in *. cbn [fst snd].
  destruct (Z.ltb_spec i (nb e / 32)); [|lia]. destruct (Z.ltb_spec (nb e / 32 + i) (nb e / 32)); [lia|]. replace (nb e / 32 + i - nb e / 32) with i by lia. split; reflexivity.
Qed.
Print Assumptions C63_upcvt_from_f16.

Theorem C63_upcvt_f16_to_int : forall e t v z, In t int_types -> bits t = 32 -> in_reg16 e v ->
  (forall i, 0 <= i < nb e / 16 -> to_int e t binary32 (pattern16 e v i) (z i) /\ in_ty t (z i)) ->
  exists r0 r1, x_upcvt_from16 e (MI t) v = Some (r0, r1) /\
    vector e t r0 (fun i y => y = z i) /\ vector e t r1 (fun i y => y = z (nb e / 32 + i)).
Proof.
  intros e t v z H W R Hz. destruct (up16_to_int e t v z H W R Hz) as ([r0 r1] & E & R0 & R1 & L). exists r0, r1. split; [exact E|].
  assert (EE : nb e / 16 = 2 * (nb e / 32)) by (destruct e; reflexivity).
  split; (split; [assumption|]); rewrite W; intros i Hi; (apply elt_value; [exact H|apply Hz; lia|rewrite W; apply L; exact Hi]).
Qed.
Print Assumptions C63_upcvt_f16_to_int.

Theorem C63_upcvt_to_f16 : forall e t a, In t int_types -> bits t = 8 -> in_reg (nb e) a ->
  exists v u, x_upcvt_to16 e t a = Some (v, u) /\ in_reg16 e v /\ in_reg16 e u /\
    forall i, 0 <= i < nb e / 16 -> pattern16 e v i = nearest_float binary32 (elt t a i) /\ pattern16 e u i = nearest_float binary32 (elt t a (nb e / 16 + i)).
Proof. exact up16_of_int. Qed.
Print Assumptions C63_upcvt_to_f16.

Theorem C63_downcvt_to_f16 : forall e t a b, In t int_types -> bits t = 32 -> in_reg (nb e) a -> in_reg (nb e) b ->
  exists v, x_downcvt_to16 e (MI t) a b = Some v /\ in_reg16 e v /\
    forall i, 0 <= i < nb e / 16 -> pattern16 e v i = nearest_float binary32 (pick (nb e / 32) (elt t a) (elt t b) i).
Proof. exact down16_of_int. Qed.
Print Assumptions C63_downcvt_to_f16.

Theorem C63_downcvt_f32_to_f16 : forall e a b, in_reg (nb e) a -> in_reg (nb e) b ->
  exists v, x_downcvt_to16 e MF32 a b = Some v /\ in_reg16 e v /\
    forall i, 0 <= i < nb e / 16 -> pattern16 e v i = pick (elems e MF32) (pattern MF32 a) (pattern MF32 b) i.
Proof. intros e a b Ha Hb. eexists. split; [reflexivity|]. split; [split; assumption|]. intros i Hi. reflexivity. Qed.
Print Assumptions C63_downcvt_f32_to_f16.

Theorem C63_downcvt_from_f16 : forall e t v u z, In t int_types -> bits t = 8 ->
  (forall i, 0 <= i < nb e / 8 -> truncates binary32 (pick (nb e / 16) (pattern16 e v) (pattern16 e u) i) (z i) /\ in_ty t (z i)) ->
  exists r, x_downcvt_from16 e t v u = Some r /\ vector e t r (fun i y => y = z i).
Proof.
  intros e t v u z H W Hz. destruct (down16_to_int e t v u z H W Hz) as (r & E & R & L). exists r. split; [exact E|]. split; [exact R|]. rewrite W.
  intros i Hi. apply elt_value; [exact H|apply Hz; exact Hi|rewrite W; apply L; exact Hi].
Qed.
Print Assumptions C63_downcvt_from_f16.

(** The hypotheses on the values are met: -2.75 = 0xc0300000 in every lane rounds to -3 and truncates to -2. *)
Example C63_example : let b := 3224371200 in
  truncates binary32 b (-2) /\ rounds binary32 b (-3) /\ in_ty i16 (-2) /\ in_ty i32 (-3) /\
  option_map (fun r => elt i16 r 5) (x_downcvt Sse2 MF32 (MI i16) (build 32 4 (fun _ => b)) (build 32 4 (fun _ => b))) = Some (-2) /\
  option_map (fun r => elt i32 r 3) (x_cvt Sse2 MF32 (MI i32) (build 32 4 (fun _ => b))) = Some (-3) /\
  option_map (fun p => elt i64 (snd p) 1) (x_upcvt Sse2 MF32 (MI i64) (build 32 4 (fun _ => b))) = Some (-3) /\
  option_map (fun p => decode binary64 (pattern MF64 (snd p) 0)) (x_upcvt Sse2 MF32 MF64 (build 32 4 (fun _ => b))) = Some (widen64 (decode binary32 b)).
Proof.
  cbv zeta. split; [exists true; eexists; split; reflexivity|]. split; [exists true; eexists; split; [reflexivity|split; [vm_compute; discriminate|intros Q; vm_compute in Q; discriminate]]|].
  split; [vm_compute; split; discriminate|]. split; [vm_compute; split; discriminate|].
  repeat split; vm_compute; reflexivity.
Qed.
