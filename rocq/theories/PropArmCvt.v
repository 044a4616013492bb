(** C81, C82, C83: the ARM conversions cvt, upcvt, downcvt and the reinterpretations of f16.  In every theorem [u] is
    the register of unspecified lanes: no result depends on it. *)
From Coq Require Import ZArith Lia List Bool ZifyBool.
From Verif Require Import CInt BitLemmas FloatSpec FloatProofs Fp16 Fp16Proofs ScalarOps ScalarSpec ScalarProofs X86Deg234 X86Arith X86ArithSpec X86LaneLemmas X86ArithProofs X86EmulProofs X86SelectProofs
  X86Mem X86MemSpec X86MemProofs X86Cvt X86CvtSpec X86CvtProofs X86CvtProofs2 X86CvtProofs3 X86CvtProofs4 PropX86Cvt PropX86Float
  Arm ArmSpec ArmProofs ArmPerm ArmPermSpec ArmPermProofs ArmMem ArmMemSpec ArmCvt ArmCvtSpec ArmCvtProofs ArmCvtProofs2 PropArm.
Import ListNotations.
Open Scope Z_scope.

Lemma avector_lanes e t r g (P : Z -> Z -> Prop) : In t int_types -> lanes_are (an e) (bits t) (fun i => g i mod 2 ^ bits t) r ->
  (forall i, 0 <= i < an e / bits t -> P i (cast t (g i))) -> avector e t r P.
Proof. intros H [R L] HP. split; [exact R|]. intros i Hi. rewrite (elt_of_lane t r i (g i) H (L i Hi)). apply HP, Hi. Qed.

Lemma wraps_same t z x : In t int_types -> in_ty t z -> wraps_to t z x -> x = z.
Proof.
  intros H Iz [Ix [k K]]. rewrite <- (cast_id t x H Ix), <- (cast_id t z H Iz). apply cast_congr.
  replace x with (z + - k * 2 ^ bits t) by lia. apply Z.mod_add. apply Z.pow_nonzero; [lia|]. pose proof (bits_pos t H). lia.
Qed.

(** ** C81: integers to integers *)

(** upcvt: the first result holds the first half of the elements in order, the second the second half, each converted
    to the type of twice the width. *)
Theorem C81_upcvt : forall u e t v a, In t int_types -> In v int_types -> bits v = 2 * bits t ->
  exists r0 r1, a_upcvt u e (MI t) (MI v) a = Some (r0, r1) /\
    avector e v r0 (fun i x => wraps_to v (elt t a i) x) /\
    avector e v r1 (fun i x => wraps_to v (elt t a (an e / bits v + i)) x).
Proof.
  intros u e t v a H H2 W. assert (D : double_width (MI t) (MI v)) by (split; [exact H|split; [exact H2|exact W]]).
  destruct (a_upcvt_int_ups e t v a D) as (R0 & R1 & L). destruct (a_upcvt_int e t v a) as [r0 r1] eqn:E. exists r0, r1. cbn [a_upcvt fst snd] in *. rewrite E. split; [reflexivity|].
  rewrite <- W in L. split; (split; [assumption|]); intros i Hi; destruct (L i Hi) as [L0 L1]; apply elt_wraps; try exact H2; rewrite elt_lane; assumption.
Qed.
Print Assumptions C81_upcvt.

(** downcvt: the elements of the first argument, then those of the second, reduced to the type of half the width. *)
Theorem C81_downcvt : forall u e t v a b, In t int_types -> In v int_types -> bits t = 2 * bits v ->
  exists r, a_downcvt u e (MI t) (MI v) a b = Some r /\
    avector e v r (fun i x => wraps_to v (pick (an e / bits t) (elt t a) (elt t b) i) x).
Proof.
  intros u e t v a b H H2 W. assert (D : double_width (MI v) (MI t)) by (split; [exact H2|split; [exact H|exact W]]).
  eexists. split; [reflexivity|]. refine (avector_lanes e v _ _ _ H2 (a_downcvt_int_lanes e t v a b D) _). intros i Hi.
  rewrite (cast_congr v _ (pick (an e / bits t) (elt t a) (elt t b) i)); [apply cast_wraps, H2|].
  pose proof (bits_cases v H2). unfold pick. destruct (i <? an e / bits t); rewrite elt_lane; symmetry; apply cast_mod_lt; try exact H; lia.
Qed.
Print Assumptions C81_downcvt.

Theorem C81_cvt : forall u e t v a, In t int_types -> In v int_types -> bits v = bits t -> in_reg (an e) a ->
  exists r, a_cvt u e (MI t) (MI v) a = Some r /\ avector e v r (fun i x => wraps_to v (elt t a i) x).
Proof.
  intros u e t v a H H2 W Ha. exists a. split; [reflexivity|]. split; [exact Ha|]. intros i Hi. apply elt_wraps; [exact H2|]. rewrite elt_lane, W, cast_mod by exact H. symmetry. apply lane_modw. pose proof (bits_pos t H). lia.
Qed.
Print Assumptions C81_cvt.

(** Narrowing what was widened gives back the vector. *)
Theorem C81_round_trip : forall u e t v a, In t int_types -> In v int_types -> bits v = 2 * bits t -> in_reg (an e) a ->
  exists r0 r1, a_upcvt u e (MI t) (MI v) a = Some (r0, r1) /\ a_downcvt u e (MI v) (MI t) r0 r1 = Some a.
Proof.
  intros u e t v a H H2 W Ha. assert (D : double_width (MI t) (MI v)) by (split; [exact H|split; [exact H2|exact W]]).
  destruct (a_upcvt_int_ups e t v a D) as (R0 & R1 & L). destruct (a_upcvt_int e t v a) as [r0 r1] eqn:E. exists r0, r1. cbn [a_upcvt a_downcvt fst snd] in *. rewrite E. split; [reflexivity|]. f_equal.
  destruct (a_downcvt_int_lanes e v t r0 r1 D) as [R LL]. apply (lanes_eq (an e) (bits t)); try assumption; [apply okw_ant, H|].
  destruct (amw_2 e _ _ D) as (_ & _ & E2 & _). change (mw (MI t)) with (bits t) in E2. change (mw (MI v)) with (bits v) in E2. pose proof (bits_cases t H) as Ct.
  assert (Q : forall x, (cast t (lane (bits t) x a) mod 2 ^ bits v) mod 2 ^ bits t = lane (bits t) x a).
  { intros x. rewrite <- Znumtheory.Zmod_div_mod; try (apply pow2_pos; lia); [rewrite cast_mod by exact H; apply lane_modw; lia|]. exists (2 ^ bits t). rewrite <- Z.pow_add_r by lia. f_equal. lia. }
  rewrite <- W in L. intros i Hi. rewrite LL by exact Hi. unfold pick. destruct (Z.ltb_spec i (an e / bits v)).
  - destruct (L i ltac:(lia)) as [-> _]. apply Q.
  - destruct (L (i - an e / bits v) ltac:(lia)) as [_ ->]. replace (an e / bits v + (i - an e / bits v)) with i by lia. apply Q.
Qed.
Print Assumptions C81_round_trip.

Example C81_example : forall e, In e [Neon128; Aarch64; sve128] ->
  option_map (fun p => (aelts e i64 (fst p), aelts e i64 (snd p))) (a_upcvt 77 e (MI i32) (MI i64) (avec i32 [0; -1; 2; -3])) = Some ([0; -1], [2; -3]) /\
  option_map (aelts e u16) (a_downcvt 77 e (MI i32) (MI u16) (avec i32 [65537; -1; 2; 3]) (avec i32 [4; 5; 6; -7])) = Some [1; 65535; 2; 3; 4; 5; 6; 65529].
Proof. intros e [<-|[<-|[<-|[]]]]; (split; vm_compute; reflexivity). Qed.

(** ** C82: between integers and floats of the same width *)

(** cvt from an integer type: the float nearest to each element (C62_nearest_float). *)
Theorem C82_cvt_from_int : forall u e f t a, is_float f = true -> In t int_types -> bits t = mw f -> in_reg (an e) a ->
  exists r, a_cvt u e (MI t) f a = Some r /\ in_reg (an e) r /\
    forall i, 0 <= i < aelems e f -> pattern f r i = nearest_float (format f) (elt t a i).
Proof.
  intros u e f t a F H W Ha. destruct (a_cvt_lanes u e (MI t) f a) as (r & E & R & L).
  - split; [exact H|]. split; [destruct f; [discriminate|exact I|exact I]|symmetry; exact W].
  - exact Ha.
  - intros; destruct f; [discriminate|exact I|exact I].
  - exists r. split; [exact E|]. split; [exact R|]. intros i Hi. etransitivity; [exact (L i Hi)|]. apply l_cvt_of_int, F.
Qed.
Print Assumptions C82_cvt_from_int.

(** cvt to an integer type: truncation toward zero and saturation, for every input, also infinite or NaN, except for
    the doubles of neon128. *)
Theorem C82_cvt_to_int : forall u e f t a, is_float f = true -> In t int_types -> bits t = mw f -> in_reg (an e) a -> ~ c_casts e f ->
  exists r, a_cvt u e f (MI t) a = Some r /\ avector e t r (fun i x => saturated t (format f) (pattern f a i) x).
Proof.
  intros u e f t a F H W Ha C. destruct (a_cvt_lanes u e f (MI t) a) as (r & E & L).
  - split; [destruct f; [discriminate|exact I|exact I]|]. split; [exact H|exact W].
  - exact Ha.
  - intros; destruct f, e; try exact I. exfalso. apply C. split; reflexivity.
  - exists r. split; [exact E|]. refine (avector_lanes e t r _ _ H L _). intros i Hi. rewrite l_cvt_to_int by exact F. pose proof (fcvtz_saturated t (format f) (lane (mw f) i a) ltac:(pose proof (ty_min_max t H); lia)) as S.
    rewrite cast_id by (exact H || (eapply saturated_in; [exact H|exact S])). exact S.
Qed.
Print Assumptions C82_cvt_to_int.

(** [saturated] determines the result, and it is the truncated value whenever that value is representable. *)
Theorem C82_saturated_unique : forall t f b z z', saturated t f b z -> saturated t f b z' -> z = z'.
Proof. exact saturated_unique. Qed.
Print Assumptions C82_saturated_unique.
Theorem C82_saturated_in_range : forall t f b z, truncates f b z -> in_ty t z -> saturated t f b z.
Proof. exact truncates_saturated. Qed.
Print Assumptions C82_saturated_in_range.

(** The doubles of neon128 are converted with C casts: defined exactly when every truncated value is in range. *)
Theorem C82_cvt_f64_neon128 : forall u t a, In t int_types -> bits t = 64 -> in_reg 128 a ->
  ((forall i, 0 <= i < 2 -> castable t binary64 (pattern MF64 a i)) <-> a_cvt u Neon128 MF64 (MI t) a <> None) /\
  (forall r, a_cvt u Neon128 MF64 (MI t) a = Some r -> avector Neon128 t r (fun i x => truncates binary64 (pattern MF64 a i) x)).
Proof.
  intros u t a H W Ha.
  assert (K : (forall i, 0 <= i < 2 -> castable t binary64 (pattern MF64 a i)) -> exists r, a_cvt u Neon128 MF64 (MI t) a = Some r /\ avector Neon128 t r (fun i x => truncates binary64 (pattern MF64 a i) x)).
  { intros C. destruct (a_cvt_lanes u Neon128 MF64 (MI t) a) as (r & E & L); [split; [exact I|split; [exact H|exact W]]|exact Ha| |].
    { intros i Hi. cbn [cvt_ok]. apply (c_cast_castable MF64 t _ eq_refl). apply C. change (mw (MI t)) with (bits t) in Hi. rewrite W in Hi. exact Hi. }
    exists r. split; [exact E|]. refine (avector_lanes Neon128 t r _ _ H L _). intros i Hi. rewrite W in Hi. rewrite l_cvt_to_int by reflexivity. change (format MF64) with binary64.
    pose proof (fcvtz_saturated t binary64 (lane 64 i a) ltac:(pose proof (ty_min_max t H); lia)) as S. destruct (castable_saturated t binary64 _ _ (C i Hi) S) as [T J].
    rewrite cast_id by assumption. exact T. }
  assert (N : a_cvt u Neon128 MF64 (MI t) a <> None -> forall i, 0 <= i < 2 -> castable t binary64 (pattern MF64 a i)).
  { intros Nn i Hi. apply (c_cast_castable MF64 t _ eq_refl). intros B. apply Nn. cbn [a_cvt]. change (mw MF64 =? 64) with true. cbn match. apply (build_o_none 64 2 _ i); [exact Hi|exact B]. }
  split; [split; [intros C; destruct (K C) as (r & -> & _); discriminate|exact N]|]. intros r E. destruct (K (N ltac:(rewrite E; discriminate))) as (r' & E' & V). rewrite E in E'. injection E' as <-. exact V.
Qed.
Print Assumptions C82_cvt_f64_neon128.

(** 1.5f, -2.75f, 3e9f and a NaN; 3e9 saturates as an i32 and not as a u32. *)
Example C82_example : forall e, In e [Neon128; Aarch64; sve128] ->
  option_map (aelts e i32) (a_cvt 77 e MF32 (MI i32) (avec u32 [0x3FC00000; 0xC0300000; 0x4F32D05E; 0x7FC00000])) = Some [1; -2; 2147483647; 0] /\
  option_map (aelts e u32) (a_cvt 77 e MF32 (MI u32) (avec u32 [0x3FC00000; 0xC0300000; 0x4F32D05E; 0x7F800000])) = Some [1; 0; 3000000000; 4294967295] /\
  option_map (aelts e u32) (a_cvt 77 e (MI i32) MF32 (avec i32 [1; -2; 16777217; 16777219])) = Some [0x3F800000; 0xC0000000; 0x4B800000; 0x4B800002].
Proof. intros e [<-|[<-|[<-|[]]]]; (split; [|split]); vm_compute; reflexivity. Qed.
(** 2^63 as a double: undefined on neon128, saturated on aarch64. *)
Example C82_example_f64 : a_cvt 0 Neon128 MF64 (MI i64) (avec u64 [0x43E0000000000000; 0]) = None /\
  option_map (aelts Aarch64 i64) (a_cvt 0 Aarch64 MF64 (MI i64) (avec u64 [0x43E0000000000000; 0])) = Some [2 ^ 63 - 1; 0].
Proof. split; vm_compute; reflexivity. Qed.

(** ** C83: upcvt and downcvt with floats *)

Theorem C83_upcvt_from_int : forall u e t f a, is_float f = true -> In t int_types -> mw f = 2 * bits t ->
  exists r0 r1, a_upcvt u e (MI t) f a = Some (r0, r1) /\ in_reg (an e) r0 /\ in_reg (an e) r1 /\
    forall i, 0 <= i < aelems e f ->
      pattern f r0 i = nearest_float (format f) (elt t a i) /\ pattern f r1 i = nearest_float (format f) (elt t a (aelems e f + i)).
Proof.
  intros u e t f a F H W. destruct (up_int_ok u e t f a F H W) as ([r0 r1] & E & R0 & R1 & L). exists r0, r1. split; [exact E|]. split; [exact R0|]. split; [exact R1|].
  rewrite <- W in L. exact L.
Qed.
Print Assumptions C83_upcvt_from_int.

(** f32 to f64: exact. *)
Theorem C83_upcvt_float : forall u e a,
  exists r0 r1, a_upcvt u e MF32 MF64 a = Some (r0, r1) /\ in_reg (an e) r0 /\ in_reg (an e) r1 /\
    forall i, 0 <= i < aelems e MF64 ->
      decode binary64 (pattern MF64 r0 i) = widen64 (decode binary32 (pattern MF32 a i)) /\
      decode binary64 (pattern MF64 r1 i) = widen64 (decode binary32 (pattern MF32 a (aelems e MF64 + i))).
Proof.
  intros u e a. destruct (up_float_ok u e a) as ([r0 r1] & E & R0 & R1 & L). exists r0, r1. split; [exact E|]. split; [exact R0|]. split; [exact R1|].
  intros i Hi. destruct (L i Hi) as [L0 L1]. cbn [fst snd] in L0, L1. change (2 * 32) with 64 in L0, L1. split.
  - etransitivity; [apply f_equal; exact L0|]. apply double_of_single_ok.
  - etransitivity; [apply f_equal; exact L1|]. apply double_of_single_ok.
Qed.
Print Assumptions C83_upcvt_float.

(** f32 to 64-bit integers: truncation and saturation; with C casts on neon128. *)
Theorem C83_upcvt_to_int : forall u e v a, In v int_types -> bits v = 64 ->
  (e = Neon128 -> forall i, 0 <= i < aelems e MF32 -> castable v binary32 (pattern MF32 a i)) ->
  exists r0 r1, a_upcvt u e MF32 (MI v) a = Some (r0, r1) /\
    avector e v r0 (fun i x => saturated v binary32 (pattern MF32 a i) x) /\
    avector e v r1 (fun i x => saturated v binary32 (pattern MF32 a (an e / 64 + i)) x).
Proof.
  intros u e v a H W C. destruct (up_to_int_ok u e v a H W C) as ([r0 r1] & E & R0 & R1 & L). exists r0, r1. split; [exact E|]. cbn [fst snd] in *. change (2 * 32) with 64 in L.
  assert (P : forall x, saturated v binary32 x (cast v (fcvtz v binary32 x))).
  { intros x. pose proof (fcvtz_saturated v binary32 x ltac:(pose proof (ty_min_max v H); lia)) as S. rewrite cast_id by (exact H || (eapply saturated_in; [exact H|exact S])). exact S. }
  rewrite <- W in L. split; (eapply avector_lanes; [exact H| |]).
  - split; [exact R0|]. intros i Hi. apply (L i Hi).
  - intros i Hi. apply P.
  - split; [exact R1|]. intros i Hi. apply (L i Hi).
  - intros i Hi. rewrite <- W. apply P.
Qed.
Print Assumptions C83_upcvt_to_int.

(** f64 to f32: the nearest single. *)
Theorem C83_downcvt_float : forall u e a b,
  exists r, a_downcvt u e MF64 MF32 a b = Some r /\ in_reg (an e) r /\
    forall i, 0 <= i < aelems e MF32 -> nearest_single (pick (aelems e MF64) (pattern MF64 a) (pattern MF64 b) i) (pattern MF32 r i).
Proof.
  intros u e a b. destruct (down_float_ok u e a b) as (r & E & R & L). exists r. split; [exact E|]. split; [exact R|]. intros i Hi.
  assert (P : 0 <= pick (aelems e MF64) (pattern MF64 a) (pattern MF64 b) i < 2 ^ 64) by (unfold pick; destruct (i <? _); apply Z.mod_pos_bound; reflexivity).
  assert (Q : pattern MF32 r i = single_of_double (pick (aelems e MF64) (pattern MF64 a) (pattern MF64 b) i)) by exact (L i Hi). rewrite Q. apply single_of_double_ok, P.
Qed.
Print Assumptions C83_downcvt_float.

(** 64-bit integers to f32.  On SVE the float nearest to the integer. *)
Theorem C83_downcvt_from_int_sve : forall u eb vq t a b, In t int_types -> bits t = 64 ->
  exists r, a_downcvt u (Sve eb vq) (MI t) MF32 a b = Some r /\ in_reg (an (Sve eb vq)) r /\
    forall i, 0 <= i < aelems (Sve eb vq) MF32 -> pattern MF32 r i = nearest_float binary32 (pick (an (Sve eb vq) / 64) (elt t a) (elt t b) i).
Proof. intros u eb vq t a b H W. destruct (down_of_int_sve u (Sve eb vq) t a b H W eq_refl) as (r & E & R & L). exists r. split; [exact E|]. split; [exact R|exact L]. Qed.
Print Assumptions C83_downcvt_from_int_sve.
(** On NEON the integer is rounded twice, to a double and then to a single: the nearest float is sure only up to 2^53. *)
Theorem C83_downcvt_from_int_neon : forall u e t a b, is_neon e = true -> In t int_types -> bits t = 64 -> in_reg 128 a -> in_reg 128 b ->
  exists r, a_downcvt u e (MI t) MF32 a b = Some r /\ in_reg 128 r /\
    forall i, 0 <= i < 4 -> let z := pick 2 (elt t a) (elt t b) i in
      nearest_single (nearest_float binary64 z) (pattern MF32 r i) /\
      (Z.abs z <= 2 ^ 53 -> pattern MF32 r i = nearest_float binary32 z).
Proof.
  intros u e t a b N H W Ra Rb. assert (An : an e = 128) by (destruct e; [reflexivity|reflexivity|discriminate]). assert (S : is_sve e = false) by (destruct e; [reflexivity|reflexivity|discriminate]).
  destruct (down_of_int_neon u e t a b H W S) as (r & E & R & L); try (rewrite An; assumption). exists r. split; [exact E|]. rewrite An in *. split; [exact R|]. intros i Hi. cbv zeta.
  assert (Q : pattern MF32 r i = single_of_double (nearest_float binary64 (pick 2 (elt t a) (elt t b) i))) by exact (L i Hi). rewrite Q. split; [|apply single_of_nearest].
  apply single_of_double_ok. exact (nearest_float_range binary64 _ (good_format MF64)).
Qed.
Print Assumptions C83_downcvt_from_int_neon.
(** The i64 2^60 + 2^36 + 1 is nearest to 2^60 + 2^37 = 0x5D800001 in single precision; NEON gives 2^60. *)
Theorem C83_downcvt_nearest_refuted :
  let z := 2 ^ 60 + 2 ^ 36 + 1 in let a := avec i64 [z; 0] in
  in_reg 128 a /\ elt i64 a 0 = z /\ nearest_float binary32 z = 0x5D800001 /\
  (exists r, a_downcvt 0 sve128 (MI i64) MF32 a a = Some r /\ pattern MF32 r 0 = 0x5D800001) /\
  (exists r, a_downcvt 0 Aarch64 (MI i64) MF32 a a = Some r /\ pattern MF32 r 0 = 0x5D800000) /\
  (exists r, a_downcvt 0 Neon128 (MI i64) MF32 a a = Some r /\ pattern MF32 r 0 = 0x5D800000).
Proof.
  cbv zeta. split; [vm_compute; split; [discriminate|reflexivity]|]. split; [vm_compute; reflexivity|]. split; [vm_compute; reflexivity|].
  split; [|split]; (eexists; split; [vm_compute; reflexivity|vm_compute; reflexivity]).
Qed.
Print Assumptions C83_downcvt_nearest_refuted.

(** Floats to integers of half the width: the value is truncated and saturated in the type of the width of the float,
    and that integer is then reduced modulo the width of the target. *)
Theorem C83_downcvt_to_int : forall u e f v a b, is_float f = true -> In v int_types -> mw f = 2 * bits v -> in_reg (an e) a -> in_reg (an e) b ->
  let t := widened v (mw f) in
  (c_casts e f -> forall i, 0 <= i < aelems e f -> castable t (format f) (pattern f a i) /\ castable t (format f) (pattern f b i)) ->
  exists r, a_downcvt u e f (MI v) a b = Some r /\
    avector e v r (fun i x => exists z, saturated t (format f) (pick (aelems e f) (pattern f a) (pattern f b) i) z /\ wraps_to v z x).
Proof.
  intros u e f v a b F H W Ra Rb t C. assert (T : t = resized v (mw f)) by (unfold t, widened, resized; destruct v; reflexivity).
  assert (Wf : In (mw f) [8; 16; 32; 64]) by (destruct f; [discriminate|cbn; tauto|cbn; tauto]). destruct (resized_int v (mw f) H Wf) as [Ht Bt]. rewrite <- T in Ht, Bt.
  destruct (down_to_int_ok u e f v a b F H W Ra Rb) as (r & E & L). { rewrite <- T. exact C. } rewrite <- T in L. exists r. split; [exact E|].
  refine (avector_lanes e v r _ _ H L _). intros i Hi. cbv beta. eexists. split; [|apply cast_wraps, H]. apply fcvtz_saturated. pose proof (ty_min_max t Ht). lia.
Qed.
Print Assumptions C83_downcvt_to_int.
(** hence the truncated value when it fits the target *)
Theorem C83_downcvt_to_int_in_range : forall u e f v a b z, is_float f = true -> In v int_types -> mw f = 2 * bits v -> in_reg (an e) a -> in_reg (an e) b ->
  (forall i, 0 <= i < an e / bits v -> truncates (format f) (pick (aelems e f) (pattern f a) (pattern f b) i) (z i) /\ in_ty v (z i)) ->
  exists r, a_downcvt u e f (MI v) a b = Some r /\ avector e v r (fun i x => x = z i).
Proof.
  intros u e f v a b z F H W Ra Rb Hz. assert (Wf : In (mw f) [8; 16; 32; 64]) by (destruct f; [discriminate|cbn; tauto|cbn; tauto]).
  assert (T : widened v (mw f) = resized v (mw f)) by (unfold widened, resized; destruct v; reflexivity). destruct (resized_int v (mw f) H Wf) as [Ht Bt]. rewrite <- T in Ht, Bt.
  assert (J : forall x, in_ty v x -> in_ty (widened v (mw f)) x) by (intros x; unfold widened; rewrite W; clear -H; ty_cases H; unfold in_ty; cbn; lia).
  assert (D : double_width (MI v) f) by (split; [exact H|]; split; [destruct f; [discriminate|exact I|exact I]|exact W]). destruct (amw_2 e _ _ D) as (_ & _ & E2 & _). change (mw (MI v)) with (bits v) in E2.
  destruct (C83_downcvt_to_int u e f v a b F H W Ra Rb) as (r & E & R & V).
  { intros _ i Hi. unfold aelems in Hi. split.
    - destruct (Hz i ltac:(lia)) as [Ti Ii]. exists (z i). split; [|apply J, Ii]. unfold pick, aelems in Ti. replace (i <? an e / mw f) with true in Ti by lia. exact Ti.
    - destruct (Hz (an e / mw f + i) ltac:(lia)) as [Ti Ii]. exists (z (an e / mw f + i)). split; [|apply J, Ii]. unfold pick, aelems in Ti. replace (an e / mw f + i <? an e / mw f) with false in Ti by lia.
      replace (an e / mw f + i - an e / mw f) with i in Ti by lia. exact Ti. }
  exists r. split; [exact E|]. split; [exact R|]. intros i Hi. destruct (V i Hi) as (z' & S & Wz). destruct (Hz i Hi) as [Ti Ii].
  rewrite (saturated_unique _ _ _ z' (z i) S (truncates_saturated _ _ _ _ Ti (J _ Ii))) in Wz. apply (wraps_same v); assumption.
Qed.
Print Assumptions C83_downcvt_to_int_in_range.

(** 70000.0f to i16 wraps to 4464; 1e10f saturates to 2^31 - 1 and then wraps to -1. *)
Example C83_example : forall e, In e [Neon128; Aarch64; sve128] ->
  option_map (aelts e i16) (a_downcvt 77 e MF32 (MI i16) (avec u32 [0x4788B800; 0x501502F9; 0xC0300000; 0]) 0) = Some [4464; -1; -2; 0; 0; 0; 0; 0] /\
  option_map (fun p => (aelts e i64 (fst p), aelts e i64 (snd p))) (a_upcvt 77 e MF32 (MI i64) (avec u32 [0x4788B800; 0x501502F9; 0xC0300000; 0])) = Some ([70000; 10000000000], [-2; 0]) /\
  option_map (fun p => (aelts e u32 (fst p), aelts e u32 (snd p))) (a_upcvt 77 e (MI i16) MF32 (avec i16 [1; -2; 3; 0; 5])) = Some ([0x3F800000; 0xC0000000; 0x40400000; 0], [0x40A00000; 0; 0; 0]) /\
  option_map (fun p => aelts e u64 (snd p)) (a_upcvt 77 e MF32 MF64 (avec u32 [0; 0; 0x3FC00000; 0xFF800000])) = Some [0x3FF8000000000000; 0xFFF0000000000000].
Proof. intros e [<-|[<-|[<-|[]]]]; (split; [|split; [|split]]); vm_compute; reflexivity. Qed.

(** ** C83: f16 on NEON without NSIMD_ARM_FP16 *)

Theorem C83_cvt_to_f16 : forall t a, In t int_types -> bits t = 16 -> in_reg 128 a ->
  exists v, a_cvt_to16 t a = Some v /\ in_regs16 v /\ forall i, 0 <= i < 8 -> apattern16 v i = nearest_float binary32 (elt t a i).
Proof. intros t a H W Ha. exact (to16_ok Sse2 t a H W Ha). Qed.
Print Assumptions C83_cvt_to_f16.
(** a C cast: defined exactly in range *)
Theorem C83_cvt_from_f16 : forall t v, In t int_types -> bits t = 16 ->
  ((forall i, 0 <= i < 8 -> castable t binary32 (apattern16 v i)) <-> a_cvt_from16 t v <> None) /\
  (forall r, a_cvt_from16 t v = Some r -> avector Neon128 t r (fun i x => truncates binary32 (apattern16 v i) x)).
Proof.
  intros t v H W.
  assert (K : (forall i, 0 <= i < 8 -> castable t binary32 (apattern16 v i)) -> exists r, a_cvt_from16 t v = Some r /\ avector Neon128 t r (fun i x => truncates binary32 (apattern16 v i) x)).
  { intros C. destruct (from16_lanes t v H W C) as (r & E & L). exists r. split; [exact E|]. rewrite <- W in L. refine (avector_lanes Neon128 t r _ _ H L _). intros i Hi. rewrite W in Hi.
    pose proof (fcvtz_saturated t binary32 (apattern16 v i) ltac:(pose proof (ty_min_max t H); lia)) as S. destruct (castable_saturated t binary32 _ _ (C i Hi) S) as [T J]. rewrite cast_id by assumption. exact T. }
  assert (N : a_cvt_from16 t v <> None -> forall i, 0 <= i < 8 -> castable t binary32 (apattern16 v i)).
  { intros Nn i Hi. apply (c_cast_castable MF32 t _ eq_refl). intros B. apply Nn. unfold a_cvt_from16. apply (build_o_none 16 8 _ i); [exact Hi|exact B]. }
  split; [split; [intros C; destruct (K C) as (r & -> & _); discriminate|exact N]|]. intros r E. destruct (K (N ltac:(rewrite E; discriminate))) as (r' & E' & V). rewrite E in E'. injection E' as <-. exact V.
Qed.
Print Assumptions C83_cvt_from_f16.

Theorem C83_upcvt_from_f16 : forall u e v, is_neon e = true -> in_regs16 v ->
  exists r0 r1, a_upcvt_from16 u e MF32 v = Some (r0, r1) /\ in_reg 128 r0 /\ in_reg 128 r1 /\
    forall i, 0 <= i < 4 -> pattern MF32 r0 i = apattern16 v i /\ pattern MF32 r1 i = apattern16 v (4 + i).
Proof.
  intros u e [r0 r1] N [R0 R1]. exists r0, r1. split; [reflexivity|]. split; [exact R0|]. split; [exact R1|]. intros i Hi. unfold apattern16, pattern. cbn [fst snd].
  replace (i <? 4) with true by lia. replace (4 + i <? 4) with false by lia. replace (4 + i - 4) with i by lia. split; reflexivity.
Qed.
Print Assumptions C83_upcvt_from_f16.
Theorem C83_upcvt_f16_to_int : forall u e t v, is_neon e = true -> In t int_types -> bits t = 32 -> in_regs16 v ->
  exists r0 r1, a_upcvt_from16 u e (MI t) v = Some (r0, r1) /\
    avector e t r0 (fun i x => saturated t binary32 (apattern16 v i) x) /\ avector e t r1 (fun i x => saturated t binary32 (apattern16 v (4 + i)) x).
Proof.
  intros u e t [v0 v1] N H W [R0 R1]. cbn [fst snd] in *. assert (An : an e = 128) by (destruct e; [reflexivity|reflexivity|discriminate]).
  assert (C : ~ c_casts e MF32) by (intros [_ B]; discriminate).
  destruct (C82_cvt_to_int u e MF32 t v0 eq_refl H W) as (r0 & E0 & V0 & L0); [rewrite An; exact R0|exact C|].
  destruct (C82_cvt_to_int u e MF32 t v1 eq_refl H W) as (r1 & E1 & V1 & L1); [rewrite An; exact R1|exact C|].
  exists r0, r1. split; [cbn [a_upcvt_from16]; unfold both; cbn [fst snd]; rewrite E0; cbn [bind]; rewrite E1; reflexivity|].
  split; (split; [assumption|]); intros i Hi; pose proof Hi as Hi'; rewrite An, W in Hi'; change (128 / 32) with 4 in Hi'; unfold apattern16; cbn [fst snd].
  - replace (i <? 4) with true by lia. apply L0, Hi.
  - replace (4 + i <? 4) with false by lia. replace (4 + i - 4) with i by lia. apply L1, Hi.
Qed.
Print Assumptions C83_upcvt_f16_to_int.

Theorem C83_upcvt_to_f16 : forall e t a, is_neon e = true -> In t int_types -> bits t = 8 ->
  exists v w, a_upcvt_to16 e t a = Some (v, w) /\ in_regs16 v /\ in_regs16 w /\
    forall i, 0 <= i < 8 -> apattern16 v i = nearest_float binary32 (elt t a i) /\ apattern16 w i = nearest_float binary32 (elt t a (8 + i)).
Proof.
  intros e t a N H W. assert (An : an e = 128) by (destruct e; [reflexivity|reflexivity|discriminate]). destruct (resized_int t 16 H) as [Hr Br]; [cbn; tauto|].
  assert (D : double_width (MI t) (MI (resized t 16))) by (split; [exact H|]; split; [exact Hr|]; change (bits (resized t 16) = 2 * bits t); lia).
  pose proof (a_upcvt_int_ups e t (resized t 16) a D) as (R0 & R1 & L). unfold a_upcvt_to16. destruct (a_upcvt_int e t (resized t 16) a) as [x y]. cbn [fst snd] in *. rewrite An, W in *. change (128 / (2 * 8)) with 8 in L. change (2 * 8) with 16 in L.
  destruct (C83_cvt_to_f16 (resized t 16) x Hr Br R0) as (v & Ev & Rv & Lv). destruct (C83_cvt_to_f16 (resized t 16) y Hr Br R1) as (w & Ew & Rw & Lw).
  exists v, w. rewrite Ev. cbn [bind]. rewrite Ew. split; [reflexivity|]. split; [exact Rv|]. split; [exact Rw|].
  assert (CW : forall z, cast (resized t 16) (cast t z mod 2 ^ 16) = cast t z) by (intros z; rewrite <- Br at 2; apply cast_wider; try assumption; [unfold resized; destruct t; reflexivity|lia]).
  intros i Hi. rewrite Lv, Lw by exact Hi. destruct (L i Hi) as [L0 L1]. rewrite !elt_lane, Br, L0, L1, Br, !CW, W. split; reflexivity.
Qed.
Print Assumptions C83_upcvt_to_f16.

Theorem C83_downcvt_to_f16 : forall u e t a b, is_neon e = true -> In t int_types -> bits t = 32 -> in_reg 128 a -> in_reg 128 b ->
  exists v, a_downcvt_to16 u e (MI t) a b = Some v /\ in_regs16 v /\ forall i, 0 <= i < 8 -> apattern16 v i = nearest_float binary32 (pick 4 (elt t a) (elt t b) i).
Proof.
  intros u e t a b N H W Ra Rb. assert (An : an e = 128) by (destruct e; [reflexivity|reflexivity|discriminate]).
  destruct (C82_cvt_from_int u e MF32 t a eq_refl H W) as (x & Ex & Rx & Lx); [rewrite An; exact Ra|].
  destruct (C82_cvt_from_int u e MF32 t b eq_refl H W) as (y & Ey & Ry & Ly); [rewrite An; exact Rb|]. unfold aelems in *. rewrite An in *. change (128 / mw MF32) with 4 in *.
  exists (x, y). split; [cbn [a_downcvt_to16]; unfold both; cbn [fst snd]; rewrite Ex; cbn [bind]; rewrite Ey; reflexivity|]. split; [split; assumption|].
  intros i Hi. unfold apattern16, pick. cbn [fst snd]. destruct (Z.ltb_spec i 4); [apply Lx; lia|apply Ly; lia].
Qed.
Print Assumptions C83_downcvt_to_f16.
Theorem C83_downcvt_f32_to_f16 : forall u e a b, is_neon e = true -> in_reg 128 a -> in_reg 128 b ->
  exists v, a_downcvt_to16 u e MF32 a b = Some v /\ in_regs16 v /\ forall i, 0 <= i < 8 -> apattern16 v i = pick 4 (pattern MF32 a) (pattern MF32 b) i.
Proof. intros u e a b N Ra Rb. exists (a, b). split; [reflexivity|]. split; [split; assumption|]. intros i Hi. reflexivity. Qed.
Print Assumptions C83_downcvt_f32_to_f16.

Theorem C83_downcvt_from_f16 : forall e t v w, is_neon e = true -> In t int_types -> bits t = 8 ->
  (forall i, 0 <= i < 8 -> castable (widened t 16) binary32 (apattern16 v i) /\ castable (widened t 16) binary32 (apattern16 w i)) ->
  exists r, a_downcvt_from16 e t v w = Some r /\
    avector e t r (fun i x => exists z, truncates binary32 (pick 8 (apattern16 v) (apattern16 w) i) z /\ wraps_to t z x).
Proof.
  intros e t v w N H W C. assert (An : an e = 128) by (destruct e; [reflexivity|reflexivity|discriminate]). assert (T : widened t 16 = resized t 16) by (unfold widened, resized; destruct t; reflexivity).
  destruct (resized_int t 16 H) as [Hr Br]; [cbn; tauto|]. rewrite <- T in *. set (h := widened t 16) in *.
  destruct (from16_lanes h v Hr Br) as (x & Ex & Rx & Lx); [intros i Hi; apply (C i Hi)|]. destruct (from16_lanes h w Hr Br) as (y & Ey & Ry & Ly); [intros i Hi; apply (C i Hi)|].
  assert (D : double_width (MI t) (MI h)) by (split; [exact H|]; split; [exact Hr|]; change (bits h = 2 * bits t); lia).
  eexists. split; [unfold a_downcvt_from16; rewrite <- T; fold h; rewrite Ex; cbn [bind]; rewrite Ey; reflexivity|].
  refine (avector_lanes e t _ _ _ H (a_downcvt_int_lanes e h t x y D) _). intros i Hi. rewrite An, Br, W in *. change (128 / 16) with 8 in *. change (128 / 8) with 16 in Hi. cbv beta.
  assert (G : forall p z, castable h binary32 p -> z = fcvtz h binary32 p mod 2 ^ 16 -> exists z', truncates binary32 p z' /\ wraps_to t z' (cast t z)).
  { intros p z Cp ->. pose proof (fcvtz_saturated h binary32 p ltac:(pose proof (ty_min_max h Hr); lia)) as S. destruct (castable_saturated h binary32 _ _ Cp S) as [Tp _]. exists (fcvtz h binary32 p). split; [exact Tp|].
    rewrite (cast_congr t _ (fcvtz h binary32 p)); [apply cast_wraps, H|]. rewrite W. symmetry. apply Znumtheory.Zmod_div_mod; [reflexivity|reflexivity|exists (2 ^ 8); reflexivity]. }
  unfold pick. destruct (Z.ltb_spec i 8); apply G; try apply C; try lia; [apply Lx|apply Ly]; change (128 / 16) with 8; lia.
Qed.
Print Assumptions C83_downcvt_from_f16.

(** Reinterpreting the 16-bit integers as f16: C69 on NEON. *)
Theorem C83_reinterpret_to_f16 : forall a, in_reg 128 a ->
  exists r, a_reinterpret_to16 a = Some r /\ in_regs16 r /\ forall i, 0 <= i < 8 -> half_as_single (pattern (MI u16) a i) (apattern16 r i).
Proof. intros a Ha. exact (C69_to_f16 Sse2 a Ha). Qed.
Print Assumptions C83_reinterpret_to_f16.
Theorem C83_reinterpret_from_f16 : forall v, in_regs16 v ->
  in_reg 128 (a_reinterpret_from16 v) /\ forall i, 0 <= i < 8 -> pattern (MI u16) (a_reinterpret_from16 v) i = f32_to_u16 (apattern16 v i).
Proof. intros v Hv. exact (C69_from_f16 Sse2 v Hv). Qed.
Print Assumptions C83_reinterpret_from_f16.
Theorem C83_reinterpret_round_trip : forall a, in_reg 128 a ->
  exists v, a_reinterpret_to16 a = Some v /\ in_reg 128 (a_reinterpret_from16 v) /\
    forall i, 0 <= i < 8 ->
      let h := pattern (MI u16) a i in let h' := pattern (MI u16) (a_reinterpret_from16 v) i in
      (decode binary16 h <> FNaN -> h' = h) /\ (decode binary16 h = FNaN -> decode binary16 h' = FNaN).
Proof.
  intros a Ha. destruct (C83_reinterpret_to_f16 a Ha) as (v & E & R & V). destruct (C83_reinterpret_from_f16 v R) as [R' V'].
  exists v. split; [exact E|]. split; [exact R'|]. intros i Hi. cbv zeta. rewrite V' by exact Hi. destruct (V i Hi) as [U _].
  destruct (round_trip_l (pattern (MI u16) a i)) as (x & Ex & K1 & K2). { apply Z.mod_pos_bound. reflexivity. }
  rewrite U in Ex. injection Ex as <-. split; assumption.
Qed.
Print Assumptions C83_reinterpret_round_trip.

Theorem C83_reinterpretl_to_f16 : forall l p, alogical Neon128 u16 l p -> alogical16 (a_reinterpretl_to16 l) p.
Proof.
  intros l p [R L]. assert (O : okw 128 32) by (split; [lia|split; [lia|reflexivity]]). change (an Neon128 / bits u16) with 8 in L.
  assert (Q : forall i, 0 <= i < 8 -> (if lane 16 i l =? 0 then 0 else -1) mod 2 ^ 32 = if p i then 2 ^ 32 - 1 else 0).
  { intros i Hi. change (lane 16 i l) with ((l / 2 ^ (bits u16 * i)) mod 2 ^ bits u16). rewrite L by exact Hi. destruct (p i); reflexivity. }
  unfold a_reinterpretl_to16, aregs16. split; cbn [fst snd]; (split; [exact (in_reg_build 128 32 _ O)|]); change (an Neon128 / bits u32) with 4; intros i Hi.
  - etransitivity; [exact (lane_buildn 128 32 _ i O Hi)|]. apply Q. lia.
  - etransitivity; [exact (lane_buildn 128 32 _ i O Hi)|]. apply (Q (i + 4)). lia.
Qed.
Print Assumptions C83_reinterpretl_to_f16.
Theorem C83_reinterpretl_from_f16 : forall l p, alogical16 l p -> alogical Neon128 u16 (a_reinterpretl_from16 l) p.
Proof.
  intros l p [[R0 L0] [R1 L1]]. assert (O : okw 128 16) by (split; [lia|split; [lia|reflexivity]]). change (an Neon128 / bits u32) with 4 in L0, L1.
  split; [exact (in_reg_build 128 16 _ O)|]. change (an Neon128 / bits u16) with 8. intros i Hi. etransitivity; [exact (lane_buildn 128 16 _ i O Hi)|]. cbv beta. unfold abuf16.
  destruct (Z.ltb_spec i 4).
  - change (lane 32 i (fst l)) with ((fst l / 2 ^ (bits u32 * i)) mod 2 ^ bits u32). rewrite L0 by lia. destruct (p i); reflexivity.
  - change (lane 32 (i - 4) (snd l)) with ((snd l / 2 ^ (bits u32 * (i - 4))) mod 2 ^ bits u32). rewrite L1 by lia. replace (i - 4 + 4) with i by lia. destruct (p i); reflexivity.
Qed.
Print Assumptions C83_reinterpretl_from_f16.

Example C83_example_f16 : let a := avec i16 [1; -2; 0; 0; 5; 0; 0; -32768] in
  option_map (fun v => map (apattern16 v) [0; 1; 4; 7]) (a_cvt_to16 i16 a) = Some [0x3F800000; 0xC0000000; 0x40A00000; 0xC7000000] /\
  option_map (aelts Neon128 i16) (bind (a_cvt_to16 i16 a) (a_cvt_from16 i16)) = Some [1; -2; 0; 0; 5; 0; 0; -32768] /\
  bind (a_cvt_to16 i16 a) (a_cvt_from16 u16) = None /\
  option_map (fun v => map (apattern16 v) [0; 1; 4]) (a_reinterpret_to16 (avec u16 [0x3C00; 0xFC00; 1; 0; 0x7BFF])) = Some [0x3F800000; 0xFF800000; 0x477FE000] /\
  option_map a_reinterpret_from16 (a_reinterpret_to16 (avec u16 [0x3C00; 0xFC00; 1; 0; 0x7BFF])) = Some (avec u16 [0x3C00; 0xFC00; 1; 0; 0x7BFF]).
Proof. cbv zeta. split; [|split; [|split; [|split]]]; vm_compute; reflexivity. Qed.
