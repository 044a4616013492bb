(** C106 to C108: the POWER conversions cvt, upcvt, downcvt and the reinterpretations of f16. *)
From Coq Require Import ZArith Lia List Bool ZifyBool.
From Verif Require Import CInt BitLemmas FloatSpec FloatProofs Fp16 Fp16Spec Fp16Proofs ScalarOps ScalarSpec ScalarProofs X86Deg234 X86Arith X86ArithSpec X86LaneLemmas X86ArithProofs X86SelectProofs
  X86Mem X86MemSpec X86MemProofs X86Cvt X86CvtSpec X86CvtProofs X86CvtProofs2 X86CvtProofs3 X86CvtProofs4 PropX86Cvt
  Arm ArmSpec ArmProofs ArmPerm ArmPermSpec ArmPermProofs ArmMem ArmMemSpec ArmCvt ArmCvtSpec ArmCvtProofs ArmCvtProofs2 PropArmCvt
  Ppc PpcSpec PpcProofs PpcProofs3 PropPpc PpcMem PpcMemSpec PpcMemProofs PpcMemProofs3 PpcMemProofs4 PpcCvt PpcCvtSpec PpcCvtProofs PpcCvtProofs2.
Import ListNotations.
Open Scope Z_scope.

(** ** C106: integers to integers *)

(** upcvt: the first result holds the first half of the elements in order, the second the second half, each converted
    to the type of twice the width. *)
Theorem C106_upcvt : forall e t v a, In t int_types -> In v int_types -> bits v = 2 * bits t ->
  exists r0 r1, p_upcvt e (MI t) (MI v) a = Some (r0, r1) /\
    pvector v r0 (fun i x => wraps_to v (elt t a i) x) /\
    pvector v r1 (fun i x => wraps_to v (elt t a (128 / bits v + i)) x).
Proof.
  intros e t v a H H2 W. assert (D : double_width (MI t) (MI v)) by (split; [exact H|split; [exact H2|exact W]]).
  destruct (p_upcvt_int_ups e t v a D) as ([r0 r1] & E & R0 & R1 & L). exists r0, r1. cbn [fst snd] in *. split; [exact E|].
  rewrite <- W in L. split; (split; [assumption|]); intros i Hi; destruct (L i Hi) as [L0 L1]; apply elt_wraps; try exact H2; rewrite elt_lane; assumption.
Qed.
Print Assumptions C106_upcvt.

(** downcvt: the elements of the first argument, then those of the second, reduced to the type of half the width. *)
Theorem C106_downcvt : forall t v a b, In t int_types -> In v int_types -> bits t = 2 * bits v ->
  exists r, p_downcvt (MI t) (MI v) a b = Some r /\
    pvector v r (fun i x => wraps_to v (pick (128 / bits t) (elt t a) (elt t b) i) x).
Proof.
  intros t v a b H H2 W. pose proof (bits_cases t H) as Bt. pose proof (bits_cases v H2) as Bv.
  assert (K : exists r g, p_downcvt (MI t) (MI v) a b = Some r /\ lanes_are 128 (bits v) (fun i => g i mod 2 ^ bits v) r /\
    forall i, g i mod 2 ^ bits v = pick (128 / bits t) (fun i => lane (bits t) i a) (fun i => lane (bits t) i b) i mod 2 ^ bits v).
  { destruct (Z.eq_dec (bits t) 64) as [E|E].
    - assert (Ev : bits v = 32) by lia. destruct (down64_lanes (MI t) (MI v) a b E Ev H2) as (r & Er & L); [intros; discriminate|].
      exists r. eexists. split; [exact Er|]. rewrite Ev, E. split; [exact L|]. intros i. cbv beta. cbn [l_cvt]. apply cast_mod_lt; [exact H|lia].
    - eexists. eexists. split; [unfold p_downcvt; change (mw (MI t)) with (bits t); replace (bits t =? 64) with false by lia; reflexivity|].
      assert (E2 : bits v = bits t / 2) by (rewrite W, Z.mul_comm, Z.div_mul; lia). rewrite E2. split; [apply pack_lanes; lia|]. reflexivity. }
  destruct K as (r & g & E & L & G). exists r. split; [exact E|]. refine (pv_lanes v r g _ H2 L _). intros i Hi.
  rewrite (cast_congr v _ (pick (128 / bits t) (elt t a) (elt t b) i)); [apply cast_wraps, H2|]. rewrite G.
  unfold pick. destruct (i <? 128 / bits t); rewrite elt_lane; symmetry; apply cast_mod_lt; try exact H; lia.
Qed.
Print Assumptions C106_downcvt.

Theorem C106_cvt : forall e t v a, In t int_types -> In v int_types -> bits v = bits t -> in_reg 128 a ->
  exists r, p_cvt e (MI t) (MI v) a = Some r /\ pvector v r (fun i x => wraps_to v (elt t a i) x).
Proof.
  intros e t v a H H2 W Ha.
  assert (K : exists r, p_cvt e (MI t) (MI v) a = Some r /\ lanes_are 128 (bits v) (fun i => cast t (lane (bits t) i a) mod 2 ^ bits v) r).
  { destruct (pair_of e (MI v)) eqn:P.
    - pose proof (pair_width e (MI v) P) as W2. change (mw (MI v)) with (bits v) in W2.
      destruct (cvt_emulated e (MI t) (MI v) a P) as (r & E & L); try assumption; [change (bits t = 64); lia|intros; discriminate|].
      exists r. split; [exact E|]. rewrite W2. replace (bits t) with 64 by lia. exact L.
    - exists a. split; [unfold p_cvt; rewrite P; reflexivity|]. split; [exact Ha|]. intros i Hi. rewrite W, cast_mod by exact H. symmetry. apply lane_modw. pose proof (bits_pos t H). lia. }
  destruct K as (r & E & L). exists r. split; [exact E|]. refine (pv_lanes v r _ _ H2 L _). intros i Hi. rewrite elt_lane. apply cast_wraps, H2.
Qed.
Print Assumptions C106_cvt.

(** Narrowing what was widened gives back the vector. *)
Theorem C106_round_trip : forall e t v a, In t int_types -> In v int_types -> bits v = 2 * bits t -> in_reg 128 a ->
  exists r0 r1, p_upcvt e (MI t) (MI v) a = Some (r0, r1) /\ p_downcvt (MI v) (MI t) r0 r1 = Some a.
Proof.
  intros e t v a H H2 W Ha. destruct (C106_upcvt e t v a H H2 W) as (r0 & r1 & E & [R0 L0] & [R1 L1]). exists r0, r1. split; [exact E|].
  destruct (C106_downcvt v t r0 r1 H2 H W) as (r & E2 & R & L). rewrite E2. f_equal. apply (lanes_eq 128 (bits t)); [apply pok, H|exact R|exact Ha|].
  pose proof (bits_cases t H) as Bt. pose proof (bits_cases v H2) as Bv. pose proof (pow2_pos (bits t) ltac:(lia)) as Pt.
  assert (M : forall y z, wraps_to t y z -> z mod 2 ^ bits t = y mod 2 ^ bits t) by (intros y z Wz; rewrite (wraps_cast t y z H Wz); apply cast_mod, H).
  assert (Q : forall x y z, wraps_to v y x -> wraps_to t x z -> wraps_to t y z).
  { intros x y z Wx Wz. rewrite (wraps_cast t x z H Wz), (wraps_cast v y x H2 Wx). rewrite (cast_congr t _ y); [apply cast_wraps, H|]. apply cast_mod_lt; [exact H2|lia]. }
  assert (N : 128 / bits t = 2 * (128 / bits v)). { assert (Wt : bits t = 8 \/ bits t = 16 \/ bits t = 32) by lia. destruct (mem_2 (bits t) Wt) as (_ & _ & N & _). rewrite W. exact N. }
  assert (EL : forall x i, lane (bits t) i x = elt t x i mod 2 ^ bits t) by (intros x i; rewrite elt_lane, cast_mod by exact H; symmetry; apply lane_modw; lia).
  intros i Hi. rewrite !EL. specialize (L i Hi). unfold pick in L. destruct (Z.ltb_spec i (128 / bits v)).
  - apply M. apply (Q _ _ _ (L0 i ltac:(lia)) L).
  - specialize (Q _ _ _ (L1 (i - 128 / bits v) ltac:(lia)) L). apply M in Q. rewrite Q. f_equal. f_equal. lia.
Qed.
Print Assumptions C106_round_trip.

Example C106_example : forall e, In e [Vmx; Vsx] ->
  option_map (fun p => (pelts i64 (fst p), pelts i64 (snd p))) (p_upcvt e (MI i32) (MI i64) (pvec i32 [0; -1; 2; -3])) = Some ([0; -1], [2; -3]) /\
  option_map (fun p => (pelts i16 (fst p), pelts i16 (snd p))) (p_upcvt e (MI u8) (MI i16) (pvec u8 [0; 255; 2; 3; 4; 5; 6; 128; 8])) =
    Some ([0; 255; 2; 3; 4; 5; 6; 128], [8; 0; 0; 0; 0; 0; 0; 0]) /\
  option_map (pelts u16) (p_downcvt (MI i32) (MI u16) (pvec i32 [65537; -1; 2; 3]) (pvec i32 [4; 5; 6; -7])) = Some [1; 65535; 2; 3; 4; 5; 6; 65529].
Proof. intros e [<-|[<-|[]]]; (split; [|split]; vm_compute; reflexivity). Qed.

(** ** C107: between integers and floats of the same width *)

(** cvt from an integer type: the float nearest to each element (C62_nearest_float). *)
Theorem C107_cvt_from_int : forall e f t a, is_float f = true -> In t int_types -> bits t = mw f -> in_reg 128 a ->
  exists r, p_cvt e (MI t) f a = Some r /\ in_reg 128 r /\
    forall i, 0 <= i < pelems f -> pattern f r i = nearest_float (format f) (elt t a i).
Proof. intros e f t a F H W Ha. destruct (cvt_from_int_lanes e t f a F H W Ha) as (r & E & R & L). exists r. split; [exact E|]. split; [exact R|exact L]. Qed.
Print Assumptions C107_cvt_from_int.

(** cvt to an integer type: truncation toward zero and saturation, for every input, also infinite or NaN, except for
    the doubles of vmx. *)
Theorem C107_cvt_to_int : forall e f t a, is_float f = true -> In t int_types -> bits t = mw f -> ~ (e = Vmx /\ f = MF64) ->
  exists r, p_cvt e f (MI t) a = Some r /\ pvector t r (fun i x => p_saturated t (format f) (pattern f a i) x).
Proof.
  intros e f t a F H W C. destruct (cvt_to_int_native e t f a F H W) as (r & E & L).
  - destruct e; [|reflexivity]. destruct f; [discriminate|reflexivity|]. exfalso. apply C. split; reflexivity.
  - exists r. split; [exact E|]. refine (pv_lanes t r _ _ H L _). intros i Hi. destruct (ct1_ok t (format f) (lane (mw f) i a) H) as [S J]. rewrite cast_id by assumption. exact S.
Qed.
Print Assumptions C107_cvt_to_int.
(** [p_saturated] determines the result, and it is the truncated value whenever that value is representable. *)
Theorem C107_saturated_unique : forall t f b z z', p_saturated t f b z -> p_saturated t f b z' -> z = z'.
Proof.
  intros t f b z z' H H'. pose proof (saturated_unique t f b z z') as U. unfold p_saturated, saturated in *. destruct (decode f b); congruence.
Qed.
Print Assumptions C107_saturated_unique.
Theorem C107_saturated_in_range : forall t f b z, truncates f b z -> in_ty t z -> p_saturated t f b z.
Proof. intros t f b z T J. pose proof (truncates_saturated t f b z T J) as S. destruct T as (s & m & D & _). unfold p_saturated, saturated in *. rewrite D in *. exact S. Qed.
Print Assumptions C107_saturated_in_range.

(** The doubles of vmx are converted with C casts: defined exactly when every truncated value is in range. *)
Theorem C107_cvt_f64_vmx : forall t a, In t int_types -> bits t = 64 -> in_reg 128 a ->
  ((forall i, 0 <= i < 2 -> castable t binary64 (pattern MF64 a i)) <-> p_cvt Vmx MF64 (MI t) a <> None) /\
  (forall r, p_cvt Vmx MF64 (MI t) a = Some r -> pvector t r (fun i x => truncates binary64 (pattern MF64 a i) x)).
Proof.
  intros t a H W Ha. assert (P : pair_of Vmx (MI t) = true) by (cbn [pair_of]; change (mw (MI t)) with (bits t); lia).
  assert (K : (forall i, 0 <= i < 2 -> castable t binary64 (pattern MF64 a i)) -> exists r, p_cvt Vmx MF64 (MI t) a = Some r /\ pvector t r (fun i x => truncates binary64 (pattern MF64 a i) x)).
  { intros C. destruct (cvt_emulated Vmx MF64 (MI t) a P eq_refl Ha H I) as (r & E & L).
    { intros i Hi. apply (c_cast_castable MF64 t _ eq_refl). apply (C i Hi). }
    exists r. split; [exact E|]. refine (pv_lanes t r (fun i => l_cvt MF64 (MI t) (lane 64 i a)) _ H ltac:(rewrite W; exact L) _). intros i Hi. rewrite W in Hi. rewrite l_cvt_to_int by reflexivity. change (format MF64) with binary64.
    pose proof (fcvtz_saturated t binary64 (lane 64 i a) ltac:(pose proof (ty_min_max t H); lia)) as S. destruct (castable_saturated t binary64 _ _ (C i Hi) S) as [T J].
    rewrite cast_id by assumption. exact T. }
  assert (N : p_cvt Vmx MF64 (MI t) a <> None -> forall i, 0 <= i < 2 -> castable t binary64 (pattern MF64 a i)).
  { intros Nn i Hi. apply (c_cast_castable MF64 t _ eq_refl). intros B. apply Nn. unfold p_cvt. rewrite P. apply (emu64_none _ i Hi). apply cast_elt_none. exact B. }
  split; [split; [intros C; destruct (K C) as (r & -> & _); discriminate|exact N]|]. intros r E. destruct (K (N ltac:(rewrite E; discriminate))) as (r' & E' & V). rewrite E in E'. injection E' as <-. exact V.
Qed.
Print Assumptions C107_cvt_f64_vmx.

(** 1.5f, -2.75f, 3e9f and a NaN; 3e9 saturates as an i32 and not as a u32. *)
Example C107_example : forall e, In e [Vmx; Vsx] ->
  option_map (pelts i32) (p_cvt e MF32 (MI i32) (pvec u32 [0x3FC00000; 0xC0300000; 0x4F32D05E; 0x7FC00000])) = Some [1; -2; 2147483647; 0] /\
  option_map (pelts u32) (p_cvt e MF32 (MI u32) (pvec u32 [0x3FC00000; 0xC0300000; 0x4F32D05E; 0x7F800000])) = Some [1; 0; 3000000000; 4294967295] /\
  option_map (pelts u32) (p_cvt e (MI i32) MF32 (pvec i32 [1; -2; 16777217; 16777219])) = Some [0x3F800000; 0xC0000000; 0x4B800000; 0x4B800002].
Proof. intros e [<-|[<-|[]]]; (split; [|split]); vm_compute; reflexivity. Qed.
(** 2^63 and a NaN as doubles: undefined on vmx; saturated and the least integer on vsx. *)
Example C107_example_f64 : p_cvt Vmx MF64 (MI i64) (pvec u64 [0x43E0000000000000; 0]) = None /\
  option_map (pelts i64) (p_cvt Vsx MF64 (MI i64) (pvec u64 [0x43E0000000000000; 0x7FF8000000000000])) = Some [2 ^ 63 - 1; - 2 ^ 63].
Proof. split; vm_compute; reflexivity. Qed.

(** ** C108: upcvt and downcvt with floats, f16 *)

Theorem C108_upcvt_from_int : forall e t f a, is_float f = true -> In t int_types -> mw f = 2 * bits t ->
  exists r0 r1, p_upcvt e (MI t) f a = Some (r0, r1) /\ in_reg 128 r0 /\ in_reg 128 r1 /\
    forall i, 0 <= i < pelems f ->
      pattern f r0 i = nearest_float (format f) (elt t a i) /\ pattern f r1 i = nearest_float (format f) (elt t a (pelems f + i)).
Proof.
  intros e t f a F H W. assert (Wf : In (mw f) [8; 16; 32; 64]) by (destruct f; [discriminate|cbn; tauto|cbn; tauto]). destruct (resized_int t (mw f) H Wf) as [Hs Bs].
  set (s := resized t (mw f)) in *. assert (D : double_width (MI t) (MI s)) by (split; [exact H|split; [exact Hs|]]; change (bits s = 2 * bits t); lia).
  destruct (p_upcvt_int_ups e t s a D) as ([x y] & E & Rx & Ry & L). cbn [fst snd] in *.
  destruct (cvt_from_int_lanes e s f x F Hs Bs Rx) as (r0 & E0 & R0 & L0). destruct (cvt_from_int_lanes e s f y F Hs Bs Ry) as (r1 & E1 & R1 & L1).
  exists r0, r1. split. { destruct f; [discriminate| |]; cbn [p_upcvt]; fold s; rewrite E; cbn [bind]; unfold both; cbn [fst snd]; rewrite E0; cbn [bind]; rewrite E1; reflexivity. }
  split; [exact R0|]. split; [exact R1|]. rewrite <- W in L. unfold pelems.
  assert (CW : forall z, cast s (cast t z mod 2 ^ bits s) = cast t z) by (intros z; apply cast_wider; try assumption; [unfold s, resized; destruct t; reflexivity|pose proof (bits_pos t H); lia]).
  intros i Hi. destruct (L i Hi) as [Lx Ly]. split.
  - etransitivity; [exact (L0 i Hi)|]. f_equal. rewrite (elt_lane s), (elt_lane t), Bs, Lx. apply CW.
  - etransitivity; [exact (L1 i Hi)|]. f_equal. rewrite (elt_lane s), (elt_lane t), Bs, Ly. apply CW.
Qed.
Print Assumptions C108_upcvt_from_int.

Lemma up32 e to a : mem_type to -> mw to = 64 -> (forall i, 0 <= i < 4 -> c_cast MF32 to (lane 32 i a) <> None) ->
  exists r0 r1, p_upcvt e MF32 to a = Some (r0, r1) /\ lanes_are 128 64 (fun i => l_cvt MF32 to (lane 32 i a) mod 2 ^ 64) r0 /\
    lanes_are 128 64 (fun i => l_cvt MF32 to (lane 32 (2 + i) a) mod 2 ^ 64) r1.
Proof.
  intros H W D. destruct (fill_casts e MF32 to (fun i => lane 32 i a) H) as (r0 & E0 & L0); [rewrite W; intros i Hi; apply D; change (128 / 64) with 2 in Hi; lia|].
  destruct (fill_casts e MF32 to (fun i => lane 32 (i + 2) a) H) as (r1 & E1 & L1); [rewrite W; intros i Hi; apply D; change (128 / 64) with 2 in Hi; lia|].
  exists r0, r1. split. { destruct to; cbn [p_upcvt]; rewrite E0; cbn [bind]; rewrite E1; reflexivity. }
  rewrite W in L0, L1. split; [exact L0|]. destruct L1 as [R1 L1]. split; [exact R1|]. intros i Hi. rewrite (Z.add_comm 2 i). exact (L1 i Hi).
Qed.

(** f32 to f64: exact. *)
Theorem C108_upcvt_float : forall e a,
  exists r0 r1, p_upcvt e MF32 MF64 a = Some (r0, r1) /\ in_reg 128 r0 /\ in_reg 128 r1 /\
    forall i, 0 <= i < 2 ->
      decode binary64 (pattern MF64 r0 i) = widen64 (decode binary32 (pattern MF32 a i)) /\
      decode binary64 (pattern MF64 r1 i) = widen64 (decode binary32 (pattern MF32 a (2 + i))).
Proof.
  intros e a. destruct (up32 e MF64 a I eq_refl) as (r0 & r1 & E & [R0 L0] & [R1 L1]); [intros; discriminate|]. exists r0, r1. split; [exact E|]. split; [exact R0|]. split; [exact R1|].
  intros i Hi. change (128 / 64) with 2 in L0, L1. cbn [l_cvt] in L0, L1. split.
  - etransitivity; [apply f_equal; exact (L0 i Hi)|]. destruct (double_of_single_ok (lane 32 i a)) as [A B]. rewrite (Z.mod_small (double_of_single _)) by exact B. exact A.
  - etransitivity; [apply f_equal; exact (L1 i Hi)|]. destruct (double_of_single_ok (lane 32 (2 + i) a)) as [A B]. rewrite (Z.mod_small (double_of_single _)) by exact B. exact A.
Qed.
Print Assumptions C108_upcvt_float.

(** f32 to 64-bit integers: C casts, defined exactly when every truncated value is in range. *)
Theorem C108_upcvt_to_int : forall e v a, In v int_types -> bits v = 64 ->
  ((forall i, 0 <= i < 4 -> castable v binary32 (pattern MF32 a i)) <-> p_upcvt e MF32 (MI v) a <> None) /\
  (forall r0 r1, p_upcvt e MF32 (MI v) a = Some (r0, r1) ->
    pvector v r0 (fun i x => truncates binary32 (pattern MF32 a i) x) /\
    pvector v r1 (fun i x => truncates binary32 (pattern MF32 a (2 + i)) x)).
Proof.
  intros e v a H W.
  assert (K : (forall i, 0 <= i < 4 -> castable v binary32 (pattern MF32 a i)) -> exists r0 r1, p_upcvt e MF32 (MI v) a = Some (r0, r1) /\
     pvector v r0 (fun i x => truncates binary32 (pattern MF32 a i) x) /\ pvector v r1 (fun i x => truncates binary32 (pattern MF32 a (2 + i)) x)).
  { intros C. destruct (up32 e (MI v) a H W) as (r0 & r1 & E & L0 & L1).
    { intros i Hi. apply (c_cast_castable MF32 v _ eq_refl). apply (C i Hi). }
    exists r0, r1. split; [exact E|]. 
    assert (T : forall k, 0 <= k < 4 -> truncates binary32 (pattern MF32 a k) (cast v (l_cvt MF32 (MI v) (lane 32 k a)))).
    { intros k Hk. rewrite l_cvt_to_int by reflexivity. change (format MF32) with binary32.
      pose proof (fcvtz_saturated v binary32 (lane 32 k a) ltac:(pose proof (ty_min_max v H); lia)) as S. destruct (castable_saturated v binary32 _ _ (C k Hk) S) as [T J].
      rewrite cast_id by assumption. exact T. }
    split; [refine (pv_lanes v r0 (fun i => l_cvt MF32 (MI v) (lane 32 i a)) _ H ltac:(rewrite W; exact L0) _)|refine (pv_lanes v r1 (fun i => l_cvt MF32 (MI v) (lane 32 (2 + i) a)) _ H ltac:(rewrite W; exact L1) _)]; intros i Hi; rewrite W in Hi; change (128 / 64) with 2 in Hi; apply T; lia. }
  assert (N : p_upcvt e MF32 (MI v) a <> None -> forall i, 0 <= i < 4 -> castable v binary32 (pattern MF32 a i)).
  { intros Nn i Hi. apply (c_cast_castable MF32 v _ eq_refl). intros B. apply Nn. cbn [p_upcvt].
    destruct (Z_lt_dec i 2).
    - rewrite (fill_none e (MI v) _ i H); [reflexivity|change (mw (MI v)) with (bits v); rewrite W; change (128 / 64) with 2; lia|]. apply cast_elt_none. exact B.
    - rewrite (fill_none e (MI v) (fun i => cast_elt MF32 (MI v) (lane 32 (i + 2) a)) (i - 2) H); [destruct (fill e _ _); reflexivity|change (mw (MI v)) with (bits v); rewrite W; change (128 / 64) with 2; lia|].
      cbv beta. replace (i - 2 + 2) with i by lia. apply cast_elt_none. exact B. }
  split; [split; [intros C; destruct (K C) as (r0 & r1 & -> & _); discriminate|exact N]|]. intros r0 r1 E. destruct (K (N ltac:(rewrite E; discriminate))) as (x & y & E' & V). rewrite E in E'. injection E' as <- <-. exact V.
Qed.
Print Assumptions C108_upcvt_to_int.

(** f64 to f32: the nearest single. *)
Theorem C108_downcvt_float : forall a b,
  exists r, p_downcvt MF64 MF32 a b = Some r /\ in_reg 128 r /\
    forall i, 0 <= i < 4 -> nearest_single (pick 2 (pattern MF64 a) (pattern MF64 b) i) (pattern MF32 r i).
Proof.
  intros a b. destruct (down64_lanes MF64 MF32 a b eq_refl eq_refl I) as (r & E & R & L); [intros; discriminate|]. exists r. split; [exact E|]. split; [exact R|]. intros i Hi.
  assert (P : 0 <= pick 2 (pattern MF64 a) (pattern MF64 b) i < 2 ^ 64) by (unfold pick; destruct (i <? _); apply Z.mod_pos_bound; reflexivity).
  destruct (single_of_double_ok _ P) as [A B]. assert (Q : pattern MF32 r i = single_of_double (pick 2 (pattern MF64 a) (pattern MF64 b) i)).
  { etransitivity; [exact (L i Hi)|]. cbn [l_cvt]. apply Z.mod_small. exact B. }
  rewrite Q. exact A.
Qed.
Print Assumptions C108_downcvt_float.

(** 64-bit integers to f32: rounded once. *)
Theorem C108_downcvt_from_int : forall t a b, In t int_types -> bits t = 64 ->
  exists r, p_downcvt (MI t) MF32 a b = Some r /\ in_reg 128 r /\
    forall i, 0 <= i < 4 -> pattern MF32 r i = nearest_float binary32 (pick 2 (elt t a) (elt t b) i).
Proof.
  intros t a b H W. destruct (down64_lanes (MI t) MF32 a b W eq_refl I) as (r & E & R & L); [intros; discriminate|]. exists r. split; [exact E|]. split; [exact R|]. intros i Hi.
  etransitivity; [exact (L i Hi)|]. change (2 ^ 32) with (2 ^ mw MF32). rewrite (l_cvt_of_int t MF32 _ eq_refl). change (format MF32) with binary32. f_equal.
  unfold pick. destruct (i <? 2); rewrite elt_lane, W; reflexivity.
Qed.
Print Assumptions C108_downcvt_from_int.

(** f64 to 32-bit integers: C casts. *)
Theorem C108_downcvt_f64_to_int : forall v a b, In v int_types -> bits v = 32 ->
  ((forall i, 0 <= i < 4 -> castable v binary64 (pick 2 (pattern MF64 a) (pattern MF64 b) i)) <-> p_downcvt MF64 (MI v) a b <> None) /\
  (forall r, p_downcvt MF64 (MI v) a b = Some r -> pvector v r (fun i x => truncates binary64 (pick 2 (pattern MF64 a) (pattern MF64 b) i) x)).
Proof.
  intros v a b H W.
  assert (K : (forall i, 0 <= i < 4 -> castable v binary64 (pick 2 (pattern MF64 a) (pattern MF64 b) i)) ->
     exists r, p_downcvt MF64 (MI v) a b = Some r /\ pvector v r (fun i x => truncates binary64 (pick 2 (pattern MF64 a) (pattern MF64 b) i) x)).
  { intros C. destruct (down64_lanes MF64 (MI v) a b eq_refl W H) as (r & E & L).
    { intros i Hi. apply (c_cast_castable MF64 v _ eq_refl). apply (C i Hi). }
    exists r. split; [exact E|]. refine (pv_lanes v r (fun i => l_cvt MF64 (MI v) (pick 2 (fun i => lane 64 i a) (fun i => lane 64 i b) i)) _ H ltac:(rewrite W; exact L) _). intros i Hi. rewrite W in Hi. change (128 / 32) with 4 in Hi.
    rewrite l_cvt_to_int by reflexivity. change (format MF64) with binary64.
    pose proof (fcvtz_saturated v binary64 (pick 2 (fun i => lane 64 i a) (fun i => lane 64 i b) i) ltac:(pose proof (ty_min_max v H); lia)) as S.
    destruct (castable_saturated v binary64 _ _ (C i Hi) S) as [T J]. rewrite cast_id by assumption. exact T. }
  assert (N : p_downcvt MF64 (MI v) a b <> None -> forall i, 0 <= i < 4 -> castable v binary64 (pick 2 (pattern MF64 a) (pattern MF64 b) i)).
  { intros Nn i Hi. apply (c_cast_castable MF64 v _ eq_refl). intros B. apply Nn. apply (down64_none MF64 (MI v) a b i eq_refl W H Hi B). }
  split; [split; [intros C; destruct (K C) as (r & -> & _); discriminate|exact N]|]. intros r E. destruct (K (N ltac:(rewrite E; discriminate))) as (r' & E' & V). rewrite E in E'. injection E' as <-. exact V.
Qed.
Print Assumptions C108_downcvt_f64_to_int.

(** f32 to 16-bit integers: truncated and saturated in 32 bits, and then reduced modulo 2^16. *)
Theorem C108_downcvt_f32_to_int : forall v a b, In v int_types -> bits v = 16 ->
  exists r, p_downcvt MF32 (MI v) a b = Some r /\
    pvector v r (fun i x => exists z, saturated (widened v 32) binary32 (pick 4 (pattern MF32 a) (pattern MF32 b) i) z /\ wraps_to v z x).
Proof.
  intros v a b H W. destruct (resized_int v 32 H) as [Hr Br]; [cbn; tauto|]. assert (T : widened v 32 = resized v 32) by (unfold widened, resized; destruct v; reflexivity). rewrite T.
  eexists. split; [reflexivity|]. pose proof (pack_ct_lanes (resized v 32) a b Hr Br) as L. rewrite <- W in L. refine (pv_lanes v _ _ _ H L _). intros i Hi. cbv beta.
  eexists. split; [|apply cast_wraps, H]. rewrite ct1_fcvtz by lia. apply fcvtz_saturated. pose proof (ty_min_max _ Hr). lia.
Qed.
Print Assumptions C108_downcvt_f32_to_int.
(** hence the truncated value when it fits the target *)
Theorem C108_downcvt_f32_in_range : forall v a b z, In v int_types -> bits v = 16 ->
  (forall i, 0 <= i < 8 -> truncates binary32 (pick 4 (pattern MF32 a) (pattern MF32 b) i) (z i) /\ in_ty v (z i)) ->
  exists r, p_downcvt MF32 (MI v) a b = Some r /\ pvector v r (fun i x => x = z i).
Proof.
  intros v a b z H W Hz. destruct (C108_downcvt_f32_to_int v a b H W) as (r & E & R & V). exists r. split; [exact E|]. split; [exact R|].
  assert (J : forall x, in_ty v x -> in_ty (widened v 32) x) by (intros x; unfold widened; clear -H W; ty_cases H; try discriminate; unfold in_ty; cbn; lia).
  intros i Hi. destruct (V i Hi) as (y & S & Wy). rewrite W in Hi. change (128 / 16) with 8 in Hi. destruct (Hz i Hi) as [Ti Ii].
  rewrite (saturated_unique _ _ _ y (z i) S (truncates_saturated _ _ _ _ Ti (J _ Ii))) in Wy. apply (wraps_same v); assumption.
Qed.
Print Assumptions C108_downcvt_f32_in_range.

(** *** f16 *)
Theorem C108_cvt_to_f16 : forall t a, In t int_types -> bits t = 16 ->
  in_regs16 (p_cvt_to16 t a) /\ forall i, 0 <= i < 8 -> apattern16 (p_cvt_to16 t a) i = nearest_float binary32 (elt t a i).
Proof. exact p_cvt_to16_ok. Qed.
Print Assumptions C108_cvt_to_f16.
Theorem C108_cvt_from_f16 : forall t v, In t int_types -> bits t = 16 ->
  pvector t (p_cvt_from16 t v) (fun i x => exists z, saturated (widened t 32) binary32 (apattern16 v i) z /\ wraps_to t z x).
Proof.
  intros t v H W. destruct (resized_int t 32 H) as [Hr Br]; [cbn; tauto|]. assert (T : widened t 32 = resized t 32) by (unfold widened, resized; destruct t; reflexivity). rewrite T.
  pose proof (from16_pack (resized t 32) v Hr Br) as L. rewrite <- W in L. refine (pv_lanes t _ _ _ H L _). intros i Hi. cbv beta.
  eexists. split; [|apply cast_wraps, H]. rewrite ct1_fcvtz by lia. apply fcvtz_saturated. pose proof (ty_min_max _ Hr). lia.
Qed.
Print Assumptions C108_cvt_from_f16.
Theorem C108_cvt_from_f16_in_range : forall t v z, In t int_types -> bits t = 16 ->
  (forall i, 0 <= i < 8 -> truncates binary32 (apattern16 v i) (z i) /\ in_ty t (z i)) -> pvector t (p_cvt_from16 t v) (fun i x => x = z i).
Proof.
  intros t v z H W Hz. destruct (C108_cvt_from_f16 t v H W) as [R V]. split; [exact R|].
  assert (J : forall x, in_ty t x -> in_ty (widened t 32) x) by (intros x; unfold widened; clear -H W; ty_cases H; try discriminate; unfold in_ty; cbn; lia).
  intros i Hi. destruct (V i Hi) as (y & S & Wy). rewrite W in Hi. change (128 / 16) with 8 in Hi. destruct (Hz i Hi) as [Ti Ii].
  rewrite (saturated_unique _ _ _ y (z i) S (truncates_saturated _ _ _ _ Ti (J _ Ii))) in Wy. apply (wraps_same t); assumption.
Qed.
Print Assumptions C108_cvt_from_f16_in_range.

Theorem C108_upcvt_from_f16 : forall v, in_regs16 v -> let r := p_upcvt_from16 MF32 v in in_reg 128 (fst r) /\ in_reg 128 (snd r) /\
    forall i, 0 <= i < 4 -> pattern MF32 (fst r) i = apattern16 v i /\ pattern MF32 (snd r) i = apattern16 v (4 + i).
Proof.
  intros [r0 r1] [R0 R1]. cbv zeta. cbn [p_upcvt_from16 fst snd]. split; [exact R0|]. split; [exact R1|]. intros i Hi. unfold apattern16, pattern. cbn [fst snd].
  replace (i <? 4) with true by lia. replace (4 + i <? 4) with false by lia. replace (4 + i - 4) with i by lia. split; reflexivity.
Qed.
Print Assumptions C108_upcvt_from_f16.
Theorem C108_upcvt_f16_to_int : forall t v, In t int_types -> bits t = 32 -> let r := p_upcvt_from16 (MI t) v in
    pvector t (fst r) (fun i x => saturated t binary32 (apattern16 v i) x) /\ pvector t (snd r) (fun i x => saturated t binary32 (apattern16 v (4 + i)) x).
Proof.
  intros t [v0 v1] H W. cbv zeta. cbn [p_upcvt_from16 fst snd].
  assert (K : forall a b, saturated t binary32 (lane 32 b a) (cast t (vec_ct1 t (mfmt MF32) (lane (bits t) b a)))).
  { intros a b. rewrite W. change (mfmt MF32) with binary32. rewrite ct1_fcvtz by lia. pose proof (fcvtz_saturated t binary32 (lane 32 b a) ltac:(pose proof (ty_min_max t H); lia)) as S.
    rewrite cast_id by (exact H || exact (saturated_in _ _ _ _ H S)). exact S. }
  split; (refine (pv_lanes t _ _ _ H (ct_lanes t MF32 _ H) _)); intros i Hi; rewrite W in Hi; change (128 / 32) with 4 in Hi; unfold apattern16; cbn [fst snd].
  - replace (i <? 4) with true by lia. apply K.
  - replace (4 + i <? 4) with false by lia. replace (4 + i - 4) with i by lia. apply K.
Qed.
Print Assumptions C108_upcvt_f16_to_int.
Theorem C108_upcvt_to_f16 : forall e t a, In t int_types -> bits t = 8 ->
  exists v w, p_upcvt_to16 e t a = Some (v, w) /\ in_regs16 v /\ in_regs16 w /\
    forall i, 0 <= i < 8 -> apattern16 v i = nearest_float binary32 (elt t a i) /\ apattern16 w i = nearest_float binary32 (elt t a (8 + i)).
Proof.
  intros e t a H W. assert (H16 : In i16 int_types) by (cbn; tauto).
  assert (D : double_width (MI t) (MI i16)) by (split; [exact H|]; split; [exact H16|]; change (16 = 2 * bits t); lia).
  destruct (p_upcvt_int_ups e t i16 a D) as ([x y] & E & R0 & R1 & L). cbn [fst snd] in *. rewrite W in L. change (128 / (2 * 8)) with 8 in L. change (2 * 8) with 16 in L. change (bits i16) with 16 in L.
  destruct (C108_cvt_to_f16 i16 x H16 eq_refl) as [Rv Lv]. destruct (C108_cvt_to_f16 i16 y H16 eq_refl) as [Rw Lw].
  exists (p_cvt_to16 i16 x), (p_cvt_to16 i16 y). split; [unfold p_upcvt_to16; rewrite E; reflexivity|]. split; [exact Rv|]. split; [exact Rw|].
  assert (CW : forall z, cast i16 (cast t z mod 2 ^ 16) = cast t z).
  { intros z. rewrite (cast_congr i16 _ (cast t z)) by (apply Z.mod_mod; discriminate). apply cast_id; [exact H16|]. pose proof (cast_in_ty t z H) as Cr. unfold in_ty in *. clear -H W Cr. ty_cases H; try discriminate; cbn in *; lia. }
  intros i Hi. rewrite Lv, Lw by exact Hi. destruct (L i Hi) as [L0 L1]. split; f_equal; rewrite (elt_lane i16), (elt_lane t), W; change (bits i16) with 16; [rewrite L0|rewrite L1]; apply CW.
Qed.
Print Assumptions C108_upcvt_to_f16.
Theorem C108_downcvt_to_f16 : forall t a b, In t int_types -> bits t = 32 -> let v := p_downcvt_to16 (MI t) a b in
  in_regs16 v /\ forall i, 0 <= i < 8 -> apattern16 v i = nearest_float binary32 (pick 4 (elt t a) (elt t b) i).
Proof.
  intros t a b H W. cbv zeta. cbn [p_downcvt_to16].
  destruct (ctf_lanes t MF32 a H eq_refl ltac:(symmetry; exact W)) as [Ra La]. destruct (ctf_lanes t MF32 b H eq_refl ltac:(symmetry; exact W)) as [Rb Lb].
  apply (halves16 (vec_ctf t MF32 a, vec_ctf t MF32 b) (fun i => nearest_float binary32 (pick 4 (elt t a) (elt t b) i))); cbn [fst snd].
  - split; [exact Ra|]. intros i Hi. etransitivity; [exact (La i Hi)|]. unfold pick. change (128 / 32) with 4 in Hi. replace (i <? 4) with true by lia. reflexivity.
  - split; [exact Rb|]. intros i Hi. etransitivity; [exact (Lb i Hi)|]. unfold pick. change (128 / 32) with 4 in Hi. replace (4 + i <? 4) with false by lia. replace (4 + i - 4) with i by lia. reflexivity.
Qed.
Print Assumptions C108_downcvt_to_f16.
Theorem C108_downcvt_f32_to_f16 : forall a b, in_reg 128 a -> in_reg 128 b -> let v := p_downcvt_to16 MF32 a b in
  in_regs16 v /\ forall i, 0 <= i < 8 -> apattern16 v i = pick 4 (pattern MF32 a) (pattern MF32 b) i.
Proof. intros a b Ra Rb. split; [split; assumption|]. intros i Hi. reflexivity. Qed.
Print Assumptions C108_downcvt_f32_to_f16.
Theorem C108_downcvt_from_f16 : forall t v w, In t int_types -> bits t = 8 ->
  pvector t (p_downcvt_from16 t v w) (fun i x => exists z, saturated (widened t 32) binary32 (pick 8 (apattern16 v) (apattern16 w) i) z /\ wraps_to t z x).
Proof.
  intros t v w H W. destruct (resized_int t 32 H) as [Hr Br]; [cbn; tauto|]. assert (T : widened t 32 = resized t 32) by (unfold widened, resized; destruct t; reflexivity). rewrite T.
  pose proof (p_downcvt_from16_lanes t v w H W) as L. refine (pv_lanes t _ (fun i => vec_ct1 (resized t 32) binary32 (pick 8 (apattern16 v) (apattern16 w) i)) _ H ltac:(rewrite W; exact L) _). intros i Hi. cbv beta.
  eexists. split; [|apply cast_wraps, H]. rewrite ct1_fcvtz by lia. apply fcvtz_saturated. pose proof (ty_min_max _ Hr). lia.
Qed.
Print Assumptions C108_downcvt_from_f16.

(** Reinterpreting the 16-bit integers as f16. *)
Theorem C108_reinterpret_to_f16 : forall a, in_reg 128 a ->
  exists r, p_reinterpret_to16 a = Some r /\ in_regs16 r /\ forall i, 0 <= i < 8 -> half_as_single (pattern (MI u16) a i) (apattern16 r i).
Proof.
  intros a Ha. destruct (C83_reinterpret_to_f16 a Ha) as (r' & _ & R' & V').
  destruct (fill16_ok (fun i => u16_to_f32 (lane 16 i a))) as (r & E & R & L).
  - intros i Hi. exists (apattern16 r' i). destruct (V' i Hi) as [U _]. split; [exact U|]. unfold apattern16. destruct (i <? 4); apply Z.mod_pos_bound; reflexivity.
  - exists r. split; [exact E|]. split; [exact R|]. intros i Hi. specialize (L i Hi). destruct (V' i Hi) as [U D]. pose proof U as U'. change (lane 16 i a) with (pattern (MI u16) a i) in L. rewrite U in L. injection L as L.
    rewrite <- L. split; [exact U'|exact D].
Qed.
Print Assumptions C108_reinterpret_to_f16.
Theorem C108_reinterpret_from_f16 : forall v, in_regs16 v ->
  exists r, p_reinterpret_from16 v = Some r /\ in_reg 128 r /\ forall i, 0 <= i < 8 -> pattern (MI u16) r i = f32_to_u16 (apattern16 v i).
Proof.
  intros v Hv. destruct (C83_reinterpret_from_f16 v Hv) as [_ V].
  destruct (splat16_lanes (fun i => Some (f32_to_u16 (elt16 v i))) (fun i => f32_to_u16 (apattern16 v i))) as (r & E & R & L).
  - intros i Hi. rewrite elt16_pattern. split; [reflexivity|]. rewrite <- V by exact Hi. apply Z.mod_pos_bound. reflexivity.
  - exists r. split; [exact E|]. split; [exact R|]. exact L.
Qed.
Print Assumptions C108_reinterpret_from_f16.
Theorem C108_reinterpret_round_trip : forall a, in_reg 128 a ->
  exists v r, p_reinterpret_to16 a = Some v /\ p_reinterpret_from16 v = Some r /\ in_reg 128 r /\
    forall i, 0 <= i < 8 ->
      let h := pattern (MI u16) a i in let h' := pattern (MI u16) r i in
      (decode binary16 h <> FNaN -> h' = h) /\ (decode binary16 h = FNaN -> decode binary16 h' = FNaN).
Proof.
  intros a Ha. destruct (C108_reinterpret_to_f16 a Ha) as (v & E & R & V). destruct (C108_reinterpret_from_f16 v R) as (r & E2 & R' & V').
  exists v, r. split; [exact E|]. split; [exact E2|]. split; [exact R'|]. intros i Hi. cbv zeta. rewrite V' by exact Hi. destruct (V i Hi) as [U _].
  destruct (round_trip_l (pattern (MI u16) a i)) as (x & Ex & K1 & K2). { apply Z.mod_pos_bound. reflexivity. }
  rewrite U in Ex. injection Ex as <-. split; assumption.
Qed.
Print Assumptions C108_reinterpret_round_trip.
Theorem C108_reinterpretl_to_f16 : forall l p, plogical u16 l p -> exists r, p_reinterpretl_to16 l = Some r /\ plogical16 r p.
Proof.
  intros l p [R L]. change (128 / bits u16) with 8 in L.
  destruct (fill16_ok (fun i => Some ((if lane 16 i l =? 0 then 0 else -1) mod 2 ^ 32))) as (r & E & [R0 R1] & V); [intros i Hi; eexists; split; [reflexivity|]; apply Z.mod_pos_bound; reflexivity|].
  exists r. split; [exact E|].
  assert (Q : forall i, 0 <= i < 8 -> apattern16 r i = if p i then 2 ^ 32 - 1 else 0).
  { intros i Hi. specialize (V i Hi). injection V as V. rewrite <- V. change (lane 16 i l) with ((l / 2 ^ (bits u16 * i)) mod 2 ^ bits u16). rewrite L by exact Hi. destruct (p i); reflexivity. }
  split; (split; [assumption|]); change (128 / bits u32) with 4; intros i Hi.
  - specialize (Q i ltac:(lia)). unfold apattern16 in Q. replace (i <? 4) with true in Q by lia. exact Q.
  - specialize (Q (i + 4) ltac:(lia)). unfold apattern16 in Q. replace (i + 4 <? 4) with false in Q by lia. replace (i + 4 - 4) with i in Q by lia. exact Q.
Qed.
Print Assumptions C108_reinterpretl_to_f16.
Theorem C108_reinterpretl_from_f16 : forall l p, plogical16 l p -> exists r, p_reinterpretl_from16 l = Some r /\ plogical u16 r p.
Proof.
  intros l p [[R0 L0] [R1 L1]]. change (128 / bits u32) with 4 in L0, L1.
  destruct (splat16_lanes (fun i => Some (elt16 l i mod 2 ^ 16)) (fun i => elt16 l i mod 2 ^ 16)) as (r & E & R & L); [intros i Hi; split; [reflexivity|apply Z.mod_pos_bound; reflexivity]|].
  exists r. split; [exact E|]. split; [exact R|]. change (128 / bits u16) with 8. intros i Hi. etransitivity; [exact (L i Hi)|]. unfold elt16.
  destruct (Z.ltb_spec i 4).
  - change (lane 32 i (fst l)) with ((fst l / 2 ^ (bits u32 * i)) mod 2 ^ bits u32). rewrite L0 by lia. destruct (p i); reflexivity.
  - change (lane 32 (i - 4) (snd l)) with ((snd l / 2 ^ (bits u32 * (i - 4))) mod 2 ^ bits u32). rewrite L1 by lia. replace (i - 4 + 4) with i by lia. destruct (p i); reflexivity.
Qed.
Print Assumptions C108_reinterpretl_from_f16.

(** 70000.0f to i16 wraps to 4464; 1e10f saturates to 2^31 - 1 and then wraps to -1; the i64 2^60 + 2^36 + 1 is nearest
    to 0x5D800001 in single precision (C83_downcvt_nearest_refuted: 0x5D800000 on NEON). *)
Example C108_example : forall e, In e [Vmx; Vsx] ->
  option_map (pelts i16) (p_downcvt MF32 (MI i16) (pvec u32 [0x4788B800; 0x501502F9; 0xC0300000; 0]) 0) = Some [4464; -1; -2; 0; 0; 0; 0; 0] /\
  option_map (fun p => (pelts i64 (fst p), pelts i64 (snd p))) (p_upcvt e MF32 (MI i64) (pvec u32 [0x4788B800; 0x501502F9; 0xC0300000; 0])) = Some ([70000; 10000000000], [-2; 0]) /\
  option_map (fun p => (pelts u32 (fst p), pelts u32 (snd p))) (p_upcvt e (MI i16) MF32 (pvec i16 [1; -2; 3; 0; 5])) = Some ([0x3F800000; 0xC0000000; 0x40400000; 0], [0x40A00000; 0; 0; 0]) /\
  option_map (pelts u32) (p_downcvt (MI i64) MF32 (pvec i64 [2 ^ 60 + 2 ^ 36 + 1; 0]) (pvec i64 [0; -2])) = Some [0x5D800001; 0; 0; 0xC0000000].
Proof. intros e [<-|[<-|[]]]; (split; [|split; [|split]]); vm_compute; reflexivity. Qed.
(** 40000 as f16 to i16 wraps; u16 has room for it *)
Example C108_example_f16 : let a := pvec u16 [1; 40000; 0; 0; 5; 0; 0; 65535] in
  map (apattern16 (p_cvt_to16 u16 a)) [0; 1; 4; 7] = [0x3F800000; 0x471C4000; 0x40A00000; 0x477FFF00] /\
  pelts u16 (p_cvt_from16 u16 (p_cvt_to16 u16 a)) = [1; 40000; 0; 0; 5; 0; 0; 65535] /\
  pelts i16 (p_cvt_from16 i16 (p_cvt_to16 u16 a)) = [1; -25536; 0; 0; 5; 0; 0; -1] /\
  option_map (fun v => map (apattern16 v) [0; 1; 4]) (p_reinterpret_to16 (pvec u16 [0x3C00; 0xFC00; 1; 0; 0x7BFF])) = Some [0x3F800000; 0xFF800000; 0x477FE000].
Proof. cbv zeta. split; [|split; [|split]]; vm_compute; reflexivity. Qed.
