(** C84 to C88: the ARM operators on floating-point vectors. [u] stands for what an instruction leaves unspecified;
    the pairs of registers are the f16 vectors of NEON without NSIMD_ARM_FP16. *)
From Coq Require Import ZArith Lia List Bool.
From Verif Require Import CInt BitLemmas FloatSpec FloatProofs Fp16Spec Fp16 Fp16Proofs ScalarOps ScalarSpec ScalarProofs RoundEven RoundEvenProofs
  X86Deg234 X86Arith X86ArithSpec X86LaneLemmas X86SelectProofs X86Mem X86MemSpec X86MemProofs X86Cvt X86CvtSpec X86CvtProofs2 X86Float X86FloatSpec
  X86FloatProofs X86FloatProofs2 X86FloatProofs3 X86FloatProofs7 Arm ArmSpec ArmProofs ArmProofs4 ArmPermSpec ArmPermProofs ArmMem ArmMemSpec
  ArmFloat ArmFloatSpec ArmFloatProofs ArmFloatProofs2 ArmFloatProofs3.
Import ListNotations.
Open Scope Z_scope.

(** ** C84: comparisons, operators on logicals, if_else1 *)

Theorem C84_compare u e t a b :
  alogical e (fu t) (a_eqf u e t a b) (fun i => is (frel t a b i) Equal) /\
  alogical e (fu t) (a_nef u e t a b) (fun i => negb (is (frel t a b i) Equal)) /\
  alogical e (fu t) (a_gtf u e t a b) (fun i => is (frel t a b i) Greater) /\
  alogical e (fu t) (a_ltf u e t a b) (fun i => is (frel t a b i) Less) /\
  alogical e (fu t) (a_gef u e t a b) (fun i => is (frel t a b i) Greater || is (frel t a b i) Equal) /\
  alogical e (fu t) (a_lef u e t a b) (fun i => is (frel t a b i) Less || is (frel t a b i) Equal).
Proof.
  split; [apply a_eqf_ok|split; [apply a_nef_ok|split; [apply a_gtf_ok|split; [apply a_ltf_ok|split; [apply a_gef_ok|apply a_lef_ok]]]]].
Qed.
Theorem C84_compare_f16 u e a b : is_neon e = true ->
  alogical16 (a_eq16 u e a b) (fun i => is (frel16 a b i) Equal) /\
  alogical16 (a_ne16 u e a b) (fun i => negb (is (frel16 a b i) Equal)) /\
  alogical16 (a_gt16 u e a b) (fun i => is (frel16 a b i) Greater) /\
  alogical16 (a_lt16 u e a b) (fun i => is (frel16 a b i) Less) /\
  alogical16 (a_ge16 u e a b) (fun i => is (frel16 a b i) Greater || is (frel16 a b i) Equal) /\
  alogical16 (a_le16 u e a b) (fun i => is (frel16 a b i) Less || is (frel16 a b i) Equal).
Proof.
  intros E.
  pose proof (cmp16_ok (a_eqf u) (fun r => is r Equal) e a b E (fun a b => a_eqf_ok u e F32 a b)) as C1.
  pose proof (cmp16_ok (a_nef u) (fun r => negb (is r Equal)) e a b E (fun a b => a_nef_ok u e F32 a b)) as C2.
  pose proof (cmp16_ok (a_gtf u) (fun r => is r Greater) e a b E (fun a b => a_gtf_ok u e F32 a b)) as C3.
  pose proof (cmp16_ok (a_ltf u) (fun r => is r Less) e a b E (fun a b => a_ltf_ok u e F32 a b)) as C4.
  pose proof (cmp16_ok (a_gef u) (fun r => is r Greater || is r Equal) e a b E (fun a b => a_gef_ok u e F32 a b)) as C5.
  pose proof (cmp16_ok (a_lef u) (fun r => is r Less || is r Equal) e a b E (fun a b => a_lef_ok u e F32 a b)) as C6.
  exact (conj C1 (conj C2 (conj C3 (conj C4 (conj C5 C6))))).
Qed.
Theorem C84_logical_operators u e t a b p q : alogical e (fu t) a p -> alogical e (fu t) b q ->
  alogical e (fu t) (a_andlf u e t a b) (fun i => p i && q i) /\ alogical e (fu t) (a_orlf u e t a b) (fun i => p i || q i) /\
  alogical e (fu t) (a_xorlf u e t a b) (fun i => xorb (p i) (q i)) /\ alogical e (fu t) (a_andnotlf u e t a b) (fun i => p i && negb (q i)) /\
  alogical e (fu t) (a_notlf u e t a) (fun i => negb (p i)).
Proof.
  intros A B. destruct (lop_f_ok u e t a b p q A B) as (L1 & L2 & L3 & L4). exact (conj L1 (conj L2 (conj L3 (conj L4 (a_notlf_ok u e t a p A))))).
Qed.
Theorem C84_if_else u e t l p a b : in_reg (an e) a -> in_reg (an e) b -> alogical e (fu t) l p ->
  fvector e t (a_if_else1f u e t l a b) (fun i x => x = if p i then fpat t a i else fpat t b i).
Proof.
  intros Ha Hb L. destruct (a_if_else1f_ok u e t l p a b Ha Hb L) as [R S]. split; [exact R|]. intros i Hi. rewrite !fpat_lane. apply S. exact Hi.
Qed.
Theorem C84_if_else_f16 u e l p a b : is_neon e = true -> in_regs16 a -> in_regs16 b -> alogical16 l p ->
  fvector16 (a_if_else16 u e l a b) (fun i x => x = if p i then apattern16 a i else apattern16 b i).
Proof. exact (if_else16_okA u e l p a b). Qed.
(** On an unordered pair every comparison but [ne] is false. *)
Theorem C84_unordered u e t a b i : 0 <= i < felems e t -> fvalue t a i = FNaN \/ fvalue t b i = FNaN ->
  exists lt ge ne, alogical e (fu t) (a_ltf u e t a b) lt /\ alogical e (fu t) (a_gef u e t a b) ge /\ alogical e (fu t) (a_nef u e t a b) ne /\
    lt i = false /\ ge i = false /\ ne i = true.
Proof.
  intros Hi N. destruct (C84_compare u e t a b) as (_ & L2 & _ & L4 & L5 & _).
  eexists. eexists. eexists. split; [exact L4|]. split; [exact L5|]. split; [exact L2|]. cbv beta.
  assert (U : frel t a b i = Unordered) by (unfold frel; destruct N as [-> | ->]; [reflexivity|destruct (fvalue t a i); reflexivity]).
  rewrite U. repeat split.
Qed.
(** 1.0, -0.0, NaN, +inf against 2.0, +0.0, 1.0, -inf *)
Definition arm_a := 0x3F800000 + 0x80000000 * 2 ^ 32 + 0x7FC00000 * 2 ^ 64 + 0x7F800000 * 2 ^ 96.
Definition arm_b := 0x40000000 + 0 * 2 ^ 32 + 0x3F800000 * 2 ^ 64 + 0xFF800000 * 2 ^ 96.
Definition arm_sve := Sve true 1.
Example C84_ex : map (frel F32 arm_a arm_b) [0; 1; 2; 3] = [Less; Equal; Unordered; Greater] /\
  a_ltf 0 Neon128 F32 arm_a arm_b = 2 ^ 32 - 1 /\ a_nef 0 Aarch64 F32 arm_a arm_b = 2 ^ 128 - 2 ^ 64 + 2 ^ 32 - 1 /\
  map (fpat F64 (a_if_else1f 0 Neon128 F64 (a_gtf 0 Neon128 F64 (0x3FF0000000000000 * 2 ^ 64) 0) 5 (7 + 9 * 2 ^ 64))) [0; 1] = [7; 0] /\
  map (fpat F16 (a_if_else1f 0 arm_sve F16 (a_lef 0 arm_sve F16 0x8000 0x7E00) 0 (2 ^ 128 - 1))) [0; 1] = [0xFFFF; 0].
Proof. vm_compute. repeat split. Qed.
Print Assumptions C84_compare. Print Assumptions C84_compare_f16. Print Assumptions C84_logical_operators. Print Assumptions C84_if_else.
Print Assumptions C84_if_else_f16. Print Assumptions C84_unordered.

(** ** C85: neg, abs, min, max *)

Theorem C85_neg u e t a : fvector e t (a_negf u e t a) (fun i x => decode (ff t) x = opposite (fvalue t a i)).
Proof.
  destruct (a_negf_ok u e t a) as [R L]. split; [exact R|]. intros i Hi. rewrite fpat_lane, L by exact Hi. rewrite fvalue_lane.
  apply fopp_opp; [apply ff_good|apply pat_range].
Qed.
(** Everywhere but for f64 on neon128, which goes through C: the absolute value; the IEEE minimum and maximum. *)
Theorem C85_abs u e t a : struct64 e t = false -> fvector e t (a_absf u e t a) (fun i x => decode (ff t) x = absolute (fvalue t a i)).
Proof.
  intros S. destruct (a_absf_ok u e t a S) as [R L]. split; [exact R|]. intros i Hi. rewrite fpat_lane, L by exact Hi. rewrite fvalue_lane.
  apply hw_abs_ok. pose proof (pat_range t a i) as P. rewrite ff_width in P. exact P.
Qed.
Theorem C85_min u e t a b : struct64 e t = false -> fvector e t (a_minf u e t a b) (fun i x => decode (ff t) x = least (fvalue t a i) (fvalue t b i)).
Proof.
  intros S. destruct (a_minf_ok u e t a b S) as [R L]. split; [exact R|]. intros i Hi. rewrite fpat_lane, L by exact Hi. rewrite !fvalue_lane.
  apply hw_min_ok; [apply ff_good|apply pat_range..].
Qed.
Theorem C85_max u e t a b : struct64 e t = false -> fvector e t (a_maxf u e t a b) (fun i x => decode (ff t) x = greatest (fvalue t a i) (fvalue t b i)).
Proof.
  intros S. destruct (a_maxf_ok u e t a b S) as [R L]. split; [exact R|]. intros i Hi. rewrite fpat_lane, L by exact Hi. rewrite !fvalue_lane.
  apply hw_max_ok; [apply ff_good|apply pat_range..].
Qed.
(** f64 on neon128: abs keeps a zero as it is; min and max return their second operand unless the first is less, greater. *)
Theorem C85_neon128_f64 u a b :
  fvector Neon128 F64 (a_absf u Neon128 F64 a) (fun i x => decode binary64 x =
    (if is (compare (fvalue F64 a i) (FFin false 0)) Equal then fvalue F64 a i else absolute (fvalue F64 a i))) /\
  fvector Neon128 F64 (a_minf u Neon128 F64 a b) (fun i x => x = if is (frel F64 a b i) Less then fpat F64 a i else fpat F64 b i) /\
  fvector Neon128 F64 (a_maxf u Neon128 F64 a b) (fun i x => x = if is (frel F64 a b i) Greater then fpat F64 a i else fpat F64 b i).
Proof.
  split; [|split].
  - destruct (a_absf_64 u a) as [R L]. split; [exact R|]. intros i Hi. rewrite fpat_lane, L by exact Hi. rewrite fvalue_lane. change (ff F64) with binary64. change (fw F64) with 64.
    pose proof (pat_range F64 a i) as P. change (ff F64) with binary64 in P. change (fw F64) with 64 in P. set (x := lane 64 i a) in *.
    assert (G : good_fmt binary64) by (right; left; reflexivity).
    destruct (fopp_opp binary64 x G P) as [O _]. unfold s_absf. cbn [mfmt]. change (decode binary64 0) with (FFin false 0).
    destruct (decode binary64 x) as [|s|s m] eqn:D.
    + cbn [fle compare is]. rewrite O. reflexivity.
    + destruct s; cbn; [rewrite O|rewrite D]; reflexivity.
    + pose proof (mag_nonneg binary64 G x P s m D) as M. cbn [compare sval]. destruct s.
      * assert (F : fle (FFin false 0) (FFin true m) = (m =? 0)) by (cbn; destruct (Z.leb_spec 0 (- m)), (Z.eqb_spec m 0); reflexivity || lia). rewrite F. cbn [sval].
        destruct (Z.compare_spec (- m) 0), (Z.eqb_spec m 0); try lia; cbn [is]; rewrite ?O, ?D; subst; reflexivity.
      * assert (F : fle (FFin false 0) (FFin false m) = true) by (cbn; destruct (Z.leb_spec 0 m); reflexivity || lia). rewrite F, D.
        destruct (is _ _); reflexivity.
  - destruct (a_minf_64 u a b) as [R L]. split; [exact R|]. intros i Hi. rewrite !fpat_lane, L by exact Hi. unfold s_minf, frel. rewrite !fvalue_lane, flt_less. reflexivity.
  - destruct (a_maxf_64 u a b) as [R L]. split; [exact R|]. intros i Hi. rewrite !fpat_lane, L by exact Hi. unfold s_maxf, frel. rewrite !fvalue_lane, flt_greater. reflexivity.
Qed.
Theorem C85_f16 u e a b : is_neon e = true ->
  fvector16 (a_neg16 u e a) (fun i x => decode binary32 x = opposite (fvalue16 a i)) /\
  fvector16 (a_abs16 u e a) (fun i x => decode binary32 x = absolute (fvalue16 a i)) /\
  fvector16 (a_min16 u e a b) (fun i x => decode binary32 x = least (fvalue16 a i) (fvalue16 b i)) /\
  fvector16 (a_max16 u e a b) (fun i x => decode binary32 x = greatest (fvalue16 a i) (fvalue16 b i)).
Proof.
  intros E. assert (S : struct64 e F32 = false) by (destruct e; reflexivity).
  assert (PR : forall v i, 0 <= apattern16 v i < 2 ^ 32) by (intros v i; unfold apattern16; destruct (_ <? _); apply Z.mod_pos_bound; lia).
  assert (G : good_fmt binary32) by (left; reflexivity).
  split; [|split; [|split]].
  - destruct (map16_ok _ _ e a E (a_negf_ok u e F32)) as [R L]. split; [exact R|]. intros i Hi. unfold a_neg16. rewrite L by exact Hi. apply (fopp_opp binary32); [exact G|apply PR].
  - destruct (map16_ok _ _ e a E (fun x => a_absf_ok u e F32 x S)) as [R L]. split; [exact R|]. intros i Hi. unfold a_abs16. rewrite L by exact Hi. apply (hw_abs_ok F32). apply PR.
  - destruct (map2_16_ok _ _ e a b E (fun x y => a_minf_ok u e F32 x y S)) as [R L]. split; [exact R|]. intros i Hi. unfold a_min16. rewrite L by exact Hi. apply (hw_min_ok binary32); [exact G|apply PR..].
  - destruct (map2_16_ok _ _ e a b E (fun x y => a_maxf_ok u e F32 x y S)) as [R L]. split; [exact R|]. intros i Hi. unfold a_max16. rewrite L by exact Hi. apply (hw_max_ok binary32); [exact G|apply PR..].
Qed.
(** The minimum and the maximum commute where they are the IEEE ones. *)
Theorem C85_commutes v w : least v w = least w v /\ greatest v w = greatest w v.
Proof.
  assert (Q : forall s s' m m', m = 0 -> m' = 0 -> (if negative (FFin s m) then FFin s m else FFin s' m') = (if negative (FFin s' m') then FFin s' m' else FFin s m) /\
    (if negative (FFin s m) then FFin s' m' else FFin s m) = (if negative (FFin s' m') then FFin s m else FFin s' m')) by (intros [] [] m m' -> ->; split; reflexivity).
  unfold least, greatest. destruct v as [|s|s m], w as [|s'|s' m']; cbn [compare]; try (split; reflexivity); try (destruct s; split; reflexivity); try (destruct s'; split; reflexivity);
    try (destruct s, s'; split; reflexivity).
  rewrite (Z.compare_antisym (sval s m) (sval s' m')). destruct (Z.compare_spec (sval s m) (sval s' m')) as [V|V|V]; cbn [CompOpp]; try (split; reflexivity).
  destruct s, s'; cbn [sval negative] in *; [assert (m = m') as -> by lia| | |subst]; split; reflexivity.
Qed.
(** Neither across the extensions nor with x86: NaN and -0.0 tell them apart. *)
Theorem C85_min_portable_refuted : ~ (forall u e e' a b i, 0 <= i < felems e F64 -> 0 <= i < felems e' F64 ->
  fvalue F64 (a_minf u e F64 a b) i = fvalue F64 (a_minf u e' F64 a b) i).
Proof. intros C. specialize (C 0 Neon128 Aarch64 0x7FF8000000000000 0 0 ltac:(cbn; lia) ltac:(cbn; lia)). vm_compute in C. discriminate C. Qed.
Theorem C85_abs_portable_refuted : ~ (forall u e e' a i, 0 <= i < felems e F64 -> 0 <= i < felems e' F64 ->
  fvalue F64 (a_absf u e F64 a) i = fvalue F64 (a_absf u e' F64 a) i).
Proof. intros C. specialize (C 0 Neon128 Aarch64 (2 ^ 63) 0 ltac:(cbn; lia) ltac:(cbn; lia)). vm_compute in C. discriminate C. Qed.
Theorem C85_min_like_x86_refuted : ~ (forall u e e' a b i, 0 <= i < 4 -> felems e F32 = 4 -> elems e' MF32 = 4 ->
  fvalue F32 (a_minf u e F32 a b) i = value MF32 (x_minf e' MF32 a b) i).
Proof. intros C. specialize (C 0 Neon128 Sse2 0x7FC00000 0 0 ltac:(lia) eq_refl eq_refl). vm_compute in C. discriminate C. Qed.
Example C85_ex : map (fvalue F32 (a_minf 0 Neon128 F32 arm_a arm_b)) [1; 2; 3] = [FFin true 0; FNaN; FInf true] /\
  map (fvalue F32 (a_maxf 0 arm_sve F32 arm_a arm_b)) [1; 2; 3] = [FFin false 0; FNaN; FInf false] /\
  map (fpat F32 (a_negf 0 Aarch64 F32 arm_b)) [0; 1] = [0xC0000000; 0x80000000] /\
  map (fpat F32 (a_absf 0 Aarch64 F32 arm_b)) [1; 3] = [0; 0x7F800000].
Proof. vm_compute. repeat split. Qed.
Print Assumptions C85_neg. Print Assumptions C85_abs. Print Assumptions C85_min. Print Assumptions C85_max. Print Assumptions C85_neon128_f64.
Print Assumptions C85_f16. Print Assumptions C85_commutes. Print Assumptions C85_min_portable_refuted. Print Assumptions C85_abs_portable_refuted.
Print Assumptions C85_min_like_x86_refuted.

(** ** C86: rounding to integers *)

Theorem C86_floor u e t a : fvector e t (a_floorf u e t a) (fun i x => rounded (ff t) (down (ff t)) (fvalue t a i) (decode (ff t) x)).
Proof. exact (a_floorf_ok u e t a). Qed.
Theorem C86_ceil u e t a : fvector e t (a_ceilf u e t a) (fun i x => rounded (ff t) (up (ff t)) (fvalue t a i) (decode (ff t) x)).
Proof. exact (a_ceilf_ok u e t a). Qed.
Theorem C86_trunc u e t a : fvector e t (a_truncf u e t a) (fun i x => rounded (ff t) (toward_zero (ff t)) (fvalue t a i) (decode (ff t) x)).
Proof. exact (a_truncf_ok u e t a). Qed.
Theorem C86_round_to_even u e t a : fvector e t (a_round_to_evenf u e t a) (fun i x => rounded (ff t) (nearest (ff t)) (fvalue t a i) (decode (ff t) x)).
Proof. exact (a_round_to_evenf_ok u e t a). Qed.
Theorem C86_f16 u e v : is_neon e = true ->
  fvector16 (a_round16 (a_floorf u) e v) (fun i x => rounded binary32 (down binary32) (fvalue16 v i) (decode binary32 x)) /\
  fvector16 (a_round16 (a_ceilf u) e v) (fun i x => rounded binary32 (up binary32) (fvalue16 v i) (decode binary32 x)) /\
  fvector16 (a_round16 (a_truncf u) e v) (fun i x => rounded binary32 (toward_zero binary32) (fvalue16 v i) (decode binary32 x)) /\
  fvector16 (a_round16 (a_round_to_evenf u) e v) (fun i x => rounded binary32 (nearest binary32) (fvalue16 v i) (decode binary32 x)).
Proof.
  intros E. split; [|split; [|split]]; [apply (round16_ok down)|apply (round16_ok up)|apply (round16_ok toward_zero)|apply (round16_ok nearest)]; try exact E;
    intros a; [apply a_floorf_ok|apply a_ceilf_ok|apply a_truncf_ok|apply a_round_to_evenf_ok].
Qed.
(** -1.5, 2.5, 0.5, -inf *)
Definition arm_r := 0xBFC00000 + 0x40200000 * 2 ^ 32 + 0x3F000000 * 2 ^ 64 + 0xFF800000 * 2 ^ 96.
Example C86_ex : map (fpat F32 (a_floorf 0 Neon128 F32 arm_r)) [0; 1; 2; 3] = [0xC0000000; 0x40000000; 0; 0xFF800000] /\
  map (fpat F32 (a_truncf 0 Aarch64 F32 arm_r)) [0; 1; 2; 3] = [0xBF800000; 0x40000000; 0; 0xFF800000] /\
  map (fpat F32 (a_round_to_evenf 0 arm_sve F32 arm_r)) [0; 1; 2; 3] = [0xC0000000; 0x40000000; 0; 0xFF800000] /\
  fpat F16 (a_ceilf 0 arm_sve F16 0x3E00) 0 = 0x4000.
Proof. vm_compute. repeat split. Qed.
Print Assumptions C86_floor. Print Assumptions C86_ceil. Print Assumptions C86_trunc. Print Assumptions C86_round_to_even. Print Assumptions C86_f16.

(** ** C87: addv *)

(** Every element is added once, with zeros up to a power of two on SVE, in a fixed order that depends on the
    extension only; f16 in native registers of NEON apart. *)
Theorem C87_addv e t a : (is_neon e = true -> t <> F16) ->
  a_addvf e t a = sum (fadd (ff t)) (farm_order e t) (extended e t a) /\
  exists k, felems e t <= k /\ (is_neon e = true -> k = felems e t) /\ each_once k (farm_order e t).
Proof.
  intros N. split; [apply a_addvf_order; exact N|]. destruct (farm_order_once e t N) as [K O]. exists (padded e t). split; [exact K|]. split; [|exact O].
  destruct e; [reflexivity|reflexivity|discriminate].
Qed.
Theorem C87_exact e t a j n : (is_neon e = true -> t <> F16) -> small_sum (ff t) (felems e t) (fvalue t a) j n ->
  exists s m, decode (ff t) (a_addvf e t a) = FFin s m /\ sval s m = total (felems e t) n * 2 ^ j.
Proof. exact (a_addvf_exact e t a j n). Qed.
Theorem C87_addv_f16 v : a_addv16 v = f32_to_u16 (sum (fadd binary32) farm_order16 (apattern16 v)) /\ each_once 8 farm_order16.
Proof. split; [apply a_addv16_order|exact farm_order16_once]. Qed.
Theorem C87_exact_f16 v j n : small_sum binary32 8 (fvalue16 v) j n ->
  exists b s m, a_addv16 v = f32_to_u16 b /\ decode binary32 b = FFin s m /\ sval s m = total 8 n * 2 ^ j.
Proof. exact (a_addv16_exact v j n). Qed.
(** With NSIMD_ARM_FP16 the sum of 0, 1, 0, 0, 0, 0, 0, 0 is 0. *)
Lemma fp16_small : small_sum binary16 8 (fvalue F16 (0x3C00 * 2 ^ 16)) 24 (fun i => if i =? 1 then 1 else 0).
Proof.
  split; [vm_compute; split; congruence|]. split; [|vm_compute; congruence]. intros i Hi.
  assert (C : i = 0 \/ i = 1 \/ i = 2 \/ i = 3 \/ i = 4 \/ i = 5 \/ i = 6 \/ i = 7) by lia.
  destruct C as [->|[->|[->|[->|[->|[->|[->| ->]]]]]]]; eexists; eexists; (split; [vm_compute; reflexivity|vm_compute; reflexivity]).
Qed.
Theorem C87_fp16_refuted : ~ (forall e a j n, small_sum binary16 (felems e F16) (fvalue F16 a) j n ->
  exists s m, decode binary16 (a_addvf e F16 a) = FFin s m /\ sval s m = total (felems e F16) n * 2 ^ j).
Proof.
  intros C. destruct (C Aarch64 _ _ _ fp16_small) as (s & m & D & V). vm_compute in D. injection D as <- <-. vm_compute in V. discriminate V.
Qed.
(** 3.0, -1.0, 0.5, 1.0 *)
Definition arm_exact := 0x40400000 + 0xBF800000 * 2 ^ 32 + 0x3F000000 * 2 ^ 64 + 0x3F800000 * 2 ^ 96.
Example C87_ex : small_sum binary32 4 (fvalue F32 arm_exact) 148 (fun i => if i =? 0 then 6 else if i =? 1 then -2 else if i =? 2 then 1 else 2) /\
  a_addvf Neon128 F32 arm_exact = 0x40600000 /\ a_addvf Aarch64 F32 arm_exact = 0x40600000 /\ a_addvf arm_sve F32 arm_exact = 0x40600000.
Proof.
  split; [|vm_compute; repeat split]. split; [vm_compute; split; congruence|]. split; [|vm_compute; congruence].
  intros i Hi. assert (C : i = 0 \/ i = 1 \/ i = 2 \/ i = 3) by lia.
  destruct C as [->|[->|[->| ->]]]; eexists; eexists; (split; [vm_compute; reflexivity|vm_compute; reflexivity]).
Qed.
Print Assumptions C87_addv. Print Assumptions C87_exact. Print Assumptions C87_addv_f16. Print Assumptions C87_exact_f16. Print Assumptions C87_fp16_refuted.

(** ** C88: logicals of floats: reductions, masks, memory, loop tails *)

Theorem C88_all_any u e t l p : alogical e (fu t) l p ->
  (a_allf u e t l = true <-> (forall i, 0 <= i < felems e t -> p i = true)) /\
  (a_anyf u e t l = true <-> (exists i, 0 <= i < felems e t /\ p i = true)).
Proof. intros L. split; [apply a_allf_ok|apply a_anyf_ok]; exact L. Qed.
Theorem C88_nbtrue u e t l p : architectural e -> alogical e (fu t) l p -> a_nbtruef u e t l = count_true (felems e t) p.
Proof. exact (a_nbtruef_ok u e t l p). Qed.
Theorem C88_all_any_nbtrue_f16 u e l p : is_neon e = true -> alogical16 l p ->
  (a_all16 u e l = true <-> (forall i, 0 <= i < 8 -> p i = true)) /\
  (a_any16 u e l = true <-> (exists i, 0 <= i < 8 /\ p i = true)) /\ a_nbtrue16 u e l = count_true 8 p.
Proof. intros E L. split; [apply all16_okA; assumption|split; [apply any16_okA; assumption|apply nbtrue16_okA; assumption]]. Qed.
Theorem C88_to_mask e t l p : alogical e (fu t) l p -> fvector e t (a_to_maskf e t l) (fun i x => x = if p i then 2 ^ fw t - 1 else 0).
Proof. exact (a_to_maskf_ok e t l p). Qed.
(** to_logical looks at the bits: -0.0 is true. *)
Theorem C88_to_logical u e t a : alogical e (fu t) (a_to_logicalf u e t a) (fun i => negb (fpat t a i =? 0)).
Proof. exact (a_to_logicalf_ok u e t a). Qed.
Theorem C88_masks_f16 u e l p v : is_neon e = true -> alogical16 l p ->
  fvector16 (a_to_mask16 e l) (fun i x => x = if p i then 2 ^ 32 - 1 else 0) /\
  alogical16 (a_to_logical16 u e v) (fun i => negb (apattern16 v i =? 0)) /\
  alogical16 (a_notl16 u e l) (fun i => negb (p i)).
Proof. intros E L. split; [apply to_mask16_okA; assumption|split; [apply to_logical16_okA; assumption|apply notl16_okA; assumption]]. Qed.
Theorem C88_set1 e t x : 0 <= x < 2 ^ fw t -> fvector e t (a_set1f e t x) (fun _ y => y = x).
Proof. exact (a_set1f_ok e t x). Qed.
Theorem C88_set1_f16 e h : is_neon e = true -> in_u 16 h -> exists r, a_set16 e h = Some r /\ fvector16 r (fun _ x => half_as_single h x).
Proof. exact (set16_okA e h). Qed.
Theorem C88_set1l e t x : native_logicals e -> alogical e (fu t) (a_set1lf e t x) (fun _ => negb (x =? 0)).
Proof. exact (a_set1lf_ok e t x). Qed.
(** loadl compares with zero: -0.0 is false. *)
Theorem C88_loadl u e t m a : (forall i, 0 <= i < felems e t -> mapped (fw t) m (a + i * (fw t / 8))) ->
  exists l x, a_loadlf u e t m a = Some l /\
    (forall i, 0 <= i < felems e t -> holds (fw t) m (a + i * (fw t / 8)) (x i)) /\ alogical e (fu t) l (fun i => nonzero (ff t) (x i)).
Proof. exact (a_loadlf_ok u e t m a). Qed.
Theorem C88_storel u e t m a l p : alogical e (fu t) l p -> (forall i, 0 <= i < felems e t -> mapped (fw t) m (a + i * (fw t / 8))) ->
  exists m' x, a_storelf u e t m a l = Some m' /\
    (forall i, 0 <= i < felems e t -> holds (fw t) m' (a + i * (fw t / 8)) (x i) /\ decode (ff t) (x i) = FFin false (if p i then one (ff t) else 0)) /\
    (forall k, k < a \/ a + felems e t * (fw t / 8) <= k -> m' k = m k).
Proof. exact (a_storelf_ok u e t m a l p). Qed.
Theorem C88_round_trip u e t m a l p : alogical e (fu t) l p -> (forall i, 0 <= i < felems e t -> mapped (fw t) m (a + i * (fw t / 8))) ->
  exists m' l', a_storelf u e t m a l = Some m' /\ a_loadlf u e t m' a = Some l' /\ alogical e (fu t) l' p.
Proof.
  intros L Mp. destruct (C88_storel u e t m a l p L Mp) as (m' & x & E & A & _).
  assert (Mp' : forall i, 0 <= i < felems e t -> mapped (fw t) m' (a + i * (fw t / 8))) by (intros i Hi; eapply holds_mapped; apply A; exact Hi).
  destruct (C88_loadl u e t m' a Mp') as (l' & y & E' & A' & L'). exists m', l'. split; [exact E|]. split; [exact E'|].
  eapply alogical_ext; [exact L'|]. intros i Hi. rewrite fu_bits in Hi. cbv beta. unfold nonzero. destruct (A i Hi) as [Hh D].
  rewrite (holds_unique _ _ _ _ _ (fw_ok8 t) (A' i Hi) Hh), D. assert (O := one_pos (ff t) (ff_good t)). cbn [compare].
  destruct (p i); unfold sval; [|reflexivity]. destruct (Z.compare_spec (one (ff t)) 0); try lia; reflexivity.
Qed.
Theorem C88_loadl_f16 u e m a : is_neon e = true -> (forall i, 0 <= i < 8 -> mapped 16 m (a + i * 2)) ->
  exists l h, a_loadl16 u e m a = Some l /\ (forall i, 0 <= i < 8 -> holds 16 m (a + i * 2) (h i)) /\ alogical16 l (fun i => nonzero binary16 (h i)).
Proof. exact (loadl16_okA u e m a). Qed.
Theorem C88_storel_f16 u e m a l p : is_neon e = true -> alogical16 l p -> (forall i, 0 <= i < 8 -> mapped 16 m (a + i * 2)) ->
  exists m', a_storel16 u e m a l = Some m' /\ (forall i, 0 <= i < 8 -> holds 16 m' (a + i * 2) (if p i then 0x3C00 else 0)) /\
    (forall k, k < a \/ a + 16 <= k -> m' k = m k).
Proof. exact (storel16_okA u e m a l p). Qed.
Theorem C88_iota u e t : architectural e -> fvector e t (a_iotaf u e t) (fun i x => decode (ff t) x = FFin false (i * one (ff t))).
Proof.
  intros A. destruct (a_iotaf_ok u e t A) as [R L]. split; [exact R|]. intros i Hi. rewrite L by exact Hi. pose proof (felems_arch e t A). apply small_float. lia.
Qed.
Theorem C88_iota_f16 : fvector16 a_iota16 (fun i x => decode binary32 x = FFin false (i * one binary32)).
Proof. destruct iota16_ok as [R L]. split; [exact R|]. intros i Hi. rewrite L by exact Hi. apply (small_float F32). lia. Qed.
Theorem C88_loop_tail u e t i n : architectural e -> native_logicals e -> n <= i \/ in_ty i32 (n - i) ->
  exists l, a_mask_for_loop_tailf u e t i n = Some l /\ alogical e (fu t) l (fun k => i + k <? n).
Proof. exact (a_tailf_ok u e t i n). Qed.
Theorem C88_loop_tail_f16 u e i n : is_neon e = true -> n <= i \/ in_ty i32 (n - i) ->
  exists l, a_mask_for_loop_tail16 u e i n = Some l /\ alogical16 l (fun k => i + k <? n).
Proof. intros E. apply tail16_okA; [exact E|]. intros vq ->. discriminate E. Qed.
Example C88_ex : architectural arm_sve /\ native_logicals (Sve false 2) /\
  a_allf 0 Neon128 F32 (2 ^ 128 - 1) = true /\ a_allf 0 Neon128 F64 (2 ^ 64 - 1) = false /\ a_nbtruef 0 Aarch64 F32 (2 ^ 128 - 2 ^ 32) = 3 /\
  option_map (fun l => map (fpat F32 l) [0; 1; 2; 3]) (a_mask_for_loop_tailf 0 Aarch64 F32 7 9) = Some [2 ^ 32 - 1; 2 ^ 32 - 1; 0; 0] /\
  option_map (fun l => map (apattern16 l) [0; 4; 5]) (a_mask_for_loop_tail16 0 Aarch64 3 8) = Some [2 ^ 32 - 1; 2 ^ 32 - 1; 0] /\
  option_map (fun l => map (fpat F32 l) [0; 1]) (a_loadlf 0 Neon128 F32 (fun k => Some (if k =? 3 then 0x80 else if k =? 6 then 0x80 else 0)) 0) = Some [0; 2 ^ 32 - 1].
Proof.
  split; [unfold architectural; cbn; lia|]. split; [intros vq C; discriminate C|]. vm_compute. repeat split.
Qed.
Print Assumptions C88_all_any. Print Assumptions C88_nbtrue. Print Assumptions C88_all_any_nbtrue_f16. Print Assumptions C88_to_mask. Print Assumptions C88_to_logical.
Print Assumptions C88_masks_f16. Print Assumptions C88_set1. Print Assumptions C88_set1_f16. Print Assumptions C88_set1l. Print Assumptions C88_loadl. Print Assumptions C88_storel.
Print Assumptions C88_round_trip. Print Assumptions C88_loadl_f16. Print Assumptions C88_storel_f16. Print Assumptions C88_iota. Print Assumptions C88_iota_f16.
Print Assumptions C88_loop_tail. Print Assumptions C88_loop_tail_f16.
