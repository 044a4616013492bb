(** C109 to C113: the POWER operators on floating-point vectors. [t] is f32 or f64; the pairs of registers are the f16
    vectors. *)
From Coq Require Import ZArith Lia List Bool.
From Verif Require Import CInt BitLemmas FloatSpec FloatProofs Fp16Spec Fp16 Fp16Proofs ScalarOps ScalarSpec ScalarProofs RoundEven RoundEvenProofs
  X86Deg234 X86Arith X86ArithSpec X86LaneLemmas X86SelectProofs X86Mem X86MemSpec X86MemProofs X86Cvt X86CvtSpec X86CvtProofs2 X86Float X86FloatSpec
  X86FloatProofs X86FloatProofs2 X86FloatProofs3 X86FloatProofs7 Arm ArmSpec ArmProofs ArmProofs4 ArmPermSpec ArmPermProofs ArmMem ArmMemSpec
  ArmFloat ArmFloatSpec ArmFloatProofs ArmFloatProofs2 ArmFloatProofs3 PropArmFloat Ppc PpcSpec PpcProofs PpcProofs3 PpcMem PpcMemSpec PpcFloat PpcFloatSpec PpcFloatProofs PpcFloatProofs2.
Import ListNotations.
Open Scope Z_scope.

(** ** C109: comparisons, operators on logicals, if_else1 *)

Theorem C109_compare e t a b :
  plogical (fu t) (p_eqf e t a b) (fun i => is (frel t a b i) Equal) /\
  plogical (fu t) (p_nef e t a b) (fun i => negb (is (frel t a b i) Equal)) /\
  plogical (fu t) (p_gtf e t a b) (fun i => is (frel t a b i) Greater) /\
  plogical (fu t) (p_ltf e t a b) (fun i => is (frel t a b i) Less) /\
  plogical (fu t) (p_gef e t a b) (fun i => is (frel t a b i) Greater || is (frel t a b i) Equal) /\
  plogical (fu t) (p_lef e t a b) (fun i => is (frel t a b i) Less || is (frel t a b i) Equal).
Proof. split; [apply p_eqf_ok|split; [apply p_nef_ok|split; [apply p_gtf_ok|split; [apply p_ltf_ok|split; [apply p_gef_ok|apply p_lef_ok]]]]]. Qed.
Theorem C109_compare_f16 e a b :
  plogical16 (p_eq16 e a b) (fun i => is (frel16 a b i) Equal) /\
  plogical16 (p_ne16 e a b) (fun i => negb (is (frel16 a b i) Equal)) /\
  plogical16 (p_gt16 e a b) (fun i => is (frel16 a b i) Greater) /\
  plogical16 (p_lt16 e a b) (fun i => is (frel16 a b i) Less) /\
  plogical16 (p_ge16 e a b) (fun i => is (frel16 a b i) Greater || is (frel16 a b i) Equal) /\
  plogical16 (p_le16 e a b) (fun i => is (frel16 a b i) Less || is (frel16 a b i) Equal).
Proof.
  pose proof (p_cmp16_ok p_eqf (fun r => is r Equal) e a b (p_eqf_ok e F32)) as C1.
  pose proof (p_cmp16_ok p_nef (fun r => negb (is r Equal)) e a b (p_nef_ok e F32)) as C2.
  pose proof (p_cmp16_ok p_gtf (fun r => is r Greater) e a b (p_gtf_ok e F32)) as C3.
  pose proof (p_cmp16_ok p_ltf (fun r => is r Less) e a b (p_ltf_ok e F32)) as C4.
  pose proof (p_cmp16_ok p_gef (fun r => is r Greater || is r Equal) e a b (p_gef_ok e F32)) as C5.
  pose proof (p_cmp16_ok p_lef (fun r => is r Less || is r Equal) e a b (p_lef_ok e F32)) as C6.
  exact (conj C1 (conj C2 (conj C3 (conj C4 (conj C5 C6))))).
Qed.
Theorem C109_logical_operators e t a b p q : plogical (fu t) a p -> plogical (fu t) b q ->
  plogical (fu t) (p_andlf e t a b) (fun i => p i && q i) /\ plogical (fu t) (p_orlf e t a b) (fun i => p i || q i) /\
  plogical (fu t) (p_xorlf e t a b) (fun i => xorb (p i) (q i)) /\ plogical (fu t) (p_andnotlf e t a b) (fun i => p i && negb (q i)) /\
  plogical (fu t) (p_notlf e t a) (fun i => negb (p i)).
Proof. exact (p_lops_ok e (fu t) a b p q (fu_in t)). Qed.
Theorem C109_logical_operators_f16 e a b p q : plogical16 a p -> plogical16 b q ->
  plogical16 (p_lop16 p_andlf e a b) (fun i => p i && q i) /\ plogical16 (p_lop16 p_orlf e a b) (fun i => p i || q i) /\
  plogical16 (p_lop16 p_xorlf e a b) (fun i => xorb (p i) (q i)) /\ plogical16 (p_lop16 p_andnotlf e a b) (fun i => p i && negb (q i)) /\
  plogical16 (p_notl16 e a) (fun i => negb (p i)).
Proof.
  intros A B.
  split; [exact (lop16_ok p_andlf andb e a b p q (fun a b p q A B => proj1 (p_lops_ok e u32 a b p q (fu_in F32) A B)) A B)|].
  split; [exact (lop16_ok p_orlf orb e a b p q (fun a b p q A B => proj1 (proj2 (p_lops_ok e u32 a b p q (fu_in F32) A B))) A B)|].
  split; [exact (lop16_ok p_xorlf xorb e a b p q (fun a b p q A B => proj1 (proj2 (proj2 (p_lops_ok e u32 a b p q (fu_in F32) A B)))) A B)|].
  split; [exact (lop16_ok p_andnotlf (fun x y => x && negb y) e a b p q (fun a b p q A B => proj1 (proj2 (proj2 (proj2 (p_lops_ok e u32 a b p q (fu_in F32) A B))))) A B)|].
  exact (p_notl16_ok e a p A).
Qed.
Theorem C109_if_else e t l p a b : in_reg 128 a -> in_reg 128 b -> plogical (fu t) l p ->
  pfvector t (p_if_else1f e t l a b) (fun i x => x = if p i then fpat t a i else fpat t b i).
Proof. exact (p_if_else1f_ok e t l p a b). Qed.
Theorem C109_if_else_f16 e l p a b : in_regs16 a -> in_regs16 b -> plogical16 l p ->
  fvector16 (p_if_else16 e l a b) (fun i x => x = if p i then apattern16 a i else apattern16 b i).
Proof. exact (p_if_else16_ok e l p a b). Qed.
(** On an unordered pair every comparison but [ne] is false. *)
Theorem C109_unordered e t a b i : 0 <= i < 128 / fw t -> fvalue t a i = FNaN \/ fvalue t b i = FNaN ->
  exists eq lt le gt ge ne, plogical (fu t) (p_eqf e t a b) eq /\ plogical (fu t) (p_ltf e t a b) lt /\ plogical (fu t) (p_lef e t a b) le /\
    plogical (fu t) (p_gtf e t a b) gt /\ plogical (fu t) (p_gef e t a b) ge /\ plogical (fu t) (p_nef e t a b) ne /\
    eq i = false /\ lt i = false /\ le i = false /\ gt i = false /\ ge i = false /\ ne i = true.
Proof.
  intros Hi N. destruct (C109_compare e t a b) as (L1 & L2 & L3 & L4 & L5 & L6).
  do 6 eexists. split; [exact L1|]. split; [exact L4|]. split; [exact L6|]. split; [exact L3|]. split; [exact L5|]. split; [exact L2|]. cbv beta.
  assert (U : frel t a b i = Unordered) by (unfold frel; destruct N as [-> | ->]; [reflexivity|destruct (fvalue t a i); reflexivity]).
  rewrite U. repeat split.
Qed.
Example C109_ex : p_ltf Vmx F32 arm_a arm_b = 2 ^ 32 - 1 /\ p_nef Vsx F32 arm_a arm_b = 2 ^ 128 - 2 ^ 64 + 2 ^ 32 - 1 /\
  map (fpat F64 (p_if_else1f Vmx F64 (p_gtf Vmx F64 (0x3FF0000000000000 * 2 ^ 64) 0) 5 (7 + 9 * 2 ^ 64))) [0; 1] = [7; 0].
Proof. vm_compute. repeat split. Qed.
Print Assumptions C109_compare. Print Assumptions C109_compare_f16. Print Assumptions C109_logical_operators. Print Assumptions C109_logical_operators_f16.
Print Assumptions C109_if_else. Print Assumptions C109_if_else_f16. Print Assumptions C109_unordered.

(** ** C110: bitwise operators, neg, abs, min, max *)

Theorem C110_bitwise e t a b : in_reg 128 a -> in_reg 128 b ->
  let each g := fun i x => forall k, 0 <= k < fw t -> Z.testbit x k = g (Z.testbit (fpat t a i) k) (Z.testbit (fpat t b i) k) in
  pfvector t (p_andbf e t a b) (each andb) /\ pfvector t (p_orbf e t a b) (each orb) /\ pfvector t (p_xorbf e t a b) (each xorb) /\
  pfvector t (p_andnotbf e t a b) (each (fun x y => x && negb y)) /\ pfvector t (p_notbf e t a) (each (fun x _ => negb x)).
Proof. exact (p_bits_ok e t a b). Qed.
Theorem C110_neg e t a : pfvector t (p_negf e t a) (fun i x => decode (ff t) x = opposite (fvalue t a i)).
Proof.
  destruct (p_negf_ok e t a) as [R L]. split; [exact R|]. intros i Hi. rewrite fpat_lane, L by exact Hi. rewrite fvalue_lane. apply fopp_opp; [apply ff_good|apply pat_range].
Qed.
(** Everywhere but for f64 on vmx, which goes through C *)
Theorem C110_abs e t a : ~ vmx_double e t -> pfvector t (p_absf e t a) (fun i x => decode (ff t) x = absolute (fvalue t a i)).
Proof.
  intros S. assert (P : pair64f e t = false) by (destruct e, t; try reflexivity; exfalso; apply S; split; reflexivity).
  destruct (p_absf_ok e t a P) as [R L]. split; [exact R|]. intros i Hi. rewrite fpat_lane, L by exact Hi. rewrite fvalue_lane.
  apply hw_abs_ok. pose proof (pat_range t a i) as Q. rewrite ff_width in Q. exact Q.
Qed.
(** vmx on f32: a NaN if one operand is *)
Theorem C110_min_max_vmx t a b : t <> F64 ->
  pfvector t (p_minf Vmx t a b) (fun i x => decode (ff t) x = least (fvalue t a i) (fvalue t b i)) /\
  pfvector t (p_maxf Vmx t a b) (fun i x => decode (ff t) x = greatest (fvalue t a i) (fvalue t b i)).
Proof.
  intros T. split.
  - destruct (p_minf_vmx t a b T) as [R L]. split; [exact R|]. intros i Hi. rewrite fpat_lane, L by exact Hi. rewrite !fvalue_lane. apply hw_min_ok; [apply ff_good|apply pat_range..].
  - destruct (p_maxf_vmx t a b T) as [R L]. split; [exact R|]. intros i Hi. rewrite fpat_lane, L by exact Hi. rewrite !fvalue_lane. apply hw_max_ok; [apply ff_good|apply pat_range..].
Qed.
(** vsx: a number is preferred to a quiet NaN *)
Theorem C110_min_max_vsx t a b :
  pfvector t (p_minf Vsx t a b) (fun i x => decode (ff t) x = least_number (ff t) (fpat t a i) (fpat t b i)) /\
  pfvector t (p_maxf Vsx t a b) (fun i x => decode (ff t) x = greatest_number (ff t) (fpat t a i) (fpat t b i)).
Proof.
  split.
  - destruct (p_minf_vsx t a b) as [R L]. split; [exact R|]. intros i Hi. rewrite !fpat_lane, L by exact Hi. apply num_min_ok; [apply ff_good|apply pat_range..].
  - destruct (p_maxf_vsx t a b) as [R L]. split; [exact R|]. intros i Hi. rewrite !fpat_lane, L by exact Hi. apply num_max_ok; [apply ff_good|apply pat_range..].
Qed.
(** f64 on vmx: abs keeps a zero as it is; min and max return their second operand unless the first is less, greater. *)
Theorem C110_vmx_f64 a b :
  pfvector F64 (p_absf Vmx F64 a) (fun i x => decode binary64 x =
    (if is (compare (fvalue F64 a i) (FFin false 0)) Equal then fvalue F64 a i else absolute (fvalue F64 a i))) /\
  pfvector F64 (p_minf Vmx F64 a b) (fun i x => x = if is (frel F64 a b i) Less then fpat F64 a i else fpat F64 b i) /\
  pfvector F64 (p_maxf Vmx F64 a b) (fun i x => x = if is (frel F64 a b i) Greater then fpat F64 a i else fpat F64 b i).
Proof.
  split; [|split].
  - destruct (p_absf_64 a) as [R L]. split; [exact R|]. intros i Hi. rewrite fpat_lane, L by exact Hi. rewrite fvalue_lane. change (ff F64) with binary64. change (fw F64) with 64.
    pose proof (pat_range F64 a i) as P. change (ff F64) with binary64 in P. change (fw F64) with 64 in P. set (x := lane 64 i a) in *.
    assert (G : good_fmt binary64) by (right; left; reflexivity).
    destruct (fopp_opp binary64 x G P) as [O _]. unfold s_absf. cbn [mfmt]. change (decode binary64 0) with (FFin false 0).
    destruct (decode binary64 x) as [|s|s m] eqn:D.
    + cbn [fle compare is]. rewrite O. reflexivity.
    + destruct s; cbn; [rewrite O|rewrite D]; reflexivity.
    + pose proof (mag_nonneg binary64 G x P s m D) as M. cbn [compare sval]. destruct s.
      * assert (F : fle (FFin false 0) (FFin true m) = (m =? 0)) by (cbn; destruct (Z.leb_spec 0 (- m)), (Z.eqb_spec m 0); reflexivity || lia). rewrite F. cbn [sval].
        destruct (Z.compare_spec (- m) 0), (Z.eqb_spec m 0); try lia; cbn [is]; rewrite ?O, ?D; subst; reflexivity.
      * assert (F : fle (FFin false 0) (FFin false m) = true) by (cbn; destruct (Z.leb_spec 0 m); reflexivity || lia). rewrite F, D.
        destruct (is _ _); reflexivity.
  - destruct (p_minf_64 a b) as [R L]. split; [exact R|]. intros i Hi. rewrite !fpat_lane, L by exact Hi. unfold s_minf, frel. rewrite !fvalue_lane, flt_less. reflexivity.
  - destruct (p_maxf_64 a b) as [R L]. split; [exact R|]. intros i Hi. rewrite !fpat_lane, L by exact Hi. unfold s_maxf, frel. rewrite !fvalue_lane, flt_greater. reflexivity.
Qed.
Theorem C110_f16 e a b :
  fvector16 (p_neg16 e a) (fun i x => decode binary32 x = opposite (fvalue16 a i)) /\
  fvector16 (p_abs16 e a) (fun i x => decode binary32 x = absolute (fvalue16 a i)) /\
  fvector16 (p_min16 e a b) (fun i x => decode binary32 x =
    match e with Vmx => least (fvalue16 a i) (fvalue16 b i) | Vsx => least_number binary32 (apattern16 a i) (apattern16 b i) end) /\
  fvector16 (p_max16 e a b) (fun i x => decode binary32 x =
    match e with Vmx => greatest (fvalue16 a i) (fvalue16 b i) | Vsx => greatest_number binary32 (apattern16 a i) (apattern16 b i) end).
Proof.
  assert (S : pair64f e F32 = false) by (destruct e; reflexivity).
  assert (PR : forall v i, 0 <= apattern16 v i < 2 ^ 32) by (intros v i; unfold apattern16; destruct (_ <? _); apply Z.mod_pos_bound; lia).
  assert (G : good_fmt binary32) by (left; reflexivity).
  split; [|split; [|split]].
  - destruct (map16_ok _ _ Neon128 a eq_refl (p_negf_ok e F32)) as [R L]. split; [exact R|]. intros i Hi. unfold p_neg16. rewrite L by exact Hi. apply (fopp_opp binary32); [exact G|apply PR].
  - destruct (map16_ok _ _ Neon128 a eq_refl (fun x => p_absf_ok e F32 x S)) as [R L]. split; [exact R|]. intros i Hi. unfold p_abs16. rewrite L by exact Hi. apply (hw_abs_ok F32). apply PR.
  - destruct e.
    + destruct (map2_16_ok _ _ Neon128 a b eq_refl (fun x y => p_minf_vmx F32 x y ltac:(discriminate))) as [R L]. split; [exact R|]. intros i Hi. unfold p_min16. rewrite L by exact Hi. apply (hw_min_ok binary32); [exact G|apply PR..].
    + destruct (map2_16_ok _ _ Neon128 a b eq_refl (p_minf_vsx F32)) as [R L]. split; [exact R|]. intros i Hi. unfold p_min16. rewrite L by exact Hi. apply (num_min_ok binary32); [exact G|apply PR..].
  - destruct e.
    + destruct (map2_16_ok _ _ Neon128 a b eq_refl (fun x y => p_maxf_vmx F32 x y ltac:(discriminate))) as [R L]. split; [exact R|]. intros i Hi. unfold p_max16. rewrite L by exact Hi. apply (hw_max_ok binary32); [exact G|apply PR..].
    + destruct (map2_16_ok _ _ Neon128 a b eq_refl (p_maxf_vsx F32)) as [R L]. split; [exact R|]. intros i Hi. unfold p_max16. rewrite L by exact Hi. apply (num_max_ok binary32); [exact G|apply PR..].
Qed.
(** Without NaNs the two extensions agree on f32. *)
Theorem C110_without_nan a b i : 0 <= i < 4 -> fvalue F32 a i <> FNaN -> fvalue F32 b i <> FNaN ->
  fvalue F32 (p_minf Vmx F32 a b) i = fvalue F32 (p_minf Vsx F32 a b) i /\ fvalue F32 (p_maxf Vmx F32 a b) i = fvalue F32 (p_maxf Vsx F32 a b) i.
Proof.
  intros Hi A B. destruct (C110_min_max_vmx F32 a b) as [[_ X1] [_ X2]]; [discriminate|]. destruct (C110_min_max_vsx F32 a b) as [[_ Y1] [_ Y2]].
  unfold fvalue in *. rewrite X1, X2, Y1, Y2 by exact Hi. unfold least_number, greatest_number, signaling.
  destruct (decode (ff F32) (fpat F32 a i)); [contradiction|..]; (destruct (decode (ff F32) (fpat F32 b i)); [contradiction|..]); split; reflexivity.
Qed.
(** With a NaN they do not. *)
Theorem C110_min_portable_refuted : ~ (forall e e' t a b i, 0 <= i < 128 / fw t -> fvalue t (p_minf e t a b) i = fvalue t (p_minf e' t a b) i).
Proof. intros C. specialize (C Vmx Vsx F32 0x7FC00000 0 0 ltac:(cbn; lia)). vm_compute in C. discriminate C. Qed.
Theorem C110_max_portable_refuted : ~ (forall e e' t a b i, 0 <= i < 128 / fw t -> fvalue t (p_maxf e t a b) i = fvalue t (p_maxf e' t a b) i).
Proof. intros C. specialize (C Vmx Vsx F64 0 0x7FF8000000000000 0 ltac:(cbn; lia)). vm_compute in C. discriminate C. Qed.
Theorem C110_abs_portable_refuted : ~ (forall e e' t a i, 0 <= i < 128 / fw t -> fvalue t (p_absf e t a) i = fvalue t (p_absf e' t a) i).
Proof. intros C. specialize (C Vmx Vsx F64 (2 ^ 63) 0 ltac:(cbn; lia)). vm_compute in C. discriminate C. Qed.
Example C110_ex : map (fvalue F32 (p_minf Vmx F32 arm_a arm_b)) [1; 2; 3] = [FFin true 0; FNaN; FInf true] /\
  map (fvalue F32 (p_minf Vsx F32 arm_a arm_b)) [1; 2; 3] = [FFin true 0; fvalue F32 arm_b 2; FInf true] /\
  fvalue F32 (p_minf Vsx F32 0x7F800001 0x3F800000) 0 = FNaN /\
  map (fpat F32 (p_negf Vsx F32 arm_b)) [0; 1] = [0xC0000000; 0x80000000] /\
  map (fpat F32 (p_absf Vmx F32 arm_b)) [1; 3] = [0; 0x7F800000] /\ ~ vmx_double Vmx F32 /\ ~ vmx_double Vsx F64.
Proof. vm_compute. repeat split; intros [? ?]; discriminate. Qed.
Print Assumptions C110_bitwise. Print Assumptions C110_neg. Print Assumptions C110_abs. Print Assumptions C110_min_max_vmx. Print Assumptions C110_min_max_vsx. Print Assumptions C110_vmx_f64.
Print Assumptions C110_f16. Print Assumptions C110_without_nan. Print Assumptions C110_min_portable_refuted. Print Assumptions C110_max_portable_refuted. Print Assumptions C110_abs_portable_refuted.

(** ** C111: rounding to integers *)

Theorem C111_round new e t a :
  pfvector t (p_floorf e t a) (fun i x => rounded (ff t) (down (ff t)) (fvalue t a i) (decode (ff t) x)) /\
  pfvector t (p_ceilf e t a) (fun i x => rounded (ff t) (up (ff t)) (fvalue t a i) (decode (ff t) x)) /\
  pfvector t (p_truncf new e t a) (fun i x => rounded (ff t) (toward_zero (ff t)) (fvalue t a i) (decode (ff t) x)) /\
  pfvector t (p_round_to_evenf e t a) (fun i x => rounded (ff t) (nearest (ff t)) (fvalue t a i) (decode (ff t) x)).
Proof. exact (conj (p_floorf_ok e t a) (conj (p_ceilf_ok e t a) (conj (p_truncf_ok new e t a) (p_round_to_evenf_ok e t a)))). Qed.
Theorem C111_f16 new e v :
  fvector16 (p_round16 p_floorf e v) (fun i x => rounded binary32 (down binary32) (fvalue16 v i) (decode binary32 x)) /\
  fvector16 (p_round16 p_ceilf e v) (fun i x => rounded binary32 (up binary32) (fvalue16 v i) (decode binary32 x)) /\
  fvector16 (p_round16 (p_truncf new) e v) (fun i x => rounded binary32 (toward_zero binary32) (fvalue16 v i) (decode binary32 x)) /\
  fvector16 (p_round16 p_round_to_evenf e v) (fun i x => rounded binary32 (nearest binary32) (fvalue16 v i) (decode binary32 x)).
Proof.
  split; [|split; [|split]]; [apply (p_round16_ok down)|apply (p_round16_ok up)|apply (p_round16_ok toward_zero)|apply (p_round16_ok nearest)];
    intros a; [apply p_floorf_ok|apply p_ceilf_ok|apply p_truncf_ok|apply p_round_to_evenf_ok].
Qed.
Example C111_ex : map (fpat F32 (p_floorf Vmx F32 arm_r)) [0; 1; 2; 3] = [0xC0000000; 0x40000000; 0; 0xFF800000] /\
  map (fpat F32 (p_truncf true Vsx F32 arm_r)) [0; 1; 2; 3] = [0xBF800000; 0x40000000; 0; 0xFF800000] /\
  map (fpat F32 (p_round_to_evenf Vsx F32 arm_r)) [0; 1; 2; 3] = [0xC0000000; 0x40000000; 0; 0xFF800000].
Proof. vm_compute. repeat split. Qed.
Print Assumptions C111_round. Print Assumptions C111_f16.

(** ** C112: addv *)

(** Every element is added once, from left to right on both extensions. *)
Theorem C112_addv t a : t <> F16 -> p_addvf t a = sum (fadd (ff t)) (left_to_right t) (fpat t a) /\ each_once (128 / fw t) (left_to_right t).
Proof. intros T. split; [exact (p_addvf_order t a T)|exact (left_once t T)]. Qed.
Theorem C112_exact t a j n : t <> F16 -> small_sum (ff t) (128 / fw t) (fvalue t a) j n ->
  exists s m, decode (ff t) (p_addvf t a) = FFin s m /\ sval s m = total (128 / fw t) n * 2 ^ j.
Proof. exact (p_addvf_exact t a j n). Qed.
Theorem C112_addv_f16 v : p_addv16 v = f32_to_u16 (sum (fadd binary32) left_to_right16 (apattern16 v)) /\ each_once 8 left_to_right16.
Proof. split; [apply p_addv16_order|exact left16_once]. Qed.
Theorem C112_exact_f16 v j n : small_sum binary32 8 (fvalue16 v) j n ->
  exists b s m, p_addv16 v = f32_to_u16 b /\ decode binary32 b = FFin s m /\ sval s m = total 8 n * 2 ^ j.
Proof. exact (p_addv16_exact v j n). Qed.
(** Sums that round depend on the order: AArch64 adds two by two. 2^24, 1, 1, 1 *)
Theorem C112_portable_refuted : ~ (forall a, in_reg 128 a -> p_addvf F32 a = a_addvf Aarch64 F32 a).
Proof. intros C. specialize (C (0x4B800000 + 0x3F800000 * 2 ^ 32 + 0x3F800000 * 2 ^ 64 + 0x3F800000 * 2 ^ 96) ltac:(split; vm_compute; congruence)). vm_compute in C. discriminate C. Qed.
Example C112_ex : small_sum binary32 4 (fvalue F32 arm_exact) 148 (fun i => if i =? 0 then 6 else if i =? 1 then -2 else if i =? 2 then 1 else 2) /\
  p_addvf F32 arm_exact = 0x40600000.
Proof. split; [exact (proj1 C87_ex)|vm_compute; reflexivity]. Qed.
Print Assumptions C112_addv. Print Assumptions C112_exact. Print Assumptions C112_addv_f16. Print Assumptions C112_exact_f16. Print Assumptions C112_portable_refuted.

(** ** C113: logicals of floats: reductions, masks, memory, loop tails *)

Theorem C113_reductions e t l p : plogical (fu t) l p ->
  (p_allf e t l = true <-> (forall i, 0 <= i < 128 / fw t -> p i = true)) /\
  (p_anyf e t l = true <-> (exists i, 0 <= i < 128 / fw t /\ p i = true)) /\ p_nbtruef e t l = Some (count_true (128 / fw t) p).
Proof.
  intros L. pose proof (fu_in t) as I. pose proof (p_all_ok e (fu t) l p I L) as A. pose proof (p_any_ok e (fu t) l p I L) as B. pose proof (p_nbtrue_ok e (fu t) l p I L) as C.
  rewrite fu_bits in A, B, C. exact (conj A (conj B C)).
Qed.
Theorem C113_reductions_f16 e l p : plogical16 l p ->
  (p_all16 e l = true <-> (forall i, 0 <= i < 8 -> p i = true)) /\
  (p_any16 e l = true <-> (exists i, 0 <= i < 8 /\ p i = true)) /\ p_nbtrue16 e l = Some (count_true 8 p).
Proof. intros L. split; [apply p_all16_ok; assumption|split; [apply p_any16_ok; assumption|apply p_nbtrue16_ok; assumption]]. Qed.
(** to_logical looks at the bits: -0.0 is true. *)
Theorem C113_masks e t l p a : plogical (fu t) l p ->
  pfvector t (p_to_maskf e t l) (fun i x => x = if p i then 2 ^ fw t - 1 else 0) /\
  plogical (fu t) (p_to_logicalf e t a) (fun i => negb (fpat t a i =? 0)).
Proof. intros L. split; [exact (p_to_maskf_ok e t l p L)|exact (p_to_logicalf_ok e t a)]. Qed.
Theorem C113_masks_f16 e l p v : plogical16 l p ->
  fvector16 (p_to_mask16 l) (fun i x => x = if p i then 2 ^ 32 - 1 else 0) /\ plogical16 (p_to_logical16 e v) (fun i => negb (apattern16 v i =? 0)).
Proof. intros L. split; [exact (p_to_mask16_ok l p L)|exact (p_to_logical16_ok e v)]. Qed.
Theorem C113_set1 e t x k : 0 <= x < 2 ^ fw t -> pfvector t (p_set1f e t x) (fun _ y => y = x) /\ plogical (fu t) (p_set1lf e t k) (fun _ => negb (k =? 0)).
Proof. intros X. split; [exact (p_set1f_ok e t x X)|exact (p_set1lf_ok e t k)]. Qed.
Theorem C113_set1_f16 h k : in_u 16 h -> (exists r, p_set16 h = Some r /\ fvector16 r (fun _ x => half_as_single h x)) /\ plogical16 (p_set1l16 k) (fun _ => negb (k =? 0)).
Proof. intros H. split; [exact (p_set16_ok h H)|exact (p_set1l16_ok k)]. Qed.
(** loadl compares with zero: -0.0 is false. *)
Theorem C113_loadl al e t m a : vector_address (fm t) a -> (forall i, 0 <= i < 128 / fw t -> mapped (fw t) m (a + i * (fw t / 8))) ->
  exists l x, p_loadlf al e t m a = Some l /\
    (forall i, 0 <= i < 128 / fw t -> holds (fw t) m (a + i * (fw t / 8)) (x i)) /\ plogical (fu t) l (fun i => nonzero (ff t) (x i)).
Proof. exact (p_loadlf_ok al e t m a). Qed.
Theorem C113_storel al e t m a l p : vector_address (fm t) a -> plogical (fu t) l p -> (forall i, 0 <= i < 128 / fw t -> mapped (fw t) m (a + i * (fw t / 8))) ->
  exists m' x, p_storelf al e t m a l = Some m' /\
    (forall i, 0 <= i < 128 / fw t -> holds (fw t) m' (a + i * (fw t / 8)) (x i) /\ decode (ff t) (x i) = FFin false (if p i then one (ff t) else 0)) /\
    (forall k, k < a \/ a + 16 <= k -> m' k = m k).
Proof. exact (p_storelf_ok al e t m a l p). Qed.
Theorem C113_round_trip al al' e t m a l p : vector_address (fm t) a -> plogical (fu t) l p -> (forall i, 0 <= i < 128 / fw t -> mapped (fw t) m (a + i * (fw t / 8))) ->
  exists m' l', p_storelf al e t m a l = Some m' /\ p_loadlf al' e t m' a = Some l' /\ plogical (fu t) l' p.
Proof.
  intros Va L Mp. destruct (C113_storel al e t m a l p Va L Mp) as (m' & x & E & A & _).
  assert (Mp' : forall i, 0 <= i < 128 / fw t -> mapped (fw t) m' (a + i * (fw t / 8))) by (intros i Hi; eapply holds_mapped; apply A; exact Hi).
  destruct (C113_loadl al' e t m' a Va Mp') as (l' & y & E' & A' & L'). exists m', l'. split; [exact E|]. split; [exact E'|].
  eapply plogical_ext; [exact L'|]. intros i Hi. rewrite fu_bits in Hi. cbv beta. unfold nonzero. destruct (A i Hi) as [Hh D].
  rewrite (holds_unique _ _ _ _ _ (fw_ok8 t) (A' i Hi) Hh), D. assert (O := one_pos (ff t) (ff_good t)). cbn [compare].
  destruct (p i); unfold sval; [|reflexivity]. destruct (Z.compare_spec (one (ff t)) 0); try lia; reflexivity.
Qed.
Theorem C113_loadl_f16 e m a : (forall i, 0 <= i < 8 -> mapped 16 m (a + i * 2)) ->
  exists l h, p_loadl16 e m a = Some l /\ (forall i, 0 <= i < 8 -> holds 16 m (a + i * 2) (h i)) /\ plogical16 l (fun i => nonzero binary16 (h i)).
Proof. exact (p_loadl16_ok e m a). Qed.
Theorem C113_storel_f16 e m a l p : plogical16 l p -> (forall i, 0 <= i < 8 -> mapped 16 m (a + i * 2)) ->
  exists m', p_storel16 e m a l = Some m' /\ (forall i, 0 <= i < 8 -> holds 16 m' (a + i * 2) (if p i then 0x3C00 else 0)) /\
    (forall k, k < a \/ a + 16 <= k -> m' k = m k).
Proof. exact (p_storel16_ok e m a l p). Qed.
Theorem C113_iota e t : pfvector t (p_iotaf e t) (fun i x => decode (ff t) x = FFin false (i * one (ff t))).
Proof. destruct (p_iotaf_ok e t) as [R L]. split; [exact R|]. intros i Hi. rewrite L by exact Hi. pose proof (fcount t). apply small_float. lia. Qed.
Theorem C113_iota_f16 : fvector16 p_iota16 (fun i x => decode binary32 x = FFin false (i * one binary32)).
Proof. destruct p_iota16_ok as [R L]. split; [exact R|]. intros i Hi. rewrite L by exact Hi. apply (small_float F32). lia. Qed.
Theorem C113_loop_tail e t i n : n <= i \/ in_ty i32 (n - i) ->
  exists l, p_mask_for_loop_tailf e t i n = Some l /\ plogical (fu t) l (fun k => i + k <? n).
Proof. exact (p_tailf_ok e t i n). Qed.
Theorem C113_loop_tail_f16 e i n : n <= i \/ in_ty i32 (n - i) ->
  exists l, p_mask_for_loop_tail16 e i n = Some l /\ plogical16 l (fun k => i + k <? n).
Proof. exact (p_tail16_ok e i n). Qed.
Example C113_ex : vector_address MF32 32 /\ p_allf Vmx F32 (2 ^ 128 - 1) = true /\ p_allf Vmx F64 (2 ^ 64 - 1) = false /\ p_nbtruef Vsx F32 (2 ^ 128 - 2 ^ 32) = Some 3 /\
  option_map (fun l => map (fpat F32 l) [0; 1; 2; 3]) (p_mask_for_loop_tailf Vsx F32 7 9) = Some [2 ^ 32 - 1; 2 ^ 32 - 1; 0; 0] /\
  option_map (fun l => map (apattern16 l) [0; 4; 5]) (p_mask_for_loop_tail16 Vmx 3 8) = Some [2 ^ 32 - 1; 2 ^ 32 - 1; 0] /\
  option_map (fun l => map (fpat F32 l) [0; 1]) (p_loadlf true Vmx F32 (fun k => Some (if k =? 3 then 0x80 else if k =? 6 then 0x80 else 0)) 0) = Some [0; 2 ^ 32 - 1].
Proof. split; [right; exists 2; reflexivity|]. vm_compute. repeat split. Qed.
Print Assumptions C113_reductions. Print Assumptions C113_reductions_f16. Print Assumptions C113_masks. Print Assumptions C113_masks_f16. Print Assumptions C113_set1. Print Assumptions C113_set1_f16.
Print Assumptions C113_loadl. Print Assumptions C113_storel. Print Assumptions C113_round_trip. Print Assumptions C113_loadl_f16. Print Assumptions C113_storel_f16. Print Assumptions C113_iota.
Print Assumptions C113_iota_f16. Print Assumptions C113_loop_tail. Print Assumptions C113_loop_tail_f16.
