(** Proofs for ArmFloat.v: comparisons and logicals. *)
From Coq Require Import ZArith List Bool Lia ZifyBool.
From Verif Require Import CInt BitLemmas FloatSpec FloatProofs Fp16 ScalarOps ScalarSpec ScalarProofs CpuSimd RoundEven X86Deg234 X86Arith X86ArithSpec X86LaneLemmas
  X86ArithProofs X86EmulProofs X86LogicProofs X86SelectProofs X86RedProofs X86FmaProofs X86Mem X86MemSpec X86MemProofs X86Cvt X86CvtSpec X86CvtProofs2 X86Float X86FloatSpec
  X86FloatProofs X86FloatProofs2 Arm ArmSpec ArmProofs ArmProofs2 ArmProofs3 ArmProofs4 ArmPermSpec ArmMem ArmMemSpec ArmMemProofs ArmMemProofs2 ArmFloat ArmFloatSpec.
Import ListNotations.
Open Scope Z_scope.

Lemma fu_in t : In (fu t) int_types. Proof. destruct t; cbn; tauto. Qed.
Lemma fu_bits t : bits (fu t) = fw t. Proof. destruct t; reflexivity. Qed.
Lemma fm_mw t : mw (fm t) = fw t. Proof. destruct t; reflexivity. Qed.
Lemma ff_width t : width (ff t) = fw t. Proof. destruct t; reflexivity. Qed.
Lemma ff_good t : good_fmt (ff t). Proof. destruct t; [right; right|left|right; left]; reflexivity. Qed.
Lemma fw_cases t : fw t = 8 \/ fw t = 16 \/ fw t = 32 \/ fw t = 64. Proof. destruct t; cbn; tauto. Qed.
Lemma fw_pos t : 16 <= fw t <= 64. Proof. destruct t; cbn; lia. Qed.
Lemma okw_fa e t : okw (an e) (fw t). Proof. apply okw_an, fw_cases. Qed.
Lemma fpat_lane t r i : fpat t r i = lane (fw t) i r. Proof. reflexivity. Qed.
Lemma fvalue_lane t r i : fvalue t r i = decode (ff t) (lane (fw t) i r). Proof. reflexivity. Qed.
Lemma elt_fpat t r i : elt (fu t) r i = fpat t r i.
Proof.
  rewrite elt_lane, fu_bits, fpat_lane. apply cast_s; [apply fu_in|]. pose proof (fw_pos t).
  pose proof (lane_range (fw t) i r ltac:(lia)). destruct t; unfold in_ty, ty_min, ty_max; cbn in *; lia.
Qed.
Lemma struct64_e e t : struct64 e t = true -> e = Neon128 /\ t = F64.
Proof. destruct e, t; try discriminate. auto. Qed.
Lemma okw64 : okw 128 64. Proof. unfold okw; cbn; lia. Qed.
Lemma alog_reg e t l p : is_pred e = false -> reg_logical (an e) (fw t) l p -> alogical e (fu t) l p.
Proof. intros P L. rewrite alogical_reg by exact P. rewrite fu_bits. exact L. Qed.

(** a structure of two lanes *)
Lemma build64 (f : Z -> Z) : in_reg 128 (build 64 2 f) /\ forall i, 0 <= i < 2 -> lane 64 i (build 64 2 f) = f i mod 2 ^ 64.
Proof.
  change 2%nat with (nlanes 128 64). split; [apply in_reg_build, okw64|]. intros i Hi. apply lane_buildn; [apply okw64|exact Hi].
Qed.
Lemma struct_logical (f : Z -> Z) (p : Z -> bool) : (forall i, 0 <= i < 2 -> f i mod 2 ^ 64 = if p i then 2 ^ 64 - 1 else 0) -> alogical Neon128 u64 (build 64 2 f) p.
Proof.
  intros E. destruct (build64 f) as [R L]. rewrite alogical_reg by reflexivity. split; [exact R|]. intros i Hi. change (0 <= i < 2) in Hi.
  change (bits u64) with 64. rewrite L, E by exact Hi. reflexivity.
Qed.
Lemma struct_lanes l p i : alogical Neon128 u64 l p -> 0 <= i < 2 -> lane 64 i l = if p i then 2 ^ 64 - 1 else 0.
Proof. intros L Hi. rewrite alogical_reg in L by reflexivity. apply L. exact Hi. Qed.

(** ** Comparisons *)

Lemma a_cmpf_ok u p e t a b : alogical e (fu t) (a_cmpf u p e t a b) (fun i => p (fvalue t a i) (fvalue t b i)).
Proof.
  assert (NEON : is_neon e = true -> alogical e (fu t) (v_2 (fw t) (l_cmpf t p) a b) (fun i => p (fvalue t a i) (fvalue t b i))).
  { intros E. apply alog_reg; [destruct e; try discriminate; reflexivity|]. unfold v_2, lanewise2. rewrite <- (an_neon e E). pose proof (okw_fa e t) as O. pose proof (fw_pos t).
    split; [apply in_reg_build; exact O|]. intros i Hi. rewrite lane_buildn by assumption. unfold l_cmpf. rewrite !fvalue_lane.
    destruct (p _ _); [apply m1_mod; lia|apply Zmod_0_l]. }
  unfold a_cmpf. destruct e as [| |b' vq].
  - destruct (struct64 Neon128 t) eqn:S; [|apply NEON; reflexivity]. apply struct64_e in S as [_ ->]. apply struct_logical. intros i Hi.
    rewrite !fvalue_lane. cbn [ff fw]. destruct (p _ _); reflexivity.
  - cbn [struct64]. destruct t; apply NEON; reflexivity.
  - apply from_pred_ok; [apply fu_in|reflexivity|]. rewrite fu_bits. unfold sv_cmpf. split; [apply in_reg_pred; [apply okw_fa|apply fw_cases]|].
    intros i Hi. rewrite lane_pred by (apply okw_fa || apply fw_cases || exact Hi). rewrite <- fu_bits at 1. rewrite active_true by (apply fu_in || (rewrite fu_bits; exact Hi)).
    cbn [andb]. rewrite !fvalue_lane. reflexivity.
Qed.
Lemma alog_ext e t l p q : alogical e (fu t) l p -> (forall i, p i = q i) -> alogical e (fu t) l q.
Proof. intros L E. eapply alogical_ext; [exact L|]. intros. apply E. Qed.
Lemma a_eqf_ok u e t a b : alogical e (fu t) (a_eqf u e t a b) (fun i => is (frel t a b i) Equal).
Proof. eapply alog_ext; [apply a_cmpf_ok|]. intros i. apply is_equal. Qed.
Lemma a_ltf_ok u e t a b : alogical e (fu t) (a_ltf u e t a b) (fun i => is (frel t a b i) Less).
Proof. eapply alog_ext; [apply a_cmpf_ok|]. intros i. apply flt_less. Qed.
Lemma a_gtf_ok u e t a b : alogical e (fu t) (a_gtf u e t a b) (fun i => is (frel t a b i) Greater).
Proof. eapply alog_ext; [apply a_cmpf_ok|]. intros i. apply flt_greater. Qed.
Lemma a_lef_ok u e t a b : alogical e (fu t) (a_lef u e t a b) (fun i => is (frel t a b i) Less || is (frel t a b i) Equal).
Proof. eapply alog_ext; [apply a_cmpf_ok|]. intros i. apply is_le. Qed.
Lemma a_gef_ok u e t a b : alogical e (fu t) (a_gef u e t a b) (fun i => is (frel t a b i) Greater || is (frel t a b i) Equal).
Proof. eapply alog_ext; [apply a_cmpf_ok|]. intros i. apply is_ge. Qed.
Lemma lnot_mask (p : bool) : Z.lnot (if p then 2 ^ 64 - 1 else 0) mod 2 ^ 64 = if negb p then 2 ^ 64 - 1 else 0.
Proof. destruct p; reflexivity. Qed.
Lemma a_notlf_ok u e t l p : alogical e (fu t) l p -> alogical e (fu t) (a_notlf u e t l) (fun i => negb (p i)).
Proof.
  intros L. unfold a_notlf. destruct (struct64 e t) eqn:S; [|apply a_notl_ok; [apply fu_in|exact L]]. apply struct64_e in S as [-> ->].
  apply struct_logical. intros i Hi. rewrite (struct_lanes l p) by assumption. apply lnot_mask.
Qed.
Lemma a_nef_ok u e t a b : alogical e (fu t) (a_nef u e t a b) (fun i => negb (is (frel t a b i) Equal)).
Proof.
  destruct e as [| |b' vq]; [apply a_notlf_ok, a_eqf_ok..|].
  change (a_nef u (Sve b' vq) t a b) with (a_cmpf u (fun x y => negb (feqb x y)) (Sve b' vq) t a b). eapply alog_ext; [apply a_cmpf_ok|]. intros i. apply is_ne.
Qed.
Lemma a_if_else1f_ok u e t l p a b : in_reg (an e) a -> in_reg (an e) b -> alogical e (fu t) l p ->
  selects (an e) (fw t) p a b (a_if_else1f u e t l a b).
Proof.
  intros Ha Hb L. unfold a_if_else1f. destruct (struct64 e t) eqn:S.
  - apply struct64_e in S as [-> ->]. destruct (build64 (fun i => if negb (lane 64 i l =? 0) then lane 64 i a else lane 64 i b)) as [R B].
    split; [exact R|]. intros i Hi. change (0 <= i < 2) in Hi. cbn [fw]. rewrite B, (struct_lanes l p) by assumption.
    rewrite (ones_nonzero 64) by lia. destruct (p i); apply Z.mod_small, lane_range; lia.
  - rewrite <- fu_bits. apply a_if_else1_ok; [apply fu_in|assumption..].
Qed.

(** ** Logicals *)

Lemma a_lop2f_ok g op f e t a b p q :
  (forall e t a b p q, In t int_types -> alogical e t a p -> alogical e t b q -> alogical e t (op e t a b) (fun i => g (p i) (q i))) ->
  (forall p q : bool, f (if p then 2 ^ 64 - 1 else 0) (if q then 2 ^ 64 - 1 else 0) mod 2 ^ 64 = if g p q then 2 ^ 64 - 1 else 0) ->
  alogical e (fu t) a p -> alogical e (fu t) b q -> alogical e (fu t) (a_lop2f f op e t a b) (fun i => g (p i) (q i)).
Proof.
  intros O F A B. unfold a_lop2f. destruct (struct64 e t) eqn:S; [|apply O; [apply fu_in|assumption..]]. apply struct64_e in S as [-> ->].
  apply struct_logical. intros i Hi. rewrite (struct_lanes a p), (struct_lanes b q) by assumption. apply F.
Qed.
Lemma lop_f_ok u e t a b p q : alogical e (fu t) a p -> alogical e (fu t) b q ->
  alogical e (fu t) (a_andlf u e t a b) (fun i => p i && q i) /\ alogical e (fu t) (a_orlf u e t a b) (fun i => p i || q i) /\
  alogical e (fu t) (a_xorlf u e t a b) (fun i => xorb (p i) (q i)) /\ alogical e (fu t) (a_andnotlf u e t a b) (fun i => p i && negb (q i)).
Proof.
  intros A B. split; [|split; [|split]].
  - apply (a_lop2f_ok andb); [intros; apply a_andl_ok; assumption|intros [] []; reflexivity|assumption..].
  - apply (a_lop2f_ok orb); [intros; apply a_orl_ok; assumption|intros [] []; reflexivity|assumption..].
  - apply (a_lop2f_ok xorb); [intros; apply a_xorl_ok; assumption|intros [] []; reflexivity|assumption..].
  - apply (a_lop2f_ok (fun x y => x && negb y)); [intros; apply a_andnotl_ok; assumption|intros [] []; reflexivity|assumption..].
Qed.
Lemma a_allf_ok u e t l p : alogical e (fu t) l p -> a_allf u e t l = true <-> (forall i, 0 <= i < felems e t -> p i = true).
Proof.
  intros L. unfold a_allf. destruct (struct64 e t) eqn:S.
  - apply struct64_e in S as [-> ->]. rewrite !(struct_lanes l p) by (assumption || lia). rewrite !(ones_nonzero 64) by lia. change (felems Neon128 F64) with 2.
    rewrite andb_true_iff. split; [|intros A; split; apply A; lia]. intros [A B] i Hi. assert (i = 0 \/ i = 1) as [->| ->] by lia; assumption.
  - unfold felems. rewrite <- fu_bits. apply a_all_ok; [apply fu_in|exact L].
Qed.
Lemma a_anyf_ok u e t l p : alogical e (fu t) l p -> a_anyf u e t l = true <-> (exists i, 0 <= i < felems e t /\ p i = true).
Proof.
  intros L. unfold a_anyf. destruct (struct64 e t) eqn:S.
  - apply struct64_e in S as [-> ->]. rewrite !(struct_lanes l p) by (assumption || lia). rewrite !(ones_nonzero 64) by lia. change (felems Neon128 F64) with 2.
    rewrite orb_true_iff. split.
    + intros [A|A]; eexists; (split; [|exact A]); lia.
    + intros (i & Hi & A). assert (i = 0 \/ i = 1) as [->| ->] by lia; auto.
  - unfold felems. rewrite <- fu_bits. apply a_any_ok; [apply fu_in|exact L].
Qed.
Lemma a_nbtruef_ok u e t l p : architectural e -> alogical e (fu t) l p -> a_nbtruef u e t l = count_true (felems e t) p.
Proof.
  intros A L. unfold a_nbtruef. destruct (struct64 e t) eqn:S.
  - apply struct64_e in S as [-> ->]. rewrite !(struct_lanes l p) by (assumption || lia). change (felems Neon128 F64) with 2. unfold count_true. change (seq 0 (Z.to_nat 2)) with [0%nat; 1%nat]. cbn [filter]. change (Z.of_nat 0) with 0. change (Z.of_nat 1) with 1.
    destruct (p 0), (p 1); reflexivity.
  - unfold felems. rewrite <- fu_bits. apply a_nbtrue_ok; [apply fu_in|assumption..].
Qed.
Lemma a_to_maskf_ok e t l p : alogical e (fu t) l p -> fvector e t (a_to_maskf e t l) (fun i x => x = if p i then 2 ^ fw t - 1 else 0).
Proof.
  intros L. destruct (a_to_mask_ok e (fu t) (fu_in t) l p L) as [R V]. split; [exact R|]. intros i Hi. rewrite <- elt_fpat. rewrite fu_bits in V.
  unfold a_to_maskf. rewrite V by exact Hi. destruct (p i); [destruct t; reflexivity|reflexivity].
Qed.
Lemma a_to_logicalf_ok u e t a : alogical e (fu t) (a_to_logicalf u e t a) (fun i => negb (fpat t a i =? 0)).
Proof. eapply alog_ext; [apply a_to_logical_ok, fu_in|]. intros i. cbn beta. rewrite elt_fpat. reflexivity. Qed.
Lemma a_set1f_ok e t x : 0 <= x < 2 ^ fw t -> fvector e t (a_set1f e t x) (fun _ y => y = x).
Proof.
  intros Hx. unfold a_set1f. destruct (lane_set1_a e (fu t) (fu_in t) x 0) as [R _]; [rewrite fu_bits; pose proof (n_pos e (fu t) (fu_in t)); rewrite fu_bits in *; lia|].
  split; [exact R|]. intros i Hi. rewrite fpat_lane. destruct (lane_set1_a e (fu t) (fu_in t) x i) as [_ E]; [rewrite fu_bits; exact Hi|]. rewrite fu_bits in E. rewrite E.
  apply Z.mod_small, Hx.
Qed.
