(** Proofs about the POWER operators on floating-point vectors: lanes, comparisons, logicals. *)
From Coq Require Import ZArith Lia List Bool ZifyBool.
From Verif Require Import CInt BitLemmas FloatSpec FloatProofs Fp16Spec Fp16 Fp16Proofs ScalarOps ScalarSpec ScalarProofs RoundEven RoundEvenProofs
  X86Deg234 X86Arith X86ArithSpec X86LaneLemmas X86SelectProofs X86Mem X86MemSpec X86MemProofs X86Cvt X86CvtSpec X86CvtProofs2 X86CvtProofs4 X86Float X86FloatSpec
  X86FloatProofs X86FloatProofs2 X86FloatProofs3 X86FloatProofs7 Arm ArmSpec ArmProofs ArmPermSpec ArmPermProofs ArmMem ArmMemSpec
  ArmFloat ArmFloatSpec ArmFloatProofs ArmFloatProofs2 ArmFloatProofs3 FloatArith FloatArithSpec ScalarFloat X86FloatArith
  Ppc PpcSpec PpcProofs PpcProofs2 PpcProofs3 PpcMem PpcMemSpec PpcFloat PpcFloatSpec.
Import ListNotations.
Open Scope Z_scope.

Lemma okf t : okw 128 (fw t). Proof. exact (okw_fa Neon128 t). Qed.
Lemma felems_p t : felems Neon128 t = 128 / fw t. Proof. reflexivity. Qed.
Lemma pair_inv e t : pair64f e t = true -> e = Vmx /\ t = F64. Proof. destruct e, t; try discriminate. split; reflexivity. Qed.
Lemma insert_each_lane w f : okw 128 w -> forall k i r j, 0 <= j < 128 / w -> lane w j (insert_each w f i k r) = if (i <=? j) && (j <? i + Z.of_nat k) then f j mod 2 ^ w else lane w j r.
Proof.
  intros O. induction k as [|k IH]; intros i r j Hj.
  - cbn [insert_each]. destruct (Z.leb_spec i j), (Z.ltb_spec j (i + Z.of_nat 0)); cbn [andb]; reflexivity || lia.
  - cbn [insert_each]. rewrite IH by exact Hj. rewrite lane_vinsert by assumption. destruct (Z.eqb_spec j i) as [->|N].
    + replace (i + 1 <=? i) with false by lia. cbn [andb]. replace (i <=? i) with true by lia. replace (i <? i + Z.of_nat (S k)) with true by lia. reflexivity.
    + destruct (Z.leb_spec (i + 1) j), (Z.ltb_spec j (i + 1 + Z.of_nat k)), (Z.leb_spec i j), (Z.ltb_spec j (i + Z.of_nat (S k))); cbn [andb]; reflexivity || lia.
Qed.
Lemma insert_each_reg w f : okw 128 w -> forall k i r, in_reg 128 r -> in_reg 128 (insert_each w f i k r).
Proof.
  intros O. induction k as [|k IH]; intros i r R; [exact R|]. cbn [insert_each]. apply IH. apply in_reg_build. exact O.
Qed.

Lemma each_scalar_ok w f : okw 128 w -> w <= 128 -> in_reg 128 (each_scalar w f) /\ forall i, 0 <= i < 128 / w -> lane w i (each_scalar w f) = f i mod 2 ^ w.
Proof.
  intros O W. unfold each_scalar. split; [apply insert_each_reg; [exact O|apply in_reg_splats; exact O]|]. intros i Hi.
  pose proof (nlanes_pos w O W) as P. rewrite insert_each_lane by assumption. assert (N : Z.of_nat (nlanes 128 w) = 128 / w) by (unfold nlanes; rewrite Z2Nat.id; lia).
  assert (N1 : Z.of_nat (nlanes 128 w - 1) = 128 / w - 1) by (rewrite Nat2Z.inj_sub by lia; lia). rewrite N1.
  destruct (Z.leb_spec 1 i) as [L|L].
  - replace (i <? 1 + (128 / w - 1)) with true by lia. reflexivity.
  - cbn [andb]. assert (i = 0) as -> by lia. apply lane_splats; assumption.
Qed.
Lemma each64_ok f : in_reg 128 (each64 f) /\ forall i, 0 <= i < 2 -> lane 64 i (each64 f) = f i mod 2 ^ 64.
Proof.
  unfold each64. split; [apply in_reg_pair64|]. intros i Hi. rewrite lane_pair64 by exact Hi. destruct (Z.eqb_spec i 0) as [->|N]; [reflexivity|]. replace i with 1 by lia. reflexivity.
Qed.
(** either way of filling a vector *)
Lemma filled_ok e t f : in_reg 128 (if pair64f e t then each64 f else each_scalar (fw t) f) /\
  forall i, 0 <= i < 128 / fw t -> lane (fw t) i (if pair64f e t then each64 f else each_scalar (fw t) f) = f i mod 2 ^ fw t.
Proof.
  destruct (pair64f e t) eqn:P; [|apply each_scalar_ok; [apply okf|pose proof (fw_pos t); lia]].
  apply pair_inv in P as [_ ->]. change (128 / fw F64) with 2. change (fw F64) with 64. apply each64_ok.
Qed.
Lemma p_1_maps e t s v a : (forall x, 0 <= x < 2 ^ fw t -> 0 <= (if pair64f e t then s else v) x < 2 ^ fw t) -> mapsf Neon128 t (if pair64f e t then s else v) a (p_1 e t s v a).
Proof.
  unfold p_1. destruct (pair64f e t) eqn:P; intros F; [|exact (v_1_maps Neon128 t v a eq_refl F)].
  apply pair_inv in P as [_ ->]. destruct (each64_ok (fun i => s (lane 64 i a))) as [R L]. split; [exact R|]. intros i Hi. change (fw F64) with 64 in *. rewrite L by exact Hi.
  apply Z.mod_small. apply F. apply lane_range. lia.
Qed.
Lemma p_2_maps e t s v a b : (forall x y, 0 <= x < 2 ^ fw t -> 0 <= y < 2 ^ fw t -> 0 <= (if pair64f e t then s else v) x y < 2 ^ fw t) ->
  maps2f Neon128 t (if pair64f e t then s else v) a b (p_2 e t s v a b).
Proof.
  unfold p_2. destruct (pair64f e t) eqn:P; intros F; [|exact (v_2_maps Neon128 t v a b eq_refl F)].
  apply pair_inv in P as [_ ->]. destruct (each64_ok (fun i => s (lane 64 i a) (lane 64 i b))) as [R L]. split; [exact R|]. intros i Hi. change (fw F64) with 64 in *. rewrite L by exact Hi.
  apply Z.mod_small. apply F; apply lane_range; lia.
Qed.
(** an operator whose scalar and built-in are the same function *)
Lemma p_1_same e t (g : fmt -> Z -> Z) a : (forall x, 0 <= x < 2 ^ fw t -> 0 <= g (ff t) x < 2 ^ fw t) -> mapsf Neon128 t (g (ff t)) a (p_1 e t (g binary64) (g (ff t)) a).
Proof.
  intros F. assert (G : (if pair64f e t then g binary64 else g (ff t)) = g (ff t)) by (destruct (pair64f e t) eqn:P; [apply pair_inv in P as [_ ->]|]; reflexivity).
  pose proof (p_1_maps e t (g binary64) (g (ff t)) a) as M. rewrite G in M. apply M. exact F.
Qed.
Lemma p_2_same e t (g : fmt -> Z -> Z -> Z) a b : (forall x y, 0 <= x < 2 ^ fw t -> 0 <= y < 2 ^ fw t -> 0 <= g (ff t) x y < 2 ^ fw t) ->
  maps2f Neon128 t (g (ff t)) a b (p_2 e t (g binary64) (g (ff t)) a b).
Proof.
  intros F. assert (G : (if pair64f e t then g binary64 else g (ff t)) = g (ff t)) by (destruct (pair64f e t) eqn:P; [apply pair_inv in P as [_ ->]|]; reflexivity).
  pose proof (p_2_maps e t (g binary64) (g (ff t)) a b) as M. rewrite G in M. apply M. exact F.
Qed.

(** ** Comparisons *)
Lemma plog_eq t l p : plogical (fu t) l p <-> in_reg 128 l /\ forall i, 0 <= i < 128 / fw t -> lane (fw t) i l = if p i then 2 ^ fw t - 1 else 0.
Proof. unfold plogical. rewrite fu_bits. reflexivity. Qed.
Lemma p_cmpf_ok p e t a b : plogical (fu t) (p_cmpf p e t a b) (fun i => p (fvalue t a i) (fvalue t b i)).
Proof.
  apply plog_eq. unfold p_cmpf. cbv zeta.
  destruct (filled_ok e t (fun i => if p (decode (ff t) (lane (fw t) i a)) (decode (ff t) (lane (fw t) i b)) then -1 else 0)) as [R L].
  split; [exact R|]. intros i Hi. rewrite L by exact Hi. rewrite truth_mod by (pose proof (fw_pos t); lia). rewrite <- !fvalue_lane. reflexivity.
Qed.
Lemma plog_all t l p q : plogical t l p -> (forall i, p i = q i) -> plogical t l q.
Proof. intros L E. eapply plogical_ext; [exact L|]. intros i _. apply E. Qed.
Lemma p_eqf_ok e t a b : plogical (fu t) (p_eqf e t a b) (fun i => is (frel t a b i) Equal).
Proof. eapply plog_all; [apply p_cmpf_ok|]. intros i. apply is_equal. Qed.
Lemma p_nef_ok e t a b : plogical (fu t) (p_nef e t a b) (fun i => negb (is (frel t a b i) Equal)).
Proof. eapply plog_all; [apply p_cmpf_ok|]. intros i. apply is_ne. Qed.
Lemma p_ltf_ok e t a b : plogical (fu t) (p_ltf e t a b) (fun i => is (frel t a b i) Less).
Proof. eapply plog_all; [apply p_cmpf_ok|]. intros i. apply flt_less. Qed.
Lemma p_gtf_ok e t a b : plogical (fu t) (p_gtf e t a b) (fun i => is (frel t a b i) Greater).
Proof. eapply plog_all; [apply p_cmpf_ok|]. intros i. apply flt_greater. Qed.
Lemma p_lef_ok e t a b : plogical (fu t) (p_lef e t a b) (fun i => is (frel t a b i) Less || is (frel t a b i) Equal).
Proof. eapply plog_all; [apply p_cmpf_ok|]. intros i. apply is_le. Qed.
Lemma p_gef_ok e t a b : plogical (fu t) (p_gef e t a b) (fun i => is (frel t a b i) Greater || is (frel t a b i) Equal).
Proof. eapply plog_all; [apply p_cmpf_ok|]. intros i. apply is_ge. Qed.
Lemma p_cmp16_ok (f : pext -> fty -> Z -> Z -> Z) (g : relation -> bool) e a b :
  (forall a b, plogical (fu F32) (f e F32 a b) (fun i => g (frel F32 a b i))) -> plogical16 (p_cmp16 f e a b) (fun i => g (frel16 a b i)).
Proof. intros F. exact (cmp16_ok (fun _ => f e) g Neon128 a b eq_refl F). Qed.

(** ** Selection, masks, constants *)
Lemma pattern_of t r i x : 0 <= x < 2 ^ fw t -> elt (fu t) r i = x -> fpat t r i = x.
Proof. intros _ <-. symmetry. apply elt_fpat. Qed.
Lemma p_if_else1f_ok e t l p a b : in_reg 128 a -> in_reg 128 b -> plogical (fu t) l p -> pfvector t (p_if_else1f e t l a b) (fun i x => x = if p i then fpat t a i else fpat t b i).
Proof.
  intros A B L. destruct (p_if_else1_ok e (fu t) l p a b (fu_in t) A B L) as [R S]. rewrite fu_bits in S. split; [exact R|]. intros i Hi. specialize (S i Hi). rewrite !elt_fpat in S. exact S.
Qed.
Lemma p_set1f_ok e t x : 0 <= x < 2 ^ fw t -> pfvector t (p_set1f e t x) (fun _ y => y = x).
Proof.
  intros X. unfold p_set1f. destruct (pair64f e t) eqn:P.
  - apply pair_inv in P as [_ ->]. destruct (each64_ok (fun _ => x)) as [R L]. split; [exact R|]. intros i Hi. rewrite fpat_lane. change (fw F64) with 64 in *. rewrite L by exact Hi. apply Z.mod_small. exact X.
  - split; [apply in_reg_splats, okf|]. intros i Hi. rewrite fpat_lane. rewrite lane_splats; [apply Z.mod_small; exact X|apply okf|exact Hi].
Qed.
Lemma p_to_maskf_ok e t l p : plogical (fu t) l p -> pfvector t (p_to_maskf e t l) (fun i x => x = if p i then 2 ^ fw t - 1 else 0).
Proof.
  intros L. apply plog_eq in L as [R L]. unfold p_to_maskf. destruct (pair64f e t) eqn:P.
  - apply pair_inv in P as [_ ->]. destruct (each64_ok (fun i => lane 64 i l)) as [R' L']. split; [exact R'|]. intros i Hi. rewrite fpat_lane. change (fw F64) with 64 in *. rewrite L' by exact Hi.
    rewrite L by exact Hi. destruct (p i); reflexivity.
  - split; [exact R|]. intros i Hi. rewrite fpat_lane. apply L. exact Hi.
Qed.
Lemma p_to_logicalf_ok e t a : plogical (fu t) (p_to_logicalf e t a) (fun i => negb (fpat t a i =? 0)).
Proof.
  unfold p_to_logicalf. destruct (pair64f e t) eqn:P.
  - apply pair_inv in P as [_ ->]. apply plog_eq. destruct (each64_ok (fun i => if lane 64 i a =? 0 then 0 else -1)) as [R L]. split; [exact R|]. intros i Hi. change (fw F64) with 64 in *.
    rewrite L by exact Hi. rewrite fpat_lane. change (fw F64) with 64. destruct (lane 64 i a =? 0); reflexivity.
  - eapply plogical_ext; [apply p_ne_ok, fu_in|]. intros i Hi. rewrite fu_bits in Hi. cbv beta. rewrite !elt_fpat. rewrite (fpat_lane t (vec_splats _ _)), lane_zero; [reflexivity|apply okf|exact Hi].
Qed.
Lemma p_set1lf_ok e t x : plogical (fu t) (p_set1lf e t x) (fun _ => negb (x =? 0)).
Proof. apply p_set1l_ok, fu_in. Qed.
Lemma p_iotaf_ok e t : pfvector t (p_iotaf e t) (fun i x => x = float_of_int (ff t) i).
Proof.
  assert (G : p_iotaf e t = if pair64f e t then each64 (fun i => float_of_int (ff t) i) else each_scalar (fw t) (fun i => float_of_int (ff t) i)).
  { unfold p_iotaf. destruct (pair64f e t) eqn:P; [apply pair_inv in P as [_ ->]|]; reflexivity. }
  rewrite G. destruct (filled_ok e t (fun i => float_of_int (ff t) i)) as [R L]. split; [exact R|]. intros i Hi. rewrite fpat_lane, L by exact Hi. apply Z.mod_small.
  apply small_float. assert (128 / fw t <= 8) by (destruct t; vm_compute; congruence). lia.
Qed.
Lemma fcount t : 2 <= 128 / fw t <= 8. Proof. destruct t; vm_compute; split; congruence. Qed.
Lemma p_tailf_ok e t i n : n <= i \/ in_ty i32 (n - i) -> exists l, p_mask_for_loop_tailf e t i n = Some l /\ plogical (fu t) l (fun j => i + j <? n).
Proof.
  intros H. pose proof (fcount t) as C. unfold p_mask_for_loop_tailf. destruct (Z.leb_spec n i) as [N|N].
  - eexists. split; [reflexivity|]. eapply plogical_ext; [apply p_set1lf_ok|]. intros j Hj. cbv beta. rewrite fu_bits in Hj. symmetry. apply Z.ltb_ge. lia.
  - destruct H as [H|H]; [lia|]. rewrite carith_fits by (assumption || (unfold int_types; cbn; tauto)). cbn [bind].
    destruct (Z.ltb_spec (n - i) (128 / fw t)) as [D|D].
    + eexists. split; [reflexivity|]. eapply plogical_ext; [apply p_ltf_ok|]. intros j Hj. cbv beta. rewrite fu_bits in Hj. unfold frel, fvalue.
      rewrite (proj2 (p_iotaf_ok e t) j Hj). assert (S : 0 <= n - i <= 2 ^ 10) by lia. rewrite (proj2 (p_set1f_ok e t _ (proj2 (small_float t (n - i) S))) j Hj).
      rewrite compare_small by lia. destruct (Z.ltb_spec j (n - i)), (Z.ltb_spec (i + j) n); reflexivity || lia.
    + eexists. split; [reflexivity|]. eapply plogical_ext; [apply p_set1lf_ok|]. intros j Hj. cbv beta. rewrite fu_bits in Hj. symmetry. apply Z.ltb_lt. lia.
Qed.
