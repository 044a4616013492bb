(** Proofs about the POWER conversions: cvt, downcvt. *)
From Coq Require Import ZArith Lia List Bool ZifyBool.
From Verif Require Import CInt BitLemmas FloatSpec FloatProofs Fp16 Fp16Proofs ScalarOps ScalarSpec ScalarProofs X86Deg234 X86Arith X86ArithSpec X86LaneLemmas X86ArithProofs X86SelectProofs
  X86Mem X86MemSpec X86MemProofs X86Cvt X86CvtSpec X86CvtProofs X86CvtProofs2 X86CvtProofs3 X86CvtProofs4
  Arm ArmSpec ArmProofs ArmPerm ArmPermSpec ArmPermProofs ArmMem ArmMemSpec ArmCvt ArmCvtSpec ArmCvtProofs ArmCvtProofs2 PropArmCvt
  Ppc PpcSpec PpcProofs PpcProofs3 PpcMem PpcMemSpec PpcMemProofs PpcMemProofs3 PpcMemProofs4 PpcCvt PpcCvtSpec PpcCvtProofs.
Import ListNotations.
Open Scope Z_scope.

Lemma down64_eq from to a b : mw from = 64 -> mw to = 32 ->
  p_downcvt from to a b = fill Vsx to (fun i => cast_elt from to (pick 2 (fun i => lane 64 i a) (fun i => lane 64 i b) i)).
Proof.
  intros W W2. unfold p_downcvt, fill. rewrite W, W2. cbn [pair_of Z.eqb Pos.eqb]. unfold splat_insert. unfold pick. cbn [insert_from].
  reflexivity.
Qed.
Lemma down64_lanes from to a b : mw from = 64 -> mw to = 32 -> mem_type to ->
  (forall i, 0 <= i < 4 -> c_cast from to (pick 2 (fun i => lane 64 i a) (fun i => lane 64 i b) i) <> None) ->
  exists r, p_downcvt from to a b = Some r /\
    lanes_are 128 32 (fun i => l_cvt from to (pick 2 (fun i => lane 64 i a) (fun i => lane 64 i b) i) mod 2 ^ 32) r.
Proof.
  intros W W2 H D. rewrite down64_eq by assumption. rewrite <- W2. apply fill_casts; [exact H|]. rewrite W2. exact D.
Qed.
Lemma down64_none from to a b i : mw from = 64 -> mw to = 32 -> mem_type to -> 0 <= i < 4 ->
  c_cast from to (pick 2 (fun i => lane 64 i a) (fun i => lane 64 i b) i) = None -> p_downcvt from to a b = None.
Proof.
  intros W W2 H Hi E. rewrite down64_eq by assumption. apply (fill_none Vsx to _ i H); [rewrite W2; exact Hi|]. apply cast_elt_none, E.
Qed.

Lemma cvt_emulated e from to a : pair_of e to = true -> mw from = 64 -> in_reg 128 a -> mem_type to -> mem_type from ->
  (forall i, 0 <= i < 2 -> c_cast from to (lane 64 i a) <> None) ->
  exists r, p_cvt e from to a = Some r /\ lanes_are 128 64 (fun i => l_cvt from to (lane 64 i a) mod 2 ^ 64) r.
Proof.
  intros P W Ha H H2 D. pose proof (pair_width e to P) as W2. destruct (fill_casts e from to (fun i => lane 64 i a) H) as (r & E & L); [rewrite W2; exact D|].
  rewrite W2 in L. unfold p_cvt. unfold fill in E. rewrite P in *.
  destruct from as [t| |]; [exists r; split; [exact E|exact L]|discriminate|].
  destruct to as [v| |]; [exists r; split; [exact E|exact L]|discriminate|].
  exists a. split; [reflexivity|]. split; [exact Ha|]. intros i Hi. cbn [l_cvt]. symmetry. apply lane_modw. lia.
Qed.
Lemma cvt_from_int_lanes e t f a : is_float f = true -> In t int_types -> bits t = mw f -> in_reg 128 a ->
  exists r, p_cvt e (MI t) f a = Some r /\ lanes_are 128 (mw f) (fun i => nearest_float (format f) (elt t a i)) r.
Proof.
  intros F H W Ha. assert (Hf : mem_type f) by (destruct f; [discriminate|exact I|exact I]).
  destruct (pair_of e f) eqn:P.
  - pose proof (pair_width e f P) as W2. destruct (cvt_emulated e (MI t) f a P) as (r & E & R & L); try assumption; [change (bits t = 64); lia|intros i Hi; destruct f; discriminate|].
    exists r. split; [exact E|]. rewrite W2. split; [exact R|]. intros i Hi. etransitivity; [exact (L i Hi)|]. rewrite <- W2. rewrite elt_lane, W. apply (l_cvt_of_int t f _ F).
  - exists (vec_ctf t f a). split; [unfold p_cvt; rewrite P; destruct f; [discriminate|reflexivity|reflexivity]|]. apply ctf_lanes; [exact H|exact F|symmetry; exact W].
Qed.
Lemma cvt_to_int_native e t f a : is_float f = true -> In t int_types -> bits t = mw f -> pair_of e f = false ->
  exists r, p_cvt e f (MI t) a = Some r /\ lanes_are 128 (bits t) (fun i => vec_ct1 t (format f) (lane (mw f) i a) mod 2 ^ bits t) r.
Proof.
  intros F H W P. exists (vec_ct t f a). split.
  - unfold p_cvt. replace (pair_of e (MI t)) with false; [destruct f; [discriminate|reflexivity|reflexivity]|].
    rewrite <- P. unfold pair_of. destruct e; [|reflexivity]. change (mw (MI t)) with (bits t). rewrite W. reflexivity.
  - rewrite <- W. destruct (ct_lanes t f a H) as [R L]. split; [exact R|]. intros i Hi. etransitivity; [exact (L i Hi)|].
    destruct f; [discriminate|reflexivity|reflexivity].
Qed.

(** f16 *)
Lemma to16_half (second : bool) t a : In t int_types -> bits t = 16 ->
  lanes_are 128 32 (fun i => nearest_float binary32 (elt t a ((if second then 4 else 0) + i)))
    (vec_ctf i32 MF32 (if is_signed t then vec_unpack second 16 a else vec_and (vec_unpack second 16 a) (vec_splats 32 0xFFFF))).
Proof.
  intros H W. assert (W16 : (16 = 8 \/ 16 = 16 \/ 16 = 32)) by tauto. destruct (unpack_lanes second 16 a W16) as [R L]. change (2 * 16) with 32 in R, L.
  set (x := if is_signed t then _ else _). destruct (ctf_lanes i32 MF32 x ltac:(cbn; tauto) eq_refl eq_refl) as [R2 L2]. split; [exact R2|].
  intros i Hi. etransitivity; [exact (L2 i Hi)|]. f_equal. rewrite (elt_lane i32), (elt_lane t), W. change (bits i32) with 32.
  assert (O : okw 128 32) by (split; [lia|split; [lia|reflexivity]]).
  change (128 / 32) with 4 in *. set (k := (if second then 4 else 0) + i) in *.
  assert (Q : 0 <= lane 16 k a < 2 ^ 16) by (apply range_mod; lia).
  assert (S : cast i32 (lane 32 i x) = if is_signed t then to_s 16 (lane 16 k a) else lane 16 k a).
  { unfold x. destruct (is_signed t).
    - rewrite L by exact Hi. rewrite (cast_congr i32 _ (to_s 16 (lane 16 k a))) by (apply Z.mod_mod; discriminate). apply cast_id; [cbn; tauto|]. pose proof (to_s_range 16 (lane 16 k a) ltac:(lia)) as Rg. unfold in_s in Rg. unfold in_ty. cbn. lia.
    - unfold vec_and. rewrite lane_land by lia. rewrite lane_splats by (exact O || exact Hi). rewrite L by exact Hi. change 0xFFFF with (2 ^ 16 - 1). change 32 with (2 * 16) at 1 2.
      rewrite (mask_sext 16) by (lia || exact Q). apply cast_id; [cbn; tauto|]. unfold in_ty. cbn. lia. }
  rewrite S, cast_sext, W by exact H. destruct (is_signed t); [reflexivity|]. symmetry. apply Z.mod_small. exact Q.
Qed.
Lemma halves16 v (g : Z -> Z) : lanes_are 128 32 g (fst v) -> lanes_are 128 32 (fun i => g (4 + i)) (snd v) ->
  in_regs16 v /\ forall i, 0 <= i < 8 -> apattern16 v i = g i.
Proof.
  intros [R0 L0] [R1 L1]. change (128 / 32) with 4 in L0, L1. split; [split; assumption|]. intros i Hi. unfold apattern16. destruct (Z.ltb_spec i 4).
  - exact (L0 i ltac:(lia)).
  - etransitivity; [exact (L1 (i - 4) ltac:(lia))|]. f_equal. lia.
Qed.
Lemma p_cvt_to16_ok t a : In t int_types -> bits t = 16 ->
  in_regs16 (p_cvt_to16 t a) /\ forall i, 0 <= i < 8 -> apattern16 (p_cvt_to16 t a) i = nearest_float binary32 (elt t a i).
Proof. intros H W. apply halves16; [exact (to16_half false t a H W)|exact (to16_half true t a H W)]. Qed.
(** the pack of two vectors of singles truncated *)
Lemma pack_ct_lanes t a b : In t int_types -> bits t = 32 -> lanes_are 128 16
  (fun i => vec_ct1 t binary32 (pick 4 (fun i => lane 32 i a) (fun i => lane 32 i b) i) mod 2 ^ 16) (vec_pack 32 (vec_ct t MF32 a) (vec_ct t MF32 b)).
Proof.
  intros H W. destruct (pack_lanes 32 (vec_ct t MF32 a) (vec_ct t MF32 b) ltac:(tauto)) as [R L]. change (32 / 2) with 16 in *. split; [exact R|].
  intros i Hi. rewrite L by exact Hi. change (128 / 32) with 4. change (128 / 16) with 8 in Hi.
  destruct (ct_lanes t MF32 a H) as [_ La]. destruct (ct_lanes t MF32 b H) as [_ Lb]. rewrite W in La, Lb. change (128 / 32) with 4 in La, Lb. change (mfmt MF32) with binary32 in La, Lb.
  unfold pick. destruct (Z.ltb_spec i 4).
  - rewrite La by lia. rewrite <- Znumtheory.Zmod_div_mod; [reflexivity|reflexivity|reflexivity|exists (2 ^ 16); reflexivity].
  - rewrite Lb by lia. rewrite <- Znumtheory.Zmod_div_mod; [reflexivity|reflexivity|reflexivity|exists (2 ^ 16); reflexivity].
Qed.
Lemma from16_pack t v : In t int_types -> bits t = 32 -> lanes_are 128 16
  (fun i => vec_ct1 t binary32 (apattern16 v i) mod 2 ^ 16) (vec_pack 32 (vec_ct t MF32 (fst v)) (vec_ct t MF32 (snd v))).
Proof.
  intros H W. destruct (pack_ct_lanes t (fst v) (snd v) H W) as [R L]. split; [exact R|]. intros i Hi. rewrite L by exact Hi. reflexivity.
Qed.
Lemma p_downcvt_from16_lanes v x y : In v int_types -> bits v = 8 -> lanes_are 128 8
  (fun i => vec_ct1 (resized v 32) binary32 (pick 8 (apattern16 x) (apattern16 y) i) mod 2 ^ 8) (p_downcvt_from16 v x y).
Proof.
  intros H W. destruct (resized_int v 32 H) as [Hr Br]; [cbn; tauto|]. unfold p_downcvt_from16.
  destruct (from16_pack (resized v 32) x Hr Br) as [_ Lx]. destruct (from16_pack (resized v 32) y Hr Br) as [_ Ly].
  set (px := vec_pack 32 _ (vec_ct _ MF32 (snd x))) in *. set (py := vec_pack 32 _ (vec_ct _ MF32 (snd y))) in *.
  destruct (pack_lanes 16 px py ltac:(tauto)) as [R L]. change (16 / 2) with 8 in *. split; [exact R|]. intros i Hi. rewrite L by exact Hi.
  change (128 / 16) with 8 in *. change (128 / 8) with 16 in Hi. unfold pick. destruct (Z.ltb_spec i 8).
  - rewrite Lx by lia. rewrite <- Znumtheory.Zmod_div_mod; [reflexivity|reflexivity|reflexivity|exists (2 ^ 8); reflexivity].
  - rewrite Ly by lia. rewrite <- Znumtheory.Zmod_div_mod; [reflexivity|reflexivity|reflexivity|exists (2 ^ 8); reflexivity].
Qed.
Lemma splat16_lanes f g : (forall i, 0 <= i < 8 -> f i = Some (g i) /\ 0 <= g i < 2 ^ 16) ->
  exists r, splat_insert 16 f = Some r /\ lanes_are 128 16 g r.
Proof.
  intros D. destruct (fill_ok Vsx (MI u16) f ltac:(cbn; tauto)) as (r & E & R & L); [intros i Hi; destruct (D i Hi); exists (g i); split; assumption|].
  exists r. split; [exact E|]. split; [exact R|]. intros i Hi. specialize (L i Hi). destruct (D i Hi) as [Ef _]. rewrite Ef in L. injection L as L. symmetry. exact L.
Qed.
