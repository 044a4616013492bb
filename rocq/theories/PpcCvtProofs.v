(** Proofs about the POWER conversions: lanes of the built-ins. *)
From Coq Require Import ZArith Lia List Bool ZifyBool.
From Verif Require Import CInt BitLemmas FloatSpec FloatProofs Fp16 Fp16Proofs ScalarOps ScalarSpec ScalarProofs X86Deg234 X86Arith X86ArithSpec X86LaneLemmas X86ArithProofs X86SelectProofs
  X86Mem X86MemSpec X86MemProofs X86Cvt X86CvtSpec X86CvtProofs X86CvtProofs2 X86CvtProofs3 X86CvtProofs4
  Arm ArmSpec ArmProofs ArmPerm ArmPermSpec ArmPermProofs ArmMem ArmMemSpec ArmCvt ArmCvtSpec ArmCvtProofs ArmCvtProofs2 PropArmCvt
  Ppc PpcSpec PpcProofs PpcProofs3 PpcMem PpcMemSpec PpcMemProofs PpcMemProofs3 PpcMemProofs4 PpcCvt PpcCvtSpec.
Import ListNotations.
Open Scope Z_scope.

Lemma pv_lanes t r g (P : Z -> Z -> Prop) : In t int_types -> lanes_are 128 (bits t) (fun i => g i mod 2 ^ bits t) r ->
  (forall i, 0 <= i < 128 / bits t -> P i (cast t (g i))) -> pvector t r P.
Proof. exact (avector_lanes Neon128 t r g P). Qed.

Lemma mem_okw t : mem_type t -> okw 128 (mw t).
Proof. exact (okw_amw Neon128 t). Qed.

Lemma vec_1_lanes w f a : okw 128 w -> lanes_are 128 w (fun i => f (lane w i a) mod 2 ^ w) (vec_1 w f a).
Proof. intros O. exact (build_lanes 128 w _ O). Qed.

(** ** Elements made by C casts *)
Lemma cast_elt_l from to x : mem_type to -> c_cast from to x <> None -> cast_elt from to x = Some (l_cvt from to x mod 2 ^ mw to).
Proof.
  intros H D. unfold cast_elt. destruct (c_cast from to x) as [y|] eqn:E; [|congruence]. cbn [option_map]. f_equal.
  apply (c_cast_l from to x y E H).
Qed.
Lemma cast_elt_none from to x : c_cast from to x = None -> cast_elt from to x = None.
Proof. intros E. unfold cast_elt. rewrite E. reflexivity. Qed.

Lemma range_mod x w : 0 <= w -> 0 <= x mod 2 ^ w < 2 ^ w.
Proof. intros H. apply Z.mod_pos_bound, pow2_pos, H. Qed.
Lemma mw_pos t : mem_type t -> 0 < mw t.
Proof. intros H. destruct (size_lanes t H) as (A & _ & _). pose proof (Z.mul_div_le (mw t) 8). lia. Qed.

Lemma fill_lanes e t f g : mem_type t -> (forall i, 0 <= i < 128 / mw t -> f i = Some (g i mod 2 ^ mw t)) ->
  exists r, fill e t f = Some r /\ lanes_are 128 (mw t) (fun i => g i mod 2 ^ mw t) r.
Proof.
  intros H D. pose proof (mw_pos t H) as W. destruct (fill_ok e t f H) as (r & E & R & L).
  - intros i Hi. exists (g i mod 2 ^ mw t). split; [exact (D i Hi)|]. apply range_mod. lia.
  - exists r. split; [exact E|]. split; [exact R|]. intros i Hi. specialize (L i Hi). rewrite (D i Hi) in L. injection L as L. symmetry. exact L.
Qed.
Lemma fill_casts e from to g : mem_type to -> (forall i, 0 <= i < 128 / mw to -> c_cast from to (g i) <> None) ->
  exists r, fill e to (fun i => cast_elt from to (g i)) = Some r /\ lanes_are 128 (mw to) (fun i => l_cvt from to (g i) mod 2 ^ mw to) r.
Proof. intros H D. apply fill_lanes; [exact H|]. intros i Hi. apply cast_elt_l; [exact H|exact (D i Hi)]. Qed.
Lemma fill_none e t f i : mem_type t -> 0 <= i < 128 / mw t -> f i = None -> fill e t f = None.
Proof.
  intros H Hi E. unfold fill. destruct (pair_of e t) eqn:P.
  - pose proof (pair_width e t P) as W. rewrite W in Hi. apply (emu64_none f i Hi E).
  - destruct (splat_insert (mw t) f) eqn:S; [|reflexivity]. exfalso.
    assert (N : splat_insert (mw t) f = None); [|congruence].
    destruct t as [t| |]; [exact (splat_insert_none t f i H Hi E)|exact (splat_insert_none u32 f i ltac:(cbn; tauto) Hi E)|exact (splat_insert_none u64 f i ltac:(cbn; tauto) Hi E)].
Qed.

(** ** vec_ct, vec_ctf *)
Lemma ct1_fcvtz t f b : bits t <> 64 \/ is_signed t = false \/ decode f b <> FNaN -> vec_ct1 t f b = fcvtz t f b.
Proof.
  intros H. unfold vec_ct1, fcvtz. destruct (decode f b) as [|s|s m]; try reflexivity.
  destruct (is_signed t && (bits t =? 64)) eqn:E; [|reflexivity]. exfalso. destruct H as [H|[H|H]]; [lia|lia|congruence].
Qed.
Lemma ct1_ok t f b : In t int_types -> p_saturated t f b (vec_ct1 t f b) /\ in_ty t (vec_ct1 t f b).
Proof.
  intros H. pose proof (ty_min_max t H) as M. pose proof (fcvtz_saturated t f b ltac:(lia)) as S. pose proof (saturated_in t f b _ H S) as J.
  unfold p_saturated. unfold vec_ct1. unfold fcvtz in S, J. destruct (decode f b) as [|s|s m] eqn:D.
  - destruct (_ && _); unfold in_ty; lia.
  - split; [exact S|exact J].
  - split; [exact S|exact J].
Qed.
Lemma ct_lanes t f a : In t int_types -> lanes_are 128 (bits t) (fun i => vec_ct1 t (mfmt f) (lane (bits t) i a) mod 2 ^ bits t) (vec_ct t f a).
Proof. intros H. apply vec_1_lanes, pok, H. Qed.
Lemma ctf_lanes t f a : In t int_types -> is_float f = true -> mw f = bits t ->
  lanes_are 128 (mw f) (fun i => nearest_float (format f) (elt t a i)) (vec_ctf t f a).
Proof.
  intros H F W. pose proof (vec_1_lanes (bits t) (fun x => float_of_int (mfmt f) (cast t x)) a (pok t H)) as [R L]. rewrite W. split; [exact R|].
  intros i Hi. etransitivity; [exact (L i Hi)|]. rewrite elt_lane, <- W. pose proof (l_cvt_of_int t f (lane (mw f) i a) F) as Q.
  destruct f; [discriminate|exact Q|exact Q].
Qed.

(** ** vec_unpack, vec_pack *)
Lemma mem_2 w : w = 8 \/ w = 16 \/ w = 32 -> okw 128 w /\ okw 128 (2 * w) /\ 128 / w = 2 * (128 / (2 * w)) /\ 0 < 128 / (2 * w).
Proof. intros [->|[->| ->]]; (split; [|split; [|split]]); try reflexivity; split; try (cbn; lia); split; try lia; reflexivity. Qed.
Lemma unpack_lanes (second : bool) w a : w = 8 \/ w = 16 \/ w = 32 ->
  lanes_are 128 (2 * w) (fun i => to_s w (lane w ((if second then 128 / (2 * w) else 0) + i) a) mod 2 ^ (2 * w)) (vec_unpack second w a).
Proof. intros W. destruct (mem_2 w W) as (_ & O & _). exact (build_lanes 128 (2 * w) _ O). Qed.
Lemma mask_sext w x : 0 < w -> 0 <= x < 2 ^ w -> Z.land (to_s w x mod 2 ^ (2 * w)) ((2 ^ w - 1) mod 2 ^ (2 * w)) = x.
Proof.
  intros W X. assert (P : 0 < 2 ^ w < 2 ^ (2 * w)) by (split; [apply pow2_pos; lia|apply Z.pow_lt_mono_r; lia]).
  rewrite (Z.mod_small (2 ^ w - 1)) by lia. replace (2 ^ w - 1) with (Z.ones w) by (rewrite Z.ones_equiv; lia).
  rewrite Z.land_ones by lia. rewrite <- Znumtheory.Zmod_div_mod; [|lia|lia|exists (2 ^ w); rewrite <- Z.pow_add_r by lia; f_equal; lia].
  rewrite CInt.to_s_mod by exact W. apply Z.mod_small, X.
Qed.
Lemma pack_lanes w a b : w = 16 \/ w = 32 -> lanes_are 128 (w / 2)
  (fun i => pick (128 / w) (fun i => lane w i a) (fun i => lane w i b) i mod 2 ^ (w / 2)) (vec_pack w a b).
Proof. intros W. assert (O : okw 128 (w / 2)) by (destruct W as [->| ->]; [exact (proj1 (mem_2 8 ltac:(lia)))|exact (proj1 (mem_2 16 ltac:(lia)))]). exact (build_lanes 128 (w / 2) _ O). Qed.

Lemma cast_sext t x : In t int_types -> cast t x = if is_signed t then to_s (bits t) x else x mod 2 ^ bits t.
Proof. intros H. destruct t as [s w]. cbn. destruct s; reflexivity. Qed.

(** ** upcvt between integers *)
Lemma p_upcvt_int_ups e t v a : double_width (MI t) (MI v) ->
  exists p, p_upcvt_int e t v a = Some p /\ ups 128 (bits t) (fun x => cast t x mod 2 ^ bits v) a p.
Proof.
  intros (H & H2 & W). change (bits v = 2 * bits t) in W. pose proof (bits_cases t H) as B. pose proof (bits_cases v H2) as B2. unfold p_upcvt_int.
  destruct (bits t =? 32) eqn:E.
  - assert (Et : bits t = 32) by lia. assert (Ev : bits v = 64) by lia.
    destruct (fill_casts e (MI t) (MI v) (fun i => lane 32 i a) H2) as (r0 & E0 & R0 & L0); [intros; discriminate|].
    destruct (fill_casts e (MI t) (MI v) (fun i => lane 32 (i + 2) a) H2) as (r1 & E1 & R1 & L1); [intros; discriminate|].
    rewrite E0. cbn [bind]. rewrite E1. exists (r0, r1). split; [reflexivity|]. split; [exact R0|]. split; [exact R1|]. cbn [fst snd].
    rewrite Et. change (2 * 32) with 64. change (mw (MI v)) with (bits v) in L0, L1. rewrite Ev in L0, L1 |- *. intros i Hi. split.
    + etransitivity; [exact (L0 i Hi)|]. reflexivity.
    + etransitivity; [exact (L1 i Hi)|]. cbn [l_cvt]. change (128 / 64) with 2. rewrite (Z.add_comm 2 i). reflexivity.
  - assert (Wt : bits t = 8 \/ bits t = 16 \/ bits t = 32) by lia.
    destruct (unpack_lanes false (bits t) a Wt) as [R0 L0]. destruct (unpack_lanes true (bits t) a Wt) as [R1 L1].
    destruct (mem_2 (bits t) Wt) as (O1 & O2 & _). rewrite W.
    destruct (is_signed t) eqn:S.
    + eexists. split; [reflexivity|]. split; [exact R0|]. split; [exact R1|]. cbn [fst snd]. intros i Hi. rewrite !cast_sext, S by exact H. split.
      * etransitivity; [exact (L0 i Hi)|]. rewrite Z.add_0_l. reflexivity.
      * exact (L1 i Hi).
    + eexists. split; [reflexivity|]. cbn [fst snd]. unfold vec_and.
      assert (Q : forall x, 0 <= lane (bits t) x a < 2 ^ bits t) by (intros x; apply range_mod; lia).
      assert (P : 0 < 2 ^ bits t < 2 ^ (2 * bits t)) by (split; [apply pow2_pos; lia|apply Z.pow_lt_mono_r; lia]).
      pose proof (in_reg_splats (2 * bits t) (2 ^ bits t - 1) O2) as Rm. split; [apply in_reg_land; [lia|exact R0|exact Rm]|]. split; [apply in_reg_land; [lia|exact R1|exact Rm]|]. intros i Hi.
      cbn [fst snd]. rewrite !lane_land by lia. rewrite !lane_splats by (exact O2 || exact Hi). rewrite L0, L1 by exact Hi.
      rewrite !mask_sext by (lia || apply Q). rewrite !cast_sext, S by exact H. rewrite Z.add_0_l.
      rewrite !(Z.mod_small (lane (bits t) _ a) (2 ^ bits t)) by apply Q.
      split; symmetry; (apply Z.mod_small; pose proof (Q i); pose proof (Q (128 / (2 * bits t) + i)); lia).
Qed.
