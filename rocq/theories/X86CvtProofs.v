(** Proofs about the conversions of the x86 back ends. *)
From Coq Require Import ZArith Lia List Bool.
From Verif Require Import CInt BitLemmas FloatSpec FloatProofs Fp16 ScalarOps ScalarSpec ScalarProofs X86Deg234 X86Arith X86ArithSpec X86LaneLemmas X86ArithProofs X86EmulProofs
  X86Mem X86MemSpec X86MemProofs X86MemProofs2 X86Cvt X86CvtSpec.
Import ListNotations.
Open Scope Z_scope.

Lemma lane_pair w i r : 0 < w -> 0 <= i -> lane (2 * w) i r = lane w (2 * i) r + lane w (2 * i + 1) r * 2 ^ w.
Proof.
  intros Hw Hi. unfold lane. replace (w * (2 * i + 1)) with (w * (2 * i) + w) by ring. replace (2 * w * i) with (w * (2 * i)) by ring.
  rewrite Z.pow_add_r by nia. rewrite <- Z.div_div by (apply Z.pow_nonzero || apply Z.pow_pos_nonneg; lia || nia).
  set (q := r / 2 ^ (w * (2 * i))). replace (2 * w) with (w + w) by ring. rewrite Z.pow_add_r by lia.
  rewrite Z.rem_mul_r by (try apply Z.pow_nonzero; try apply Z.pow_pos_nonneg; lia). ring.
Qed.

(** ** Conversion instructions *)

Lemma mm_cvt_reg k from to a n : mem_type to -> 0 <= k -> n = mw to * k -> in_reg n (mm_cvt k from to a).
Proof.
  intros H Hk ->. unfold mm_cvt, in_reg. pose proof (build_range (mw to) (Z.to_nat k) (fun i => hw_cast from to (lane (mw from) i a)) ltac:(destruct (ok8_mw to H); lia)) as B.
  rewrite Z2Nat.id in B by exact Hk. exact B.
Qed.
Lemma mm_cvt_lane k from to a i : mem_type to -> 0 <= i < k -> lane (mw to) i (mm_cvt k from to a) = hw_cast from to (lane (mw from) i a) mod 2 ^ mw to.
Proof. intros H Hi. unfold mm_cvt. rewrite lane_build; [reflexivity|destruct (ok8_mw to H); lia|lia]. Qed.

(** ** upcvt *)

(** [p] holds [g] of each lane of [a] *)
Definition ups (n w : Z) (g : Z -> Z) (a : Z) (p : Z * Z) : Prop :=
  in_reg n (fst p) /\ in_reg n (snd p) /\
  forall i, 0 <= i < n / (2 * w) -> lane (2 * w) i (fst p) = g (lane w i a) /\ lane (2 * w) i (snd p) = g (lane w (n / (2 * w) + i) a).

Lemma lane_shuffle14 w i a : In w [8; 16; 32] -> 0 <= i < 64 / w -> lane w i (mm_shuffle_epi32 a 14) = lane w (64 / w + i) a.
Proof.
  intros Hw Hi. set (k := 32 / w). assert (K : 0 < k /\ k * w = 32 /\ 64 / w = 2 * k) by (unfold k; cbn in Hw; decompose [or] Hw; subst; try tauto; repeat split; reflexivity).
  destruct K as (K1 & K2 & K3). rewrite K3 in *. assert (0 < w) by (cbn in Hw; lia).
  assert (D : i = k * (i / k) + i mod k) by (apply Z.div_mod; lia). pose proof (Z.mod_pos_bound i k ltac:(lia)).
  assert (Q : 0 <= i / k < 2) by (split; [apply Z.div_pos; lia|apply Z.div_lt_upper_bound; lia]).
  replace (2 * k + i) with (k * (2 + i / k) + i mod k) by lia. rewrite D at 1. rewrite !lane_lane by lia. rewrite K2.
  f_equal. unfold mm_shuffle_epi32. rewrite lane_build by lia. assert (E : lane 2 (i / k) 14 = 2 + i / k).
  { destruct (Z.eq_dec (i / k) 0) as [->|]; [reflexivity|]. replace (i / k) with 1 by lia. reflexivity. }
  rewrite E. apply Z.mod_small. apply lane_range. lia.
Qed.
Lemma lane_shuffle_pd i a : 0 <= i < 2 -> lane 32 i (mm_shuffle_pd a a 1) = lane 32 (2 + i) a.
Proof.
  intros Hi. replace i with (2 * 0 + i) at 1 by lia. replace (2 + i) with (2 * 1 + i) by lia. rewrite !lane_lane by lia. f_equal.
  unfold mm_shuffle_pd. rewrite lane_build by lia. cbn [Z.eqb]. apply Z.mod_small. apply (lane_range 64). lia.
Qed.

Definition double_width (from to : mty) : Prop := mem_type from /\ mem_type to /\ mw to = 2 * mw from.
Lemma float_is_32 from to : double_width from to -> is_float from = true -> mw from = 32.
Proof.
  intros (H1 & H2 & D) F. destruct from as [t| |]; try discriminate; [reflexivity|]. exfalso. destruct to as [u| |]; cbn in *; try lia.
  ty_cases H2; cbn in D; lia.
Qed.
Lemma int_small from to : double_width from to -> In (mw from) [8; 16; 32].
Proof.
  intros (H1 & H2 & D). destruct from as [t| |]; destruct to as [u| |]; try (cbn in *; lia); try (cbn; tauto); cbn [mem_type] in *.
  - ty_cases H1; cbn; try tauto; ty_cases H2; cbn in D; lia.
  - ty_cases H1; cbn in D |- *; lia || tauto.
  - ty_cases H1; cbn in D |- *; lia || tauto.
  - ty_cases H2; cbn in D; lia.
Qed.
Lemma okw_dw e from to : double_width from to -> okw (nb e) (mw from) /\ okw (nb e) (2 * mw from) /\ nb e / mw from = 2 * (nb e / (2 * mw from)).
Proof.
  intros D. pose proof (int_small from to D) as I. destruct D as (H1 & H2 & D). pose proof (okw_mw e from H1) as O1. pose proof (okw_mw e to H2) as O2. rewrite D in O2.
  split; [exact O1|]. split; [exact O2|]. destruct O1 as (P1 & _ & E1), O2 as (P2 & _ & E2).
  assert (E : mw from * (nb e / mw from) = mw from * (2 * (nb e / (2 * mw from)))) by lia. apply Z.mul_reg_l in E; lia.
Qed.
Lemma half_lane_lo e w a i : okw (nb e) w -> okw (nb e) (2 * w) -> 0 <= i < nb e / (2 * w) -> lane w i (lower_half e a) = lane w i a.
Proof.
  intros O O2 Hi. destruct O2 as (P & _ & E2). destruct e; try reflexivity; cbn [lower_half nb] in *.
  1,2: change 256 with (2 * 128) at 1; apply lane_lo; [|replace (128 / w) with (256 / (2 * w)); [exact Hi|]].
  5,6: change 512 with (2 * 256) at 1; apply lane_lo; [|replace (256 / w) with (512 / (2 * w)); [exact Hi|]].
  all: try (change 256 with (2 * 128); apply Z.div_mul_cancel_l; lia).
  all: try (change 512 with (2 * 256); apply Z.div_mul_cancel_l; lia).
  all: split; [lia|split; [lia|]].
  all: try (replace (128 / w) with (256 / (2 * w)) by (change 256 with (2 * 128); apply Z.div_mul_cancel_l; lia); lia).
  all: try (replace (256 / w) with (512 / (2 * w)) by (change 512 with (2 * 256); apply Z.div_mul_cancel_l; lia); lia).
Qed.
Lemma half_lane_hi e from to a i : double_width from to -> in_reg (nb e) a -> 0 <= i < nb e / (2 * mw from) ->
  lane (mw from) i (upper_half e from a) = lane (mw from) (nb e / (2 * mw from) + i) a.
Proof.
  intros D Ha Hi. pose proof (okw_dw e from to D) as (O & (P & _ & E2) & _). pose proof (int_small from to D) as I.
  set (w := mw from) in *. assert (Hw : 0 < w) by lia.
  assert (S : forall m, 0 <= m -> 2 * m / (2 * w) = m / w) by (intros; apply Z.div_mul_cancel_l; lia).
  destruct e; cbn [upper_half nb] in *.
  1,2: change 128 with (2 * 64) in Hi |- *; rewrite S in Hi |- * by lia; destruct (is_float from) eqn:F;
    [assert (W : w = 32) by (exact (float_is_32 from to D F)); rewrite W in *; apply lane_shuffle_pd; exact Hi|apply lane_shuffle14; assumption].
  1,2: change 256 with (2 * 128) in Hi, E2 |- *; rewrite S in Hi, E2 |- * by lia; apply lane_hi; [split; [lia|split; [lia|]]; lia|lia].
  1,2: change 512 with (2 * 256) in Hi, E2 |- *; rewrite S in Hi, E2 |- * by lia; apply lane_hi; [split; [lia|split; [lia|]]; lia|lia].
Qed.

Lemma with_intrinsic_ups e from to a : double_width from to -> in_reg (nb e) a ->
  ups (nb e) (mw from) (fun x => hw_cast from to x mod 2 ^ mw to) a (with_intrinsic e from to a).
Proof.
  intros D Ha. pose proof (okw_dw e from to D) as (O & O2 & E). pose proof D as (H1 & H2 & W).
  assert (P0 : 0 <= nb e / (2 * mw from)) by (destruct O2 as (?&?&?); apply Z.div_pos; lia).
  assert (EE : nb e = mw to * (nb e / (2 * mw from))) by (rewrite W; apply O2).
  unfold ups, with_intrinsic. cbn [fst snd]. rewrite W in *. split; [|split].
  - apply mm_cvt_reg; try assumption. rewrite W. exact EE.
  - apply mm_cvt_reg; try assumption. rewrite W. exact EE.
  - intros i Hi. rewrite <- W in Hi |- * at 1. rewrite <- W. rewrite !mm_cvt_lane by (try assumption; rewrite W in *; assumption || lia). rewrite W in *.
    rewrite (half_lane_lo e (mw from)) by assumption. rewrite (half_lane_hi e from to) by assumption. auto.
Qed.

Lemma split_trick_ups m w g f a : okw m w -> okw m (2 * w) -> (forall x, in_reg m x -> ups m w g x (f x)) -> in_reg (2 * m) a ->
  ups (2 * m) w g a (split_trick (2 * m) f a).
Proof.
  intros O O2 F Ha. assert (0 <= m /\ 0 < w) as [Hm Hw] by (destruct O as (?&?&?); lia).
  destruct (F (mm_lo (2 * m) a) (in_reg_lo m a Hm)) as (A1 & A2 & A3). destruct (F (mm_hi (2 * m) a) (in_reg_hi m a Hm Ha)) as (B1 & B2 & B3).
  assert (S : 2 * m / (2 * w) = m / w) by (apply Z.div_mul_cancel_l; lia).
  assert (S2 : m / w = m / (2 * w) + m / (2 * w)).
  { destruct O as (_&_&E1), O2 as (_&_&E2). assert (w * (m / w) = w * (m / (2 * w) + m / (2 * w))) by lia. eapply Z.mul_reg_l; [|eassumption]. lia. }
  unfold ups, split_trick. cbn [fst snd]. split; [apply in_reg_setr; assumption|]. split; [apply in_reg_setr; assumption|].
  rewrite S. intros i Hi. rewrite !lane_setr by (assumption || lia). destruct (Z.ltb_spec i (m / (2 * w))) as [L|L].
  - destruct (A3 i ltac:(lia)) as [Q _]. destruct (B3 i ltac:(lia)) as [Q2 _]. rewrite Q, Q2, lane_lo, lane_hi by (assumption || lia). auto.
  - destruct (A3 (i - m / (2 * w)) ltac:(lia)) as [_ Q]. destruct (B3 (i - m / (2 * w)) ltac:(lia)) as [_ Q2]. rewrite Q, Q2.
    replace (m / (2 * w) + (i - m / (2 * w))) with i by ring. rewrite lane_lo, lane_hi by (assumption || lia). auto.
Qed.

Lemma lane_unpack w h a b i : In w [8; 16; 32] -> In h [0; 1] -> 0 <= i < 64 / w ->
  lane w (2 * i) (mm_unpack w h a b) = lane w (h * (64 / w) + i) a /\ lane w (2 * i + 1) (mm_unpack w h a b) = lane w (h * (64 / w) + i) b.
Proof.
  intros Hw Hh Hi. assert (O : okw 128 w) by (cbn in Hw; decompose [or] Hw; subst; try tauto; repeat split; reflexivity || lia).
  assert (E : 128 / w / 2 = 64 / w /\ 128 / w = 2 * (64 / w)) by (cbn in Hw; decompose [or] Hw; subst; try tauto; split; reflexivity). destruct E as [E E2].
  assert (0 < w) by (cbn in Hw; lia). unfold mm_unpack. rewrite !lane_buildn by (assumption || lia). rewrite E.
  assert (F : 2 * i / 2 = i /\ (2 * i) mod 2 = 0 /\ (2 * i + 1) / 2 = i /\ (2 * i + 1) mod 2 = 1).
  { rewrite (Z.mul_comm 2 i), Z.div_mul, Z.mod_mul, Z.div_add_l, (Z.add_comm (i * 2)), Z.mod_add by lia. change (1 / 2) with 0. change (1 mod 2) with 1. lia. }
  destruct F as (-> & -> & -> & ->). cbn [Z.eqb]. rewrite !Z.mod_small by (apply lane_range; lia). auto.
Qed.
Lemma sext w x : 0 < w -> ulane w x -> x + (if to_s w x <? 0 then 2 ^ w - 1 else 0) * 2 ^ w = to_s w x mod 2 ^ (2 * w).
Proof.
  intros Hw Hx. unfold ulane in Hx. pose proof (pow2_pos w ltac:(lia)) as P. replace (2 * w) with (w + w) by ring. rewrite Z.pow_add_r by lia.
  assert (P1 : 2 ^ w = 2 * 2 ^ (w - 1)) by (rewrite <- Z.pow_succ_r by lia; f_equal; lia).
  unfold to_s, to_u. rewrite (Z.mod_small x) by exact Hx.
  destruct (Z.ltb_spec x (2 ^ (w - 1))).
  - destruct (Z.ltb_spec x 0); [lia|]. rewrite Z.mod_small; nia.
  - destruct (Z.ltb_spec (x - 2 ^ w) 0); [|lia]. rewrite <- (Z.mod_add _ 1) by nia. rewrite Z.mod_small; nia.
Qed.
Lemma upcvt_sse_ups from to a : double_width (MI from) (MI to) -> in_reg 128 a ->
  ups 128 (bits from) (fun x => cast from x mod 2 ^ bits to) a (upcvt_sse from a).
Proof.
  intros D Ha. pose proof (int_small _ _ D) as I. pose proof D as (H1 & H2 & W). change (mw (MI from)) with (bits from) in *. change (mw (MI to)) with (bits to) in *. cbn [mem_type] in H1, H2.
  remember (bits from) as w eqn:Ew. assert (Hw : 0 < w) by (cbn [In] in I; lia).
  assert (O : okw 128 w) by (cbn [In] in I; clear - I; decompose [or] I; subst; try tauto; repeat split; reflexivity || lia).
  assert (S : 128 / (2 * w) = 64 / w) by (change 128 with (2 * 64); apply Z.div_mul_cancel_l; lia).
  unfold ups, upcvt_sse. cbn [fst snd]. split; [rewrite <- Ew; apply in_reg_build; exact O|]. split; [rewrite <- Ew; apply in_reg_build; exact O|]. rewrite <- Ew.
  set (mask := if is_signed from then mm_cmpgt 128 w mm_zero a else mm_zero).
  assert (M : forall j, 0 <= j < 128 / w -> lane w j a + lane w j mask * 2 ^ w = cast from (lane w j a) mod 2 ^ (2 * w)).
  { intros j Hj. pose proof (lane_range w j a ltac:(lia)) as R. unfold mask. destruct (is_signed from) eqn:Sg.
    - unfold mm_cmpgt, lanewise2. rewrite lane_buildn by assumption. rewrite lane_0 by lia.
      assert (C : forall x, cast from x = to_s w x) by (intros x; unfold cast; rewrite Sg, <- Ew; reflexivity). rewrite C.
      rewrite <- sext by assumption. f_equal. f_equal. replace (to_s w 0) with 0; [|unfold to_s, to_u; rewrite Z.mod_0_l by (apply Z.pow_nonzero; lia); destruct (Z.ltb_spec 0 (2 ^ (w - 1))); [reflexivity|pose proof (pow2_pos (w - 1) ltac:(lia)); lia]].
      destruct (to_s w (lane w j a) <? 0); [|apply Z.mod_0_l; apply Z.pow_nonzero; lia].
      pose proof (pow2_pos w ltac:(lia)). rewrite <- (Z.mod_add _ 1) by lia. rewrite Z.mod_small; lia.
    - unfold mm_zero. rewrite lane_0 by lia. assert (C : forall x, cast from x = to_u w x) by (intros x; unfold cast; rewrite Sg, <- Ew; reflexivity). rewrite C. unfold to_u.
      rewrite (Z.mod_small (lane w j a)) by exact R. rewrite Z.mod_small; [ring|]. pose proof (Z.pow_le_mono_r 2 w (2 * w) ltac:(lia) ltac:(lia)). lia. }
  rewrite W, S. assert (E2 : 128 / w = 64 / w + 64 / w) by (cbn [In] in I; clear - I; decompose [or] I; subst; try tauto; reflexivity).
  intros i Hi. rewrite !lane_pair by lia. destruct (lane_unpack w 0 a mask i I ltac:(cbn; tauto) Hi) as [-> ->]. destruct (lane_unpack w 1 a mask i I ltac:(cbn; tauto) Hi) as [-> ->].
  rewrite !M by lia. rewrite !Z.mul_0_l, !Z.mul_1_l, !Z.add_0_l. auto.
Qed.

Lemma upcvt_int_ups e from to a : double_width (MI from) (MI to) -> in_reg (nb e) a ->
  ups (nb e) (bits from) (fun x => cast from x mod 2 ^ bits to) a (upcvt_int e from to a).
Proof.
  intros D Ha. pose proof (fun e => okw_dw e _ _ D) as OO. change (mw (MI from)) with (bits from) in *.
  destruct e; cbn [upcvt_int nb] in *.
  - apply upcvt_sse_ups; assumption.
  - apply upcvt_sse_ups; assumption.
  - apply (split_trick_ups 128); try exact Ha; try apply (OO Sse2). intros x Hx. apply upcvt_sse_ups; assumption.
  - exact (with_intrinsic_ups Avx2 _ _ a D Ha).
  - destruct (bits from =? 8).
    + apply (split_trick_ups 256); try exact Ha; try apply (OO Avx2). intros x Hx. exact (with_intrinsic_ups Avx2 _ _ x D Hx).
    + exact (with_intrinsic_ups Avx512Knl _ _ a D Ha).
  - exact (with_intrinsic_ups Avx512Skylake _ _ a D Ha).
Qed.
Lemma upcvt_float_ups e a : in_reg (nb e) a ->
  ups (nb e) 32 (fun x => double_of_single x mod 2 ^ 64) a (upcvt_float e a).
Proof.
  intros Ha. assert (D : double_width MF32 MF64) by (repeat split). destruct e; cbn [upcvt_float nb] in *.
  3: apply (split_trick_ups 128); try exact Ha; try apply (okw_dw Sse42 _ _ D); intros x Hx; exact (with_intrinsic_ups Sse42 _ _ x D Hx).
  all: match goal with |- context [with_intrinsic ?e] => exact (with_intrinsic_ups e _ _ a D Ha) end.
Qed.

(** ** cvt *)

(** what cvt does to one lane *)
Definition cvt1 (e : ext) (from to : mty) (x : Z) : option Z :=
  match from, to with
  | MI _, MI _ | MF32, MF32 | MF64, MF64 => Some x
  | MF64, _ | _, MF64 => if skylake e then Some (hw_cast from to x) else c_cast from to x
  | MI t, MF32 => if is_signed t then Some (hw_cast from to x) else if is512 e then Some (hw_cast from to x) else c_cast from to x
  | MF32, MI t => if is_signed t then Some (hw_cast from to x) else if is512 e then Some (hw_cast from to x) else c_cast from to x
  end.
Definition same_width (from to : mty) : Prop := mem_type from /\ mem_type to /\ mw to = mw from.

Definition lanes_to (e : ext) (w : Z) (f : Z -> option Z) (r : Z) : Prop :=
  in_reg (nb e) r /\ forall i, 0 <= i < nb e / w -> exists y, f i = Some y /\ lane w i r = y mod 2 ^ w.

Lemma build_o_lanes e w f : okw (nb e) w -> (forall i, 0 <= i < nb e / w -> f i <> None) ->
  exists r, build_o w (nlanes (nb e) w) f = Some r /\ lanes_to e w f r.
Proof.
  intros O D. destruct (build_o_ok w (nlanes (nb e) w) f) as (g & G & E). { rewrite nlanes_z by exact O. exact D. }
  exists (build w (nlanes (nb e) w) g). split; [exact E|]. split; [apply in_reg_build; exact O|]. intros i Hi. exists (g i).
  split; [apply G; rewrite nlanes_z by exact O; exact Hi|]. apply lane_buildn; assumption.
Qed.
Lemma instr_lanes e from to a : same_width from to -> lanes_to e (mw to) (fun i => Some (hw_cast from to (lane (mw from) i a))) (cvt_instr e from to a).
Proof.
  intros (H1 & H2 & W). pose proof (okw_mw e from H1) as O. split.
  - apply mm_cvt_reg; [exact H2|destruct O as (?&?&?); apply Z.div_pos; lia|rewrite W; apply O].
  - intros i Hi. eexists. split; [reflexivity|]. apply mm_cvt_lane; [exact H2|]. rewrite W in Hi. exact Hi.
Qed.
Lemma x_cvt_lanes e from to a : same_width from to -> in_reg (nb e) a ->
  (forall i, 0 <= i < nb e / mw to -> cvt1 e from to (lane (mw from) i a) <> None) ->
  exists r, x_cvt e from to a = Some r /\ lanes_to e (mw to) (fun i => cvt1 e from to (lane (mw from) i a)) r.
Proof.
  intros S Ha D. pose proof S as (H1 & H2 & W). pose proof (okw_mw e to H2) as O.
  assert (ID : exists r, Some a = Some r /\ lanes_to e (mw to) (fun i => Some (lane (mw from) i a)) r).
  { exists a. split; [reflexivity|]. split; [exact Ha|]. intros i Hi. eexists. split; [reflexivity|]. rewrite W. symmetry. apply Z.mod_small, lane_range. destruct (ok8_mw from H1); lia. }
  assert (EM : (forall i, 0 <= i < nb e / mw to -> c_cast from to (lane (mw from) i a) <> None) ->
    exists r, cvt_emulated e from to a = Some r /\ lanes_to e (mw to) (fun i => c_cast from to (lane (mw from) i a)) r) by (intros Q; apply build_o_lanes; assumption).
  assert (IN : exists r, Some (cvt_instr e from to a) = Some r /\ lanes_to e (mw to) (fun i => Some (hw_cast from to (lane (mw from) i a))) r).
  { eexists. split; [reflexivity|]. apply instr_lanes. exact S. }
  unfold x_cvt, cvt1 in *. destruct from as [t| |], to as [u| |]; try exact ID; try destruct (is_signed _); try destruct (skylake e); try destruct (is512 e); try exact IN; apply EM; exact D.
Qed.
