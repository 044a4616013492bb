(** Lane-by-lane behaviour of the ARM conversions. *)
From Coq Require Import ZArith List Bool Lia ZifyBool.
From Verif Require Import CInt BitLemmas FloatSpec FloatProofs Fp16 ScalarOps ScalarSpec ScalarProofs X86Deg234 X86Arith X86ArithSpec X86LaneLemmas X86ArithProofs X86EmulProofs
  X86SelectProofs X86Mem X86MemSpec X86MemProofs X86Cvt X86CvtSpec X86CvtProofs X86CvtProofs2 X86CvtProofs4
  Arm ArmSpec ArmProofs ArmPerm ArmPermSpec ArmPermProofs ArmMem ArmCvt ArmCvtSpec.
Import ListNotations.
Open Scope Z_scope.

(** ** One lane *)

Lemma fcvtz_saturated t f b : ty_min t <= ty_max t -> saturated t f b (fcvtz t f b).
Proof.
  intros T. unfold saturated, fcvtz. destruct (decode f b) as [|neg|neg m]; try reflexivity. rewrite scale_one. unfold clamp, saturate.
  destruct (Z.ltb_spec (sval neg (m / one f)) (ty_min t)); [lia|]. destruct (Z.ltb_spec (ty_max t) (sval neg (m / one f))); lia.
Qed.
Lemma ty_min_max t : In t int_types -> ty_min t <= 0 <= ty_max t.
Proof. intros H. ty_cases H; cbn; lia. Qed.
Lemma saturated_unique t f b z z' : saturated t f b z -> saturated t f b z' -> z = z'.
Proof. unfold saturated. destruct (decode f b); intros -> ->; reflexivity. Qed.
Lemma saturated_in t f b z : In t int_types -> saturated t f b z -> in_ty t z.
Proof.
  intros H. pose proof (ty_min_max t H). unfold saturated, in_ty, clamp. destruct (decode f b) as [|[|]|]; intros ->; lia.
Qed.
Lemma truncates_saturated t f b z : truncates f b z -> in_ty t z -> saturated t f b z.
Proof. intros (s & m & D & ->) [A B]. unfold saturated. rewrite D. unfold clamp. lia. Qed.

Lemma c_cast_l from to x y : c_cast from to x = Some y -> mem_type to -> y mod 2 ^ mw to = l_cvt from to x mod 2 ^ mw to.
Proof.
  intros E M. destruct from as [t| |], to as [v| |]; cbn [c_cast l_cvt] in *; try (injection E as <-; reflexivity).
  - injection E as <-. change (mw (MI v)) with (bits v). apply cast_mod. exact M.
  - unfold int_of_float in E. unfold fcvtz. destruct (decode _ x) as [|neg|neg m]; try discriminate. unfold saturate.
    destruct (Z.leb_spec (ty_min v) (sval neg (m / 2 ^ scale (mfmt MF32)))); [|discriminate]. destruct (Z.leb_spec (sval neg (m / 2 ^ scale (mfmt MF32))) (ty_max v)); [|discriminate].
    injection E as <-. destruct (Z.ltb_spec (sval neg (m / 2 ^ scale (mfmt MF32))) (ty_min v)); [lia|]. destruct (Z.ltb_spec (ty_max v) (sval neg (m / 2 ^ scale (mfmt MF32)))); [lia|reflexivity].
  - unfold int_of_float in E. unfold fcvtz. destruct (decode _ x) as [|neg|neg m]; try discriminate. unfold saturate.
    destruct (Z.leb_spec (ty_min v) (sval neg (m / 2 ^ scale (mfmt MF64)))); [|discriminate]. destruct (Z.leb_spec (sval neg (m / 2 ^ scale (mfmt MF64))) (ty_max v)); [|discriminate].
    injection E as <-. destruct (Z.ltb_spec (sval neg (m / 2 ^ scale (mfmt MF64))) (ty_min v)); [lia|]. destruct (Z.ltb_spec (ty_max v) (sval neg (m / 2 ^ scale (mfmt MF64)))); [lia|reflexivity].
Qed.

(** ** Registers *)

Definition lanes_are (n w : Z) (g : Z -> Z) (r : Z) : Prop := in_reg n r /\ forall i, 0 <= i < n / w -> lane w i r = g i.

Lemma build_lanes n w g : okw n w -> lanes_are n w (fun i => g i mod 2 ^ w) (build w (nlanes n w) g).
Proof. intros O. split; [apply in_reg_build; exact O|intros i Hi; apply lane_buildn; assumption]. Qed.
Lemma build_o_lanes_are n w f g : okw n w -> (forall i, 0 <= i < n / w -> exists y, f i = Some y /\ y mod 2 ^ w = g i) ->
  exists r, build_o w (nlanes n w) f = Some r /\ lanes_are n w g r.
Proof.
  intros O H. destruct (build_o_ok w (nlanes n w) f) as (h & G & E). { rewrite nlanes_z by exact O. intros i Hi. destruct (H i Hi) as (y & -> & _). discriminate. }
  eexists. split; [exact E|]. split; [apply in_reg_build; exact O|]. intros i Hi. rewrite lane_buildn by assumption.
  destruct (H i Hi) as (y & Ey & <-). rewrite G in Ey by (rewrite nlanes_z by exact O; exact Hi). injection Ey as <-. reflexivity.
Qed.

(** all the lanes of a type at least as wide are active *)
Lemma active_wide e t w k i : In t int_types -> w = 8 \/ w = 16 \/ w = 32 \/ w = 64 -> w = k * bits t -> 0 < k -> 0 <= i < an e / w -> active w (svtrue e t) i = true.
Proof.
  intros H Hw W K Hi. unfold active. assert (Q : i * (w / 8) = (i * k) * (bits t / 8)).
  { rewrite W. destruct (bits_cases t H) as [B|[B|[B|B]]]; rewrite B.
    - replace (k * 8 / 8) with k by (Z.to_euclidean_division_equations; lia). cbn; lia.
    - replace (k * 16 / 8) with (k * 2) by (Z.to_euclidean_division_equations; lia). change (16 / 8) with 2. lia.
    - replace (k * 32 / 8) with (k * 4) by (Z.to_euclidean_division_equations; lia). change (32 / 8) with 4. lia.
    - replace (k * 64 / 8) with (k * 8) by (Z.to_euclidean_division_equations; lia). change (64 / 8) with 8. lia. }
  rewrite Q. apply (active_true e t (i * k) H). pose proof (okw_ant e t H) as (B0 & _ & _). destruct (okw_fine (an e) k (bits t) K B0) as [_ F]. { rewrite <- W. apply okw_an. exact Hw. }
  rewrite F, <- W. nia.
Qed.

Lemma sv_cvt_lanes u e from to a : mem_type from -> mem_type to -> (mw to = mw from \/ mw to = 2 * mw from \/ mw from = 2 * mw to) -> e <> Neon128 -> e <> Aarch64 ->
  forall t, In t int_types -> (exists k, 0 < k /\ Z.max (mw from) (mw to) = k * bits t) ->
  lanes_are (an e) (Z.max (mw from) (mw to)) (fun i => l_cvt from to (lane (Z.max (mw from) (mw to)) i a mod 2 ^ mw from) mod 2 ^ mw to) (sv_cvt_x u (an e) (svtrue e t) from to a).
Proof.
  intros Mf Mt W _ _ t Ht (k & K & Wk). unfold sv_cvt_x. set (w := Z.max (mw from) (mw to)) in *.
  assert (Cw : w = 8 \/ w = 16 \/ w = 32 \/ w = 64) by (unfold w; pose proof (mw_cases _ Mf); pose proof (mw_cases _ Mt); lia).
  pose proof (okw_an e w Cw) as O. split; [apply in_reg_build; exact O|]. intros i Hi. rewrite lane_buildn by assumption.
  rewrite (active_wide e t w k i Ht Cw Wk K Hi). apply Z.mod_small. pose proof (mw_cases _ Mt).
  pose proof (Z.mod_pos_bound (l_cvt from to (lane w i a mod 2 ^ mw from)) (2 ^ mw to) ltac:(apply pow2_pos; lia)).
  pose proof (Z.pow_le_mono_r 2 (mw to) w ltac:(lia) ltac:(lia)). lia.
Qed.

(** ** cvt *)

Definition cvt_ok (e : aext) (from to : mty) (x : Z) : Prop :=
  match from, to, e with MF64, MI _, Neon128 => c_cast from to x <> None | _, _, _ => True end.

Lemma cvt_castable e from to x : cvt_ok e from to x -> e = Neon128 -> mw from = 64 -> exists y, c_cast from to x = Some y.
Proof.
  intros C -> W. destruct from as [t| |], to as [v| |]; try (eexists; reflexivity); try discriminate. cbn [cvt_ok] in C.
  destruct (c_cast MF64 (MI v) x) as [y|]; [eexists; reflexivity|congruence].
Qed.

Lemma a_cvt_lanes u e from to a : same_width from to -> in_reg (an e) a ->
  (forall i, 0 <= i < an e / mw to -> cvt_ok e from to (lane (mw from) i a)) ->
  exists r, a_cvt u e from to a = Some r /\ lanes_are (an e) (mw to) (fun i => l_cvt from to (lane (mw from) i a) mod 2 ^ mw to) r.
Proof.
  intros (Mf & Mt & W) Ha C. pose proof (okw_amw e to Mt) as O.
  assert (ID : (match from, to with MI _, MI _ | MF32, MF32 | MF64, MF64 => True | _, _ => False end) ->
     lanes_are (an e) (mw to) (fun i => l_cvt from to (lane (mw from) i a) mod 2 ^ mw to) a).
  { intros I. split; [exact Ha|]. intros i Hi. destruct from as [t| |], to as [v| |]; try contradiction; cbn [l_cvt].
    - rewrite W. change (mw (MI t)) with (bits t). rewrite cast_mod by exact Mf. symmetry. apply lane_modw. pose proof (bits_pos t Mf). lia.
    - symmetry. apply lane_modw. cbn. lia.
    - symmetry. apply lane_modw. cbn. lia. }
  assert (V : forall k, k = 128 / mw from -> an e = 128 -> lanes_are (an e) (mw to) (fun i => l_cvt from to (lane (mw from) i a) mod 2 ^ mw to) (v_cvt k from to a)).
  { intros k -> E. unfold v_cvt. rewrite <- W. rewrite E in *. apply (build_lanes 128 (mw to) (fun i => l_cvt from to (lane (mw to) i a)) O). }
  assert (S : lanes_are (an e) (mw to) (fun i => l_cvt from to (lane (mw from) i a) mod 2 ^ mw to) (sv_cvt_x u (an e) (svtrue e (uty from)) from to a) \/ is_neon e = true).
  { destruct e as [| |eb vq]; [right; reflexivity|right; reflexivity|left].
    destruct (sv_cvt_lanes u (Sve eb vq) from to a Mf Mt (or_introl W) ltac:(discriminate) ltac:(discriminate) (uty from) (mem_ty _ Mf)) as [R L].
    { exists 1. split; [lia|]. unfold mw in *. lia. }
    split; [exact R|]. intros i Hi. assert (X : Z.max (mw from) (mw to) = mw to) by lia. rewrite X in L. rewrite (L i Hi).
    do 2 f_equal. rewrite W. apply lane_modw. pose proof (mw_cases _ Mf). lia. }
  assert (B : e = Neon128 -> mw from = 64 -> exists r, build_o 64 2 (fun i => c_cast from to (lane 64 i a)) = Some r /\ lanes_are (an e) (mw to) (fun i => l_cvt from to (lane (mw from) i a) mod 2 ^ mw to) r).
  { intros E W64. rewrite W. rewrite W, W64 in C, O. rewrite W64. rewrite E in *. apply (build_o_lanes_are 128 64 _ _ O). intros i Hi.
    destruct (cvt_castable Neon128 from to (lane 64 i a) (C i Hi) eq_refl W64) as [y Ey]. exists y. split; [exact Ey|]. replace (2 ^ 64) with (2 ^ mw to) by (rewrite W, W64; reflexivity). apply c_cast_l; assumption. }
  destruct from as [t| |], to as [v| |]; cbn [a_cvt]; try (eexists; split; [reflexivity|apply ID; exact I]);
    destruct e as [| |eb vq]; try (eexists; split; [reflexivity|destruct S as [S|S]; [exact S|discriminate]]); try (eexists; split; [reflexivity|apply V; reflexivity]).
  - destruct (Z.eqb_spec (mw (MI t)) 64) as [Q|Q]; [apply B; [reflexivity|exact Q]|]. eexists. split; [reflexivity|apply V; reflexivity].
  - destruct (Z.eqb_spec (mw (MI t)) 64) as [Q|Q]; [apply B; [reflexivity|exact Q]|]. eexists. split; [reflexivity|apply V; reflexivity].
  - apply B; reflexivity.
  - cbn in W. lia.
Qed.

(** ** Integer upcvt and downcvt *)

Lemma lane_low w a i : w = 8 \/ w = 16 \/ w = 32 \/ w = 64 -> 0 <= i < 64 / w -> lane w i (v_low a) = lane w i a.
Proof. intros H Hi. apply (lane_lo 64 w a i); [|exact Hi]. decompose [or] H; subst; (split; [lia|split; [lia|reflexivity]]). Qed.
Lemma lane_high w a i : w = 8 \/ w = 16 \/ w = 32 \/ w = 64 -> 0 <= i -> lane w i (v_high a) = lane w (64 / w + i) a.
Proof. intros H Hi. apply (lane_hi 64 w a i); [|exact Hi]. decompose [or] H; subst; (split; [lia|split; [lia|reflexivity]]). Qed.
Lemma lane_combine w x y i : w = 8 \/ w = 16 \/ w = 32 \/ w = 64 -> in_reg 64 x -> in_reg 64 y -> 0 <= i -> lane w i (v_combine x y) = if i <? 64 / w then lane w i x else lane w (i - 64 / w) y.
Proof. intros H X Y Hi. apply (lane_setr 64 w x y i); try assumption. decompose [or] H; subst; (split; [lia|split; [lia|reflexivity]]). Qed.

Lemma v_cvt_ups from to a : double_width from to ->
  ups 128 (mw from) (fun x => l_cvt from to x mod 2 ^ mw to) a (v_cvt (128 / mw to) from to (v_low a), v_cvt (128 / mw to) from to (v_high a)).
Proof.
  intros (Mf & Mt & W). pose proof (okw_amw Neon128 to Mt) as O. change (an Neon128) with 128 in O. cbn [fst snd ups].
  assert (E : 128 / mw to = 64 / mw from).
  { rewrite W. change 128 with (2 * 64). apply Z.div_mul_cancel_l; [pose proof (mw_cases _ Mf); lia|lia]. }
  unfold v_cvt. split; [apply (in_reg_build 128); exact O|]. split; [apply (in_reg_build 128); exact O|].
  rewrite <- W. change (Z.to_nat (128 / mw to)) with (nlanes 128 (mw to)). intros i Hi. cbn [fst snd]. rewrite !(lane_buildn 128) by assumption.
  rewrite lane_low, lane_high by (try apply (mw_cases _ Mf); lia). rewrite E. split; reflexivity.
Qed.

Lemma sv_unpk_lanes (hi : bool) e t v a : double_width (MI t) (MI v) ->
  lanes_are (an e) (bits v) (fun i => cast t (lane (bits t) ((if hi then an e / bits v else 0) + i) a) mod 2 ^ bits v) (sv_unpk hi (an e) t a).
Proof.
  intros (Mf & Mt & W). change (bits v = 2 * bits t) in W. pose proof (okw_amw e (MI v) Mt) as O. change (mw (MI v)) with (bits v) in O. unfold sv_unpk. rewrite <- W. apply build_lanes. exact O.
Qed.

Lemma a_upcvt_int_ups e t v a : double_width (MI t) (MI v) ->
  ups (an e) (bits t) (fun x => cast t x mod 2 ^ bits v) a (a_upcvt_int e t v a).
Proof.
  intros D. destruct e as [| |eb vq]; [apply (v_cvt_ups (MI t) (MI v) a D)|apply (v_cvt_ups (MI t) (MI v) a D)|].
  destruct (sv_unpk_lanes false (Sve eb vq) t v a D) as [R0 L0]. destruct (sv_unpk_lanes true (Sve eb vq) t v a D) as [R1 L1].
  destruct D as (_ & _ & W). change (bits v = 2 * bits t) in W. split; [exact R0|]. split; [exact R1|]. cbn [fst snd a_upcvt_int]. rewrite <- W. intros i Hi. split; [rewrite (L0 i Hi); f_equal|apply L1; exact Hi].
Qed.

Lemma cast_mod_lt t w x : In t int_types -> 0 <= w <= bits t -> cast t x mod 2 ^ w = x mod 2 ^ w.
Proof.
  intros H Hw. assert (Dv : (2 ^ w | 2 ^ bits t)) by (exists (2 ^ (bits t - w)); rewrite <- Z.pow_add_r by lia; f_equal; lia).
  pose proof (pow2_pos w ltac:(lia)) as P. pose proof (pow2_pos (bits t) ltac:(lia)) as P'.
  rewrite (Znumtheory.Zmod_div_mod _ _ (cast t x) P P' Dv), (Znumtheory.Zmod_div_mod _ _ x P P' Dv), cast_mod by exact H. reflexivity.
Qed.
Lemma a_downcvt_int_lanes e t v a b : double_width (MI v) (MI t) ->
  lanes_are (an e) (bits v) (fun i => pick (an e / bits t) (fun i => lane (bits t) i a) (fun i => lane (bits t) i b) i mod 2 ^ bits v) (a_downcvt_int e t v a b).
Proof.
  intros (Mf & Mt & W). change (bits t = 2 * bits v) in W. cbn in Mf, Mt. pose proof (bits_cases v Mf) as Cv. pose proof (bits_cases t Mt) as Ct.
  destruct (okw_fine (an e) 2 (bits v) ltac:(lia) ltac:(lia)) as [Ov Ev]. { rewrite <- W. apply okw_an. exact Ct. } rewrite <- W in Ev.
  assert (Ln : forall x i, lane (bits v) (2 * i) x = lane (bits t) i x mod 2 ^ bits v \/ i < 0).
  { intros x i. destruct (Z.ltb_spec i 0); [right; lia|left]. rewrite W, lane_pair by lia. rewrite Z.mod_add by (apply Z.pow_nonzero; lia). symmetry. apply lane_modw. lia. }
  destruct e as [| |eb vq].
  3: { cbn [a_downcvt_int]. destruct (i_uzp_ok (an (Sve eb vq)) (bits v) (okw_an _ _ Cv)) with (hi := false) (a := a) (b := b) as [R L]; [rewrite Ev; Z.to_euclidean_division_equations; lia|]. split; [exact R|].
    assert (E2 : an (Sve eb vq) / bits v / 2 = an (Sve eb vq) / bits t) by (rewrite Ev; rewrite Z.mul_comm; apply Z.div_mul; lia). rewrite E2 in L.
    intros i Hi. unfold pick. destruct (Z.ltb_spec i (an (Sve eb vq) / bits t)).
    - destruct (L i ltac:(lia)) as [-> _]. rewrite Z.add_0_r. destruct (Ln a i) as [Q|Q]; [exact Q|lia].
    - destruct (L (i - an (Sve eb vq) / bits t) ltac:(lia)) as [_ Q]. replace (an (Sve eb vq) / bits t + (i - an (Sve eb vq) / bits t)) with i in Q by lia. rewrite Q, Z.add_0_r.
      destruct (Ln b (i - an (Sve eb vq) / bits t)) as [Q'|Q']; [exact Q'|lia]. }
  all: change (an Neon128) with 128 in *; change (an Aarch64) with 128 in *; cbn [a_downcvt_int].
  all: assert (E64 : 64 / bits v = 128 / bits t) by (rewrite W; change 128 with (2 * 64); symmetry; apply Z.div_mul_cancel_l; lia).
  all: assert (O64 : okw 64 (bits v)) by (destruct Cv as [Q|[Q|[Q|Q]]]; rewrite Q; (split; [lia|split; [lia|reflexivity]])).
  all: assert (VC : forall x, v_cvt (128 / bits t) (MI t) (MI v) x = build (bits v) (nlanes 64 (bits v)) (fun i => cast t (lane (bits t) i x))) by (intros x; unfold v_cvt, nlanes; rewrite E64; reflexivity).
  all: assert (RV : forall x, in_reg 64 (v_cvt (128 / bits t) (MI t) (MI v) x)) by (intros x; rewrite VC; apply in_reg_build; exact O64).
  all: split; [apply (in_reg_setr 64); [lia|apply RV|apply RV]|].
  all: intros i Hi; rewrite lane_combine by (try apply RV; try exact Cv; lia); unfold pick; rewrite E64.
  all: assert (CM : forall x, cast t x mod 2 ^ bits v = x mod 2 ^ bits v) by (intros x; apply cast_mod_lt; [exact Mt|lia]).
  all: destruct (Z.ltb_spec i (128 / bits t)); rewrite VC, lane_buildn by (try exact O64; lia); apply CM.
Qed.
