(** The ARM conversions that change the width of floats. *)
From Coq Require Import ZArith List Bool Lia ZifyBool.
From Verif Require Import CInt BitLemmas FloatSpec FloatProofs FixedPointConv Fp16 ScalarOps ScalarSpec ScalarProofs X86Deg234 X86Arith X86ArithSpec X86LaneLemmas X86ArithProofs X86EmulProofs
  X86SelectProofs X86Mem X86MemSpec X86MemProofs X86Cvt X86CvtSpec X86CvtProofs X86CvtProofs2 X86CvtProofs3 X86CvtProofs4
  Arm ArmSpec ArmProofs ArmPerm ArmPermSpec ArmPermProofs ArmMem ArmCvt ArmCvtSpec ArmCvtProofs.
Import ListNotations.
Open Scope Z_scope.

(** ** One lane *)

Lemma l_cvt_of_int t f x : is_float f = true -> l_cvt (MI t) f x mod 2 ^ mw f = nearest_float (format f) (cast t x).
Proof.
  intros F. replace (l_cvt (MI t) f x) with (nearest_float (format f) (cast t x)); [apply nearest_float_mod, F|].
  rewrite <- nearest_float_eq, format_mfmt. destruct f; [discriminate|reflexivity|reflexivity].
Qed.
Lemma l_cvt_to_int f v x : is_float f = true -> l_cvt f (MI v) x = fcvtz v (format f) x.
Proof. destruct f; [discriminate|reflexivity|reflexivity]. Qed.
Lemma one64_32 : one binary64 = one binary32 * 2 ^ 925. Proof. reflexivity. Qed.
Lemma fcvtz_widen v x : fcvtz v binary64 (double_of_single x) = fcvtz v binary32 x.
Proof.
  unfold fcvtz. destruct (double_of_single_ok x) as [-> _]. destruct (decode binary32 x) as [|s|s m]; cbn [widen64]; try reflexivity.
  rewrite !scale_one, one64_32, Z.div_mul_cancel_r by (vm_compute; discriminate). reflexivity.
Qed.
Lemma truncates_widen x z : truncates binary64 (double_of_single x) z <-> truncates binary32 x z.
Proof.
  unfold truncates. destruct (double_of_single_ok x) as [-> _]. split; intros (s & m & D & ->).
  - destruct (decode binary32 x) as [|s'|s' m']; try discriminate. injection D as <- <-. exists s', m'. split; [reflexivity|]. rewrite one64_32, Z.div_mul_cancel_r by (vm_compute; discriminate). reflexivity.
  - rewrite D. exists s, (m * 2 ^ 925). split; [reflexivity|]. rewrite one64_32, Z.div_mul_cancel_r by (vm_compute; discriminate). reflexivity.
Qed.
Lemma c_cast_castable f v x : is_float f = true -> c_cast f (MI v) x <> None <-> castable v (format f) x.
Proof.
  intros F. assert (E : c_cast f (MI v) x = int_of_float v (format f) x) by (destruct f; [discriminate|reflexivity|reflexivity]). rewrite E. split.
  - unfold int_of_float. destruct (decode (format f) x) as [|s|s m] eqn:D; try congruence. destruct (_ && _) eqn:B; [|congruence]. intros _.
    exists (sval s (m / one (format f))). split; [exists s, m; split; [exact D|reflexivity]|]. rewrite scale_one in B. unfold in_ty. lia.
  - intros (z & T & I). rewrite (c_truncates v (format f) x z T I). discriminate.
Qed.
Lemma castable_saturated t f b z : castable t f b -> saturated t f b z -> truncates f b z /\ in_ty t z.
Proof. intros (z' & T & I) S. rewrite (saturated_unique t f b z z' S (truncates_saturated t f b z' T I)). split; assumption. Qed.

(** no second rounding when the integer has at most 53 bits *)
Lemma single_of_nearest z : Z.abs z <= 2 ^ 53 -> single_of_double (nearest_float binary64 z) = nearest_float binary32 z.
Proof.
  intros H. unfold single_of_double. rewrite (nearest_float_exact binary64 z (good_format MF64) H). unfold nearest_float, encode. f_equal. f_equal.
  rewrite one64_32, Z.mul_assoc. apply round_mag_shift; [lia|]. apply Z.mul_nonneg_nonneg; [lia|vm_compute; discriminate].
Qed.

(** ** Registers *)

Lemma build_o_none w k f i : 0 <= i < Z.of_nat k -> f i = None -> build_o w k f = None.
Proof.
  induction k as [|k IH]; intros Hi E; [lia|]. cbn [build_o]. destruct (Z.eq_dec i (Z.of_nat k)) as [->|N].
  - rewrite E. destruct (build_o w k f); reflexivity.
  - rewrite IH by (assumption || lia). reflexivity.
Qed.
Lemma amw_2 e from to : double_width from to -> okw (an e) (mw from) /\ okw (an e) (mw to) /\ an e / mw from = 2 * (an e / mw to) /\ an e / mw from / 2 = an e / mw to.
Proof.
  intros (Mf & Mt & W). pose proof (mw_cases _ Mf). destruct (okw_fine (an e) 2 (mw from) ltac:(lia) ltac:(lia)) as [Of E]. { rewrite <- W. apply okw_amw, Mt. }
  split; [exact Of|]. split; [apply okw_amw, Mt|]. rewrite <- W in E. split; [exact E|]. rewrite E, Z.mul_comm. apply Z.div_mul. lia.
Qed.
Lemma lane_even w i x : 0 < w -> 0 <= i -> lane w (2 * i) x = lane (2 * w) i x mod 2 ^ w.
Proof. intros W I. rewrite lane_pair by lia. rewrite Z.mod_add by (apply Z.pow_nonzero; lia). symmetry. apply lane_modw. lia. Qed.

Lemma uzp_lanes e from to x y : double_width to from ->
  lanes_are (an e) (mw to) (fun i => pick (an e / mw from) (fun i => lane (mw from) i x) (fun i => lane (mw from) i y) i mod 2 ^ mw to) (i_uzp false (an e) (mw to) x y).
Proof.
  intros D. destruct (amw_2 e _ _ D) as (Ot & _ & E & E2). destruct D as (Mt & Mf & W). pose proof (mw_cases _ Mt).
  destruct (i_uzp_ok (an e) (mw to) Ot) with (hi := false) (a := x) (b := y) as [R L]; [lia|]. rewrite E2 in L. split; [exact R|].
  intros i Hi. unfold pick. destruct (Z.ltb_spec i (an e / mw from)).
  - destruct (L i ltac:(lia)) as [-> _]. rewrite Z.add_0_r, lane_even, W by lia. reflexivity.
  - destruct (L (i - an e / mw from) ltac:(lia)) as [_ Q]. replace (an e / mw from + (i - an e / mw from)) with i in Q by lia. rewrite Q, Z.add_0_r, lane_even, W by lia. reflexivity.
Qed.
Lemma zip_lanes (hi : bool) e from to a i : double_width from to -> 0 <= i < an e / mw to ->
  lane (mw to) i (i_zip hi (an e) (mw from) a a) mod 2 ^ mw from = lane (mw from) ((if hi then an e / mw to else 0) + i) a.
Proof.
  intros D Hi. destruct (amw_2 e _ _ D) as (Of & _ & E & E2). destruct D as (Mf & Mt & W). pose proof (mw_cases _ Mf).
  destruct (i_zip_ok (an e) (mw from) Of) with (hi := hi) (a := a) (b := a) as [R L]; [lia|]. rewrite E2 in L. destruct (L i Hi) as [<- _].
  rewrite lane_even, W by lia. reflexivity.
Qed.
Lemma v_down_lanes from to a b : double_width to from ->
  lanes_are 128 (mw to) (fun i => l_cvt from to (pick (128 / mw from) (fun i => lane (mw from) i a) (fun i => lane (mw from) i b) i) mod 2 ^ mw to)
    (v_combine (v_cvt (128 / mw from) from to a) (v_cvt (128 / mw from) from to b)).
Proof.
  intros (Mt & Mf & W). pose proof (mw_cases _ Mt) as Ct.
  assert (E : 64 / mw to = 128 / mw from). { rewrite W. change 128 with (2 * 64). symmetry. apply Z.div_mul_cancel_l; lia. }
  assert (O : okw 64 (mw to)) by (destruct Ct as [Q|[Q|[Q|Q]]]; rewrite Q; (split; [lia|split; [lia|reflexivity]])).
  assert (O' : 128 / mw to = 2 * (64 / mw to)) by (destruct Ct as [Q|[Q|[Q|Q]]]; rewrite Q; reflexivity).
  assert (V : forall x, v_cvt (128 / mw from) from to x = build (mw to) (nlanes 64 (mw to)) (fun i => l_cvt from to (lane (mw from) i x))) by (intros x; unfold v_cvt, nlanes; rewrite E; reflexivity).
  assert (R : forall x, in_reg 64 (v_cvt (128 / mw from) from to x)) by (intros x; rewrite V; apply in_reg_build; exact O).
  split; [apply (in_reg_setr 64); [lia|apply R|apply R]|]. intros i Hi. rewrite lane_combine by (try apply R; try exact Ct; lia). unfold pick. rewrite E.
  destruct (Z.ltb_spec i (128 / mw from)); rewrite V, lane_buildn by (try exact O; lia); reflexivity.
Qed.

Lemma lanes_ext n w g g' r : (forall i, 0 <= i < n / w -> g i = g' i) -> lanes_are n w g r -> lanes_are n w g' r.
Proof. intros H [R L]. split; [exact R|]. intros i Hi. rewrite <- H by exact Hi. apply L, Hi. Qed.

(** ** upcvt *)

Definition is_sve (e : aext) : bool := match e with Sve _ _ => true | _ => false end.


Lemma sv_lanes u e from to t r : mem_type from -> mem_type to -> (mw to = mw from \/ mw to = 2 * mw from \/ mw from = 2 * mw to) ->
  In t int_types -> (exists k, 0 < k /\ Z.max (mw from) (mw to) = k * bits t) -> is_sve e = true ->
  lanes_are (an e) (Z.max (mw from) (mw to)) (fun i => l_cvt from to (lane (Z.max (mw from) (mw to)) i r mod 2 ^ mw from) mod 2 ^ mw to) (sv_cvt_x u (an e) (svtrue e t) from to r).
Proof. intros Mf Mt W T K S. apply sv_cvt_lanes; try assumption; intros ->; discriminate. Qed.

Lemma up_f32 u e to a : double_width MF32 to -> is_sve e = true ->
  ups (an e) 32 (fun x => l_cvt MF32 to x mod 2 ^ 64) a
    (sv_cvt_x u (an e) (svtrue e u32) MF32 to (i_zip false (an e) 32 a a), sv_cvt_x u (an e) (svtrue e u32) MF32 to (i_zip true (an e) 32 a a)).
Proof.
  intros D S. pose proof D as (Mf & Mt & W). change (mw MF32) with 32 in W. assert (W64 : mw to = 64) by lia. assert (X : Z.max (mw MF32) (mw to) = 64) by (rewrite W64; reflexivity).
  assert (K : forall r, lanes_are (an e) 64 (fun i => l_cvt MF32 to (lane 64 i r mod 2 ^ 32) mod 2 ^ 64) (sv_cvt_x u (an e) (svtrue e u32) MF32 to r)).
  { intros r. pose proof (sv_lanes u e MF32 to u32 r Mf Mt (or_intror (or_introl W)) ltac:(cbn; tauto) ltac:(exists 2; rewrite X; split; [lia|reflexivity]) S) as Q. rewrite X, W64 in Q. exact Q. }
  destruct (K (i_zip false (an e) 32 a a)) as [R0 L0]. destruct (K (i_zip true (an e) 32 a a)) as [R1 L1]. split; [exact R0|]. split; [exact R1|].
  cbn [fst snd]. change (2 * 32) with 64. intros i Hi. rewrite L0, L1 by exact Hi.
  pose proof (zip_lanes false e MF32 to a i D) as Z0. pose proof (zip_lanes true e MF32 to a i D) as Z1. rewrite W64 in Z0, Z1. change (mw MF32) with 32 in Z0, Z1. rewrite Z0, Z1 by exact Hi. split; reflexivity.
Qed.

Lemma dw_32_64 : double_width MF32 MF64. Proof. split; [exact I|]. split; [exact I|reflexivity]. Qed.
Lemma up_float_ok u e a : exists p, a_upcvt_float u e a = Some p /\ ups (an e) 32 double_of_single a p.
Proof.
  assert (X : forall p, ups (an e) 32 (fun x => double_of_single x mod 2 ^ 64) a p -> ups (an e) 32 double_of_single a p).
  { intros p (R0 & R1 & L). split; [exact R0|]. split; [exact R1|]. intros i Hi. destruct (L i Hi) as [-> ->]. rewrite !Z.mod_small by (apply double_of_single_ok). split; reflexivity. }
  assert (Q : exists p, a_upcvt_float u e a = Some p /\ ups (an e) 32 (fun x => double_of_single x mod 2 ^ 64) a p).
  2: { destruct Q as (p & E & U). exists p. split; [exact E|apply X, U]. }
  destruct e as [| |eb vq].
  - assert (O : okw 128 64) by (split; [lia|split; [lia|reflexivity]]).
    destruct (build_o_lanes_are 128 64 (fun i => c_cast MF32 MF64 (lane 32 i a)) (fun i => double_of_single (lane 32 i a) mod 2 ^ 64) O) as (r0 & E0 & R0 & L0). { intros i Hi. eexists. split; reflexivity. }
    destruct (build_o_lanes_are 128 64 (fun i => c_cast MF32 MF64 (lane 32 (i + 2) a)) (fun i => double_of_single (lane 32 (i + 2) a) mod 2 ^ 64) O) as (r1 & E1 & R1 & L1). { intros i Hi. eexists. split; reflexivity. }
    exists (r0, r1). cbn [a_upcvt_float]. change (nlanes 128 64) with 2%nat in E0, E1. rewrite E0. cbn [bind]. rewrite E1. split; [reflexivity|]. split; [exact R0|]. split; [exact R1|].
    cbn [fst snd]. change (2 * 32) with 64. change (an Neon128) with 128. intros i Hi. rewrite L0, L1 by exact Hi. change (128 / 64) with 2. rewrite (Z.add_comm 2 i). split; reflexivity.
  - eexists. split; [reflexivity|]. apply (v_cvt_ups MF32 MF64 a dw_32_64).
  - eexists. split; [reflexivity|]. apply (up_f32 u (Sve eb vq) MF64 a dw_32_64 eq_refl).
Qed.

Lemma ups_map n w g h a p r0 r1 : lanes_are n (2 * w) (fun i => h (lane (2 * w) i (fst p))) r0 -> lanes_are n (2 * w) (fun i => h (lane (2 * w) i (snd p))) r1 ->
  ups n w g a p -> ups n w (fun x => h (g x)) a (r0, r1).
Proof.
  intros [R0 L0] [R1 L1] (_ & _ & L). split; [exact R0|]. split; [exact R1|]. cbn [fst snd]. intros i Hi. rewrite L0, L1 by exact Hi. destruct (L i Hi) as [-> ->]. split; reflexivity.
Qed.
Lemma ups_ext n w g g' a p : 0 <= w -> (forall x, 0 <= x < 2 ^ w -> g x = g' x) -> ups n w g a p -> ups n w g' a p.
Proof. intros W H (R0 & R1 & L). split; [exact R0|]. split; [exact R1|]. intros i Hi. rewrite <- !H by (apply lane_range, W). apply L, Hi. Qed.

Lemma up_int_ok u e t f a : is_float f = true -> In t int_types -> mw f = 2 * bits t ->
  exists p, a_upcvt u e (MI t) f a = Some p /\ ups (an e) (bits t) (fun x => nearest_float (format f) (cast t x)) a p.
Proof.
  intros F H W. set (v := resized t (mw f)). pose proof (bits_cases t H) as Ct.
  assert (Wf : In (mw f) [8; 16; 32; 64]) by (destruct f; [discriminate|cbn; tauto|cbn; tauto]). destruct (resized_int t (mw f) H Wf) as [Hv Bv]. fold v in Hv, Bv.
  assert (D : double_width (MI t) (MI v)) by (split; [exact H|]; split; [exact Hv|]; change (bits v = 2 * bits t); lia).
  assert (SW : same_width (MI v) f) by (split; [exact Hv|]; split; [destruct f; [discriminate|exact I|exact I]|]; symmetry; exact Bv).
  assert (CV : forall x, nearest_float (format f) (cast v (cast t x mod 2 ^ bits v)) = nearest_float (format f) (cast t x)).
  { intros x. rewrite cast_wider; try assumption; [reflexivity| |lia]. unfold v, resized. destruct t; reflexivity. }
  destruct (is_sve e) eqn:S.
  - pose proof (sv_unpk_lanes false e t v a D) as [U0 V0]. pose proof (sv_unpk_lanes true e t v a D) as [U1 V1].
    assert (K : forall r, lanes_are (an e) (bits v) (fun i => nearest_float (format f) (cast v (lane (bits v) i r))) (sv_cvt_x u (an e) (svtrue e t) (MI v) f r)).
    { intros r. assert (X : Z.max (mw (MI v)) (mw f) = bits v) by (change (mw (MI v)) with (bits v); lia).
      pose proof (sv_lanes u e (MI v) f t r Hv (proj1 (proj2 SW)) (or_introl (proj2 (proj2 SW))) H ltac:(exists 2; rewrite X; split; lia) S) as Q. rewrite X in Q. revert Q. apply lanes_ext.
      intros i Hi. rewrite l_cvt_of_int by exact F. f_equal. f_equal. change (mw (MI v)) with (bits v). apply lane_modw. lia. }
    exists (sv_cvt_x u (an e) (svtrue e t) (MI v) f (sv_unpk false (an e) t a), sv_cvt_x u (an e) (svtrue e t) (MI v) f (sv_unpk true (an e) t a)).
    split; [destruct e; try discriminate; destruct f; [discriminate|reflexivity|reflexivity]|].
    destruct (K (sv_unpk false (an e) t a)) as [R0 L0]. destruct (K (sv_unpk true (an e) t a)) as [R1 L1]. split; [exact R0|]. split; [exact R1|]. cbn [fst snd]. rewrite <- W, <- Bv. intros i Hi.
    rewrite L0, L1, V0, V1, !CV by exact Hi. split; reflexivity.
  - pose proof (a_upcvt_int_ups e t v a D) as U. destruct (a_upcvt_int e t v a) as [x0 x1] eqn:Ex. pose proof U as (R0 & R1 & L). cbn [fst snd] in R0, R1.
    destruct (a_cvt_lanes u e (MI v) f x0 SW R0) as (r0 & E0 & L0). { intros; destruct f, e; try discriminate; exact I. }
    destruct (a_cvt_lanes u e (MI v) f x1 SW R1) as (r1 & E1 & L1). { intros; destruct f, e; try discriminate; exact I. }
    exists (r0, r1). split.
    { assert (Q : a_upcvt u e (MI t) f a = both (a_cvt u e (MI v) f) (a_upcvt_int e t v a)) by (destruct e; try discriminate; destruct f; [discriminate|reflexivity|reflexivity|discriminate|reflexivity|reflexivity]).
      rewrite Q, Ex. unfold both. cbn [fst snd]. rewrite E0. cbn [bind]. rewrite E1. reflexivity. }
    apply (ups_ext _ _ (fun x => nearest_float (format f) (cast v (cast t x mod 2 ^ bits v)))); [lia|intros x _; apply CV|].
    apply (ups_map _ _ (fun x => cast t x mod 2 ^ bits v) (fun y => nearest_float (format f) (cast v y)) a (x0, x1)); [| |exact U]; cbn [fst snd]; rewrite <- W;
      [revert L0|revert L1]; apply lanes_ext; intros i Hi; rewrite l_cvt_of_int by exact F; change (mw (MI v)) with (bits v); rewrite Bv; reflexivity.
Qed.

Lemma up_to_int_ok u e v a : In v int_types -> bits v = 64 -> (e = Neon128 -> forall i, 0 <= i < an e / 32 -> castable v binary32 (lane 32 i a)) ->
  exists p, a_upcvt u e MF32 (MI v) a = Some p /\ ups (an e) 32 (fun x => fcvtz v binary32 x mod 2 ^ 64) a p.
Proof.
  intros H W C. assert (D : double_width MF32 (MI v)) by (split; [exact I|]; split; [exact H|exact W]).
  destruct (is_sve e) eqn:S.
  - eexists. split; [destruct e; try discriminate; reflexivity|]. apply (up_f32 u e (MI v) a D S).
  - destruct (up_float_ok u e a) as ([x0 x1] & Ex & U). pose proof U as (R0 & R1 & L). cbn [fst snd] in R0, R1, L.
    assert (SW : same_width MF64 (MI v)) by (split; [exact I|]; split; [exact H|exact W]).
    assert (E32 : e = Neon128 -> an e / 32 = 4 /\ an e / 64 = 2) by (intros ->; split; reflexivity).
    destruct (a_cvt_lanes u e MF64 (MI v) x0 SW R0) as (r0 & E0 & L0).
    { intros i Hi. destruct e; try exact I. cbn [cvt_ok]. apply (c_cast_castable MF64 v _ eq_refl). change (mw (MI v)) with (bits v) in Hi. rewrite W in Hi. change (an Neon128 / 64) with 2 in Hi. destruct (L i) as [Q _]; [exact Hi|].
      change (2 * 32) with 64 in Q. change (mw MF64) with 64. rewrite Q. destruct (C eq_refl i) as (z & T & J); [change (an Neon128 / 32) with 4; lia|]. exists z. split; [apply truncates_widen, T|exact J]. }
    destruct (a_cvt_lanes u e MF64 (MI v) x1 SW R1) as (r1 & E1 & L1).
    { intros i Hi. destruct e; try exact I. cbn [cvt_ok]. apply (c_cast_castable MF64 v _ eq_refl). change (mw (MI v)) with (bits v) in Hi. rewrite W in Hi. change (an Neon128 / 64) with 2 in Hi. destruct (L i) as [_ Q]; [exact Hi|].
      change (2 * 32) with 64 in Q. change (mw MF64) with 64. rewrite Q. change (an Neon128 / 64) with 2. destruct (C eq_refl (2 + i)) as (z & T & J); [change (an Neon128 / 32) with 4; lia|]. exists z. split; [apply truncates_widen, T|exact J]. }
    exists (r0, r1). split.
    { assert (Q : a_upcvt u e MF32 (MI v) a = bind (a_upcvt_float u e a) (both (a_cvt u e MF64 (MI v)))) by (destruct e; try discriminate; reflexivity).
      rewrite Q, Ex. cbn [bind]. unfold both. cbn [fst snd]. rewrite E0. cbn [bind]. rewrite E1. reflexivity. }
    change (mw (MI v)) with (bits v) in L0, L1. rewrite W in L0, L1.
    apply (ups_ext _ _ (fun x => l_cvt MF64 (MI v) (double_of_single x) mod 2 ^ 64)); [lia|intros x _; cbn [l_cvt mfmt]; rewrite fcvtz_widen; reflexivity|].
    exact (ups_map _ 32 double_of_single (fun y => l_cvt MF64 (MI v) y mod 2 ^ 64) a (x0, x1) r0 r1 L0 L1 U).
Qed.

(** ** downcvt *)

Lemma down_float_ok u e a b : exists r, a_downcvt_float u e a b = Some r /\
  lanes_are (an e) 32 (fun i => single_of_double (pick (an e / 64) (fun i => lane 64 i a) (fun i => lane 64 i b) i)) r.
Proof.
  assert (P : forall i, 0 <= pick (an e / 64) (fun i => lane 64 i a) (fun i => lane 64 i b) i < 2 ^ 64) by (intros i; unfold pick; destruct (i <? _); apply lane_range; lia).
  assert (M : forall i, single_of_double (pick (an e / 64) (fun i => lane 64 i a) (fun i => lane 64 i b) i) mod 2 ^ 32 = single_of_double (pick (an e / 64) (fun i => lane 64 i a) (fun i => lane 64 i b) i)).
  { intros i. apply Z.mod_small. apply (single_of_double_ok _ (P i)). }
  assert (Q : exists r, a_downcvt_float u e a b = Some r /\ lanes_are (an e) 32 (fun i => single_of_double (pick (an e / 64) (fun i => lane 64 i a) (fun i => lane 64 i b) i) mod 2 ^ 32) r).
  2: { destruct Q as (r & E & L). exists r. split; [exact E|]. revert L. apply lanes_ext. intros i _. apply M. }
  clear M P. destruct e as [| |eb vq].
  - assert (O : okw 128 32) by (split; [lia|split; [lia|reflexivity]]). cbn [a_downcvt_float].
    apply (build_o_lanes_are 128 32 _ _ O). intros i Hi. eexists. split; [reflexivity|]. unfold pick. change (an Neon128 / 64) with 2. reflexivity.
  - eexists. split; [reflexivity|]. exact (v_down_lanes MF64 MF32 a b dw_32_64).
  - eexists. split; [reflexivity|]. set (e := Sve eb vq) in *.
    assert (K : forall r, lanes_are (an e) 64 (fun i => single_of_double (lane 64 i r) mod 2 ^ 32) (sv_cvt_x u (an e) (svtrue e u64) MF64 MF32 r)).
    { intros r. pose proof (sv_lanes u e MF64 MF32 u64 r I I (or_intror (or_intror eq_refl)) ltac:(cbn; tauto) ltac:(exists 1; split; [lia|reflexivity]) eq_refl) as Q. revert Q. apply lanes_ext. intros i Hi.
      change (Z.max (mw MF64) (mw MF32)) with 64. change (mw MF64) with 64. rewrite lane_modw by lia. reflexivity. }
    destruct (K a) as [Ra La]. destruct (K b) as [Rb Lb]. pose proof (uzp_lanes e MF64 MF32 (sv_cvt_x u (an e) (svtrue e u64) MF64 MF32 a) (sv_cvt_x u (an e) (svtrue e u64) MF64 MF32 b) dw_32_64) as Q.
    revert Q. apply lanes_ext. change (mw MF64) with 64. change (mw MF32) with 32. intros i Hi. destruct (amw_2 e _ _ dw_32_64) as (_ & _ & E & _). change (mw MF64) with 64 in E. change (mw MF32) with 32 in E.
    unfold pick. destruct (Z.ltb_spec i (an e / 64)); [rewrite La by lia|rewrite Lb by lia]; apply Z.mod_mod; apply Z.pow_nonzero; lia.
Qed.

(** what a conversion of both arguments gives when the parts are put together *)
Lemma down_of_int_sve u e t a b : In t int_types -> bits t = 64 -> is_sve e = true ->
  exists r, a_downcvt u e (MI t) MF32 a b = Some r /\ lanes_are (an e) 32 (fun i => nearest_float binary32 (pick (an e / 64) (elt t a) (elt t b) i)) r.
Proof.
  intros H W S. assert (D : double_width MF32 (MI t)) by (split; [exact I|]; split; [exact H|exact W]). assert (X : Z.max (mw (MI t)) (mw MF32) = 64) by (change (mw (MI t)) with (bits t); rewrite W; reflexivity).
  assert (K : forall r, lanes_are (an e) 64 (fun i => nearest_float binary32 (elt t r i)) (sv_cvt_x u (an e) (svtrue e t) (MI t) MF32 r)).
  { intros r. pose proof (sv_lanes u e (MI t) MF32 t r H I (or_intror (or_intror W)) H ltac:(exists 1; rewrite X, W; split; [lia|reflexivity]) S) as Q. rewrite X in Q. revert Q. apply lanes_ext. intros i Hi.
    rewrite l_cvt_of_int by reflexivity. change (format MF32) with binary32. change (mw (MI t)) with (bits t). rewrite W, lane_modw, <- W by lia. reflexivity. }
  eexists. split; [destruct e; try discriminate; reflexivity|]. destruct (K a) as [Ra La]. destruct (K b) as [Rb Lb].
  pose proof (uzp_lanes e (MI t) MF32 (sv_cvt_x u (an e) (svtrue e t) (MI t) MF32 a) (sv_cvt_x u (an e) (svtrue e t) (MI t) MF32 b) D) as Q. revert Q. change (mw (MI t)) with (bits t). rewrite W. apply lanes_ext. change (mw MF32) with 32.
  destruct (amw_2 e _ _ D) as (_ & _ & E & _). change (mw (MI t)) with (bits t) in E. rewrite W in E. change (mw MF32) with 32 in E. intros i Hi.
  assert (N : forall z, nearest_float binary32 z mod 2 ^ 32 = nearest_float binary32 z) by (intros z; exact (nearest_float_mod MF32 z eq_refl)).
  unfold pick. destruct (Z.ltb_spec i (an e / 64)); [rewrite La by lia|rewrite Lb by lia]; apply N.
Qed.
Lemma down_of_int_neon u e t a b : In t int_types -> bits t = 64 -> is_sve e = false -> in_reg (an e) a -> in_reg (an e) b ->
  exists r, a_downcvt u e (MI t) MF32 a b = Some r /\ lanes_are (an e) 32 (fun i => single_of_double (nearest_float binary64 (pick (an e / 64) (elt t a) (elt t b) i))) r.
Proof.
  intros H W S Ra Rb. assert (SW : same_width (MI t) MF64) by (split; [exact H|]; split; [exact I|symmetry; exact W]).
  destruct (a_cvt_lanes u e (MI t) MF64 a SW Ra) as (x & Ex & Rx & Lx). { intros; destruct e; exact I. }
  destruct (a_cvt_lanes u e (MI t) MF64 b SW Rb) as (y & Ey & Ry & Ly). { intros; destruct e; exact I. }
  destruct (down_float_ok u e x y) as (r & E & L). exists r. split.
  { assert (Q : a_downcvt u e (MI t) MF32 a b = bind (a_cvt u e (MI t) MF64 a) (fun x => bind (a_cvt u e (MI t) MF64 b) (fun y => a_downcvt_float u e x y))) by (destruct e; try discriminate; reflexivity).
    rewrite Q, Ex. cbn [bind]. rewrite Ey. exact E. }
  destruct (amw_2 e _ _ dw_32_64) as (_ & _ & E2 & _). change (mw MF64) with 64 in *. change (mw MF32) with 32 in E2.
  revert L. apply lanes_ext. intros i Hi. f_equal. unfold pick. change (mw (MI t)) with (bits t) in Lx, Ly.
  destruct (Z.ltb_spec i (an e / 64)); [rewrite Lx by lia|rewrite Ly by lia]; rewrite (l_cvt_of_int t MF64 _ eq_refl); reflexivity.
Qed.

Lemma down_to_int_ok u e f v a b : is_float f = true -> In v int_types -> mw f = 2 * bits v -> in_reg (an e) a -> in_reg (an e) b ->
  let t := resized v (mw f) in
  (c_casts e f -> forall i, 0 <= i < an e / mw f -> castable t (format f) (lane (mw f) i a) /\ castable t (format f) (lane (mw f) i b)) ->
  exists r, a_downcvt u e f (MI v) a b = Some r /\
    lanes_are (an e) (bits v) (fun i => fcvtz t (format f) (pick (an e / mw f) (fun i => lane (mw f) i a) (fun i => lane (mw f) i b) i) mod 2 ^ bits v) r.
Proof.
  intros F H W Ra Rb t C. assert (Wf : In (mw f) [8; 16; 32; 64]) by (destruct f; [discriminate|cbn; tauto|cbn; tauto]).
  destruct (resized_int v (mw f) H Wf) as [Ht Bt]. fold t in Ht, Bt. pose proof (bits_cases v H) as Cv.
  assert (Mf : mem_type f) by (destruct f; [discriminate|exact I|exact I]).
  assert (SW : same_width f (MI t)) by (split; [exact Mf|]; split; [exact Ht|exact Bt]).
  assert (D : double_width (MI v) (MI t)) by (split; [exact H|]; split; [exact Ht|]; change (bits t = 2 * bits v); lia).
  assert (Df : double_width (MI v) f) by (split; [exact H|]; split; [exact Mf|exact W]).
  destruct (amw_2 e _ _ Df) as (_ & _ & E2 & _). change (mw (MI v)) with (bits v) in E2.
  assert (MM : forall z, (z mod 2 ^ bits t) mod 2 ^ bits v = z mod 2 ^ bits v).
  { intros z. symmetry. apply Znumtheory.Zmod_div_mod; try (apply pow2_pos; lia). exists (2 ^ (bits t - bits v)). rewrite <- Z.pow_add_r by lia. f_equal. lia. }
  destruct (is_sve e) eqn:S.
  - assert (K : forall r, lanes_are (an e) (mw f) (fun i => fcvtz t (format f) (lane (mw f) i r) mod 2 ^ bits t) (sv_cvt_x u (an e) (svtrue e (uty f)) f (MI t) r)).
    { intros r. assert (X : Z.max (mw f) (mw (MI t)) = mw f) by (change (mw (MI t)) with (bits t); lia).
      pose proof (sv_lanes u e f (MI t) (uty f) r Mf Ht (or_introl (proj2 (proj2 SW))) (mem_ty _ Mf) ltac:(exists 1; rewrite X; split; [lia|unfold mw; lia]) S) as Q. rewrite X in Q. revert Q. apply lanes_ext. intros i Hi.
      rewrite l_cvt_to_int by exact F. rewrite lane_modw by lia. reflexivity. }
    exists (i_uzp false (an e) (bits v) (sv_cvt_x u (an e) (svtrue e (uty f)) f (MI t) a) (sv_cvt_x u (an e) (svtrue e (uty f)) f (MI t) b)). split; [destruct e; try discriminate; destruct f; [discriminate|reflexivity|reflexivity]|].
    destruct (K a) as [_ La]. destruct (K b) as [_ Lb]. pose proof (uzp_lanes e f (MI v) (sv_cvt_x u (an e) (svtrue e (uty f)) f (MI t) a) (sv_cvt_x u (an e) (svtrue e (uty f)) f (MI t) b) Df) as Q.
    revert Q. change (mw (MI v)) with (bits v). apply lanes_ext. intros i Hi. unfold pick. destruct (Z.ltb_spec i (an e / mw f)); [rewrite La by lia|rewrite Lb by lia]; apply MM.
  - assert (CK : forall r, (c_casts e f -> forall i, 0 <= i < an e / mw f -> castable t (format f) (lane (mw f) i r)) -> forall i, 0 <= i < an e / mw (MI t) -> cvt_ok e f (MI t) (lane (mw f) i r)).
    { intros r Cr i Hi. destruct f, e; try exact I. cbn [cvt_ok]. apply (c_cast_castable MF64 t _ eq_refl). apply Cr; [split; reflexivity|]. change (mw (MI t)) with (bits t) in Hi. rewrite Bt in Hi. exact Hi. }
    destruct (a_cvt_lanes u e f (MI t) a SW Ra) as (x & Ex & Rx & Lx). { apply CK. intros c i Hi. apply (C c i Hi). }
    destruct (a_cvt_lanes u e f (MI t) b SW Rb) as (y & Ey & Ry & Ly). { apply CK. intros c i Hi. apply (C c i Hi). }
    exists (a_downcvt_int e t v x y). split.
    { assert (Q : a_downcvt u e f (MI v) a b = bind (a_cvt u e f (MI t) a) (fun x => bind (a_cvt u e f (MI t) b) (fun y => Some (a_downcvt_int e t v x y)))) by (destruct e; try discriminate; destruct f; try discriminate; reflexivity).
      rewrite Q, Ex. cbn [bind]. rewrite Ey. reflexivity. }
    change (mw (MI t)) with (bits t) in Lx, Ly. pose proof (a_downcvt_int_lanes e t v x y D) as Q. revert Q. apply lanes_ext. intros i Hi. rewrite Bt in *.
    unfold pick. destruct (Z.ltb_spec i (an e / mw f)); [rewrite Lx by lia|rewrite Ly by lia]; rewrite l_cvt_to_int by exact F; apply MM.
Qed.

(** ** f16, in pairs of registers of singles on NEON *)

Lemma from16_lanes t v : In t int_types -> bits t = 16 -> (forall i, 0 <= i < 8 -> castable t binary32 (apattern16 v i)) ->
  exists r, a_cvt_from16 t v = Some r /\ lanes_are 128 16 (fun i => fcvtz t binary32 (apattern16 v i) mod 2 ^ 16) r.
Proof.
  intros H W C. assert (O : okw 128 16) by (split; [lia|split; [lia|reflexivity]]). unfold a_cvt_from16. apply (build_o_lanes_are 128 16 _ _ O). intros i Hi. change (128 / 16) with 8 in Hi.
  specialize (C i Hi). change (apattern16 v i) with (if i <? 4 then lane 32 i (fst v) else lane 32 (i - 4) (snd v)) in *. set (x := if i <? 4 then _ else _) in *.
  destruct (c_cast MF32 (MI t) x) as [y|] eqn:E; [|exfalso; apply (proj2 (c_cast_castable MF32 t x eq_refl) C), E]. exists y. split; [reflexivity|].
  pose proof (c_cast_l MF32 (MI t) x y E H) as Q. change (mw (MI t)) with (bits t) in Q. rewrite W in Q. exact Q.
Qed.
