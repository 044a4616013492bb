(** More proofs about the conversions: upcvt and downcvt with floats, f16. *)
From Coq Require Import ZArith Lia List Bool.
From Verif Require Import CInt BitLemmas FloatSpec FloatProofs Fp16 ScalarOps ScalarSpec ScalarProofs X86Deg234 X86Arith X86ArithSpec X86LaneLemmas X86ArithProofs X86EmulProofs X86SelectProofs
  X86Mem X86MemSpec X86MemProofs X86MemProofs2 X86Cvt X86CvtSpec X86FmaProofs X86CvtProofs X86CvtProofs2.
Import ListNotations.
Open Scope Z_scope.

Lemma up_of_int e t f a : is_float f = true -> In t int_types -> mw f = 2 * bits t -> in_reg (nb e) a ->
  exists p, x_upcvt e (MI t) f a = Some p /\ ups (nb e) (bits t) (fun x => nearest_float (format f) (cast t x)) a p.
Proof.
  intros F H W Ha. assert (Hf : mem_type f) by (destruct f; [discriminate|exact I|exact I]).
  assert (D : double_width (MI t) f) by (split; [exact H|split; assumption]).
  assert (X : x_upcvt e (MI t) f a = if is_signed t && (bits t =? 32) && (mw f =? 64) then Some (with_intrinsic e (MI t) f a)
      else both (x_cvt e (MI (resized t (mw f))) f) (upcvt_int e t (resized t (mw f)) a)) by (destruct f; [discriminate|reflexivity|reflexivity]).
  rewrite X. clear X. destruct (_ && _ && _).
  - eexists. split; [reflexivity|]. destruct (with_intrinsic_ups e (MI t) f a D Ha) as (R1 & R2 & L). split; [exact R1|]. split; [exact R2|].
    intros i Hi. destruct (L i Hi) as [L1 L2]. change (mw (MI t)) with (bits t) in *. rewrite L1, L2.
    assert (X : forall x, hw_cast (MI t) f x mod 2 ^ mw f = nearest_float (format f) (cast t x)).
    { intros x. replace (hw_cast (MI t) f x) with (nearest_float (format f) (cast t x)) by (destruct f; [discriminate|reflexivity|reflexivity]). apply nearest_float_mod, F. }
    rewrite !X. split; reflexivity.
  - assert (Iw : In (mw f) [8; 16; 32; 64]) by (destruct f; cbn in F |- *; try discriminate; tauto).
    destruct (resized_int t (mw f) H Iw) as [Hr Br]. set (u := resized t (mw f)) in *.
    assert (D2 : double_width (MI t) (MI u)) by (split; [exact H|split; [exact Hr|cbn [mw]; change (bits u = 2 * bits t); lia]]).
    destruct (upcvt_int_ups e t u a D2 Ha) as (R1 & R2 & L). set (p := upcvt_int e t u a) in *.
    assert (FI : float_int f u) by (split; [exact F|split; [exact Hr|exact Br]]).
    destruct (cvt_of_int_ok e f u (fst p) FI R1) as (r1 & E1 & Q1 & L1). destruct (cvt_of_int_ok e f u (snd p) FI R2) as (r2 & E2 & Q2 & L2).
    unfold both. rewrite E1. cbn [bind]. rewrite E2. cbn [bind]. eexists. split; [reflexivity|]. split; [exact Q1|]. split; [exact Q2|]. cbn [fst snd].
    assert (S : is_signed t = is_signed u) by reflexivity. assert (B : bits t <= bits u) by (assert (0 < bits t) by (ty_cases H; cbn; lia); lia).
    intros i Hi. rewrite <- W in Hi |- *. rewrite L1, L2 by exact Hi. rewrite Br, W. destruct (L i) as [-> ->]; [rewrite <- W; exact Hi|]. rewrite !cast_wider by assumption. split; reflexivity.
Qed.

Lemma up_to_int e u a z : In u int_types -> bits u = 64 -> in_reg (nb e) a ->
  let t := resized u 32 in
  (forall i, 0 <= i < nb e / 32 -> to_int e t binary32 (lane 32 i a) (z i) /\ in_ty t (z i)) ->
  exists p, x_upcvt e MF32 (MI u) a = Some p /\ in_reg (nb e) (fst p) /\ in_reg (nb e) (snd p) /\
    forall i, 0 <= i < nb e / 64 -> lane 64 i (fst p) = z i mod 2 ^ 64 /\ lane 64 i (snd p) = z (nb e / 64 + i) mod 2 ^ 64.
Proof.
  intros H W Ha t Hz. destruct (resized_int u 32 H ltac:(cbn; tauto)) as [Ht Bt]. fold t in Ht, Bt.
  assert (FI : float_int MF32 t) by (split; [reflexivity|split; [exact Ht|exact Bt]]).
  destruct (cvt_to_int_ok e MF32 t a z FI Ha) as (r & E & R & L). { rewrite Bt. exact Hz. }
  assert (D2 : double_width (MI t) (MI u)) by (split; [exact Ht|split; [exact H|change (bits u = 2 * bits t); rewrite Bt; exact W]]).
  destruct (upcvt_int_ups e t u r D2 R) as (R1 & R2 & L2). exists (upcvt_int e t u r). split.
  { cbn [x_upcvt]. change (mw MF32) with 32. fold t. rewrite E. reflexivity. }
  split; [exact R1|]. split; [exact R2|]. rewrite Bt in *. change (2 * 32) with 64 in L2.
  assert (EE : nb e / 32 = 2 * (nb e / 64)) by (destruct e; reflexivity).
  intros i Hi. destruct (L2 i Hi) as [-> ->]. rewrite !L by lia. rewrite W. rewrite <- Bt, !cast_mod_pow by exact Ht.
  rewrite !cast_id; [split; reflexivity|exact Ht|apply Hz; lia|exact Ht|apply Hz; lia].
Qed.

(** ** downcvt *)

Lemma pick_map k (g : Z -> Z) x y i : g (pick k x y i) = pick k (fun j => g (x j)) (fun j => g (y j)) i.
Proof. unfold pick. destruct (_ <? _); reflexivity. Qed.

Lemma down_int e t u a b : In t int_types -> In u int_types -> bits t = 2 * bits u ->
  exists r, x_downcvt e (MI t) (MI u) a b = Some r /\ in_reg (nb e) r /\
    forall i, 0 <= i < nb e / bits u -> lane (bits u) i r = pick (nb e / bits t) (elt t a) (elt t b) i mod 2 ^ bits u.
Proof.
  intros H H2 W. assert (D : double_width (MI u) (MI t)) by (split; [exact H2|split; [exact H|exact W]]).
  assert (V : forall i, cast u (cast t (pick (nb e / bits t) (fun i => lane (bits t) i a) (fun i => lane (bits t) i b) i)) mod 2 ^ bits u = pick (nb e / bits t) (elt t a) (elt t b) i mod 2 ^ bits u).
  { intros i. rewrite (pick_map _ (cast t)). assert (Q : forall z, cast u z mod 2 ^ bits u = z mod 2 ^ bits u).
    { intros z. destruct (cast_ex u z H2) as (k & ->). rewrite Z.mod_add; [reflexivity|apply Z.pow_nonzero; [lia|ty_cases H2; cbn; lia]]. }
    rewrite Q. unfold pick. rewrite !elt_lane. reflexivity. }
  assert (V2 : forall i, cast t (pick (nb e / bits t) (fun i => lane (bits t) i a) (fun i => lane (bits t) i b) i) mod 2 ^ bits u = pick (nb e / bits t) (elt t a) (elt t b) i mod 2 ^ bits u).
  { intros i. rewrite (pick_map _ (cast t)). unfold pick. rewrite !elt_lane. reflexivity. }
  cbn [x_downcvt]. destruct (_ && _ && _ && _).
  - eexists. split; [reflexivity|]. destruct (downcvt_instr_lanes e (MI t) (MI u) a b D) as [R L]. split; [exact R|]. intros i Hi. destruct (L i Hi) as (y & E & Ly). etransitivity; [exact Ly|].
    injection E as <-. first [exact (V i)|exact (V2 i)].
  - destruct (downcvt_emulated_lanes e (MI t) (MI u) a b D) as (r & E & R & L); [intros; discriminate|]. exists r. split; [exact E|]. split; [exact R|].
    intros i Hi. destruct (L i Hi) as (y & Ey & Ly). etransitivity; [exact Ly|]. injection Ey as <-. first [exact (V i)|exact (V2 i)].
Qed.

Lemma down_of_int e t a b : In t int_types -> bits t = 64 -> is512 e && is_signed t = false ->
  exists r, x_downcvt e (MI t) MF32 a b = Some r /\ in_reg (nb e) r /\
    forall i, 0 <= i < nb e / 32 -> lane 32 i r = nearest_float binary32 (pick (nb e / 64) (elt t a) (elt t b) i).
Proof.
  intros H W S. assert (D : double_width MF32 (MI t)) by (split; [exact I|split; [exact H|exact W]]).
  destruct (downcvt_emulated_lanes e (MI t) MF32 a b D) as (r & E & R & L); [intros; discriminate|].
  exists r. cbn [x_downcvt]. rewrite S. cbn [andb]. split; [exact E|]. split; [exact R|]. intros i Hi. destruct (L i Hi) as (y & Ey & Ly). change (mw MF32) with 32 in Ly. rewrite Ly.
  injection Ey as <-. change (mw (MI t)) with (bits t). rewrite W. rewrite (pick_map _ (cast t)).
  pose proof (nearest_float_mod MF32 (pick (nb e / 64) (fun j => cast t (lane 64 j a)) (fun j => cast t (lane 64 j b)) i) eq_refl) as Q. etransitivity; [exact Q|].
  cbn [format]. f_equal. unfold pick. rewrite !elt_lane, W. reflexivity.
Qed.
Lemma down_i64_512 e a b : is512 e = true ->
  exists r, x_downcvt e (MI i64) MF32 a b = Some r /\ in_reg (nb e) r /\
    forall i, 0 <= i < nb e / 32 -> lane 32 i r = nearest_float binary32 (cast i32 (pick (nb e / 64) (elt i64 a) (elt i64 b) i)).
Proof.
  intros S. assert (D : double_width (MI i32) (MI i64)) by (split; [cbn; tauto|split; [cbn; tauto|reflexivity]]).
  destruct (downcvt_instr_lanes e (MI i64) (MI i32) a b D) as [R L]. set (d := downcvt_instr e (MI i64) (MI i32) a b) in *.
  destruct (cvt_of_int_ok e MF32 i32 d ltac:(repeat split; cbn; tauto) R) as (r & E & R2 & L2). exists r. split; [|split; [exact R2|]].
  - cbn [x_downcvt]. rewrite S. exact E.
  - intros i Hi. change 32 with (mw MF32) at 1. rewrite L2 by exact Hi. cbn [format]. f_equal. change (bits i32) with (mw (MI i32)). destruct (L i Hi) as (y & Ey & ->). injection Ey as <-.
    cbn [hw_cast]. change (mw (MI i32)) with (bits i32). rewrite cast_mod_pow by (cbn; tauto). change (mw (MI i64)) with 64.
    change (bits i64) with 64 in *. rewrite (pick_map _ (cast i64)). assert (Q : forall z, cast i32 (cast i32 z) = cast i32 z) by (intros z; apply cast_id; [cbn; tauto|apply cast_in_ty; cbn; tauto]).
    try rewrite Q. f_equal.
Qed.
Lemma down_to_int e f t a b z : is_float f = true -> In t int_types -> mw f = 2 * bits t ->
  (forall i, 0 <= i < nb e / bits t -> truncates (format f) (pick (nb e / mw f) (fun i => lane (mw f) i a) (fun i => lane (mw f) i b) i) (z i) /\ in_ty t (z i)) ->
  exists r, x_downcvt e f (MI t) a b = Some r /\ in_reg (nb e) r /\ forall i, 0 <= i < nb e / bits t -> lane (bits t) i r = z i mod 2 ^ bits t.
Proof.
  intros F H W Hz. assert (Hf : mem_type f) by (destruct f; [discriminate|exact I|exact I]).
  assert (D : double_width (MI t) f) by (split; [exact H|split; assumption]).
  assert (C : forall i, 0 <= i < nb e / bits t -> c_cast f (MI t) (pick (nb e / mw f) (fun i => lane (mw f) i a) (fun i => lane (mw f) i b) i) = Some (z i)).
  { intros i Hi. destruct (Hz i Hi) as [T I]. pose proof (c_truncates t (format f) _ _ T I) as Q. destruct f; [discriminate|exact Q|exact Q]. }
  destruct (downcvt_emulated_lanes e f (MI t) a b D) as (r & E & R & L). { intros i Hi. rewrite C by exact Hi. discriminate. }
  exists r. split. { destruct f; [discriminate|exact E|exact E]. } split; [exact R|]. intros i Hi. destruct (L i Hi) as (y & Ey & Ly). rewrite C in Ey by exact Hi. injection Ey as <-. exact Ly.
Qed.

(** ** f16 *)

Lemma to16_ok e t a : In t int_types -> bits t = 16 -> in_reg (nb e) a ->
  exists v, x_cvt_to16 e t a = Some v /\ in_reg16 e v /\ forall i, 0 <= i < nb e / 16 -> pattern16 e v i = nearest_float binary32 (elt t a i).
Proof.
  intros H W Ha. destruct (le16_half e) as (_ & Ed & E16). rewrite E16 in Ed. pose proof (okw32 e) as O.
  assert (N : forall z, nearest_float binary32 z mod 2 ^ 32 = nearest_float binary32 z) by (intros z; exact (nearest_float_mod MF32 z eq_refl)).
  assert (Fin : forall r0 r1, in_reg (nb e) r0 -> in_reg (nb e) r1 ->
     (forall i, 0 <= i < nb e / 32 -> lane 32 i r0 = nearest_float binary32 (cast t (lane 16 i a)) /\ lane 32 i r1 = nearest_float binary32 (cast t (lane 16 (nb e / 32 + i) a))) ->
     in_reg16 e (r0, r1) /\ forall i, 0 <= i < nb e / 16 -> pattern16 e (r0, r1) i = nearest_float binary32 (elt t a i)).
  { intros r0 r1 R0 R1 L. split; [split; assumption|]. intros i Hi. unfold pattern16. cbn [fst snd]. rewrite elt_lane, W. destruct (Z.ltb_spec i (nb e / 32)).
    - apply L. lia. - destruct (L (i - nb e / 32)) as [_ L2]; [lia|]. unfold lane in L2 at 1. rewrite L2. do 3 f_equal. lia. }
  assert (Emu : (exists v, bind (build_o 32 (nlanes (nb e) 32) (fun i => c_cast (MI t) MF32 (lane 16 i a))) (fun r0 =>
      bind (build_o 32 (nlanes (nb e) 32) (fun i => c_cast (MI t) MF32 (lane 16 (i + nb e / 16 / 2) a))) (fun r1 => Some (r0, r1))) = Some v /\
      in_reg16 e v /\ forall i, 0 <= i < nb e / 16 -> pattern16 e v i = nearest_float binary32 (elt t a i))).
  { destruct (build_o_lanes e 32 (fun i => c_cast (MI t) MF32 (lane 16 i a)) O) as (r0 & E0 & R0 & L0); [intros; discriminate|].
    destruct (build_o_lanes e 32 (fun i => c_cast (MI t) MF32 (lane 16 (i + nb e / 16 / 2) a)) O) as (r1 & E1 & R1 & L1); [intros; discriminate|].
    rewrite E0. cbn [bind]. rewrite E1. cbn [bind]. eexists. split; [reflexivity|]. apply Fin; try assumption. intros i Hi. split.
    - destruct (L0 i Hi) as (y & Ey & ->). injection Ey as <-. apply N.
    - destruct (L1 i Hi) as (y & Ey & ->). injection Ey as <-. etransitivity; [apply N|]. do 3 f_equal. rewrite Ed. replace (nb e / 32 + nb e / 32) with (nb e / 32 * 2) by ring. rewrite Z.div_mul by lia. ring. }
  assert (HL : forall x, hw_cast (MI i32) MF32 (hw_cast (MI t) (MI i32) x mod 2 ^ 32) mod 2 ^ 32 = nearest_float binary32 (cast t x)).
  { intros x. etransitivity; [apply N|]. f_equal. change (2 ^ 32) with (2 ^ bits i32). rewrite cast_mod_pow by (cbn; tauto).
    assert (Q : in_ty i32 (cast t x)). { pose proof (cast_in_ty t x H) as [Q1 Q2]. revert Q1 Q2. generalize (cast t x). ty_cases H; cbn in W; try lia; unfold in_ty; cbn; intros; lia. }
    rewrite ?cast_id by (cbn; tauto || exact Q). reflexivity. }
  assert (C2 : forall x i, 0 <= i < nb e / 32 -> lane 32 i (mm_cvt (nb e / 32) (MI i32) MF32 (mm_cvt (nb e / 32) (MI t) (MI i32) x)) = nearest_float binary32 (cast t (lane 16 i x))).
  { intros x i Hi. etransitivity; [exact (mm_cvt_lane _ (MI i32) MF32 _ i I Hi)|]. rewrite (mm_cvt_lane _ (MI t) (MI i32)) by (cbn; tauto || exact Hi).
    change (mw (MI t)) with (bits t). rewrite W. apply HL. }
  assert (Ins : forall lo hi, (forall i, 0 <= i < nb e / 32 -> lane 16 i lo = lane 16 i a /\ lane 16 i hi = lane 16 (nb e / 32 + i) a) ->
     exists v, Some (mm_cvt (nb e / 32) (MI i32) MF32 (mm_cvt (nb e / 32) (MI t) (MI i32) lo), mm_cvt (nb e / 32) (MI i32) MF32 (mm_cvt (nb e / 32) (MI t) (MI i32) hi)) = Some v /\
      in_reg16 e v /\ forall i, 0 <= i < nb e / 16 -> pattern16 e v i = nearest_float binary32 (elt t a i)).
  { intros lo hi L. eexists. split; [reflexivity|].
    assert (P0 : 0 <= nb e / 32) by (apply Z.div_pos; [destruct e; cbn; lia|lia]).
    apply Fin; try (apply mm_cvt_reg; [exact I|exact P0|apply O]). intros i Hi. destruct (L i Hi) as [L1 L2]. rewrite <- L1, <- L2.
split; apply C2; exact Hi. }
  assert (D : double_width (MI t) (MI i32)) by (split; [exact H|split; [cbn; tauto|change (bits i32 = 2 * bits t); rewrite W; reflexivity]]).
  pose proof (okw_dw e _ _ D) as (O1 & O2 & _). change (mw (MI t)) with (bits t) in *. rewrite W in *. change (2 * 16) with 32 in *.
  pose proof (fun i Hi => half_lane_lo e 16 a i O1 O2 Hi) as LO. pose proof (fun i Hi => half_lane_hi e (MI t) (MI i32) a i D Ha Hi) as HI.
  change (mw (MI t)) with (bits t) in *. rewrite W in *. change (2 * 16) with 32 in *.
  destruct e; cbn [x_cvt_to16]; try exact Emu; apply Ins; intros i Hi; (split; [apply LO; exact Hi|]); try (apply HI; exact Hi).
  cbn [nb] in *. change (128 / 32) with 4 in *. unfold mm_unpackhi_epi64. replace i with (4 * 0 + i) at 1 by lia. rewrite lane_lane by lia. change (4 * 16) with 64. rewrite lane_build by lia.
  cbn [Z.eqb]. rewrite Z.mod_small by (apply (lane_range 64); lia). change 64 with (4 * 16). rewrite <- lane_lane by lia. f_equal.
Qed.

Lemma from16_ok e t v z : In t int_types -> bits t = 16 ->
  (forall i, 0 <= i < nb e / 16 -> truncates binary32 (pattern16 e v i) (z i) /\ in_ty t (z i)) ->
  exists r, x_cvt_from16 e t v = Some r /\ in_reg (nb e) r /\ forall i, 0 <= i < nb e / 16 -> lane 16 i r = z i mod 2 ^ 16.
Proof.
  intros H W Hz. destruct (le16_half e) as (_ & Ed & E16). rewrite E16 in Ed. unfold x_cvt_from16.
  set (F := fun i => if i <? nb e / 16 / 2 then _ else _).
  assert (C : forall i, 0 <= i < nb e / 16 -> F i = Some (z i)).
  { intros i Hi. destruct (Hz i Hi) as [T I]. pose proof (c_truncates t binary32 _ _ T I) as Q. rewrite <- Q. unfold F, pattern16, lane.
    replace (nb e / 16 / 2) with (nb e / 32) by (destruct e; reflexivity). destruct (_ <? _); reflexivity. }
  destruct (build_o_lanes e 16 F) as (r & E & R & L). { pose proof (okw_mw e (MI t) H) as Q. change (mw (MI t)) with (bits t) in Q. rewrite W in Q. exact Q. }
  { intros i Hi. rewrite C by exact Hi. discriminate. }
  exists r. split; [exact E|]. split; [exact R|]. intros i Hi. destruct (L i Hi) as (y & Ey & Ly). rewrite C in Ey by exact Hi. injection Ey as <-. exact Ly.
Qed.

Lemma up16_to_int e t v z : In t int_types -> bits t = 32 -> in_reg16 e v ->
  (forall i, 0 <= i < nb e / 16 -> to_int e t binary32 (pattern16 e v i) (z i) /\ in_ty t (z i)) ->
  exists p, x_upcvt_from16 e (MI t) v = Some p /\ in_reg (nb e) (fst p) /\ in_reg (nb e) (snd p) /\
    forall i, 0 <= i < nb e / 32 -> lane 32 i (fst p) = z i mod 2 ^ 32 /\ lane 32 i (snd p) = z (nb e / 32 + i) mod 2 ^ 32.
Proof.
  intros H W [R0 R1] Hz. destruct (le16_half e) as (_ & Ed & E16). rewrite E16 in Ed.
  assert (FI : float_int MF32 t) by (split; [reflexivity|split; [exact H|exact W]]).
  destruct (cvt_to_int_ok e MF32 t (fst v) z FI R0) as (p0 & E0 & Q0 & L0).
  { rewrite W. intros i Hi. specialize (Hz i ltac:(lia)). unfold pattern16 in Hz. destruct (Z.ltb_spec i (nb e / 32)); [|lia]. exact Hz. }
  destruct (cvt_to_int_ok e MF32 t (snd v) (fun i => z (nb e / 32 + i)) FI R1) as (p1 & E1 & Q1 & L1).
  { rewrite W. intros i Hi. specialize (Hz (nb e / 32 + i) ltac:(lia)). unfold pattern16 in Hz. destruct (Z.ltb_spec (nb e / 32 + i) (nb e / 32)); [lia|].
    replace (nb e / 32 + i - nb e / 32) with i in Hz by lia. exact Hz. }
  exists (p0, p1). rewrite W in *. split; [|split; [exact Q0|split; [exact Q1|]]].
  - cbn [x_upcvt_from16]. unfold both. rewrite E0. cbn [bind]. rewrite E1. reflexivity.
  - intros i Hi. split; [apply L0|apply L1]; exact Hi.
Qed.
Lemma down16_of_int e t a b : In t int_types -> bits t = 32 -> in_reg (nb e) a -> in_reg (nb e) b ->
  exists v, x_downcvt_to16 e (MI t) a b = Some v /\ in_reg16 e v /\ forall i, 0 <= i < nb e / 16 -> pattern16 e v i = nearest_float binary32 (pick (nb e / 32) (elt t a) (elt t b) i).
Proof.
  intros H W Ha Hb. destruct (le16_half e) as (_ & Ed & E16). rewrite E16 in Ed.
  assert (FI : float_int MF32 t) by (split; [reflexivity|split; [exact H|exact W]]).
  destruct (cvt_of_int_ok e MF32 t a FI Ha) as (p0 & E0 & Q0 & L0). destruct (cvt_of_int_ok e MF32 t b FI Hb) as (p1 & E1 & Q1 & L1).
  exists (p0, p1). split; [|split; [split; assumption|]].
  - cbn [x_downcvt_to16]. unfold both. cbn [fst snd]. rewrite E0. cbn [bind]. rewrite E1. reflexivity.
  - intros i Hi. unfold pattern16, pick. cbn [fst snd]. rewrite !elt_lane. change (mw MF32) with 32 in *. destruct (Z.ltb_spec i (nb e / 32)); [apply L0|apply L1]; lia.
Qed.
Lemma down16_to_int e t v u z : In t int_types -> bits t = 8 ->
  (forall i, 0 <= i < nb e / 8 -> truncates binary32 (pick (nb e / 16) (pattern16 e v) (pattern16 e u) i) (z i) /\ in_ty t (z i)) ->
  exists r, x_downcvt_from16 e t v u = Some r /\ in_reg (nb e) r /\ forall i, 0 <= i < nb e / 8 -> lane 8 i r = z i mod 2 ^ 8.
Proof.
  intros H W Hz. unfold x_downcvt_from16. set (F := fun i => int_of_float t binary32 _).
  assert (C : forall i, 0 <= i < nb e / 8 -> F i = Some (z i)).
  { intros i Hi. destruct (Hz i Hi) as [T I]. rewrite <- (c_truncates t binary32 _ _ T I). unfold F, pick, pattern16, lane. f_equal.
    replace (nb e / 16) with (2 * (nb e / 32)) by (destruct e; reflexivity). assert (0 <= nb e / 32) by (apply Z.div_pos; [destruct e; cbn; lia|lia]). set (q := nb e / 32) in *.
    destruct (Z.ltb_spec i q); destruct (Z.ltb_spec i (2 * q)); try lia; try reflexivity.
    destruct (Z.ltb_spec i (3 * q)); destruct (Z.ltb_spec (i - 2 * q) q); try lia; try reflexivity. replace (i - 2 * q - q) with (i - 3 * q) by ring. reflexivity. }
  destruct (build_o_lanes e 8 F) as (r & E & R & L). { pose proof (okw_mw e (MI t) H) as Q. change (mw (MI t)) with (bits t) in Q. rewrite W in Q. exact Q. }
  { intros i Hi. rewrite C by exact Hi. discriminate. }
  exists r. split; [exact E|]. split; [exact R|]. intros i Hi. destruct (L i Hi) as (y & Ey & Ly). rewrite C in Ey by exact Hi. injection Ey as <-. exact Ly.
Qed.
Lemma up16_of_int e t a : In t int_types -> bits t = 8 -> in_reg (nb e) a ->
  exists v u, x_upcvt_to16 e t a = Some (v, u) /\ in_reg16 e v /\ in_reg16 e u /\
    forall i, 0 <= i < nb e / 16 -> pattern16 e v i = nearest_float binary32 (elt t a i) /\ pattern16 e u i = nearest_float binary32 (elt t a (nb e / 16 + i)).
Proof.
  intros H W Ha. destruct (resized_int t 16 H ltac:(cbn; tauto)) as [Ht Bt]. set (u := resized t 16) in *.
  assert (D2 : double_width (MI t) (MI u)) by (split; [exact H|split; [exact Ht|change (bits u = 2 * bits t); rewrite Bt, W; reflexivity]]).
  destruct (upcvt_int_ups e t u a D2 Ha) as (R1 & R2 & L).
  destruct (to16_ok e u _ Ht Bt R1) as (v0 & E0 & Q0 & L0). destruct (to16_ok e u _ Ht Bt R2) as (v1 & E1 & Q1 & L1).
  exists v0, v1. split; [|split; [exact Q0|split; [exact Q1|]]].
  - unfold x_upcvt_to16. cbv zeta. fold u. rewrite E0. cbn [bind]. rewrite E1. reflexivity.
  - rewrite W in L. change (2 * 8) with 16 in L. intros i Hi. rewrite L0, L1 by exact Hi. rewrite !elt_lane, Bt. destruct (L i Hi) as [-> ->]. rewrite W.
    assert (S : is_signed t = is_signed u) by reflexivity. rewrite <- Bt at 1 2. rewrite !cast_wider by (assumption || lia). split; reflexivity.
Qed.
