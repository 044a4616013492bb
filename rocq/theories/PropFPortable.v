(** C126: float programs compute the same numbers on every back end. *)
From Coq Require Import ZArith Lia List Bool ZifyBool.
From Verif Require Import CInt FloatSpec Fp16 ScalarOps RoundEven CpuSimd X86Deg234 X86Arith X86ArithSpec X86Cvt X86CvtSpec X86FloatSpec.
From Verif Require Import Arm ArmSpec ArmFloat ArmFloatSpec ArmFloatProofs ArmFloatProofs2 Ppc PpcSpec.
From Verif Require Import FloatArith FloatArithSpec FloatArithProofs FloatArithProofs2 FloatArithProofs7 FloatArithProofs8 FloatArithProofs9 ScalarFloat PropFloatArith FloatVecSpec FloatVecOps FloatVecProofs2 PpcFloatSpec PropArmFloatArith PropFloatAgree.
From Verif Require Import Portable PortableSpec PortableProofs PortableProofs5 FPortable FPortableSpec FPortableProofs FPortableProofs2 FPortableProofs3 FPortableProofs4 FPortableProofs5.
Import ListNotations.
Open Scope Z_scope.

Lemma frep_self N t r : in_reg N r -> frep N t r (fun i => fpat t r i).
Proof. intros I. apply frep_id; [exact I|]. intros i Hi. split; [apply fpat_rng|reflexivity]. Qed.
Lemma same_of t x y : 0 <= x < 2 ^ fw t -> 0 <= y < 2 ^ fw t -> decode (ff t) x = decode (ff t) y -> same_number (ff t) x y.
Proof. intros X Y. rewrite <- ff_width in *. apply decode_eq; [apply ff_good|exact X|exact Y]. Qed.
Lemma result_of N t r ex (args : nat -> Z -> Z) : frep N t r (fun i => val (felement t (fun k => args k i) ex)) -> (forall i, 0 <= i < N / fw t -> felement t (fun k => args k i) ex <> None) ->
  in_reg N r /\ forall i, 0 <= i < N / fw t -> exists x, felement t (fun k => args k i) ex = Some x /\ same_number (ff t) (fpat t r i) x.
Proof.
  intros (I & F) D. split; [exact I|]. intros i Hi. destruct (F i Hi) as (R & Q). exists (val (felement t (fun k => args k i) ex)). split; [exact (val_some _ (D i Hi))|].
  apply same_of; [apply fpat_rng|exact R|exact Q].
Qed.

Theorem C126_x86 fma e t undef env ex : t <> F16 -> in_reg (nb e) undef -> (forall k, in_reg (nb e) (env k)) -> (uses_fma ex = true -> is512 e || fma = true) ->
  (forall i, 0 <= i < nb e / fw t -> felement t (fun k => fpat t (env k) i) ex <> None) ->
  exists r, fveval (x86f fma e t undef) env ex = Some r /\ in_reg (nb e) r /\
    forall i, 0 <= i < nb e / fw t -> exists x, felement t (fun k => fpat t (env k) i) ex = Some x /\ same_number (ff t) (fpat t r i) x.
Proof.
  intros T U E M D. destruct (x86_float fma e t undef T U env (fun k i => fpat t (env k) i) (fun k => frep_self _ t _ (E k)) ex M D) as (r & R & F).
  exists r. split; [exact R|]. exact (result_of _ t r ex _ F D).
Qed.
Theorem C126_arm c99 u e t env ex : t <> F16 -> native_logicals e -> (forall k, in_reg (an e) (env k)) -> (uses_fma ex = true -> fused_vector c99 e t) ->
  (forall i, 0 <= i < an e / fw t -> felement t (fun k => fpat t (env k) i) ex <> None) ->
  exists r, fveval (armf c99 u e t) env ex = Some r /\ in_reg (an e) r /\
    forall i, 0 <= i < an e / fw t -> exists x, felement t (fun k => fpat t (env k) i) ex = Some x /\ same_number (ff t) (fpat t r i) x.
Proof.
  intros T L E M D. destruct (arm_float c99 u e t T L env (fun k i => fpat t (env k) i) (fun k => frep_self _ t _ (E k)) ex M D) as (r & R & F).
  exists r. split; [exact R|]. exact (result_of _ t r ex _ F D).
Qed.
Theorem C126_power c99 new e t env ex : t <> F16 -> (forall k, in_reg 128 (env k)) -> (uses_fma ex = true -> vmx_double e t -> c99 = true) ->
  (forall i, 0 <= i < 128 / fw t -> felement t (fun k => fpat t (env k) i) ex <> None) ->
  exists r, fveval (powerf c99 new e t) env ex = Some r /\ in_reg 128 r /\
    forall i, 0 <= i < 128 / fw t -> exists x, felement t (fun k => fpat t (env k) i) ex = Some x /\ same_number (ff t) (fpat t r i) x.
Proof.
  intros T E M D. destruct (power_float c99 new e t T env (fun k i => fpat t (env k) i) (fun k => frep_self _ t _ (E k)) ex M D) as (r & R & F).
  exists r. split; [exact R|]. exact (result_of _ t r ex _ F D).
Qed.
Theorem C126_cpu c99 new t n env ex : t <> F16 -> (0 < n)%nat -> (forall k, length (env k) = n /\ forall i, 0 <= nth i (env k) 0 < 2 ^ fw t) -> (uses_fma ex = true -> c99 = true) ->
  (forall i, (i < n)%nat -> felement t (fun k => nth i (env k) 0) ex <> None) ->
  exists r, fveval (cpuf c99 new t n) env ex = Some r /\ length r = n /\
    forall i, (i < n)%nat -> exists x, felement t (fun k => nth i (env k) 0) ex = Some x /\ same_number (ff t) (nth i r 0) x.
Proof.
  intros T Hn E M D. destruct (cpu_float c99 new t n T Hn env (fun k i => celt (env k) i)) with (ex := ex) as (r & R & L & F).
  - intros k. destruct (E k) as (L & R). split; [exact L|]. intros i Hi. split; [apply R|]. split; [apply R|reflexivity].
  - exact M.
  - intros i Hi. apply D. lia.
  - exists r. split; [exact R|]. split; [exact L|]. intros i Hi. destruct (F (Z.of_nat i) ltac:(lia)) as (A & B & Q). unfold celt in *. rewrite Nat2Z.id in *.
    eexists. split; [exact (val_some _ (D i Hi))|]. apply same_of; assumption.
Qed.
Print Assumptions C126_x86. Print Assumptions C126_arm. Print Assumptions C126_power. Print Assumptions C126_cpu.

(** Hence the back ends agree: whatever the vector lengths and the lanes, the same arguments give the same number. *)
Lemma felement_ext t ex : (forall env env', (forall k, env k = env' k) -> felement t env ex = felement t env' ex).
Proof.
  intros env env' E.
  apply (fexp_mut (fun ex => felement t env ex = felement t env' ex) (fun ex => flogical_element t env ex = flogical_element t env' ex));
    intros; cbn [felement flogical_element]; rewrite ?E; repeat match goal with H : _ = _ |- _ => rewrite H; clear H end; reflexivity.
Qed.
Lemma same_trans f x y z : same_number f x z -> same_number f y z -> same_number f x y.
Proof. intros [->|(N & M)] [->|(N' & M')]; [left; reflexivity|right; split; assumption|right; split; assumption|right; split; assumption]. Qed.
Theorem C126_agreement fma e undef c99 u a c99' new p c99'' new' n t ex xe ae pe ce i j k l :
  t <> F16 -> in_reg (nb e) undef -> native_logicals a -> (0 < n)%nat ->
  (forall v, in_reg (nb e) (xe v)) -> (forall v, in_reg (an a) (ae v)) -> (forall v, in_reg 128 (pe v)) -> (forall v, length (ce v) = n /\ forall i, 0 <= nth i (ce v) 0 < 2 ^ fw t) ->
  (uses_fma ex = true -> is512 e || fma = true /\ fused_vector c99 a t /\ (vmx_double p t -> c99' = true) /\ c99'' = true) ->
  (forall i, 0 <= i < nb e / fw t -> felement t (fun v => fpat t (xe v) i) ex <> None) ->
  (forall i, 0 <= i < an a / fw t -> felement t (fun v => fpat t (ae v) i) ex <> None) ->
  (forall i, 0 <= i < 128 / fw t -> felement t (fun v => fpat t (pe v) i) ex <> None) ->
  (forall i, (i < n)%nat -> felement t (fun v => nth i (ce v) 0) ex <> None) ->
  0 <= i < nb e / fw t -> 0 <= j < an a / fw t -> 0 <= k < 128 / fw t -> (l < n)%nat ->
  (forall v, fpat t (ae v) j = fpat t (xe v) i /\ fpat t (pe v) k = fpat t (xe v) i /\ nth l (ce v) 0 = fpat t (xe v) i) ->
  exists rx ra rp rc, fveval (x86f fma e t undef) xe ex = Some rx /\ fveval (armf c99 u a t) ae ex = Some ra /\ fveval (powerf c99' new p t) pe ex = Some rp /\ fveval (cpuf c99'' new' t n) ce ex = Some rc /\
    same_number (ff t) (fpat t ra j) (fpat t rx i) /\ same_number (ff t) (fpat t rp k) (fpat t rx i) /\ same_number (ff t) (nth l rc 0) (fpat t rx i).
Proof.
  intros T U Na Hn Rx Ra Rp Rc M Dx Da Dp Dc Hi Hj Hk Hl S.
  destruct (C126_x86 fma e t undef xe ex T U Rx (fun H => proj1 (M H)) Dx) as (rx & Ex & _ & Vx). destruct (C126_arm c99 u a t ae ex T Na Ra (fun H => proj1 (proj2 (M H))) Da) as (ra & Ea & _ & Va).
  destruct (C126_power c99' new p t pe ex T Rp (fun H => proj1 (proj2 (proj2 (M H)))) Dp) as (rp & Ep & _ & Vp). destruct (C126_cpu c99'' new' t n ce ex T Hn Rc (fun H => proj2 (proj2 (proj2 (M H)))) Dc) as (rc & Ec & _ & Vc).
  exists rx, ra, rp, rc. do 4 (split; [assumption|]).
  destruct (Vx i Hi) as (x & Qx & Sx). destruct (Va j Hj) as (xa & Qa & Sa). destruct (Vp k Hk) as (xp & Qp & Sp). destruct (Vc l Hl) as (xc & Qc & Sc).
  rewrite (felement_ext t ex _ (fun v => fpat t (xe v) i)) in Qa by apply S. rewrite (felement_ext t ex _ (fun v => fpat t (xe v) i)) in Qp by apply S. rewrite (felement_ext t ex _ (fun v => fpat t (xe v) i)) in Qc by apply S.
  rewrite Qx in Qa, Qp, Qc. injection Qa as <-. injection Qp as <-. injection Qc as <-. repeat split; eapply same_trans; eassumption.
Qed.
Print Assumptions C126_agreement.

(** Where the scalar meaning is left undefined the back ends do differ: the absolute value of -0, the minimum of a number and a NaN,
    -(a b) + c when it cancels. *)
Theorem C126_abs_refuted : ~ (forall x r r', in_reg 128 x -> fveval (x86f true Sse2 F32 0) (fun _ => x) (FOp1 FAbs (FArg 0)) = Some r -> fveval (cpuf true true F32 1) (fun _ => [fpat F32 x 0]) (FOp1 FAbs (FArg 0)) = Some r' ->
  same_number binary32 (fpat F32 r 0) (nth 0 r' 0)).
Proof.
  intros H. specialize (H 0x80000000 0 [0x80000000] ltac:(unfold in_reg; lia) ltac:(vm_compute; reflexivity) ltac:(vm_compute; reflexivity)). vm_compute in H. destruct H as [H|(H & _)]; discriminate H.
Qed.
Theorem C126_min_refuted : ~ (forall x y r r', in_reg 128 x -> in_reg 128 y ->
  fveval (x86f true Sse2 F32 0) (fun k => match k with O => x | _ => y end) (FOp2 FMin (FArg 0) (FArg 1)) = Some r ->
  fveval (armf true 0 Aarch64 F32) (fun k => match k with O => x | _ => y end) (FOp2 FMin (FArg 0) (FArg 1)) = Some r' -> same_number binary32 (fpat F32 r 0) (fpat F32 r' 0)).
Proof.
  intros H. specialize (H 0x7FC00000 0x3F800000 0x3F800000 0x7FC00000 ltac:(unfold in_reg; lia) ltac:(unfold in_reg; lia) ltac:(vm_compute; reflexivity) ltac:(vm_compute; reflexivity)).
  vm_compute in H. destruct H as [H|(H & _)]; discriminate H.
Qed.
Theorem C126_fnma_refuted : ~ (forall x r r', in_reg 128 x ->
  fveval (x86f true Sse2 F64 0) (fun _ => x) (FOp3 Fnma (FArg 0) (FArg 0) (FArg 0)) = Some r ->
  fveval (powerf true true Vsx F64) (fun _ => x) (FOp3 Fnma (FArg 0) (FArg 0) (FArg 0)) = Some r' -> same_number binary64 (fpat F64 r 0) (fpat F64 r' 0)).
Proof.
  intros H. specialize (H 0 0 (2 ^ 127 + 2 ^ 63) ltac:(unfold in_reg; lia) ltac:(vm_compute; reflexivity) ltac:(vm_compute; reflexivity)).
  vm_compute in H. destruct H as [H|(H & _)]; discriminate H.
Qed.
(** without a fused multiply-add instruction the number can differ: (1 + 2^-23)^2 - (1 + 2^-22) *)
Theorem C126_unfused_refuted : ~ (forall x y r r', in_reg 128 x -> in_reg 128 y ->
  fveval (x86f false Sse2 F32 0) (fun k => match k with O => x | _ => y end) (FOp3 Fms (FArg 0) (FArg 0) (FArg 1)) = Some r ->
  fveval (armf true 0 Aarch64 F32) (fun k => match k with O => x | _ => y end) (FOp3 Fms (FArg 0) (FArg 0) (FArg 1)) = Some r' -> same_number binary32 (fpat F32 r 0) (fpat F32 r' 0)).
Proof.
  intros H. specialize (H 0x3F800001 0x3F800002 _ _ ltac:(unfold in_reg; lia) ltac:(unfold in_reg; lia) eq_refl eq_refl).
  vm_compute in H. destruct H as [H|(H & _)]; discriminate H.
Qed.
Print Assumptions C126_abs_refuted. Print Assumptions C126_min_refuted. Print Assumptions C126_fnma_refuted. Print Assumptions C126_unfused_refuted.

(** if x < 0 then - floor x else sqrt (x * y + 0.5) / y *)
Definition C126_prog : fexp := FIfElse (FCmp Lt (FArg 0) (FSplat 0)) (FOp1 FNeg (FOp1 FFloor (FArg 0)))
  (FOp2 (FArith FloatVecSpec.Div) (FOp1 FSqrt (FOp3 Fma (FArg 0) (FArg 1) (FSplat 0x3F000000))) (FArg 1)).
Definition C126_args (x y : Z) (k : nat) : Z := match k with O => x | _ => y end.
Example C126_ex : felement F32 (C126_args 0xC0200000 0x40000000) C126_prog = Some 0x40400000 /\
  felement F32 (C126_args 0x3FE00000 0x40000000) C126_prog = Some 0x3F800000 /\ uses_fma C126_prog = true /\
  fused_vector true Aarch64 F32 /\ is512 Sse2 || true = true /\
  felement F32 (C126_args 0x7FC00000 0x3F800000) (FOp2 FMin (FArg 0) (FArg 1)) = None /\
  (exists r, fveval (cpuf true true F32 2) (fun k => [C126_args 0xC0200000 0x40000000 k; C126_args 0x3FE00000 0x40000000 k]) C126_prog = Some r /\ r = [0x40400000; 0x3F800000]).
Proof. repeat split. exists [0x40400000; 0x3F800000]. split; vm_compute; reflexivity. Qed.
