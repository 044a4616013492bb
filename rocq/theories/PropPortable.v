(** C124: portable integer programs. *)
From Coq Require Import ZArith Lia List Bool ZifyBool.
From Verif Require Import CInt ScalarOps ScalarSpec CpuSimd X86Deg234 X86Arith X86ArithSpec X86Mem Arm ArmSpec Ppc PpcSpec
  Portable PortableSpec PortableProofs PortableProofs3 PortableProofs4 PortableProofs5.
Import ListNotations.
Open Scope Z_scope.

(** On x86: when the scalar program is defined on the elements of every lane, the vector program is defined and every
    element of its result is the result of the scalar program on the elements of that lane. *)
Theorem C124_x86 e t undef env ex : In t int_types -> in_reg (nb e) undef -> (forall k, in_reg (nb e) (env k)) ->
  (forall i, 0 <= i < nb e / bits t -> element t (fun k => elt t (env k) i) i ex <> None) ->
  exists r, veval (x86 e t undef) env ex = Some r /\ in_reg (nb e) r /\
    forall i, 0 <= i < nb e / bits t -> element t (fun k => elt t (env k) i) i ex = Some (elt t r i).
Proof. intros Ht Hu. exact (x86_portable e t undef Ht Hu env ex). Qed.
Print Assumptions C124_x86.
Theorem C124_arm u e t env ex : In t int_types -> architectural e -> native_logicals e -> (forall k, in_reg (an e) (env k)) ->
  (forall i, 0 <= i < an e / bits t -> element t (fun k => elt t (env k) i) i ex <> None) ->
  exists r, veval (arm u e t) env ex = Some r /\ in_reg (an e) r /\
    forall i, 0 <= i < an e / bits t -> element t (fun k => elt t (env k) i) i ex = Some (elt t r i).
Proof. intros Ht Ha Hl. exact (arm_portable u e t Ht Ha Hl env ex). Qed.
Print Assumptions C124_arm.
Theorem C124_power e t env ex : In t int_types -> (forall k, in_reg 128 (env k)) ->
  (forall i, 0 <= i < 128 / bits t -> element t (fun k => elt t (env k) i) i ex <> None) ->
  exists r, veval (power e t) env ex = Some r /\ in_reg 128 r /\
    forall i, 0 <= i < 128 / bits t -> element t (fun k => elt t (env k) i) i ex = Some (elt t r i).
Proof. intros Ht. exact (power_portable e t Ht env ex). Qed.
Print Assumptions C124_power.
Theorem C124_cpu t n env ex : In t int_types -> (0 < n)%nat -> (forall k, length (env k) = n /\ forall i, in_ty t (nth i (env k) 0)) ->
  (forall i, (i < n)%nat -> element t (fun k => nth i (env k) 0) (Z.of_nat i) ex <> None) ->
  exists r, veval (cpu t n) env ex = Some r /\ length r = n /\
    forall i, (i < n)%nat -> element t (fun k => nth i (env k) 0) (Z.of_nat i) ex = Some (nth i r 0).
Proof. intros Ht Hn. exact (cpu_portable t n Ht Hn env ex). Qed.
Print Assumptions C124_cpu.

(** Hence the back ends agree: whatever the vector lengths, a lane whose arguments are the same holds the same result. *)
Lemma element_ext t i ex : (forall env env', (forall k, env k = env' k) -> element t env i ex = element t env' i ex).
Proof.
  revert ex. apply (vexp_mut (fun ex => forall env env', (forall k, env k = env' k) -> element t env i ex = element t env' i ex)
    (fun l => forall env env', (forall k, env k = env' k) -> logical_element t env i l = logical_element t env' i l));
  cbn [element logical_element]; intros; repeat match goal with H : forall env env', _ -> _ = _ |- _ => rewrite (H env env') by assumption; clear H end; try reflexivity.
  f_equal. auto.
Qed.
Theorem C124_agreement e t undef u a p ex xe ae pe ce i : In t int_types -> in_reg (nb e) undef -> architectural a -> native_logicals a ->
  (forall k, in_reg (nb e) (xe k)) -> (forall k, in_reg (an a) (ae k)) -> (forall k, in_reg 128 (pe k)) ->
  (forall k, length (ce k) = Z.to_nat (128 / bits t) /\ forall i, in_ty t (nth i (ce k) 0)) ->
  (forall j, 0 <= j < nb e / bits t -> element t (fun k => elt t (xe k) j) j ex <> None) ->
  (forall j, 0 <= j < an a / bits t -> element t (fun k => elt t (ae k) j) j ex <> None) ->
  (forall j, 0 <= j < 128 / bits t -> element t (fun k => elt t (pe k) j) j ex <> None) ->
  (forall j, (j < Z.to_nat (128 / bits t))%nat -> element t (fun k => nth j (ce k) 0) (Z.of_nat j) ex <> None) ->
  0 <= i < 128 / bits t ->
  (forall k, elt t (xe k) i = elt t (ae k) i /\ elt t (ae k) i = elt t (pe k) i /\ elt t (pe k) i = nth (Z.to_nat i) (ce k) 0) ->
  exists rx ra rp rc, veval (x86 e t undef) xe ex = Some rx /\ veval (arm u a t) ae ex = Some ra /\ veval (power p t) pe ex = Some rp /\
    veval (cpu t (Z.to_nat (128 / bits t))) ce ex = Some rc /\
    elt t rx i = elt t ra i /\ elt t ra i = elt t rp i /\ elt t rp i = nth (Z.to_nat i) rc 0.
Proof.
  intros Ht Hu Ha Hl Rx Ra Rp Rc Dx Da Dp Dc Hi S.
  destruct (C124_x86 e t undef xe ex Ht Hu Rx Dx) as (rx & X & _ & Fx). destruct (C124_arm u a t ae ex Ht Ha Hl Ra Da) as (ra & A & _ & Fa).
  destruct (C124_power p t pe ex Ht Rp Dp) as (rp & P & _ & Fp). destruct (C124_cpu t (Z.to_nat (128 / bits t)) ce ex Ht ltac:(lia) Rc Dc) as (rc & C & _ & Fc).
  exists rx, ra, rp, rc. repeat (split; [assumption|]).
  assert (0 < bits t) as B by (cbn in Ht; decompose [or] Ht; subst; try tauto; reflexivity).
  assert (i < nb e / bits t /\ i < an a / bits t) as (Lx & La).
  { assert (128 <= nb e /\ 128 <= an a) as (N & M) by (destruct e, a; cbn [nb an]; lia). pose proof (Z.div_le_mono _ _ (bits t) B N). pose proof (Z.div_le_mono _ _ (bits t) B M). lia. }
  specialize (Fx i ltac:(lia)). specialize (Fa i ltac:(lia)). specialize (Fp i Hi). specialize (Fc (Z.to_nat i) ltac:(lia)). rewrite Z2Nat.id in Fc by lia.
  rewrite (element_ext t i ex _ _ (fun k => proj1 (S k))) in Fx. rewrite Fx in Fa. rewrite (element_ext t i ex _ _ (fun k => proj1 (proj2 (S k)))) in Fx.
  rewrite Fx in Fp. rewrite (element_ext t i ex _ _ (fun k => proj2 (proj2 (S k)))) in Fx. rewrite Fx in Fc. repeat split; congruence.
Qed.
Print Assumptions C124_agreement.

(** The exclusions of the scalar semantics are needed: outside them the back ends differ. *)
Theorem C124_subs_refuted : exists a b rx ra, in_reg 128 a /\ in_reg 128 b /\
  veval (x86 Sse42 i32 0) (fun k => match k with O => a | _ => b end) (Op2 Subs (Arg 0) (Arg 1)) = Some rx /\
  veval (arm 0 Aarch64 i32) (fun k => match k with O => a | _ => b end) (Op2 Subs (Arg 0) (Arg 1)) = Some ra /\ elt i32 rx 0 <> elt i32 ra 0.
Proof.
  exists 0, (2 ^ 31). eexists. eexists. split; [split; [discriminate|reflexivity]|]. split; [split; [discriminate|reflexivity]|]. split; [vm_compute; reflexivity|]. split; [vm_compute; reflexivity|].
  vm_compute. discriminate.
Qed.
Theorem C124_shra_refuted : exists a rx rp, in_reg 128 a /\
  veval (x86 Sse42 u32 0) (fun _ => a) (Shift Shra (Arg 0) 1) = Some rx /\ veval (power Vsx u32) (fun _ => a) (Shift Shra (Arg 0) 1) = Some rp /\ elt u32 rx 0 <> elt u32 rp 0.
Proof.
  exists (2 ^ 31). eexists. eexists. split; [split; [discriminate|reflexivity]|]. split; [vm_compute; reflexivity|]. split; [vm_compute; reflexivity|]. vm_compute. discriminate.
Qed.
Theorem C124_div_refuted : exists a ra, in_reg 128 a /\ veval (x86 Sse42 i32 0) (fun _ => a) (Op2 Div (Arg 0) (Arg 0)) = None /\
  veval (arm 0 (Sve false 1) i32) (fun _ => a) (Op2 Div (Arg 0) (Arg 0)) = Some ra.
Proof. exists 0. eexists. split; [split; [discriminate|reflexivity]|]. split; vm_compute; reflexivity. Qed.
Print Assumptions C124_subs_refuted.
Print Assumptions C124_shra_refuted.
Print Assumptions C124_div_refuted.

(** The hypotheses are met: on i16, [a < 4 ? iota - a * 3 : (-a) >> 1] with a = 0, 1, .., 7. *)
Definition sample_a : Z := 0x00070006000500040003000200010000.
Definition sample : vexp := IfElse (Cmp Lt (Arg 0) (Splat 4)) (Op3 (Muladd true false) (Arg 0) (Splat 3) Iota) (Shift Shra (Op1 Neg (Arg 0)) 1).
Example C124_ex_defined : in_reg 128 sample_a /\ forall i, 0 <= i < 8 -> element i16 (fun k => elt i16 sample_a i) i sample <> None.
Proof.
  split; [split; [discriminate|reflexivity]|]. intros i Hi. assert (i = 0 \/ i = 1 \/ i = 2 \/ i = 3 \/ i = 4 \/ i = 5 \/ i = 6 \/ i = 7) as C by lia.
  decompose [or] C; subst; vm_compute; discriminate.
Qed.
Example C124_ex : exists r, veval (x86 Sse2 i16 0) (fun _ => sample_a) sample = Some r /\ veval (arm 0 Neon128 i16) (fun _ => sample_a) sample = Some r /\
  veval (power Vmx i16) (fun _ => sample_a) sample = Some r /\ map (elt i16 r) [0; 1; 2; 3; 4; 5; 6; 7] = [0; -2; -4; -6; -2; -3; -3; -4] /\
  veval (cpu i16 8) (fun _ => [0; 1; 2; 3; 4; 5; 6; 7]) sample = Some [0; -2; -4; -6; -2; -3; -3; -4].
Proof. eexists. split; [vm_compute; reflexivity|]. repeat split; vm_compute; reflexivity. Qed.
