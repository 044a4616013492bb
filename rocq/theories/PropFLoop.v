(** C127: the loop of the tutorial on arrays of floats, with any float expression as its body, on every back end. *)
From Coq Require Import ZArith Lia List Bool ZifyBool.
From Verif Require Import CInt ScalarOps ScalarSpec CpuSimd PpcMem PpcMemSpec.
From Verif Require Import FloatSpec RoundEven X86Deg234 X86Arith X86ArithSpec X86Mem X86MemSpec X86Cvt X86CvtSpec.
From Verif Require Import Arm ArmSpec ArmMem ArmFloat ArmFloatSpec Ppc PpcSpec PpcFloat PpcFloatSpec FloatArith FloatArithSpec ScalarFloat PropFloatArith FloatVecSpec FloatVecOps PropArmFloatArith.
From Verif Require Import Portable PortableSpec PortableProofs FPortable FPortableSpec FPortableProofs FPortableProofs5 PropFPortable Loop LoopSpec FLoop FLoopSpec FLoopProofs FLoopProofs2.
Import ListNotations.
Open Scope Z_scope.

Theorem C127_x86 fma e t undef d body srcs dst n x m : t <> F16 -> in_reg (nb e) undef -> (uses_fma body = true -> is512 e || fma = true) ->
  floop_data t (nb e / fw t) body srcs dst n x m ->
  exists m', fsimd_loop (x86f_m fma e t undef) d body srcs dst n m = Some m' /\ floop_result t body dst n x m m'.
Proof. exact (x86_floop fma e t undef d body srcs dst n x m). Qed.
Theorem C127_arm c99 u e t d body srcs dst n x m : t <> F16 -> architectural e -> native_logicals e -> (uses_fma body = true -> fused_vector c99 e t) ->
  floop_data t (an e / fw t) body srcs dst n x m ->
  exists m', fsimd_loop (armf_m c99 u e t) d body srcs dst n m = Some m' /\ floop_result t body dst n x m m'.
Proof. exact (arm_floop c99 u e t d body srcs dst n x m). Qed.
(** On POWER, loads and stores of f32 need aligned addresses (C103), even loadu and storeu. *)
Theorem C127_power al c99 new e t d body srcs dst n x m : t <> F16 -> vector_address (fm t) dst -> (forall k, (k < length srcs)%nat -> vector_address (fm t) (nth k srcs 0)) ->
  (uses_fma body = true -> vmx_double e t -> c99 = true) -> floop_data t (128 / fw t) body srcs dst n x m ->
  exists m', fsimd_loop (powerf_m al c99 new e t) d body srcs dst n m = Some m' /\ floop_result t body dst n x m m'.
Proof. exact (power_floop al c99 new e t d body srcs dst n x m). Qed.
Theorem C127_cpu c99 new t len d body srcs dst n x (m : Z -> option Z) : t <> F16 -> (0 < len)%nat -> (uses_fma body = true -> c99 = true) ->
  0 <= n -> n + Z.of_nat len < 2 ^ 31 -> (forall k, foccurs k body = true -> (k < length srcs)%nat) ->
  (forall k j, (k < length srcs)%nat -> 0 <= j < n -> holds_cell t m (nth k srcs 0 + j) (x k j)) ->
  (forall y, dst <= y < dst + n -> m y <> None) ->
  (forall k, (k < length srcs)%nat -> same_or_apart 1 n (nth k srcs 0) dst) ->
  (forall j, 0 <= j < n -> felement t (fun k => x k j) body <> None) -> felement t (fun _ => 0) body <> None ->
  exists m', fsimd_loop (cpuf_m c99 new t len) d body srcs dst n m = Some m' /\
    (forall j, 0 <= j < n -> exists r, felement t (fun k => x k j) body = Some r /\ holds_cell t m' (dst + j) r) /\
    (forall y, y < dst \/ dst + n <= y -> m' y = m y).
Proof. exact (cpu_floop c99 new t len d body srcs dst n x m). Qed.
Print Assumptions C127_x86. Print Assumptions C127_arm. Print Assumptions C127_power. Print Assumptions C127_cpu.

(** A program that uses neither abs, min, max, fnma nor fnms is defined on all floats: the theorems above and C126 apply to it
    whatever the arrays hold, NaNs and infinities included. *)
Theorem C127_always t body : t <> F16 -> always_portable t body = true -> forall env, felement t env body <> None.
Proof.
  intros T. apply (fexp_mut (fun e => always_portable t e = true -> forall env, felement t env e <> None) (fun l => always_portablel t l = true -> forall env, flogical_element t env l <> None));
  cbn [always_portable always_portablel felement flogical_element].
  - intros k _ env. discriminate.
  - intros x H env. rewrite H. discriminate.
  - intros o a IH H env. assert (o <> FAbs) as NA by (intros ->; discriminate H). assert (always_portable t a = true) as H' by (destruct o; congruence). specialize (IH H' env).
    destruct (felement t env a); [|contradiction]. destruct t; [congruence| |]; destruct o; try congruence; discriminate.
  - intros o a IHa b IHb H env. destruct o as [o| |]; try discriminate H. apply andb_prop in H. destruct H as (Ha & Hb). specialize (IHa Ha env). specialize (IHb Hb env).
    destruct (felement t env a); [|contradiction]. destruct (felement t env b); [|contradiction]. destruct t; [congruence| |]; destruct o; discriminate.
  - intros o a IHa b IHb c IHc H env. apply andb_prop in H. destruct H as (H & Hc). apply andb_prop in H. destruct H as (H & Hb). apply andb_prop in H. destruct H as (H & Ha). apply negb_true_iff in H.
    specialize (IHa Ha env). specialize (IHb Hb env). specialize (IHc Hc env).
    destruct (felement t env a); [|contradiction]. destruct (felement t env b); [|contradiction]. destruct (felement t env c); [|contradiction]. unfold scalar_f3. rewrite H. cbn [andb].
    destruct t; [congruence| |]; destruct o; discriminate.
  - intros l IHl a IHa b IHb H env. apply andb_prop in H. destruct H as (H & Hb). apply andb_prop in H. destruct H as (Hl & Ha). specialize (IHa Ha env). specialize (IHb Hb env). specialize (IHl Hl env).
    destruct (flogical_element t env l); [|contradiction]. destruct (felement t env a); [|contradiction]. destruct (felement t env b); [|contradiction]. discriminate.
  - intros x _ env. discriminate.
  - intros r a IHa b IHb H env. apply andb_prop in H. destruct H as (Ha & Hb). specialize (IHa Ha env). specialize (IHb Hb env).
    destruct (felement t env a); [|contradiction]. destruct (felement t env b); [|contradiction]. destruct t; [congruence| |]; destruct r; discriminate.
  - intros o a IHa b IHb H env. apply andb_prop in H. destruct H as (Ha & Hb). specialize (IHa Ha env). specialize (IHb Hb env).
    destruct (flogical_element t env a); [|contradiction]. destruct (flogical_element t env b); [|contradiction]. discriminate.
  - intros a IH H env. specialize (IH H env). destruct (flogical_element t env a); [|contradiction]. discriminate.
  - intros a IH H env. specialize (IH H env). destruct (felement t env a); [|contradiction]. discriminate.
Qed.
Print Assumptions C127_always.

(** Whatever the back ends and their vector lengths, the loops write the same numbers at the same places and nothing else. *)
Theorem C127_agreement fma e undef c99 u a al c99' new p t dx da dp body srcs dst n x m :
  t <> F16 -> in_reg (nb e) undef -> architectural a -> native_logicals a ->
  vector_address (fm t) dst -> (forall k, (k < length srcs)%nat -> vector_address (fm t) (nth k srcs 0)) ->
  (uses_fma body = true -> is512 e || fma = true /\ fused_vector c99 a t /\ (vmx_double p t -> c99' = true)) ->
  floop_data t 256 body srcs dst n x m ->
  exists mx ma mp, fsimd_loop (x86f_m fma e t undef) dx body srcs dst n m = Some mx /\ fsimd_loop (armf_m c99 u a t) da body srcs dst n m = Some ma /\
    fsimd_loop (powerf_m al c99' new p t) dp body srcs dst n m = Some mp /\
    (forall j, 0 <= j < n -> exists r, felement t (fun k => x k j) body = Some r /\
      holds_float t mx (dst + j * (fw t / 8)) r /\ holds_float t ma (dst + j * (fw t / 8)) r /\ holds_float t mp (dst + j * (fw t / 8)) r) /\
    (forall y, y < dst \/ dst + n * (fw t / 8) <= y -> mx y = m y /\ ma y = m y /\ mp y = m y).
Proof.
  intros T U A L Vd Vs M D.
  assert (forall N, 128 <= N <= 2048 -> floop_data t (N / fw t) body srcs dst n x m) as D'.
  { intros N R. destruct D as (Hn & Hi & D). split; [exact Hn|]. split; [|exact D]. assert (N / fw t <= 256); [|lia]. apply Z.div_le_upper_bound; destruct t; cbn; lia. }
  destruct (C127_x86 fma e t undef dx body srcs dst n x m T U (fun H => proj1 (M H))) as (mx & X & Rx & Fx). { apply D'. destruct e; cbn; lia. }
  destruct (C127_arm c99 u a t da body srcs dst n x m T A L (fun H => proj1 (proj2 (M H)))) as (ma & Y & Ra & Fa). { apply D'. unfold architectural in A. split; [|exact A]. destruct a; cbn [an]; lia. }
  destruct (C127_power al c99' new p t dp body srcs dst n x m T Vd Vs (fun H => proj2 (proj2 (M H)))) as (mp & P & Rp & Fp). { apply D'. lia. }
  exists mx, ma, mp. repeat (split; [assumption|]). split; [|intros y Hy; auto].
  intros j Hj. destruct (Rx j Hj) as (r & E & H). destruct (Ra j Hj) as (r1 & E1 & H1). destruct (Rp j Hj) as (r2 & E2 & H2). exists r. assert (r1 = r) by congruence. assert (r2 = r) by congruence. subst. auto.
Qed.
Print Assumptions C127_agreement.

(** Little-endian words at given addresses *)
Definition words (l : list (Z * Z)) (a : Z) : option Z :=
  match filter (fun w => (fst w <=? a) && (a <? fst w + 4)) l with (b, v) :: _ => Some (v / 2 ^ (8 * (a - b)) mod 256) | [] => None end.
Lemma words_hold l b v : (forall k, 0 <= k < 4 -> words l (b + k) = Some (v / 2 ^ (8 * k) mod 256)) -> 0 <= v < 2 ^ 32 -> holds_float F32 (words l) b v.
Proof. intros H R. split; [exact R|]. exists v. split; [exact R|]. split; [|left; reflexivity]. split; [exact R|]. intros k Hk. exists (v / 2 ^ (8 * k) mod 256). split; [apply H; exact Hk|]. apply Z.mod_mod. discriminate. Qed.

(** Without the fused multiply-add instruction the numbers differ (C67): x x - y on one element *)
Theorem C127_unfused_refuted : ~ (forall fma e t undef d body srcs dst n x m, t <> F16 -> in_reg (nb e) undef -> floop_data t (nb e / fw t) body srcs dst n x m ->
  exists m', fsimd_loop (x86f_m fma e t undef) d body srcs dst n m = Some m' /\ floop_result t body dst n x m m').
Proof.
  intros H. pose (x := fun (k : nat) (j : Z) => match k with O => 0x3F800001 | _ => 0x3F800002 end).
  destruct (H false Sse2 F32 0 0 (FOp3 Fms (FArg 0) (FArg 0) (FArg 1)) [0; 4] 8 1 x (words [(0, 0x3F800001); (4, 0x3F800002); (8, 0)])) as (m' & E & R & _).
  - discriminate.
  - unfold in_reg. cbn. lia.
  - unfold floop_data. split; [lia|]. split; [reflexivity|]. split; [|split; [|split; [|split; [|split]]]].
    + intros k K. cbn [foccurs orb] in K. cbn. destruct k as [|[|k]]; [lia|lia|discriminate K].
    + intros k j Hk Hj. assert (j = 0) as -> by lia. destruct k as [|[|k]]; [| |cbn in Hk; lia]; apply words_hold; try (cbn; lia); intros i Hi;
      (assert (i = 0 \/ i = 1 \/ i = 2 \/ i = 3) as C by lia; destruct C as [->|[->|[->| ->]]]; reflexivity).
    + intros y Hy. change (fw F32 / 8) with 4 in Hy. assert (y = 8 \/ y = 9 \/ y = 10 \/ y = 11) as C by lia. destruct C as [->|[->|[->| ->]]]; discriminate.
    + intros k Hk. right. left. change (fw F32 / 8) with 4. destruct k as [|[|k]]; cbn in *; lia.
    + intros j Hj. vm_compute. discriminate.
    + vm_compute. discriminate.
  - destruct (R 0 ltac:(lia)) as (r & F & _ & p & _ & (_ & P) & S).
    assert (Some r = Some 0x28800000) as G by (rewrite <- F; vm_compute; reflexivity). injection G as ->.
    destruct S as [->|(_ & S)]; [|vm_compute in S; discriminate S].
    destruct (P 3 ltac:(cbn; lia)) as (b3 & B3 & Q3).
    assert (option_map (fun m => m (8 + 0 * (fw F32 / 8) + 3)) (fsimd_loop (x86f_m false Sse2 F32 0) 0 (FOp3 Fms (FArg 0) (FArg 0) (FArg 1)) [0; 4] 8 1 (words [(0, 0x3F800001); (4, 0x3F800002); (8, 0)])) = Some (Some 0)) as V by (vm_compute; reflexivity).
    rewrite E in V. cbn [option_map] in V. rewrite B3 in V. injection V as ->. vm_compute in Q3. discriminate Q3.
Qed.
Print Assumptions C127_unfused_refuted.

(** ** Examples *)
(** y = 2 x + y in place, 5 singles, one of them a NaN and one an infinity: one full vector of SSE and a tail *)
Definition xs (j : Z) : Z := nth (Z.to_nat j) [0x3F800000; 0x40000000; 0x7F800000; 0x3F000000; 0xBF800000] 0.
Definition ys (j : Z) : Z := nth (Z.to_nat j) [0x3F800000; 0x7FC00000; 0x3F800000; 0x3F800000; 0x40400000] 0.
Definition arrays : list (Z * Z) := [(0, xs 0); (4, xs 1); (8, xs 2); (12, xs 3); (16, xs 4); (32, ys 0); (36, ys 1); (40, ys 2); (44, ys 3); (48, ys 4); (52, 7)].
Definition axpy2 : fexp := axpy_body 0x40000000.
Example axpy_portable : always_portable F32 axpy2 = true. Proof. reflexivity. Qed.
Example axpy_data : floop_data F32 (nb Sse42 / fw F32) axpy2 [0; 32] 32 5 (fun k j => match k with O => xs j | _ => ys j end) (words arrays).
Proof.
  split; [lia|]. split; [reflexivity|]. split; [|split; [|split; [|split; [|split]]]].
  - intros k K. cbn [foccurs orb axpy2 axpy_body] in K. cbn. destruct k as [|[|k]]; [lia|lia|discriminate K].
  - intros k j Hk Hj. change (fw F32 / 8) with 4. assert (In j [0; 1; 2; 3; 4]) as J by (cbn [In]; lia). clear Hj.
    destruct k as [|[|k]]; [| |cbn in Hk; lia]; cbn [In] in J; (destruct J as [<-|[<-|[<-|[<-|[<-|[]]]]]]);
    (apply words_hold; [|vm_compute; split; [discriminate|reflexivity]]); intros i Hi; (assert (i = 0 \/ i = 1 \/ i = 2 \/ i = 3) as C by lia; destruct C as [->|[->|[->| ->]]]; reflexivity).
  - intros y Hy. change (fw F32 / 8) with 4 in Hy. assert (In y [32; 33; 34; 35; 36; 37; 38; 39; 40; 41; 42; 43; 44; 45; 46; 47; 48; 49; 50; 51]) as Y by (cbn [In]; lia). clear Hy.
    cbn [In] in Y. repeat (destruct Y as [<-|Y]; [discriminate|]). destruct Y.
  - intros k Hk. destruct k as [|[|k]]; [right; left; vm_compute; discriminate|left; reflexivity|cbn in Hk; lia].
  - intros j _. apply C127_always; [discriminate|reflexivity].
  - apply C127_always; [discriminate|reflexivity].
Qed.
(** 3, NaN, infinity, 2, 1; the byte after the array is untouched *)
Example axpy_sse : option_map (fun m' => map m' [35; 34; 39; 38; 43; 42; 47; 46; 51; 50; 49; 48; 52; 3]) (fsimd_loop (x86f_m false Sse42 F32 0) 0 axpy2 [0; 32] 32 5 (words arrays))
  = Some [Some 0x40; Some 0x40; Some 0x7F; Some 0xC0; Some 0x7F; Some 0x80; Some 0x40; Some 0; Some 0x3F; Some 0x80; Some 0; Some 0; Some 7; Some 0x3F].
Proof. vm_compute. reflexivity. Qed.
