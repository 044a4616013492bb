(** C114 and C115: arithmetic of the POWER back ends on float and f16 vectors.
    [pfvector t r P]: register [r] satisfies [P i p] for the pattern [p] of each element [i]; [fvalue t r i] is the value
    of element [i]; [t] is f32 or f64. *)
From Coq Require Import ZArith Bool Lia ZifyBool List.
From Verif Require Import PpcMemProofs PpcMemProofs2 PpcMemProofs3 PpcMemProofs4 Ppc PpcSpec PpcProofs PpcMem PpcMemSpec.
From Verif Require Import CInt FloatSpec Fp16 Fp16Spec Fp16Proofs ScalarOps RoundEven X86Deg234 X86Arith X86ArithSpec X86LaneLemmas X86Mem X86MemSpec X86Cvt X86CvtSpec FloatProofs X86CvtProofs2 X86CvtProofs4 X86Float X86FloatSpec X86FloatProofs2.
From Verif Require Import Arm ArmSpec ArmPermSpec ArmProofs ArmProofs2 ArmMem PropArmMem ArmFloat ArmFloatSpec ArmFloatProofs ArmFloatProofs2 ArmFloatProofs3.
From Verif Require Import FloatArith FloatArithSpec FloatArithProofs FloatArithProofs2 FloatArithProofs6 ScalarFloat FloatArithProofs7 FloatArithProofs8 FloatArithProofs9 PropFloatArith X86FloatArith ArmFloatArith FloatVecSpec FloatVecOps FloatVecProofs FloatVecProofs2 X86FloatProofs3.
From Verif Require Import PpcFloat PpcFloatSpec PpcFloatProofs PpcFloatProofs2 PpcFloatProofs3.
Local Open Scope Z_scope.

(** ** C114 *)
Theorem C114_arith o e t a b : pfvector t (p_arith o e t a b) (fun i r => result_is o (ff t) (fvalue t a i) (fvalue t b i) r).
Proof.
  destruct (p_arith_maps o e t a b) as (H & L). split; [exact H|]. intros i Hi. rewrite fpat_lane. rewrite L by exact Hi. unfold fvalue. rewrite !fpat_lane.
  apply fop_is; [apply ff_good|apply pat_range|apply pat_range].
Qed.
(** adds and subs do not saturate *)
Theorem C114_adds_subs e t a b :
  pfvector t (p_addsf e t a b) (fun i r => sum_is (ff t) (fvalue t a i) (fvalue t b i) r) /\
  pfvector t (p_subsf e t a b) (fun i r => difference_is (ff t) (fvalue t a i) (fvalue t b i) r).
Proof. exact (conj (C114_arith Add e t a b) (C114_arith Sub e t a b)). Qed.
Theorem C114_sqrt e t a : pfvector t (p_sqrtf e t a) (fun i r => root_is (ff t) (fvalue t a i) r).
Proof.
  destruct (p_sqrt_maps e t a) as (H & L). split; [exact H|]. intros i Hi. rewrite fpat_lane. rewrite L by exact Hi. unfold fvalue. rewrite !fpat_lane.
  apply fsqrt_is; [apply ff_good|apply pat_range].
Qed.
Theorem C114_rec e t a : pfvector t (p_recf e t a) (fun i r => inverse_is (ff t) (fvalue t a i) r).
Proof.
  destruct (p_rec_maps e t a) as (H & L). split; [exact H|]. intros i Hi. rewrite fpat_lane. rewrite L by exact Hi. unfold fvalue. rewrite !fpat_lane.
  apply inverse_ok; [apply ff_good|apply pat_range].
Qed.
(** Element by element the numbers are those of the scalar operators, hence (C97) those of the other back ends. *)
Theorem C114_scalar o e t a b i : t <> F16 -> 0 <= i < 128 / fw t ->
  exists r, s_arith o t (fpat t a i) (fpat t b i) = Some r /\ same_number (ff t) (fpat t (p_arith o e t a b) i) r.
Proof.
  intros T Hi. exists (fop o (ff t) (fpat t a i) (fpat t b i)). split; [destruct o, t; tauto || reflexivity|]. left. destruct (p_arith_maps o e t a b) as (_ & L). rewrite !fpat_lane. apply L. exact Hi.
Qed.
Theorem C114_like_arm u o e t a b : p_arith o e t a b = a_arith o u Aarch64 t a b.
Proof.
  destruct (p_arith_maps o e t a b) as (H & L). destruct (a_arith_maps u o Aarch64 t a b) as (H' & L'). apply (lanes_eq 128 (fw t)); [apply okf|exact H|exact H'|].
  intros i Hi. rewrite L, L' by exact Hi. reflexivity.
Qed.
(** f16 vectors are two registers of singles. *)
Lemma p_arith16_lane o e a b : fvector16 (p_arith16 o e a b) (fun i x => x = fop o binary32 (apattern16 a i) (apattern16 b i)).
Proof.
  pose proof (map2_16_ok (fop o binary32) (p_arith o e F32) Neon128 a b eq_refl (p_arith_maps o e F32)) as M. destruct o; exact M.
Qed.
Theorem C114_arith_f16 o e a b : fvector16 (p_arith16 o e a b) (fun i r => result_is o binary32 (fvalue16 a i) (fvalue16 b i) r).
Proof.
  destruct (p_arith16_lane o e a b) as (H & L). split; [exact H|]. intros i Hi. rewrite L by exact Hi. apply (fop_is o binary32); [left; reflexivity|apply apat_rng; lia|apply apat_rng; lia].
Qed.
Theorem C114_sqrt_rec_f16 e a :
  fvector16 (p_sqrt16 e a) (fun i r => root_is binary32 (fvalue16 a i) r) /\ fvector16 (p_rec16 e a) (fun i x => inverse_is binary32 (fvalue16 a i) x).
Proof.
  split.
  - destruct (map16_ok (fsqrt binary32) (p_sqrtf e F32) Neon128 a eq_refl (p_sqrt_maps e F32)) as (H & L). split; [exact H|]. intros i Hi. unfold p_sqrt16. rewrite L by exact Hi.
    apply (fsqrt_is binary32); [left; reflexivity|apply apat_rng; lia].
  - destruct (map16_ok _ (p_recf e F32) Neon128 a eq_refl (p_rec_maps e F32)) as (H & L). split; [exact H|]. intros i Hi. unfold p_rec16. rewrite L by exact Hi.
    apply (inverse_ok binary32); [left; reflexivity|apply apat_rng; lia].
Qed.
(** Load, operate, store: each half written is the correctly rounded half, and the one the scalar operator gives. *)
Theorem C114_f16_memory o e m pa pb pc :
  (forall i, 0 <= i < 8 -> mapped 16 m (pa + i * 2) /\ mapped 16 m (pb + i * 2) /\ mapped 16 m (pc + i * 2)) ->
  exists va vb m', p_load16 m pa = Some va /\ p_load16 m pb = Some vb /\ p_store16 m pc (p_arith16 o e va vb) = Some m' /\
  (forall x, x < pc \/ pc + 16 <= x -> m' x = m x) /\
  forall i, 0 <= i < 8 -> exists h h' r, holds 16 m (pa + i * 2) h /\ holds 16 m (pb + i * 2) h' /\ holds 16 m' (pc + i * 2) r /\
    result_is o binary16 (decode binary16 h) (decode binary16 h') r /\ s_arith o F16 h h' = Some r.
Proof.
  intros M. destruct (p_load16_ok m pa) as (va & Ea & Ra & La); [intros i Hi; apply M, Hi|]. destruct (p_load16_ok m pb) as (vb & Eb & Rb & Lb); [intros i Hi; apply M, Hi|].
  destruct (p_arith16_lane o e va vb) as (H & L). destruct (C78_store_f16 m pc (p_arith16 o e va vb) H) as (m' & Es & Ls & Lu); [intros i Hi; apply M, Hi|].
  exists va, vb, m'. split; [exact Ea|]. split; [exact Eb|]. split; [exact Es|]. split; [exact Lu|]. intros i Hi.
  destruct (La i Hi) as (h & Hh & (Ch & _)). destruct (Lb i Hi) as (h' & Hh' & (Ch' & _)). exists h, h', (f32_to_u16 (fop o binary32 (apattern16 va i) (apattern16 vb i))).
  split; [exact Hh|]. split; [exact Hh'|]. split; [rewrite <- L by exact Hi; exact (Ls i Hi)|].
  assert (S : s_arith o F16 h h' = Some (f32_to_u16 (fop o binary32 (apattern16 va i) (apattern16 vb i)))).
  { replace (s_arith o) with (opnum2 (fop o)) by (destruct o; reflexivity). unfold opnum2. rewrite Ch, Ch'. reflexivity. }
  split; [|exact S]. pose proof (proj1 Hh) as R. pose proof (proj1 Hh') as R'.
  assert (T : exists r, s_arith o F16 h h' = Some r /\ result_is o binary16 (decode binary16 h) (decode binary16 h') r).
  { destruct o; [destruct (sf_add_is F16 h h' R R') as (r & E & _ & G)|destruct (sf_sub_is F16 h h' R R') as (r & E & _ & G)|destruct (sf_mul_is F16 h h' R R') as (r & E & _ & G)|destruct (sf_div_is F16 h h' R R') as (r & E & _ & G)]; exists r; split; assumption. }
  destruct T as (r & E & G). rewrite S in E. injection E as <-. exact G.
Qed.
Theorem C114_f16_sqrt_memory e m pa pc : (forall i, 0 <= i < 8 -> mapped 16 m (pa + i * 2) /\ mapped 16 m (pc + i * 2)) ->
  exists va m', p_load16 m pa = Some va /\ p_store16 m pc (p_sqrt16 e va) = Some m' /\
  forall i, 0 <= i < 8 -> exists h r, holds 16 m (pa + i * 2) h /\ holds 16 m' (pc + i * 2) r /\ root_is binary16 (decode binary16 h) r.
Proof.
  intros M. destruct (p_load16_ok m pa) as (va & Ea & Ra & La); [intros i Hi; apply M, Hi|].
  destruct (map16_ok (fsqrt binary32) (p_sqrtf e F32) Neon128 va eq_refl (p_sqrt_maps e F32)) as (H & L).
  destruct (C78_store_f16 m pc (p_sqrt16 e va) H) as (m' & Es & Ls & Lu); [intros i Hi; apply M, Hi|].
  exists va, m'. split; [exact Ea|]. split; [exact Es|]. intros i Hi. destruct (La i Hi) as (h & Hh & (Ch & _)). exists h, (f32_to_u16 (fsqrt binary32 (apattern16 va i))).
  split; [exact Hh|]. split; [rewrite <- L by exact Hi; exact (Ls i Hi)|].
  destruct (sf_sqrt_is true F16 h (proj1 Hh)) as (r & E & _ & G).
  assert (S : sf_sqrt true F16 h = Some (f32_to_u16 (fsqrt binary32 (apattern16 va i)))). { unfold sf_sqrt, libm1. rewrite Ch. reflexivity. }
  rewrite S in E. injection E as <-. exact G.
Qed.
Print Assumptions C114_arith. Print Assumptions C114_adds_subs. Print Assumptions C114_sqrt. Print Assumptions C114_rec. Print Assumptions C114_scalar. Print Assumptions C114_like_arm.
Print Assumptions C114_arith_f16. Print Assumptions C114_sqrt_rec_f16. Print Assumptions C114_f16_memory. Print Assumptions C114_f16_sqrt_memory.
(** 3 / 7 in f32, 1 / 4 in f64, sqrt 4 *)
Example C114_ex : fpat F32 (p_divf Vmx F32 (1077936128 * 2 ^ 32) (1088421888 * 2 ^ 32)) 1 = 0x3EDB6DB7 /\
  fpat F64 (p_recf Vmx F64 (0x4010000000000000 * 2 ^ 64)) 1 = 0x3FD0000000000000 /\ fpat F64 (p_sqrtf Vsx F64 (0x4010000000000000 * 2 ^ 64)) 1 = 0x4000000000000000.
Proof. vm_compute. auto. Qed.

(** ** C115 *)
(** The instructions round once; fnma and fnms give -0 on a cancellation. *)
Theorem C115_native o c99 e t a b c : ~ vmx_double e t ->
  pfvector t (p_muladd o c99 e t a b c) (fun i r => muladd_is o (ff t) (fvalue t a i) (fvalue t b i) (fvalue t c i) r).
Proof.
  intros V. assert (P : pair64f e t = false) by (destruct e, t; try reflexivity; exfalso; apply V; split; reflexivity). destruct (p_muladd_maps o c99 e t a b c) as (H & L). rewrite P in L.
  split; [exact H|]. intros i Hi. rewrite fpat_lane. rewrite L by exact Hi. unfold fvalue. rewrite !fpat_lane. apply native_ma_is; [apply ff_good|apply pat_range..].
Qed.
(** The doubles of vmx go through C: one rounding in C99, two before. *)
Theorem C115_vmx_f64 o c99 a b c :
  pfvector F64 (p_muladd o c99 Vmx F64 a b c) (fun i r =>
    if c99 then fused_is binary64 (factor o (fvalue F64 a i)) (fvalue F64 b i) (addend o (fvalue F64 c i)) r
    else twice_rounded binary64 (factor o (fvalue F64 a i)) (fvalue F64 b i) (addend o (fvalue F64 c i)) r).
Proof.
  destruct (p_muladd_maps o c99 Vmx F64 a b c) as (H & L). split; [exact H|]. intros i Hi. rewrite fpat_lane. rewrite L by exact Hi. unfold fvalue. rewrite !fpat_lane.
  apply (ma_is o c99 binary64); [right; left; reflexivity|apply (pat_range F64)..].
Qed.
Lemma p_muladd16_lane o c99 e a b c : fvector16 (p_muladd16 o c99 e a b c) (fun i x => x = native_ma o binary32 (apattern16 a i) (apattern16 b i) (apattern16 c i)).
Proof.
  assert (P : pair64f e F32 = false) by (destruct e; reflexivity). pose proof (p_muladd_maps o c99 e F32) as M. rewrite P in M.
  pose proof (map3_16_ok _ _ a b c M) as K. destruct o; exact K.
Qed.
Theorem C115_f16 o c99 e a b c : fvector16 (p_muladd16 o c99 e a b c) (fun i r => muladd_is o binary32 (fvalue16 a i) (fvalue16 b i) (fvalue16 c i) r).
Proof.
  destruct (p_muladd16_lane o c99 e a b c) as (H & L). split; [exact H|]. intros i Hi. rewrite L by exact Hi. apply (native_ma_is o binary32); [left; reflexivity|apply apat_rng; lia..].
Qed.
(** f16, load, operate, store: the number of the scalar operator; -0 instead of +0 when fnma or fnms cancel. *)
Lemma cancels_widen v w x : cancels binary32 (widen v) (widen w) (widen x) <-> cancels binary16 v w x.
Proof.
  destruct v as [|s|s m]; [reflexivity|reflexivity|]. destruct w as [|s'|s' m']; [reflexivity|reflexivity|]. destruct x as [|s''|s'' m'']; [reflexivity|reflexivity|].
  cbn [widen cancels]. change (one binary32) with (2 ^ 149). change (one binary16) with (2 ^ 24).
  assert (E : sval (xorb s s') (m * 2 ^ 125 * (m' * 2 ^ 125)) + sval s'' (m'' * 2 ^ 125 * 2 ^ 149) = (sval (xorb s s') (m * m') + sval s'' (m'' * 2 ^ 24)) * 2 ^ 250).
  { change (2 ^ 149) with (2 ^ 24 * 2 ^ 125). change (2 ^ 250) with (2 ^ 125 * 2 ^ 125). generalize (2 ^ 125). intros k. destruct (xorb s s'), s''; cbn [sval]; ring. }
  rewrite E. split; intros [A B]; (split; [|exact B]); [|rewrite A; reflexivity]. apply Z.mul_eq_0 in A as [A|A]; [exact A|discriminate A].
Qed.
Lemma factor_widen o v : widen (factor o v) = factor o (widen v). Proof. destruct o, v; reflexivity. Qed.
Lemma addend_widen o v : widen (addend o v) = addend o (widen v). Proof. destruct o, v; reflexivity. Qed.
Theorem C115_f16_memory o c99 c99' e m pa pb pc pd :
  (forall i, 0 <= i < 8 -> mapped 16 m (pa + i * 2) /\ mapped 16 m (pb + i * 2) /\ mapped 16 m (pc + i * 2) /\ mapped 16 m (pd + i * 2)) ->
  exists va vb vc m', p_load16 m pa = Some va /\ p_load16 m pb = Some vb /\ p_load16 m pc = Some vc /\ p_store16 m pd (p_muladd16 o c99 e va vb vc) = Some m' /\
  forall i, 0 <= i < 8 -> exists h h' h'' r r', holds 16 m (pa + i * 2) h /\ holds 16 m (pb + i * 2) h' /\ holds 16 m (pc + i * 2) h'' /\ holds 16 m' (pd + i * 2) r /\
    s_muladd o c99' F16 h h' h'' = Some r' /\
    let cancel := cancels binary16 (factor o (decode binary16 h)) (decode binary16 h') (addend o (decode binary16 h'')) in
    (negates o = false \/ ~ cancel -> same_number binary16 r r') /\ (negates o = true -> cancel -> r = 0x8000 /\ r' = 0).
Proof.
  intros M. destruct (p_load16_ok m pa) as (va & Ea & Ra & La); [intros i Hi; apply M, Hi|]. destruct (p_load16_ok m pb) as (vb & Eb & Rb & Lb); [intros i Hi; apply M, Hi|]. destruct (p_load16_ok m pc) as (vc & Ec & Rc & Lc); [intros i Hi; apply M, Hi|].
  destruct (p_muladd16_lane o c99 e va vb vc) as (H & L). destruct (C78_store_f16 m pd (p_muladd16 o c99 e va vb vc) H) as (m' & Es & Ls & Lu); [intros i Hi; apply M, Hi|].
  exists va, vb, vc, m'. split; [exact Ea|]. split; [exact Eb|]. split; [exact Ec|]. split; [exact Es|]. intros i Hi.
  destruct (La i Hi) as (h & Hh & (Ch & Dh)). destruct (Lb i Hi) as (h' & Hh' & (Ch' & Dh')). destruct (Lc i Hi) as (h'' & Hh'' & (Ch'' & Dh'')). specialize (L i Hi).
  pose proof (fun v => apat_rng v i ltac:(lia)) as R. set (x := apattern16 va i) in *. set (y := apattern16 vb i) in *. set (z := apattern16 vc i) in *.
  assert (S : s_muladd o true F16 h h' h'' = Some (f32_to_u16 (ma o true binary32 x y z))).
  { replace (s_muladd o true) with (opnum3 (ma o true)) by (destruct o; reflexivity). unfold opnum3. rewrite Ch, Ch', Ch''. reflexivity. }
  assert (U : s_muladd o c99' F16 h h' h'' = s_muladd o true F16 h h' h'').
  { pose proof (C90_f16_standards o h h' h'' (proj1 Hh) (proj1 Hh') (proj1 Hh'') : s_muladd o false F16 h h' h'' = s_muladd o true F16 h h' h'') as Q. destruct c99'; congruence. }
  exists h, h', h'', (f32_to_u16 (native_ma o binary32 x y z)), (f32_to_u16 (ma o true binary32 x y z)).
  split; [exact Hh|]. split; [exact Hh'|]. split; [exact Hh''|]. split; [rewrite <- L; exact (Ls i Hi)|]. split; [rewrite U; exact S|].
  assert (G : good_fmt binary32) by (left; reflexivity).
  destruct (native_ma_is o binary32 x y z G (R va) (R vb) (R vc)) as (Rn & Fn). destruct (ma_is o true binary32 x y z G (R va) (R vb) (R vc)) as (Rm & Fm).
  assert (K : cancels binary32 (factor o (decode binary32 x)) (decode binary32 y) (addend o (decode binary32 z)) <->
    cancels binary16 (factor o (decode binary16 h)) (decode binary16 h') (addend o (decode binary16 h''))).
  { rewrite <- cancels_widen. rewrite factor_widen, addend_widen. rewrite Dh, Dh', Dh''. reflexivity. }
  cbv zeta. split.
  - intros N. apply same_half; [exact Rn|exact Rm|]. eapply fused_unique; [exact G|exact Rn|exact Rm| |exact Fm].
    destruct o; cbn [negates] in N; cbn [muladd_is] in Fn; try exact Fn; (destruct N as [N|N]; [discriminate N|]); apply (proj1 Fn); rewrite K; exact N.
  - intros N C. rewrite <- K in C. assert (Z1 : zero binary32 true (native_ma o binary32 x y z)) by (destruct o; try discriminate N; exact (proj2 Fn C)).
    assert (Z2 : zero binary32 false (ma o true binary32 x y z)).
    { clear - Fm C. destruct (factor o (decode binary32 x)) as [|s1|s1 m1], (decode binary32 y) as [|s2|s2 m2], (addend o (decode binary32 z)) as [|s3|s3 m3]; try contradiction.
      cbn [cancels] in C. cbn [fused_is] in Fm. destruct C as [C1 C2]. rewrite C1 in Fm. cbv zeta in Fm. replace (0 =? 0) with true in Fm by reflexivity. destruct (xorb s1 s2), s3; try (exfalso; apply C2; reflexivity); exact Fm. }
    unfold zero in Z1, Z2.
    assert (P1 : native_ma o binary32 x y z = 2 ^ 31).
    { apply (decode_inj binary32 _ _ true 0 G Rn); [vm_compute; split; congruence|exact Z1|vm_compute; reflexivity]. }
    assert (P2 : ma o true binary32 x y z = 0).
    { apply (decode_inj binary32 _ _ false 0 G Rm); [vm_compute; split; congruence|exact Z2|vm_compute; reflexivity]. }
    rewrite P1, P2. split; vm_compute; reflexivity.
Qed.
(** 1 - 1 * 1 is -0 where IEEE 754, the scalar operator and AArch64 give +0. *)
Theorem C115_fnma_refuted : ~ (forall o c99 e t a b c i, 0 <= i < 128 / fw t -> in_reg 128 a -> in_reg 128 b -> in_reg 128 c ->
  fused_is (ff t) (factor o (fvalue t a i)) (fvalue t b i) (addend o (fvalue t c i)) (fpat t (p_muladd o c99 e t a b c) i)).
Proof.
  intros H. specialize (H Fnma true Vsx F32 0x3F800000 0x3F800000 0x3F800000 0). unfold in_reg in H. specialize (H ltac:(cbn; lia) ltac:(lia) ltac:(lia) ltac:(lia)). vm_compute in H. discriminate H.
Qed.
Theorem C115_portable_refuted : ~ (forall o c99 u t a b c i, t <> F16 -> 0 <= i < 128 / fw t -> in_reg 128 a -> in_reg 128 b -> in_reg 128 c ->
  fvalue t (p_muladd o c99 Vsx t a b c) i = fvalue t (a_muladd o u c99 Aarch64 t a b c) i).
Proof.
  intros H. specialize (H Fnma true 0 F64 0 0 0 0 ltac:(discriminate)). unfold in_reg in H. specialize (H ltac:(cbn; lia) ltac:(lia) ltac:(lia) ltac:(lia)). vm_compute in H. discriminate H.
Qed.
Print Assumptions C115_native. Print Assumptions C115_vmx_f64. Print Assumptions C115_f16. Print Assumptions C115_f16_memory. Print Assumptions C115_fnma_refuted. Print Assumptions C115_portable_refuted.
(** 2 * 3 - 1, - 2 * 3 - 1, 7 - 2 * 3, 6 - 2 * 3 *)
Example C115_ex : fpat F32 (p_fmsf true Vmx F32 0x40000000 0x40400000 0x3F800000) 0 = 0x40A00000 /\ fpat F32 (p_fnmsf true Vsx F32 0x40000000 0x40400000 0x3F800000) 0 = 0xC0E00000 /\
  fpat F32 (p_fnmaf true Vsx F32 0x40000000 0x40400000 0x40E00000) 0 = 0x3F800000 /\ fpat F32 (p_fnmaf true Vsx F32 0x40000000 0x40400000 0x40C00000) 0 = 0x80000000 /\
  ~ vmx_double Vsx F64 /\ cancels binary32 (factor Fnma (decode binary32 0x40000000)) (decode binary32 0x40400000) (addend Fnma (decode binary32 0x40C00000)).
Proof. vm_compute. repeat split; try (intros [? ?]; discriminate). discriminate. Qed.
