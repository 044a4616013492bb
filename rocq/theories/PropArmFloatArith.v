(** C94 and C95: arithmetic of the ARM back ends on float and f16 vectors.
    [fvector e t r P]: register [r] of extension [e] satisfies [P i p] for the
    pattern [p] of each element [i]; [fvalue t r i] is the value of element
    [i].  [u] holds the lanes that an instruction leaves unspecified. *)
From Coq Require Import ZArith Bool Lia ZifyBool List.
From Verif Require Import CInt FloatSpec Fp16 Fp16Spec Fp16Proofs ScalarOps RoundEven X86Deg234 X86Arith X86ArithSpec X86LaneLemmas X86Mem X86MemSpec X86Cvt X86CvtSpec FloatProofs X86CvtProofs2 X86CvtProofs4 X86Float X86FloatSpec X86FloatProofs2.
From Verif Require Import Arm ArmSpec ArmPermSpec ArmProofs ArmProofs2 ArmMem PropArmMem ArmFloat ArmFloatSpec ArmFloatProofs ArmFloatProofs2 ArmFloatProofs3.
From Verif Require Import FloatArith FloatArithSpec FloatArithProofs FloatArithProofs2 FloatArithProofs6 ScalarFloat FloatArithProofs7 FloatArithProofs8 FloatArithProofs9 PropFloatArith X86FloatArith ArmFloatArith FloatVecSpec FloatVecOps FloatVecProofs FloatVecProofs2.
Local Open Scope Z_scope.

(** ** C94 *)
(** f32 and f64 everywhere, native f16 vectors of SVE and of AArch64 with NSIMD_ARM_FP16. *)
Theorem C94_arith u o e t a b : fvector e t (a_arith o u e t a b) (fun i r => result_is o (ff t) (fvalue t a i) (fvalue t b i) r).
Proof.
  destruct (a_arith_maps u o e t a b) as (H & L). split; [exact H|]. intros i Hi. rewrite fpat_lane. rewrite L by exact Hi. unfold fvalue. rewrite !fpat_lane.
  apply fop_is; [apply ff_good|apply pat_range|apply pat_range].
Qed.
Theorem C94_sqrt u c99 e t a : (e = Neon128 -> t <> F16) -> fvector e t (a_sqrtf u c99 e t a) (fun i r => root_is (ff t) (fvalue t a i) r).
Proof.
  intros _. destruct (a_sqrt_maps u c99 e t a) as (H & L). split; [exact H|]. intros i Hi. rewrite fpat_lane. rewrite L by exact Hi. unfold fvalue. rewrite !fpat_lane.
  apply asqrt_is. rewrite <- fpat_lane. apply fpat_rng.
Qed.
(** rec and rec11 *)
Theorem C94_rec u e t a : fvector e t (a_recf u e t a) (fun i r => inverse_is (ff t) (fvalue t a i) r) /\ fvector e t (a_rec11f u e t a) (fun i r => inverse_is (ff t) (fvalue t a i) r).
Proof.
  assert (K : fvector e t (a_recf u e t a) (fun i r => inverse_is (ff t) (fvalue t a i) r)); [|split; exact K].
  destruct (a_over_maps u e t a) as (H & L). split; [exact H|]. intros i Hi. rewrite fpat_lane. unfold a_recf. rewrite L by exact Hi. unfold fvalue. rewrite !fpat_lane.
  apply inverse_ok; [apply ff_good|apply pat_range].
Qed.
Theorem C94_rsqrt11 u c99 e t a : (e = Neon128 -> t <> F16) -> fvector e t (a_rsqrt11f u c99 e t a) (fun i r => inverse_root (ff t) (fvalue t a i) r).
Proof.
  intros T. destruct (C94_rec u e t (a_sqrtf u c99 e t a)) as ((H & L) & _). destruct (C94_sqrt u c99 e t a T) as (_ & S). split; [exact H|]. intros i Hi.
  exists (fpat t (a_sqrtf u c99 e t a) i). split; [rewrite ff_width; apply fpat_rng|]. split; [exact (S i Hi)|exact (L i Hi)].
Qed.
(** f16 vectors of NEON without NSIMD_ARM_FP16 are two registers of singles. *)
Theorem C94_arith_f16 u o e a b : is_neon e = true -> fvector16 (a_arith16 o u e a b) (fun i r => result_is o binary32 (fvalue16 a i) (fvalue16 b i) r).
Proof.
  intros N. destruct (a_arith16_lane e N u o a b) as (H & L). split; [exact H|]. intros i Hi. rewrite L by exact Hi. apply (fop_is o binary32); [left; reflexivity|apply apat_rng; lia|apply apat_rng; lia].
Qed.
Theorem C94_sqrt_f16 u c99 e a : is_neon e = true -> fvector16 (a_sqrt16 u c99 e a) (fun i r => root_is binary32 (fvalue16 a i) r).
Proof.
  intros N. destruct (a_sqrt16_lane e N u c99 a) as (H & L). split; [exact H|]. intros i Hi. rewrite L by exact Hi. apply (asqrt_is c99 e F32). apply apat_rng; lia.
Qed.
Theorem C94_rec_f16 u e a : is_neon e = true -> exists r, a_rec16 u e a = Some r /\ fvector16 r (fun i x => inverse_is binary32 (fvalue16 a i) x).
Proof.
  intros N. destruct (a_rec16_lane e N u a) as (r & E & H & L). exists r. split; [exact E|]. split; [exact H|]. intros i Hi. rewrite L by exact Hi. apply inverse_ok; [left; reflexivity|apply apat_rng; lia].
Qed.
Theorem C94_rsqrt_f16 u c99 e a : is_neon e = true -> exists r, a_rsqrt16 u c99 e a = Some r /\ fvector16 r (fun i x => inverse_root binary32 (fvalue16 a i) x).
Proof.
  intros N. destruct (C94_rec_f16 u e (a_sqrt16 u c99 e a) N) as (r & E & H & L). exists r. split; [exact E|]. split; [exact H|]. intros i Hi.
  exists (apattern16 (a_sqrt16 u c99 e a) i). split; [apply apat_rng; lia|]. split; [exact (proj2 (C94_sqrt_f16 u c99 e a N) i Hi)|exact (L i Hi)].
Qed.
(** Load, operate, store: each half written is the correctly rounded half, and the one the scalar operator gives. *)
Theorem C94_f16_memory u o e m pa pb pc : is_neon e = true ->
  (forall i, 0 <= i < 8 -> mapped 16 m (pa + i * 2) /\ mapped 16 m (pb + i * 2) /\ mapped 16 m (pc + i * 2)) ->
  exists va vb m', a_load16 m pa = Some va /\ a_load16 m pb = Some vb /\ a_store16 m pc (a_arith16 o u e va vb) = Some m' /\
  (forall x, x < pc \/ pc + 16 <= x -> m' x = m x) /\
  forall i, 0 <= i < 8 -> exists h h' r, holds 16 m (pa + i * 2) h /\ holds 16 m (pb + i * 2) h' /\ holds 16 m' (pc + i * 2) r /\
    result_is o binary16 (decode binary16 h) (decode binary16 h') r /\ s_arith o F16 h h' = Some r.
Proof.
  intros N M. destruct (C78_load_f16 m pa) as (va & Ea & Ra & La); [intros i Hi; apply M, Hi|]. destruct (C78_load_f16 m pb) as (vb & Eb & Rb & Lb); [intros i Hi; apply M, Hi|].
  destruct (a_arith16_lane e N u o va vb) as (H & L). destruct (C78_store_f16 m pc (a_arith16 o u e va vb) H) as (m' & Es & Ls & Lu); [intros i Hi; apply M, Hi|].
  exists va, vb, m'. split; [exact Ea|]. split; [exact Eb|]. split; [exact Es|]. split; [exact Lu|]. intros i Hi.
  destruct (La i Hi) as (h & Hh & (Ch & _)). destruct (Lb i Hi) as (h' & Hh' & (Ch' & _)). exists h, h', (f32_to_u16 (fop o binary32 (apattern16 va i) (apattern16 vb i))).
  split; [exact Hh|]. split; [exact Hh'|]. split; [rewrite <- L by exact Hi; exact (Ls i Hi)|].
  assert (S : s_arith o F16 h h' = Some (f32_to_u16 (fop o binary32 (apattern16 va i) (apattern16 vb i)))).
  { replace (s_arith o) with (opnum2 (fop o)) by (destruct o; reflexivity). unfold opnum2. rewrite Ch, Ch'. reflexivity. }
  split; [|exact S]. pose proof (proj1 Hh) as R. pose proof (proj1 Hh') as R'.
  assert (T : exists r, s_arith o F16 h h' = Some r /\ result_is o binary16 (decode binary16 h) (decode binary16 h') r).
  { destruct o; [destruct (sf_add_is F16 h h' R R') as (r & E & _ & G)|destruct (sf_sub_is F16 h h' R R') as (r & E & _ & G)|destruct (sf_mul_is F16 h h' R R') as (r & E & _ & G)|destruct (sf_div_is F16 h h' R R') as (r & E & _ & G)]; exists r; split; assumption. }
  destruct T as (r & E & G). rewrite S in E. injection E as <-. exact G.
Qed.
Theorem C94_f16_sqrt_memory u c99 e m pa pc : is_neon e = true -> (forall i, 0 <= i < 8 -> mapped 16 m (pa + i * 2) /\ mapped 16 m (pc + i * 2)) ->
  exists va m', a_load16 m pa = Some va /\ a_store16 m pc (a_sqrt16 u c99 e va) = Some m' /\
  forall i, 0 <= i < 8 -> exists h r, holds 16 m (pa + i * 2) h /\ holds 16 m' (pc + i * 2) r /\ root_is binary16 (decode binary16 h) r.
Proof.
  intros N M. destruct (C78_load_f16 m pa) as (va & Ea & Ra & La); [intros i Hi; apply M, Hi|]. destruct (a_sqrt16_lane e N u c99 va) as (H & L).
  destruct (C78_store_f16 m pc (a_sqrt16 u c99 e va) H) as (m' & Es & Ls & Lu); [intros i Hi; apply M, Hi|].
  exists va, m'. split; [exact Ea|]. split; [exact Es|]. intros i Hi. destruct (La i Hi) as (h & Hh & (Ch & _)). exists h, (f32_to_u16 (asqrt c99 e F32 (apattern16 va i))).
  split; [exact Hh|]. split; [rewrite <- L by exact Hi; exact (Ls i Hi)|].
  assert (K : exists c, asqrt c99 e F32 (apattern16 va i) = libm1_f32 c fsqrt (apattern16 va i)). { destruct e; [exists c99; reflexivity|exists true; reflexivity|discriminate N]. }
  destruct K as (c & ->). destruct (sf_sqrt_is c F16 h (proj1 Hh)) as (r & E & _ & G).
  assert (S : sf_sqrt c F16 h = Some (f32_to_u16 (libm1_f32 c fsqrt (apattern16 va i)))). { unfold sf_sqrt, libm1. rewrite Ch. reflexivity. }
  rewrite S in E. injection E as <-. exact G.
Qed.
Print Assumptions C94_arith. Print Assumptions C94_sqrt. Print Assumptions C94_rec. Print Assumptions C94_rsqrt11. Print Assumptions C94_arith_f16. Print Assumptions C94_sqrt_f16. Print Assumptions C94_rec_f16.
Print Assumptions C94_rsqrt_f16. Print Assumptions C94_f16_memory. Print Assumptions C94_f16_sqrt_memory.
(** 3 / 7 in f32 on NEON and in f16 on SVE, 1 / sqrt 4. *)
Example C94_ex : fpat F32 (a_divf 0 Aarch64 F32 (1077936128 * 2 ^ 32) (1088421888 * 2 ^ 32)) 1 = 0x3EDB6DB7 /\ fpat F16 (a_divf 0 (Sve false 2) F16 0x4200 0x4700) 0 = 0x36DB /\
  fpat F64 (a_rsqrt11f 0 true Neon128 F64 (0x4010000000000000 * 2 ^ 64)) 1 = 0x3FE0000000000000.
Proof. vm_compute. auto. Qed.

(** ** C95 *)
(** AArch64 and SVE round once on f32 and f64, SVE on f16 as well; so does NEON on f64 if the build is C99. *)
Definition fused_vector (c99 : bool) (e : aext) (t : fty) : Prop :=
  match e, t with Sve _ _, _ => True | Aarch64, F16 => False | Aarch64, _ => True | Neon128, F64 => c99 = true | Neon128, _ => False end.
Theorem C95_fused u o c99 e t a b c : fused_vector c99 e t ->
  fvector e t (a_muladd o u c99 e t a b c) (fun i r => fused_is (ff t) (factor o (fvalue t a i)) (fvalue t b i) (addend o (fvalue t c i)) r).
Proof.
  intros F. assert (N : not16 e t = true) by (destruct e, t; cbn in *; tauto). destruct (a_muladd_lane u o c99 e t a b c N) as (H & L). split; [exact H|]. intros i Hi. specialize (L i Hi).
  replace (once c99 e t) with true in L by (destruct e, t; cbn in *; congruence || tauto). exact (proj2 L).
Qed.
(** NEON rounds twice on f32, and on f64 in C89. *)
Theorem C95_unfused u o c99 t a b c : t = F32 \/ (t = F64 /\ c99 = false) ->
  fvector Neon128 t (a_muladd o u c99 Neon128 t a b c) (fun i r => twice_rounded (ff t) (factor o (fvalue t a i)) (fvalue t b i) (addend o (fvalue t c i)) r).
Proof.
  intros F. assert (N : not16 Neon128 t = true) by (destruct F as [->|(-> & _)]; reflexivity). destruct (a_muladd_lane u o c99 Neon128 t a b c N) as (H & L). split; [exact H|]. intros i Hi. specialize (L i Hi).
  replace (once c99 Neon128 t) with false in L by (destruct F as [->|(-> & ->)]; reflexivity). exact (proj2 L).
Qed.
(** Native f16 on AArch64: fused in single precision, then converted; the nearest half unless that single is the
    middle of two halves. *)
Lemma a16_fma u c99 a b c : a_fmaf u c99 Aarch64 F16 a b c = v_3 16 (fun x y z => lane16 (sf_fma c99 F16 x y z)) a b c. Proof. reflexivity. Qed.
Lemma a16_fnma u c99 a b c : a_fnmaf u c99 Aarch64 F16 a b c = v_3 16 (fun x y z => lane16 (sf_fnma c99 F16 x y z)) a b c. Proof. reflexivity. Qed.
Lemma a16_muladd u o c99 a b c : o = Fma \/ o = Fnma -> a_muladd o u c99 Aarch64 F16 a b c = v_3 16 (fun x y z => lane16 (s_muladd o c99 F16 x y z)) a b c.
Proof. intros [->| ->]; [exact (a16_fma u c99 a b c)|exact (a16_fnma u c99 a b c)]. Qed.
Lemma s16_some o c99 x y z : 0 <= x < 2 ^ 16 -> 0 <= y < 2 ^ 16 -> 0 <= z < 2 ^ 16 -> exists r, s_muladd o c99 F16 x y z = Some r /\ 0 <= r < 2 ^ 16.
Proof. intros Hx Hy Hz. destruct (C90_f16 o c99 x y z Hx Hy Hz) as (r & w & E & R & _). exists r. split; [exact E|exact R]. Qed.
Lemma s16_is o c99 x y z r : 0 <= x < 2 ^ 16 -> 0 <= y < 2 ^ 16 -> 0 <= z < 2 ^ 16 -> s_muladd o c99 F16 x y z = Some r ->
  exists w, fused_in_single (factor o (decode binary16 x)) (decode binary16 y) (addend o (decode binary16 z)) w r /\
    (~ between_halves w -> fused_is binary16 (factor o (decode binary16 x)) (decode binary16 y) (addend o (decode binary16 z)) r).
Proof.
  intros Hx Hy Hz S. destruct (C90_f16 o c99 x y z Hx Hy Hz) as (r' & w & E & R & F & B). assert (E' : Some r = Some r') by (rewrite <- S; exact E). injection E' as ->. exists w. split; [exact F|exact B].
Qed.
Lemma a16_fma_lane u o c99 a b c : o = Fma \/ o = Fnma ->
  fvector Aarch64 F16 (a_muladd o u c99 Aarch64 F16 a b c) (fun i r => s_muladd o c99 F16 (fpat F16 a i) (fpat F16 b i) (fpat F16 c i) = Some r).
Proof.
  intros O. rewrite a16_muladd by exact O. apply (maps3_all Aarch64 F16 (fun x y z => lane16 (s_muladd o c99 F16 x y z)) (fun x y z r => s_muladd o c99 F16 x y z = Some r) a b c).
  - apply (v_3_maps Aarch64 F16); [reflexivity|]. intros x y z Hx Hy Hz. destruct (s16_some o c99 x y z Hx Hy Hz) as (r & E & R). rewrite E. exact R.
  - intros x y z Hx Hy Hz. destruct (s16_some o c99 x y z Hx Hy Hz) as (r & E & R). rewrite E. reflexivity.
Qed.
Lemma a16_fms u c99 a b c : a_muladd Fms u c99 Aarch64 F16 a b c = a_muladd Fma u c99 Aarch64 F16 a b (a_negf u Aarch64 F16 c).
Proof. unfold a_muladd, a_fmsf. reflexivity. Qed.
Lemma a16_fnms u c99 a b c : a_muladd Fnms u c99 Aarch64 F16 a b c = a_muladd Fnma u c99 Aarch64 F16 a b (a_negf u Aarch64 F16 c).
Proof. unfold a_muladd, a_fnmsf. reflexivity. Qed.
Theorem C95_f16_aarch64 u o c99 a b c : fvector Aarch64 F16 (a_muladd o u c99 Aarch64 F16 a b c) (fun i r =>
  let v := factor o (fvalue F16 a i) in let w := fvalue F16 b i in let x := addend o (fvalue F16 c i) in
  exists y, fused_in_single v w x y r /\ (~ between_halves y -> fused_is binary16 v w x r)).
Proof.
  assert (K : forall o c, o = Fma \/ o = Fnma -> fvector Aarch64 F16 (a_muladd o u c99 Aarch64 F16 a b c) (fun i r =>
    let v := factor o (fvalue F16 a i) in let w := fvalue F16 b i in let x := addend o (fvalue F16 c i) in
    exists y, fused_in_single v w x y r /\ (~ between_halves y -> fused_is binary16 v w x r))).
  { intros o' c' O. destruct (a16_fma_lane u o' c99 a b c' O) as (H & L). split; [exact H|]. intros i Hi. specialize (L i Hi).
    exact (s16_is o' c99 _ _ _ _ (fpat_rng F16 a i) (fpat_rng F16 b i) (fpat_rng F16 c' i) L). }
  assert (Zn : forall i, 0 <= i < felems Aarch64 F16 -> fvalue F16 (a_negf u Aarch64 F16 c) i = minus (fvalue F16 c i)).
  { intros i Hi. unfold fvalue. rewrite a_neg_lane by exact Hi. apply (fopp_minus binary16); [right; right; reflexivity|exact (fpat_rng F16 c i)]. }
  destruct o; [apply K; auto| |apply K; auto|].
  - rewrite a16_fms.
    destruct (K Fma (a_negf u Aarch64 F16 c)) as (H & L); [auto|]. split; [exact H|]. intros i Hi. specialize (L i Hi). revert L. generalize (fpat F16 (a_muladd Fma u c99 Aarch64 F16 a b (a_negf u Aarch64 F16 c)) i). intros r.
    cbv zeta. cbn [factor addend]. rewrite (Zn i Hi). exact (fun L => L).
  - rewrite a16_fnms.
    destruct (K Fnma (a_negf u Aarch64 F16 c)) as (H & L); [auto|]. split; [exact H|]. intros i Hi. specialize (L i Hi). revert L. generalize (fpat F16 (a_muladd Fnma u c99 Aarch64 F16 a b (a_negf u Aarch64 F16 c)) i). intros r.
    cbv zeta. cbn [factor addend]. rewrite (Zn i Hi). exact (fun L => L).
Qed.
(** f16 as two registers of singles: rounded as f32; load, operate, store gives the number the scalar operator gives. *)
Theorem C95_f16 u o c99 e a b c : is_neon e = true -> fvector16 (a_muladd16 o u c99 e a b c) (fun i r =>
  match e with
  | Neon128 => twice_rounded binary32 (factor o (fvalue16 a i)) (fvalue16 b i) (addend o (fvalue16 c i)) r
  | _ => fused_is binary32 (factor o (fvalue16 a i)) (fvalue16 b i) (addend o (fvalue16 c i)) r
  end).
Proof.
  intros N. destruct (a_muladd16_lane e N u o c99 a b c) as (H & L). split; [exact H|]. intros i Hi. specialize (L i Hi). destruct e; exact (proj2 L).
Qed.
Theorem C95_f16_memory u o c99 c99' e m pa pb pc pd : is_neon e = true ->
  (forall i, 0 <= i < 8 -> mapped 16 m (pa + i * 2) /\ mapped 16 m (pb + i * 2) /\ mapped 16 m (pc + i * 2) /\ mapped 16 m (pd + i * 2)) ->
  exists va vb vc m', a_load16 m pa = Some va /\ a_load16 m pb = Some vb /\ a_load16 m pc = Some vc /\ a_store16 m pd (a_muladd16 o u c99 e va vb vc) = Some m' /\
  forall i, 0 <= i < 8 -> exists h h' h'' r r', holds 16 m (pa + i * 2) h /\ holds 16 m (pb + i * 2) h' /\ holds 16 m (pc + i * 2) h'' /\ holds 16 m' (pd + i * 2) r /\
    s_muladd o c99' F16 h h' h'' = Some r' /\ same_number binary16 r r'.
Proof.
  intros N M. destruct (C78_load_f16 m pa) as (va & Ea & Ra & La); [intros i Hi; apply M, Hi|]. destruct (C78_load_f16 m pb) as (vb & Eb & Rb & Lb); [intros i Hi; apply M, Hi|]. destruct (C78_load_f16 m pc) as (vc & Ec & Rc & Lc); [intros i Hi; apply M, Hi|].
  destruct (a_muladd16_lane e N u o c99 va vb vc) as (H & L). destruct (C78_store_f16 m pd (a_muladd16 o u c99 e va vb vc) H) as (m' & Es & Ls & Lu); [intros i Hi; apply M, Hi|].
  exists va, vb, vc, m'. split; [exact Ea|]. split; [exact Eb|]. split; [exact Ec|]. split; [exact Es|]. intros i Hi.
  destruct (La i Hi) as (h & Hh & (Ch & _)). destruct (Lb i Hi) as (h' & Hh' & (Ch' & _)). destruct (Lc i Hi) as (h'' & Hh'' & (Ch'' & _)). specialize (L i Hi).
  assert (S : forall c, s_muladd o c F16 h h' h'' = Some (f32_to_u16 (ma o c binary32 (apattern16 va i) (apattern16 vb i) (apattern16 vc i)))).
  { intros c. replace (s_muladd o c) with (opnum3 (ma o c)) by (destruct o; reflexivity). unfold opnum3. rewrite Ch, Ch', Ch''. reflexivity. }
  assert (U : forall x y, s_muladd o x F16 h h' h'' = s_muladd o y F16 h h' h'').
  { pose proof (C90_f16_standards o h h' h'' (proj1 Hh) (proj1 Hh') (proj1 Hh'') : s_muladd o false F16 h h' h'' = s_muladd o true F16 h h' h'') as Q. intros [|] [|]; congruence. }
  pose proof (fun v => apat_rng v i ltac:(lia)) as R. set (k := once c99 e F32) in *.
  exists h, h', h'', (f32_to_u16 (apattern16 (a_muladd16 o u c99 e va vb vc) i)), (f32_to_u16 (ma o k binary32 (apattern16 va i) (apattern16 vb i) (apattern16 vc i))).
  split; [exact Hh|]. split; [exact Hh'|]. split; [exact Hh''|]. split; [exact (Ls i Hi)|]. split; [rewrite (U c99' k); apply S|].
  pose proof (ma_ok o k F32 _ _ _ (R va) (R vb) (R vc)) as A. apply same_half; [apply R|exact (proj1 A)|]. exact (muladd_unique o k F32 _ _ _ _ _ L A).
Qed.
(** So the same program gives different numbers on neon128 and aarch64 (f32), on AArch64 and SVE (f16). *)
Theorem C95_agree_refuted : ~ (forall u o c99 e e' t a b c, e <> Neon128 \/ t <> F16 -> e' <> Neon128 \/ t <> F16 -> in_reg 128 a -> in_reg 128 b -> in_reg 128 c ->
  fvalue t (a_muladd o u c99 e t a b c) 0 = fvalue t (a_muladd o u c99 e' t a b c) 0).
Proof.
  intros H. specialize (H 0 Fms true Neon128 Aarch64 F32 1065353217 1065353217 1065353218). unfold in_reg in H.
  specialize (H ltac:(right; discriminate) ltac:(right; discriminate) ltac:(lia) ltac:(lia) ltac:(lia)). vm_compute in H. discriminate H.
Qed.
Theorem C95_agree_f16_refuted : ~ (forall u o c99 q a b c, in_reg 128 a -> in_reg 128 b -> in_reg 128 c ->
  fvalue F16 (a_muladd o u c99 Aarch64 F16 a b c) 0 = fvalue F16 (a_muladd o u c99 (Sve false q) F16 a b c) 0).
Proof.
  intros H. specialize (H 0 Fma true 1%positive 0x3C01 0x0FFE 0x3C01). unfold in_reg in H. specialize (H ltac:(lia) ltac:(lia) ltac:(lia)). vm_compute in H. discriminate H.
Qed.
Print Assumptions C95_fused. Print Assumptions C95_unfused. Print Assumptions C95_f16_aarch64. Print Assumptions C95_f16. Print Assumptions C95_f16_memory. Print Assumptions C95_agree_refuted. Print Assumptions C95_agree_f16_refuted.
(** 2 * 3 - 1 and - 2 * 3 - 1 *)
Example C95_ex : fpat F32 (a_fmsf 0 true Neon128 F32 0x40000000 0x40400000 0x3F800000) 0 = 0x40A00000 /\ fpat F32 (a_fnmsf 0 true (Sve true 1) F32 0x40000000 0x40400000 0x3F800000) 0 = 0xC0E00000 /\
  fpat F16 (a_fnmaf 0 false Aarch64 F16 0x4000 0x4200 0x3C00) 0 = 0xC500.
Proof. vm_compute. auto. Qed.
