(** C92 and C93: arithmetic of the x86 back ends on float and f16 vectors.
    [vectorf e t r P]: register [r] of extension [e] satisfies [P i p] for the
    pattern [p] of each element [i]; [value t r i] is the value of element [i]. *)
From Coq Require Import ZArith Bool Lia ZifyBool List.
From Verif Require Import CInt FloatSpec Fp16 Fp16Spec Fp16Proofs ScalarOps RoundEven X86Deg234 X86Arith X86ArithSpec X86LaneLemmas X86Mem X86MemSpec X86MemProofs2 X86Cvt X86CvtSpec FloatProofs X86CvtProofs2 X86CvtProofs4 X86Float X86FloatSpec X86FloatProofs X86FloatProofs2 X86FloatProofs4 PropX86Mem ArmFloat ArmFloatSpec.
From Verif Require Import FloatArith FloatArithSpec FloatArithProofs FloatArithProofs2 FloatArithProofs6 ScalarFloat FloatArithProofs7 FloatArithProofs8 FloatArithProofs9 X86FloatArith FloatVecSpec FloatVecOps FloatVecProofs.
Local Open Scope Z_scope.

(** ** C92 *)
Theorem C92_arith o e t a b : is_float t = true ->
  vectorf e t (x_arith o e t a b) (fun i r => result_is o (format t) (value t a i) (value t b i) r).
Proof.
  intros F. destruct (x_arith_lane e t F o a b) as (H & L). split; [exact H|]. intros i Hi. rewrite L by exact Hi.
  pose proof (pat_rng e t F) as R. rewrite <- (mfmt_width t F) in R. apply (fop_is o (mfmt t)); [apply mfmt_good|apply R|apply R].
Qed.
Theorem C92_saturated e t a b : is_float t = true ->
  vectorf e t (x_addsf e t a b) (fun i r => sum_is (format t) (value t a i) (value t b i) r) /\
  vectorf e t (x_subsf e t a b) (fun i r => difference_is (format t) (value t a i) (value t b i) r).
Proof. intros F. split; [exact (C92_arith Add e t a b F)|exact (C92_arith Sub e t a b F)]. Qed.
Theorem C92_sqrt e t a : is_float t = true ->
  vectorf e t (x_sqrtf e t a) (fun i r => root_is (format t) (value t a i) r).
Proof.
  intros F. destruct (x_sqrt_lane e t F a) as (H & L). split; [exact H|]. intros i Hi. rewrite L by exact Hi.
  pose proof (pat_rng e t F a i) as R. rewrite <- (mfmt_width t F) in R. apply (fsqrt_is (mfmt t)); [apply mfmt_good|apply R].
Qed.
Theorem C92_rec e t a : is_float t = true ->
  vectorf e t (x_recf e t a) (fun i r => inverse_is (format t) (value t a i) r).
Proof.
  intros F. destruct (x_rec_lane e t F a) as (H & L). split; [exact H|]. intros i Hi. rewrite L by exact Hi.
  pose proof (pat_rng e t F a i) as R. rewrite <- (mfmt_width t F) in R. apply (inverse_ok (mfmt t)); [apply mfmt_good|apply R].
Qed.
(** On SSE and AVX the approximations on f64 are not approximate: both steps are correctly rounded. *)
Theorem C92_rec11_f64 e a : is512 e = false ->
  vectorf e MF64 (x_rec11d e a) (fun i r => inverse_is binary64 (value MF64 a i) r).
Proof. intros _. exact (C92_rec e MF64 a eq_refl). Qed.
Theorem C92_rsqrt11_f64 e a : is512 e = false ->
  vectorf e MF64 (x_rsqrt11d e a) (fun i r => inverse_root binary64 (value MF64 a i) r).
Proof.
  intros _. destruct (C92_rec e MF64 (x_sqrtf e MF64 a) eq_refl) as (H & L). split; [exact H|]. intros i Hi. destruct (C92_sqrt e MF64 a eq_refl) as (_ & S).
  exists (pattern MF64 (x_sqrtf e MF64 a) i). split; [exact (pat_rng e MF64 eq_refl _ _)|]. split; [exact (S i Hi)|]. exact (L i Hi).
Qed.
(** An f16 vector is two registers of singles, and the operators are those on singles. *)
Theorem C92_arith_f16 o e a b : vector16 e (x_arith16 o e a b) (fun i r => result_is o binary32 (value16 e a i) (value16 e b i) r).
Proof.
  assert (K : vector16 e (on_halves2 (x_arith o e MF32) a b) (fun i r => r = fop o binary32 (pattern16 e a i) (pattern16 e b i))).
  { apply x_halves2. intros x y. exact (x_arith_lane e MF32 eq_refl o x y). }
  assert (W : forall v i, 0 <= i -> 0 <= pattern16 e v i < 2 ^ 32). { intros v i Hi. pose proof (fun j r => lane_range 32 j r ltac:(lia)) as Q. rewrite <- buf16_eq. unfold buf16. destruct (_ <? _); apply Q. }
  replace (x_arith16 o e a b) with (on_halves2 (x_arith o e MF32) a b) by (destruct o; reflexivity).
  destruct K as (H & L). split; [exact H|]. intros i Hi. rewrite L by exact Hi. apply (fop_is o binary32); [left; reflexivity|apply W; lia|apply W; lia].
Qed.
Theorem C92_sqrt_f16 e a : in_reg16 e a -> vector16 e (x_sqrt16 e a) (fun i r => root_is binary32 (value16 e a i) r).
Proof.
  intros Ha. destruct (x_halves1 e (x_sqrtf e MF32) (fsqrt binary32) a) as (H & L). { intros x _. exact (x_sqrt_lane e MF32 eq_refl x). } { exact Ha. }
  split; [exact H|]. intros i Hi. unfold x_sqrt16. rewrite L by exact Hi. pose proof (pattern16_range e a i Ha ltac:(lia)) as R. apply fsqrt_is; [left; reflexivity|exact R].
Qed.
Theorem C92_rec_f16 e a : in_reg16 e a -> vector16 e (x_rec16 e a) (fun i r => inverse_is binary32 (value16 e a i) r).
Proof.
  intros Ha. destruct (x_halves1 e (x_recf e MF32) (fun x => fdiv binary32 (fone binary32) x) a) as (H & L). { intros x _. exact (x_rec_lane e MF32 eq_refl x). } { exact Ha. }
  split; [exact H|]. intros i Hi. unfold x_rec16. rewrite L by exact Hi. pose proof (pattern16_range e a i Ha ltac:(lia)) as R. apply inverse_ok; [left; reflexivity|exact R].
Qed.
(** Load, operate, store: each half written is the correctly rounded half, and the one the scalar operator gives. *)
Theorem C92_f16_memory o e m pa pb pc : (forall i, 0 <= i < nb e / 16 -> mapped 16 m (pa + i * 2) /\ mapped 16 m (pb + i * 2) /\ mapped 16 m (pc + i * 2)) ->
  exists va vb m', x_load16 e m pa = Some va /\ x_load16 e m pb = Some vb /\ x_store16 e m pc (x_arith16 o e va vb) = Some m' /\
  (forall x, x < pc \/ pc + nb e / 16 * 2 <= x -> m' x = m x) /\
  forall i, 0 <= i < nb e / 16 -> exists h h' r, holds 16 m (pa + i * 2) h /\ holds 16 m (pb + i * 2) h' /\ holds 16 m' (pc + i * 2) r /\
    result_is o binary16 (decode binary16 h) (decode binary16 h') r /\ s_arith o F16 h h' = Some r.
Proof.
  intros M. destruct (C58_load_f16 e m pa) as (va & Ea & Ra & La); [intros i Hi; apply M, Hi|]. destruct (C58_load_f16 e m pb) as (vb & Eb & Rb & Lb); [intros i Hi; apply M, Hi|].
  assert (K : vector16 e (on_halves2 (x_arith o e MF32) va vb) (fun i r => r = fop o binary32 (pattern16 e va i) (pattern16 e vb i))).
  { apply x_halves2. intros x y. exact (x_arith_lane e MF32 eq_refl o x y). }
  replace (on_halves2 (x_arith o e MF32) va vb) with (x_arith16 o e va vb) in K by (destruct o; reflexivity).
  destruct K as (H & L). destruct (C58_store_f16 e m pc (x_arith16 o e va vb) H) as (m' & Es & Ls & Lu); [intros i Hi; apply M, Hi|].
  exists va, vb, m'. split; [exact Ea|]. split; [exact Eb|]. split; [exact Es|]. split; [exact Lu|]. intros i Hi.
  destruct (La i Hi) as (h & Hh & (Ch & _)). destruct (Lb i Hi) as (h' & Hh' & (Ch' & _)). exists h, h', (f32_to_u16 (fop o binary32 (pattern16 e va i) (pattern16 e vb i))).
  split; [exact Hh|]. split; [exact Hh'|]. split; [rewrite <- L by exact Hi; exact (Ls i Hi)|].
  assert (S : s_arith o F16 h h' = Some (f32_to_u16 (fop o binary32 (pattern16 e va i) (pattern16 e vb i)))).
  { replace (s_arith o) with (opnum2 (fop o)) by (destruct o; reflexivity). unfold opnum2. rewrite Ch, Ch'. reflexivity. }
  split; [|exact S]. pose proof (proj1 Hh) as R. pose proof (proj1 Hh') as R'.
  assert (T : exists r, s_arith o F16 h h' = Some r /\ result_is o binary16 (decode binary16 h) (decode binary16 h') r).
  { destruct o; [destruct (sf_add_is F16 h h' R R') as (r & E & _ & G)|destruct (sf_sub_is F16 h h' R R') as (r & E & _ & G)|destruct (sf_mul_is F16 h h' R R') as (r & E & _ & G)|destruct (sf_div_is F16 h h' R R') as (r & E & _ & G)]; exists r; split; assumption. }
  destruct T as (r & E & G). rewrite S in E. injection E as <-. exact G.
Qed.
Theorem C92_f16_sqrt_memory e m pa pc : (forall i, 0 <= i < nb e / 16 -> mapped 16 m (pa + i * 2) /\ mapped 16 m (pc + i * 2)) ->
  exists va m', x_load16 e m pa = Some va /\ x_store16 e m pc (x_sqrt16 e va) = Some m' /\
  forall i, 0 <= i < nb e / 16 -> exists h r, holds 16 m (pa + i * 2) h /\ holds 16 m' (pc + i * 2) r /\
    root_is binary16 (decode binary16 h) r /\ sf_sqrt true F16 h = Some r.
Proof.
  intros M. destruct (C58_load_f16 e m pa) as (va & Ea & Ra & La); [intros i Hi; apply M, Hi|].
  destruct (x_halves1 e (x_sqrtf e MF32) (fsqrt binary32) va) as (H & L). { intros x _. exact (x_sqrt_lane e MF32 eq_refl x). } { exact Ra. }
  destruct (C58_store_f16 e m pc (x_sqrt16 e va) H) as (m' & Es & Ls & Lu); [intros i Hi; apply M, Hi|].
  exists va, m'. split; [exact Ea|]. split; [exact Es|]. intros i Hi. destruct (La i Hi) as (h & Hh & (Ch & _)). exists h, (f32_to_u16 (fsqrt binary32 (pattern16 e va i))).
  split; [exact Hh|]. split; [rewrite <- L by exact Hi; exact (Ls i Hi)|].
  assert (S : sf_sqrt true F16 h = Some (f32_to_u16 (fsqrt binary32 (pattern16 e va i)))). { unfold sf_sqrt, libm1. rewrite Ch. reflexivity. }
  split; [|exact S]. destruct (sf_sqrt_is true F16 h (proj1 Hh)) as (r & E & _ & G). rewrite S in E. injection E as <-. exact G.
Qed.
Theorem C92_f16_rec_memory e m pa pc : (forall i, 0 <= i < nb e / 16 -> mapped 16 m (pa + i * 2) /\ mapped 16 m (pc + i * 2)) ->
  exists va m', x_load16 e m pa = Some va /\ x_store16 e m pc (x_rec16 e va) = Some m' /\
  forall i, 0 <= i < nb e / 16 -> exists h r, holds 16 m (pa + i * 2) h /\ holds 16 m' (pc + i * 2) r /\
    inverse_is binary16 (decode binary16 h) r /\ sf_rec F16 h = Some r.
Proof.
  intros M. destruct (C58_load_f16 e m pa) as (va & Ea & Ra & La); [intros i Hi; apply M, Hi|].
  destruct (x_halves1 e (x_recf e MF32) (fun x => fdiv binary32 (fone binary32) x) va) as (H & L). { intros x _. exact (x_rec_lane e MF32 eq_refl x). } { exact Ra. }
  destruct (C58_store_f16 e m pc (x_rec16 e va) H) as (m' & Es & Ls & Lu); [intros i Hi; apply M, Hi|].
  exists va, m'. split; [exact Ea|]. split; [exact Es|]. intros i Hi. destruct (La i Hi) as (h & Hh & (Ch & _)). exists h, (f32_to_u16 (fdiv binary32 (fone binary32) (pattern16 e va i))).
  split; [exact Hh|]. split; [rewrite <- L by exact Hi; exact (Ls i Hi)|].
  assert (S : sf_rec F16 h = Some (f32_to_u16 (fdiv binary32 (fone binary32) (pattern16 e va i)))). { unfold sf_rec, opnum1. rewrite Ch. reflexivity. }
  split; [|exact S]. destruct (sf_rec_is F16 h (proj1 Hh)) as (r & E & _ & G). rewrite S in E. injection E as <-. exact G.
Qed.
(** Without the store in between, two f16 operations are not two scalar ones: 1 + 2^-11 + 2^-11. *)
Theorem C92_f16_chain_refuted : ~ (forall e va vb vc i ha hb hc s r, in_reg16 e va -> in_reg16 e vb -> in_reg16 e vc -> 0 <= i < nb e / 16 ->
  half_as_single ha (pattern16 e va i) -> half_as_single hb (pattern16 e vb i) -> half_as_single hc (pattern16 e vc i) ->
  sf_add F16 ha hb = Some s -> sf_add F16 s hc = Some r ->
  decode binary16 (f32_to_u16 (pattern16 e (x_add16 e (x_add16 e va vb) vc) i)) = decode binary16 r).
Proof.
  intros H. specialize (H Sse2 (1065353216, 0) (973078528, 0) (973078528, 0) 0 15360 4096 4096 15360 15360).
  assert (W : forall x, 0 <= x < 2 ^ 32 -> in_reg16 Sse2 (x, 0)). { intros x Hx. split; unfold in_reg; cbn [fst snd]; change (2 ^ nb Sse2) with (2 ^ 128); lia. }
  assert (A : half_as_single 15360 (pattern16 Sse2 (1065353216, 0) 0)) by (split; vm_compute; reflexivity).
  assert (B : half_as_single 4096 (pattern16 Sse2 (973078528, 0) 0)) by (split; vm_compute; reflexivity).
  specialize (H (W 1065353216 ltac:(lia)) (W 973078528 ltac:(lia)) (W 973078528 ltac:(lia)) ltac:(change (nb Sse2 / 16) with 8; lia) A B B ltac:(vm_compute; reflexivity) ltac:(vm_compute; reflexivity)).
  vm_compute in H. discriminate H.
Qed.
Print Assumptions C92_arith. Print Assumptions C92_saturated. Print Assumptions C92_sqrt. Print Assumptions C92_rec. Print Assumptions C92_rec11_f64. Print Assumptions C92_rsqrt11_f64.
Print Assumptions C92_arith_f16. Print Assumptions C92_sqrt_f16. Print Assumptions C92_rec_f16. Print Assumptions C92_f16_memory. Print Assumptions C92_f16_sqrt_memory. Print Assumptions C92_f16_rec_memory. Print Assumptions C92_f16_chain_refuted.
(** Lane 1 of an SSE2 vector of f32: 3 / 7 = 0x3EDB6DB7, rounded up. *)
Example C92_ex : pattern MF32 (x_divf Sse2 MF32 (1077936128 * 2 ^ 32) (1088421888 * 2 ^ 32)) 1 = 0x3EDB6DB7 /\ pattern MF32 (x_recf Sse2 MF32 0) 3 = 0x7F800000.
Proof. vm_compute. auto. Qed.

(** ** C93 *)
(** fma, fms, fnma and fnms: with AVX-512 or with NSIMD_FMA, one rounding; otherwise the product and the sum are rounded. *)
Theorem C93_fused o fma e t a b c : is_float t = true -> in_reg (nb e) a -> is512 e || fma = true ->
  vectorf e t (x_muladd o fma e t a b c) (fun i r => fused_is (format t) (factor o (value t a i)) (value t b i) (addend o (value t c i)) r).
Proof.
  intros F Ra E. destruct (x_muladd_lane e t F o fma a b c Ra) as (H & L). split; [exact H|]. intros i Hi. rewrite L, E by exact Hi.
  pose proof (pat_rng e t F) as R. rewrite <- (mfmt_width t F) in R. exact (proj2 (ma_is o true (mfmt t) _ _ _ (mfmt_good t) (R a i) (R b i) (R c i))).
Qed.
Theorem C93_unfused o fma e t a b c : is_float t = true -> in_reg (nb e) a -> is512 e || fma = false ->
  vectorf e t (x_muladd o fma e t a b c) (fun i r => twice_rounded (format t) (factor o (value t a i)) (value t b i) (addend o (value t c i)) r).
Proof.
  intros F Ra E. destruct (x_muladd_lane e t F o fma a b c Ra) as (H & L). split; [exact H|]. intros i Hi. rewrite L, E by exact Hi.
  pose proof (pat_rng e t F) as R. rewrite <- (mfmt_width t F) in R. exact (proj2 (ma_is o false (mfmt t) _ _ _ (mfmt_good t) (R a i) (R b i) (R c i))).
Qed.
Lemma x_muladd16_lane o fma e a b c : in_reg16 e a -> vector16 e (x_muladd16 o fma e a b c) (fun i r => r = ma o (is512 e || fma) binary32 (pattern16 e a i) (pattern16 e b i) (pattern16 e c i)).
Proof.
  intros Ha. replace (x_muladd16 o fma e a b c) with (on_halves3 (x_muladd o fma e MF32) a b c) by (destruct o; reflexivity).
  apply (x_halves3 e (x_muladd o fma e MF32) (ma o (is512 e || fma) binary32)); [|exact Ha]. intros x y z Hx. exact (x_muladd_lane e MF32 eq_refl o fma x y z Hx).
Qed.
Theorem C93_f16 o fma e a b c : in_reg16 e a -> in_reg16 e b -> in_reg16 e c ->
  vector16 e (x_muladd16 o fma e a b c) (fun i r =>
    if is512 e || fma then fused_is binary32 (factor o (value16 e a i)) (value16 e b i) (addend o (value16 e c i)) r
    else twice_rounded binary32 (factor o (value16 e a i)) (value16 e b i) (addend o (value16 e c i)) r).
Proof.
  intros Ha Hb Hc. destruct (x_muladd16_lane o fma e a b c Ha) as (H & L). split; [exact H|]. intros i Hi. rewrite L by exact Hi.
  pose proof (fun v R => pattern16_range e v i R ltac:(lia)) as R. exact (proj2 (ma_is o (is512 e || fma) binary32 _ _ _ (or_introl eq_refl) (R a Ha) (R b Hb) (R c Hc))).
Qed.
(** Load, operate, store on halves: on every extension, with NSIMD_FMA or not, the half the scalar operator gives in
    either C standard. *)
Theorem C93_f16_memory o fma e m pa pb pc pd :
  (forall i, 0 <= i < nb e / 16 -> mapped 16 m (pa + i * 2) /\ mapped 16 m (pb + i * 2) /\ mapped 16 m (pc + i * 2) /\ mapped 16 m (pd + i * 2)) ->
  exists va vb vc m', x_load16 e m pa = Some va /\ x_load16 e m pb = Some vb /\ x_load16 e m pc = Some vc /\ x_store16 e m pd (x_muladd16 o fma e va vb vc) = Some m' /\
  forall i, 0 <= i < nb e / 16 -> exists h h' h'' r, holds 16 m (pa + i * 2) h /\ holds 16 m (pb + i * 2) h' /\ holds 16 m (pc + i * 2) h'' /\ holds 16 m' (pd + i * 2) r /\
    forall c99, s_muladd o c99 F16 h h' h'' = Some r.
Proof.
  intros M. destruct (C58_load_f16 e m pa) as (va & Ea & Ra & La); [intros i Hi; apply M, Hi|]. destruct (C58_load_f16 e m pb) as (vb & Eb & Rb & Lb); [intros i Hi; apply M, Hi|]. destruct (C58_load_f16 e m pc) as (vc & Ec & Rc & Lc); [intros i Hi; apply M, Hi|].
  destruct (x_muladd16_lane o fma e va vb vc Ra) as (H & L). destruct (C58_store_f16 e m pd (x_muladd16 o fma e va vb vc) H) as (m' & Es & Ls & Lu); [intros i Hi; apply M, Hi|].
  exists va, vb, vc, m'. split; [exact Ea|]. split; [exact Eb|]. split; [exact Ec|]. split; [exact Es|]. intros i Hi.
  destruct (La i Hi) as (h & Hh & (Ch & _)). destruct (Lb i Hi) as (h' & Hh' & (Ch' & _)). destruct (Lc i Hi) as (h'' & Hh'' & (Ch'' & _)).
  exists h, h', h'', (f32_to_u16 (ma o (is512 e || fma) binary32 (pattern16 e va i) (pattern16 e vb i) (pattern16 e vc i))).
  split; [exact Hh|]. split; [exact Hh'|]. split; [exact Hh''|]. split; [rewrite <- L by exact Hi; exact (Ls i Hi)|].
  assert (S : forall c99, s_muladd o c99 F16 h h' h'' = Some (f32_to_u16 (ma o c99 binary32 (pattern16 e va i) (pattern16 e vb i) (pattern16 e vc i)))).
  { intros c99. replace (s_muladd o c99) with (opnum3 (ma o c99)) by (destruct o; reflexivity). unfold opnum3. rewrite Ch, Ch', Ch''. reflexivity. }
  assert (U : forall x y, s_muladd o x F16 h h' h'' = s_muladd o y F16 h h' h'').
  { pose proof (sfm16_standards (match o with Fnma | Fnms => true | _ => false end) (match o with Fms | Fnms => true | _ => false end) h h' h'' (proj1 Hh) (proj1 Hh') (proj1 Hh'')) as Q.
    replace (s_muladd o) with (sfm (match o with Fnma | Fnms => true | _ => false end) (match o with Fms | Fnms => true | _ => false end)) by (destruct o; reflexivity). intros [|] [|]; congruence. }
  intros c99. rewrite (U c99 (is512 e || fma)). apply S.
Qed.
(** So on f32 and f64 the same program gives different numbers on different x86 builds: (1 + 2^-23)^2 - (1 + 2^-22). *)
Theorem C93_agree_refuted : ~ (forall o e fma fma' t a b c i, is_float t = true -> in_reg (nb e) a -> in_reg (nb e) b -> in_reg (nb e) c -> 0 <= i < elems e t ->
  value t (x_muladd o fma e t a b c) i = value t (x_muladd o fma' e t a b c) i).
Proof.
  intros H. specialize (H Fms Avx2 true false MF32 1065353217 1065353217 1065353218 0 eq_refl). unfold in_reg in H. change (2 ^ nb Avx2) with (2 ^ 256) in H.
  specialize (H ltac:(lia) ltac:(lia) ltac:(lia) ltac:(change (elems Avx2 MF32) with 8; lia)). vm_compute in H. discriminate H.
Qed.
Print Assumptions C93_fused. Print Assumptions C93_unfused. Print Assumptions C93_f16. Print Assumptions C93_f16_memory. Print Assumptions C93_agree_refuted.
(** 2^-46 in one rounding, 0 in two. *)
Example C93_ex : pattern MF32 (x_fmsf true Avx2 MF32 1065353217 1065353217 1065353218) 0 = 0x28800000 /\ pattern MF32 (x_fmsf false Avx2 MF32 1065353217 1065353217 1065353218) 0 = 0.
Proof. vm_compute. auto. Qed.
