(** C97: the back ends agree on floating-point arithmetic. *)
From Coq Require Import ZArith Bool Lia ZifyBool List.
From Verif Require Import CInt FloatSpec Fp16 ScalarOps RoundEven CpuSimd X86Deg234 X86Arith X86ArithSpec X86Mem X86MemSpec X86Cvt X86CvtSpec FloatProofs X86CvtProofs2 X86CvtProofs4 X86Float X86FloatSpec X86FloatProofs2.
From Verif Require Import Arm ArmSpec ArmFloat ArmFloatSpec ArmFloatProofs ArmFloatProofs2.
From Verif Require Import FloatArith FloatArithSpec FloatArithProofs FloatArithProofs2 ScalarFloat FloatArithProofs7 FloatArithProofs8 FloatArithProofs9 PropFloatArith X86FloatArith ArmFloatArith CpuFloatArith CpuFloatSpec FloatVecSpec FloatVecOps FloatVecProofs FloatVecProofs2 PropX86FloatArith PropArmFloatArith PropCpuFloat.
Local Open Scope Z_scope.

(** f32 and f64 among the element types of the x86 model *)
Definition x86_ty (t : fty) : mty := match t with F64 => MF64 | _ => MF32 end.
Lemma x86_fmt t : t <> F16 -> format (x86_ty t) = ff t. Proof. destruct t; [congruence|reflexivity|reflexivity]. Qed.
Lemma x86_flt t : is_float (x86_ty t) = true. Proof. destruct t; reflexivity. Qed.
Lemma x86_mw t : t <> F16 -> mw (x86_ty t) = fw t. Proof. destruct t; [congruence|reflexivity|reflexivity]. Qed.
Lemma stored_id t : t <> F16 -> stored t = t. Proof. destruct t; [congruence|reflexivity|reflexivity]. Qed.
Lemma width_ty t : width (ff t) = fw t. Proof. apply ff_width. Qed.
Lemma result_unique o t x y r r' : 0 <= x < 2 ^ fw t -> 0 <= y < 2 ^ fw t -> 0 <= r < 2 ^ fw t -> 0 <= r' < 2 ^ fw t ->
  result_is o (ff t) (decode (ff t) x) (decode (ff t) y) r -> result_is o (ff t) (decode (ff t) x) (decode (ff t) y) r' -> same_number (ff t) r r'.
Proof.
  rewrite <- ff_width. intros Hx Hy R R'. pose proof (ff_good t) as G. destruct o; cbn [result_is].
  - apply sum_unique; assumption.
  - apply sum_unique; assumption.
  - apply product_unique; assumption.
  - apply quotient_unique; try assumption. intros s m D. exact (dec_nonneg (ff t) y s m G Hy D).
Qed.
Lemma x_rng t r i : t <> F16 -> 0 <= pattern (x86_ty t) r i < 2 ^ fw t.
Proof. intros T. rewrite <- (x86_mw t T). exact (pat_rng Sse2 (x86_ty t) (x86_flt t) r i). Qed.

(** Whatever the back end and wherever the lane is, the same operands give the same number as the scalar operator. *)
Theorem C97_arith o t x y : t <> F16 -> 0 <= x < 2 ^ fw t -> 0 <= y < 2 ^ fw t ->
  exists r, s_arith o t x y = Some r /\
  (forall e a b i, 0 <= i < elems e (x86_ty t) -> pattern (x86_ty t) a i = x -> pattern (x86_ty t) b i = y -> same_number (ff t) (pattern (x86_ty t) (x_arith o e (x86_ty t) a b) i) r) /\
  (forall u e a b i, 0 <= i < felems e t -> fpat t a i = x -> fpat t b i = y -> same_number (ff t) (fpat t (a_arith o u e t a b) i) r) /\
  (forall n a b i, cfloats t n a -> cfloats t n b -> (i < n)%nat -> clane a i = x -> clane b i = y -> exists c, c_arith o t n a b = Some c /\ same_number (ff t) (clane c i) r).
Proof.
  intros T Hx Hy. assert (S : exists r, s_arith o t x y = Some r /\ 0 <= r < 2 ^ fw t /\ result_is o (ff t) (decode (ff t) x) (decode (ff t) y) r).
  { destruct o; [apply sf_add_is|apply sf_sub_is|apply sf_mul_is|apply sf_div_is]; assumption. }
  destruct S as (r & E & R & A). exists r. split; [exact E|]. split; [|split].
  - intros e a b i Hi <- <-. destruct (C92_arith o e (x86_ty t) a b (x86_flt t)) as (_ & L). specialize (L i Hi). unfold value in L. rewrite (x86_fmt t T) in L.
    exact (result_unique o t _ _ _ _ Hx Hy (x_rng t _ _ T) R L A).
  - intros u e a b i Hi <- <-. destruct (C94_arith u o e t a b) as (_ & L). specialize (L i Hi). exact (result_unique o t _ _ _ _ Hx Hy (fpat_rng t _ _) R L A).
  - intros n a b i Ha Hb Hi <- <-. destruct (C96_arith o t n a b Ha Hb) as (c & Ec & _ & L). exists c. split; [exact Ec|]. destruct (L i Hi) as (Rc & Lc). unfold cvalue in Lc. rewrite (stored_id t T) in *.
    exact (result_unique o t _ _ _ _ Hx Hy Rc R Lc A).
Qed.
Theorem C97_sqrt c99 t x : t <> F16 -> 0 <= x < 2 ^ fw t ->
  exists r, sf_sqrt c99 t x = Some r /\
  (forall e a i, 0 <= i < elems e (x86_ty t) -> pattern (x86_ty t) a i = x -> same_number (ff t) (pattern (x86_ty t) (x_sqrtf e (x86_ty t) a) i) r) /\
  (forall u c99' e a i, 0 <= i < felems e t -> fpat t a i = x -> same_number (ff t) (fpat t (a_sqrtf u c99' e t a) i) r) /\
  (forall c99' n a i, cfloats t n a -> (i < n)%nat -> clane a i = x -> exists c, c_sqrtf c99' t n a = Some c /\ same_number (ff t) (clane c i) r).
Proof.
  intros T Hx. destruct (sf_sqrt_is c99 t x Hx) as (r & E & R & A). exists r. split; [exact E|].
  assert (U : forall q, 0 <= q < 2 ^ fw t -> root_is (ff t) (decode (ff t) x) q -> same_number (ff t) q r).
  { intros q Rq Q. rewrite <- ff_width in *. exact (root_unique (ff t) q r (ff_good t) Rq R _ Q A). }
  split; [|split].
  - intros e a i Hi <-. destruct (C92_sqrt e (x86_ty t) a (x86_flt t)) as (_ & L). specialize (L i Hi). unfold value in L. rewrite (x86_fmt t T) in L. exact (U _ (x_rng t _ _ T) L).
  - intros u c99' e a i Hi <-. destruct (C94_sqrt u c99' e t a (fun _ => T)) as (_ & L). exact (U _ (fpat_rng t _ _) (L i Hi)).
  - intros c99' n a i Ha Hi <-. destruct (C96_sqrt c99' t n a Ha) as (c & Ec & _ & L). exists c. split; [exact Ec|]. destruct (L i Hi) as (Rc & Lc). unfold cvalue in Lc. rewrite (stored_id t T) in *. exact (U _ Rc Lc).
Qed.
Theorem C97_rec t x : t <> F16 -> 0 <= x < 2 ^ fw t ->
  exists r, sf_rec t x = Some r /\
  (forall e a i, 0 <= i < elems e (x86_ty t) -> pattern (x86_ty t) a i = x -> same_number (ff t) (pattern (x86_ty t) (x_recf e (x86_ty t) a) i) r) /\
  (forall u e a i, 0 <= i < felems e t -> fpat t a i = x -> same_number (ff t) (fpat t (a_recf u e t a) i) r) /\
  (forall n a i, cfloats t n a -> (i < n)%nat -> clane a i = x -> exists c, c_recf t n a = Some c /\ same_number (ff t) (clane c i) r).
Proof.
  intros T Hx. destruct (sf_rec_is t x Hx) as (r & E & R & A). exists r. split; [exact E|].
  assert (U : forall q, 0 <= q < 2 ^ fw t -> inverse_is (ff t) (decode (ff t) x) q -> same_number (ff t) q r).
  { intros q Rq Q. rewrite <- ff_width in *. refine (quotient_unique (ff t) q r (ff_good t) Rq R _ _ _ Q A). intros s m D. exact (dec_nonneg (ff t) x s m (ff_good t) Hx D). }
  split; [|split].
  - intros e a i Hi <-. destruct (C92_rec e (x86_ty t) a (x86_flt t)) as (_ & L). specialize (L i Hi). unfold value in L. rewrite (x86_fmt t T) in L. exact (U _ (x_rng t _ _ T) L).
  - intros u e a i Hi <-. destruct (C94_rec u e t a) as ((_ & L) & _). exact (U _ (fpat_rng t _ _) (L i Hi)).
  - intros n a i Ha Hi <-. destruct (C96_rec t n a Ha) as (c & Ec & _ & L). exists c. split; [exact Ec|]. destruct (L i Hi) as (Rc & Lc). unfold cvalue in Lc. rewrite (stored_id t T) in *. exact (U _ Rc Lc).
Qed.
(** Multiply and add: the builds that round once agree, and those that round twice agree. *)
Theorem C97_muladd o once t x y z : t <> F16 -> 0 <= x < 2 ^ fw t -> 0 <= y < 2 ^ fw t -> 0 <= z < 2 ^ fw t ->
  exists r, s_muladd o once t x y z = Some r /\
  (forall fma e a b c i, is512 e || fma = once -> in_reg (nb e) a -> 0 <= i < elems e (x86_ty t) -> pattern (x86_ty t) a i = x -> pattern (x86_ty t) b i = y -> pattern (x86_ty t) c i = z ->
     same_number (ff t) (pattern (x86_ty t) (x_muladd o fma e (x86_ty t) a b c) i) r) /\
  (forall u c99 e a b c i, (if once then fused_vector c99 e t else e = Neon128 /\ (t = F32 \/ (t = F64 /\ c99 = false))) -> 0 <= i < felems e t -> fpat t a i = x -> fpat t b i = y -> fpat t c i = z ->
     same_number (ff t) (fpat t (a_muladd o u c99 e t a b c) i) r) /\
  (forall n a b c i, cfloats t n a -> cfloats t n b -> cfloats t n c -> (i < n)%nat -> clane a i = x -> clane b i = y -> clane c i = z ->
     exists d, c_muladd o once t n a b c = Some d /\ same_number (ff t) (clane d i) r).
Proof.
  intros T Hx Hy Hz.
  assert (S : exists r, s_muladd o once t x y z = Some r /\ muladd_ok o once t x y z r).
  { destruct once; [destruct (C90_fused o t x y z T Hx Hy Hz) as (r & E & R & A)|destruct (C90_unfused o t x y z T Hx Hy Hz) as (r & E & R & A)]; exists r; (split; [exact E|split; [exact R|exact A]]). }
  destruct S as (r & E & A). exists r. split; [exact E|]. assert (U : forall q, muladd_ok o once t x y z q -> same_number (ff t) q r) by (intros q Q; exact (muladd_unique o once t x y z q r Q A)).
  split; [|split].
  - intros fma e a b c i F Ha Hi <- <- <-. apply U. split; [apply x_rng; exact T|]. destruct once.
    + destruct (C93_fused o fma e (x86_ty t) a b c (x86_flt t) Ha F) as (_ & L). specialize (L i Hi). unfold value in L. rewrite (x86_fmt t T) in L. exact L.
    + destruct (C93_unfused o fma e (x86_ty t) a b c (x86_flt t) Ha F) as (_ & L). specialize (L i Hi). unfold value in L. rewrite (x86_fmt t T) in L. exact L.
  - intros u c99 e a b c i F Hi <- <- <-. apply U. split; [apply fpat_rng|]. destruct once.
    + exact (proj2 (C95_fused u o c99 e t a b c F) i Hi).
    + destruct F as (-> & F). exact (proj2 (C95_unfused u o c99 t a b c F) i Hi).
  - intros n a b c i Ha Hb Hc Hi <- <- <-. destruct (C96_muladd o once t n a b c Ha Hb Hc) as (d & Ed & _ & L). exists d. split; [exact Ed|]. apply U. destruct (L i Hi) as (Rd & Ld). unfold cvalue in Ld. rewrite (stored_id t T) in *.
    split; [exact Rd|]. destruct once; exact Ld.
Qed.
Print Assumptions C97_arith. Print Assumptions C97_sqrt. Print Assumptions C97_rec. Print Assumptions C97_muladd.
(** 3 / 7 in lane 1 of an AVX-512 register, lane 2 of a NEON one and lane 0 of the CPU back end *)
Example C97_ex : pattern MF32 (x_divf Avx512Knl MF32 (1077936128 * 2 ^ 32) (1088421888 * 2 ^ 32)) 1 = 0x3EDB6DB7 /\
  fpat F32 (a_divf 0 Neon128 F32 (1077936128 * 2 ^ 64) (1088421888 * 2 ^ 64)) 2 = 0x3EDB6DB7 /\ c_divf F32 1 (1077936128 :: nil) (1088421888 :: nil) = Some (0x3EDB6DB7 :: nil) /\
  sf_div F32 1077936128 1088421888 = Some 0x3EDB6DB7.
Proof. vm_compute. auto. Qed.
