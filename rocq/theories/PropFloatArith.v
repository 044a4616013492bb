(** C89-C91: the scalar operators on f16, f32 and f64, with the C89 and the
    C99 standard library.  The rounding to nearest even is the one of
    FloatArithSpec.v, stated on values. *)
From Coq Require Import ZArith Bool Lia ZifyBool List.
From Verif Require Import CInt FloatSpec Fp16 Fp16Spec ScalarOps RoundEven X86Cvt X86CvtSpec FloatProofs X86CvtProofs2 X86CvtProofs4 X86Float X86FloatSpec X86FloatProofs X86FloatProofs2 ArmFloat ArmFloatSpec.
From Verif Require Import FloatArith FloatArithSpec FloatArithProofs FloatArithProofs2 FloatArithProofs6 ScalarFloat FloatArithProofs7 FloatArithProofs8 FloatArithProofs9.
Import ListNotations.
Local Open Scope Z_scope.

(** ** C89 *)
(** The IEEE operations the model assumes of the C compiler and of the
    processors are correctly rounded in every format. *)
Definition ieee (f : fmt) : Prop := f = binary16 \/ f = binary32 \/ f = binary64.
Lemma ieee_good f : ieee f -> good_fmt f.
Proof. intros [->|[->| ->]]; [exact good16|exact good32|exact good64]. Qed.
Theorem C89_assumed f a b c : ieee f -> 0 <= a < 2 ^ width f -> 0 <= b < 2 ^ width f -> 0 <= c < 2 ^ width f ->
  let v := decode f a in let w := decode f b in
  sum_is f v w (fadd f a b) /\ difference_is f v w (fsub f a b) /\ product_is f v w (fmul f a b) /\ quotient_is f v w (fdiv f a b) /\
  root_is f v (fsqrt f a) /\ fused_is f v w (decode f c) (ffma f a b c).
Proof.
  intros I Ha Hb Hc. pose proof (ieee_good f I) as G. split; [apply fadd_is; assumption|]. split; [apply fsub_is; assumption|]. split; [apply fmul_is; assumption|].
  split; [apply fdiv_is; assumption|]. split; [apply fsqrt_is; assumption|apply ffma_is; assumption].
Qed.
(** A correctly rounded result is unique, up to the pattern of a NaN. *)
Theorem C89_unique f v w x r r' : ieee f -> 0 <= r < 2 ^ width f -> 0 <= r' < 2 ^ width f ->
  (sum_is f v w r -> sum_is f v w r' -> same_number f r r') /\ (difference_is f v w r -> difference_is f v w r' -> same_number f r r') /\
  (product_is f v w r -> product_is f v w r' -> same_number f r r') /\
  ((forall s m, w = FFin s m -> 0 <= m) -> quotient_is f v w r -> quotient_is f v w r' -> same_number f r r') /\
  (root_is f v r -> root_is f v r' -> same_number f r r') /\ (fused_is f v w x r -> fused_is f v w x r' -> same_number f r r').
Proof.
  intros I Hr Hr'. pose proof (ieee_good f I) as G. split; [apply sum_unique; assumption|]. split; [apply sum_unique; assumption|]. split; [apply product_unique; assumption|].
  split; [apply quotient_unique; assumption|]. split; [apply root_unique; assumption|apply fused_unique; assumption].
Qed.
(** The scalar operators: f16 ones work in f32 and convert, C89 square roots work in f64 and convert; the result is rounded as if once. *)
Theorem C89_add t a b : 0 <= a < 2 ^ fw t -> 0 <= b < 2 ^ fw t ->
  exists r, sf_add t a b = Some r /\ sf_adds t a b = Some r /\ 0 <= r < 2 ^ fw t /\ sum_is (ff t) (decode (ff t) a) (decode (ff t) b) r.
Proof. intros Ha Hb. destruct (sf_add_is t a b Ha Hb) as (r & E & H). exists r. auto. Qed.
Theorem C89_sub t a b : 0 <= a < 2 ^ fw t -> 0 <= b < 2 ^ fw t ->
  exists r, sf_sub t a b = Some r /\ sf_subs t a b = Some r /\ 0 <= r < 2 ^ fw t /\ difference_is (ff t) (decode (ff t) a) (decode (ff t) b) r.
Proof. intros Ha Hb. destruct (sf_sub_is t a b Ha Hb) as (r & E & H). exists r. auto. Qed.
Theorem C89_mul t a b : 0 <= a < 2 ^ fw t -> 0 <= b < 2 ^ fw t ->
  exists r, sf_mul t a b = Some r /\ 0 <= r < 2 ^ fw t /\ product_is (ff t) (decode (ff t) a) (decode (ff t) b) r.
Proof. apply sf_mul_is. Qed.
Theorem C89_div t a b : 0 <= a < 2 ^ fw t -> 0 <= b < 2 ^ fw t ->
  exists r, sf_div t a b = Some r /\ 0 <= r < 2 ^ fw t /\ quotient_is (ff t) (decode (ff t) a) (decode (ff t) b) r.
Proof. apply sf_div_is. Qed.
Theorem C89_rec t a : 0 <= a < 2 ^ fw t ->
  exists r, sf_rec t a = Some r /\ sf_rec8 t a = Some r /\ sf_rec11 t a = Some r /\ 0 <= r < 2 ^ fw t /\ quotient_is (ff t) (FFin false (one (ff t))) (decode (ff t) a) r.
Proof. intros Ha. destruct (sf_rec_is t a Ha) as (r & E & H). exists r. auto. Qed.
Theorem C89_sqrt c99 t a : 0 <= a < 2 ^ fw t -> exists r, sf_sqrt c99 t a = Some r /\ 0 <= r < 2 ^ fw t /\ root_is (ff t) (decode (ff t) a) r.
Proof. apply sf_sqrt_is. Qed.
(** 1/3 in each format, sqrt 2, an overflow, 0/0; 1 + 2^-11 is a tie *)
Example C89_ex : sf_div F16 0x3C00 0x4200 = Some 0x3555 /\ sf_div F32 0x3F800000 0x40400000 = Some 0x3EAAAAAB /\ sf_rec F64 0x4008000000000000 = Some 0x3FD5555555555555 /\
  sf_sqrt false F16 0x4000 = Some 0x3DA8 /\ sf_sqrt false F32 0x40000000 = Some 0x3FB504F3 /\ sf_add F16 0x7BFF 0x7BFF = Some 0x7C00 /\
  sf_add F16 0x3C00 0x1000 = Some 0x3C00 /\ sf_add F16 0x3C01 0x1000 = Some 0x3C02 /\ sf_mul F16 0x0001 0x3800 = Some 0 /\ sf_mul F16 0x0003 0x3800 = Some 2 /\
  option_map (decode binary16) (sf_div F16 0 0) = Some FNaN /\ sf_sub F16 0x3C00 0x3C00 = Some 0.
Proof. vm_compute. repeat split. Qed.
Print Assumptions C89_assumed. Print Assumptions C89_unique. Print Assumptions C89_add. Print Assumptions C89_sub. Print Assumptions C89_mul. Print Assumptions C89_div.
Print Assumptions C89_rec. Print Assumptions C89_sqrt.

(** ** C90 *)
Definition scalar_muladd (o : muladd) : bool -> fty -> Z -> Z -> Z -> option Z :=
  match o with Fma => sf_fma | Fms => sf_fms | Fnma => sf_fnma | Fnms => sf_fnms end.
Lemma muladd_sfm o : scalar_muladd o = sfm (match o with Fnma | Fnms => true | _ => false end) (match o with Fms | Fnms => true | _ => false end).
Proof. destruct o; reflexivity. Qed.
Lemma factor_if o v : minus_if (match o with Fnma | Fnms => true | _ => false end) v = factor o v.
Proof. destruct o; reflexivity. Qed.
Lemma addend_if o v : minus_if (match o with Fms | Fnms => true | _ => false end) v = addend o v.
Proof. destruct o; reflexivity. Qed.

(** C99, f32 and f64: a single rounding. *)
Theorem C90_fused o t a b c : t <> F16 -> 0 <= a < 2 ^ fw t -> 0 <= b < 2 ^ fw t -> 0 <= c < 2 ^ fw t ->
  exists r, scalar_muladd o true t a b c = Some r /\ 0 <= r < 2 ^ fw t /\
    fused_is (ff t) (factor o (decode (ff t) a)) (decode (ff t) b) (addend o (decode (ff t) c)) r.
Proof. intros T Ha Hb Hc. rewrite muladd_sfm, <- factor_if, <- addend_if. apply sfm_c99_is; assumption. Qed.
(** C89, f32 and f64: two roundings. *)
Theorem C90_unfused o t a b c : t <> F16 -> 0 <= a < 2 ^ fw t -> 0 <= b < 2 ^ fw t -> 0 <= c < 2 ^ fw t ->
  exists r, scalar_muladd o false t a b c = Some r /\ 0 <= r < 2 ^ fw t /\
    twice_rounded (ff t) (factor o (decode (ff t) a)) (decode (ff t) b) (addend o (decode (ff t) c)) r.
Proof.
  intros T Ha Hb Hc. rewrite muladd_sfm, <- factor_if, <- addend_if. destruct (sfm_c89_is (match o with Fnma | Fnms => true | _ => false end) (match o with Fms | Fnms => true | _ => false end) t a b c T Ha Hb Hc) as (r & p & E & R & Rp & P & S).
  exists r. split; [exact E|]. split; [exact R|]. exists p. rewrite ff_w. auto.
Qed.
(** f16, both standards: fused in single precision, then converted; that is
    the half nearest to the exact value unless the single is the middle of
    two halves. *)
Theorem C90_f16 o c99 a b c : 0 <= a < 2 ^ 16 -> 0 <= b < 2 ^ 16 -> 0 <= c < 2 ^ 16 ->
  let v := factor o (decode binary16 a) in let w := decode binary16 b in let x := addend o (decode binary16 c) in
  exists r y, scalar_muladd o c99 F16 a b c = Some r /\ 0 <= r < 2 ^ 16 /\ fused_in_single v w x y r /\ (~ between_halves y -> fused_is binary16 v w x r).
Proof.
  intros Ha Hb Hc v w x. unfold v, w, x. rewrite muladd_sfm, <- factor_if, <- addend_if.
  destruct (sfm16_is (match o with Fnma | Fnms => true | _ => false end) (match o with Fms | Fnms => true | _ => false end) c99 a b c Ha Hb Hc) as (r & y & E & R & Ry & F & H & B).
  exists r, y. split; [exact E|]. split; [exact R|]. split; [|exact B]. split; [exact Ry|]. rewrite !widen_eq. auto.
Qed.
Theorem C90_f16_standards o a b c : 0 <= a < 2 ^ 16 -> 0 <= b < 2 ^ 16 -> 0 <= c < 2 ^ 16 -> scalar_muladd o false F16 a b c = scalar_muladd o true F16 a b c.
Proof. rewrite muladd_sfm. apply sfm16_standards. Qed.

(** An f16 multiply and add is not the half nearest to the exact value: (1 + 2^-10) (1 - 2^-10) 2^-11 + (1 + 2^-10). *)
Theorem C90_f16_nearest_refuted : ~ (forall a b c, 0 <= a < 2 ^ 16 -> 0 <= b < 2 ^ 16 -> 0 <= c < 2 ^ 16 ->
  exists r, sf_fma true F16 a b c = Some r /\ fused_is binary16 (decode binary16 a) (decode binary16 b) (decode binary16 c) r).
Proof.
  intros H. destruct (H 0x3C01 0x0FFE 0x3C01 ltac:(lia) ltac:(lia) ltac:(lia)) as (r & E & F). vm_compute in E. injection E as <-.
  pose proof (ffma_is binary16 0x3C01 0x0FFE 0x3C01 good16) as F'.
  destruct (fused_unique binary16 15362 (ffma binary16 0x3C01 0x0FFE 0x3C01) good16 ltac:(cbn; lia) (ffma_rng _ _ _ _ good16) _ _ _ F F') as [C|(C & _)]; vm_compute in C; discriminate C.
Qed.
(** The two standards disagree on f32: (1 + 2^-12)^2 - (1 + 2^-11). *)
Theorem C90_standards_refuted : ~ (forall t a b c, 0 <= a < 2 ^ fw t -> 0 <= b < 2 ^ fw t -> 0 <= c < 2 ^ fw t -> sf_fma false t a b c = sf_fma true t a b c).
Proof. intros H. specialize (H F32 0x3F800800 0x3F800800 0xBF801000 ltac:(cbn; lia) ltac:(cbn; lia) ltac:(cbn; lia)). vm_compute in H. discriminate H. Qed.
Example C90_ex : sf_fma true F32 0x3F800800 0x3F800800 0xBF801000 = Some 0x33800000 /\ sf_fma false F32 0x3F800800 0x3F800800 0xBF801000 = Some 0 /\
  sf_fms true F32 0x40000000 0x40400000 0x3F800000 = Some 0x40A00000 /\ sf_fnma true F32 0x40000000 0x40400000 0x3F800000 = Some 0xC0A00000 /\
  sf_fnms false F32 0x40000000 0x40400000 0x3F800000 = Some 0xC0E00000 /\ sf_fma false F16 0x4000 0x4200 0x3C00 = Some 0x4700 /\ sf_fnms true F16 0x4000 0x4200 0x3C00 = Some 0xC700 /\
  sf_fma true F16 0x3C01 0x0FFE 0x3C01 = Some 0x3C02 /\ ffma binary16 0x3C01 0x0FFE 0x3C01 = 0x3C01.
Proof. vm_compute. repeat split. Qed.
Print Assumptions C90_fused. Print Assumptions C90_unfused. Print Assumptions C90_f16. Print Assumptions C90_f16_standards. Print Assumptions C90_f16_nearest_refuted.
Print Assumptions C90_standards_refuted.

(** ** C91 *)
Theorem C91_neg t a : 0 <= a < 2 ^ fw t -> exists r, sf_neg t a = Some r /\ 0 <= r < 2 ^ fw t /\ decode (ff t) r = opposite (decode (ff t) a).
Proof. apply neg_is. Qed.
(** a zero keeps its sign *)
Theorem C91_abs t a : 0 <= a < 2 ^ fw t -> exists r, sf_abs t a = Some r /\ 0 <= r < 2 ^ fw t /\
  decode (ff t) r = if is (compare (decode (ff t) a) (FFin false 0)) Equal then decode (ff t) a else absolute (decode (ff t) a).
Proof.
  intros Ha. destruct (abs_is t a Ha) as (r & E & R & D). exists r. split; [exact E|]. split; [exact R|]. rewrite D. unfold abs_kept. destruct (decode (ff t) a) as [|s|s m]; try reflexivity.
  - destruct s; reflexivity.
  - cbn [compare]. change (sval false 0) with 0. destruct m; [destruct s; reflexivity| |]; destruct s; reflexivity.
Qed.
Theorem C91_min t a b : 0 <= a < 2 ^ fw t -> 0 <= b < 2 ^ fw t -> exists r, sf_min t a b = Some r /\ 0 <= r < 2 ^ fw t /\
  same_number (ff t) r (if is (compare (decode (ff t) a) (decode (ff t) b)) Less then a else b).
Proof. intros. apply (pick_is _ t a b (fun c => is c Less)); [apply flt_less|assumption..]. Qed.
Theorem C91_max t a b : 0 <= a < 2 ^ fw t -> 0 <= b < 2 ^ fw t -> exists r, sf_max t a b = Some r /\ 0 <= r < 2 ^ fw t /\
  same_number (ff t) r (if is (compare (decode (ff t) a) (decode (ff t) b)) Greater then a else b).
Proof. intros. apply (pick_is (fun x y => flt y x) t a b (fun c => is c Greater)); [apply flt_greater|assumption..]. Qed.
Theorem C91_compare t a b : 0 <= a < 2 ^ fw t -> 0 <= b < 2 ^ fw t -> let c := compare (decode (ff t) a) (decode (ff t) b) in
  sf_lt t a b = Some (is c Less) /\ sf_gt t a b = Some (is c Greater) /\ sf_le t a b = Some (is c Less || is c Equal) /\ sf_ge t a b = Some (is c Greater || is c Equal) /\
  sf_eq t a b = Some (is c Equal) /\ sf_ne t a b = Some (negb (is c Equal)).
Proof.
  intros Ha Hb c. repeat split.
  - apply (cmp_is _ (fun c => is c Less)); [apply flt_less|assumption..].
  - apply (cmp_is (fun x y => flt y x) (fun c => is c Greater)); [apply flt_greater|assumption..].
  - apply (cmp_is _ (fun c => is c Less || is c Equal)); [exact is_le|assumption..].
  - apply (cmp_is (fun x y => fle y x) (fun c => is c Greater || is c Equal)); [exact is_ge|assumption..].
  - apply (cmp_is _ (fun c => is c Equal)); [exact is_equal|assumption..].
  - apply (cmp_is (fun x y => negb (feqb x y)) (fun c => negb (is c Equal))); [exact is_ne|assumption..].
Qed.
Theorem C91_floor c99 t a : 0 <= a < 2 ^ fw t -> exists r, sf_floor c99 t a = Some r /\ 0 <= r < 2 ^ fw t /\ rounded (ff t) (down (ff t)) (decode (ff t) a) (decode (ff t) r).
Proof. exact (floor_is c99 t a). Qed.
Theorem C91_ceil c99 t a : 0 <= a < 2 ^ fw t -> exists r, sf_ceil c99 t a = Some r /\ 0 <= r < 2 ^ fw t /\ rounded (ff t) (up (ff t)) (decode (ff t) a) (decode (ff t) r).
Proof. exact (ceil_is c99 t a). Qed.
(** with the library's trunc, and with floor and ceil of either standard *)
Theorem C91_trunc new c99 t a : 0 <= a < 2 ^ fw t -> exists r, sf_trunc new c99 t a = Some r /\ 0 <= r < 2 ^ fw t /\ rounded (ff t) (toward_zero (ff t)) (decode (ff t) a) (decode (ff t) r).
Proof. exact (trunc_is new c99 t a). Qed.
Theorem C91_rsqrt c99 t a : t <> F16 -> 0 <= a < 2 ^ fw t ->
  exists r, sf_rsqrt c99 t a = Some r /\ sf_rsqrt8 c99 t a = Some r /\ sf_rsqrt11 c99 t a = Some r /\ 0 <= r < 2 ^ fw t /\ inverse_root (ff t) (decode (ff t) a) r.
Proof.
  intros T Ha. destruct (rsqrt_is c99 t a T Ha) as (r & q & E & R & Rq & Q & D). exists r. split; [exact E|]. split; [exact E|]. split; [exact E|]. split; [exact R|]. exists q. rewrite ff_w. auto.
Qed.
Theorem C91_rsqrt_f16 c99 a : 0 <= a < 2 ^ 16 ->
  exists r y, sf_rsqrt c99 F16 a = Some r /\ 0 <= r < 2 ^ 16 /\ 0 <= y < 2 ^ 32 /\ inverse_root binary32 (widen (decode binary16 a)) y /\ as_half y r.
Proof.
  intros Ha. destruct (rsqrt16_is c99 a Ha) as (r & q & y & E & R & Rq & Ry & Q & D & H). exists r, y. split; [exact E|]. split; [exact R|]. split; [exact Ry|]. split; [|exact H].
  exists q. rewrite widen_eq. auto.
Qed.
Example C91_ex : sf_neg F16 0x3C00 = Some 0xBC00 /\ sf_abs F16 0xBC00 = Some 0x3C00 /\ sf_abs F16 0x8000 = Some 0x8000 /\ sf_min F16 0x4000 0x3C00 = Some 0x3C00 /\
  sf_min F16 0x7E00 0x3C00 = Some 0x3C00 /\ option_map (decode binary16) (sf_min F16 0x3C00 0x7E00) = Some FNaN /\ sf_max F32 0x3F800000 0xBF800000 = Some 0x3F800000 /\ sf_lt F16 0xC000 0x3C00 = Some true /\
  sf_ne F16 0x7E00 0x7E00 = Some true /\ sf_eq F16 0x8000 0 = Some true /\ sf_floor false F16 0xBE00 = Some 0xC000 /\ sf_ceil false F32 0xBFC00000 = Some 0xBF800000 /\
  sf_trunc false true F16 0xBE00 = Some 0xBC00 /\ sf_trunc true true F16 0x3E00 = Some 0x3C00 /\ sf_rsqrt true F16 0x4400 = Some 0x3800.
Proof. vm_compute. repeat split. Qed.
Print Assumptions C91_neg. Print Assumptions C91_abs. Print Assumptions C91_min. Print Assumptions C91_max. Print Assumptions C91_compare. Print Assumptions C91_floor.
Print Assumptions C91_ceil. Print Assumptions C91_trunc. Print Assumptions C91_rsqrt. Print Assumptions C91_rsqrt_f16.
