(** C64 to C69: the x86 operators on floating-point vectors. *)
From Coq Require Import ZArith Lia List Bool.
From Verif Require Import CInt BitLemmas FloatSpec FloatProofs Fp16Spec Fp16 Fp16Proofs ScalarOps ScalarSpec ScalarProofs RoundEven RoundEvenProofs
  X86Deg234 X86Arith X86ArithSpec X86LaneLemmas X86ArithProofs X86EmulProofs X86LogicProofs X86SelectProofs X86RedProofs
  X86Mem X86MemSpec X86MemProofs X86MemProofs2 X86Cvt X86CvtSpec X86CvtProofs X86CvtProofs2 X86Float X86FloatSpec
  X86FloatProofs X86FloatProofs2 X86FloatProofs3 X86FloatProofs4 X86FloatProofs5 X86FloatProofs6 X86FloatProofs7.
Import ListNotations.
Open Scope Z_scope.

(** ** C64: comparisons and if_else1 *)

Theorem C64_compare : forall e t a b, is_float t = true -> in_reg (nb e) a -> in_reg (nb e) b ->
  logical e (uty t) (x_eqf e t a b) (fun i => is (rel t a b i) Equal) /\
  logical e (uty t) (x_nef e t a b) (fun i => negb (is (rel t a b i) Equal)) /\
  logical e (uty t) (x_gtf e t a b) (fun i => is (rel t a b i) Greater) /\
  logical e (uty t) (x_ltf e t a b) (fun i => is (rel t a b i) Less) /\
  logical e (uty t) (x_gef e t a b) (fun i => is (rel t a b i) Greater || is (rel t a b i) Equal) /\
  logical e (uty t) (x_lef e t a b) (fun i => is (rel t a b i) Less || is (rel t a b i) Equal).
Proof.
  intros e t a b F Ha Hb. repeat split; [apply x_eqf_ok|apply x_nef_ok|apply x_gtf_ok|apply x_ltf_ok|apply x_gef_ok|apply x_lef_ok]; assumption.
Qed.
Print Assumptions C64_compare.

Theorem C64_compare_f16 : forall e a b, in_reg16 e a -> in_reg16 e b ->
  logical16 e (x_eq16 e a b) (fun i => is (rel16 e a b i) Equal) /\
  logical16 e (x_ne16 e a b) (fun i => negb (is (rel16 e a b i) Equal)) /\
  logical16 e (x_gt16 e a b) (fun i => is (rel16 e a b i) Greater) /\
  logical16 e (x_lt16 e a b) (fun i => is (rel16 e a b i) Less) /\
  logical16 e (x_ge16 e a b) (fun i => is (rel16 e a b i) Greater || is (rel16 e a b i) Equal) /\
  logical16 e (x_le16 e a b) (fun i => is (rel16 e a b i) Less || is (rel16 e a b i) Equal).
Proof.
  intros e a b Ha Hb.
  pose proof (cmp16 e (x_eqf e MF32) (fun x y => is (compare x y) Equal) a b (fun a b => x_eqf_ok e MF32 a b eq_refl) Ha Hb) as C1.
  pose proof (cmp16 e (x_nef e MF32) (fun x y => negb (is (compare x y) Equal)) a b (fun a b => x_nef_ok e MF32 a b eq_refl) Ha Hb) as C2.
  pose proof (cmp16 e (x_gtf e MF32) (fun x y => is (compare x y) Greater) a b (fun a b => x_gtf_ok e MF32 a b eq_refl) Ha Hb) as C3.
  pose proof (cmp16 e (x_ltf e MF32) (fun x y => is (compare x y) Less) a b (fun a b => x_ltf_ok e MF32 a b eq_refl) Ha Hb) as C4.
  pose proof (cmp16 e (x_gef e MF32) (fun x y => is (compare x y) Greater || is (compare x y) Equal) a b (fun a b => x_gef_ok e MF32 a b eq_refl) Ha Hb) as C5.
  pose proof (cmp16 e (x_lef e MF32) (fun x y => is (compare x y) Less || is (compare x y) Equal) a b (fun a b => x_lef_ok e MF32 a b eq_refl) Ha Hb) as C6.
  exact (conj C1 (conj C2 (conj C3 (conj C4 (conj C5 C6))))).
Qed.
Print Assumptions C64_compare_f16.

Theorem C64_if_else : forall e t l p a b, is_float t = true -> in_reg (nb e) a -> in_reg (nb e) b -> logical e (uty t) l p ->
  vectorf e t (x_if_else1f e t l a b) (fun i x => x = if p i then pattern t a i else pattern t b i).
Proof.
  intros e t l p a b F Ha Hb L. destruct (x_if_else1f_ok e t l p a b F Ha Hb L) as [R S]. split; [exact R|]. intros i Hi.
  rewrite !pattern_lane. apply S. exact Hi.
Qed.
Print Assumptions C64_if_else.
Theorem C64_if_else_f16 : forall e l p a b, in_reg16 e a -> in_reg16 e b -> logical16 e l p ->
  vector16 e (x_if_else16 e l a b) (fun i x => x = if p i then pattern16 e a i else pattern16 e b i).
Proof. intros e l p a b Ha Hb L. apply if_else16_ok; assumption. Qed.
Print Assumptions C64_if_else_f16.

(** On an unordered pair every comparison but [ne] is false: [ge] is not the negation of [lt]. *)
Theorem C64_unordered : forall e t a b i, is_float t = true -> in_reg (nb e) a -> in_reg (nb e) b -> 0 <= i < elems e t ->
  value t a i = FNaN \/ value t b i = FNaN ->
  exists lt ge ne, logical e (uty t) (x_ltf e t a b) lt /\ logical e (uty t) (x_gef e t a b) ge /\ logical e (uty t) (x_nef e t a b) ne /\
    lt i = false /\ ge i = false /\ ne i = true.
Proof.
  intros e t a b i F Ha Hb Hi N. destruct (C64_compare e t a b F Ha Hb) as (_ & L2 & _ & L4 & L5 & _).
  eexists. eexists. eexists. split; [exact L4|]. split; [exact L5|]. split; [exact L2|]. cbv beta.
  assert (U : rel t a b i = Unordered) by (unfold rel; destruct N as [-> | ->]; [reflexivity|destruct (value t a i); reflexivity]).
  rewrite U. repeat split.
Qed.
Print Assumptions C64_unordered.
Theorem C64_ge_not_lt_refuted : ~ (forall e t a b, is_float t = true -> in_reg (nb e) a -> in_reg (nb e) b ->
  forall lt ge, logical e (uty t) (x_ltf e t a b) lt -> logical e (uty t) (x_gef e t a b) ge ->
  forall i, 0 <= i < elems e t -> ge i = negb (lt i)).
Proof.
  intros C. specialize (C Sse2 MF32 0x7FC00000 0 eq_refl ltac:(vm_compute; split; congruence) ltac:(vm_compute; split; congruence)).
  destruct (C64_compare Sse2 MF32 0x7FC00000 0 eq_refl ltac:(vm_compute; split; congruence) ltac:(vm_compute; split; congruence)) as (_ & _ & _ & L4 & L5 & _).
  specialize (C _ _ L4 L5 0 ltac:(vm_compute; split; congruence)). vm_compute in C. discriminate C.
Qed.
Print Assumptions C64_ge_not_lt_refuted.

(** 1.0, -0.0, NaN, +inf against 2.0, +0.0, 1.0, -inf *)
Definition ex_a := 0x3F800000 + 0x80000000 * 2 ^ 32 + 0x7FC00000 * 2 ^ 64 + 0x7F800000 * 2 ^ 96.
Definition ex_b := 0x40000000 + 0 * 2 ^ 32 + 0x3F800000 * 2 ^ 64 + 0xFF800000 * 2 ^ 96.
Example C64_example : in_reg (nb Sse2) ex_a /\ in_reg (nb Sse2) ex_b /\
  map (rel MF32 ex_a ex_b) [0; 1; 2; 3] = [Less; Equal; Unordered; Greater] /\
  x_ltf Sse2 MF32 ex_a ex_b = 2 ^ 32 - 1 /\ x_eqf Sse2 MF32 ex_a ex_b = (2 ^ 32 - 1) * 2 ^ 32 /\
  x_nef Sse2 MF32 ex_a ex_b = 2 ^ 128 - 2 ^ 64 + 2 ^ 32 - 1.
Proof. repeat split; vm_compute; congruence. Qed.

(** ** C65: neg, abs, min, max *)

Theorem C65_neg : forall e t a, is_float t = true -> in_reg (nb e) a ->
  vectorf e t (x_negf e t a) (fun i x => decode (format t) x = opposite (value t a i) /\ x = s_negf t (pattern t a i)).
Proof.
  intros e t a F Ha. destruct (x_negf_ok e t a F Ha) as [R L]. split; [exact R|]. intros i Hi.
  rewrite !pattern_lane, L by exact Hi. split; [|reflexivity]. rewrite value_lane. apply fopp_opposite; [exact F|]. apply lane_range. fcase t F; cbn; lia.
Qed.
Print Assumptions C65_neg.
(** The absolute value, with the sign bit of a NaN cleared too. *)
Theorem C65_abs : forall e t a, is_float t = true -> in_reg (nb e) a ->
  vectorf e t (x_absf e t a) (fun i x => decode (format t) x = absolute (value t a i) /\ x = pattern t a i mod 2 ^ (mw t - 1)).
Proof.
  intros e t a F Ha. destruct (x_absf_ok e t a F Ha) as [R L]. split; [exact R|]. intros i Hi.
  rewrite !pattern_lane, L by exact Hi. split; [|reflexivity]. rewrite value_lane. apply mod_absolute; [exact F|]. apply lane_range. fcase t F; cbn; lia.
Qed.
Print Assumptions C65_abs.
(** The scalar abs leaves -0.0 negative. *)
Theorem C65_abs_like_scalar_refuted : ~ (forall e t a, is_float t = true -> in_reg (nb e) a ->
  vectorf e t (x_absf e t a) (fun i x => x = s_absf t (pattern t a i))).
Proof.
  intros C. destruct (C Sse2 MF32 0x80000000 eq_refl ltac:(vm_compute; split; congruence)) as [_ V].
  specialize (V 0 ltac:(vm_compute; split; congruence)). vm_compute in V. discriminate V.
Qed.
Print Assumptions C65_abs_like_scalar_refuted.
Theorem C65_min : forall e t a b, is_float t = true ->
  vectorf e t (x_minf e t a b) (fun i x => x = (if is (rel t a b i) Less then pattern t a i else pattern t b i) /\
    x = s_minf t (pattern t a i) (pattern t b i)).
Proof.
  intros e t a b F. destruct (x_minf_ok e t a b F) as [R L]. split; [exact R|]. intros i Hi. rewrite !pattern_lane, L by exact Hi.
  split; [reflexivity|]. unfold s_minf. rewrite flt_less. reflexivity.
Qed.
Print Assumptions C65_min.
Theorem C65_max : forall e t a b, is_float t = true ->
  vectorf e t (x_maxf e t a b) (fun i x => x = (if is (rel t a b i) Greater then pattern t a i else pattern t b i) /\
    x = s_maxf t (pattern t a i) (pattern t b i)).
Proof.
  intros e t a b F. destruct (x_maxf_ok e t a b F) as [R L]. split; [exact R|]. intros i Hi. rewrite !pattern_lane, L by exact Hi.
  split; [reflexivity|]. unfold s_maxf. rewrite flt_greater. reflexivity.
Qed.
Print Assumptions C65_max.
(** The value is that of the smaller, the larger element; when one is NaN, the second operand is returned. *)
Theorem C65_min_value : forall e t a b, is_float t = true ->
  vectorf e t (x_minf e t a b) (fun i x =>
    match rel t a b i with
    | Less => x = pattern t a i
    | Equal => compare (decode (format t) x) (value t a i) = Equal /\ compare (decode (format t) x) (value t b i) = Equal
    | Greater | Unordered => x = pattern t b i
    end).
Proof.
  intros e t a b F. destruct (C65_min e t a b F) as [R L]. split; [exact R|]. intros i Hi. destruct (L i Hi) as [E _].
  destruct (rel t a b i) eqn:Q; cbn [is] in E; try exact E. rewrite E. fold (value t b i). unfold rel in Q.
  destruct (value t a i) as [|s|s m], (value t b i) as [|s'|s' m']; cbn [compare] in *; try discriminate Q.
  - destruct s, s'; cbn in *; try discriminate Q; split; reflexivity.
  - destruct s; discriminate Q.
  - destruct s'; discriminate Q.
  - destruct (Z.compare_spec (sval s m) (sval s' m')) as [V|V|V]; try discriminate Q. rewrite V, Z.compare_refl. split; reflexivity.
Qed.
Print Assumptions C65_min_value.
Theorem C65_max_value : forall e t a b, is_float t = true ->
  vectorf e t (x_maxf e t a b) (fun i x =>
    match rel t a b i with
    | Greater => x = pattern t a i
    | Equal => compare (decode (format t) x) (value t a i) = Equal /\ compare (decode (format t) x) (value t b i) = Equal
    | Less | Unordered => x = pattern t b i
    end).
Proof.
  intros e t a b F. destruct (C65_max e t a b F) as [R L]. split; [exact R|]. intros i Hi. destruct (L i Hi) as [E _].
  destruct (rel t a b i) eqn:Q; cbn [is] in E; try exact E. rewrite E. fold (value t b i). unfold rel in Q.
  destruct (value t a i) as [|s|s m], (value t b i) as [|s'|s' m']; cbn [compare] in *; try discriminate Q.
  - destruct s, s'; cbn in *; try discriminate Q; split; reflexivity.
  - destruct s; discriminate Q.
  - destruct s'; discriminate Q.
  - destruct (Z.compare_spec (sval s m) (sval s' m')) as [V|V|V]; try discriminate Q. rewrite V, Z.compare_refl. split; reflexivity.
Qed.
Print Assumptions C65_max_value.
(** min is not commutative, even up to the value. *)
Theorem C65_min_commutes_refuted : ~ (forall e t a b i, is_float t = true -> 0 <= i < elems e t ->
  value t (x_minf e t a b) i = value t (x_minf e t b a) i).
Proof. intros C. specialize (C Sse2 MF32 0x7FC00000 0 0 eq_refl ltac:(vm_compute; split; congruence)). vm_compute in C. discriminate C. Qed.
Print Assumptions C65_min_commutes_refuted.
(** f16: the same in single precision. *)
Theorem C65_f16 : forall e a b, in_reg16 e a -> in_reg16 e b ->
  vector16 e (x_neg16 e a) (fun i x => decode binary32 x = opposite (value16 e a i)) /\
  vector16 e (x_abs16 e a) (fun i x => decode binary32 x = absolute (value16 e a i)) /\
  vector16 e (x_min16 e a b) (fun i x => x = if is (rel16 e a b i) Less then pattern16 e a i else pattern16 e b i) /\
  vector16 e (x_max16 e a b) (fun i x => x = if is (rel16 e a b i) Greater then pattern16 e a i else pattern16 e b i).
Proof.
  intros e a b [A0 A1] [B0 B1]. unfold value16, rel16, value16.
  assert (P0 : forall v i, 0 <= i < elems e MF32 -> pattern16 e v i = pattern MF32 (fst v) i) by (intros v i Hi; rewrite pattern_lane; apply pattern16_lo; exact Hi).
  assert (P1 : forall v i, 0 <= i < elems e MF32 -> pattern16 e v (i + nb e / 32) = pattern MF32 (snd v) i) by (intros v i Hi; rewrite pattern_lane; apply pattern16_hi; exact Hi).
  split; [|split; [|split]].
  { apply vec16_of; cbn [x_neg16 on_halves1 fst snd]; (split; [apply (C65_neg e MF32); assumption || reflexivity|]); intros i Hi.
    - rewrite !P0 by exact Hi. exact (proj1 (proj2 (C65_neg e MF32 _ eq_refl A0) i Hi)).
    - rewrite !P1 by exact Hi. exact (proj1 (proj2 (C65_neg e MF32 _ eq_refl A1) i Hi)). }
  { apply vec16_of; cbn [x_abs16 on_halves1 fst snd]; (split; [apply (C65_abs e MF32); assumption || reflexivity|]); intros i Hi.
    - rewrite !P0 by exact Hi. exact (proj1 (proj2 (C65_abs e MF32 _ eq_refl A0) i Hi)).
    - rewrite !P1 by exact Hi. exact (proj1 (proj2 (C65_abs e MF32 _ eq_refl A1) i Hi)). }
  { apply vec16_of; cbn [x_min16 on_halves2 fst snd]; (split; [apply (C65_min e MF32); assumption || reflexivity|]); intros i Hi.
    - rewrite !P0 by exact Hi. exact (proj1 (proj2 (C65_min e MF32 (fst a) (fst b) eq_refl) i Hi)).
    - rewrite !P1 by exact Hi. exact (proj1 (proj2 (C65_min e MF32 (snd a) (snd b) eq_refl) i Hi)). }
  { apply vec16_of; cbn [x_max16 on_halves2 fst snd]; (split; [apply (C65_max e MF32); assumption || reflexivity|]); intros i Hi.
    - rewrite !P0 by exact Hi. exact (proj1 (proj2 (C65_max e MF32 (fst a) (fst b) eq_refl) i Hi)).
    - rewrite !P1 by exact Hi. exact (proj1 (proj2 (C65_max e MF32 (snd a) (snd b) eq_refl) i Hi)). }
Qed.
Print Assumptions C65_f16.
Example C65_example : map (pattern MF32 (x_minf Sse2 MF32 ex_a ex_b)) [0; 1; 2; 3] = [0x3F800000; 0; 0x3F800000; 0xFF800000] /\
  map (pattern MF32 (x_maxf Sse2 MF32 ex_a ex_b)) [0; 1; 2; 3] = [0x40000000; 0; 0x3F800000; 0x7F800000] /\
  map (pattern MF32 (x_absf Sse2 MF32 ex_b)) [0; 1; 2; 3] = [0x40000000; 0; 0x3F800000; 0x7F800000].
Proof. repeat split; vm_compute; reflexivity. Qed.

(** ** C66: rounding to integers *)

Theorem C66_floor : forall e t undef a, is_float t = true -> in_reg (nb e) undef -> in_reg (nb e) a ->
  exists r, x_floorf e t undef a = Some r /\
    vectorf e t r (fun i x => rounded (format t) (down (format t)) (value t a i) (decode (format t) x)).
Proof. exact x_floorf_ok. Qed.
Print Assumptions C66_floor.
Theorem C66_ceil : forall e t undef a, is_float t = true -> in_reg (nb e) undef -> in_reg (nb e) a ->
  exists r, x_ceilf e t undef a = Some r /\
    vectorf e t r (fun i x => rounded (format t) (up (format t)) (value t a i) (decode (format t) x)).
Proof. exact x_ceilf_ok. Qed.
Print Assumptions C66_ceil.
Theorem C66_trunc : forall e t undef a, is_float t = true -> in_reg (nb e) undef -> in_reg (nb e) a ->
  exists r, x_truncf e t undef a = Some r /\
    vectorf e t r (fun i x => rounded (format t) (toward_zero (format t)) (value t a i) (decode (format t) x)).
Proof. exact x_truncf_ok. Qed.
Print Assumptions C66_trunc.
Theorem C66_round_to_even : forall e t undef a, is_float t = true -> in_reg (nb e) undef -> in_reg (nb e) a ->
  exists r, x_round_to_evenf e t undef a = Some r /\
    vectorf e t r (fun i x => rounded (format t) (nearest (format t)) (value t a i) (decode (format t) x)).
Proof. exact x_round_to_evenf_ok. Qed.
Print Assumptions C66_round_to_even.
Theorem C66_f16 : forall e undef v, in_reg (nb e) undef -> in_reg16 e v ->
  (exists r, round16 x_floorf e undef v = Some r /\ vector16 e r (fun i x => rounded binary32 (down binary32) (value16 e v i) (decode binary32 x))) /\
  (exists r, round16 x_ceilf e undef v = Some r /\ vector16 e r (fun i x => rounded binary32 (up binary32) (value16 e v i) (decode binary32 x))) /\
  (exists r, round16 x_truncf e undef v = Some r /\ vector16 e r (fun i x => rounded binary32 (toward_zero binary32) (value16 e v i) (decode binary32 x))) /\
  (exists r, round16 x_round_to_evenf e undef v = Some r /\ vector16 e r (fun i x => rounded binary32 (nearest binary32) (value16 e v i) (decode binary32 x))).
Proof.
  intros e undef v Hu Hv.
  split; [apply (round16_ok e x_floorf down)|split; [apply (round16_ok e x_ceilf up)|split; [apply (round16_ok e x_truncf toward_zero)|apply (round16_ok e x_round_to_evenf nearest)]]];
    try exact Hv; intros a Ha; [apply x_floorf_ok|apply x_ceilf_ok|apply x_truncf_ok|apply x_round_to_evenf_ok]; try reflexivity; assumption.
Qed.
Print Assumptions C66_f16.
(** The direction decides the pattern of the result: any two vectors of correctly rounded elements agree on the finite elements, whatever the extensions. *)
Theorem C66_same_on_every_extension : forall (P : fmt -> Z -> Z -> Prop) e e' t a a' r r' i i', is_float t = true ->
  P = down \/ P = up \/ P = toward_zero \/ P = nearest ->
  vectorf e t r (fun i x => rounded (format t) (P (format t)) (value t a i) (decode (format t) x)) ->
  vectorf e' t r' (fun i x => rounded (format t) (P (format t)) (value t a' i) (decode (format t) x)) ->
  0 <= i < elems e t -> 0 <= i' < elems e' t -> pattern t a i = pattern t a' i' ->
  (exists s m, value t a i = FFin s m) -> pattern t r i = pattern t r' i'.
Proof.
  intros P e e' t a a' r r' i i' F HP [_ V] [_ V'] Hi Hi' E (s & m & Fin). specialize (V i Hi). specialize (V' i' Hi').
  assert (Ev : value t a' i' = value t a i) by (unfold value; rewrite E; reflexivity). rewrite Ev in V'.
  assert (G : good_fmt (format t)) by apply mfmt_good.
  assert (U : forall x k k', P (format t) x k -> P (format t) x k' -> k = k').
  { destruct HP as [->|[->|[->| ->]]]; [apply down_unique|apply up_unique|apply zero_unique|apply nearest_unique]; exact G. }
  pose proof (rounded_unique (format t) (P (format t)) _ _ _ G U V V') as D.
  rewrite Fin in V. cbn [rounded] in V. destruct V as (m1 & k & D1 & _).
  apply (decode_inj (format t) _ _ s m1 G).
  - rewrite pattern_lane. apply (lane_pat t r i F).
  - rewrite pattern_lane. apply (lane_pat t r' i' F).
  - exact D1.
  - rewrite <- D. exact D1.
Qed.
Print Assumptions C66_same_on_every_extension.
(** -1.5, 2.5, 0.5, -inf *)
Definition ex_r := 0xBFC00000 + 0x40200000 * 2 ^ 32 + 0x3F000000 * 2 ^ 64 + 0xFF800000 * 2 ^ 96.
Example C66_example : in_reg (nb Sse42) ex_r /\
  option_map (fun r => map (pattern MF32 r) [0; 1; 2; 3]) (x_floorf Sse2 MF32 0 ex_r) = Some [0xC0000000; 0x40000000; 0; 0xFF800000] /\
  option_map (fun r => map (pattern MF32 r) [0; 1; 2; 3]) (x_truncf Sse42 MF32 0 ex_r) = Some [0xBF800000; 0x40000000; 0; 0xFF800000] /\
  option_map (fun r => map (pattern MF32 r) [0; 1; 2; 3]) (x_round_to_evenf Sse2 MF32 0 ex_r) = Some [0xC0000000; 0x40000000; 0; 0xFF800000].
Proof. repeat split; vm_compute; congruence. Qed.

(** ** C67: addv *)

(** Each element is added once, in a fixed order that depends on the extension only; every addition is the correctly rounded one. *)
Theorem C67_addv : forall e t a, is_float t = true ->
  x_addvf e t a = sum (fadd (format t)) (addv_order e t) (pattern t a) /\ each_once (elems e t) (addv_order e t).
Proof. intros e t a F. split; [apply x_addvf_order; exact F|apply addv_order_once; exact F]. Qed.
Print Assumptions C67_addv.
(** f16: in single precision, rounded once to a half. *)
Theorem C67_addv_f16 : forall e v,
  x_addv16 e v = f32_to_u16 (sum (fadd binary32) (addv_order16 e) (pattern16 e v)) /\ each_once (nb e / 16) (addv_order16 e).
Proof. intros e v. split; [apply x_addv16_order|apply addv_order16_once]. Qed.
Print Assumptions C67_addv_f16.
(** When all the sums fit in a significand, the result is the exact sum on every extension. *)
Theorem C67_exact : forall e t a j n, is_float t = true -> small_sum (format t) (elems e t) (value t a) j n ->
  exists s m, decode (format t) (x_addvf e t a) = FFin s m /\ sval s m = total (elems e t) n * 2 ^ j.
Proof. exact x_addvf_exact. Qed.
Print Assumptions C67_exact.
Theorem C67_exact_f16 : forall e v j n, small_sum binary32 (nb e / 16) (value16 e v) j n ->
  exists b s m, x_addv16 e v = f32_to_u16 b /\ decode binary32 b = FFin s m /\ sval s m = total (nb e / 16) n * 2 ^ j.
Proof. exact x_addv16_exact. Qed.
Print Assumptions C67_exact_f16.
(** In general the order matters: the emulation, from the first element to the last, gives another result. *)
Definition ex_sum := 0x4B800000 + 0 * 2 ^ 32 + 0x3F800000 * 2 ^ 64 + 0x3F800000 * 2 ^ 96.
Theorem C67_like_emulation_refuted : ~ (forall e t a, is_float t = true ->
  x_addvf e t a = sum (fadd (format t)) (left_to_right (Z.to_nat (elems e t) - 1)) (pattern t a)).
Proof. intros C. specialize (C Sse2 MF32 ex_sum eq_refl). vm_compute in C. discriminate C. Qed.
Print Assumptions C67_like_emulation_refuted.
(** 3.0, -1.0, 0.5, 1.0 *)
Definition ex_exact := 0x40400000 + 0xBF800000 * 2 ^ 32 + 0x3F000000 * 2 ^ 64 + 0x3F800000 * 2 ^ 96.
Example C67_example : small_sum binary32 4 (value MF32 ex_exact) 148 (fun i => if i =? 0 then 6 else if i =? 1 then -2 else if i =? 2 then 1 else 2) /\
  x_addvf Sse2 MF32 ex_exact = 0x40600000.
Proof.
  split; [|vm_compute; reflexivity]. split; [vm_compute; split; congruence|]. split; [|vm_compute; congruence].
  intros i Hi. assert (C : i = 0 \/ i = 1 \/ i = 2 \/ i = 3) by lia.
  destruct C as [->|[->|[->| ->]]]; eexists; eexists; (split; [vm_compute; reflexivity|vm_compute; reflexivity]).
Qed.

(** ** C68: logicals of floats: reductions, masks, memory, loop tails *)

Theorem C68_all_any_nbtrue : forall e t l p, is_float t = true -> logical e (uty t) l p ->
  (x_allf e t l = true <-> (forall i, 0 <= i < elems e t -> p i = true)) /\
  (x_anyf e t l = true <-> (exists i, 0 <= i < elems e t /\ p i = true)) /\
  x_nbtruef e t l = count_true (elems e t) p.
Proof. intros e t l p F L. split; [apply x_allf_ok|split; [apply x_anyf_ok|apply x_nbtruef_ok]]; assumption. Qed.
Print Assumptions C68_all_any_nbtrue.
Theorem C68_all_any_nbtrue_f16 : forall e l p, logical16 e l p ->
  (x_all16 e l = true <-> (forall i, 0 <= i < nb e / 16 -> p i = true)) /\
  (x_any16 e l = true <-> (exists i, 0 <= i < nb e / 16 /\ p i = true)) /\
  x_nbtrue16 e l = count_true (nb e / 16) p.
Proof. intros e l p L. split; [apply x_all16_ok|split; [apply x_any16_ok|apply x_nbtrue16_ok]]; assumption. Qed.
Print Assumptions C68_all_any_nbtrue_f16.
Theorem C68_to_mask : forall e t l p, is_float t = true -> logical e (uty t) l p ->
  vectorf e t (x_to_maskf e t l) (fun i x => x = if p i then 2 ^ mw t - 1 else 0).
Proof. exact x_to_maskf_ok. Qed.
Print Assumptions C68_to_mask.
Theorem C68_to_mask_f16 : forall e l p, logical16 e l p -> vector16 e (x_to_mask16 e l) (fun i x => x = if p i then 2 ^ 32 - 1 else 0).
Proof. exact x_to_mask16_ok. Qed.
Print Assumptions C68_to_mask_f16.
(** to_logical looks at the bits: -0.0 is true. *)
Theorem C68_to_logical : forall e t a, is_float t = true -> in_reg (nb e) a ->
  logical e (uty t) (x_to_logicalf e t a) (fun i => negb (pattern t a i =? 0)).
Proof. exact x_to_logicalf_ok. Qed.
Print Assumptions C68_to_logical.
Theorem C68_to_logical_f16 : forall e v, in_reg16 e v -> logical16 e (x_to_logical16 e v) (fun i => negb (pattern16 e v i =? 0)).
Proof. exact x_to_logical16_ok. Qed.
Print Assumptions C68_to_logical_f16.
(** loadl compares with zero: -0.0 is false. *)
Theorem C68_loadl : forall e t m a, is_float t = true -> (forall i, 0 <= i < elems e t -> mapped (mw t) m (a + i * (mw t / 8))) ->
  exists l x, x_loadlf e t m a = Some l /\
    (forall i, 0 <= i < elems e t -> holds (mw t) m (a + i * (mw t / 8)) (x i)) /\
    logical e (uty t) l (fun i => nonzero (format t) (x i)).
Proof. exact x_loadlf_ok. Qed.
Print Assumptions C68_loadl.
Theorem C68_storel : forall e t m a l p, is_float t = true -> logical e (uty t) l p ->
  (forall i, 0 <= i < elems e t -> mapped (mw t) m (a + i * (mw t / 8))) ->
  exists m' x, x_storelf e t m a l = Some m' /\
    (forall i, 0 <= i < elems e t -> holds (mw t) m' (a + i * (mw t / 8)) (x i) /\
       decode (format t) (x i) = FFin false (if p i then one (format t) else 0)) /\
    (forall k, k < a \/ a + elems e t * (mw t / 8) <= k -> m' k = m k).
Proof. exact x_storelf_ok. Qed.
Print Assumptions C68_storel.
(** What [storel] wrote, [loadl] reads back. *)
Theorem C68_round_trip : forall e t m a l p, is_float t = true -> logical e (uty t) l p ->
  (forall i, 0 <= i < elems e t -> mapped (mw t) m (a + i * (mw t / 8))) ->
  exists m' l', x_storelf e t m a l = Some m' /\ x_loadlf e t m' a = Some l' /\ logical e (uty t) l' p.
Proof.
  intros e t m a l p F L Mp. destruct (float_in t F) as (H & B & M).
  destruct (C68_storel e t m a l p F L Mp) as (m' & x & E & A & _).
  assert (Mp' : forall i, 0 <= i < elems e t -> mapped (mw t) m' (a + i * (mw t / 8))) by (intros i Hi; eapply holds_mapped; apply A; exact Hi).
  destruct (C68_loadl e t m' a F Mp') as (l' & y & E' & A' & L'). exists m', l'. split; [exact E|]. split; [exact E'|].
  eapply logical_ext; [exact L'|]. intros i Hi. rewrite B in Hi. cbv beta. unfold nonzero. destruct (A i Hi) as [Hh D].
  rewrite (holds_unique _ _ _ _ _ (ok8_mw t M) (A' i Hi) Hh), D. assert (O := one_pos (format t) (mfmt_good t)). cbn [compare].
  destruct (p i); unfold sval; [|reflexivity]. destruct (Z.compare_spec (one (format t)) 0); try lia; reflexivity.
Qed.
Print Assumptions C68_round_trip.
(** f16: AVX-512 looks at the bits, the others at the value; both store 1.0 and 0.0. *)
Theorem C68_loadl_f16 : forall e m a, (forall i, 0 <= i < nb e / 16 -> mapped 16 m (a + i * 2)) ->
  exists l h, x_loadl16 e m a = Some l /\
    (forall i, 0 <= i < nb e / 16 -> holds 16 m (a + i * 2) (h i)) /\
    logical16 e l (fun i => half_true e (h i)).
Proof. exact x_loadl16_ok. Qed.
Print Assumptions C68_loadl_f16.
Theorem C68_storel_f16 : forall e m a l p, logical16 e l p -> (forall i, 0 <= i < nb e / 16 -> mapped 16 m (a + i * 2)) ->
  exists m', x_storel16 e m a l = Some m' /\
    (forall i, 0 <= i < nb e / 16 -> holds 16 m' (a + i * 2) (if p i then 0x3C00 else 0)) /\
    (forall k, k < a \/ a + nb e / 16 * 2 <= k -> m' k = m k).
Proof. exact x_storel16_ok. Qed.
Print Assumptions C68_storel_f16.
Theorem C68_round_trip_f16 : forall e m a l p, logical16 e l p -> (forall i, 0 <= i < nb e / 16 -> mapped 16 m (a + i * 2)) ->
  exists m' l', x_storel16 e m a l = Some m' /\ x_loadl16 e m' a = Some l' /\ logical16 e l' p.
Proof.
  intros e m a l p L Mp. destruct (C68_storel_f16 e m a l p L Mp) as (m' & E & A & _).
  assert (Mp' : forall i, 0 <= i < nb e / 16 -> mapped 16 m' (a + i * 2)) by (intros i Hi; eapply holds_mapped; apply A; exact Hi).
  destruct (C68_loadl_f16 e m' a Mp') as (l' & h & E' & A' & L'). exists m', l'. split; [exact E|]. split; [exact E'|].
  assert (X : forall i, 0 <= i < nb e / 16 -> half_true e (h i) = p i).
  { intros i Hi. rewrite (holds_unique 16 _ _ _ _ ltac:(split; reflexivity) (A' i Hi) (A i Hi)). unfold half_true. destruct (is512 e), (p i); vm_compute; reflexivity. }
  pose proof (halves e) as HH. destruct L' as [L0 L1]. split; (eapply logical_ext; [eassumption|]); intros i Hi; change (bits u32) with 32 in Hi; cbv beta; apply X; lia.
Qed.
Print Assumptions C68_round_trip_f16.
(** The three readings of a -0.0 differ. *)
Theorem C68_minus_zero : forall t, is_float t = true ->
  let z := 2 ^ (mw t - 1) in decode (format t) z = FFin true 0 /\ nonzero (format t) z = false /\ negb (z =? 0) = true.
Proof. intros t F. fcase t F; vm_compute; repeat split. Qed.
Print Assumptions C68_minus_zero.
Theorem C68_loadl_f16_portable_refuted : ~ (forall e e' h, in_u 16 h -> half_true e h = half_true e' h).
Proof. intros C. specialize (C Avx2 Avx512Skylake 0x8000 ltac:(split; vm_compute; congruence)). vm_compute in C. discriminate C. Qed.
Print Assumptions C68_loadl_f16_portable_refuted.
Theorem C68_iota : forall e t, is_float t = true ->
  vectorf e t (x_iotaf e t) (fun i x => decode (format t) x = FFin false (i * one (format t))).
Proof.
  intros e t F. destruct (x_iotaf_ok e t F) as [R L]. split; [exact R|]. intros i Hi. rewrite pattern_lane, L by exact Hi.
  pose proof (elems_small e t F). unfold elems in Hi. change (format t) with (mfmt t). rewrite (proj1 (float_of_int_ok t i F ltac:(lia))). rewrite Z.abs_eq by lia. replace (i <? 0) with false by lia. reflexivity.
Qed.
Print Assumptions C68_iota.
Theorem C68_iota_f16 : forall e, vector16 e (x_iota16 e) (fun i x => decode binary32 x = FFin false (i * one binary32)).
Proof.
  intros e. destruct (x_iota16_ok e) as [R L]. split; [exact R|]. intros i Hi. rewrite L by exact Hi. assert (nb e / 16 <= 32) by (destruct e; cbn; lia).
  pose proof (proj1 (float_of_int_ok MF32 i eq_refl ltac:(lia))) as D. cbn [mfmt] in D. rewrite D. rewrite Z.abs_eq by lia. replace (i <? 0) with false by lia. reflexivity.
Qed.
Print Assumptions C68_iota_f16.
Theorem C68_loop_tail : forall e t i n, is_float t = true -> in_ty i32 (n - i) ->
  exists l, x_mask_for_loop_tailf e t i n = Some l /\ logical e (uty t) l (fun k => i + k <? n).
Proof. exact tailf_ok. Qed.
Print Assumptions C68_loop_tail.
Theorem C68_loop_tail_f16 : forall e i n, in_ty i32 (n - i) ->
  exists l, x_mask_for_loop_tail16 e i n = Some l /\ logical16 e l (fun k => i + k <? n).
Proof. exact tail16_ok. Qed.
Print Assumptions C68_loop_tail_f16.
Theorem C68_set1 : forall e t x, is_float t = true -> 0 <= x < 2 ^ mw t -> vectorf e t (x_set1f e t x) (fun _ y => y = x).
Proof. intros e t x F Hx. destruct (x_set1f_ok e t x F Hx) as [R L]. split; [exact R|]. intros i Hi. rewrite pattern_lane. apply L. exact Hi. Qed.
Print Assumptions C68_set1.
Theorem C68_set1_f16 : forall e h, in_u 16 h -> exists r, x_set16 e h = Some r /\ vector16 e r (fun _ x => half_as_single h x).
Proof. exact x_set16_ok. Qed.
Print Assumptions C68_set1_f16.
Example C68_example :
  x_allf Sse2 MF32 (2 ^ 128 - 1) = true /\ x_allf Sse2 MF32 (2 ^ 128 - 2 ^ 32) = false /\ x_nbtruef Sse2 MF32 (2 ^ 128 - 2 ^ 32) = 3 /\
  option_map (fun l => map (pattern MF32 l) [0; 1; 2; 3]) (x_mask_for_loop_tailf Sse2 MF32 7 9) = Some [2 ^ 32 - 1; 2 ^ 32 - 1; 0; 0] /\
  option_map (fun l => map (pattern MF32 l) [0; 1]) (x_loadlf Sse2 MF32 (fun k => Some (if k =? 3 then 0x80 else if k =? 6 then 0x80 else 0)) 0) = Some [0; 2 ^ 32 - 1].
Proof. repeat split; vm_compute; reflexivity. Qed.

(** ** C69: reinterpret and reinterpretl between f16 and the 16-bit integers *)

Theorem C69_to_f16 : forall e a, in_reg (nb e) a ->
  exists r, x_reinterpret_to16 e a = Some r /\ vector16 e r (fun i x => half_as_single (pattern (MI u16) a i) x).
Proof. exact x_reinterpret_to16_ok. Qed.
Print Assumptions C69_to_f16.
Theorem C69_from_f16 : forall e v, in_reg16 e v ->
  in_reg (nb e) (x_reinterpret_from16 e v) /\
  forall i, 0 <= i < nb e / 16 -> pattern (MI u16) (x_reinterpret_from16 e v) i = f32_to_u16 (pattern16 e v i).
Proof. exact x_reinterpret_from16_ok. Qed.
Print Assumptions C69_from_f16.
(** There and back: every pattern that is not a NaN is kept, NaN's stay NaN's. *)
Theorem C69_round_trip : forall e a, in_reg (nb e) a ->
  exists v, x_reinterpret_to16 e a = Some v /\ in_reg (nb e) (x_reinterpret_from16 e v) /\
    forall i, 0 <= i < nb e / 16 ->
      let h := pattern (MI u16) a i in let h' := pattern (MI u16) (x_reinterpret_from16 e v) i in
      (decode binary16 h <> FNaN -> h' = h) /\ (decode binary16 h = FNaN -> decode binary16 h' = FNaN).
Proof.
  intros e a Ha. destruct (C69_to_f16 e a Ha) as (v & E & R & V). destruct (C69_from_f16 e v R) as [R' V'].
  exists v. split; [exact E|]. split; [exact R'|]. intros i Hi. cbv zeta. rewrite V' by exact Hi. destruct (V i Hi) as [U _].
  destruct (round_trip_l (pattern (MI u16) a i)) as (u & Eu & K1 & K2). { apply Z.mod_pos_bound. reflexivity. }
  rewrite U in Eu. injection Eu as <-. split; assumption.
Qed.
Print Assumptions C69_round_trip.
(** The other way round the significand is cut: reinterpreting an f16 vector as integers keeps halves only. *)
Theorem C69_logicals : forall e l p, logical e u16 l p -> logical16 e (x_reinterpretl_to16 e l) p.
Proof. exact x_reinterpretl_to16_ok. Qed.
Print Assumptions C69_logicals.
Theorem C69_logicals_back : forall e l p, logical16 e l p -> logical e u16 (x_reinterpretl_from16 e l) p.
Proof. exact x_reinterpretl_from16_ok. Qed.
Print Assumptions C69_logicals_back.
(** 1.0, -inf, the smallest subnormal and a signalling NaN come back *)
Definition ex_h := 0x3C00 + 0xFC00 * 2 ^ 16 + 0x0001 * 2 ^ 32 + 0x7C01 * 2 ^ 48.
Example C69_example : in_reg (nb Sse2) ex_h /\
  option_map (fun v => map (pattern (MI u16) (x_reinterpret_from16 Sse2 v)) [0; 1; 2; 4]) (x_reinterpret_to16 Sse2 ex_h) = Some [0x3C00; 0xFC00; 1; 0] /\
  x_reinterpretl_to16 Sse2 (2 ^ 32 - 2 ^ 16) = ((2 ^ 32 - 1) * 2 ^ 32, 0) /\
  x_reinterpretl_from16 Sse2 ((2 ^ 32 - 1) * 2 ^ 32, 0) = 2 ^ 32 - 2 ^ 16.
Proof. repeat split; vm_compute; congruence. Qed.
