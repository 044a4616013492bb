(** C96: arithmetic of the CPU back end on float and f16 vectors. *)
From Coq Require Import ZArith Bool Lia ZifyBool List.
From Verif Require Import CInt FloatSpec Fp16 Fp16Spec Fp16Proofs ScalarOps RoundEven CpuSimd CpuSimdProofs X86Cvt X86CvtSpec FloatProofs X86CvtProofs2 X86CvtProofs4 X86Float X86FloatSpec ArmFloat ArmFloatSpec ArmFloatProofs.
From Verif Require Import FloatArith FloatArithSpec FloatArithProofs FloatArithProofs2 FloatArithProofs6 ScalarFloat FloatArithProofs7 FloatArithProofs8 FloatArithProofs9 PropFloatArith CpuFloatArith CpuFloatSpec FloatVecSpec FloatVecOps FloatVecProofs.
Import ListNotations.
Local Open Scope Z_scope.

Lemma lane_clane r n i : length r = n -> (i < n)%nat -> lane r i = Some (clane r i).
Proof. intros L Hi. unfold lane, clane. apply nth_error_nth'. lia. Qed.
Lemma clane_lane r i x : lane r i = Some x -> clane r i = x.
Proof. intros H. unfold lane, clane in *. apply nth_error_nth. exact H. Qed.
Lemma stored_ty t : lane_ty t = stored t. Proof. destruct t; reflexivity. Qed.
Lemma body_ok t n f (P : nat -> Z -> Prop) : (forall i, (i < n)%nat -> exists x, f i = Some x /\ 0 <= x < 2 ^ fw (stored t) /\ P i x) -> exists r, func_body n f = Some r /\ cvector t n r P.
Proof.
  intros H. destruct (func_body_defined n f) as (r & E). { intros i Hi N. destruct (H i Hi) as (x & Ex & _). congruence. }
  exists r. split; [exact E|]. split; [exact (func_body_length _ _ _ E)|]. intros i Hi. destruct (H i Hi) as (x & Ex & R). pose proof (func_body_lane _ _ _ E i Hi) as L. rewrite Ex in L. rewrite (clane_lane _ _ _ L). exact R.
Qed.
Lemma impl1_ok t n g a (P : Z -> Z -> Prop) : cfloats t n a -> (forall x, 0 <= x < 2 ^ fw (stored t) -> exists r, g x = Some r /\ 0 <= r < 2 ^ fw (stored t) /\ P x r) ->
  exists r, scalar_impl1 n g a = Some r /\ cvector t n r (fun i p => P (clane a i) p).
Proof. intros (La & A) H. apply body_ok. intros i Hi. rewrite (lane_clane a n i La Hi). cbn [bind]. apply H, A, Hi. Qed.
Lemma impl2_ok t n g a b (P : Z -> Z -> Z -> Prop) : cfloats t n a -> cfloats t n b -> (forall x y, 0 <= x < 2 ^ fw (stored t) -> 0 <= y < 2 ^ fw (stored t) -> exists r, g x y = Some r /\ 0 <= r < 2 ^ fw (stored t) /\ P x y r) ->
  exists r, scalar_impl2 n g a b = Some r /\ cvector t n r (fun i p => P (clane a i) (clane b i) p).
Proof. intros (La & A) (Lb & B) H. apply body_ok. intros i Hi. unfold bind2. rewrite (lane_clane a n i La Hi), (lane_clane b n i Lb Hi). cbn [bind]. apply H; [apply A, Hi|apply B, Hi]. Qed.
Lemma impl3_ok t n g a b c (P : Z -> Z -> Z -> Z -> Prop) : cfloats t n a -> cfloats t n b -> cfloats t n c ->
  (forall x y z, 0 <= x < 2 ^ fw (stored t) -> 0 <= y < 2 ^ fw (stored t) -> 0 <= z < 2 ^ fw (stored t) -> exists r, g x y z = Some r /\ 0 <= r < 2 ^ fw (stored t) /\ P x y z r) ->
  exists r, scalar_impl3 n g a b c = Some r /\ cvector t n r (fun i p => P (clane a i) (clane b i) (clane c i) p).
Proof.
  intros (La & A) (Lb & B) (Lc & C) H. apply body_ok. intros i Hi. unfold bind2. rewrite (lane_clane a n i La Hi), (lane_clane b n i Lb Hi), (lane_clane c n i Lc Hi). cbn [bind]. apply H; [apply A, Hi|apply B, Hi|apply C, Hi].
Qed.
Lemma stored_not16 t : stored t <> F16. Proof. destruct t; discriminate. Qed.

(** [+ - * /] *)
Theorem C96_arith o t n a b : cfloats t n a -> cfloats t n b ->
  exists r, c_arith o t n a b = Some r /\ cvector t n r (fun i p => result_is o (ff (stored t)) (cvalue t a i) (cvalue t b i) p).
Proof.
  intros A B. replace (c_arith o t n a b) with (scalar_impl2 n (fun x y => Some (fop o (ff (lane_ty t)) x y)) a b) by (destruct o; reflexivity).
  apply (impl2_ok t n _ a b (fun x y p => result_is o (ff (stored t)) (decode (ff (stored t)) x) (decode (ff (stored t)) y) p) A B).
  intros x y Hx Hy. eexists. split; [reflexivity|]. rewrite stored_ty. rewrite <- ff_width in *. destruct (fop_is o (ff (stored t)) x y (ff_good _) Hx Hy). auto.
Qed.
(** adds and subs of floats are add and sub *)
Theorem C96_saturated t n a b : cfloats t n a -> cfloats t n b ->
  (exists r, c_addsf t n a b = Some r /\ cvector t n r (fun i p => sum_is (ff (stored t)) (cvalue t a i) (cvalue t b i) p)) /\
  (exists r, c_subsf t n a b = Some r /\ cvector t n r (fun i p => difference_is (ff (stored t)) (cvalue t a i) (cvalue t b i) p)).
Proof.
  intros A B. unfold c_addsf, c_subsf. rewrite stored_ty. split.
  - apply (impl2_ok t n _ a b (fun x y p => sum_is (ff (stored t)) (decode (ff (stored t)) x) (decode (ff (stored t)) y) p) A B). intros. apply sf_add_is; assumption.
  - apply (impl2_ok t n _ a b (fun x y p => difference_is (ff (stored t)) (decode (ff (stored t)) x) (decode (ff (stored t)) y) p) A B). intros. apply sf_sub_is; assumption.
Qed.
Theorem C96_sqrt c99 t n a : cfloats t n a -> exists r, c_sqrtf c99 t n a = Some r /\ cvector t n r (fun i p => root_is (ff (stored t)) (cvalue t a i) p).
Proof. intros A. unfold c_sqrtf. rewrite stored_ty. apply (impl1_ok t n _ a (fun x p => root_is (ff (stored t)) (decode (ff (stored t)) x) p) A). intros. apply sf_sqrt_is; assumption. Qed.
Theorem C96_rec t n a : cfloats t n a -> exists r, c_recf t n a = Some r /\ cvector t n r (fun i p => inverse_is (ff (stored t)) (cvalue t a i) p).
Proof. intros A. unfold c_recf. rewrite stored_ty. apply (impl1_ok t n _ a (fun x p => inverse_is (ff (stored t)) (decode (ff (stored t)) x) p) A). intros. apply sf_rec_is; assumption. Qed.
Theorem C96_rsqrt11 c99 t n a : cfloats t n a -> exists r, c_rsqrt11f c99 t n a = Some r /\ cvector t n r (fun i p => inverse_root (ff (stored t)) (cvalue t a i) p).
Proof.
  intros A. unfold c_rsqrt11f. rewrite stored_ty. apply (impl1_ok t n _ a (fun x p => inverse_root (ff (stored t)) (decode (ff (stored t)) x) p) A).
  intros x Hx. destruct (C91_rsqrt c99 (stored t) x (stored_not16 t) Hx) as (r & _ & _ & E & R & I). exists r. auto.
Qed.
(** In C99 one rounding, in C89 two, also on f16 vectors, whose lanes are singles. *)
Theorem C96_muladd o c99 t n a b c : cfloats t n a -> cfloats t n b -> cfloats t n c ->
  exists r, c_muladd o c99 t n a b c = Some r /\ cvector t n r (fun i p =>
    if c99 then fused_is (ff (stored t)) (factor o (cvalue t a i)) (cvalue t b i) (addend o (cvalue t c i)) p
    else twice_rounded (ff (stored t)) (factor o (cvalue t a i)) (cvalue t b i) (addend o (cvalue t c i)) p).
Proof.
  intros A B C. replace (c_muladd o c99 t n a b c) with (scalar_impl3 n (scalar_muladd o c99 (lane_ty t)) a b c) by (destruct o; reflexivity). rewrite stored_ty.
  apply (impl3_ok t n _ a b c (fun x y z p => if c99 then fused_is (ff (stored t)) (factor o (decode (ff (stored t)) x)) (decode (ff (stored t)) y) (addend o (decode (ff (stored t)) z)) p
    else twice_rounded (ff (stored t)) (factor o (decode (ff (stored t)) x)) (decode (ff (stored t)) y) (addend o (decode (ff (stored t)) z)) p) A B C).
  intros x y z Hx Hy Hz. destruct c99; [apply C90_fused|apply C90_unfused]; try assumption; apply stored_not16.
Qed.
Theorem C96_neg t n a : cfloats t n a -> exists r, c_negf t n a = Some r /\ cvector t n r (fun i p => decode (ff (stored t)) p = opposite (cvalue t a i)).
Proof. intros A. unfold c_negf. rewrite stored_ty. apply (impl1_ok t n _ a (fun x p => decode (ff (stored t)) p = opposite (decode (ff (stored t)) x)) A). intros. apply C91_neg; assumption. Qed.
Theorem C96_abs t n a : cfloats t n a -> exists r, c_absf t n a = Some r /\ cvector t n r (fun i p =>
  decode (ff (stored t)) p = if is (compare (cvalue t a i) (FFin false 0)) Equal then cvalue t a i else absolute (cvalue t a i)).
Proof.
  intros A. unfold c_absf. rewrite stored_ty. apply (impl1_ok t n _ a (fun x p => decode (ff (stored t)) p = if is (compare (decode (ff (stored t)) x) (FFin false 0)) Equal then decode (ff (stored t)) x else absolute (decode (ff (stored t)) x)) A).
  intros. apply C91_abs; assumption.
Qed.
(** the second argument if they do not compare *)
Theorem C96_min t n a b : cfloats t n a -> cfloats t n b -> exists r, c_minf t n a b = Some r /\ cvector t n r (fun i p =>
  same_number (ff (stored t)) p (if is (compare (cvalue t a i) (cvalue t b i)) Less then clane a i else clane b i)).
Proof.
  intros A B. unfold c_minf. rewrite stored_ty. apply (impl2_ok t n _ a b (fun x y p => same_number (ff (stored t)) p (if is (compare (decode (ff (stored t)) x) (decode (ff (stored t)) y)) Less then x else y)) A B).
  intros. apply C91_min; assumption.
Qed.
Theorem C96_max t n a b : cfloats t n a -> cfloats t n b -> exists r, c_maxf t n a b = Some r /\ cvector t n r (fun i p =>
  same_number (ff (stored t)) p (if is (compare (cvalue t a i) (cvalue t b i)) Greater then clane a i else clane b i)).
Proof.
  intros A B. unfold c_maxf. rewrite stored_ty. apply (impl2_ok t n _ a b (fun x y p => same_number (ff (stored t)) p (if is (compare (decode (ff (stored t)) x) (decode (ff (stored t)) y)) Greater then x else y)) A B).
  intros. apply C91_max; assumption.
Qed.
Theorem C96_floor c99 t n a : cfloats t n a -> exists r, c_floorf c99 t n a = Some r /\ cvector t n r (fun i p => rounded (ff (stored t)) (down (ff (stored t))) (cvalue t a i) (decode (ff (stored t)) p)).
Proof. intros A. unfold c_floorf. rewrite stored_ty. apply (impl1_ok t n _ a (fun x p => rounded (ff (stored t)) (down (ff (stored t))) (decode (ff (stored t)) x) (decode (ff (stored t)) p)) A). intros x Hx. exact (C91_floor c99 (stored t) x Hx). Qed.
Theorem C96_ceil c99 t n a : cfloats t n a -> exists r, c_ceilf c99 t n a = Some r /\ cvector t n r (fun i p => rounded (ff (stored t)) (up (ff (stored t))) (cvalue t a i) (decode (ff (stored t)) p)).
Proof. intros A. unfold c_ceilf. rewrite stored_ty. apply (impl1_ok t n _ a (fun x p => rounded (ff (stored t)) (up (ff (stored t))) (decode (ff (stored t)) x) (decode (ff (stored t)) p)) A). intros x Hx. exact (C91_ceil c99 (stored t) x Hx). Qed.
Theorem C96_trunc new c99 t n a : cfloats t n a -> exists r, c_truncf new c99 t n a = Some r /\ cvector t n r (fun i p => rounded (ff (stored t)) (toward_zero (ff (stored t))) (cvalue t a i) (decode (ff (stored t)) p)).
Proof. intros A. unfold c_truncf. rewrite stored_ty. apply (impl1_ok t n _ a (fun x p => rounded (ff (stored t)) (toward_zero (ff (stored t))) (decode (ff (stored t)) x) (decode (ff (stored t)) p)) A). intros x Hx. exact (C91_trunc new c99 (stored t) x Hx). Qed.
Print Assumptions C96_arith. Print Assumptions C96_saturated. Print Assumptions C96_sqrt. Print Assumptions C96_rec. Print Assumptions C96_rsqrt11. Print Assumptions C96_muladd. Print Assumptions C96_neg. Print Assumptions C96_abs.
Print Assumptions C96_min. Print Assumptions C96_max. Print Assumptions C96_floor. Print Assumptions C96_ceil. Print Assumptions C96_trunc.
(** 3 / 7 and 1 / 0; -2.5 rounded down *)
Example C96_ex : c_divf F32 2 [1077936128; 1065353216] [1088421888; 0] = Some [0x3EDB6DB7; 0x7F800000] /\ c_floorf false F16 1 [0xC0200000] = Some [0xC0400000] /\ cfloats F32 2 [1077936128; 1065353216].
Proof. split; [vm_compute; reflexivity|]. split; [vm_compute; reflexivity|]. split; [reflexivity|]. intros [|[|i]] Hi; [cbn; lia|cbn; lia|lia]. Qed.
