(** Float programs on the ARM back ends. *)
From Coq Require Import ZArith Lia List Bool ZifyBool.
From Verif Require Import CInt FloatSpec Fp16 ScalarOps RoundEven CpuSimd X86Deg234 X86Arith X86ArithSpec X86Cvt X86CvtSpec X86FloatSpec.
From Verif Require Import Arm ArmSpec ArmProofs4 ArmFloat ArmFloatSpec ArmFloatProofs ArmFloatProofs2 PropArmFloat.
From Verif Require Import FloatArith FloatArithSpec ScalarFloat PropFloatArith FloatVecSpec FloatVecOps PpcFloatSpec PropArmFloatArith.
From Verif Require Import Portable PortableSpec PortableProofs FPortable FPortableSpec FPortableProofs.
Open Scope Z_scope.

Section ARM.
Variables (c99 : bool) (u : Z) (e : aext) (t : fty).
Hypothesis T : t <> F16.
Hypothesis Hl : native_logicals e.
Notation len := (an e / fw t).
Notation lanes := (all_lanes len).
Notation B := (armf c99 u e t).
Lemma am_vec r (P : Z -> Z -> Prop) : fvector e t r P -> in_reg (an e) r /\ lanes (fun i => P i (fpat t r i)).
Proof. exact (fun x => x). Qed.
Lemma am_log l p q : alogical e (fu t) l p -> lanes (fun i => p i = q i) -> alogical e (fu t) l q.
Proof. intros L E. eapply alogical_ext; [exact L|]. intros i Hi. rewrite fu_bits in Hi. apply E, Hi. Qed.

Lemma arm_1 o a f g : frep (an e) t a f -> lanes (fun i => scalar_f1 t o (f i) = Some (g i)) -> exists r, f_op1 B o a = Some r /\ frep (an e) t r g.
Proof.
  intros A S. eexists. split; [reflexivity|]. match goal with |- frep _ _ ?r _ => assert (K : in_reg (an e) r /\ lanes (fun i => spec_f1 t o (fvalue t a i) (fpat t r i))) end.
  2: { destruct K as (I & L). exact (step1 (an e) t T o a f _ g A I L S). }
  destruct o; cbn [spec_f1].
  - exact (C85_neg u e t a).
  - destruct (struct64 e t) eqn:Q.
    + assert (e = Neon128 /\ t = F64) as (-> & ->) by (destruct e, t; try discriminate Q; split; reflexivity). destruct (C85_neon128_f64 u a a) as ((I & L) & _). split; [exact I|]. intros i Hi N. specialize (L i Hi). cbv beta in L.
      refine (eq_trans L _). apply abs_zero; [exact N|]. intros s m D. refine (nonneg F64 _ s m _ D). apply FloatVecProofs2.fpat_rng.
    + destruct (C85_abs u e t a Q) as (I & L). split; [exact I|]. intros i Hi _. exact (L i Hi).
  - exact (C94_sqrt u c99 e t a (fun _ => T)).
  - exact (proj1 (C94_rec u e t a)).
  - exact (C86_floor u e t a).
  - exact (C86_ceil u e t a).
  - exact (C86_trunc u e t a).
Qed.
Lemma arm_2 o a b f f' g : frep (an e) t a f -> frep (an e) t b f' -> lanes (fun i => scalar_f2 t o (f i) (f' i) = Some (g i)) -> exists r, f_op2 B o a b = Some r /\ frep (an e) t r g.
Proof.
  intros A A' S. eexists. split; [reflexivity|]. match goal with |- frep _ _ ?r _ => assert (K : in_reg (an e) r /\ lanes (fun i => spec_f2 t o (fvalue t a i) (fvalue t b i) (fpat t r i))) end.
  2: { destruct K as (I & L). exact (step2 (an e) t o a b f f' _ g A A' I L S). }
  destruct o as [o| |]; cbn [spec_f2].
  - exact (C94_arith u o e t a b).
  - destruct (struct64 e t) eqn:Q.
    + assert (e = Neon128 /\ t = F64) as (-> & ->) by (destruct e, t; try discriminate Q; split; reflexivity). destruct (C85_neon128_f64 u a b) as (_ & (I & L) & _). split; [exact I|]. intros i Hi P. specialize (L i Hi). cbv beta in L.
      rewrite L, <- (pick_least _ _ P). unfold frel. destruct (is _ Less); reflexivity.
    + destruct (C85_min u e t a b Q) as (I & L). split; [exact I|]. intros i Hi _. exact (L i Hi).
  - destruct (struct64 e t) eqn:Q.
    + assert (e = Neon128 /\ t = F64) as (-> & ->) by (destruct e, t; try discriminate Q; split; reflexivity). destruct (C85_neon128_f64 u a b) as (_ & _ & (I & L)). split; [exact I|]. intros i Hi P. specialize (L i Hi). cbv beta in L.
      rewrite L, <- (pick_greatest _ _ P). unfold frel. destruct (is _ Greater); reflexivity.
    + destruct (C85_max u e t a b Q) as (I & L). split; [exact I|]. intros i Hi _. exact (L i Hi).
Qed.
Lemma arm_3 : fused_vector c99 e t -> forall o a b c f f' f'' g, frep (an e) t a f -> frep (an e) t b f' -> frep (an e) t c f'' -> lanes (fun i => scalar_f3 t o (f i) (f' i) (f'' i) = Some (g i)) ->
  exists r, f_op3 B o a b c = Some r /\ frep (an e) t r g.
Proof.
  intros M o a b c f f' f'' g A A' A'' S. eexists. split; [reflexivity|]. destruct (C95_fused u o c99 e t a b c M) as (I & L).
  refine (step3 (an e) t T o a b c f f' f'' _ g A A' A'' I _ S). intros i Hi _. exact (L i Hi).
Qed.
Lemma arm_cmp o a b f f' p : frep (an e) t a f -> frep (an e) t b f' -> lanes (fun i => scalar_frel t o (f i) (f' i) = Some (p i)) -> exists r, f_cmp B o a b = Some r /\ alogical e (fu t) r p.
Proof.
  intros A A' S. eexists. split; [reflexivity|]. destruct (C84_compare u e t a b) as (L1 & L2 & L3 & L4 & L5 & L6).
  destruct o; (eapply am_log; [eassumption|]; intros i Hi; exact (step_cmp (an e) t _ a b f f' p i A A' Hi (S i Hi))).
Qed.

Lemma arm_float env args : (forall k, frep (an e) t (env k) (args k)) -> forall ex, (uses_fma ex = true -> fused_vector c99 e t) -> lanes (fun i => felement t (fun k => args k i) ex <> None) ->
  exists r, fveval B env ex = Some r /\ frep (an e) t r (fun i => val (felement t (fun k => args k i) ex)).
Proof.
  intros E. eapply (proj1 (feval_ok B t len (fused_vector c99 e t) (frep (an e) t) (alogical e (fu t))
    _ arm_1 arm_2 arm_3 _ _ arm_cmp _ _ _ (fun r f g => frep_ext (an e) t r f g) am_log _ env args E)).
  Unshelve.
  - intros x Hx. eexists. split; [reflexivity|]. destruct (C88_set1 e t x Hx) as (I & L). apply frep_id; [exact I|]. intros i Hi. split; [exact Hx|exact (L i Hi)].
  - intros l p a b f f' Hl' A A'. eexists. split; [reflexivity|]. destruct (C84_if_else u e t l p a b (proj1 A) (proj1 A') Hl') as (I & L).
    exact (step_if (an e) t p a b f f' _ A A' I L).
  - intros x. eexists. split; [reflexivity|]. apply C88_set1l, Hl.
  - intros o a b p q La Lb. eexists. split; [reflexivity|]. destruct (C84_logical_operators u e t a b p q La Lb) as (L1 & L2 & L3 & L4 & _). destruct o; assumption.
  - intros a p L. eexists. split; [reflexivity|]. apply a_notlf_ok, L.
  - intros a f A. eexists. split; [reflexivity|]. eapply am_log; [exact (C88_to_logical u e t a)|]. intros i Hi. cbv beta. exact (step_tol (an e) t T a f i A Hi).
  - apply Z.div_str_pos. destruct e, t; cbn in *; lia.
Qed.
End ARM.
