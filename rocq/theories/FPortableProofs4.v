(** Float programs on the POWER back ends. *)
From Coq Require Import ZArith Lia List Bool ZifyBool.
From Verif Require Import CInt FloatSpec Fp16 ScalarOps RoundEven CpuSimd X86Deg234 X86Arith X86ArithSpec X86Cvt X86CvtSpec X86FloatSpec.
From Verif Require Import ArmFloat ArmFloatSpec ArmFloatProofs ArmFloatProofs2 Ppc PpcSpec PpcFloat PropPpcFloat.
From Verif Require Import FloatArith FloatArithSpec ScalarFloat PropFloatArith FloatVecSpec FloatVecOps PpcFloatSpec PropPpcFloatArith.
From Verif Require Import Portable PortableSpec PortableProofs FPortable FPortableSpec FPortableProofs.
Open Scope Z_scope.

Section POWER.
Variables (c99 new : bool) (e : pext) (t : fty).
Hypothesis T : t <> F16.
Notation len := (128 / fw t).
Notation lanes := (all_lanes len).
Notation B := (powerf c99 new e t).
Lemma pm_log l p q : plogical (fu t) l p -> lanes (fun i => p i = q i) -> plogical (fu t) l q.
Proof. intros (I & L) E. split; [exact I|]. intros i Hi. rewrite (L i Hi), (E i); [reflexivity|]. rewrite fu_bits in Hi. exact Hi. Qed.
Let vd : {vmx_double e t} + {~ vmx_double e t}.
Proof. destruct e, t; try (right; intros (A & A'); discriminate). left. split; reflexivity. Qed.

Lemma power_1 o a f g : frep 128 t a f -> lanes (fun i => scalar_f1 t o (f i) = Some (g i)) -> exists r, f_op1 B o a = Some r /\ frep 128 t r g.
Proof.
  intros A S. eexists. split; [reflexivity|]. match goal with |- frep _ _ ?r _ => assert (K : in_reg 128 r /\ lanes (fun i => spec_f1 t o (fvalue t a i) (fpat t r i))) end.
  2: { destruct K as (I & L). exact (step1 128 t T o a f _ g A I L S). }
  destruct o; cbn [spec_f1].
  - exact (C110_neg e t a).
  - destruct vd as [(E & E')|V].
    + subst e t. destruct (C110_vmx_f64 a a) as ((I & L) & _). split; [exact I|]. intros i Hi N. specialize (L i Hi). cbv beta in L.
      refine (eq_trans L _). apply abs_zero; [exact N|]. intros s m D. refine (nonneg F64 _ s m _ D). apply FloatVecProofs2.fpat_rng.
    + destruct (C110_abs e t a V) as (I & L). split; [exact I|]. intros i Hi _. exact (L i Hi).
  - exact (C114_sqrt e t a).
  - exact (C114_rec e t a).
  - exact (proj1 (C111_round new e t a)).
  - exact (proj1 (proj2 (C111_round new e t a))).
  - exact (proj1 (proj2 (proj2 (C111_round new e t a)))).
Qed.
Lemma plain_number f x y : plain (decode f x) (decode f y) -> least_number f x y = least (decode f x) (decode f y) /\ greatest_number f x y = greatest (decode f x) (decode f y).
Proof. intros (N & _). unfold least_number, greatest_number, signaling. destruct (decode f x), (decode f y); cbn [compare] in N; try contradiction; split; reflexivity. Qed.
Lemma power_2 o a b f f' g : frep 128 t a f -> frep 128 t b f' -> lanes (fun i => scalar_f2 t o (f i) (f' i) = Some (g i)) -> exists r, f_op2 B o a b = Some r /\ frep 128 t r g.
Proof.
  intros A A' S. eexists. split; [reflexivity|]. match goal with |- frep _ _ ?r _ => assert (K : in_reg 128 r /\ lanes (fun i => spec_f2 t o (fvalue t a i) (fvalue t b i) (fpat t r i))) end.
  2: { destruct K as (I & L). exact (step2 128 t o a b f f' _ g A A' I L S). }
  destruct o as [o| |]; cbn [spec_f2].
  - exact (C114_arith o e t a b).
  - destruct vd as [(E & E')|V].
    + subst e t. destruct (C110_vmx_f64 a b) as (_ & (I & L) & _). split; [exact I|]. intros i Hi P. specialize (L i Hi). cbv beta in L.
      rewrite L, <- (pick_least _ _ P). unfold frel. destruct (is _ Less); reflexivity.
    + destruct e.
      * destruct (C110_min_max_vmx t a b ltac:(intros Q; apply V; split; [reflexivity|exact Q])) as ((I & L) & _). split; [exact I|]. intros i Hi _. exact (L i Hi).
      * destruct (C110_min_max_vsx t a b) as ((I & L) & _). split; [exact I|]. intros i Hi P. refine (eq_trans (L i Hi) _). apply plain_number, P.
  - destruct vd as [(E & E')|V].
    + subst e t. destruct (C110_vmx_f64 a b) as (_ & _ & (I & L)). split; [exact I|]. intros i Hi P. specialize (L i Hi). cbv beta in L.
      rewrite L, <- (pick_greatest _ _ P). unfold frel. destruct (is _ Greater); reflexivity.
    + destruct e.
      * destruct (C110_min_max_vmx t a b ltac:(intros Q; apply V; split; [reflexivity|exact Q])) as (_ & (I & L)). split; [exact I|]. intros i Hi _. exact (L i Hi).
      * destruct (C110_min_max_vsx t a b) as (_ & (I & L)). split; [exact I|]. intros i Hi P. refine (eq_trans (L i Hi) _). apply plain_number, P.
Qed.
Lemma power_3 : (vmx_double e t -> c99 = true) -> forall o a b c f f' f'' g, frep 128 t a f -> frep 128 t b f' -> frep 128 t c f'' -> lanes (fun i => scalar_f3 t o (f i) (f' i) (f'' i) = Some (g i)) ->
  exists r, f_op3 B o a b c = Some r /\ frep 128 t r g.
Proof.
  intros M o a b c f f' f'' g A A' A'' S. eexists. split; [reflexivity|]. assert (K : in_reg 128 (p_muladd o c99 e t a b c) /\ lanes (fun i => spec_f3 t o (fvalue t a i) (fvalue t b i) (fvalue t c i) (fpat t (p_muladd o c99 e t a b c) i))).
  2: { destruct K as (I & L). exact (step3 128 t T o a b c f f' f'' _ g A A' A'' I L S). }
  destruct vd as [V|V].
  - rewrite (M V). destruct V as (-> & ->). destruct (C115_vmx_f64 o true a b c) as (I & L). split; [exact I|]. intros i Hi _. exact (L i Hi).
  - destruct (C115_native o c99 e t a b c V) as (I & L). split; [exact I|]. intros i Hi N. specialize (L i Hi). cbv beta in L. destruct o; cbn [muladd_is] in L; try exact L; exact (proj1 L (N eq_refl)).
Qed.
Lemma power_cmp o a b f f' p : frep 128 t a f -> frep 128 t b f' -> lanes (fun i => scalar_frel t o (f i) (f' i) = Some (p i)) -> exists r, f_cmp B o a b = Some r /\ plogical (fu t) r p.
Proof.
  intros A A' S. eexists. split; [reflexivity|]. destruct (C109_compare e t a b) as (L1 & L2 & L3 & L4 & L5 & L6).
  destruct o; (eapply pm_log; [eassumption|]; intros i Hi; exact (step_cmp 128 t _ a b f f' p i A A' Hi (S i Hi))).
Qed.

Lemma power_float env args : (forall k, frep 128 t (env k) (args k)) -> forall ex, (uses_fma ex = true -> vmx_double e t -> c99 = true) -> lanes (fun i => felement t (fun k => args k i) ex <> None) ->
  exists r, fveval B env ex = Some r /\ frep 128 t r (fun i => val (felement t (fun k => args k i) ex)).
Proof.
  intros E. eapply (proj1 (feval_ok B t len (vmx_double e t -> c99 = true) (frep 128 t) (plogical (fu t))
    _ power_1 power_2 power_3 _ _ power_cmp _ _ _ (fun r f g => frep_ext 128 t r f g) pm_log _ env args E)).
  Unshelve.
  - intros x Hx. eexists. split; [reflexivity|]. destruct (C113_set1 e t x 0 Hx) as ((I & L) & _). apply frep_id; [exact I|]. intros i Hi. split; [exact Hx|exact (L i Hi)].
  - intros l p a b f f' Hl' A A'. eexists. split; [reflexivity|]. destruct (C109_if_else e t l p a b (proj1 A) (proj1 A') Hl') as (I & L).
    exact (step_if 128 t p a b f f' _ A A' I L).
  - intros x. eexists. split; [reflexivity|]. refine (proj2 (C113_set1 e t 0 x _)). split; [lia|]. destruct t; reflexivity.
  - intros o a b p q La Lb. eexists. split; [reflexivity|]. destruct (C109_logical_operators e t a b p q La Lb) as (L1 & L2 & L3 & L4 & _). destruct o; assumption.
  - intros a p L. eexists. split; [reflexivity|]. apply (C109_logical_operators e t a a p p L L).
  - intros a f A. eexists. split; [reflexivity|]. eapply pm_log; [exact (proj2 (C113_masks e t _ _ a (proj2 (C113_set1 e t 0 0 ltac:(split; [lia|]; destruct t; reflexivity)))))|]. intros i Hi. cbv beta. exact (step_tol 128 t T a f i A Hi).
  - destruct t; reflexivity.
Qed.
End POWER.
