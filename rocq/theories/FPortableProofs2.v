(** Float programs on the x86 back ends. *)
From Coq Require Import ZArith Lia List Bool ZifyBool.
From Verif Require Import CInt FloatSpec Fp16 ScalarOps RoundEven CpuSimd X86Deg234 X86Arith X86ArithSpec X86Cvt X86CvtSpec X86LogicProofs X86Mem X86MemSpec X86Float X86FloatSpec X86FloatProofs3.
From Verif Require Import PropX86Float.
From Verif Require Import ArmFloat ArmFloatSpec.
From Verif Require Import FloatArith FloatArithSpec ScalarFloat PropFloatArith FloatVecSpec FloatVecOps PpcFloatSpec PropX86FloatArith.
From Verif Require Import Portable PortableSpec PortableProofs FPortable FPortableSpec FPortableProofs.
Open Scope Z_scope.

Section X86.
Variables (fma : bool) (e : ext) (t : fty) (undef : Z).
Hypothesis T : t <> F16.
Hypothesis U : in_reg (nb e) undef.
Notation len := (nb e / fw t).
Notation lanes := (all_lanes len).
Notation B := (x86f fma e t undef).
Let Fl : is_float (xm t) = true. Proof. destruct t; reflexivity. Qed.
Let It : In (uty (xm t)) int_types. Proof. destruct t; cbn; tauto. Qed.
Lemma xm_fmt : format (xm t) = ff t. Proof. destruct t; [congruence|reflexivity|reflexivity]. Qed.
Lemma xm_pat r i : pattern (xm t) r i = fpat t r i. Proof. destruct t; [congruence|reflexivity|reflexivity]. Qed.
Lemma xm_len : elems e (xm t) = len. Proof. destruct t; [congruence|reflexivity|reflexivity]. Qed.
Lemma xm_value r i : value (xm t) r i = fvalue t r i. Proof. unfold value, fvalue. rewrite xm_fmt, xm_pat. reflexivity. Qed.
Lemma xm_rel a b i : X86FloatSpec.rel (xm t) a b i = frel t a b i. Proof. unfold X86FloatSpec.rel, frel. rewrite !xm_value. reflexivity. Qed.
Lemma xm_vec r (P : Z -> Z -> Prop) : vectorf e (xm t) r P -> in_reg (nb e) r /\ lanes (fun i => P i (fpat t r i)).
Proof. intros (I & L). split; [exact I|]. intros i Hi. rewrite <- xm_pat. apply L. rewrite xm_len. exact Hi. Qed.
Lemma xm_log l p q : logical e (uty (xm t)) l p -> lanes (fun i => p i = q i) -> logical e (uty (xm t)) l q.
Proof. intros L E. eapply logical_ext; [exact L|]. intros i Hi. apply E. assert (bits (uty (xm t)) = fw t) as K by (destruct t; [congruence|reflexivity|reflexivity]). rewrite K in Hi. exact Hi. Qed.

Lemma x86_1 o a f g : frep (nb e) t a f -> lanes (fun i => scalar_f1 t o (f i) = Some (g i)) -> exists r, f_op1 B o a = Some r /\ frep (nb e) t r g.
Proof.
  intros A S. assert (K : exists r, f_op1 B o a = Some r /\ in_reg (nb e) r /\ lanes (fun i => spec_f1 t o (fvalue t a i) (fpat t r i))).
  2: { destruct K as (r & E & I & L). exists r. split; [exact E|]. exact (step1 (nb e) t T o a f r g A I L S). }
  destruct A as (Ra & _). destruct o; cbn [f_op1 x86f spec_f1].
  - eexists. split; [reflexivity|]. destruct (xm_vec _ _ (C65_neg e (xm t) a Fl Ra)) as (I & L). split; [exact I|]. intros i Hi. destruct (L i Hi) as (Q & _). rewrite xm_fmt, xm_value in Q. exact Q.
  - eexists. split; [reflexivity|]. destruct (xm_vec _ _ (C65_abs e (xm t) a Fl Ra)) as (I & L). split; [exact I|]. intros i Hi _. destruct (L i Hi) as (Q & _). rewrite xm_fmt, xm_value in Q. exact Q.
  - eexists. split; [reflexivity|]. destruct (xm_vec _ _ (C92_sqrt e (xm t) a Fl)) as (I & L). split; [exact I|]. intros i Hi. specialize (L i Hi). cbv beta in L. rewrite xm_fmt, xm_value in L. exact L.
  - eexists. split; [reflexivity|]. destruct (xm_vec _ _ (C92_rec e (xm t) a Fl)) as (I & L). split; [exact I|]. intros i Hi. specialize (L i Hi). cbv beta in L. rewrite xm_fmt, xm_value in L. exact L.
  - destruct (C66_floor e (xm t) undef a Fl U Ra) as (r & E & V). exists r. split; [exact E|]. destruct (xm_vec _ _ V) as (I & L). split; [exact I|]. intros i Hi. specialize (L i Hi). cbv beta in L. rewrite xm_fmt, xm_value in L. exact L.
  - destruct (C66_ceil e (xm t) undef a Fl U Ra) as (r & E & V). exists r. split; [exact E|]. destruct (xm_vec _ _ V) as (I & L). split; [exact I|]. intros i Hi. specialize (L i Hi). cbv beta in L. rewrite xm_fmt, xm_value in L. exact L.
  - destruct (C66_trunc e (xm t) undef a Fl U Ra) as (r & E & V). exists r. split; [exact E|]. destruct (xm_vec _ _ V) as (I & L). split; [exact I|]. intros i Hi. specialize (L i Hi). cbv beta in L. rewrite xm_fmt, xm_value in L. exact L.
Qed.
Lemma x86_2 o a b f f' g : frep (nb e) t a f -> frep (nb e) t b f' -> lanes (fun i => scalar_f2 t o (f i) (f' i) = Some (g i)) -> exists r, f_op2 B o a b = Some r /\ frep (nb e) t r g.
Proof.
  intros A A' S. eexists. split; [reflexivity|]. match goal with |- frep _ _ ?r _ => assert (K : in_reg (nb e) r /\ lanes (fun i => spec_f2 t o (fvalue t a i) (fvalue t b i) (fpat t r i))) end.
  2: { destruct K as (I & L). exact (step2 (nb e) t o a b f f' _ g A A' I L S). }
  destruct o as [o| |]; cbn [spec_f2].
  - destruct (xm_vec _ _ (C92_arith o e (xm t) a b Fl)) as (I & L). split; [exact I|]. intros i Hi. specialize (L i Hi). cbv beta in L. rewrite xm_fmt, !xm_value in L. exact L.
  - destruct (xm_vec _ _ (C65_min e (xm t) a b Fl)) as (I & L). split; [exact I|]. intros i Hi P. destruct (L i Hi) as (Q & _). rewrite xm_rel, !xm_pat in Q. rewrite Q, <- (pick_least _ _ P). unfold frel. destruct (is _ Less); reflexivity.
  - destruct (xm_vec _ _ (C65_max e (xm t) a b Fl)) as (I & L). split; [exact I|]. intros i Hi P. destruct (L i Hi) as (Q & _). rewrite xm_rel, !xm_pat in Q. rewrite Q, <- (pick_greatest _ _ P). unfold frel. destruct (is _ Greater); reflexivity.
Qed.
Lemma x86_3 : is512 e || fma = true -> forall o a b c f f' f'' g, frep (nb e) t a f -> frep (nb e) t b f' -> frep (nb e) t c f'' -> lanes (fun i => scalar_f3 t o (f i) (f' i) (f'' i) = Some (g i)) ->
  exists r, f_op3 B o a b c = Some r /\ frep (nb e) t r g.
Proof.
  intros M o a b c f f' f'' g A A' A'' S. eexists. split; [reflexivity|]. destruct (xm_vec _ _ (C93_fused o fma e (xm t) a b c Fl (proj1 A) M)) as (I & L).
  refine (step3 (nb e) t T o a b c f f' f'' _ g A A' A'' I _ S). intros i Hi _. specialize (L i Hi). cbv beta in L. rewrite xm_fmt, !xm_value in L. exact L.
Qed.
Lemma x86_cmp o a b f f' p : frep (nb e) t a f -> frep (nb e) t b f' -> lanes (fun i => scalar_frel t o (f i) (f' i) = Some (p i)) -> exists r, f_cmp B o a b = Some r /\ logical e (uty (xm t)) r p.
Proof.
  intros A A' S. eexists. split; [reflexivity|]. destruct (C64_compare e (xm t) a b Fl (proj1 A) (proj1 A')) as (L1 & L2 & L3 & L4 & L5 & L6).
  destruct o; (eapply xm_log; [eassumption|]; intros i Hi; rewrite xm_rel; exact (step_cmp (nb e) t _ a b f f' p i A A' Hi (S i Hi))).
Qed.

Lemma x86_float env args : (forall k, frep (nb e) t (env k) (args k)) -> forall ex, (uses_fma ex = true -> is512 e || fma = true) -> lanes (fun i => felement t (fun k => args k i) ex <> None) ->
  exists r, fveval B env ex = Some r /\ frep (nb e) t r (fun i => val (felement t (fun k => args k i) ex)).
Proof.
  intros E. eapply (proj1 (feval_ok B t len (is512 e || fma = true) (frep (nb e) t) (logical e (uty (xm t)))
    _ x86_1 x86_2 x86_3 _ _ x86_cmp _ _ _ (fun r f g => frep_ext (nb e) t r f g) xm_log _ env args E)).
  Unshelve.
  - intros x Hx. eexists. split; [reflexivity|]. destruct (xm_vec _ _ (C68_set1 e (xm t) x Fl ltac:(destruct t; [congruence|exact Hx|exact Hx]))) as (I & L). apply frep_id; [exact I|]. intros i Hi. split; [exact Hx|exact (L i Hi)].
  - intros l p a b f f' Hl A A'. eexists. split; [reflexivity|]. destruct (xm_vec _ _ (C64_if_else e (xm t) l p a b Fl (proj1 A) (proj1 A') Hl)) as (I & L).
    refine (step_if (nb e) t p a b f f' _ A A' I _). intros i Hi. specialize (L i Hi). cbv beta in L. rewrite !xm_pat in L. exact L.
  - intros x. eexists. split; [reflexivity|]. apply x_set1lf_ok, Fl.
  - intros o a b p q La Lb. eexists. split; [reflexivity|]. destruct o; cbn [scalar_lop].
    + apply x_orl_ok; assumption.
    + apply x_andl_ok; assumption.
    + apply x_xorl_ok; assumption.
    + apply x_andnotl_ok; assumption.
  - intros a p L. eexists. split; [reflexivity|]. apply x_notl_ok; assumption.
  - intros a f A. eexists. split; [reflexivity|]. eapply xm_log; [exact (C68_to_logical e (xm t) a Fl (proj1 A))|]. intros i Hi. cbv beta. rewrite xm_pat. exact (step_tol (nb e) t T a f i A Hi).
  - destruct e, t; cbn; lia.
Qed.
End X86.
