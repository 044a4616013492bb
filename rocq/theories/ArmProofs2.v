(** Arithmetic of the ARM operators, continued: products, quotients, minima, opposites, shifts. *)
From Coq Require Import ZArith Lia List Bool ZifyBool.
From Verif Require Import CInt BitLemmas ScalarOps ScalarSpec ScalarProofs CpuSimd X86Deg234 X86Arith
  X86ArithSpec X86LaneLemmas X86ArithProofs X86EmulProofs X86LogicProofs X86SelectProofs X86RedProofs X86FmaProofs Arm ArmSpec ArmProofs.
Import ListNotations.
Open Scope Z_scope.

Lemma av_weaken e t r (P Q : Z -> Z -> Prop) : avector e t r P -> (forall i v, 0 <= i < an e / bits t -> P i v -> Q i v) -> avector e t r Q.
Proof. intros [R E] W. split; [exact R|]. intros i Hi. apply W; auto. Qed.
Lemma arch_neon e : is_neon e = true -> architectural e.
Proof. unfold architectural. destruct e; cbn; intros; try discriminate; lia. Qed.
Lemma av_neon e t r P : is_neon e = true -> avector Neon128 t r P -> avector e t r P.
Proof. destruct e; cbn [is_neon]; intros E A; try discriminate; exact A. Qed.
Lemma an_neon e : is_neon e = true -> an e = 128.
Proof. destruct e; cbn; congruence. Qed.
Lemma wide64 t : In t int_types -> bits t = 64 -> wide t = true.
Proof. intros H. ty_cases H; cbn; intros; congruence || reflexivity. Qed.
Lemma cast_s t r : In t int_types -> in_ty t r -> cast t r = r.
Proof. intros. apply cast_id; assumption. Qed.

Lemma carith_wide t z v : In t int_types -> wide t = true -> carith (promote t) z = Some v ->
  promote t = t /\ wraps_to t z v.
Proof.
  intros H W E. assert (promote t = t) as Ep by (ty_cases H; cbn in *; congruence). split; [exact Ep|]. rewrite Ep in E.
  unfold carith in E. destruct (is_signed t) eqn:S.
  - destruct (_ && _) eqn:B; [|discriminate]. injection E as <-. rewrite <- (cast_s t z) at 2; [apply cast_wraps; assumption|assumption|].
    unfold in_ty. lia.
  - injection E as <-. replace (to_u (bits t) z) with (cast t z) by (unfold cast; rewrite S; reflexivity). apply cast_wraps. assumption.
Qed.
Lemma carith_some t z : In t int_types -> wide t = true -> (is_signed t = true -> in_ty t z) -> exists v, carith (promote t) z = Some v.
Proof.
  intros H W D. assert (promote t = t) as Ep by (ty_cases H; cbn in *; congruence). rewrite Ep. unfold carith.
  destruct (is_signed t) eqn:S; [|eexists; reflexivity]. specialize (D eq_refl). unfold in_ty in D.
  replace ((ty_min t <=? z) && (z <=? ty_max t)) with true by lia. eexists; reflexivity.
Qed.
Lemma carith_none t z : In t int_types -> wide t = true -> is_signed t = true -> ~ in_ty t z -> carith (promote t) z = None.
Proof.
  intros H W S N. assert (promote t = t) as Ep by (ty_cases H; cbn in *; congruence). rewrite Ep. unfold carith. rewrite S.
  unfold in_ty in N. replace ((ty_min t <=? z) && (z <=? ty_max t)) with false by lia. reflexivity.
Qed.
Lemma wraps_in t z v : In t int_types -> wraps_to t z v -> in_ty t v.
Proof. intros H W. destruct W; assumption. Qed.


(** *** Products *)
Lemma a_mul_ok u e t a b : In t int_types -> in_reg (an e) a -> in_reg (an e) b ->
  (arm_mul_emulated e t = true -> is_signed t = true -> forall i, 0 <= i < an e / bits t -> in_ty t (elt t a i * elt t b i)) ->
  exists r, a_mul u e t a b = Some r /\ avector e t r (fun i v => wraps_to t (elt t a i * elt t b i) v).
Proof.
  intros H Ha Hb D. unfold a_mul. fold (arm_mul_emulated e t). destruct (arm_mul_emulated e t) eqn:E.
  - unfold arm_mul_emulated in E. apply andb_prop in E. destruct E as [En E64]. apply Z.eqb_eq in E64. specialize (D eq_refl).
    apply emulate_op2_ok; [assumption|apply arch_neon; assumption|]. intros i Hi.
    destruct (s_mul t (elt t a i) (elt t b i)) as [v|] eqn:M.
    + exists v. split; [reflexivity|]. pose proof (s_mul_value t _ _ v H M) as W. rewrite cast_s by (assumption || apply W). exact W.
    + exfalso. apply s_mul_defined in M; [|assumption|apply wide64; assumption]. destruct M as [S N]. apply N, D; assumption.
  - eexists. split; [reflexivity|]. apply both2_av; try assumption. intros i. rewrite cast_mul by assumption.
    rewrite !elt_lane. apply cast_wraps. assumption.
Qed.
Lemma a_mul_none u e t a b i : In t int_types -> arm_mul_emulated e t = true -> is_signed t = true ->
  0 <= i < an e / bits t -> ~ in_ty t (elt t a i * elt t b i) -> a_mul u e t a b = None.
Proof.
  intros H E S Hi N. unfold a_mul. fold (arm_mul_emulated e t). rewrite E. apply (emulate_op2_none e t _ a b i); [assumption..|].
  unfold arm_mul_emulated in E. apply andb_prop in E. apply s_mul_defined; [assumption|apply wide64; [assumption|lia]|]. auto.
Qed.

(** *** Quotients *)
Lemma bad_div_dec t x y : {bad_div t x y} + {~ bad_div t x y}.
Proof.
  unfold bad_div. destruct (Z.eq_dec y 0); [left; auto|]. destruct (is_signed t); [|right; intuition congruence].
  destruct (Z_le_dec 32 (bits t)); [|right; intuition]. destruct (Z.eq_dec x (ty_min t)); [|right; intuition].
  destruct (Z.eq_dec y (-1)); [left; auto|right; intuition].
Qed.
Lemma a_div_ok u e t a b : In t int_types -> architectural e -> in_reg (an e) a -> in_reg (an e) b ->
  (arm_div_emulated e t = true -> forall i, 0 <= i < an e / bits t -> ~ bad_div t (elt t a i) (elt t b i)) ->
  exists r, a_div u e t a b = Some r /\
    avector e t r (fun i v => if elt t b i =? 0 then v = 0 else wraps_to t (Z.quot (elt t a i) (elt t b i)) v).
Proof.
  intros H A Ha Hb D. unfold a_div. replace (negb (is_neon e) && (32 <=? bits t)) with (negb (arm_div_emulated e t))
    by (unfold arm_div_emulated; destruct (is_neon e); lia).
  destruct (arm_div_emulated e t); cbn [negb].
  - specialize (D eq_refl). apply emulate_op2_ok; [assumption..|]. intros i Hi.
    destruct (s_div_ok t (elt t a i) (elt t b i) H (elt_range t a i H) (elt_range t b i H) (D i Hi)) as (v & E & W).
    exists v. split; [exact E|]. rewrite cast_s by (assumption || apply W).
    destruct (Z.eqb_spec (elt t b i) 0) as [Z0|_]; [|exact W]. exfalso. apply (D i Hi). left. exact Z0.
  - eexists. split; [reflexivity|]. apply both2_av; try assumption. intros i. unfold l_div. rewrite !elt_lane.
    destruct (Z.eqb_spec (cast t (lane (bits t) i b)) 0); [apply cast_s; [assumption|apply one_in; assumption]|].
    apply cast_wraps. assumption.
Qed.
Lemma a_div_none u e t a b i : In t int_types -> arm_div_emulated e t = true -> 0 <= i < an e / bits t ->
  bad_div t (elt t a i) (elt t b i) -> a_div u e t a b = None.
Proof.
  intros H E Hi B. unfold a_div. replace (negb (is_neon e) && (32 <=? bits t)) with (negb (arm_div_emulated e t))
    by (unfold arm_div_emulated; destruct (is_neon e); lia). rewrite E. cbn [negb].
  apply (emulate_op2_none e t _ a b i); [assumption..|]. apply s_div_bad; auto using elt_range.
Qed.

(** *** Minimum, maximum *)
Lemma minmax_av e t (p : Z -> Z -> bool) (g : Z -> Z -> Z) u f a b : In t int_types -> in_reg (an e) a -> in_reg (an e) b ->
  (forall x y, (if p x y then x else y) = g x y) -> (forall x y, f x y = g (cast t x) (cast t y)) ->
  (forall x y, in_ty t x -> in_ty t y -> in_ty t (g x y)) ->
  avector e t (if is_neon e && (bits t =? 64) then minmax64 t p a b else both2 u e t f a b) (fun i v => v = g (elt t a i) (elt t b i)).
Proof.
  intros H Ha Hb Hp Hf Hg. destruct (is_neon e && (bits t =? 64)) eqn:E.
  - apply andb_prop in E. destruct E as [En E64]. apply Z.eqb_eq in E64. unfold avector. rewrite (an_neon e En), E64.
    unfold minmax64. assert (okw 128 64) as O by (unfold okw; cbn; lia). change 2%nat with (nlanes 128 64).
    split; [apply in_reg_build; exact O|]. intros i Hi. rewrite !elt_lane, E64, lane_buildn by assumption. rewrite Hp.
    rewrite <- E64. rewrite cast_mod_pow by assumption. apply cast_s; [assumption|]. apply Hg; apply cast_in_ty; assumption.
  - apply both2_av; try assumption. intros i. rewrite Hf, !elt_lane. apply cast_s; [assumption|]. apply Hg; apply cast_in_ty; assumption.
Qed.
Lemma a_min_ok u e t a b : In t int_types -> in_reg (an e) a -> in_reg (an e) b ->
  avector e t (a_min u e t a b) (fun i v => v = Z.min (elt t a i) (elt t b i)).
Proof. intros H Ha Hb. apply (minmax_av e t Z.ltb Z.min); try assumption; try reflexivity; intros x y; try (match goal with |- context [if ?c then _ else _] => destruct c eqn:? end); unfold in_ty in *; lia. Qed.
Lemma a_max_ok u e t a b : In t int_types -> in_reg (an e) a -> in_reg (an e) b ->
  avector e t (a_max u e t a b) (fun i v => v = Z.max (elt t a i) (elt t b i)).
Proof. intros H Ha Hb. apply (minmax_av e t Z.gtb Z.max); try assumption; try reflexivity; intros x y; try (match goal with |- context [if ?c then _ else _] => destruct c eqn:? end); unfold in_ty in *; lia. Qed.

(** *** Opposite, absolute value *)
Lemma neg_emul_neon e t : arm_neg_emulated e t = true -> e = Neon128 /\ bits t = 64.
Proof. unfold arm_neg_emulated. destruct e; cbn [is_neon128 andb]; try discriminate. intros E. apply Z.eqb_eq in E. auto. Qed.
Lemma a_neg_ok u e t a : In t int_types -> in_reg (an e) a ->
  (arm_neg_emulated e t = true -> is_signed t = true -> forall i, 0 <= i < an e / bits t -> in_ty t (- elt t a i)) ->
  exists r, a_neg u e t a = Some r /\ avector e t r (fun i v => wraps_to t (- elt t a i) v).
Proof.
  intros H Ha D. unfold a_neg. fold (arm_neg_emulated e t). destruct (arm_neg_emulated e t) eqn:E.
  - destruct (neg_emul_neon e t E) as [-> E64]. specialize (D eq_refl). apply emulate_op1_ok; [assumption|]. intros i Hi.
    destruct (carith_some t (- elt t a i) H (wide64 t H E64) (fun S => D S i Hi)) as (v & C).
    exists (cast t v). assert (s_neg t (elt t a i) = Some (cast t v)) as Sn by (unfold s_neg; rewrite C; reflexivity).
    split; [exact Sn|]. rewrite (cast_s t (cast t v)) by (try apply cast_in_ty; assumption). apply (s_neg_value t _ _ H Sn).
  - eexists. split; [reflexivity|]. apply both1_av; try assumption. intros i. unfold l_neg. rewrite cast_neg by assumption.
    rewrite !elt_lane. apply cast_wraps. assumption.
Qed.
Lemma a_neg_none u e t a i : In t int_types -> arm_neg_emulated e t = true -> is_signed t = true -> 0 <= i < an e / bits t ->
  ~ in_ty t (- elt t a i) -> a_neg u e t a = None.
Proof.
  intros H E S Hi N. unfold a_neg. fold (arm_neg_emulated e t). rewrite E. destruct (neg_emul_neon e t E) as [-> E64].
  apply (emulate_op1_none t _ a i); [assumption..|]. unfold s_neg. rewrite carith_none by (try apply wide64; assumption). reflexivity.
Qed.
Lemma a_abs_ok u e t a : In t int_types -> in_reg (an e) a ->
  (arm_neg_emulated e t = true -> is_signed t = true -> forall i, 0 <= i < an e / bits t -> in_ty t (- elt t a i)) ->
  exists r, a_abs u e t a = Some r /\ avector e t r (fun i v => wraps_to t (Z.abs (elt t a i)) v).
Proof.
  intros H Ha D. unfold a_abs. destruct (is_signed t) eqn:S; cbn [negb].
  2:{ eexists. split; [reflexivity|]. split; [assumption|]. intros i Hi. pose proof (elt_range t a i H) as R.
      rewrite Z.abs_eq; [rewrite <- (cast_s t (elt t a i)) at 2 by assumption; apply cast_wraps; assumption|].
      unfold in_ty, ty_min in R. rewrite S in R. lia. }
  fold (arm_neg_emulated e t). destruct (arm_neg_emulated e t) eqn:E.
  - destruct (neg_emul_neon e t E) as [-> E64]. specialize (D eq_refl eq_refl). apply emulate_op1_ok; [assumption|]. intros i Hi.
    pose proof (elt_range t a i H) as R. exists (Z.abs (elt t a i)). split.
    + apply s_abs_ok; [assumption|assumption|]. left. intros M. specialize (D i Hi). rewrite M in D. unfold in_ty in D.
      ty_cases H; cbn in S, E64, D; discriminate || lia.
    + apply cast_wraps. assumption.
  - eexists. split; [reflexivity|]. apply both1_av; try assumption. intros i. unfold l_abs. rewrite elt_lane. replace (cast t (lane (bits t) i a)) with (to_s (bits t) (lane (bits t) i a)) by (unfold cast; rewrite S; reflexivity).
    apply cast_wraps. assumption.
Qed.
Lemma a_abs_none u e t a i : In t int_types -> arm_neg_emulated e t = true -> is_signed t = true -> 0 <= i < an e / bits t ->
  ~ in_ty t (- elt t a i) -> a_abs u e t a = None.
Proof.
  intros H E S Hi N. unfold a_abs. rewrite S. cbn [negb]. fold (arm_neg_emulated e t). rewrite E.
  destruct (neg_emul_neon e t E) as [-> E64]. apply (emulate_op1_none t _ a i); [assumption..|].
  pose proof (elt_range t a i H) as R. assert (elt t a i = ty_min t) as ->.
  { unfold in_ty in *. ty_cases H; cbn in S, E64, N, R |- *; discriminate || lia. }
  rewrite s_abs_min by assumption. replace (bits t <? 32) with false by lia. reflexivity.
Qed.
