(** Proofs about FPortable.v: the general induction, and what the scalar operators determine. *)
From Coq Require Import ZArith Lia List Bool ZifyBool.
From Verif Require Import CInt FloatSpec Fp16 ScalarOps RoundEven CpuSimd X86Deg234 X86Arith X86ArithSpec X86Cvt X86CvtSpec FloatProofs X86CvtProofs2 X86CvtProofs4 X86FloatSpec X86FloatProofs2 X86FloatProofs3.
From Verif Require Import ArmFloat ArmFloatSpec ArmFloatProofs ArmFloatProofs2.
From Verif Require Import FloatArith FloatArithSpec FloatArithProofs FloatArithProofs2 ScalarFloat FloatArithProofs7 FloatArithProofs8 FloatArithProofs9 PropFloatArith FloatVecSpec FloatVecOps FloatVecProofs FloatVecProofs2 PpcFloatSpec PropFloatAgree.
From Verif Require Import Portable PortableSpec PortableProofs FPortable FPortableSpec.
Open Scope Z_scope.

Scheme fexp_mut := Induction for fexp Sort Prop with flexp_mut := Induction for flexp Sort Prop.
Combined Scheme fexp_both from fexp_mut, flexp_mut.

Section Induction.
Variables (B : fbackend) (t : fty) (len : Z) (fused : Prop).
Variables (repv : FV B -> (Z -> Z) -> Prop) (repl : FV B -> (Z -> bool) -> Prop).
Notation lanes := (all_lanes len).
Hypothesis H_set1 : forall x, 0 <= x < 2 ^ fw t -> exists r, f_set1 B x = Some r /\ repv r (fun _ => x).
Hypothesis H_op1 : forall o a f g, repv a f -> lanes (fun i => scalar_f1 t o (f i) = Some (g i)) -> exists r, f_op1 B o a = Some r /\ repv r g.
Hypothesis H_op2 : forall o a b f f' g, repv a f -> repv b f' -> lanes (fun i => scalar_f2 t o (f i) (f' i) = Some (g i)) -> exists r, f_op2 B o a b = Some r /\ repv r g.
Hypothesis H_op3 : fused -> forall o a b c f f' f'' g, repv a f -> repv b f' -> repv c f'' -> lanes (fun i => scalar_f3 t o (f i) (f' i) (f'' i) = Some (g i)) -> exists r, f_op3 B o a b c = Some r /\ repv r g.
Hypothesis H_if : forall l p a b f f', repl l p -> repv a f -> repv b f' -> exists r, f_if B l a b = Some r /\ repv r (fun i => if p i then f i else f' i).
Hypothesis H_set1l : forall x, exists r, f_set1l B x = Some r /\ repl r (fun _ => negb (x =? 0)).
Hypothesis H_cmp : forall o a b f f' p, repv a f -> repv b f' -> lanes (fun i => scalar_frel t o (f i) (f' i) = Some (p i)) -> exists r, f_cmp B o a b = Some r /\ repl r p.
Hypothesis H_logic : forall o a b p q, repl a p -> repl b q -> exists r, f_logic B o a b = Some r /\ repl r (fun i => scalar_lop o (p i) (q i)).
Hypothesis H_notl : forall a p, repl a p -> exists r, f_notl B a = Some r /\ repl r (fun i => negb (p i)).
Hypothesis H_to_logical : forall a f, repv a f -> exists r, f_to_logical B a = Some r /\ repl r (fun i => negb (f i =? 0)).
Hypothesis H_ext : forall r f g, repv r f -> lanes (fun i => f i = g i) -> repv r g.
Hypothesis H_extl : forall r p q, repl r p -> lanes (fun i => p i = q i) -> repl r q.
Hypothesis H_len : 0 < len.

Ltac sub D := intros i Hi; specialize (D i Hi); cbv beta in D; intros N; rewrite N in D;
  repeat match type of D with context [match ?x with _ => _ end] => destruct x end; contradiction.
Lemma feval_ok env args : (forall k, repv (env k) (args k)) ->
  (forall e, (uses_fma e = true -> fused) -> lanes (fun i => felement t (fun k => args k i) e <> None) ->
     exists r, fveval B env e = Some r /\ repv r (fun i => val (felement t (fun k => args k i) e))) /\
  (forall e, (uses_fmal e = true -> fused) -> lanes (fun i => flogical_element t (fun k => args k i) e <> None) ->
     exists r, fleval B env e = Some r /\ repl r (fun i => tval (flogical_element t (fun k => args k i) e))).
Proof.
  intros E. apply fexp_both; cbn [fveval fleval felement flogical_element uses_fma uses_fmal].
  - intros k _ _. exists (env k). split; [reflexivity|exact (E k)].
  - intros x _ D. destruct (H_set1 x) as (r & R & P).
    { specialize (D 0 ltac:(lia)). cbv beta in D. destruct ((0 <=? x) && (x <? 2 ^ fw t)) eqn:Q; [lia|contradiction]. }
    exists r. split; [exact R|]. apply (H_ext _ _ _ P). intros i Hi. specialize (D i Hi); cbv beta in D. destruct ((0 <=? x) && (x <? 2 ^ fw t)); [reflexivity|contradiction].
  - intros o a IH U D. destruct (IH U) as (r & R & P); [sub D|]. rewrite R. cbn [bind]. apply (H_op1 o r _ _ P). intros i Hi. specialize (D i Hi); cbv beta in D.
    destruct (felement t _ a) as [x|]; [|contradiction]. cbn [val]. exact (val_some _ D).
  - intros o a IHa b IHb U D. destruct (IHa ltac:(intros; apply U; rewrite H; reflexivity)) as (r & R & P); [sub D|]. destruct (IHb ltac:(intros; apply U; rewrite H, orb_true_r; reflexivity)) as (r' & R' & P'); [sub D|].
    rewrite R, R'. cbn [bind bind2]. apply (H_op2 o r r' _ _ _ P P'). intros i Hi. specialize (D i Hi); cbv beta in D.
    destruct (felement t _ a) as [x|]; [|contradiction]. destruct (felement t _ b) as [y|]; [|contradiction]. cbn [val]. exact (val_some _ D).
  - intros o a IHa b IHb c IHc U D. specialize (U eq_refl). destruct (IHa (fun _ => U)) as (r & R & P); [sub D|]. destruct (IHb (fun _ => U)) as (r' & R' & P'); [sub D|]. destruct (IHc (fun _ => U)) as (r'' & R'' & P''); [sub D|].
    rewrite R, R', R''. cbn [bind bind2]. apply (H_op3 U o r r' r'' _ _ _ _ P P' P''). intros i Hi. specialize (D i Hi); cbv beta in D.
    destruct (felement t _ a) as [x|]; [|contradiction]. destruct (felement t _ b) as [y|]; [|contradiction]. destruct (felement t _ c) as [z|]; [|contradiction]. cbn [val]. exact (val_some _ D).
  - intros l IHl a IHa b IHb U D. destruct (IHl ltac:(intros; apply U; rewrite H; reflexivity)) as (rl & Rl & Pl); [sub D|].
    destruct (IHa ltac:(intros; apply U; rewrite H, orb_true_r; reflexivity)) as (r & R & P); [sub D|]. destruct (IHb ltac:(intros; apply U; rewrite H, orb_true_r; reflexivity)) as (r' & R' & P'); [sub D|].
    rewrite Rl, R, R'. cbn [bind bind2]. destruct (H_if rl _ r r' _ _ Pl P P') as (q & Q & V). exists q. split; [exact Q|]. apply (H_ext _ _ _ V). intros i Hi. specialize (D i Hi); cbv beta in D.
    destruct (flogical_element t _ l) as [c|]; [|contradiction]. destruct (felement t _ a) as [x|]; [|contradiction]. destruct (felement t _ b) as [y|]; [|contradiction]. reflexivity.
  - intros x _ _. exact (H_set1l x).
  - intros o a IHa b IHb U D. destruct (IHa ltac:(intros; apply U; rewrite H; reflexivity)) as (r & R & P); [sub D|]. destruct (IHb ltac:(intros; apply U; rewrite H, orb_true_r; reflexivity)) as (r' & R' & P'); [sub D|].
    rewrite R, R'. cbn [bind bind2]. apply (H_cmp o r r' _ _ _ P P'). intros i Hi. specialize (D i Hi); cbv beta in D.
    destruct (felement t _ a) as [x|]; [|contradiction]. destruct (felement t _ b) as [y|]; [|contradiction]. cbn [val]. exact (tval_some _ D).
  - intros o a IHa b IHb U D. destruct (IHa ltac:(intros; apply U; rewrite H; reflexivity)) as (r & R & P); [sub D|]. destruct (IHb ltac:(intros; apply U; rewrite H, orb_true_r; reflexivity)) as (r' & R' & P'); [sub D|].
    rewrite R, R'. cbn [bind bind2]. destruct (H_logic o r r' _ _ P P') as (q & Q & V). exists q. split; [exact Q|]. apply (H_extl _ _ _ V). intros i Hi. specialize (D i Hi); cbv beta in D.
    destruct (flogical_element t _ a) as [x|]; [|contradiction]. destruct (flogical_element t _ b) as [y|]; [|contradiction]. reflexivity.
  - intros a IH U D. destruct (IH U) as (r & R & P); [sub D|]. rewrite R. cbn [bind]. destruct (H_notl r _ P) as (q & Q & V). exists q. split; [exact Q|]. apply (H_extl _ _ _ V).
    intros i Hi. specialize (D i Hi); cbv beta in D. destruct (flogical_element t _ a) as [x|]; [|contradiction]. reflexivity.
  - intros a IH U D. destruct (IH U) as (r & R & P); [sub D|]. rewrite R. cbn [bind]. destruct (H_to_logical r _ P) as (q & Q & V). exists q. split; [exact Q|]. apply (H_extl _ _ _ V).
    intros i Hi. specialize (D i Hi); cbv beta in D. destruct (felement t _ a) as [x|]; [|contradiction]. reflexivity.
Qed.
End Induction.

(** ** What each operator must give *)
(** -0 is not told from +0 by min and max, NaN's are not ordered *)
Definition plain (v w : fval) : Prop := compare v w <> Unordered /\ (compare v w = Equal -> v = w).
Definition spec_f1 (t : fty) (o : fop1) (v : fval) (r : Z) : Prop :=
  match o with
  | FNeg => decode (ff t) r = opposite v | FAbs => v <> FFin true 0 -> decode (ff t) r = absolute v
  | FSqrt => root_is (ff t) v r | FRec => inverse_is (ff t) v r
  | FFloor => rounded (ff t) (down (ff t)) v (decode (ff t) r) | FCeil => rounded (ff t) (up (ff t)) v (decode (ff t) r)
  | FTrunc => rounded (ff t) (toward_zero (ff t)) v (decode (ff t) r)
  end.
Definition spec_f2 (t : fty) (o : fop2) (v w : fval) (r : Z) : Prop :=
  match o with
  | FArith o => result_is o (ff t) v w r
  | FMin => plain v w -> decode (ff t) r = least v w | FMax => plain v w -> decode (ff t) r = greatest v w
  end.
Definition spec_f3 (t : fty) (o : muladd) (v w x : fval) (r : Z) : Prop :=
  (negates o = true -> ~ cancels (ff t) (factor o v) w (addend o x)) -> fused_is (ff t) (factor o v) w (addend o x) r.

Lemma same_decode f r r' : same_number f r r' -> decode f r = decode f r'.
Proof. intros [->|[N N']]; [reflexivity|]. unfold is_nan in *. congruence. Qed.
Lemma cancels_iff f v w x : cancelling f v w x = false <-> ~ cancels f v w x.
Proof.
  destruct v as [|s|s m], w as [|s'|s' m'], x as [|s''|s'' m'']; cbn [cancelling cancels]; try tauto.
  destruct (Z.eqb_spec (sval (xorb s s') (m * m') + sval s'' (m'' * one f)) 0) as [E|E]; cbn [andb]; [|tauto].
  destruct (xorb s s'), s''; cbn [xorb]; split; intros H; try discriminate; try reflexivity; try (intros (_ & K); apply K; reflexivity); exfalso; apply H; split; [exact E|discriminate|exact E|discriminate].
Qed.
Lemma pick_least v w : plain v w -> (if is (compare v w) Less then v else w) = least v w.
Proof. intros (N & E). unfold least. destruct (compare v w) eqn:C; cbn [is]; try reflexivity; [|contradiction]. rewrite (E eq_refl). destruct (negative w); reflexivity. Qed.
Lemma pick_greatest v w : plain v w -> (if is (compare v w) Greater then v else w) = greatest v w.
Proof. intros (N & E). unfold greatest. destruct (compare v w) eqn:C; cbn [is]; try reflexivity; [|contradiction]. rewrite (E eq_refl). destruct (negative w); reflexivity. Qed.
Lemma abs_zero v : v <> FFin true 0 -> (forall s m, v = FFin s m -> 0 <= m) -> (if is (compare v (FFin false 0)) Equal then v else absolute v) = absolute v.
Proof.
  intros N M. destruct v as [|[]|s m]; try reflexivity. specialize (M s m eq_refl). cbn [compare]. destruct (Z.compare_spec (sval s m) (sval false 0)) as [E|E|E]; cbn [is]; try reflexivity.
  assert (m = 0) as -> by (destruct s; cbn [sval] in E; lia). destruct s; [contradiction|reflexivity].
Qed.

Section Element.
Variable t : fty.
Hypothesis T : t <> F16.
Notation inr x := (0 <= x < 2 ^ fw t).
Notation dec := (decode (ff t)).
Lemma nonneg x s m : inr x -> dec x = FFin s m -> 0 <= m.
Proof. intros R. rewrite <- ff_width in R. exact (dec_nonneg (ff t) x s m (ff_good t) R). Qed.
Lemma inj x y : inr x -> inr y -> dec x = dec y -> dec x <> FNaN -> x = y.
Proof. intros X Y E N. rewrite <- ff_width in *. destruct (decode_eq (ff t) x y (ff_good t) X Y E) as [Q|(Q & _)]; [exact Q|contradiction]. Qed.
Lemma zero_iff x y : inr x -> inr y -> dec x = dec y -> (x =? 0) = (y =? 0).
Proof.
  intros X Y E. assert (inr 0) as O by (split; [lia|]; apply Z.pow_pos_nonneg; [lia|destruct t; cbn; lia]). assert (dec 0 <> FNaN) as K by (destruct t; discriminate).
  destruct (Z.eqb_spec x 0) as [->|N], (Z.eqb_spec y 0) as [->|M]; try reflexivity; exfalso.
  - apply M. symmetry. apply inj; assumption.
  - apply N. symmetry. apply inj; congruence || assumption.
Qed.
Lemma equal_plain x y : inr x -> inr y -> compare (dec x) (dec y) = Equal -> x <> y -> dec x <> dec y /\ (exists s, dec x = FFin s 0).
Proof.
  intros X Y C N. assert (dec x <> FNaN) as K by (intros E; rewrite E in C; discriminate). split; [intros E; apply N; apply inj; assumption|].
  destruct (dec x) as [|s|s m] eqn:Ex, (dec y) as [|s'|s' m'] eqn:Ey; cbn [compare] in C; try discriminate; try (destruct s; discriminate); try (destruct s'; discriminate).
  - destruct s, s'; try discriminate; exfalso; apply N; apply inj; congruence || assumption.
  - destruct (Z.compare_spec (sval s m) (sval s' m')) as [E|E|E]; try discriminate. pose proof (nonneg x s m X Ex). pose proof (nonneg y s' m' Y Ey).
    destruct (Bool.bool_dec s s') as [<-|D].
    + exfalso. apply N. assert (m = m') as <- by (destruct s; cbn [sval] in E; lia). apply inj; congruence || assumption.
    + exists s. f_equal. destruct s, s'; cbn [sval] in E; try contradiction; lia.
Qed.

Lemma f1_ok o x g : inr x -> scalar_f1 t o x = Some g -> inr g /\ spec_f1 t o (dec x) g /\ (o = FAbs -> dec x <> FFin true 0).
Proof.
  intros X. assert (forall (P : Z -> Prop) u, (exists r, u = Some r /\ inr r /\ P r) -> u = Some g -> inr g /\ P g) as K.
  { intros P u (r & E & I & H) E'. rewrite E in E'. injection E' as <-. split; assumption. }
  destruct o; cbn [scalar_f1 spec_f1]; intros E.
  - destruct (K _ _ (C91_neg t x X) E). repeat split; try tauto; discriminate.
  - destruct (Z.eqb_spec x (2 ^ (fw t - 1))) as [Q|Q]; [discriminate|]. destruct (K _ _ (C91_abs t x X) E) as (G & H).
    assert (dec x <> FFin true 0) as N.
    { intros D. apply Q. rewrite <- ff_width in *. eapply (decode_inj (ff t)); [apply ff_good|exact X| |exact D|].
      - rewrite ff_width. split; [apply Z.pow_nonneg; lia|apply Z.pow_lt_mono_r; destruct t; cbn; lia].
      - destruct t; reflexivity. }
    split; [exact G|]. split; [|auto]. intros _. rewrite H. apply abs_zero; [exact N|]. intros s m. apply nonneg, X.
  - destruct (K _ _ (sf_sqrt_is true t x X) E). repeat split; try tauto; discriminate.
  - destruct (K _ _ (sf_rec_is t x X) E). repeat split; try tauto; discriminate.
  - destruct (K _ _ (C91_floor true t x X) E). repeat split; try tauto; discriminate.
  - destruct (K _ _ (C91_ceil true t x X) E). repeat split; try tauto; discriminate.
  - destruct (K _ _ (C91_trunc true true t x X) E). repeat split; try tauto; discriminate.
Qed.
Lemma f1_unique o x r r' : inr x -> inr r -> inr r' -> (o = FAbs -> dec x <> FFin true 0) -> spec_f1 t o (dec x) r -> spec_f1 t o (dec x) r' -> dec r = dec r'.
Proof.
  intros X R R' C. pose proof (ff_good t) as G. destruct o; cbn [spec_f1]; intros H H'.
  - congruence.
  - rewrite (H (C eq_refl)), (H' (C eq_refl)). reflexivity.
  - rewrite <- ff_width in *. apply same_decode. exact (root_unique (ff t) r r' G R R' _ H H').
  - rewrite <- ff_width in *. apply same_decode. refine (quotient_unique (ff t) r r' G R R' _ _ _ H H'). intros s m D. exact (dec_nonneg (ff t) x s m G X D).
  - refine (X86FloatProofs3.rounded_unique (ff t) _ (dec x) _ _ G _ H H'). unfold down. pose proof (one_pos (ff t) G). intros; nia.
  - refine (X86FloatProofs3.rounded_unique (ff t) _ (dec x) _ _ G _ H H'). unfold up. pose proof (one_pos (ff t) G). intros; nia.
  - refine (X86FloatProofs3.rounded_unique (ff t) _ (dec x) _ _ G _ H H'). unfold toward_zero. pose proof (one_pos (ff t) G). intros z k k' (A & S) (A' & S').
    assert (Z.abs k = Z.abs k') by nia. nia.
Qed.
Lemma f2_ok o x y g : inr x -> inr y -> scalar_f2 t o x y = Some g -> inr g /\ spec_f2 t o (dec x) (dec y) g /\ (match o with FArith _ => True | _ => plain (dec x) (dec y) end).
Proof.
  intros X Y. destruct o as [o| |]; cbn [scalar_f2 spec_f2].
  - intros E. assert (exists r, s_arith o t x y = Some r /\ inr r /\ result_is o (ff t) (dec x) (dec y) r) as (r & E' & R & A).
    { destruct o; [apply sf_add_is|apply sf_sub_is|apply sf_mul_is|apply sf_div_is]; assumption. }
    rewrite E in E'. injection E' as <-. auto.
  - destruct (compare (dec x) (dec y)) eqn:C; try discriminate.
    + intros E. destruct (C91_min t x y X Y) as (r & E' & R & S). rewrite E in E'. injection E' as <-. rewrite C in S. cbn [is] in S. apply same_decode in S. assert (plain (dec x) (dec y)) as P by (split; congruence). split; [exact R|]. split; [|exact P]. intros _. rewrite S. unfold least. rewrite C. reflexivity.
    + destruct (Z.eqb_spec x y) as [<-|]; [|discriminate]. intros E. injection E as <-. split; [exact X|]. split; [|split; congruence]. intros _. unfold least. rewrite C. destruct (negative (dec x)); reflexivity.
    + intros E. destruct (C91_min t x y X Y) as (r & E' & R & S). rewrite E in E'. injection E' as <-. rewrite C in S. cbn [is] in S. apply same_decode in S. assert (plain (dec x) (dec y)) as P by (split; congruence). split; [exact R|]. split; [|exact P]. intros _. rewrite S. unfold least. rewrite C. reflexivity.
  - destruct (compare (dec x) (dec y)) eqn:C; try discriminate.
    + intros E. destruct (C91_max t x y X Y) as (r & E' & R & S). rewrite E in E'. injection E' as <-. rewrite C in S. cbn [is] in S. apply same_decode in S. assert (plain (dec x) (dec y)) as P by (split; congruence). split; [exact R|]. split; [|exact P]. intros _. rewrite S. unfold greatest. rewrite C. reflexivity.
    + destruct (Z.eqb_spec x y) as [<-|]; [|discriminate]. intros E. injection E as <-. split; [exact X|]. split; [|split; congruence]. intros _. unfold greatest. rewrite C. destruct (negative (dec x)); reflexivity.
    + intros E. destruct (C91_max t x y X Y) as (r & E' & R & S). rewrite E in E'. injection E' as <-. rewrite C in S. cbn [is] in S. apply same_decode in S. assert (plain (dec x) (dec y)) as P by (split; congruence). split; [exact R|]. split; [|exact P]. intros _. rewrite S. unfold greatest. rewrite C. reflexivity.
Qed.
Lemma f2_unique o x y r r' : inr x -> inr y -> inr r -> inr r' -> (match o with FArith _ => True | _ => plain (dec x) (dec y) end) -> spec_f2 t o (dec x) (dec y) r -> spec_f2 t o (dec x) (dec y) r' -> dec r = dec r'.
Proof.
  intros X Y R R' C. destruct o as [o| |]; cbn [spec_f2]; intros H H'.
  - apply same_decode. exact (result_unique o t x y r r' X Y R R' H H').
  - rewrite (H C), (H' C). reflexivity.
  - rewrite (H C), (H' C). reflexivity.
Qed.
Lemma f3_ok o x y z g : inr x -> inr y -> inr z -> scalar_f3 t o x y z = Some g -> inr g /\ fused_is (ff t) (factor o (dec x)) (dec y) (addend o (dec z)) g /\
  (negates o = true -> ~ cancels (ff t) (factor o (dec x)) (dec y) (addend o (dec z))).
Proof.
  intros X Y W. unfold scalar_f3. destruct (negates o && cancelling _ _ _ _) eqn:C; [discriminate|]. intros E. destruct (C90_fused o t x y z T X Y W) as (r & E' & R & A).
  replace (s_muladd o true t x y z) with (scalar_muladd o true t x y z) in E by (destruct o; reflexivity).   rewrite E in E'. injection E' as <-. split; [exact R|]. split; [exact A|]. intros N. rewrite N in C. cbn [andb] in C. apply cancels_iff, C.
Qed.
Lemma f3_unique o x y z r r' : inr r -> inr r' -> (negates o = true -> ~ cancels (ff t) (factor o (dec x)) (dec y) (addend o (dec z))) ->
  spec_f3 t o (dec x) (dec y) (dec z) r -> fused_is (ff t) (factor o (dec x)) (dec y) (addend o (dec z)) r' -> dec r = dec r'.
Proof.
  intros R R' C H H'. apply same_decode. rewrite <- ff_width in *. eapply fused_unique; [apply ff_good|exact R|exact R'|exact (H C)|exact H'].
Qed.
(** how a comparison follows from the order of the values *)
Definition rel_of (o : rel) (c : relation) : bool :=
  match o with Eq => is c Equal | Ne => negb (is c Equal) | Lt => is c Less | Le => is c Less || is c Equal | Gt => is c Greater | Ge => is c Greater || is c Equal end.
Lemma frel_ok o x y : inr x -> inr y -> scalar_frel t o x y = Some (rel_of o (compare (dec x) (dec y))).
Proof. intros X Y. destruct (C91_compare t x y X Y) as (A & B & C & D & E & F). destruct o; assumption. Qed.
End Element.

(** ** Registers *)
Definition frep (N : Z) (t : fty) (r : Z) (f : Z -> Z) : Prop :=
  in_reg N r /\ forall i, 0 <= i < N / fw t -> 0 <= f i < 2 ^ fw t /\ decode (ff t) (fpat t r i) = decode (ff t) (f i).
Section Registers.
Variables (N : Z) (t : fty).
Hypothesis T : t <> F16.
Notation lanes := (all_lanes (N / fw t)).
Lemma frep_ext r f g : frep N t r f -> lanes (fun i => f i = g i) -> frep N t r g.
Proof. intros (I & F) E. split; [exact I|]. intros i Hi. rewrite <- (E i Hi). exact (F i Hi). Qed.
Lemma frep_id r f : in_reg N r -> lanes (fun i => 0 <= f i < 2 ^ fw t /\ fpat t r i = f i) -> frep N t r f.
Proof. intros I F. split; [exact I|]. intros i Hi. destruct (F i Hi) as (R & E). split; [exact R|]. rewrite E. reflexivity. Qed.
Lemma step1 o a f r g : frep N t a f -> in_reg N r -> lanes (fun i => spec_f1 t o (fvalue t a i) (fpat t r i)) -> lanes (fun i => scalar_f1 t o (f i) = Some (g i)) -> frep N t r g.
Proof.
  intros (_ & F) I S E. split; [exact I|]. intros i Hi. destruct (F i Hi) as (X & D). destruct (f1_ok t T o _ _ X (E i Hi)) as (G & H & C). split; [exact G|].
  specialize (S i Hi). cbv beta in S. unfold fvalue in S. rewrite D in S. exact (f1_unique t o _ _ _ X (fpat_rng t r i) G C S H).
Qed.
Lemma step2 o a b f f' r g : frep N t a f -> frep N t b f' -> in_reg N r -> lanes (fun i => spec_f2 t o (fvalue t a i) (fvalue t b i) (fpat t r i)) ->
  lanes (fun i => scalar_f2 t o (f i) (f' i) = Some (g i)) -> frep N t r g.
Proof.
  intros (_ & F) (_ & F') I S E. split; [exact I|]. intros i Hi. destruct (F i Hi) as (X & D). destruct (F' i Hi) as (X' & D'). destruct (f2_ok t o _ _ _ X X' (E i Hi)) as (G & H & C). split; [exact G|].
  specialize (S i Hi). cbv beta in S. unfold fvalue in S. rewrite D, D' in S. exact (f2_unique t o _ _ _ _ X X' (fpat_rng t r i) G C S H).
Qed.
Lemma step3 o a b c f f' f'' r g : frep N t a f -> frep N t b f' -> frep N t c f'' -> in_reg N r -> lanes (fun i => spec_f3 t o (fvalue t a i) (fvalue t b i) (fvalue t c i) (fpat t r i)) ->
  lanes (fun i => scalar_f3 t o (f i) (f' i) (f'' i) = Some (g i)) -> frep N t r g.
Proof.
  intros (_ & F) (_ & F') (_ & F'') I S E. split; [exact I|]. intros i Hi. destruct (F i Hi) as (X & D). destruct (F' i Hi) as (X' & D'). destruct (F'' i Hi) as (X'' & D'').
  destruct (f3_ok t T o _ _ _ _ X X' X'' (E i Hi)) as (G & H & C). split; [exact G|].
  specialize (S i Hi). cbv beta in S. unfold fvalue in S. rewrite D, D', D'' in S. exact (f3_unique t o _ _ _ _ _ (fpat_rng t r i) G C S H).
Qed.
Lemma step_if p a b f f' r : frep N t a f -> frep N t b f' -> in_reg N r -> lanes (fun i => fpat t r i = if p i : bool then fpat t a i else fpat t b i) -> frep N t r (fun i => if p i then f i else f' i).
Proof. intros (_ & F) (_ & F') I S. split; [exact I|]. intros i Hi. specialize (S i Hi). cbv beta in S. rewrite S. destruct (p i); [apply F, Hi|apply F', Hi]. Qed.
Lemma step_cmp o a b f f' p i : frep N t a f -> frep N t b f' -> 0 <= i < N / fw t -> scalar_frel t o (f i) (f' i) = Some (p i) -> rel_of o (frel t a b i) = p i.
Proof.
  intros (_ & F) (_ & F') Hi E. destruct (F i Hi) as (X & D). destruct (F' i Hi) as (X' & D'). rewrite (frel_ok t o _ _ X X') in E. injection E as <-. unfold frel, fvalue. rewrite D, D'. reflexivity.
Qed.
Lemma step_tol a f i : frep N t a f -> 0 <= i < N / fw t -> negb (fpat t a i =? 0) = negb (f i =? 0).
Proof. intros (_ & F) Hi. destruct (F i Hi) as (X & D). f_equal. apply (zero_iff t T); [apply fpat_rng|exact X|exact D]. Qed.
End Registers.
