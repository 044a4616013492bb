(** Proofs about Portable.v: ARM and POWER. *)
From Coq Require Import ZArith Lia List Bool ZifyBool.
From Verif Require Import CInt BitLemmas ScalarOps ScalarSpec ScalarProofs X86Deg234 X86Arith X86ArithSpec Arm ArmSpec Ppc PpcSpec
  PropArm PropPpc Portable PortableSpec PortableProofs PortableProofs2 PortableProofs3.
Open Scope Z_scope.

(** ** ARM *)
Section ARM.
Variables (u : Z) (e : aext) (t : ity).
Hypothesis Ht : In t int_types.
Hypothesis Ha : architectural e.
Hypothesis Hl : native_logicals e.
Lemma a_lanes : 0 < an e / bits t.
Proof. apply Z.div_str_pos. pose proof (bits_pos t Ht). assert (bits t <= 64) by (cbn in Ht; decompose [or] Ht; subst; try tauto; cbn; lia). destruct e; cbn [an]; lia. Qed.
Lemma amul_wide : arm_mul_emulated e t = true -> 32 <= bits t. Proof. unfold arm_mul_emulated. lia. Qed.
Lemma aneg_wide : arm_neg_emulated e t = true -> 32 <= bits t. Proof. unfold arm_neg_emulated. lia. Qed.

Lemma ar_op1 o a : in_reg (an e) a -> (forall i, 0 <= i < an e / bits t -> def1 t o (elt t a i)) -> okvec (an e) t (b_op1 (arm u e t) o a) (fun i => val1 t o (elt t a i)).
Proof.
  intros A D. destruct o; cbn [b_op1 arm val1]; cbn [def1] in D.
  - apply C70_neg; try assumption. intros M S i Hi. exact (D i Hi S (aneg_wide M)).
  - apply C70_abs; try assumption. intros M S i Hi. exact (D i Hi S (aneg_wide M)).
  - pose proof (C72_bitwise_registers u e t a a Ht A A) as R. apply (bitwise_reg _ t Ht _ (fun x _ => negb x) a a); [apply R|]. intros k Hk. apply (C72_bitwise u e t a a k Ht Hk).
Qed.
Lemma ar_op2 o a b : in_reg (an e) a -> in_reg (an e) b -> (forall i, 0 <= i < an e / bits t -> def2 t o (elt t a i) (elt t b i)) ->
  okvec (an e) t (b_op2 (arm u e t) o a b) (fun i => val2 t o (elt t a i) (elt t b i)).
Proof.
  intros A B D. pose proof (C72_bitwise_registers u e t a b Ht A B) as R. destruct o; cbn [b_op2 arm val2]; cbn [def2] in D.
  - apply some_ok, C70_add_sub; assumption.
  - apply some_ok, C70_add_sub; assumption.
  - apply C70_mul; try assumption. intros M S i Hi. exact (D i Hi S (amul_wide M)).
  - destruct (C71_div u e t a b Ht Ha A B (fun _ => D)) as (r & Q & I & F). exists r. split; [exact Q|]. split; [exact I|]. intros i Hi. specialize (F i Hi). specialize (D i Hi).
    destruct (Z.eqb_spec (elt t b i) 0) as [Z|Z]; [destruct D; left; exact Z|exact F].
  - apply some_ok, C70_min_max; assumption.
  - apply some_ok, C70_min_max; assumption.
  - apply some_ok, C70_saturated; assumption.
  - apply some_ok, C70_saturated; assumption.
  - apply (bitwise_reg _ t Ht); [apply R|]. intros k Hk. apply (C72_bitwise u e t a b k Ht Hk).
  - apply (bitwise_reg _ t Ht); [apply R|]. intros k Hk. apply (C72_bitwise u e t a b k Ht Hk).
  - apply (bitwise_reg _ t Ht); [apply R|]. intros k Hk. apply (C72_bitwise u e t a b k Ht Hk).
  - apply (bitwise_reg _ t Ht _ (fun x y => x && negb y)); [apply R|]. intros k Hk. apply (C72_bitwise u e t a b k Ht Hk).
Qed.
Lemma ar_op3 o a b c : in_reg (an e) a -> in_reg (an e) b -> in_reg (an e) c -> (forall i, 0 <= i < an e / bits t -> def3 t o (elt t a i) (elt t b i) (elt t c i)) ->
  okvec (an e) t (b_op3 (arm u e t) o a b c) (fun i => val3 t o (elt t a i) (elt t b i) (elt t c i)).
Proof.
  intros A B C D. destruct o as [neg sub]. cbn [b_op3 arm val3]. cbn [def3] in D.
  destruct (C74_fma u neg sub e t a b c Ht A B C) as (r & R & I & F).
  - intros M S i Hi. destruct (D i Hi S (amul_wide M)) as ((X & X') & (P & P') & (V & V')). unfold p_fma_value in V, V'. unfold fma_steps.
    replace (- elt t a i * elt t b i) with (- (elt t a i * elt t b i)) by ring.
    destruct neg, sub; cbn [xorb andb] in *; try destruct (is_neon128 e); repeat (apply Forall_cons || apply Forall_nil); try assumption.
    all: match goal with |- in_ty t ?x => match goal with
      | H : in_ty t ?y |- _ => replace x with y by ring; exact H end end.
  - exists r. split; [|split; [exact I|]].
    + unfold fma_family in R. destruct neg, sub; exact R.
    + intros i Hi. cbn [val3]. replace (p_fma_value neg sub (elt t a i) (elt t b i) (elt t c i)) with (fma_value neg sub (elt t a i) (elt t b i) (elt t c i)); [exact (F i Hi)|]. unfold fma_value, p_fma_value. destruct neg; ring.
Qed.
Lemma ar_shift o a s : in_reg (an e) a -> 0 <= s < bits t -> okvec (an e) t (b_shift (arm u e t) o a s) (fun i => vals t o (elt t a i) s).
Proof. intros A S. destruct o; cbn [b_shift arm vals]; [apply C72_shl|apply C72_shr|apply C72_shra]; assumption. Qed.
Lemma a_logical_ext l p q : alogical e t l p -> all_lanes (an e / bits t) (fun i => p i = q i) -> alogical e t l q.
Proof.
  unfold alogical. intros L E. destruct e as [| |[|] vq]; destruct L as (I & F); (split; [exact I|]); intros i Hi; rewrite (F i Hi), (E i Hi); reflexivity.
Qed.
Lemma arm_portable env ex : (forall k, in_reg (an e) (env k)) ->
  (forall i, 0 <= i < an e / bits t -> element t (fun k => elt t (env k) i) i ex <> None) ->
  exists r, veval (arm u e t) env ex = Some r /\ in_reg (an e) r /\
    forall i, 0 <= i < an e / bits t -> element t (fun k => elt t (env k) i) i ex = Some (elt t r i).
Proof.
  intros E D. apply finish; [|exact D].
  refine (proj1 (eval_ok (arm u e t) t (an e / bits t) (rep (an e) t) (alogical e t) _ _ _ _ _ _ _ _ _ _ _ _ _ _ _ a_lanes env (fun k i => elt t (env k) i) _) ex D).
  - intros x I. exists (a_set1 e t x). split; [reflexivity|]. exact (proj1 (C70_set1_len e t x Ht I)).
  - exists (a_iota e t). split; [reflexivity|]. apply (rep_of _ _ _ _ _ (C75_iota e t Ht)). intros i x Hi W. exact (wraps_cast t i x Ht W).
  - intros o a f g A S. apply (bridge1 (an e) t Ht _ o f g a A S). intros Q. apply ar_op1; [apply A|exact Q].
  - intros o a b f f' g A B S. apply (bridge2 (an e) t Ht _ o f f' g a b A B S). intros Q. apply ar_op2; [apply A|apply B|exact Q].
  - intros o a b c f f' f'' g A B C S. apply (bridge3 (an e) t Ht _ o f f' f'' g a b c A B C S). intros Q. apply ar_op3; [apply A|apply B|apply C|exact Q].
  - intros o a f s g A S. apply (bridges (an e) t Ht _ o f g a s a_lanes A S). intros Q _. apply ar_shift; [apply A|exact Q].
  - intros l p a b f f' L A B. exists (a_if_else1 u e t l a b). split; [reflexivity|]. apply (rep_of _ _ _ _ _ (C73_if_else u e t l p a b Ht (proj1 A) (proj1 B) L)).
    intros i x Hi ->. rewrite (proj2 A i Hi), (proj2 B i Hi). reflexivity.
  - intros l p L. exists (a_to_mask e t l). split; [reflexivity|]. apply (rep_of _ _ _ _ _ (C73_to_mask e t l p Ht L)). intros i x Hi ->. symmetry. apply mask_value, Ht.
  - intros x. exists (a_set1l e t x). split; [reflexivity|]. apply C73_set1l; assumption.
  - intros o a b f f' A B. eexists. split; [reflexivity|]. pose proof (C73_compare u e t a b Ht) as Q.
    assert (forall l p, alogical e t l p -> (forall i, p i = scalar_rel o (elt t a i) (elt t b i)) -> alogical e t l (fun i => scalar_rel o (f i) (f' i))) as G.
    { intros l p L P. apply (a_logical_ext l p _ L). intros i Hi. rewrite P, (proj2 A i Hi), (proj2 B i Hi). reflexivity. }
    destruct o; (eapply G; [apply Q|intros i; rewrite rel_values; try reflexivity]); rewrite ?Z.gtb_ltb, ?Z.geb_leb; reflexivity.
  - intros o a b p q A B. eexists. split; [reflexivity|]. pose proof (C73_logical_operators u e t a b p q Ht A B) as Q. destruct o; apply Q.
  - intros a p A. eexists. split; [reflexivity|]. apply (C73_logical_operators u e t a a p p Ht A A).
  - intros a f A. eexists. split; [reflexivity|]. apply (a_logical_ext _ _ _ (C73_to_logical u e t a Ht)). intros i Hi. rewrite (proj2 A i Hi). reflexivity.
  - intros r f g R G. exact (rep_ext _ _ _ _ _ R G).
  - exact a_logical_ext.
  - intros k. split; [apply E|]. intros; reflexivity.
Qed.
End ARM.

(** ** POWER *)
Section POWER.
Variables (e : pext) (t : ity).
Hypothesis Ht : In t int_types.
Lemma p_lanes : 0 < 128 / bits t. Proof. apply lanes_i32; [exact Ht|]. left. reflexivity. Qed.
Lemma po_op1 o a : in_reg 128 a -> (forall i, 0 <= i < 128 / bits t -> def1 t o (elt t a i)) -> okvec 128 t (b_op1 (power e t) o a) (fun i => val1 t o (elt t a i)).
Proof.
  intros A D. destruct o; cbn [b_op1 power val1]; cbn [def1] in D.
  - apply C98_neg; try assumption. intros _ T i Hi. subst t. apply (D i Hi eq_refl). discriminate.
  - apply C98_abs; try assumption. intros _ T i Hi. subst t. apply (D i Hi eq_refl). discriminate.
  - destruct (C99_bitwise e t a a 0 Ht A A ltac:(lia)) as (_ & _ & _ & _ & (r & R & I & _)). rewrite R. apply (bitwise_reg _ t Ht _ (fun x _ => negb x) a a); [exact I|]. intros k Hk.
    destruct (C99_bitwise e t a a k Ht A A Hk) as (_ & _ & _ & _ & (r' & R' & _ & B)). rewrite R in R'. injection R' as <-. exact B.
Qed.
Lemma po_op2 o a b : in_reg 128 a -> in_reg 128 b -> (forall i, 0 <= i < 128 / bits t -> def2 t o (elt t a i) (elt t b i)) ->
  okvec 128 t (b_op2 (power e t) o a b) (fun i => val2 t o (elt t a i) (elt t b i)).
Proof.
  intros A B D. destruct o; cbn [b_op2 power val2]; cbn [def2] in D.
  - apply C98_add; try assumption. intros _ T i Hi. subst t. apply (D i Hi eq_refl). discriminate.
  - apply C98_sub; try assumption. intros _ T i Hi. subst t. apply (D i Hi eq_refl). discriminate.
  - apply C98_mul; try assumption. intros _ T i Hi. subst t. apply (D i Hi eq_refl). discriminate.
  - apply C98_div; assumption.
  - apply (proj1 (C98_min_max e t a b Ht)).
  - apply (proj2 (C98_min_max e t a b Ht)).
  - apply C98_adds; assumption.
  - apply C98_subs; [assumption|]. intros T i Hi. subst t. apply (D i Hi eq_refl).
  - destruct (C99_bitwise e t a b 0 Ht A B ltac:(lia)) as (_ & (r & R & I & _) & _). rewrite R. apply (bitwise_reg _ t Ht); [exact I|]. intros k Hk.
    destruct (C99_bitwise e t a b k Ht A B Hk) as (_ & (r' & R' & _ & Q) & _). rewrite R in R'. injection R' as <-. exact Q.
  - destruct (C99_bitwise e t a b 0 Ht A B ltac:(lia)) as ((r & R & I & _) & _). rewrite R. apply (bitwise_reg _ t Ht); [exact I|]. intros k Hk.
    destruct (C99_bitwise e t a b k Ht A B Hk) as ((r' & R' & _ & Q) & _). rewrite R in R'. injection R' as <-. exact Q.
  - destruct (C99_bitwise e t a b 0 Ht A B ltac:(lia)) as (_ & _ & (r & R & I & _) & _). rewrite R. apply (bitwise_reg _ t Ht); [exact I|]. intros k Hk.
    destruct (C99_bitwise e t a b k Ht A B Hk) as (_ & _ & (r' & R' & _ & Q) & _). rewrite R in R'. injection R' as <-. exact Q.
  - destruct (C99_bitwise e t a b 0 Ht A B ltac:(lia)) as (_ & _ & _ & (r & R & I & _) & _). rewrite R. apply (bitwise_reg _ t Ht _ (fun x y => x && negb y)); [exact I|]. intros k Hk.
    destruct (C99_bitwise e t a b k Ht A B Hk) as (_ & _ & _ & (r' & R' & _ & Q) & _). rewrite R in R'. injection R' as <-. exact Q.
Qed.
Lemma po_op3 o a b c : in_reg 128 a -> in_reg 128 b -> in_reg 128 c -> (forall i, 0 <= i < 128 / bits t -> def3 t o (elt t a i) (elt t b i) (elt t c i)) ->
  okvec 128 t (b_op3 (power e t) o a b c) (fun i => val3 t o (elt t a i) (elt t b i) (elt t c i)).
Proof.
  intros A B C D. destruct o as [neg sub]. cbn [b_op3 power val3]. cbn [def3] in D.
  destruct (C98_fma neg sub e t a b c Ht C) as (r & R & I & F).
  - intros _ T i Hi. subst t. destruct (D i Hi eq_refl) as ((X & X') & (P & P') & (V & V')); [discriminate|]. unfold p_fma_value in V, V'. unfold p_fma_steps.
    replace (- elt i64 a i * elt i64 b i) with (- (elt i64 a i * elt i64 b i)) by ring.
    destruct neg, sub; repeat (apply Forall_cons || apply Forall_nil); try assumption.
    all: replace (- elt i64 a i * elt i64 b i) with (- (elt i64 a i * elt i64 b i)) by ring; assumption.
  - exists r. split; [|split; [exact I|]].
    + unfold p_fma_family in R. destruct neg, sub; exact R.
    + intros i Hi. cbn [val3]. exact (F i Hi).
Qed.
Lemma po_shift o a s : in_reg 128 a -> 0 <= s < bits t -> (o = Shra -> is_signed t = true) -> okvec 128 t (b_shift (power e t) o a s) (fun i => vals t o (elt t a i) s).
Proof. intros A S G. destruct o; cbn [b_shift power vals]; [apply C99_shl|apply C99_shr|apply C99_shra]; try assumption. left. apply G. reflexivity. Qed.
Lemma p_logical_ext l p q : plogical t l p -> all_lanes (128 / bits t) (fun i => p i = q i) -> plogical t l q.
Proof. intros (I & F) E. split; [exact I|]. intros i Hi. rewrite (F i Hi), (E i Hi). reflexivity. Qed.
Lemma power_portable env ex : (forall k, in_reg 128 (env k)) ->
  (forall i, 0 <= i < 128 / bits t -> element t (fun k => elt t (env k) i) i ex <> None) ->
  exists r, veval (power e t) env ex = Some r /\ in_reg 128 r /\
    forall i, 0 <= i < 128 / bits t -> element t (fun k => elt t (env k) i) i ex = Some (elt t r i).
Proof.
  intros E D. apply finish; [|exact D].
  refine (proj1 (eval_ok (power e t) t (128 / bits t) (rep 128 t) (plogical t) _ _ _ _ _ _ _ _ _ _ _ _ _ _ _ p_lanes env (fun k i => elt t (env k) i) _) ex D).
  - intros x I. exists (p_set1 e t x). split; [reflexivity|]. exact (C99_set1 e t x Ht I).
  - destruct (C101_iota e t Ht) as (r & R & I & F). exists r. split; [exact R|]. split; [exact I|]. intros i Hi. rewrite (F i Hi). symmetry. apply cast_id; [exact Ht|]. rewrite <- (F i Hi). apply elt_in, Ht.
  - intros o a f g A S. apply (bridge1 128 t Ht _ o f g a A S). intros Q. apply po_op1; [apply A|exact Q].
  - intros o a b f f' g A B S. apply (bridge2 128 t Ht _ o f f' g a b A B S). intros Q. apply po_op2; [apply A|apply B|exact Q].
  - intros o a b c f f' f'' g A B C S. apply (bridge3 128 t Ht _ o f f' f'' g a b c A B C S). intros Q. apply po_op3; [apply A|apply B|apply C|exact Q].
  - intros o a f s g A S. apply (bridges 128 t Ht _ o f g a s p_lanes A S). intros Q G. apply po_shift; [apply A|exact Q|exact G].
  - intros l p a b f f' L A B. exists (p_if_else1 e t l a b). split; [reflexivity|]. apply (rep_of _ _ _ _ _ (C100_if_else e t l p a b Ht (proj1 A) (proj1 B) L)).
    intros i x Hi ->. rewrite (proj2 A i Hi), (proj2 B i Hi). reflexivity.
  - intros l p L. exists (p_to_mask e t l). split; [reflexivity|]. apply (rep_of _ _ _ _ _ (C100_to_mask e t l p Ht L)). intros i x Hi ->. symmetry. apply mask_value, Ht.
  - intros x. exists (p_set1l e t x). split; [reflexivity|]. apply C100_set1l; assumption.
  - intros o a b f f' A B. eexists. split; [reflexivity|]. pose proof (C100_compare e t a b Ht) as Q.
    assert (forall l p, plogical t l p -> (forall i, p i = scalar_rel o (elt t a i) (elt t b i)) -> plogical t l (fun i => scalar_rel o (f i) (f' i))) as G.
    { intros l p L P. apply (p_logical_ext l p _ L). intros i Hi. rewrite P, (proj2 A i Hi), (proj2 B i Hi). reflexivity. }
    destruct o; (eapply G; [apply Q|intros i; rewrite rel_values; try reflexivity]); rewrite ?Z.gtb_ltb, ?Z.geb_leb; reflexivity.
  - intros o a b p q A B. eexists. split; [reflexivity|]. pose proof (C100_logical_operators e t a b p q Ht A B) as Q. destruct o; apply Q.
  - intros a p A. eexists. split; [reflexivity|]. apply (C100_logical_operators e t a a p p Ht A A).
  - intros a f A. eexists. split; [reflexivity|]. apply (p_logical_ext _ _ _ (C100_to_logical e t a Ht)). intros i Hi. rewrite (proj2 A i Hi). reflexivity.
  - intros r f g R G. exact (rep_ext _ _ _ _ _ R G).
  - exact p_logical_ext.
  - intros k. split; [apply E|]. intros; reflexivity.
Qed.
End POWER.
