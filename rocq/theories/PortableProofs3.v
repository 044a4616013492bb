(** Proofs about Portable.v: x86, ARM and POWER. *)
From Coq Require Import ZArith Lia List Bool ZifyBool.
From Verif Require Import CInt BitLemmas ScalarOps ScalarSpec ScalarProofs X86Deg234 X86Arith X86ArithSpec X86Mem Arm ArmSpec Ppc PpcSpec
  PropX86Arith PropX86Mem PropArm PropPpc Portable PortableSpec PortableProofs PortableProofs2.
Open Scope Z_scope.

Lemma rep_ext N t r f g : rep N t r f -> all_lanes (N / bits t) (fun i => f i = g i) -> rep N t r g.
Proof. intros (I & F) E. split; [exact I|]. intros i Hi. rewrite F by exact Hi. exact (E i Hi). Qed.
Lemma rep_of N t (v : Z) (P : Z -> Z -> Prop) f : in_reg N v /\ (forall i, 0 <= i < N / bits t -> P i (elt t v i)) -> (forall i x, 0 <= i < N / bits t -> P i x -> x = f i) -> rep N t v f.
Proof. intros (I & F) E. split; [exact I|]. intros i Hi. exact (E i _ Hi (F i Hi)). Qed.
Lemma finish N t env ex (run : option Z) :
  (exists r, run = Some r /\ rep N t r (fun i => val (element t (fun k => elt t (env k) i) i ex))) ->
  (forall i, 0 <= i < N / bits t -> element t (fun k => elt t (env k) i) i ex <> None) ->
  exists r, run = Some r /\ in_reg N r /\ forall i, 0 <= i < N / bits t -> element t (fun k => elt t (env k) i) i ex = Some (elt t r i).
Proof. intros (r & R & I & F) D. exists r. split; [exact R|]. split; [exact I|]. intros i Hi. rewrite (F i Hi). exact (val_some _ (D i Hi)). Qed.
Lemma rel_values r x y : scalar_rel r x y = match r with Eq => x =? y | Ne => negb (x =? y) | Lt => x <? y | Le => x <=? y | Gt => y <? x | Ge => y <=? x end.
Proof. destruct r; cbn [scalar_rel]; unfold s_eq, s_ne, s_lt, s_le, s_gt, s_ge; rewrite ?Z.gtb_ltb, ?Z.geb_leb; reflexivity. Qed.
Lemma lanes_i32 n t : In t int_types -> In n (128 :: 256 :: 512 :: nil) -> 0 < n / bits t.
Proof. intros H Q. cbn in H, Q. decompose [or] H; subst; try tauto; decompose [or] Q; subst; try tauto; reflexivity. Qed.
Lemma some_ok N t (v : Z) (P : Z -> Z -> Prop) : in_reg N v /\ (forall i, 0 <= i < N / bits t -> P i (elt t v i)) -> okvec N t (Some v) P.
Proof. intros H. exists v. split; [reflexivity|exact H]. Qed.

(** ** x86 *)
Section X86.
Variables (e : ext) (t : ity) (undef : Z).
Hypothesis Ht : In t int_types.
Hypothesis Hu : in_reg (nb e) undef.
Lemma x_lanes : 0 < nb e / bits t. Proof. apply lanes_i32; [exact Ht|]. destruct e; cbn; auto. Qed.
Lemma emul_wide e' : mul_emulated e' t = true -> 32 <= bits t. Proof. destruct e'; cbn [mul_emulated]; try discriminate; lia. Qed.

Lemma x_op1 o a : in_reg (nb e) a -> (forall i, 0 <= i < nb e / bits t -> def1 t o (elt t a i)) -> okvec (nb e) t (b_op1 (x86 e t undef) o a) (fun i => val1 t o (elt t a i)).
Proof.
  intros A D. destruct o; cbn [b_op1 x86 val1].
  - apply some_ok, C49_neg; assumption.
  - apply some_ok, C49_abs; assumption.
  - pose proof (C49_bitwise_registers e t a a A A) as R. apply (bitwise_reg _ t Ht _ (fun x _ => negb x) a a); [apply R|]. intros k Hk. pose proof (C49_bitwise e t a a k A A Hk) as Q. apply Q.
Qed.
Lemma x_op2 o a b : in_reg (nb e) a -> in_reg (nb e) b -> (forall i, 0 <= i < nb e / bits t -> def2 t o (elt t a i) (elt t b i)) ->
  okvec (nb e) t (b_op2 (x86 e t undef) o a b) (fun i => val2 t o (elt t a i) (elt t b i)).
Proof.
  intros A B D. pose proof (C49_bitwise_registers e t a b A B) as R. destruct o; cbn [b_op2 x86 val2]; cbn [def2] in D.
  - apply some_ok, C49_add; assumption.
  - apply some_ok, C49_sub; assumption.
  - apply C49_mul; try assumption. intros M S i Hi. exact (D i Hi S (emul_wide e M)).
  - apply C49_div; assumption.
  - apply some_ok, C49_min_max; assumption.
  - apply some_ok, C49_min_max; assumption.
  - apply some_ok, C49_adds; assumption.
  - destruct (C49_subs e t a b Ht A B) as (I & F). exists (x_subs e t a b). split; [reflexivity|]. split; [exact I|]. intros i Hi. rewrite (F i Hi). specialize (D i Hi).
    destruct (is_signed t); [|rewrite andb_false_r; reflexivity]. destruct (Z.eqb_spec (elt t b i) (ty_min t)) as [Q|Q]; [destruct (D eq_refl Q)|]. rewrite !andb_false_r. reflexivity.
  - apply (bitwise_reg _ t Ht); [apply R|]. intros k Hk. apply (C49_bitwise e t a b k A B Hk).
  - apply (bitwise_reg _ t Ht); [apply R|]. intros k Hk. apply (C49_bitwise e t a b k A B Hk).
  - apply (bitwise_reg _ t Ht); [apply R|]. intros k Hk. apply (C49_bitwise e t a b k A B Hk).
  - apply (bitwise_reg _ t Ht _ (fun x y => x && negb y)); [apply R|]. intros k Hk. apply (C49_bitwise e t a b k A B Hk).
Qed.
Lemma x_op3 o a b c : in_reg (nb e) a -> in_reg (nb e) b -> in_reg (nb e) c -> (forall i, 0 <= i < nb e / bits t -> def3 t o (elt t a i) (elt t b i) (elt t c i)) ->
  okvec (nb e) t (b_op3 (x86 e t undef) o a b c) (fun i => val3 t o (elt t a i) (elt t b i) (elt t c i)).
Proof.
  intros A B C D. destruct o as [neg sub]. cbn [b_op3 x86 val3]. cbn [def3] in D.
  destruct (C49_fma neg sub e t undef a b c Ht Hu A B C) as (r & R & I & F).
  - intros M S i Hi. destruct (D i Hi S (emul_wide _ M)) as ((X & X') & (P & P') & _). unfold fma_factor. destruct neg; [|exact P].
    rewrite cast_id by (exact Ht || exact X'). replace (- elt t a i * elt t b i) with (- (elt t a i * elt t b i)) by ring. exact P'.
  - exists r. split; [exact R|]. split; [exact I|]. intros i Hi. 
    cbn [val3]. replace (p_fma_value neg sub (elt t a i) (elt t b i) (elt t c i)) with (X86ArithSpec.fma_value neg sub (elt t a i) (elt t b i) (elt t c i)); [exact (F i Hi)|]. unfold X86ArithSpec.fma_value, p_fma_value. destruct neg; ring.
Qed.
Lemma x_shift o a s : in_reg (nb e) a -> 0 <= s < bits t -> okvec (nb e) t (b_shift (x86 e t undef) o a s) (fun i => vals t o (elt t a i) s).
Proof.
  intros A S. destruct o; cbn [b_shift x86 vals].
  - apply some_ok, C49_shl; assumption.
  - apply some_ok, C49_shr; assumption.
  - apply C49_shra; assumption.
Qed.
Lemma x_logical_ext l p q : logical e t l p -> all_lanes (nb e / bits t) (fun i => p i = q i) -> logical e t l q.
Proof.
  unfold logical. intros L E. destruct (is512 e); destruct L as (I & F); (split; [exact I|]); intros i Hi; rewrite (F i Hi), (E i Hi); reflexivity.
Qed.
Lemma x86_portable env ex : (forall k, in_reg (nb e) (env k)) ->
  (forall i, 0 <= i < nb e / bits t -> element t (fun k => elt t (env k) i) i ex <> None) ->
  exists r, veval (x86 e t undef) env ex = Some r /\ in_reg (nb e) r /\
    forall i, 0 <= i < nb e / bits t -> element t (fun k => elt t (env k) i) i ex = Some (elt t r i).
Proof.
  intros E D. apply finish; [|exact D].
  refine (proj1 (eval_ok (x86 e t undef) t (nb e / bits t) (rep (nb e) t) (logical e t) _ _ _ _ _ _ _ _ _ _ _ _ _ _ _ x_lanes env (fun k i => elt t (env k) i) _) ex D).
  - intros x I. exists (x_set1 e t x). split; [reflexivity|]. exact (C49_set1 e t x Ht I).
  - exists (x_iota e t). split; [reflexivity|]. apply (rep_of _ _ _ (fun i x => x = i) _ (C59_iota e t Ht)). intros i x Hi ->.
    symmetry. apply cast_id; [exact Ht|]. rewrite <- (proj2 (C59_iota e t Ht) i Hi). apply elt_in, Ht.
  - intros o a f g A S. apply (bridge1 (nb e) t Ht _ o f g a A S). intros Q. apply x_op1; [apply A|exact Q].
  - intros o a b f f' g A B S. apply (bridge2 (nb e) t Ht _ o f f' g a b A B S). intros Q. apply x_op2; [apply A|apply B|exact Q].
  - intros o a b c f f' f'' g A B C S. apply (bridge3 (nb e) t Ht _ o f f' f'' g a b c A B C S). intros Q. apply x_op3; [apply A|apply B|apply C|exact Q].
  - intros o a f s g A S. apply (bridges (nb e) t Ht _ o f g a s x_lanes A S). intros Q _. apply x_shift; [apply A|exact Q].
  - intros l p a b f f' L A B. exists (x_if_else1 e t l a b). split; [reflexivity|]. apply (rep_of _ _ _ _ _ (C49_if_else e t l p a b Ht (proj1 A) (proj1 B) L)).
    intros i x Hi ->. rewrite (proj2 A i Hi), (proj2 B i Hi). reflexivity.
  - intros l p L. exists (x_to_mask e t l). split; [reflexivity|]. apply (rep_of _ _ _ _ _ (C49_to_mask e t l p Ht L)). intros i x Hi ->. symmetry. apply mask_value, Ht.
  - intros x. exists (x_set1l e t x). split; [reflexivity|]. apply C49_set1l, Ht.
  - intros o a b f f' A B. eexists. split; [reflexivity|]. pose proof (C49_compare e t a b Ht (proj1 A) (proj1 B)) as Q.
    assert (forall l p, logical e t l p -> (forall i, p i = scalar_rel o (elt t a i) (elt t b i)) -> logical e t l (fun i => scalar_rel o (f i) (f' i))) as G.
    { intros l p L P. apply (x_logical_ext l p _ L). intros i Hi. rewrite P, (proj2 A i Hi), (proj2 B i Hi). reflexivity. }
    destruct o; (eapply G; [apply Q|intros i; rewrite rel_values; try reflexivity]); rewrite ?Z.gtb_ltb, ?Z.geb_leb; reflexivity.
  - intros o a b p q A B. eexists. split; [reflexivity|]. pose proof (C49_logical_operators e t a b p q Ht A B) as Q. destruct o; apply Q.
  - intros a p A. eexists. split; [reflexivity|]. apply (C49_logical_operators e t a a p p Ht A A).
  - intros a f A. eexists. split; [reflexivity|]. apply (x_logical_ext _ _ _ (C49_to_logical e t a Ht (proj1 A))). intros i Hi. rewrite (proj2 A i Hi). reflexivity.
  - intros r f g R G. exact (rep_ext _ _ _ _ _ R G).
  - exact x_logical_ext.
  - intros k. split; [apply E|]. intros; reflexivity.
Qed.
End X86.
