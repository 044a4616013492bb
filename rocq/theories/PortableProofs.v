(** Proofs about Portable.v: the general induction and the value of the scalar operators. *)
From Coq Require Import ZArith Lia List Bool ZifyBool.
From Verif Require Import CInt BitLemmas ScalarOps ScalarSpec ScalarProofs CpuSimd X86Deg234 X86Arith X86ArithSpec Portable PortableSpec.
Open Scope Z_scope.

Definition val (o : option Z) : Z := match o with Some x => x | None => 0 end.
Definition tval (o : option bool) : bool := match o with Some x => x | None => false end.
Lemma val_some o : o <> None -> o = Some (val o). Proof. destruct o; [reflexivity|contradiction]. Qed.
Lemma tval_some o : o <> None -> o = Some (tval o). Proof. destruct o; [reflexivity|contradiction]. Qed.

(** ** The induction, for any back end whose operators are right element by element *)
Section Induction.
Variables (B : backend) (t : ity) (len : Z).
(** [repv r f]: element [i] of [r] is [f i]; [repl]: alike for logicals *)
Variables (repv : V B -> (Z -> Z) -> Prop) (repl : V B -> (Z -> bool) -> Prop).
Definition all_lanes (P : Z -> Prop) : Prop := forall i, 0 <= i < len -> P i.
Hypothesis H_set1 : forall x, in_ty t x -> exists r, b_set1 B x = Some r /\ repv r (fun _ => x).
Hypothesis H_iota : exists r, b_iota B = Some r /\ repv r (fun i => cast t i).
Hypothesis H_op1 : forall o a f g, repv a f -> all_lanes (fun i => scalar1 t o (f i) = Some (g i)) -> exists r, b_op1 B o a = Some r /\ repv r g.
Hypothesis H_op2 : forall o a b f f' g, repv a f -> repv b f' -> all_lanes (fun i => scalar2 t o (f i) (f' i) = Some (g i)) -> exists r, b_op2 B o a b = Some r /\ repv r g.
Hypothesis H_op3 : forall o a b c f f' f'' g, repv a f -> repv b f' -> repv c f'' -> all_lanes (fun i => scalar3 t o (f i) (f' i) (f'' i) = Some (g i)) -> exists r, b_op3 B o a b c = Some r /\ repv r g.
Hypothesis H_shift : forall o a f s g, repv a f -> all_lanes (fun i => scalar_shift t o (f i) s = Some (g i)) -> exists r, b_shift B o a s = Some r /\ repv r g.
Hypothesis H_if : forall l p a b f f', repl l p -> repv a f -> repv b f' -> exists r, b_if B l a b = Some r /\ repv r (fun i => if p i then f i else f' i).
Hypothesis H_mask : forall l p, repl l p -> exists r, b_mask B l = Some r /\ repv r (fun i => s_to_mask t (p i)).
Hypothesis H_set1l : forall x, exists r, b_set1l B x = Some r /\ repl r (fun _ => negb (x =? 0)).
Hypothesis H_cmp : forall o a b f f', repv a f -> repv b f' -> exists r, b_cmp B o a b = Some r /\ repl r (fun i => scalar_rel o (f i) (f' i)).
Hypothesis H_logic : forall o a b p q, repl a p -> repl b q -> exists r, b_logic B o a b = Some r /\ repl r (fun i => scalar_lop o (p i) (q i)).
Hypothesis H_notl : forall a p, repl a p -> exists r, b_notl B a = Some r /\ repl r (fun i => negb (p i)).
Hypothesis H_to_logical : forall a f, repv a f -> exists r, b_to_logical B a = Some r /\ repl r (fun i => s_to_logical (f i)).
Hypothesis H_ext : forall r f g, repv r f -> all_lanes (fun i => f i = g i) -> repv r g.
Hypothesis H_extl : forall r p q, repl r p -> all_lanes (fun i => p i = q i) -> repl r q.
(** unsatisfied lanes cannot be used when there is none *)
Hypothesis H_len : 0 < len.

Scheme vexp_mut := Induction for vexp Sort Prop with lexp_mut := Induction for lexp Sort Prop.
Combined Scheme exp_ind from vexp_mut, lexp_mut.

Lemma eval_ok env args : (forall k, repv (env k) (args k)) ->
  (forall e, all_lanes (fun i => element t (fun k => args k i) i e <> None) ->
     exists r, veval B env e = Some r /\ repv r (fun i => val (element t (fun k => args k i) i e))) /\
  (forall e, all_lanes (fun i => logical_element t (fun k => args k i) i e <> None) ->
     exists r, leval B env e = Some r /\ repl r (fun i => tval (logical_element t (fun k => args k i) i e))).
Proof.
  intros E. apply exp_ind; cbn [veval leval element logical_element].
  - intros k _. exists (env k). split; [reflexivity|exact (E k)].
  - intros x D. destruct (H_set1 x) as (r & R & P).
    { specialize (D 0 ltac:(lia)). unfold in_ty. destruct ((ty_min t <=? x) && (x <=? ty_max t)) eqn:Q; [lia|contradiction]. }
    exists r. split; [exact R|]. apply (H_ext _ _ _ P). intros i Hi. specialize (D i Hi); cbv beta in D. destruct ((ty_min t <=? x) && (x <=? ty_max t)); [reflexivity|contradiction].
  - intros _. destruct H_iota as (r & R & P). exists r. split; [exact R|exact P].
  - intros o a IH D. destruct IH as (r & R & P). { intros i Hi. specialize (D i Hi); cbv beta in D. intros N. rewrite N in D. contradiction. }
    rewrite R. cbn [bind]. apply (H_op1 o r _ _ P). intros i Hi. specialize (D i Hi); cbv beta in D. destruct (element t _ i a) as [x|]; [|contradiction]. cbn [val]. exact (val_some _ D).
  - intros o a IHa b IHb D. destruct IHa as (r & R & P). { intros i Hi. specialize (D i Hi); cbv beta in D. intros N. rewrite N in D. contradiction. }
    destruct IHb as (r' & R' & P'). { intros i Hi. specialize (D i Hi); cbv beta in D. intros N. rewrite N in D. destruct (element t _ i a); contradiction. }
    rewrite R, R'. cbn [bind bind2]. apply (H_op2 o r r' _ _ _ P P'). intros i Hi. specialize (D i Hi); cbv beta in D.
    destruct (element t _ i a) as [x|]; [|contradiction]. destruct (element t _ i b) as [y|]; [|contradiction]. cbn [val]. exact (val_some _ D).
  - intros o a IHa b IHb c IHc D. destruct IHa as (r & R & P). { intros i Hi. specialize (D i Hi); cbv beta in D. intros N. rewrite N in D. contradiction. }
    destruct IHb as (r' & R' & P'). { intros i Hi. specialize (D i Hi); cbv beta in D. intros N. rewrite N in D. destruct (element t _ i a); contradiction. }
    destruct IHc as (r'' & R'' & P''). { intros i Hi. specialize (D i Hi); cbv beta in D. intros N. rewrite N in D. destruct (element t (fun k => args k i) i a), (element t (fun k => args k i) i b); contradiction. }
    rewrite R, R', R''. cbn [bind bind2]. apply (H_op3 o r r' r'' _ _ _ _ P P' P''). intros i Hi. specialize (D i Hi); cbv beta in D.
    destruct (element t _ i a) as [x|]; [|contradiction]. destruct (element t _ i b) as [y|]; [|contradiction]. destruct (element t _ i c) as [z|]; [|contradiction]. cbn [val]. exact (val_some _ D).
  - intros o a IH s D. destruct IH as (r & R & P). { intros i Hi. specialize (D i Hi); cbv beta in D. intros N. rewrite N in D. contradiction. }
    rewrite R. cbn [bind]. apply (H_shift o r _ s _ P). intros i Hi. specialize (D i Hi); cbv beta in D. destruct (element t _ i a) as [x|]; [|contradiction]. cbn [val]. exact (val_some _ D).
  - intros l IHl a IHa b IHb D. destruct IHl as (c & C & L). { intros i Hi. specialize (D i Hi); cbv beta in D. intros N. rewrite N in D. contradiction. }
    destruct IHa as (r & R & P). { intros i Hi. specialize (D i Hi); cbv beta in D. intros N. rewrite N in D. destruct (logical_element t _ i l); contradiction. }
    destruct IHb as (r' & R' & P'). { intros i Hi. specialize (D i Hi); cbv beta in D. intros N. rewrite N in D. destruct (logical_element t (fun k => args k i) i l), (element t (fun k => args k i) i a); contradiction. }
    rewrite C, R, R'. cbn [bind bind2]. destruct (H_if c _ r r' _ _ L P P') as (q & Q & S). exists q. split; [exact Q|]. apply (H_ext _ _ _ S). intros i Hi. specialize (D i Hi); cbv beta in D.
    destruct (logical_element t _ i l) as [x|]; [|contradiction]. destruct (element t _ i a) as [y|]; [|contradiction]. destruct (element t _ i b) as [z|]; [|contradiction]. reflexivity.
  - intros l IHl D. destruct IHl as (c & C & L). { intros i Hi. specialize (D i Hi); cbv beta in D. intros N. rewrite N in D. contradiction. }
    rewrite C. cbn [bind]. destruct (H_mask c _ L) as (q & Q & S). exists q. split; [exact Q|]. apply (H_ext _ _ _ S). intros i Hi. specialize (D i Hi); cbv beta in D.
    destruct (logical_element t _ i l) as [x|]; [|contradiction]. reflexivity.
  - intros x _. apply H_set1l.
  - intros o a IHa b IHb D. destruct IHa as (r & R & P). { intros i Hi. specialize (D i Hi); cbv beta in D. intros N. rewrite N in D. contradiction. }
    destruct IHb as (r' & R' & P'). { intros i Hi. specialize (D i Hi); cbv beta in D. intros N. rewrite N in D. destruct (element t _ i a); contradiction. }
    rewrite R, R'. cbn [bind bind2]. destruct (H_cmp o r r' _ _ P P') as (q & Q & S). exists q. split; [exact Q|]. apply (H_extl _ _ _ S). intros i Hi. specialize (D i Hi); cbv beta in D.
    destruct (element t _ i a) as [x|]; [|contradiction]. destruct (element t _ i b) as [y|]; [|contradiction]. reflexivity.
  - intros o a IHa b IHb D. destruct IHa as (r & R & P). { intros i Hi. specialize (D i Hi); cbv beta in D. intros N. rewrite N in D. contradiction. }
    destruct IHb as (r' & R' & P'). { intros i Hi. specialize (D i Hi); cbv beta in D. intros N. rewrite N in D. destruct (logical_element t _ i a); contradiction. }
    rewrite R, R'. cbn [bind bind2]. destruct (H_logic o r r' _ _ P P') as (q & Q & S). exists q. split; [exact Q|]. apply (H_extl _ _ _ S). intros i Hi. specialize (D i Hi); cbv beta in D.
    destruct (logical_element t _ i a) as [x|]; [|contradiction]. destruct (logical_element t _ i b) as [y|]; [|contradiction]. reflexivity.
  - intros a IH D. destruct IH as (r & R & P). { intros i Hi. specialize (D i Hi); cbv beta in D. intros N. rewrite N in D. contradiction. }
    rewrite R. cbn [bind]. destruct (H_notl r _ P) as (q & Q & S). exists q. split; [exact Q|]. apply (H_extl _ _ _ S). intros i Hi. specialize (D i Hi); cbv beta in D. destruct (logical_element t _ i a); [reflexivity|contradiction].
  - intros a IH D. destruct IH as (r & R & P). { intros i Hi. specialize (D i Hi); cbv beta in D. intros N. rewrite N in D. contradiction. }
    rewrite R. cbn [bind]. destruct (H_to_logical r _ P) as (q & Q & S). exists q. split; [exact Q|]. apply (H_extl _ _ _ S). intros i Hi. specialize (D i Hi); cbv beta in D. destruct (element t _ i a); [reflexivity|contradiction].
Qed.
End Induction.

(** ** What the scalar operators give when they are defined *)
Lemma wraps_unique t z r r' : In t int_types -> wraps_to t z r -> wraps_to t z r' -> r = r'.
Proof. intros H W W'. rewrite (wraps_cast t z r H W), (wraps_cast t z r' H W'). reflexivity. Qed.

(** the exact result the operator approximates modulo 2^bits *)
Lemma carith_wide t z r : 32 <= bits t -> is_signed t = true -> carith (promote t) z = Some r -> in_ty t z.
Proof. intros W S. rewrite promote_wide by exact W. unfold carith, in_ty. rewrite S. destruct ((ty_min t <=? z) && (z <=? ty_max t)) eqn:Q; [lia|discriminate]. Qed.
Lemma casted_def t o r : casted t o = Some r -> exists y, o = Some y. Proof. destruct o as [y|]; [exists y; reflexivity|discriminate]. Qed.
Lemma casted_wide t z r : 32 <= bits t -> is_signed t = true -> casted t (carith (promote t) z) = Some r -> in_ty t z.
Proof. intros W S C. destruct (casted_def _ _ _ C) as (y & Y). exact (carith_wide t z y W S Y). Qed.
Lemma s_div_defined t x y r : In t int_types -> in_ty t x -> in_ty t y -> s_div t x y = Some r -> ~ bad_div t x y /\ wraps_to t (Z.quot x y) r.
Proof.
  intros H Hx Hy. unfold s_div. destruct (Z.eqb_spec y 0) as [->|N]; [discriminate|]. intros C. split.
  - intros [Z0|(S & W & X & Y)]; [contradiction|]. pose proof (casted_wide t _ _ W S C) as I. subst. unfold in_ty, ty_min, ty_max in *. rewrite S in *.
    replace (Z.quot (- 2 ^ (bits t - 1)) (-1)) with (2 ^ (bits t - 1)) in I; [lia|]. change (-1) with (- (1)). rewrite Z.quot_opp_opp by lia. rewrite Z.quot_1_r. reflexivity.
  - apply (casted_value t _ r _ H C). intros z Z. exact (carith_congr t _ z H Z).
Qed.
Lemma s_abs_value t x r : In t int_types -> in_ty t x -> s_abs t x = Some r -> wraps_to t (Z.abs x) r.
Proof.
  intros H Hx. unfold s_abs. destruct (is_signed t) eqn:S; cbn [negb].
  - destruct (Z.leb_spec 0 x) as [P|P].
    + intros E. injection E as <-. rewrite Z.abs_eq by exact P. apply cast_wraps, H.
    + intros E. rewrite Z.abs_neq by lia. apply (casted_value t _ r _ H E). intros z Z. exact (carith_congr t _ z H Z).
  - intros E. injection E as <-. assert (0 <= x) by (unfold in_ty, ty_min in Hx; rewrite S in Hx; lia). rewrite Z.abs_eq by assumption. split; [exact Hx|]. rewrite Z.sub_diag. apply Z.divide_0_r.
Qed.
Lemma s_abs_wide t x r : 32 <= bits t -> is_signed t = true -> in_ty t x -> s_abs t x = Some r -> in_ty t (- x).
Proof.
  intros W S Hx. unfold s_abs. rewrite S. cbn [negb]. destruct (Z.leb_spec 0 x) as [P|P].
  - intros _. unfold in_ty, ty_min, ty_max in *. rewrite S in *. lia.
  - exact (casted_wide t _ r W S).
Qed.
Lemma opp_fits t z : is_signed t = true -> has_opposite t z = true -> in_ty t z /\ in_ty t (- z).
Proof. intros S. unfold has_opposite, in_ty, ty_min, ty_max. rewrite S. lia. Qed.
(** the multiply-add family *)
Lemma scalar3_value t neg sub x y z r : In t int_types -> scalar3 t (Muladd neg sub) x y z = Some r ->
  wraps_to t ((if neg then - (x * y) else x * y) + (if sub then - z else z)) r.
Proof.
  intros H. unfold scalar3. destruct (is_signed t && _ && _); [discriminate|].
  destruct sub, neg; intros E; rewrite ?Z.add_opp_r; [apply s_fnms_value|apply s_fms_value|apply s_fnma_value|apply s_fma_value]; assumption.
Qed.
Lemma scalar3_opposites t neg sub x y z r : is_signed t = true -> 32 <= bits t -> scalar3 t (Muladd neg sub) x y z = Some r ->
  (in_ty t x /\ in_ty t (- x)) /\ (in_ty t (x * y) /\ in_ty t (- (x * y))) /\
  (let q := (if neg then - (x * y) else x * y) + (if sub then - z else z) in in_ty t q /\ in_ty t (- q)).
Proof.
  intros S W. unfold scalar3. rewrite S. destruct (Z.leb_spec 32 (bits t)) as [_|N]; [|lia]. cbn [andb].
  set (p := if neg then - (x * y) else x * y). set (q := if sub then p - z else p + z).
  destruct (has_opposite t x && has_opposite t p && has_opposite t q) eqn:O; cbn [negb]; [|discriminate]. intros _.
  apply andb_true_iff in O. destruct O as (O & Q). apply andb_true_iff in O. destruct O as (X & P).
  split; [exact (opp_fits t x S X)|]. apply (opp_fits t _ S) in P. apply (opp_fits t _ S) in Q. split.
  - unfold p in P. destruct neg; [rewrite Z.opp_involutive in P; tauto|exact P].
  - cbn zeta. fold p. replace (p + (if sub then - z else z)) with q by (unfold q; destruct sub; lia). exact Q.
Qed.
Lemma scalar2_subs t x y r : scalar2 t Subs x y = Some r -> (is_signed t = true -> y <> ty_min t) /\ s_subs t x y = Some r.
Proof.
  cbn [scalar2]. destruct (is_signed t) eqn:S; cbn [andb]; [|intros E; split; [discriminate|exact E]].
  destruct (Z.eqb_spec y (ty_min t)) as [->|N]; [discriminate|]. intros E. split; [intros _; exact N|exact E].
Qed.
Lemma scalar_shift_inv t o x s r : scalar_shift t o x s = Some r -> 0 <= s < bits t.
Proof. unfold scalar_shift. destruct ((0 <=? s) && (s <? bits t)) eqn:Q; [lia|discriminate]. Qed.
Lemma scalar_shift_value t o x s r : In t int_types -> in_ty t x -> scalar_shift t o x s = Some r ->
  match o with
  | Shl => wraps_to t (x * 2 ^ s) r
  | Shr => wraps_to t ((x mod 2 ^ bits t) / 2 ^ s) r
  | Shra => is_signed t = true /\ r = x / 2 ^ s
  end.
Proof.
  intros H Hx E. pose proof (scalar_shift_inv _ _ _ _ _ E) as S. unfold scalar_shift in E. replace ((0 <=? s) && (s <? bits t)) with true in E by lia. destruct o.
  - destruct (s_shl_ok t x s H S) as (q & Q & W). rewrite E in Q. injection Q as <-. exact W.
  - destruct (s_shr_ok t x s H Hx S) as (q & Q & W). rewrite E in Q. injection Q as <-. exact W.
  - destruct (is_signed t) eqn:G; [|discriminate]. rewrite (s_shra_ok t x s H Hx S) in E. injection E as <-. auto.
Qed.
Lemma scalar2_range t o x y r : In t int_types -> in_ty t x -> in_ty t y -> scalar2 t o x y = Some r -> in_ty t r.
Proof.
  intros H Hx Hy. destruct o; intros E.
  - exact (proj1 (s_add_value t _ _ _ H E)).
  - exact (proj1 (s_sub_value t _ _ _ H E)).
  - exact (proj1 (s_mul_value t _ _ _ H E)).
  - exact (proj1 (proj2 (s_div_defined t _ _ _ H Hx Hy E))).
  - injection E as <-. rewrite s_min_ok. unfold in_ty in *. lia.
  - injection E as <-. rewrite s_max_ok. unfold in_ty in *. lia.
  - cbn [scalar2] in E. rewrite s_adds_ok in E by assumption. injection E as <-. unfold in_ty, clamp in *. lia.
  - apply scalar2_subs in E. destruct E as (N & E). rewrite s_subs_ok in E by assumption. injection E as <-. unfold in_ty, clamp in *. lia.
  - injection E as <-. apply (s_opbit_ok t Z.lor orb x y H). intros; apply Z.lor_spec.
  - injection E as <-. apply (s_opbit_ok t Z.land andb x y H). intros; apply Z.land_spec.
  - injection E as <-. apply (s_opbit_ok t Z.lxor xorb x y H). intros; apply Z.lxor_spec.
  - injection E as <-. apply (s_opbit_ok t (fun a b => Z.land a (Z.lnot b)) (fun a b => a && negb b) x y H). intros. rewrite Z.land_spec, Z.lnot_spec by assumption. reflexivity.
Qed.
(** two numbers of a type with the same bits are equal *)
Lemma in_ty_bits t x y : In t int_types -> in_ty t x -> in_ty t y -> (forall i, 0 <= i < bits t -> Z.testbit x i = Z.testbit y i) -> x = y.
Proof.
  intros H Hx Hy B. rewrite <- (cast_id t x H Hx), <- (cast_id t y H Hy). apply cast_congr. pose proof (bits_pos t H). apply Z.bits_inj'. intros n Hn.
  destruct (Z.ltb_spec n (bits t)); [rewrite !Z.mod_pow2_bits_low by lia; apply B; lia|rewrite !Z.mod_pow2_bits_high by lia; reflexivity].
Qed.
