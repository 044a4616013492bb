From Coq Require Import ZArith Lia Bool List ZifyBool Arith.
From Verif Require Import CInt BitLemmas FloatSpec FloatProofs Fp16 Fp16Spec Fp16Proofs ScalarOps ScalarSpec ScalarProofs CpuSimd CpuSimdSpec.
Import ListNotations.
Open Scope Z_scope.

(** *** Building structs *)
Lemma set_nth_some {A} (l : list A) i x : (i < length l)%nat ->
  exists l', set_nth l i x = Some l' /\ length l' = length l /\
    forall k, nth_error l' k = if Nat.eqb k i then Some x else nth_error l k.
Proof.
  revert i. induction l as [|y l IH]; intros i Hi; cbn [length] in Hi; [lia|].
  destruct i as [|i]; cbn [set_nth].
  - eexists. split; [reflexivity|]. split; [reflexivity|]. intros [|k]; reflexivity.
  - destruct (IH i ltac:(lia)) as (l' & E & L & N). rewrite E. cbn [bind].
    eexists. split; [reflexivity|]. split; [cbn; lia|]. intros [|k]; cbn [nth_error]; [reflexivity|].
    rewrite N. reflexivity.
Qed.

Lemma sequence_map_none {A} (l : list (option A)) : In None l -> sequence l = None.
Proof.
  induction l as [|[x|] l IH]; cbn [In sequence]; intros H; [tauto| |reflexivity].
  destruct H as [H|H]; [discriminate|]. rewrite IH by exact H. reflexivity.
Qed.

Lemma sequence_all {A} (l : list A) : sequence (map Some l) = Some l.
Proof. induction l as [|x l IH]; cbn [map sequence]; [reflexivity|]. rewrite IH. reflexivity. Qed.

Lemma sequence_some {A} (l : list (option A)) r : sequence l = Some r <-> l = map Some r.
Proof.
  split; [|intros ->; apply sequence_all].
  revert r. induction l as [|[x|] l IH]; cbn [sequence]; intros r H.
  - injection H as <-. reflexivity.
  - destruct (sequence l) as [l'|]; [|discriminate]. cbn [bind] in H. injection H as <-. cbn [map]. f_equal. apply IH. reflexivity.
  - discriminate.
Qed.

(** General form: consistent assignments covering all members. *)
Lemma run_asg_ok (f : nat -> option Z) n : forall l r, length r = n ->
  (forall i v, In (i, v) l -> (i < n)%nat /\ f i = v /\ v <> None) ->
  (forall k, (k < n)%nat -> nth_error r k = Some (f k) \/ nth_error r k = Some None) ->
  exists r', run_asg r l = Some r' /\ length r' = n /\
    forall k, (k < n)%nat -> (nth_error r' k = Some (f k) \/ (nth_error r' k = Some None /\ nth_error r k = Some None /\ forall v, ~ In (k, v) l)).
Proof.
  induction l as [|[i v] l IH]; intros r Hr Hl Hk.
  - exists r. split; [reflexivity|]. split; [exact Hr|]. intros k Hkn. destruct (Hk k Hkn) as [H|H]; [left; exact H|right]. repeat split; try exact H. intros v [].
  - destruct (Hl i v (or_introl eq_refl)) as (Hi & Hf & Hv). destruct v as [v|]; [|congruence]. cbn [run_asg].
    destruct (set_nth_some r i (Some v) ltac:(lia)) as (r1 & E1 & L1 & N1). rewrite E1. cbn [bind].
    destruct (IH r1 ltac:(lia)) as (r' & E' & L' & N').
    + intros j w Hj. apply Hl. right. exact Hj.
    + intros k Hkn. rewrite N1. destruct (Nat.eqb_spec k i) as [->|Hne]; [left; congruence|apply Hk; exact Hkn].
    + exists r'. split; [exact E'|]. split; [exact L'|]. intros k Hkn. destruct (N' k Hkn) as [H|(H1 & H2 & H3)]; [left; exact H|].
      rewrite N1 in H2. destruct (Nat.eqb_spec k i) as [->|Hne]; [discriminate|].
      right. repeat split; try assumption. intros w [Hw|Hw]; [injection Hw as -> _; congruence|apply (H3 w); exact Hw].
Qed.

Lemma list_ext {A} (l l' : list A) : length l = length l' -> (forall k, (k < length l)%nat -> nth_error l k = nth_error l' k) -> l = l'.
Proof.
  revert l'. induction l as [|x l IH]; intros [|y l'] HL H; cbn in HL; try lia; [reflexivity|].
  pose proof (H 0%nat ltac:(cbn; lia)) as H0. cbn in H0. injection H0 as ->. f_equal. apply IH; [lia|].
  intros k Hk. apply (H (S k)). cbn. lia.
Qed.

Lemma nth_error_map_seq {A} (f : nat -> A) n k : (k < n)%nat -> nth_error (map f (seq 0 n)) k = Some (f k).
Proof.
  intros H. rewrite nth_error_map. rewrite (nth_error_nth' _ 0%nat) by (rewrite seq_length; exact H).
  cbn [option_map]. rewrite seq_nth by exact H. reflexivity.
Qed.

Lemma build_ok (f : nat -> option Z) n l :
  (forall i v, In (i, v) l -> (i < n)%nat /\ f i = v /\ v <> None) ->
  (forall k, (k < n)%nat -> exists v, In (k, v) l) ->
  build n l = sequence (map f (seq 0 n)).
Proof.
  intros Hl Hc. unfold build.
  destruct (run_asg_ok f n l (repeat None n) (repeat_length _ _) Hl) as (r' & E & L & N).
  { intros k Hk. right. rewrite (nth_error_nth' _ None) by (rewrite repeat_length; lia). rewrite nth_repeat. reflexivity. }
  rewrite E. cbn [bind]. f_equal. apply list_ext; [rewrite map_length, seq_length; exact L|].
  intros k Hk. rewrite L in Hk. rewrite nth_error_map_seq by exact Hk.
  destruct (N k Hk) as [H|(_ & _ & H)]; [exact H|]. destruct (Hc k Hk) as (v & Hv). destruct (H v Hv).
Qed.

(** A failing right-hand side makes the call undefined. *)
Lemma run_asg_none : forall l r i, In (i, None) l -> run_asg r l = None.
Proof.
  induction l as [|[j [v|]] l IH]; intros r i H; cbn [In run_asg] in *; [tauto| |reflexivity].
  destruct H as [H|H]; [discriminate|]. destruct (set_nth r j (Some v)) as [r'|]; cbn [bind]; [|reflexivity]. apply (IH r' i H).
Qed.

Lemma in_none_dec {A} (l : list (option A)) : {In None l} + {~ In None l}.
Proof.
  induction l as [|[x|] l IH]; [right; tauto| |left; left; reflexivity].
  destruct IH as [H|H]; [left; right; exact H|right]. intros [E|E]; [discriminate|tauto].
Qed.

Lemma func_body_seq n f : func_body n f = sequence (map f (seq 0 n)).
Proof.
  unfold func_body, stmts. destruct (in_none_dec (map f (seq 0 n))) as [H|H].
  - rewrite sequence_map_none by exact H. apply in_map_iff in H. destruct H as (i & Hi & Hs).
    unfold build. rewrite (run_asg_none _ _ i); [reflexivity|]. apply in_map_iff. exists i. rewrite Hi. tauto.
  - apply build_ok.
    + intros i v Hin. apply in_map_iff in Hin. destruct Hin as (j & E & Hs). injection E as -> <-.
      apply in_seq in Hs. split; [lia|]. split; [reflexivity|]. intros E. apply H. apply in_map_iff. exists i. split; [exact E|apply in_seq; lia].
    + intros k Hk. exists (f k). apply in_map_iff. exists k. split; [reflexivity|apply in_seq; lia].
Qed.

Lemma func_body_length n f r : func_body n f = Some r -> length r = n.
Proof.
  rewrite func_body_seq. intros H. apply sequence_some in H.
  apply (f_equal (@length _)) in H. rewrite !map_length, seq_length in H. symmetry; exact H.
Qed.

Lemma func_body_lane n f r : func_body n f = Some r -> forall i, (i < n)%nat -> lane r i = f i.
Proof.
  rewrite func_body_seq. intros H i Hi. apply sequence_some in H. unfold lane.
  pose proof (nth_error_map_seq f n i Hi) as E. rewrite H, nth_error_map in E.
  destruct (nth_error r i); cbn [option_map] in E; congruence.
Qed.

Lemma func_body_ext n f g : (forall i, (i < n)%nat -> f i = g i) -> func_body n f = func_body n g.
Proof.
  intros H. rewrite !func_body_seq. f_equal. apply map_ext_in. intros i Hi. apply H. apply in_seq in Hi. lia.
Qed.

(** Characterisation of results by lanes. *)
Lemma func_body_iff n f r : func_body n f = Some r <-> (length r = n /\ forall i, (i < n)%nat -> f i = lane r i).
Proof.
  split.
  - intros H. split; [apply (func_body_length _ _ _ H)|]. intros i Hi. symmetry. apply (func_body_lane _ _ _ H i Hi).
  - intros [L H]. rewrite func_body_seq. apply sequence_some. apply list_ext; [rewrite !map_length, seq_length; lia|].
    intros k Hk. rewrite map_length, seq_length in Hk. rewrite nth_error_map_seq by exact Hk. rewrite nth_error_map.
    rewrite H by exact Hk. unfold lane. destruct (nth_error r k) eqn:E; [reflexivity|].
    apply nth_error_None in E. lia.
Qed.

Lemma func_body_defined n f : (forall i, (i < n)%nat -> f i <> None) -> exists r, func_body n f = Some r.
Proof.
  intros H. destruct (func_body n f) as [r|] eqn:E; [exists r; reflexivity|]. exfalso.
  rewrite func_body_seq in E. destruct (in_none_dec (map f (seq 0 n))) as [Hn|Hn].
  - apply in_map_iff in Hn. destruct Hn as (i & Hi & Hs). apply in_seq in Hs. apply (H i ltac:(lia) Hi).
  - clear H. revert E Hn. generalize (map f (seq 0 n)). intros l. induction l as [|[x|] l IH]; cbn [sequence In]; intros E Hn; try discriminate; [|tauto].
    destruct (sequence l); [discriminate|]. apply IH; [reflexivity|tauto].
Qed.

Lemma lane_lt r i : (i < length r)%nat -> exists x, lane r i = Some x.
Proof. intros H. unfold lane. destruct (nth_error r i) eqn:E; [eauto|]. apply nth_error_None in E. lia. Qed.

Lemma nth_lane r i : (i < length r)%nat -> lane r i = Some (nth i r 0).
Proof. intros H. unfold lane. apply nth_error_nth'. exact H. Qed.

(** *** u32 logicals *)
Lemma cast_u32 z : cast u32 z = z mod 2 ^ 32.
Proof. reflexivity. Qed.
Lemma ltrue_val : ltrue = 2 ^ 32 - 1. Proof. reflexivity. Qed.
Lemma canon_cast (b : bool) : cast u32 (if b then -1 else 0) = canon b.
Proof. destruct b; reflexivity. Qed.
Lemma canon_truth z : z = 0 \/ z = 2 ^ 32 - 1 -> z = canon (truth z).
Proof. intros [-> | ->]; reflexivity. Qed.
Lemma truth_canon b : truth (canon b) = b.
Proof. destruct b; reflexivity. Qed.
Lemma canon_or a b : Z.lor (canon a) (canon b) = canon (a || b).
Proof. destruct a, b; reflexivity. Qed.
Lemma canon_and a b : Z.land (canon a) (canon b) = canon (a && b).
Proof. destruct a, b; reflexivity. Qed.
Lemma canon_xor a b : Z.lxor (canon a) (canon b) = canon (xorb a b).
Proof. destruct a, b; reflexivity. Qed.
Lemma canon_andnot a b : Z.land (canon a) (cast u32 (Z.lnot (canon b))) = canon (a && negb b).
Proof. destruct a, b; reflexivity. Qed.
Lemma canon_not a : cast u32 (Z.lnot (canon a)) = canon (negb a).
Proof. destruct a; reflexivity. Qed.
Lemma canon_zero a : negb (canon a =? 0) = a.
Proof. destruct a; reflexivity. Qed.
Lemma canon_ltrue a : (canon a =? ltrue) = a.
Proof. destruct a; reflexivity. Qed.

Lemma mask_value t (Ht : match t with EI t => In t int_types | _ => True end) b :
  match t with
  | EF16 => canon b
  | EI t => cast t (cast (uty t) (if negb (canon b =? 0) then -1 else 0))
  | EF32 => cast u32 (if negb (canon b =? 0) then -1 else 0)
  | EF64 => cast u64 (if negb (canon b =? 0) then -1 else 0)
  end = all_ones_or_zero t b.
Proof.
  rewrite !canon_zero. destruct t as [t| | |]; [|destruct b; reflexivity..].
  cbn in Ht. repeat (destruct Ht as [<-|Ht]; [destruct b; reflexivity|]). destruct Ht.
Qed.

Definition ety_ok (t : ety) : Prop := match t with EI t => In t int_types | _ => True end.

(** *** Evaluation of programs, lane by lane *)
Scheme vexpr_mut := Induction for vexpr Sort Prop
  with lexpr_mut := Induction for lexpr Sort Prop.
Combined Scheme vlexpr_ind from vexpr_mut, lexpr_mut.

Section Eval.
Variables (t : ety) (n : nat) (ve le : nat -> reg).
Hypothesis Ht : ety_ok t.
Hypothesis Hve : forall k, length (ve k) = n.
Hypothesis Hle : forall k, length (le k) = n.
Hypothesis Hcan : forall k, canonical (le k).

Definition sv (i : nat) : nat -> Z := fun k => nth i (ve k) 0.
Definition sl (i : nat) : nat -> bool := fun k => truth (nth i (le k) 0).

Lemma le_lane k i : (i < n)%nat -> lane (le k) i = Some (canon (sl i k)).
Proof.
  intros Hi. rewrite nth_lane by (rewrite Hle; exact Hi). f_equal. unfold sl. apply canon_truth.
  pose proof (Hcan k) as H. unfold canonical in H. rewrite Forall_forall in H. apply H. apply nth_In. rewrite Hle. exact Hi.
Qed.

Definition vgoal (e : vexpr) := veval t n ve le e = sequence (map (fun i => sveval t (sv i) (sl i) (Z.of_nat i) e) (seq 0 n)).
Definition lgoal (e : lexpr) := leval t n ve le e =
  sequence (map (fun i => option_map canon (sleval t (sv i) (sl i) (Z.of_nat i) e)) (seq 0 n)).

(** Composition: a lane-wise operator applied to the results of sub-expressions. *)
Lemma comp1 (f : nat -> option Z) (op : reg -> option reg) (h : nat -> option Z -> option Z) (g : nat -> option Z) :
  (forall a, op a = func_body n (fun i => h i (lane a i))) ->
  (forall i, h i None = None) ->
  (forall i, (i < n)%nat -> h i (f i) = g i) ->
  bind (sequence (map f (seq 0 n))) op = sequence (map g (seq 0 n)).
Proof.
  intros Hop Hn Hg. rewrite <- !func_body_seq. destruct (func_body n f) as [a|] eqn:E; cbn [bind].
  - rewrite Hop. rewrite <- func_body_seq || idtac. apply func_body_ext. intros i Hi.
    rewrite (func_body_lane _ _ _ E i Hi). apply Hg. exact Hi.
  - symmetry. rewrite func_body_seq in *. apply sequence_map_none.
    destruct (in_none_dec (map f (seq 0 n))) as [H|H].
    + apply in_map_iff in H. destruct H as (i & Hi & Hs). apply in_map_iff. exists i. split; [|exact Hs].
      apply in_seq in Hs. rewrite <- Hg by lia. rewrite Hi. apply Hn.
    + exfalso. destruct (func_body_defined n f) as (r & Er).
      * intros i Hi E0. apply H. apply in_map_iff. exists i. split; [exact E0|apply in_seq; lia].
      * rewrite func_body_seq in Er. congruence.
Qed.

Lemma comp2 (f1 f2 : nat -> option Z) (op : reg -> reg -> option reg) (h : nat -> option Z -> option Z -> option Z) (g : nat -> option Z) :
  (forall a b, length a = n -> length b = n -> op a b = func_body n (fun i => h i (lane a i) (lane b i))) ->
  (forall i x, h i None x = None) -> (forall i x, h i x None = None) ->
  (forall i, (i < n)%nat -> h i (f1 i) (f2 i) = g i) ->
  bind2 (sequence (map f1 (seq 0 n))) (sequence (map f2 (seq 0 n))) op = sequence (map g (seq 0 n)).
Proof.
  intros Hop Hn1 Hn2 Hg. unfold bind2. rewrite <- !func_body_seq.
  assert (Hbad : forall f, (forall i, (i < n)%nat -> f i = None -> g i = None) -> func_body n f = None -> func_body n g = None).
  { intros f Hf E. rewrite func_body_seq. apply sequence_map_none.
    destruct (in_none_dec (map f (seq 0 n))) as [H|H].
    - apply in_map_iff in H. destruct H as (i & Hi & Hs). apply in_map_iff. exists i. split; [|exact Hs].
      apply in_seq in Hs. apply Hf; [lia|exact Hi].
    - exfalso. destruct (func_body_defined n f) as (r & Er); [|congruence].
      intros i Hi E0. apply H. apply in_map_iff. exists i. split; [exact E0|apply in_seq; lia]. }
  destruct (func_body n f1) as [a|] eqn:E1; cbn [bind].
  - destruct (func_body n f2) as [b|] eqn:E2; cbn [bind].
    + rewrite Hop by (eapply func_body_length; eassumption). apply func_body_ext. intros i Hi.
      rewrite (func_body_lane _ _ _ E1 i Hi), (func_body_lane _ _ _ E2 i Hi). apply Hg. exact Hi.
    + symmetry. apply (Hbad f2); [|exact E2]. intros i Hi E0. rewrite <- Hg by exact Hi. rewrite E0. apply Hn2.
  - symmetry. apply (Hbad f1); [|exact E1]. intros i Hi E0. rewrite <- Hg by exact Hi. rewrite E0. apply Hn1.
Qed.

Lemma bind2_bind {A B C D} (x : option A) (y : option B) (z : option C) (f : A -> B -> C -> option D) :
  bind x (fun a => bind2 y z (f a)) = bind (bind2 x y (fun a b => Some (a, b))) (fun p => bind z (fun c => f (fst p) (snd p) c)).
Proof. destruct x, y; reflexivity. Qed.

(** Three operands. *)
Lemma comp3 (f1 f2 f3 : nat -> option Z) (op : reg -> reg -> reg -> option reg) (h : nat -> option Z -> option Z -> option Z -> option Z) (g : nat -> option Z) :
  (forall a b c, length a = n -> length b = n -> length c = n -> op a b c = func_body n (fun i => h i (lane a i) (lane b i) (lane c i))) ->
  (forall i x y, h i None x y = None) -> (forall i x y, h i x None y = None) -> (forall i x y, h i x y None = None) ->
  (forall i, (i < n)%nat -> h i (f1 i) (f2 i) (f3 i) = g i) ->
  bind (sequence (map f1 (seq 0 n))) (fun a => bind2 (sequence (map f2 (seq 0 n))) (sequence (map f3 (seq 0 n))) (op a)) = sequence (map g (seq 0 n)).
Proof.
  intros Hop Hn1 Hn2 Hn3 Hg. unfold bind2. rewrite <- !func_body_seq.
  assert (Hbad : forall f, (forall i, (i < n)%nat -> f i = None -> g i = None) -> func_body n f = None -> func_body n g = None).
  { intros f Hf E. rewrite func_body_seq. apply sequence_map_none.
    destruct (in_none_dec (map f (seq 0 n))) as [H|H].
    - apply in_map_iff in H. destruct H as (i & Hi & Hs). apply in_map_iff. exists i. split; [|exact Hs].
      apply in_seq in Hs. apply Hf; [lia|exact Hi].
    - exfalso. destruct (func_body_defined n f) as (r & Er); [|congruence].
      intros i Hi E0. apply H. apply in_map_iff. exists i. split; [exact E0|apply in_seq; lia]. }
  destruct (func_body n f1) as [a|] eqn:E1; cbn [bind].
  2: { symmetry. apply (Hbad f1); [|exact E1]. intros i Hi E0. rewrite <- Hg by exact Hi. rewrite E0. apply Hn1. }
  destruct (func_body n f2) as [b|] eqn:E2; cbn [bind].
  2: { symmetry. apply (Hbad f2); [|exact E2]. intros i Hi E0. rewrite <- Hg by exact Hi. rewrite E0. apply Hn2. }
  destruct (func_body n f3) as [c|] eqn:E3; cbn [bind].
  2: { symmetry. apply (Hbad f3); [|exact E3]. intros i Hi E0. rewrite <- Hg by exact Hi. rewrite E0. apply Hn3. }
  rewrite Hop by (eapply func_body_length; eassumption). apply func_body_ext. intros i Hi.
  rewrite (func_body_lane _ _ _ E1 i Hi), (func_body_lane _ _ _ E2 i Hi), (func_body_lane _ _ _ E3 i Hi). apply Hg. exact Hi.
Qed.

Lemma eval_ok : (forall e, vgoal e) /\ (forall e, lgoal e).
Proof.
  apply vlexpr_ind; unfold vgoal, lgoal; intros; cbn [veval leval sveval sleval].
  - (* VVar *) symmetry. rewrite <- func_body_seq. apply func_body_iff. split; [apply Hve|].
    intros i Hi. rewrite nth_lane by (rewrite Hve; exact Hi). reflexivity.
  - (* VSet *) unfold set1. rewrite func_body_seq. reflexivity.
  - (* VUn *) rewrite H. apply (comp1 _ _ (fun _ x => bind x g)); try reflexivity.
  - (* VBin *) rewrite H, H0. apply (comp2 _ _ _ (fun _ x y => bind2 x y g)); try reflexivity.
    + intros i [x|]; reflexivity.
  - (* VTer *) rewrite H, H0, H1. apply (comp3 _ _ _ _ (fun _ x y z => bind x (fun x => bind2 y z (g x)))); try reflexivity.
    + intros i [x|] [y|]; reflexivity.
    + intros i [x|] [y|]; reflexivity.
  - (* VShift *) rewrite H. apply (comp1 _ _ (fun _ x => bind x (fun x => g x s))); try reflexivity.
  - (* VIf *) rewrite H, H0, H1.
    apply (comp3 _ _ _ _ (fun _ c x y => bind c (fun c => bind2 x y (fun x y => Some (if negb (c =? 0) then x else y))))).
    + intros c a' b' Lc La Lb. unfold if_else1. apply func_body_ext. intros i Hi.
      destruct (lane_lt a' i ltac:(lia)) as (x & ->). destruct (lane_lt b' i ltac:(lia)) as (y & ->).
      destruct (lane c i) as [z|]; cbn [bind bind2]; [|reflexivity]. destruct (negb (z =? 0)); reflexivity.
    + reflexivity.
    + intros i [x|] [y|]; reflexivity.
    + intros i [x|] [y|]; reflexivity.
    + intros i Hi. destruct (sleval _ _ _ _ l) as [c|]; cbn [option_map bind]; [|reflexivity].
      destruct (sveval _ _ _ _ a), (sveval _ _ _ _ b); cbn [bind bind2]; try reflexivity. rewrite canon_zero. reflexivity.
  - (* VMask *) rewrite H.
    apply (comp1 _ _ (fun _ x => bind x (fun x => Some match t with
      | EF16 => x
      | EI t => cast t (cast (uty t) (if negb (x =? 0) then -1 else 0))
      | EF32 => cast u32 (if negb (x =? 0) then -1 else 0)
      | EF64 => cast u64 (if negb (x =? 0) then -1 else 0)
      end))); try reflexivity.
    intros i Hi. destruct (sleval _ _ _ _ l) as [c|]; cbn [option_map bind]; [|reflexivity]. f_equal.
    apply mask_value. exact Ht.
  - (* LVar *) symmetry. rewrite <- func_body_seq. apply func_body_iff. split; [apply Hle|].
    intros i Hi. rewrite le_lane by exact Hi. reflexivity.
  - (* LSet *) unfold set1l. rewrite func_body_seq. f_equal. apply map_ext. intros i. cbn [option_map]. f_equal. apply canon_cast.
  - (* LCmp *) rewrite H, H0. apply (comp2 _ _ _ (fun _ x y => bind2 x y (fun x y => Some (cast u32 (if op x y then -1 else 0))))); try reflexivity.
    + intros i [x|]; reflexivity.
    + intros i Hi. destruct (sveval _ _ _ _ a), (sveval _ _ _ _ b); cbn [bind bind2 option_map]; try reflexivity. f_equal. apply canon_cast.
  - rewrite H, H0. apply (comp2 _ _ _ (fun _ x y => bind2 x y (fun x y => Some (Z.lor x y)))); try reflexivity.
    + intros i [x|]; reflexivity.
    + intros i Hi. destruct (sleval _ _ _ _ a), (sleval _ _ _ _ b); cbn [bind bind2 option_map]; try reflexivity. f_equal. apply canon_or.
  - rewrite H, H0. apply (comp2 _ _ _ (fun _ x y => bind2 x y (fun x y => Some (Z.land x y)))); try reflexivity.
    + intros i [x|]; reflexivity.
    + intros i Hi. destruct (sleval _ _ _ _ a), (sleval _ _ _ _ b); cbn [bind bind2 option_map]; try reflexivity. f_equal. apply canon_and.
  - rewrite H, H0. apply (comp2 _ _ _ (fun _ x y => bind2 x y (fun x y => Some (Z.lxor x y)))); try reflexivity.
    + intros i [x|]; reflexivity.
    + intros i Hi. destruct (sleval _ _ _ _ a), (sleval _ _ _ _ b); cbn [bind bind2 option_map]; try reflexivity. f_equal. apply canon_xor.
  - rewrite H, H0. apply (comp2 _ _ _ (fun _ x y => bind2 x y (fun x y => Some (Z.land x (cast u32 (Z.lnot y)))))); try reflexivity.
    + intros i [x|]; reflexivity.
    + intros i Hi. destruct (sleval _ _ _ _ a), (sleval _ _ _ _ b); cbn [bind bind2 option_map]; try reflexivity. f_equal. apply canon_andnot.
  - rewrite H. apply (comp1 _ _ (fun _ x => bind x (fun x => Some (cast u32 (Z.lnot x))))); try reflexivity.
    intros i Hi. destruct (sleval _ _ _ _ a); cbn [bind option_map]; try reflexivity. f_equal. apply canon_not.
  - rewrite H. apply (comp1 _ _ (fun _ x => x)); reflexivity.
  - rewrite H. apply (comp1 _ _ (fun _ x => bind x (fun x => Some (if pattern_of t x =? 0 then 0 else cast u32 (-1))))); try reflexivity.
    intros i Hi. destruct (sveval _ _ _ _ a); cbn [bind option_map]; try reflexivity. f_equal. destruct (pattern_of t z =? 0); reflexivity.
  - unfold mask_for_loop_tail. rewrite func_body_seq. f_equal. apply map_ext. intros k.
    unfold carith. change (is_signed i32) with true. cbn match. change (ty_min i32) with (- 2 ^ 31). change (ty_max i32) with (2 ^ 31 - 1).
    replace (i + Z.of_nat k <=? 2 ^ 31 - 1) with (i + Z.of_nat k <? 2 ^ 31) by lia.
    destruct ((- 2 ^ 31 <=? i + Z.of_nat k) && (i + Z.of_nat k <? 2 ^ 31)); cbn [bind option_map]; [|reflexivity].
    reflexivity.
Qed.
End Eval.
