(** Proofs about Portable.v: the CPU back end. *)
From Coq Require Import ZArith Lia List Bool ZifyBool.
From Verif Require Import CInt BitLemmas ScalarOps ScalarSpec ScalarProofs CpuSimd CpuSimdSpec CpuSimdProofs X86Deg234 X86Arith X86ArithSpec
  Portable PortableSpec PortableProofs PortableProofs2 PortableProofs3.
Open Scope Z_scope.

Section CPU.
Variables (t : ity) (n : nat).
Hypothesis Ht : In t int_types.
Hypothesis Hn : (0 < n)%nat.
Definition celt (r : list Z) (i : Z) : Z := nth (Z.to_nat i) r 0.
Definition repv (r : list Z) (f : Z -> Z) : Prop := length r = n /\ forall i, 0 <= i < Z.of_nat n -> celt r i = f i /\ in_ty t (f i).
Definition repl (r : list Z) (p : Z -> bool) : Prop := length r = n /\ forall i, 0 <= i < Z.of_nat n -> celt r i = canon (p i).

Lemma body_ok f g : (forall i, 0 <= i < Z.of_nat n -> f (Z.to_nat i) = Some (g i)) ->
  exists r, func_body n f = Some r /\ length r = n /\ forall i, 0 <= i < Z.of_nat n -> celt r i = g i.
Proof.
  intros H. destruct (func_body_defined n f) as (r & R).
  { intros i Hi. rewrite <- (Nat2Z.id i). rewrite H by lia. discriminate. }
  exists r. split; [exact R|]. pose proof (func_body_length _ _ _ R) as L. split; [exact L|]. intros i Hi.
  assert (Z.to_nat i < n)%nat as Hi' by lia. pose proof (func_body_lane _ _ _ R _ Hi') as Q. rewrite nth_lane in Q by lia. rewrite H in Q by exact Hi. injection Q as Q. exact Q.
Qed.
Lemma body_v f g : (forall i, 0 <= i < Z.of_nat n -> f (Z.to_nat i) = Some (g i) /\ in_ty t (g i)) -> exists r, func_body n f = Some r /\ repv r g.
Proof.
  intros H. destruct (body_ok f g (fun i Hi => proj1 (H i Hi))) as (r & R & L & F). exists r. split; [exact R|]. split; [exact L|]. intros i Hi. split; [exact (F i Hi)|exact (proj2 (H i Hi))].
Qed.
Lemma body_l f p : (forall i, 0 <= i < Z.of_nat n -> f (Z.to_nat i) = Some (canon (p i))) -> exists r, func_body n f = Some r /\ repl r p.
Proof. intros H. destruct (body_ok f _ H) as (r & R & L & F). exists r. split; [exact R|]. split; assumption. Qed.
Lemma repv_lane r f i : repv r f -> 0 <= i < Z.of_nat n -> CpuSimd.lane r (Z.to_nat i) = Some (f i).
Proof. intros (L & F) Hi. rewrite nth_lane by lia. f_equal. exact (proj1 (F i Hi)). Qed.
Lemma repl_lane r p i : repl r p -> 0 <= i < Z.of_nat n -> CpuSimd.lane r (Z.to_nat i) = Some (canon (p i)).
Proof. intros (L & F) Hi. rewrite nth_lane by lia. f_equal. exact (F i Hi). Qed.
Lemma u_zero x : in_ty t x -> (cast (uty t) x =? 0) = (x =? 0).
Proof.
  intros H. assert (cast (uty t) x = x mod 2 ^ bits t) as -> by (destruct t; reflexivity). destruct (Z.eqb_spec x 0) as [->|N]; [rewrite Zmod_0_l; reflexivity|].
  apply Z.eqb_neq. intros C. apply N. rewrite <- (cast_id t x Ht H). rewrite <- (cast_id t 0 Ht (in_ty_cast_0 t Ht)). apply cast_congr. rewrite Zmod_0_l. exact C.
Qed.
Lemma cpu_eval env args ex : (forall k, repv (env k) (args k)) -> (forall i, 0 <= i < Z.of_nat n -> element t (fun k => args k i) i ex <> None) ->
  exists r, veval (cpu t n) env ex = Some r /\ repv r (fun i => val (element t (fun k => args k i) i ex)).
Proof.
  intros E D'.
  refine (proj1 (eval_ok (cpu t n) t (Z.of_nat n) repv repl _ _ _ _ _ _ _ _ _ _ _ _ _ _ _ _ env args _) ex D').
  - intros x I. apply body_v. intros i Hi. split; [reflexivity|exact I].
  - apply body_v. intros i Hi. rewrite Z2Nat.id by lia. split; [reflexivity|apply cast_in_ty, Ht].
  - intros o a f g A S.
    assert (exists r, scalar_impl1 n (scalar1 t o) a = Some r /\ repv r g) as (r & R & P).
    { apply body_v. intros i Hi. rewrite (repv_lane a f i A Hi). split; [exact (S i Hi)|]. destruct (scalar1_sound t Ht o _ _ (proj2 (proj2 A i Hi)) (S i Hi)) as (_ & V). destruct o; apply V. }
    exists r. split; [destruct o; exact R|exact P].
  - intros o a b f f' g A B S.
    assert (forall h, (forall i, 0 <= i < Z.of_nat n -> h (f i) (f' i) = scalar2 t o (f i) (f' i)) -> exists r, scalar_impl2 n h a b = Some r /\ repv r g) as G.
    { intros h H. apply body_v. intros i Hi. rewrite (repv_lane a f i A Hi), (repv_lane b f' i B Hi). cbn [bind2 bind]. rewrite (H i Hi). split; [exact (S i Hi)|].
      exact (scalar2_range t o _ _ _ Ht (proj2 (proj2 A i Hi)) (proj2 (proj2 B i Hi)) (S i Hi)). }
    destruct o; try (apply G; intros; reflexivity). apply G. intros i Hi. specialize (S i Hi). cbn [scalar2] in *. destruct (is_signed t && (f' i =? ty_min t)); [discriminate|reflexivity].
  - intros o a b c f f' f'' g A B C S. destruct o as [neg sub]. apply body_v. intros i Hi. rewrite (repv_lane a f i A Hi), (repv_lane b f' i B Hi), (repv_lane c f'' i C Hi). cbn [bind2 bind].
    pose proof (S i Hi) as Q. split; [|exact (proj1 (scalar3_value t neg sub _ _ _ _ Ht Q))].
    unfold scalar3 in Q. destruct (is_signed t && (32 <=? bits t) && _); [discriminate|]. destruct neg, sub; exact Q.
  - intros o a f s g A S. apply body_v. intros i Hi. rewrite (repv_lane a f i A Hi). cbn [bind]. pose proof (S i Hi) as Q. pose proof (proj2 (proj2 A i Hi)) as I.
    pose proof (scalar_shift_inv _ _ _ _ _ Q) as V. pose proof (scalar_shift_value t o _ s _ Ht I Q) as W.
    unfold scalar_shift in Q. replace ((0 <=? s) && (s <? bits t)) with true in Q by lia. destruct o.
    + split; [exact Q|apply W].
    + split; [exact Q|apply W].
    + destruct W as (G & W). rewrite G in Q. split; [exact Q|]. rewrite W. clear Q W. unfold in_ty in *. pose proof (bits_pos t Ht).
      assert (0 < 2 ^ s) by (apply Z.pow_pos_nonneg; lia). assert (ty_min t <= 0 <= ty_max t) by (apply (in_ty_cast_0 t Ht)).
      destruct (Z.leb_spec 0 (f i)); split.
      * pose proof (Z.div_pos (f i) (2 ^ s)). lia.
      * pose proof (Z.div_le_upper_bound (f i) (2 ^ s) (f i)). nia.
      * apply Z.div_le_lower_bound; nia.
      * pose proof (Z.div_lt_upper_bound (f i) (2 ^ s) 1). lia.
  - intros l p a b f f' L A B. apply body_v. intros i Hi. rewrite (repl_lane l p i L Hi). cbn [bind]. pose proof (proj2 (proj2 A i Hi)). pose proof (proj2 (proj2 B i Hi)).
    destruct (p i); cbn [canon]; [rewrite <- (repv_lane a f i A Hi)|rewrite <- (repv_lane b f' i B Hi)]; split; try assumption; reflexivity.
  - intros l p L. apply body_v. intros i Hi. rewrite (repl_lane l p i L Hi). cbn [bind]. split; [|rewrite mask_value by exact Ht; destruct (p i); [apply cast_in_ty, Ht|apply in_ty_cast_0, Ht]].
    f_equal. unfold s_to_mask. clear - Ht. cbn in Ht. decompose [or] Ht; subst; try tauto; destruct (p i); reflexivity.
  - intros x. apply body_l. intros i Hi. destruct (x =? 0); reflexivity.
  - intros o a b f f' A B. destruct o; apply body_l; intros i Hi; rewrite (repv_lane a f i A Hi), (repv_lane b f' i B Hi); cbn [bind2 bind scalar_rel];
      match goal with |- context [if ?c then _ else _] => destruct c; reflexivity end.
  - intros o a b p q A B. destruct o; apply body_l; intros i Hi; rewrite (repl_lane a p i A Hi), (repl_lane b q i B Hi); cbn [bind2 bind scalar_lop]; destruct (p i), (q i); reflexivity.
  - intros a p A. apply body_l. intros i Hi. rewrite (repl_lane a p i A Hi). destruct (p i); reflexivity.
  - intros a f A. apply body_l. intros i Hi. rewrite (repv_lane a f i A Hi). cbn [bind pattern_of]. rewrite (u_zero _ (proj2 (proj2 A i Hi))). unfold s_to_logical. destruct (f i =? 0); reflexivity.
  - intros r f g (L & F) G. split; [exact L|]. intros i Hi. rewrite <- (G i Hi). exact (F i Hi).
  - intros r f g (L & F) G. split; [exact L|]. intros i Hi. rewrite <- (G i Hi). exact (F i Hi).
  - lia.
  - exact E.
Qed.
Lemma cpu_portable env ex : (forall k, length (env k) = n /\ forall i, in_ty t (nth i (env k) 0)) ->
  (forall i, (i < n)%nat -> element t (fun k => nth i (env k) 0) (Z.of_nat i) ex <> None) ->
  exists r, veval (cpu t n) env ex = Some r /\ length r = n /\
    forall i, (i < n)%nat -> element t (fun k => nth i (env k) 0) (Z.of_nat i) ex = Some (nth i r 0).
Proof.
  intros E D.
  assert (forall i, 0 <= i < Z.of_nat n -> element t (fun k => celt (env k) i) i ex <> None) as D'.
  { intros i Hi. specialize (D (Z.to_nat i) ltac:(lia)). rewrite Z2Nat.id in D by lia. exact D. }
  enough (exists r, veval (cpu t n) env ex = Some r /\ repv r (fun i => val (element t (fun k => celt (env k) i) i ex))) as (r & R & L & F).
  { exists r. split; [exact R|]. split; [exact L|]. intros i Hi. specialize (F (Z.of_nat i) ltac:(lia)). unfold celt in F. rewrite Nat2Z.id in F. rewrite (proj1 F). exact (val_some _ (D i Hi)). }
  apply (cpu_eval env (fun k i => celt (env k) i) ex); [|exact D']. intros k. destruct (E k) as (L & I). split; [exact L|]. intros i Hi. split; [reflexivity|apply I].
Qed.
End CPU.
