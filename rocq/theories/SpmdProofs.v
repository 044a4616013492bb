From Coq Require Import ZArith Lia Bool List.
From Coq Require Import ZifyBool.
From Verif Require Import Spmd SpmdSpec.
Import ListNotations.
Open Scope Z_scope.

Scheme prog_ind2 := Induction for prog Sort Prop with chain_ind2 := Induction for chain Sort Prop.
Combined Scheme prog_chain_ind from prog_ind2, chain_ind2.

Lemma teq_refl a : teq a a.
Proof. repeat split. Qed.
Lemma teq_trans a b c : teq a b -> teq b c -> teq a c.
Proof. intros (A & B & C) (D & E & F). split; [|split]; intros; etransitivity; eauto. Qed.
Lemma teq_sym a b : teq a b -> teq b a.
Proof. intros (A & B & C). split; [|split]; intros; symmetry; auto. Qed.

Lemma val_teq e : forall a b, teq a b -> val a e = val b e.
Proof. intros a b (A & B & C). induction e; cbn [val]; try congruence; auto. Qed.
Lemma valb_teq e : forall a b, teq a b -> valb a e = valb b e.
Proof.
  intros a b H. induction e; cbn [valb]; try congruence.
  - destruct H as (A & B & C); auto.
  - rewrite (val_teq e a b); auto.
  - rewrite (val_teq l a b), (val_teq r a b); auto.
Qed.

Section Sim.
Variables (simd : bool) (len : nat) (i : Z).

Local Notation lane := (SpmdSpec.lane i).

Lemma ev_lane s e l : mask s l = true -> ev i s e l = val (lane s l) e.
Proof. intros H. induction e; cbn [ev val SpmdSpec.lane ta tv]; try rewrite H; congruence. Qed.
Lemma evb_lane s e l : mask s l = true -> evb i s e l = valb (lane s l) e.
Proof.
  intros H. induction e; cbn [evb valb]; rewrite ?ev_lane by exact H; try congruence.
  reflexivity.
Qed.

(** Stores. *)
Lemma store_gen (msk : lanes bool) (v : lanes Z) (a : nat) (ls : list nat) : forall (m : mem) b j,
  NoDup ls ->
  fold_left (fun (m : mem) l => if msk l then upd m a (updZ (m a) (i + Z.of_nat l) (v l)) else m) ls m b j =
  if Nat.eqb b a && existsb (fun l => msk l && (j =? i + Z.of_nat l)) ls
  then v (Z.to_nat (j - i)) else m b j.
Proof.
  induction ls as [|l ls IH]; intros m b j ND; cbn [fold_left existsb].
  - rewrite andb_false_r. reflexivity.
  - inversion ND as [|? ? H1 H2]; subst. rewrite IH by exact H2. clear IH.
    destruct (Nat.eqb b a) eqn:Eb; cbn [andb].
    + apply Nat.eqb_eq in Eb. subst b.
      destruct (existsb _ ls) eqn:Ex.
      * rewrite orb_true_r. reflexivity.
      * rewrite orb_false_r. destruct (msk l); cbn [andb]; [|reflexivity].
        unfold upd at 1. rewrite Nat.eqb_refl. unfold updZ.
        destruct (j =? i + Z.of_nat l) eqn:Ej; [|reflexivity].
        apply Z.eqb_eq in Ej. subst j. replace (Z.to_nat (i + Z.of_nat l - i)) with l by lia. reflexivity.
    + destruct (msk l); [|reflexivity]. unfold upd. rewrite Eb. reflexivity.
Qed.

Lemma store_in m a msk v b l : (l < len)%nat ->
  store len i m a msk v b (i + Z.of_nat l) = if Nat.eqb b a && msk l then v l else m b (i + Z.of_nat l).
Proof.
  intros H. unfold store. rewrite store_gen by apply seq_NoDup.
  replace (existsb (fun l0 => msk l0 && (i + Z.of_nat l =? i + Z.of_nat l0)) (seq 0 len)) with (msk l).
  - replace (Z.to_nat (i + Z.of_nat l - i)) with l by lia. reflexivity.
  - symmetry. destruct (msk l) eqn:E.
    + apply existsb_exists. exists l. split; [apply in_seq; lia|]. rewrite E, Z.eqb_refl. reflexivity.
    + apply not_true_is_false. intros X. apply existsb_exists in X. destruct X as (k & K1 & K2).
      apply andb_prop in K2. destruct K2 as [K2 K3]. assert (k = l) by lia. subst. congruence.
Qed.
Lemma store_out m a msk v b j : (j < i \/ i + Z.of_nat len <= j) -> store len i m a msk v b j = m b j.
Proof.
  intros H. unfold store. rewrite store_gen by apply seq_NoDup.
  replace (existsb (fun l0 => msk l0 && (j =? i + Z.of_nat l0)) (seq 0 len)) with false.
  - rewrite andb_false_r. reflexivity.
  - symmetry. apply not_true_is_false. intros X. apply existsb_exists in X. destruct X as (k & K1 & K2).
    apply in_seq in K1. apply andb_prop in K2. lia.
Qed.

(** Named copies of the two loops. *)
Fixpoint sloop (fuel : nat) (c : bexpr) (p : prog) (middle : lanes bool) (k : nat) (s : st) : option st :=
  match k with
  | O => None
  | S k =>
      let cond := evb i s c in
      if any len cond
      then bind (exec simd len i fuel p (with_mask s (clear_lanes (clear_lanes (fun l => cond l && middle l) (brk s)) (ret s))))
                (fun s1 => sloop fuel c p middle k (with_mask s1 (mask s)))
      else Some s
  end.
Lemma exec_while fuel c p s : exec simd len i fuel (While c p) s =
  bind (sloop fuel c p (mask s) fuel (with_loop s none none)) (fun s1 =>
  Some (with_mask (with_loop s1 (brk s) (cnt s)) (clear_lanes (mask s1) (ret s1)))).
Proof.
  cbn [exec]. match goal with |- bind (?F fuel _) _ = _ => assert (H : forall k s0, F k s0 = sloop fuel c p (mask s) k s0) end.
  { induction k as [|k IHk]; intros s0; [reflexivity|]. cbn [sloop].
    destruct (any len (evb i s0 c)); [|reflexivity]. destruct (exec simd len i fuel p _); [|reflexivity]. cbn [bind]. apply IHk. }
  rewrite H. reflexivity.
Qed.

Fixpoint tloop (fuel : nat) (c : bexpr) (p : prog) (k : nat) (t : thread) : option (outcome * thread) :=
  match k with
  | O => None
  | S k =>
      if valb t c
      then bind (run fuel p t) (fun '(o, t) =>
           match o with Normal | Continued => tloop fuel c p k t | Broke => Some (Normal, t) | Returned => Some (Returned, t) end)
      else Some (Normal, t)
  end.
Lemma run_while fuel c p t : run fuel (While c p) t = tloop fuel c p fuel t.
Proof.
  cbn [run]. match goal with |- ?F fuel _ = _ => assert (H : forall k t, F k t = tloop fuel c p k t) end.
  { clear t. induction k as [|k IHk]; intros t; [reflexivity|]. cbn [tloop].
    destruct (valb t c); [|reflexivity]. destruct (run fuel p t) as [[o t1]|]; [|reflexivity]. cbn [bind].
    destruct o; try reflexivity; apply IHk. }
  apply H.
Qed.

Lemma exec_if fuel c p r s : exec simd len i fuel (If c p r) s =
  bind (exec simd len i fuel p (with_mask s (fun l => evb i s c l && mask s l))) (fun s1 =>
  exec_chain simd len i fuel r (evb i s c) (mask s) (with_mask s1 (mask s))).
Proof. reflexivity. Qed.
Lemma chain_else fuel q c m s : exec_chain simd len i fuel (Else q) c m s =
  bind (exec simd len i fuel q (with_mask (clear_off s) (clear_lanes m c))) (fun s1 => Some (clear_off (with_mask s1 (mask (clear_off s))))).
Proof. reflexivity. Qed.
Lemma chain_elseif fuel c' q r c m s : exec_chain simd len i fuel (ElseIf c' q r) c m s =
  bind (exec simd len i fuel q (with_mask (clear_off s) (fun l => evb i (clear_off s) c' l && clear_lanes m c l))) (fun s1 =>
  exec_chain simd len i fuel r (evb i (clear_off s) c') (clear_lanes m c) (with_mask s1 (mask (clear_off s)))).
Proof. reflexivity. Qed.

(** Elements outside the indices of the lanes never change (any kernel). *)
Lemma frame : (forall p fuel s s', exec simd len i fuel p s = Some s' ->
    forall a j, (j < i \/ i + Z.of_nat len <= j) -> arr s' a j = arr s a j) /\
  (forall r fuel c m s s', exec_chain simd len i fuel r c m s = Some s' ->
    forall a j, (j < i \/ i + Z.of_nat len <= j) -> arr s' a j = arr s a j).
Proof.
  apply prog_chain_ind.
  - intros fuel s s' [= <-]. reflexivity.
  - intros p IHp q IHq fuel s s' H a j Hj. cbn [exec] in H.
    destruct (exec simd len i fuel p s) as [s1|] eqn:E; [|discriminate]. cbn [bind] in H.
    rewrite (IHq _ _ _ H a j Hj). apply (IHp _ _ _ E a j Hj).
  - intros x e fuel s s' [= <-]. reflexivity.
  - intros x e fuel s s' [= <-]. reflexivity.
  - intros x e fuel s s' [= <-]. reflexivity.
  - intros x e fuel s s' [= <-]. reflexivity.
  - intros x e fuel s s' [= <-] a j Hj. cbn [arr with_arr]. apply store_out. exact Hj.
  - intros x e fuel s s' [= <-] a j Hj. cbn [arr with_arr]. apply store_out. exact Hj.
  - intros c p IHp r IHr fuel s s' H a j Hj. rewrite exec_if in H.
    destruct (exec simd len i fuel p _) as [s1|] eqn:E; [|discriminate]. cbn [bind] in H.
    rewrite (IHr _ _ _ _ _ H a j Hj). apply (IHp _ _ _ E a j Hj).
  - intros c p IHp fuel s s' H a j Hj. rewrite exec_while in H.
    destruct (sloop fuel c p (mask s) fuel (with_loop s none none)) as [s1|] eqn:E; [|discriminate].
    cbn [bind] in H. injection H as <-. cbn [arr with_mask with_loop].
    change (arr s a j) with (arr (with_loop s none none) a j).
    revert E. generalize (with_loop s none none) as s0. generalize (mask s) as mid. generalize fuel at 2.
    clear s. intros k mid. induction k as [|k IHk]; intros s0 E; cbn [sloop] in E; [discriminate|].
    destruct (any len (evb i s0 c)).
    + destruct (exec simd len i fuel p _) as [s2|] eqn:E2; [|discriminate]. cbn [bind] in E.
      rewrite (IHk _ E). cbn [arr with_mask]. apply (IHp _ _ _ E2 a j Hj).
    + injection E as <-. reflexivity.
  - intros fuel s s' [= <-]. reflexivity.
  - intros fuel s s' [= <-]. reflexivity.
  - intros fuel s s' [= <-]. reflexivity.
  - intros p IHp fuel s s' H a j Hj. cbn [exec] in H.
    destruct (exec simd len i fuel p _) as [s1|] eqn:E; [|discriminate]. cbn [bind] in H. injection H as <-.
    apply (IHp _ _ _ E a j Hj).
  - intros fuel c m s s' [= <-]. reflexivity.
  - intros p IHp fuel c m s s' H a j Hj. rewrite chain_else in H.
    destruct (exec simd len i fuel p _) as [s1|] eqn:E; [|discriminate]. cbn [bind] in H. injection H as <-.
    apply (IHp _ _ _ E a j Hj).
  - intros c p IHp r IHr fuel c0 m s s' H a j Hj. rewrite chain_elseif in H.
    destruct (exec simd len i fuel p _) as [s1|] eqn:E; [|discriminate]. cbn [bind] in H.
    rewrite (IHr _ _ _ _ _ H a j Hj). apply (IHp _ _ _ E a j Hj).
Qed.

Definition same_flags (s s' : st) (l : nat) : Prop :=
  ret s' l = ret s l /\ brk s' l = brk s l /\ cnt s' l = cnt s l.
Definition quiet (s s' : st) (l : nat) : Prop :=
  teq (lane s' l) (lane s l) /\ same_flags s s' l.
Definition post (inl : bool) (s' : st) (l : nat) (o : outcome) : Prop :=
  cnt s' l = false /\
  match o with
  | Normal => mask s' l = true /\ ret s' l = false /\ brk s' l = false
  | Broke => inl = true /\ mask s' l = false /\ ret s' l = false /\ brk s' l = true
  | Returned => mask s' l = false /\ ret s' l = true /\ brk s' l = false
  | Continued => False
  end.

Definition good (inl : bool) (fuel : nat) (p : prog) (s s' : st) : Prop := forall l, (l < len)%nat ->
  (mask s l = false -> quiet s s' l /\ mask s' l = false) /\
  (mask s l = true -> clear s l -> forall t, teq (lane s l) t ->
     exists o t', run fuel p t = Some (o, t') /\ teq (lane s' l) t' /\ post inl s' l o).
Definition goodc (inl : bool) (fuel : nat) (r : chain) (c m : lanes bool) (s s' : st) : Prop := forall l, (l < len)%nat ->
  (m l && negb (c l) = false -> quiet s s' l /\ mask s' l = mask s l && negb (ret s l) && negb (brk s l) && negb (cnt s l)) /\
  (m l = true -> c l = false -> mask s l = true -> clear s l -> forall t, teq (lane s l) t ->
     exists o t', run_chain fuel r t = Some (o, t') /\ teq (lane s' l) t' /\ post inl s' l o).

Lemma quiet_refl s l : quiet s s l.
Proof. split; [apply teq_refl|]. repeat split. Qed.
Lemma quiet_trans a b c l : quiet a b l -> quiet b c l -> quiet a c l.
Proof.
  intros (A & B & C & D) (A' & B' & C' & D'). split; [eapply teq_trans; eauto|].
  split; [congruence|]. split; congruence.
Qed.
Lemma lane_with_mask s m l : lane (with_mask s m) l = lane s l.
Proof. reflexivity. Qed.
Lemma quiet_mask_l s m s' l : quiet (with_mask s m) s' l <-> quiet s s' l.
Proof. unfold quiet, same_flags. reflexivity. Qed.
Lemma quiet_mask_r s m s' l : quiet s (with_mask s' m) l <-> quiet s s' l.
Proof. unfold quiet, same_flags. reflexivity. Qed.

Lemma clear_mask s l : mask (clear_off s) l = mask s l && negb (ret s l) && negb (brk s l) && negb (cnt s l).
Proof. reflexivity. Qed.
Lemma clear_mask_id s l : clear s l -> mask (clear_off s) l = mask s l.
Proof. intros (A & B & C). rewrite clear_mask, A, B, C. cbn. rewrite !andb_true_r. reflexivity. Qed.

(** From "the branch was taken" and the chain leaving the lane alone. *)
Lemma merge inl o s1 s2 s3 l outer :
  post inl s1 l o -> mask s2 l = outer -> outer = true -> quiet s2 s3 l -> (forall k, k = l -> same_flags s1 s2 k) ->
  mask s3 l = mask s2 l && negb (ret s2 l) && negb (brk s2 l) && negb (cnt s2 l) -> post inl s3 l o.
Proof.
  intros (P0 & P) M1 M2 (_ & F1 & F2 & F3) F M3. destruct (F l eq_refl) as (G1 & G2 & G3).
  rewrite M1, M2, G1, G2, G3, P0 in M3. unfold post. rewrite F1, F2, F3, G1, G2, G3, P0, M3.
  split; [reflexivity|]. destruct o; [| |exact P|].
  - destruct P as (P1 & P2 & P3). rewrite P2, P3. auto.
  - destruct P as (P1 & P2 & P3 & P4). rewrite P3, P4. auto.
  - destruct P as (P1 & P2 & P3). rewrite P2, P3. auto.
Qed.

Lemma sloop_good fuel c p mid
  (IHp : forall s s', exec simd len i fuel p s = Some s' -> good true fuel p s s') :
  forall k s s', sloop fuel c p mid k s = Some s' -> forall l, (l < len)%nat ->
  mask s' l = mask s l /\
  (mid l && negb (brk s l) && negb (ret s l) = false -> quiet s s' l) /\
  (mid l = true -> mask s l = true -> clear s l -> forall t, teq (lane s l) t ->
    exists o t', tloop fuel c p k t = Some (o, t') /\ teq (lane s' l) t' /\ cnt s' l = false /\
      match o with Normal => ret s' l = false | Returned => ret s' l = true | _ => False end).
Proof.
  induction k as [|k IHk]; intros s s' E l Hl; cbn [sloop] in E; [discriminate|].
  destruct (any len (evb i s c)) eqn:Ea.
  - destruct (exec simd len i fuel p _) as [s1|] eqn:E1; [|discriminate]. cbn [bind] in E.
    set (s0 := with_mask s _) in E1. pose proof (IHp _ _ E1 l Hl) as [G1 G2].
    destruct (IHk _ _ E l Hl) as (K0 & K1 & K2). cbn [mask with_mask] in K0.
    assert (M0 : mask s0 l = evb i s c l && mid l && negb (brk s l) && negb (ret s l)) by reflexivity.
    split; [exact K0|]. split.
    + intros Hoff. assert (Hm : mask s0 l = false). { rewrite M0. rewrite <- !andb_assoc. rewrite <- !andb_assoc in Hoff. rewrite Hoff. apply andb_false_r. }
      destruct (G1 Hm) as (Q & _). change (quiet s s1 l) in Q.
      eapply quiet_trans; [exact Q|]. apply (K1 : _ -> quiet s1 s' l).
      cbn [brk ret with_mask]. destruct Q as (_ & Q1 & Q2 & Q3). rewrite Q1, Q2. exact Hoff.
    + intros Hmid Hmask Hc t Ht. destruct Hc as (C1 & C2 & C3). cbn [tloop].
      assert (Ec : evb i s c l = valb t c). { rewrite evb_lane by exact Hmask. apply valb_teq. exact Ht. }
      rewrite Ec, Hmid, C1, C2 in M0. cbn in M0. rewrite !andb_true_r in M0.
      destruct (valb t c) eqn:Ev.
      * assert (D : clear s0 l) by (split; [exact C1|split; [exact C2|exact C3]]).
        destruct (G2 M0 D t Ht) as (o & t1 & R1 & T1 & P0 & P).
        rewrite R1. cbn [bind]. destruct o; [| |destruct P|].
        -- destruct P as (P1 & P2 & P3). apply K2; [exact Hmid|exact Hmask| |exact T1].
           split; [exact P2|]. split; [exact P3|exact P0].
        -- destruct P as (_ & P1 & P2 & P3). exists Normal, t1. split; [reflexivity|].
           assert (Q : quiet s1 s' l). { apply (K1 : _ -> quiet s1 s' l). cbn [brk with_mask]. rewrite P3. cbn. rewrite andb_false_r. reflexivity. }
           destruct Q as (Q0 & Q1 & Q2 & Q3). split; [eapply teq_trans; [exact Q0|exact T1]|]. rewrite Q1, Q3. auto.
        -- destruct P as (P1 & P2 & P3). exists Returned, t1. split; [reflexivity|].
           assert (Q : quiet s1 s' l). { apply (K1 : _ -> quiet s1 s' l). cbn [ret with_mask]. rewrite P2. cbn. apply andb_false_r. }
           destruct Q as (Q0 & Q1 & Q2 & Q3). split; [eapply teq_trans; [exact Q0|exact T1]|]. rewrite Q1, Q3. auto.
      * destruct (G1 M0) as (Q & _). change (quiet s s1 l) in Q.
        assert (T1 : teq (lane s1 l) t). { eapply teq_trans; [apply Q|exact Ht]. }
        destruct Q as (Q0 & Q1 & Q2 & Q3).
        destruct (K2 Hmid Hmask ltac:(unfold clear; cbn [ret brk cnt with_mask]; rewrite Q1, Q2, Q3; auto) t T1) as (o & t' & R & T & R0 & R1).
        exists o, t'. split; [|split; [exact T|split; [exact R0|exact R1]]].
        destruct k as [|k]; cbn [tloop] in R |- *; [discriminate|]. rewrite Ev in R. exact R.
  - injection E as <-. split; [reflexivity|]. split; [intros; apply quiet_refl|].
    intros Hmid Hmask (C1 & C2 & C3) t Ht. exists Normal, t. cbn [tloop].
    assert (Ec : evb i s c l = valb t c). { rewrite evb_lane by exact Hmask. apply valb_teq. exact Ht. }
    assert (F : evb i s c l = false).
    { destruct (evb i s c l) eqn:X; [|reflexivity]. assert (any len (evb i s c) = true); [|congruence].
      apply existsb_exists. exists l. split; [apply in_seq; lia|exact X]. }
    rewrite Ec in F. rewrite F. auto.
Qed.

Lemma if_good inl fuel c p r s s1 s' (middle := mask s) (cond := evb i s c) :
  good inl fuel p (with_mask s (fun l => cond l && middle l)) s1 ->
  goodc inl fuel r cond middle (with_mask s1 (mask s)) s' ->
  good inl fuel (If c p r) s s'.
Proof.
  intros G C l Hl. destruct (G l Hl) as [G1 G2]. destruct (C l Hl) as [C1 C2]. cbn [mask with_mask] in G1, G2, C1, C2.
  split.
  - intros Hm. destruct G1 as (Q & _). { unfold middle. rewrite Hm. apply andb_false_r. }
    destruct C1 as (Q' & M'). { unfold middle. rewrite Hm. reflexivity. }
    split. { eapply quiet_trans; [exact Q|exact Q']. } rewrite M', Hm. reflexivity.
  - intros Hm Hc t Ht. cbn [run].
    assert (Ec : cond l = valb t c). { unfold cond. rewrite evb_lane by exact Hm. apply valb_teq. exact Ht. }
    destruct (valb t c) eqn:Ev.
    + destruct (G2 ltac:(unfold middle; rewrite Ec, Hm; reflexivity) Hc t Ht) as (o & t' & R & T & P).
      exists o, t'. split; [exact R|]. destruct C1 as (Q' & M'). { rewrite Ec. apply andb_false_r. }
      split. { eapply teq_trans; [apply Q'|exact T]. }
      eapply (merge inl o s1 (with_mask s1 (mask s)) s' l (mask s l)); try eassumption; try reflexivity.
      intros k ->. repeat split.
    + destruct G1 as (Q & _). { rewrite Ec. reflexivity. }
      apply C2; auto.
      * destruct Hc as (X1 & X2 & X3). destruct Q as (_ & Q1 & Q2 & Q3). unfold clear. cbn [ret brk cnt with_mask].
        rewrite Q1, Q2, Q3. auto.
      * eapply teq_trans; [apply Q|exact Ht].
Qed.

Theorem sim : (forall p inl fuel s s', masked inl p = true -> exec simd len i fuel p s = Some s' -> good inl fuel p s s') /\
  (forall r inl fuel c m s s', maskedc inl r = true -> exec_chain simd len i fuel r c m s = Some s' -> goodc inl fuel r c m s s').
Proof.
  apply prog_chain_ind.
  - intros inl fuel s s' _ [= <-] l Hl. split.
    + intros H. split; [apply quiet_refl|exact H].
    + intros H (C1 & C2 & C3) t Ht. exists Normal, t. split; [reflexivity|]. split; [exact Ht|]. split; auto.
  - intros p IHp q IHq inl fuel s s' M H. cbn [masked] in M. apply andb_prop in M. destruct M as [Mp Mq].
    cbn [exec] in H. destruct (exec simd len i fuel p s) as [s1|] eqn:E; [|discriminate]. cbn [bind] in H.
    specialize (IHp _ _ _ _ Mp E). specialize (IHq _ _ _ _ Mq H). intros l Hl.
    destruct (IHp l Hl) as [P1 P2]. destruct (IHq l Hl) as [Q1 Q2]. split.
    + intros Hm. destruct (P1 Hm) as (A & B). destruct (Q1 B) as (A' & B'). split; [eapply quiet_trans; eauto|exact B'].
    + intros Hm Hc t Ht. destruct (P2 Hm Hc t Ht) as (o & t1 & R & T & Po). cbn [run]. rewrite R. cbn [bind].
      destruct Po as (P0 & P). destruct o; [| |destruct P|].
      * destruct P as (P3 & P4 & P5). apply Q2; auto. split; auto.
      * destruct P as (P3 & P4 & P5 & P6). destruct (Q1 P4) as ((A & B & C & D) & B'). exists Broke, t1.
        split; [reflexivity|]. split; [eapply teq_trans; eauto|]. unfold post. rewrite B, C, D. auto.
      * destruct P as (P3 & P4 & P5). destruct (Q1 P3) as ((A & B & C & D) & B'). exists Returned, t1.
        split; [reflexivity|]. split; [eapply teq_trans; eauto|]. unfold post. rewrite B, C, D. auto.
  - (* Set_ *) intros x e inl fuel s s' _ [= <-] l Hl. split.
    + intros Hm. split; [|exact Hm]. split; [|repeat split]. split; [|split]; try reflexivity.
      intros y. cbn [SpmdSpec.lane tv vars with_vars]. unfold upd, kset. destruct (Nat.eqb y x) eqn:E; [|reflexivity].
      rewrite Hm. apply Nat.eqb_eq in E. subst. reflexivity.
    + intros Hm (C1 & C2 & C3) t Ht. eexists Normal, _. split; [reflexivity|]. split; [|split; auto].
      destruct Ht as (T1 & T2 & T3). split; [|split]; [|exact T2|exact T3].
      intros y. cbn [SpmdSpec.lane tv vars with_vars]. unfold upd, kset. destruct (Nat.eqb y x) eqn:E; [|apply T1].
      rewrite Hm. rewrite (ev_lane s e l Hm). apply val_teq. split; auto.
  - intros x e inl fuel s s' M. discriminate M.
  - intros x e inl fuel s s' M. discriminate M.
  - intros x e inl fuel s s' M. discriminate M.
  - (* Store *) intros a e inl fuel s s' _ [= <-] l Hl. split.
    + intros Hm. split; [|exact Hm]. split; [|repeat split]. split; [|split]; try reflexivity.
      intros y. cbn [SpmdSpec.lane ta arr with_arr]. rewrite store_in by exact Hl. rewrite Hm, andb_false_r. reflexivity.
    + intros Hm (C1 & C2 & C3) t Ht. eexists Normal, _. split; [reflexivity|]. split; [|split; auto].
      assert (Ht' := Ht). destruct Ht as (T1 & T2 & T3). split; [|split]; [exact T1|exact T2|].
      intros y. cbn [SpmdSpec.lane ta arr with_arr]. rewrite store_in by exact Hl. rewrite Hm, andb_true_r. unfold upd.
      destruct (Nat.eqb y a) eqn:E; [|apply T3]. rewrite (ev_lane s e l Hm). apply val_teq. exact Ht'.
  - intros x e inl fuel s s' M. discriminate M.
  - (* If *) intros c p IHp r IHr inl fuel s s' M H. cbn [masked] in M. apply andb_prop in M. destruct M as [Mp Mr].
    rewrite exec_if in H. destruct (exec simd len i fuel p _) as [s1|] eqn:E; [|discriminate]. cbn [bind] in H.
    eapply if_good; [apply IHp; eassumption|apply IHr; eassumption].
  - (* While *) intros c p IHp inl fuel s s' M H. cbn [masked] in M. rewrite exec_while in H.
    destruct (sloop fuel c p (mask s) fuel (with_loop s none none)) as [s1|] eqn:E; [|discriminate]. cbn [bind] in H.
    injection H as <-.
    pose proof (sloop_good fuel c p (mask s) (fun s s' => IHp true fuel s s' M) _ _ _ E) as L.
    intros l Hl. destruct (L l Hl) as (L0 & L1 & L2). cbn [mask with_loop] in L0. split.
    + intros Hm. destruct L1 as (A & B & C & D). { rewrite Hm. reflexivity. }
      split. { split; [exact A|]. split; [exact B|]. split; reflexivity. }
      cbn [mask with_mask with_loop]. unfold clear_lanes. rewrite L0, Hm. reflexivity.
    + intros Hm (C1 & C2 & C3) t Ht. destruct (L2 Hm Hm ltac:(split; [exact C1|split; reflexivity]) t Ht) as (o & t' & R & T & R0 & R1).
      exists o, t'. rewrite run_while. split; [exact R|]. split; [exact T|]. unfold post.
      cbn [mask ret brk cnt with_mask with_loop]. unfold clear_lanes. rewrite L0, Hm, C2, C3.
      split; [reflexivity|]. destruct o; try contradiction; rewrite R1; auto.
  - (* Break *) intros inl fuel s s' M [= <-] l Hl. cbn [masked] in M. split.
    + intros Hm. split; [|reflexivity]. split; [apply teq_refl|]. unfold same_flags. cbn [ret brk cnt with_mask with_loop].
      rewrite Hm, orb_false_r. auto.
    + intros Hm (C1 & C2 & C3) t Ht. exists Broke, t. split; [reflexivity|]. split; [exact Ht|].
      unfold post. cbn [ret brk cnt mask with_mask with_loop]. rewrite Hm, orb_true_r. auto.
  - intros inl fuel s s' M. discriminate M.
  - (* Return *) intros inl fuel s s' M [= <-] l Hl. split.
    + intros Hm. split; [|reflexivity]. split; [apply teq_refl|]. unfold same_flags. cbn [ret brk cnt with_mask with_ret].
      rewrite Hm, orb_false_r. auto.
    + intros Hm (C1 & C2 & C3) t Ht. exists Returned, t. split; [reflexivity|]. split; [exact Ht|].
      unfold post. cbn [ret brk cnt mask with_mask with_ret]. rewrite Hm, orb_true_r. auto.
  - (* Call *) intros p IHp inl fuel s s' M H. cbn [masked] in M. cbn [exec] in H.
    destruct (exec simd len i fuel p _) as [s1|] eqn:E; [|discriminate]. cbn [bind] in H. injection H as <-.
    intros l Hl. destruct (IHp false fuel _ _ M E l Hl) as [P1 P2]. split.
    + intros Hm. destruct (P1 Hm) as ((A & _) & _). split; [|exact Hm]. split; [exact A|]. repeat split.
    + intros Hm (C1 & C2 & C3) t Ht. destruct (P2 Hm ltac:(repeat split) t Ht) as (o & t' & R & T & _).
      exists Normal, t'. cbn [run]. rewrite R. split; [reflexivity|]. split; [exact T|].
      unfold post. cbn [mask ret brk cnt with_mask with_ret with_loop]. auto.
  - (* EndIf *) intros inl fuel c m s s' _ [= <-] l Hl. split.
    + intros _. split; [apply (quiet_refl s)|reflexivity].
    + intros Hm Hcl Hmask Hc t Ht. exists Normal, t. split; [reflexivity|]. split; [exact Ht|].
      destruct Hc as (C1 & C2 & C3). split; [exact C3|]. rewrite clear_mask_id by (split; auto). auto.
  - (* Else *) intros p IHp inl fuel c m s s' M H. cbn [maskedc] in M. rewrite chain_else in H.
    destruct (exec simd len i fuel p _) as [s1|] eqn:E; [|discriminate]. cbn [bind] in H. injection H as <-.
    intros l Hl. destruct (IHp inl fuel _ _ M E l Hl) as [P1 P2]. cbn [mask with_mask] in P1, P2. split.
    + intros Hoff. destruct (P1 Hoff) as (Q & _). split; [exact Q|].
      destruct Q as (_ & Q1 & Q2 & Q3). cbn [ret brk cnt with_mask clear_off] in Q1, Q2, Q3.
      unfold clear_off, clear_lanes. cbn [mask ret brk cnt with_mask]. rewrite Q1, Q2, Q3.
      destruct (mask s l), (ret s l), (brk s l), (cnt s l); reflexivity.
    + intros Hm Hcl Hmask Hc t Ht. destruct (P2 ltac:(unfold clear_lanes; rewrite Hm, Hcl; reflexivity) Hc t Ht) as (o & t' & R & T & P).
      exists o, t'. split; [exact R|]. split; [exact T|].
      eapply (merge inl o s1 (with_mask s1 (mask (clear_off s))) _ l true).
      * exact P.
      * cbn [mask with_mask]. rewrite clear_mask_id by exact Hc. exact Hmask.
      * reflexivity.
      * apply (quiet_refl (with_mask s1 (mask (clear_off s)))).
      * intros k ->. repeat split.
      * reflexivity.
  - (* ElseIf *) intros c p IHp r IHr inl fuel c0 m s s' M H. cbn [maskedc] in M. apply andb_prop in M. destruct M as [Mp Mr].
    rewrite chain_elseif in H.
    destruct (exec simd len i fuel p _) as [s1|] eqn:E; [|discriminate]. cbn [bind] in H.
    intros l Hl. destruct (IHp inl fuel _ _ Mp E l Hl) as [P1 P2]. destruct (IHr inl fuel _ _ _ _ Mr H l Hl) as [R1 R2].
    cbn [mask with_mask] in P1, P2, R1, R2. unfold clear_lanes in P1, P2, R1, R2. split.
    + intros Hoff. destruct P1 as (Q & _). { unfold clear_lanes. rewrite Hoff. apply andb_false_r. }
      destruct R1 as (Q' & M'). { unfold clear_lanes. rewrite Hoff. reflexivity. }
      split. { eapply quiet_trans; [exact Q|exact Q']. }
      rewrite M'. destruct Q as (_ & Q1 & Q2 & Q3). cbn [ret brk cnt with_mask clear_off] in Q1, Q2, Q3.
      unfold clear_off, clear_lanes. cbn [mask ret brk cnt with_mask]. rewrite Q1, Q2, Q3.
      destruct (mask s l), (ret s l), (brk s l), (cnt s l); reflexivity.
    + intros Hm Hcl Hmask Hc t Ht. cbn [run_chain].
      assert (Hmask' : mask (clear_off s) l = true) by (rewrite clear_mask_id by exact Hc; exact Hmask).
      assert (Ec : evb i (clear_off s) c l = valb t c). { rewrite evb_lane by exact Hmask'. apply valb_teq. exact Ht. }
      destruct (valb t c) eqn:Ev.
      * destruct (P2 ltac:(unfold clear_lanes; rewrite Ec, Hm, Hcl; reflexivity) Hc t Ht) as (o & t' & R & T & P).
        exists o, t'. split; [exact R|]. destruct R1 as (Q' & M'). { rewrite Ec. apply andb_false_r. }
        split. { eapply teq_trans; [apply Q'|exact T]. }
        eapply (merge inl o s1 (with_mask s1 (mask (clear_off s))) _ l true).
        -- exact P.
        -- exact Hmask'.
        -- reflexivity.
        -- exact Q'.
        -- intros k ->. repeat split.
        -- exact M'.
      * destruct P1 as (Q & _). { rewrite Ec. reflexivity. }
        apply R2; auto.
        -- unfold clear_lanes. rewrite Hm, Hcl. reflexivity.
        -- destruct Hc as (X1 & X2 & X3). destruct Q as (_ & Q1 & Q2 & Q3). unfold clear. cbn [ret brk cnt with_mask].
           rewrite Q1, Q2, Q3. auto.
        -- eapply teq_trans; [apply Q|exact Ht].
Qed.
End Sim.
