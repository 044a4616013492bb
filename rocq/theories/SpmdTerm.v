(** Termination of masked loops, and whole launches. *)
From Coq Require Import ZArith Lia Bool List.
From Coq Require Import ZifyBool.
From Verif Require Import Spmd SpmdSpec SpmdProofs.
Import ListNotations.
Open Scope Z_scope.

Lemma val0_teq e : forall a b, teq a b -> val0 a e = val0 b e.
Proof. intros a b (A & B & C). induction e; cbn [val0]; try congruence; auto. Qed.
Lemma valb0_teq e : forall a b, teq a b -> valb0 a e = valb0 b e.
Proof.
  intros a b H. induction e; cbn [valb0]; try congruence.
  - destruct H as (A & B & C); auto.
  - rewrite (val0_teq e a b); auto.
  - rewrite (val0_teq l a b), (val0_teq r a b); auto.
Qed.
Lemma idle_teq : (forall p a b, teq a b -> idle p a = idle p b) /\ (forall r a b, teq a b -> idlec r a = idlec r b).
Proof.
  apply prog_chain_ind; intros; try reflexivity; cbn [idle idlec].
  - rewrite (H a b), (H0 a b); auto.
  - rewrite (H a b), (H0 a b); auto.
  - rewrite (H a b), (valb0_teq c a b); auto.
  - apply H; auto.
  - apply H; auto.
  - rewrite (H a b), (H0 a b); auto.
Qed.

Section Term.
Variables (simd : bool) (len : nat) (i : Z).
Local Notation lane := (SpmdSpec.lane i).
Local Notation exec := (exec simd len i).
Local Notation exec_chain := (exec_chain simd len i).

Lemma ev_off s e l : mask s l = false -> ev i s e l = val0 (lane s l) e.
Proof. intros H. induction e; cbn [ev val0 SpmdSpec.lane ta tv]; try rewrite H; congruence. Qed.
Lemma evb_off s e l : mask s l = false -> evb i s e l = valb0 (lane s l) e.
Proof. intros H. induction e; cbn [evb valb0]; rewrite ?ev_off by exact H; try congruence. reflexivity. Qed.
Lemma evb_stable s s' c l : mask s' l = mask s l -> teq (lane s' l) (lane s l) -> evb i s' c l = evb i s c l.
Proof.
  intros M T. destruct (mask s l) eqn:E.
  - rewrite !evb_lane by congruence. apply valb_teq. exact T.
  - rewrite !evb_off by congruence. apply valb0_teq. exact T.
Qed.

Definition pre (fuel : nat) (p : prog) (s : st) (l : nat) : Prop :=
  if mask s l then clear s l /\ exists t, teq (lane s l) t /\ clean fuel p t = true
  else idle p (lane s l) = true.
Definition prec (fuel : nat) (r : chain) (c m : lanes bool) (s : st) (l : nat) : Prop :=
  if m l && negb (c l) then mask s l = true /\ clear s l /\ exists t, teq (lane s l) t /\ cleanc fuel r t = true
  else idlec r (lane s l) = true.

Fixpoint cloop (fuel : nat) (c : bexpr) (p : prog) (k : nat) (t : thread) : bool :=
  match k with
  | O => false
  | S k =>
      if valb t c
      then clean fuel p t &&
           match run fuel p t with
           | Some (Normal, t) | Some (Continued, t) => cloop fuel c p k t
           | Some (_, t) => negb (valb t c) && idle p t && negb (Nat.eqb k 0)
           | None => false
           end
      else idle p t
  end.
Lemma clean_while fuel c p t : clean fuel (While c p) t = cloop fuel c p fuel t.
Proof.
  cbn [clean]. match goal with |- ?F fuel _ = _ => assert (H : forall k t, F k t = cloop fuel c p k t) end.
  { clear t. induction k as [|k IHk]; intros t; [reflexivity|]. cbn [cloop].
    destruct (valb t c); [|reflexivity]. destruct (run fuel p t) as [[o t1]|]; [|reflexivity].
    destruct o; try reflexivity; rewrite IHk; reflexivity. }
  apply H.
Qed.

Lemma branch_pre inl fuel p s1 l t : masked inl p = true ->
  (exists s, exec fuel p s = Some s1 /\ mask s l = true /\ clear s l /\ teq (lane s l) t) -> (l < len)%nat ->
  exists o t1, run fuel p t = Some (o, t1) /\ teq (lane s1 l) t1 /\ post inl s1 l o.
Proof.
  intros M (s & E & H1 & H2 & H3) Hl. destruct (proj1 (sim simd len i) p inl fuel s s1 M E l Hl) as [_ G]. apply G; auto.
Qed.

Lemma loop_term fuel c p mid (Mp : masked true p = true)
  (IHp : forall s, (forall l, (l < len)%nat -> pre fuel p s l) -> exists s', exec fuel p s = Some s') :
  forall k s, (1 <= k)%nat ->
  (forall l, (l < len)%nat ->
     (mid l = true /\ mask s l = true /\ clear s l /\ exists t, teq (lane s l) t /\ cloop fuel c p k t = true) \/
     (mid l && negb (brk s l) && negb (ret s l) = false /\ evb i s c l = false /\ idle p (lane s l) = true)) ->
  exists s', sloop simd len i fuel c p mid k s = Some s'.
Proof.
  induction k as [|k IHk]; intros s Hk H; [lia|]. cbn [sloop].
  destruct (any len (evb i s c)) eqn:Ea; [|eexists; reflexivity].
  set (s0 := with_mask s (clear_lanes (clear_lanes (fun l => evb i s c l && mid l) (brk s)) (ret s))).
  assert (M0 : forall l, mask s0 l = evb i s c l && mid l && negb (brk s l) && negb (ret s l)) by reflexivity.
  assert (P : forall l, (l < len)%nat -> pre fuel p s0 l).
  { intros l Hl. unfold pre. rewrite M0. destruct (H l Hl) as [(H1 & H2 & (C1 & C2 & C3) & t & T & Ht)|(H1 & H2 & H3)].
    - rewrite H1, C1, C2. cbn. rewrite !andb_true_r. cbn [cloop] in Ht.
      assert (Ec : evb i s c l = valb t c). { rewrite evb_lane by exact H2. apply valb_teq. exact T. }
      rewrite Ec. destruct (valb t c).
      + split; [split; [exact C1|split; [exact C2|exact C3]]|]. exists t. split; [exact T|]. apply andb_prop in Ht. apply Ht.
      + change (lane s0 l) with (lane s l). rewrite (proj1 idle_teq p _ t T). exact Ht.
    - rewrite H2. cbn. exact H3. }
  destruct (IHp s0 P) as (s1 & E1). rewrite E1. cbn [bind].
  (* some lane is still in the loop, so fuel remains *)
  apply existsb_exists in Ea. destruct Ea as (l0 & L0 & Ec0). apply in_seq in L0.
  assert (L1 : (l0 < len)%nat) by (clear - L0; lia).
  apply IHk.
  - destruct (H l0 L1) as [(H1 & H2 & (C1 & C2 & C3) & t & T & Ht)|(H1 & H2 & H3)]; [|congruence].
    cbn [cloop] in Ht. rewrite evb_lane in Ec0 by exact H2. rewrite (valb_teq c _ t T) in Ec0. rewrite Ec0 in Ht.
    apply andb_prop in Ht. destruct Ht as [_ Ht]. destruct (run fuel p t) as [[o t1]|]; [|discriminate].
    destruct k; [|clear; lia]. destruct o; cbn [cloop] in Ht; try discriminate; rewrite andb_false_r in Ht; discriminate.
  - intros l Hl. destruct (proj1 (sim simd len i) p true fuel s0 s1 Mp E1 l Hl) as [G1 G2].
    destruct (H l Hl) as [(H1 & H2 & (C1 & C2 & C3) & t & T & Ht)|(H1 & H2 & H3)].
    + assert (Ec : evb i s c l = valb t c). { rewrite evb_lane by exact H2. apply valb_teq. exact T. }
      cbn [cloop] in Ht. specialize (M0 l). rewrite Ec, H1, C1, C2 in M0. cbn in M0. rewrite !andb_true_r in M0.
      destruct (valb t c) eqn:Ev.
      * destruct (G2 M0 ltac:(split; [exact C1|split; [exact C2|exact C3]]) t T) as (o & t1 & R & T1 & P0 & Po).
        rewrite R in Ht. apply andb_prop in Ht. destruct Ht as [_ Ht]. destruct o.
        -- left. destruct Po as (Q1 & Q2 & Q3). split; [exact H1|]. split; [exact H2|].
           split; [split; [exact Q2|split; [exact Q3|exact P0]]|]. exists t1. split; [exact T1|exact Ht].
        -- right. destruct Po as (_ & Q1 & Q2 & Q3). cbn [brk ret with_mask]. rewrite Q3.
           split; [cbn; rewrite andb_false_r; reflexivity|].
           apply andb_prop in Ht. destruct Ht as [Ht _]. apply andb_prop in Ht. destruct Ht as [Ht1 Ht2].
           split.
           ++ rewrite evb_lane by exact H2. change (lane (with_mask s1 (mask s)) l) with (lane s1 l).
              rewrite (valb_teq c _ _ T1). destruct (valb t1 c); [discriminate|reflexivity].
           ++ change (lane (with_mask s1 (mask s)) l) with (lane s1 l). rewrite (proj1 idle_teq p _ _ T1). exact Ht2.
        -- destruct Po.
        -- right. destruct Po as (Q1 & Q2 & Q3). cbn [brk ret with_mask]. rewrite Q2.
           split; [apply andb_false_r|].
           apply andb_prop in Ht. destruct Ht as [Ht _]. apply andb_prop in Ht. destruct Ht as [Ht1 Ht2].
           split.
           ++ rewrite evb_lane by exact H2. change (lane (with_mask s1 (mask s)) l) with (lane s1 l).
              rewrite (valb_teq c _ _ T1). destruct (valb t1 c); [discriminate|reflexivity].
           ++ change (lane (with_mask s1 (mask s)) l) with (lane s1 l). rewrite (proj1 idle_teq p _ _ T1). exact Ht2.
      * destruct (G1 M0) as ((Q0 & Q1 & Q2 & Q3) & _).
        assert (T1 : teq (lane s1 l) t) by (eapply teq_trans; [exact Q0|exact T]).
        left. split; [exact H1|]. split; [exact H2|]. split.
        { unfold clear. cbn [ret brk cnt with_mask]. rewrite Q1, Q2, Q3. auto. }
        exists t. split; [exact T1|].
        destruct k as [|k].
        -- (* k = 0: excluded, since another lane needs fuel *)
           exfalso. destruct (H l0 L1) as [(H1' & H2' & C' & t' & T' & Ht')|(H1' & H2' & H3')]; [|congruence].
           cbn [cloop] in Ht'. rewrite evb_lane in Ec0 by exact H2'. rewrite (valb_teq c _ t' T') in Ec0. rewrite Ec0 in Ht'.
           apply andb_prop in Ht'. destruct Ht' as [_ Ht']. destruct (run fuel p t') as [[o t1]|]; [|discriminate].
           destruct o; cbn [cloop] in Ht'; try discriminate; rewrite andb_false_r in Ht'; discriminate.
        -- cbn [cloop]. rewrite Ev. exact Ht.
    + right. specialize (M0 l). rewrite H2 in M0. cbn in M0. destruct (G1 M0) as ((Q0 & Q1 & Q2 & Q3) & _).
      cbn [brk ret with_mask]. rewrite Q1, Q2. split; [exact H1|]. split.
      * rewrite <- H2. apply evb_stable; [reflexivity|exact Q0].
      * change (lane (with_mask s1 (mask s)) l) with (lane s1 l). rewrite (proj1 idle_teq p _ _ Q0). exact H3.
Qed.

Theorem terminates : forall fuel, (1 <= fuel)%nat ->
  (forall p inl s, masked inl p = true -> (forall l, (l < len)%nat -> pre fuel p s l) -> exists s', exec fuel p s = Some s') /\
  (forall r inl c m s, maskedc inl r = true -> (forall l, (l < len)%nat -> prec fuel r c m s l) -> exists s', exec_chain fuel r c m s = Some s').
Proof.
  intros fuel Hf. apply prog_chain_ind; try (intros; eexists; reflexivity).
  - (* Seq *) intros p IHp q IHq inl s M H. cbn [masked] in M. apply andb_prop in M. destruct M as [Mp Mq].
    destruct (IHp inl s Mp) as (s1 & E1).
    { intros l Hl. specialize (H l Hl). unfold pre in *. destruct (mask s l).
      - destruct H as (C & t & T & K). split; [exact C|]. exists t. split; [exact T|]. cbn [clean] in K. apply andb_prop in K. apply K.
      - cbn [idle] in H. apply andb_prop in H. apply H. }
    destruct (IHq inl s1 Mq) as (s2 & E2).
    { intros l Hl. specialize (H l Hl). unfold pre in *. destruct (proj1 (sim simd len i) p inl fuel s s1 Mp E1 l Hl) as [G1 G2].
      destruct (mask s l).
      - destruct H as (C & t & T & K). cbn [clean] in K. apply andb_prop in K. destruct K as [K1 K2].
        destruct (G2 eq_refl C t T) as (o & t1 & R & T1 & P0 & P). rewrite R in K2. destruct o.
        + destruct P as (P1 & P2 & P3). rewrite P1. split; [split; auto|]. exists t1. split; auto.
        + destruct P as (_ & P1 & P2 & P3). rewrite P1. rewrite (proj1 idle_teq q _ _ T1). exact K2.
        + destruct P.
        + destruct P as (P1 & P2 & P3). rewrite P1. rewrite (proj1 idle_teq q _ _ T1). exact K2.
      - destruct (G1 eq_refl) as ((T & _) & M1). rewrite M1. cbn [idle] in H. apply andb_prop in H.
        rewrite (proj1 idle_teq q _ _ T). apply H. }
    exists s2. cbn [Spmd.exec]. rewrite E1. exact E2.
  - (* If *) intros c p IHp r IHr inl s M H. cbn [masked] in M. apply andb_prop in M. destruct M as [Mp Mr].
    set (s0 := with_mask s (fun l => evb i s c l && mask s l)).
    destruct (IHp inl s0 Mp) as (s1 & E1).
    { intros l Hl. specialize (H l Hl). unfold pre in *. change (mask s0 l) with (evb i s c l && mask s l).
      destruct (mask s l) eqn:Em; [rewrite andb_true_r|rewrite andb_false_r].
      - destruct H as (C & t & T & K). cbn [clean] in K. rewrite evb_lane by exact Em. rewrite (valb_teq c _ _ T).
        destruct (valb t c); apply andb_prop in K.
        + split; [exact C|]. exists t. split; [exact T|]. apply K.
        + change (lane s0 l) with (lane s l). rewrite (proj1 idle_teq p _ _ T). apply K.
      - cbn [idle] in H. apply andb_prop in H. apply H. }
    destruct (IHr inl (evb i s c) (mask s) (with_mask s1 (mask s)) Mr) as (s2 & E2).
    { intros l Hl. specialize (H l Hl). unfold pre in H. unfold prec.
      destruct (proj1 (sim simd len i) p inl fuel s0 s1 Mp E1 l Hl) as [G1 G2].
      change (mask s0 l) with (evb i s c l && mask s l) in G1, G2.
      change (lane (with_mask s1 (mask s)) l) with (lane s1 l).
      destruct (mask s l) eqn:Em; [rewrite andb_true_r in G1, G2|rewrite andb_false_r in G1, G2].
      - destruct H as (C & t & T & K). cbn [clean] in K.
        assert (Ec : evb i s c l = valb t c). { rewrite evb_lane by exact Em. apply valb_teq. exact T. }
        rewrite Ec in *. destruct (valb t c); cbn [andb negb].
        + destruct (G2 eq_refl C t T) as (o & t1 & R & T1 & _). rewrite R in K. apply andb_prop in K.
          rewrite (proj2 idle_teq r _ _ T1). apply K.
        + destruct (G1 eq_refl) as ((Q0 & Q1 & Q2 & Q3) & _). apply andb_prop in K. split; [exact Em|].
          split. { destruct C as (C1 & C2 & C3). unfold clear. cbn [ret brk cnt with_mask]. rewrite Q1, Q2, Q3. auto. }
          exists t. split; [eapply teq_trans; [exact Q0|exact T]|]. apply K.
      - cbn [andb]. destruct (G1 eq_refl) as ((Q0 & _) & _). cbn [idle] in H. apply andb_prop in H.
        rewrite (proj2 idle_teq r _ _ Q0). apply H. }
    exists s2. rewrite exec_if. fold s0. rewrite E1. exact E2.
  - (* While *) intros c p IHp inl s M H. cbn [masked] in M. rewrite exec_while.
    destruct (loop_term fuel c p (mask s) M (fun s => IHp true s M) fuel (with_loop s none none) Hf) as (s1 & E1).
    { intros l Hl. specialize (H l Hl). unfold pre in H. destruct (mask s l) eqn:Em.
      - left. destruct H as (C & t & T & K). split; [reflexivity|]. split; [exact Em|].
        split; [split; [apply C|split; reflexivity]|]. exists t. split; [exact T|]. rewrite clean_while in K. exact K.
      - right. cbn [idle] in H. apply andb_prop in H. destruct H as [K1 K2]. split; [reflexivity|].
        split; [|exact K2]. rewrite evb_off by exact Em. change (lane (with_loop s none none) l) with (lane s l).
        destruct (valb0 (lane s l) c); [discriminate|reflexivity]. }
    rewrite E1. eexists; reflexivity.
  - (* Call *) intros p IHp inl s M H. cbn [masked] in M.
    destruct (IHp false (with_ret (with_loop s none none) none) M) as (s1 & E1).
    { intros l Hl. specialize (H l Hl). unfold pre in *. cbn [mask with_ret with_loop]. destruct (mask s l).
      - destruct H as (C & t & T & K). split; [repeat split|]. exists t. split; [exact T|exact K].
      - exact H. }
    cbn [Spmd.exec]. rewrite E1. eexists; reflexivity.
  - (* Else *) intros p IHp inl c m s M H. cbn [maskedc] in M. rewrite chain_else.
    destruct (IHp inl (with_mask (clear_off s) (clear_lanes m c)) M) as (s1 & E1).
    { intros l Hl. specialize (H l Hl). unfold prec in H. unfold pre. cbn [mask with_mask]. unfold clear_lanes.
      destruct (m l && negb (c l)).
      - destruct H as (H1 & C & t & T & K). split; [exact C|]. exists t. split; [exact T|exact K].
      - exact H. }
    rewrite E1. eexists; reflexivity.
  - (* ElseIf *) intros c p IHp r IHr inl c0 m s M H. cbn [maskedc] in M. apply andb_prop in M. destruct M as [Mp Mr].
    rewrite chain_elseif. set (s0 := with_mask (clear_off s) _).
    assert (Ms0 : forall l, mask s0 l = evb i (clear_off s) c l && (m l && negb (c0 l))) by reflexivity.
    destruct (IHp inl s0 Mp) as (s1 & E1).
    { intros l Hl. specialize (H l Hl). unfold prec in H. unfold pre. rewrite Ms0.
      destruct (m l && negb (c0 l)); [rewrite andb_true_r|rewrite andb_false_r].
      - destruct H as (H1 & C & t & T & K). cbn [cleanc] in K.
        assert (Hm : mask (clear_off s) l = true) by (rewrite clear_mask_id by exact C; exact H1).
        rewrite evb_lane by exact Hm. change (lane (clear_off s) l) with (lane s l). rewrite (valb_teq c _ _ T).
        destruct (valb t c); apply andb_prop in K.
        + split; [exact C|]. exists t. split; [exact T|]. apply K.
        + change (lane s0 l) with (lane s l). rewrite (proj1 idle_teq p _ _ T). apply K.
      - cbn [idlec] in H. apply andb_prop in H. apply H. }
    rewrite E1. cbn [bind]. apply (IHr inl); [exact Mr|].
    intros l Hl. specialize (H l Hl). unfold prec in *.
    destruct (proj1 (sim simd len i) p inl fuel s0 s1 Mp E1 l Hl) as [G1 G2]. rewrite Ms0 in G1, G2.
    change (lane (with_mask s1 (mask (clear_off s))) l) with (lane s1 l). unfold clear_lanes.
    destruct (m l && negb (c0 l)); [rewrite andb_true_r in G1, G2|rewrite andb_false_r in G1, G2].
    + destruct H as (H1 & C & t & T & K). cbn [cleanc] in K.
      assert (Hm : mask (clear_off s) l = true) by (rewrite clear_mask_id by exact C; exact H1).
      assert (Ec : evb i (clear_off s) c l = valb t c). { rewrite evb_lane by exact Hm. apply valb_teq. exact T. }
      rewrite Ec in *. destruct (valb t c); cbn [andb negb].
      * destruct (G2 eq_refl C t T) as (o & t1 & R & T1 & _). rewrite R in K. apply andb_prop in K.
        rewrite (proj2 idle_teq r _ _ T1). apply K.
      * destruct (G1 eq_refl) as ((Q0 & Q1 & Q2 & Q3) & _). apply andb_prop in K. split; [exact Hm|].
        split. { destruct C as (C1 & C2 & C3). unfold clear. cbn [ret brk cnt with_mask]. rewrite Q1, Q2, Q3. auto. }
        exists t. split; [eapply teq_trans; [exact Q0|exact T]|]. apply K.
    + cbn [andb]. destruct (G1 eq_refl) as ((Q0 & _) & _). cbn [idlec] in H. apply andb_prop in H.
      rewrite (proj2 idle_teq r _ _ Q0). apply H.
Qed.

(** The converse for one loop: a lane that is out of the loop with its condition true
    keeps the loop running for ever. *)
Lemma stuck_loop fuel c p mid (Mp : masked true p = true) l (Hl : (l < len)%nat) : forall k s,
  mid l && negb (brk s l) && negb (ret s l) = false -> evb i s c l = true ->
  sloop simd len i fuel c p mid k s = None.
Proof.
  induction k as [|k IHk]; intros s H1 H2; [reflexivity|]. cbn [sloop].
  assert (Ea : any len (evb i s c) = true). { apply existsb_exists. exists l. split; [apply in_seq; clear - Hl; lia|exact H2]. }
  rewrite Ea. destruct (exec fuel p _) as [s1|] eqn:E; [|reflexivity]. cbn [bind].
  destruct (proj1 (sim simd len i) p true fuel _ s1 Mp E l Hl) as [G1 _].
  assert (G : quiet i s s1 l).
  { apply (G1 : _ -> quiet i s s1 l /\ _). cbn [mask with_mask]. unfold clear_lanes.
    rewrite <- !andb_assoc. rewrite <- andb_assoc in H1. rewrite H1. apply andb_false_r. }
  destruct G as (Q0 & Q1 & Q2 & Q3). apply IHk.
  - cbn [brk ret with_mask]. rewrite Q1, Q2. exact H1.
  - rewrite <- H2. apply evb_stable; [reflexivity|exact Q0].
Qed.

Lemma stuck_exit fuel c p mid (Mp : masked true p = true) l (Hl : (l < len)%nat) : forall k' k s t,
  mid l = true -> mask s l = true -> clear s l -> teq (lane s l) t -> leaves_true fuel c p k' t = true ->
  sloop simd len i fuel c p mid k s = None.
Proof.
  induction k' as [|k' IHk]; intros k s t H1 H2 C T H; cbn [leaves_true] in H; [discriminate|].
  apply andb_prop in H. destruct H as [Hc H].
  destruct k as [|k]; [reflexivity|]. cbn [sloop].
  assert (Ec : evb i s c l = true). { rewrite evb_lane by exact H2. rewrite (valb_teq c _ _ T). exact Hc. }
  assert (Ea : any len (evb i s c) = true). { apply existsb_exists. exists l. split; [apply in_seq; clear - Hl; lia|exact Ec]. }
  rewrite Ea. destruct (exec fuel p _) as [s1|] eqn:E; [|reflexivity]. cbn [bind].
  destruct (proj1 (sim simd len i) p true fuel _ s1 Mp E l Hl) as [_ G].
  destruct C as (C1 & C2 & C3).
  destruct (G ltac:(cbn [mask with_mask]; unfold clear_lanes; rewrite Ec, H1, C1, C2; reflexivity) ltac:(repeat split; assumption) t T)
    as (o & t1 & R & T1 & P0 & P).
  rewrite R in H. destruct o.
  - destruct P as (P1 & P2 & P3). eapply (IHk k _ t1); auto. split; auto.
  - destruct P as (_ & P1 & P2 & P3). eapply (stuck_loop fuel c p mid Mp l Hl).
    + cbn [brk ret with_mask]. rewrite P3. cbn. rewrite andb_false_r. reflexivity.
    + rewrite evb_lane by exact H2. change (lane (with_mask s1 (mask s)) l) with (lane s1 l). rewrite (valb_teq c _ _ T1). exact H.
  - destruct P.
  - destruct P as (P1 & P2 & P3). eapply (stuck_loop fuel c p mid Mp l Hl).
    + cbn [brk ret with_mask]. rewrite P2. apply andb_false_r.
    + rewrite evb_lane by exact H2. change (lane (with_mask s1 (mask s)) l) with (lane s1 l). rewrite (valb_teq c _ _ T1). exact H.
Qed.
End Term.

(** Loop-free programs. *)
Lemma loop_free_idle : (forall p t, loop_free p = true -> idle p t = true) /\ (forall r t, loop_freec r = true -> idlec r t = true).
Proof.
  apply prog_chain_ind; intros; cbn [idle idlec loop_free loop_freec] in *; try reflexivity; try discriminate;
    repeat match goal with H : _ && _ = true |- _ => apply andb_prop in H; destruct H end;
    rewrite ?H, ?H0 by assumption; auto.
Qed.
Lemma loop_free_clean : (forall p fuel t, loop_free p = true -> clean fuel p t = true /\ run fuel p t <> None) /\
  (forall r fuel t, loop_freec r = true -> cleanc fuel r t = true /\ run_chain fuel r t <> None).
Proof.
  apply prog_chain_ind; try (intros; split; [reflexivity|discriminate]); try (intros; discriminate).
  - intros p IHp q IHq fuel t H. cbn [loop_free] in H. apply andb_prop in H. destruct H as [Hp Hq].
    destruct (IHp fuel t Hp) as (A & B). cbn [clean run]. destruct (run fuel p t) as [[o t1]|]; [|contradiction]. cbn [bind].
    destruct (IHq fuel t1 Hq) as (C & D). rewrite A, (proj1 loop_free_idle q t1 Hq), C.
    destruct o; split; try reflexivity; try discriminate; exact D.
  - intros c p IHp r IHr fuel t H. cbn [loop_free] in H. apply andb_prop in H. destruct H as [Hp Hr].
    destruct (IHp fuel t Hp) as (A & B). destruct (IHr fuel t Hr) as (C & D).
    change (clean fuel (If c p r) t) with (if valb t c
      then clean fuel p t && match run fuel p t with Some (_, t) => idlec r t | None => false end
      else idle p t && cleanc fuel r t).
    change (run fuel (If c p r) t) with (if valb t c then run fuel p t else run_chain fuel r t).
    destruct (valb t c).
    + rewrite A. destruct (run fuel p t) as [[o t1]|]; [|contradiction]. rewrite (proj2 loop_free_idle r t1 Hr). split; [reflexivity|discriminate].
    + rewrite (proj1 loop_free_idle p t Hp), C. split; [reflexivity|exact D].
  - intros p IHp fuel t H. cbn [loop_free] in H. destruct (IHp fuel t H) as (A & B). cbn [clean run]. split; [exact A|].
    destruct (run fuel p t) as [[o t1]|]; [discriminate|contradiction].
  - intros p IHp fuel t H. apply (IHp fuel t H).
  - intros c p IHp r IHr fuel t H. cbn [loop_freec] in H. apply andb_prop in H. destruct H as [Hp Hr].
    destruct (IHp fuel t Hp) as (A & B). destruct (IHr fuel t Hr) as (C & D).
    change (cleanc fuel (ElseIf c p r) t) with (if valb t c
      then clean fuel p t && match run fuel p t with Some (_, t) => idlec r t | None => false end
      else idle p t && cleanc fuel r t).
    change (run_chain fuel (ElseIf c p r) t) with (if valb t c then run fuel p t else run_chain fuel r t).
    destruct (valb t c).
    + rewrite A. destruct (run fuel p t) as [[o t1]|]; [|contradiction]. rewrite (proj2 loop_free_idle r t1 Hr). split; [reflexivity|discriminate].
    + rewrite (proj1 loop_free_idle p t Hp), C. split; [reflexivity|exact D].
Qed.

Lemma no_exit_normal : (forall p fuel t o t', no_exit p = true -> run fuel p t = Some (o, t') -> o = Normal) /\
  (forall r fuel t o t', no_exitc r = true -> run_chain fuel r t = Some (o, t') -> o = Normal).
Proof.
  apply prog_chain_ind; try (intros; congruence); try (intros; discriminate); try (intros; cbn [run run_chain] in *; congruence).
  - intros p IHp q IHq fuel t o t' H R. cbn [no_exit] in H. apply andb_prop in H. destruct H as [Hp Hq]. cbn [run] in R.
    destruct (run fuel p t) as [[o1 t1]|] eqn:E; [|discriminate]. cbn [bind] in R. rewrite (IHp _ _ _ _ Hp E) in R. eauto.
  - intros c p IHp r IHr fuel t o t' H R. cbn [no_exit] in H. apply andb_prop in H. destruct H as [Hp Hr].
    change (run fuel (If c p r) t) with (if valb t c then run fuel p t else run_chain fuel r t) in R. destruct (valb t c); eauto.
  - intros c p IHp fuel t o t' H R. cbn [no_exit] in H. rewrite run_while in R. revert t R. generalize fuel at 2 as k.
    induction k as [|k IHk]; intros t R; cbn [tloop] in R; [discriminate|].
    destruct (valb t c); [|congruence]. destruct (run fuel p t) as [[o1 t1]|] eqn:E; [|discriminate]. cbn [bind] in R.
    rewrite (IHp _ _ _ _ H E) in R. eauto.
  - intros p IHp fuel t o t' H R. cbn [run] in R. destruct (run fuel p t) as [[o1 t1]|]; [|discriminate]. cbn [bind] in R. congruence.
  - intros p IHp fuel t o t' H R. eapply IHp; [exact H|exact R].
  - intros c p IHp r IHr fuel t o t' H R. cbn [no_exitc] in H. apply andb_prop in H. destruct H as [Hp Hr].
    change (run_chain fuel (ElseIf c p r) t) with (if valb t c then run fuel p t else run_chain fuel r t) in R. destruct (valb t c); eauto.
Qed.

Lemma flat_clean p : forall fuel t, flat p = true -> run fuel p t <> None ->
  clean fuel p t = true /\ forall o t', run fuel p t = Some (o, t') -> o = Normal.
Proof.
  induction p; intros fuel t F R; cbn [flat] in F; try discriminate; try (split; [reflexivity|intros o t'; cbn [run]; congruence]).
  - apply andb_prop in F. destruct F as [F1 F2]. cbn [clean run] in *.
    destruct (run fuel p1 t) as [[o1 t1]|] eqn:E; [|contradiction]. cbn [bind] in R |- *.
    destruct (IHp1 fuel t F1 ltac:(congruence)) as (A & B). pose proof (B _ _ E). subst o1.
    destruct (IHp2 fuel t1 F2 R) as (C & D). rewrite A, C. split; [reflexivity|exact D].
  - apply andb_prop in F. destruct F as [F F4]. apply andb_prop in F. destruct F as [F F3]. apply andb_prop in F. destruct F as [F1 F2].
    split.
    + apply (proj1 loop_free_clean (If c p r) fuel t). cbn [loop_free]. rewrite F1, F2. reflexivity.
    + intros o t'. apply (proj1 no_exit_normal (If c p r) fuel t o t'). cbn [no_exit]. rewrite F3, F4. reflexivity.
  - apply andb_prop in F. destruct F as [F1 F2]. split.
    + rewrite clean_while. rewrite run_while in R. revert t R. generalize fuel at 2 4 as k.
      induction k as [|k IHk]; intros t R; cbn [tloop cloop] in *; [contradiction|].
      destruct (valb t c).
      * destruct (proj1 loop_free_clean p fuel t F1) as (A & B). rewrite A. cbn [andb].
        destruct (run fuel p t) as [[o1 t1]|] eqn:E; [|contradiction]. cbn [bind] in R.
        pose proof (proj1 no_exit_normal p fuel t o1 t1 F2 E). subst o1. apply IHk. exact R.
      * apply loop_free_idle. exact F1.
    + intros o t'. apply (proj1 no_exit_normal (While c p) fuel t o t'). exact F2.
  - split.
    + apply (proj1 loop_free_clean (Call p) fuel t). exact F.
    + intros o t' E. cbn [run] in E. destruct (run fuel p t) as [[o1 t1]|]; [|discriminate]. cbn [bind] in E. congruence.
Qed.
