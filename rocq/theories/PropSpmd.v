(** C44-C48: SPMD kernels on CPU. *)
From Coq Require Import ZArith Lia Bool List.
From Coq Require Import ZifyBool.
From Verif Require Import Spmd SpmdSpec SpmdProofs SpmdTerm.
Import ListNotations.
Open Scope Z_scope.

(** * C44: launches. *)

Definition upto (n : Z) : list Z := map Z.of_nat (seq 0 (Z.to_nat n)).

Lemma upto_add a b : 0 <= a -> 0 <= b -> upto (a + b) = upto a ++ map (fun l => a + Z.of_nat l) (seq 0 (Z.to_nat b)).
Proof.
  intros Ha Hb. unfold upto. rewrite Z2Nat.inj_add by lia. rewrite seq_app, map_app. f_equal.
  rewrite Nat.add_0_l. generalize (Z.to_nat b). intros n. 
  assert (G : forall n s, map Z.of_nat (seq (Z.to_nat a + s) n) = map (fun l => a + Z.of_nat l) (seq s n)).
  { clear n. induction n; intros s; [reflexivity|]. cbn [seq map]. f_equal; [lia|]. rewrite <- IHn. f_equal. f_equal. lia. }
  specialize (G n 0%nat). rewrite Nat.add_0_r in G. exact G.
Qed.

(** The calls made by a launch, each recording the indices it covers. *)
Theorem C44_every_index_once : forall len n, (1 <= len)%nat -> 0 <= n ->
  launch (fun i log => Some (log ++ map (fun l => i + Z.of_nat l) (seq 0 len)))
         (fun i log => Some (log ++ [i])) (Z.of_nat len) n [] = Some (upto n).
Proof.
  intros len n Hl Hn. unfold launch.
  set (f := fun (i : Z) (log : list Z) => Some (log ++ map (fun l => i + Z.of_nat l) (seq 0 len))).
  assert (G : forall k i, 0 <= i <= n -> n - i < Z.of_nat k ->
    exists j, simd_loop f (Z.of_nat len) n k i (upto i) = Some (j, upto j) /\ i <= j <= n).
  { induction k as [|k IH]; intros i Hi Hk; [lia|]. cbn [simd_loop]. destruct (i + Z.of_nat len <=? n) eqn:E.
    - unfold f at 1. cbn [bind]. pose proof (upto_add i (Z.of_nat len) ltac:(lia) ltac:(lia)) as U. rewrite Nat2Z.id in U. rewrite <- U.
      destruct (IH (i + Z.of_nat len)) as (j & J1 & J2); [lia|lia|]. exists j. split; [exact J1|lia].
    - exists i. split; [reflexivity|lia]. }
  destruct (G (S (Z.to_nat n)) 0) as (j & J1 & J2); [lia|lia|]. change (upto 0) with (@nil Z) in J1. rewrite J1. cbn [bind].
  set (g := fun (i : Z) (log : list Z) => Some (log ++ [i])).
  assert (K : forall k i, 0 <= i <= n -> n - i < Z.of_nat k -> scalar_loop g n k i (upto i) = Some (upto n)).
  { induction k as [|k IH]; intros i Hi Hk; [lia|]. cbn [scalar_loop]. destruct (i <? n) eqn:E.
    - unfold g at 1. cbn [bind]. replace (upto i ++ [i]) with (upto (i + 1)). { apply IH; lia. }
      rewrite upto_add by lia. change (Z.to_nat 1) with 1%nat. cbn [seq map]. replace (i + Z.of_nat 0) with i by lia. reflexivity.
    - replace i with n by lia. reflexivity. }
  apply K; lia.
Qed.
Print Assumptions C44_every_index_once.

(** The result of a launch, index by index. *)
Definition result_of (fuel : nat) (p : prog) (v0 : nat -> Z -> Z) (b0 : nat -> Z -> bool) (m m' : mem) (i : Z) : Prop :=
  exists o t, run fuel p (thread_of v0 b0 m i) = Some (o, t) /\ forall a, m' a i = ta t a.

Lemma kernel_result simd len i fuel p v0 b0 m mc mc' : masked false p = true ->
  (forall a j, i <= j < i + Z.of_nat len -> mc a j = m a j) ->
  kernel simd len i fuel p v0 b0 mc = Some mc' ->
  (forall j, i <= j < i + Z.of_nat len -> result_of fuel p v0 b0 m mc' j) /\
  (forall a j, (j < i \/ i + Z.of_nat len <= j) -> mc' a j = mc a j).
Proof.
  intros M Hmc H. unfold kernel in H. set (s0 := mk _ _ _ _ _ _ _) in H.
  destruct (exec simd len i fuel p s0) as [s1|] eqn:E; [|discriminate]. cbn [bind] in H. injection H as <-. split.
  - intros j Hj. set (l := Z.to_nat (j - i)). assert (Hl : (l < len)%nat) by lia. assert (Ej : j = i + Z.of_nat l) by lia.
    destruct (proj1 (sim simd len i) p false fuel s0 s1 M E l Hl) as [_ G].
    destruct (G eq_refl ltac:(repeat split) (thread_of v0 b0 m j)) as (o & t & R & T & _).
    { rewrite Ej. split; [reflexivity|split; [reflexivity|]]. intros a. cbn. apply Hmc. lia. }
    exists o, t. split; [exact R|]. intros a. rewrite Ej. apply T.
  - intros a j Hj. exact (proj1 (frame simd len i) p fuel s0 s1 E a j Hj).
Qed.

Lemma kernel_terminates simd len i fuel p v0 b0 m mc : (1 <= fuel)%nat -> masked false p = true ->
  (forall a j, i <= j < i + Z.of_nat len -> mc a j = m a j) ->
  (forall j, i <= j < i + Z.of_nat len -> clean fuel p (thread_of v0 b0 m j) = true) ->
  exists mc', kernel simd len i fuel p v0 b0 mc = Some mc'.
Proof.
  intros Hf M Hmc Hc. unfold kernel. set (s0 := mk _ _ _ _ _ _ _).
  destruct (proj1 (terminates simd len i fuel Hf) p false s0 M) as (s1 & E).
  { intros l Hl. unfold pre. cbn [mask s0]. split; [repeat split|].
    exists (thread_of v0 b0 m (i + Z.of_nat l)). split; [|apply Hc; lia].
    split; [reflexivity|split; [reflexivity|]]. intros a. cbn. apply Hmc. lia. }
  rewrite E. eexists; reflexivity.
Qed.

Section LaunchProof.
Variables (len : nat) (n : Z) (fuel : nat) (p : prog) (v0 : nat -> Z -> Z) (b0 : nat -> Z -> bool) (m : mem).
Hypotheses (Hlen : (1 <= len)%nat) (Hn : 0 <= n) (M : masked false p = true).
Local Notation f := (fun i m => kernel true len i fuel p v0 b0 m).
Local Notation g := (fun i m => kernel false 1 i fuel p v0 b0 m).
Let inv (k : Z) (mc : mem) : Prop :=
  (forall j, 0 <= j < k -> result_of fuel p v0 b0 m mc j) /\ (forall a j, (j < 0 \/ k <= j) -> mc a j = m a j).

Lemma inv_step simd w i mc mc' : 0 <= i -> inv i mc -> kernel simd w i fuel p v0 b0 mc = Some mc' -> inv (i + Z.of_nat w) mc'.
Proof.
  intros Hi (I1 & I2) H.
  destruct (kernel_result simd w i fuel p v0 b0 m mc mc' M) as (R1 & R2); [|exact H|].
  { intros a j Hj. apply I2. lia. }
  split.
  - intros j Hj. destruct (Z_lt_ge_dec j i) as [L|L].
    + destruct (I1 j ltac:(lia)) as (o & t & A & B). exists o, t. split; [exact A|]. intros a. rewrite R2 by lia. apply B.
    + apply R1. lia.
  - intros a j Hj. rewrite R2 by lia. apply I2. lia.
Qed.

Lemma simd_loop_inv : forall k i mc j mc', 0 <= i <= n -> inv i mc ->
  simd_loop f (Z.of_nat len) n k i mc = Some (j, mc') -> i <= j <= n /\ inv j mc'.
Proof.
  induction k as [|k IH]; intros i mc j mc' Hi I H; cbn [simd_loop] in H; [discriminate|].
  destruct (i + Z.of_nat len <=? n) eqn:E.
  - destruct (kernel true len i fuel p v0 b0 mc) as [m1|] eqn:K; [|discriminate]. cbn [bind] in H.
    apply IH in H; [|lia|]. { destruct H. split; [lia|assumption]. } eapply inv_step; eauto; lia.
  - injection H as <- <-. split; [lia|exact I].
Qed.
Lemma scalar_loop_inv : forall k i mc mc', 0 <= i <= n -> inv i mc ->
  scalar_loop g n k i mc = Some mc' -> inv n mc'.
Proof.
  induction k as [|k IH]; intros i mc mc' Hi I H; cbn [scalar_loop] in H; [discriminate|].
  destruct (i <? n) eqn:E.
  - destruct (kernel false 1 i fuel p v0 b0 mc) as [m1|] eqn:K; [|discriminate]. cbn [bind] in H.
    apply IH in H; [exact H|lia|]. apply (inv_step false 1 i mc m1); auto; lia.
  - injection H as <-. replace n with i by lia. exact I.
Qed.
Lemma inv_0 : inv 0 m.
Proof. split; [intros; lia|reflexivity]. Qed.

Lemma launch_inv m' : launch_kernel len n fuel p v0 b0 m = Some m' -> inv n m'.
Proof.
  unfold launch_kernel, launch. intros H.
  destruct (simd_loop f (Z.of_nat len) n (S (Z.to_nat n)) 0 m) as [[j m1]|] eqn:E; [|discriminate]. cbn [bind] in H.
  apply simd_loop_inv in E; [|lia|exact inv_0]. destruct E as (E1 & E2).
  apply scalar_loop_inv in H; [exact H|lia|exact E2].
Qed.

Lemma launch_term : (1 <= fuel)%nat -> (forall j, 0 <= j < n -> clean fuel p (thread_of v0 b0 m j) = true) ->
  exists m', launch_kernel len n fuel p v0 b0 m = Some m'.
Proof.
  intros Hf Hc. unfold launch_kernel, launch.
  assert (S1 : forall k i mc, 0 <= i <= n -> n - i < Z.of_nat k -> inv i mc -> exists j mc', simd_loop f (Z.of_nat len) n k i mc = Some (j, mc')).
  { induction k as [|k IH]; intros i mc Hi Hk I; [lia|]. cbn [simd_loop]. destruct (i + Z.of_nat len <=? n) eqn:E; [|eauto].
    destruct (kernel_terminates true len i fuel p v0 b0 m mc Hf M) as (m1 & K).
    - intros a j Hj. apply I. lia.
    - intros j Hj. apply Hc. lia.
    - rewrite K. cbn [bind]. apply IH; [lia|lia|]. eapply inv_step; eauto; lia. }
  assert (S2 : forall k i mc, 0 <= i <= n -> n - i < Z.of_nat k -> inv i mc -> exists mc', scalar_loop g n k i mc = Some mc').
  { induction k as [|k IH]; intros i mc Hi Hk I; [lia|]. cbn [scalar_loop]. destruct (i <? n) eqn:E; [|eauto].
    destruct (kernel_terminates false 1 i fuel p v0 b0 m mc Hf M) as (m1 & K).
    - intros a j Hj. apply I. lia.
    - intros j Hj. apply Hc. lia.
    - rewrite K. cbn [bind]. apply IH; [lia|lia|]. apply (inv_step false 1 i mc m1); auto; lia. }
  destruct (S1 (S (Z.to_nat n)) 0 m) as (j & m1 & E); [lia|lia|exact inv_0|]. rewrite E. cbn [bind].
  apply simd_loop_inv in E; [|lia|exact inv_0]. destruct E as (E1 & E2). apply S2; [lia|lia|exact E2].
Qed.
End LaunchProof.

(** A finished launch gives every index 0..n-1 the result of that index run alone, and
    changes no other element - whatever the vector length and unroll factor. *)
Theorem C44_result : forall len n fuel p v0 b0 m m', (1 <= len)%nat -> 0 <= n -> masked false p = true ->
  launch_kernel len n fuel p v0 b0 m = Some m' ->
  (forall i, 0 <= i < n -> result_of fuel p v0 b0 m m' i) /\ (forall a i, (i < 0 \/ n <= i) -> m' a i = m a i).
Proof. intros len n fuel p v0 b0 m m' H1 H2 H3 H4. exact (launch_inv len n fuel p v0 b0 m H1 H2 H3 m' H4). Qed.
Print Assumptions C44_result.

(** * C45, C46: masks and per-lane control flow. *)

(** Kernels without loops: the SIMD run finishes; each active lane ends in the state
    of the thread run alone, and inactive lanes are untouched.  [fuel] is irrelevant. *)
Theorem C45_lanes : forall simd len i p s, masked false p = true -> loop_free p = true ->
  (forall l, (l < len)%nat -> mask s l = true -> clear s l) ->
  exists s', exec simd len i 1 p s = Some s' /\
    forall l, (l < len)%nat ->
      (mask s l = false -> teq (lane i s' l) (lane i s l)) /\
      (mask s l = true -> exists o t, run 1 p (lane i s l) = Some (o, t) /\ teq (lane i s' l) t /\
                          (mask s' l = true <-> o = Normal)).
Proof.
  intros simd len i p s M F C.
  destruct (proj1 (terminates simd len i 1%nat (le_n 1)) p false s M) as (s' & E).
  { intros l Hl. unfold pre. destruct (mask s l) eqn:Em.
    - split; [apply C; auto|]. exists (lane i s l). split; [apply teq_refl|]. apply loop_free_clean. exact F.
    - apply loop_free_idle. exact F. }
  exists s'. split; [exact E|]. intros l Hl. destruct (proj1 (sim simd len i) p false 1%nat s s' M E l Hl) as [G1 G2]. split.
  - intros Hm. apply (G1 Hm).
  - intros Hm. destruct (G2 Hm (C l Hl Hm) _ (teq_refl _)) as (o & t & R & T & _ & P). exists o, t. split; [exact R|]. split; [exact T|].
    destruct o.
    + split; [reflexivity|]. intros _. apply P.
    + destruct P as (P & _). discriminate.
    + destruct P.
    + destruct P as (P & _). split; [congruence|discriminate].
Qed.
Print Assumptions C45_lanes.

(** The same for a whole launch. *)
Theorem C45_launch : forall len n p v0 b0 m, (1 <= len)%nat -> 0 <= n -> masked false p = true -> loop_free p = true ->
  exists m', launch_kernel len n 1 p v0 b0 m = Some m' /\
    (forall i, 0 <= i < n -> result_of 1 p v0 b0 m m' i) /\ (forall a i, (i < 0 \/ n <= i) -> m' a i = m a i).
Proof.
  intros len n p v0 b0 m H1 H2 M F.
  destruct (launch_term len n 1 p v0 b0 m H1 H2 M (le_n 1)) as (m' & E).
  - intros j Hj. apply loop_free_clean. exact F.
  - exists m'. split; [exact E|]. apply (C44_result len n 1 p v0 b0 m m' H1 H2 M E).
Qed.
Print Assumptions C45_launch.

(** The documented example (hatch.py:248-271): nested conditions on 7 elements. *)
Definition gtc (v : Z) : bexpr := BCmp Z.gtb (EVar 0) (EConst v).
Definition ex_if : prog :=
  Seq (Set_ 0 (ELoad 0))
  (Seq (If (gtc 15) (Set_ 1 (EConst 15)) (ElseIf (gtc 10) (Set_ 1 (EConst 10)) (ElseIf (gtc 5) (Set_ 1 (EConst 5)) (Else (Set_ 1 (EConst 0))))))
       (Store 1 (EVar 1))).
Definition ex_mem : mem := fun a i => if Nat.eqb a 0 then i * 3 else -1.
Example C45_example :
  masked false ex_if = true /\ loop_free ex_if = true /\
  option_map (fun m' => map (m' 1%nat) [0;1;2;3;4;5;6;7]) (launch_kernel 4 7 1 ex_if (fun _ _ => 99) (fun _ _ => true) ex_mem) =
    Some [0;0;5;5;10;10;15;-1].
Proof. split; [reflexivity|]. split; [reflexivity|]. vm_compute. reflexivity. Qed.

(** C46. After [p], the rest [q] of the kernel leaves the lanes that returned in [p] as they
    were, and runs the other lanes as usual: the lane's whole run is that of the thread. *)
Theorem C46_return : forall simd len i fuel p q s s1 s2, masked false p = true -> masked false q = true ->
  exec simd len i fuel p s = Some s1 -> exec simd len i fuel q s1 = Some s2 ->
  forall l, (l < len)%nat -> mask s l = true -> clear s l ->
  exists o t, run fuel p (lane i s l) = Some (o, t) /\
    match o with
    | Returned => teq (lane i s1 l) t /\ teq (lane i s2 l) t /\ mask s2 l = false
    | Normal => exists o' t', run fuel q t = Some (o', t') /\ teq (lane i s2 l) t'
    | _ => False
    end.
Proof.
  intros simd len i fuel p q s s1 s2 Mp Mq E1 E2 l Hl Hm Hc.
  destruct (proj1 (sim simd len i) p false fuel s s1 Mp E1 l Hl) as [_ G].
  destruct (proj1 (sim simd len i) q false fuel s1 s2 Mq E2 l Hl) as [K1 K2].
  destruct (G Hm Hc _ (teq_refl _)) as (o & t & R & T & P0 & P). exists o, t. split; [exact R|]. destruct o.
  - destruct P as (P1 & P2 & P3). destruct (K2 P1 ltac:(split; auto) t T) as (o' & t' & R' & T' & _). eauto.
  - destruct P; discriminate.
  - exact P.
  - destruct P as (P1 & P2 & P3). destruct (K1 P1) as ((Q & _) & Q'). split; [exact T|]. split; [|exact Q'].
    eapply teq_trans; eauto.
Qed.
Print Assumptions C46_return.

(** k_return in a device function only ends the call: the lanes are active again afterwards. *)
Theorem C46_call : forall simd len i fuel p s s', masked false p = true -> exec simd len i fuel (Call p) s = Some s' ->
  (forall l, mask s' l = mask s l /\ ret s' l = ret s l) /\
  forall l, (l < len)%nat -> mask s l = true -> exists o t, run fuel p (lane i s l) = Some (o, t) /\ teq (lane i s' l) t.
Proof.
  intros simd len i fuel p s s' M H. split.
  - cbn [exec] in H. destruct (exec simd len i fuel p _); [|discriminate]. cbn [bind] in H. injection H as <-. split; reflexivity.
  - intros l Hl Hm. cbn [exec] in H. destruct (exec simd len i fuel p _) as [s1|] eqn:E; [|discriminate]. cbn [bind] in H. injection H as <-.
    destruct (proj1 (sim simd len i) p false fuel _ s1 M E l Hl) as [_ G].
    destruct (G Hm ltac:(repeat split) (lane i s l) (teq_refl _)) as (o & t & R & T & _). exists o, t. split; [exact R|exact T].
Qed.
Print Assumptions C46_call.

(** hatch.py:331-350: nested returns. *)
Definition ex_ret : prog :=
  Seq (Set_ 0 (ELoad 0))
  (Seq (If (BCmp Z.eqb (EVar 0) (EConst 3)) (Seq (Store 1 (EConst 33)) Return) EndIf)
  (Seq (If (gtc 8) (If (gtc 14) (Seq (Store 1 (EConst 44)) (Seq Return (Store 1 (EConst 55)))) EndIf) EndIf)
       (Store 1 (EUn Z.opp (EVar 0))))).
Example C46_example :
  masked false ex_ret = true /\
  option_map (fun m' => map (m' 1%nat) [0;1;2;3;4;5;6;7]) (launch_kernel 4 7 1 ex_ret (fun _ _ => 99) (fun _ _ => true) ex_mem) =
    Some [0;33;-6;-9;-12;44;44;-1].
Proof. split; [reflexivity|]. vm_compute. reflexivity. Qed.

(** * C47: loops. *)

(** If the SIMD run finishes, every lane has the result of the thread run alone
    (kernels with nested loops, k_break, k_return, no k_continue). *)
Theorem C47_partial_correctness : forall simd len i fuel p s s', masked false p = true ->
  exec simd len i fuel p s = Some s' ->
  forall l, (l < len)%nat ->
    (mask s l = false -> teq (lane i s' l) (lane i s l)) /\
    (mask s l = true -> clear s l -> exists o t, run fuel p (lane i s l) = Some (o, t) /\ teq (lane i s' l) t).
Proof.
  intros simd len i fuel p s s' M E l Hl. destruct (proj1 (sim simd len i) p false fuel s s' M E l Hl) as [G1 G2]. split.
  - intros H. apply (G1 H).
  - intros H C. destruct (G2 H C _ (teq_refl _)) as (o & t & R & T & _). eauto.
Qed.
Print Assumptions C47_partial_correctness.

(** It finishes when every thread alone finishes and leaves no loop condition true
    where it is switched off. *)
Theorem C47_terminates : forall len n fuel p v0 b0 m, (1 <= len)%nat -> 0 <= n -> (1 <= fuel)%nat -> masked false p = true ->
  (forall i, 0 <= i < n -> clean fuel p (thread_of v0 b0 m i) = true) ->
  exists m', launch_kernel len n fuel p v0 b0 m = Some m' /\
    (forall i, 0 <= i < n -> result_of fuel p v0 b0 m m' i) /\ (forall a i, (i < 0 \/ n <= i) -> m' a i = m a i).
Proof.
  intros len n fuel p v0 b0 m H1 H2 H3 M C.
  destruct (launch_term len n fuel p v0 b0 m H1 H2 M H3 C) as (m' & E).
  exists m'. split; [exact E|]. apply (C44_result len n fuel p v0 b0 m m' H1 H2 M E).
Qed.
Print Assumptions C47_terminates.

(** In particular kernels whose loops are at the top level, without k_break or k_return
    (as the documented binpow) finish as soon as each thread does. *)
Theorem C47_flat_loops : forall len n fuel p v0 b0 m, (1 <= len)%nat -> 0 <= n -> (1 <= fuel)%nat -> masked false p = true -> flat p = true ->
  (forall i, 0 <= i < n -> run fuel p (thread_of v0 b0 m i) <> None) ->
  exists m', launch_kernel len n fuel p v0 b0 m = Some m' /\
    (forall i, 0 <= i < n -> result_of fuel p v0 b0 m m' i) /\ (forall a i, (i < 0 \/ n <= i) -> m' a i = m a i).
Proof.
  intros len n fuel p v0 b0 m H1 H2 H3 M F R. apply C47_terminates; auto.
  intros i Hi. apply (flat_clean p fuel _ F (R i Hi)).
Qed.
Print Assumptions C47_flat_loops.

(** hatch.py:284-306: binpow. *)
Definition binpow : prog :=
  Seq (Set_ 0 (ELoad 0)) (Seq (Set_ 1 (EConst 1)) (Seq (Set_ 2 (ELoad 1))
  (Seq (While (BCmp Z.gtb (EVar 2) (EConst 0))
     (Seq (If (BTest Z.odd (EVar 2)) (Set_ 1 (EBin Z.mul (EVar 1) (EVar 0))) EndIf)
     (Seq (Set_ 0 (EBin Z.mul (EVar 0) (EVar 0))) (Set_ 2 (EUn Z.div2 (EVar 2))))))
  (Store 2 (EVar 1))))).
Definition pow_mem : mem := fun a i => if Nat.eqb a 0 then i else if Nat.eqb a 1 then i - 1 else -1.
Example C47_example :
  masked false binpow = true /\ flat binpow = true /\
  Forall (fun i => run 9 binpow (thread_of (fun _ _ => 0) (fun _ _ => true) pow_mem i) <> None) [0;1;2;3;4;5;6] /\
  option_map (fun m' => map (m' 2%nat) [1;2;3;4;5;6]) (launch_kernel 4 7 9 binpow (fun _ _ => 0) (fun _ _ => true) pow_mem) =
    Some [1;2;9;64;625;7776].
Proof.
  split; [reflexivity|]. split; [reflexivity|]. split. { repeat constructor; vm_compute; discriminate. }
  vm_compute. reflexivity.
Qed.

(** The other half of the characterisation of one loop.  A lane that is switched off when
    the loop starts, with the condition true, makes the loop endless; so does a lane that
    leaves by k_break or k_return with the condition true. *)
Theorem C47_diverges_inactive : forall simd len i fuel c p s l, masked true p = true -> (l < len)%nat ->
  mask s l = false -> valb0 (lane i s l) c = true -> exec simd len i fuel (While c p) s = None.
Proof.
  intros simd len i fuel c p s l M Hl Hm Hc. rewrite exec_while.
  rewrite (stuck_loop simd len i fuel c p (mask s) M l Hl); [reflexivity| |].
  - rewrite Hm. reflexivity.
  - rewrite evb_off by exact Hm. exact Hc.
Qed.
Print Assumptions C47_diverges_inactive.

Theorem C47_diverges_exit : forall simd len i fuel c p s l k, masked true p = true -> (l < len)%nat ->
  mask s l = true -> clear s l -> leaves_true fuel c p k (lane i s l) = true -> exec simd len i fuel (While c p) s = None.
Proof.
  intros simd len i fuel c p s l k M Hl Hm (C1 & C2 & C3) H. rewrite exec_while.
  rewrite (stuck_exit simd len i fuel c p (mask s) M l Hl k fuel _ (lane i s l)); try reflexivity; auto.
  - split; [exact C1|]. split; reflexivity.
  - apply teq_refl.
Qed.
Print Assumptions C47_diverges_exit.

(** So the documented claim ("the same semantic as their C++ counterparts") fails in three ways.
    1. A loop inside k_if: each thread alone finishes at once, the launch never does. *)
Definition k_loop_in_if : prog :=
  Seq (Set_ 0 (ELoad 0))
      (If (gtc 3) (While (BCmp Z.ltb (EVar 0) (EConst 10)) (Set_ 0 (EBin Z.add (EVar 0) (EConst 1)))) EndIf).
(** 2. k_break in a loop that counts to 10. *)
Definition k_break_loop : prog :=
  Seq (Set_ 0 (EConst 0))
      (While (BCmp Z.ltb (EVar 0) (EConst 10))
         (Seq (Set_ 0 (EBin Z.add (EVar 0) (EConst 1))) (If (BCmp Z.eqb (EVar 0) (EConst 5)) Break EndIf))).
(** 3. k_continue: the lane is switched off at the first k_endif of every later iteration. *)
Definition k_continue_loop : prog :=
  Seq (Set_ 0 (EConst 0)) (Seq (Set_ 1 (EConst 0))
  (Seq (While (BCmp Z.ltb (EVar 0) (EConst 4))
         (Seq (Set_ 0 (EBin Z.add (EVar 0) (EConst 1)))
         (Seq (If (BCmp Z.eqb (EVar 0) (EConst 1)) Continue EndIf)
              (Set_ 1 (EBin Z.add (EVar 1) (EConst 1))))))
       (Store 1 (EVar 1)))).
Lemma seq_step simd len i fuel p q s : exec simd len i fuel (Seq p q) s = bind (exec simd len i fuel p s) (exec simd len i fuel q).
Proof. reflexivity. Qed.
Lemma set_step simd len i fuel x e s : exec simd len i fuel (Set_ x e) s = Some (with_vars s (upd (vars s) x (kset (mask s) (vars s x) (ev i s e)))).
Proof. reflexivity. Qed.
Theorem C47_refuted :
  (* 1 *) (Forall (fun i => run 12 k_loop_in_if (thread_of (fun _ _ => 0) (fun _ _ => true) ex_mem i) <> None) [0;1;2;3] /\
           forall fuel, launch_kernel 4 4 fuel k_loop_in_if (fun _ _ => 0) (fun _ _ => true) ex_mem = None) /\
  (* 2, even on one element *)
          (run 12 k_break_loop (thread_of (fun _ _ => 0) (fun _ _ => true) ex_mem 0) <> None /\
           forall fuel, launch_kernel 4 1 fuel k_break_loop (fun _ _ => 0) (fun _ _ => true) ex_mem = None) /\
  (* 3, even on one element: 0 instead of 3 *)
          (option_map (fun '(_, t) => ta t 1%nat) (run 12 k_continue_loop (thread_of (fun _ _ => 0) (fun _ _ => true) ex_mem 0)) = Some 3 /\
           option_map (fun m' => m' 1%nat 0) (launch_kernel 4 1 12 k_continue_loop (fun _ _ => 0) (fun _ _ => true) ex_mem) = Some 0).
Proof.
  split; [|split].
  - split; [repeat constructor; vm_compute; discriminate|]. intros fuel.
    unfold launch_kernel, launch. change (Z.to_nat 4) with 4%nat. cbn [simd_loop]. change (0 + Z.of_nat 4 <=? 4) with true. cbv iota.
    unfold kernel, k_loop_in_if. rewrite seq_step. rewrite set_step. cbn [bind]. rewrite exec_if.
    rewrite (C47_diverges_inactive true 4 0 fuel _ _ _ 0%nat); [reflexivity|reflexivity|lia|reflexivity|reflexivity].
  - split; [vm_compute; discriminate|]. intros fuel.
    unfold launch_kernel, launch. change (Z.to_nat 1) with 1%nat. cbn [simd_loop]. change (0 + Z.of_nat 4 <=? 1) with false. cbv iota.
    cbn [bind scalar_loop]. change (0 <? 1) with true. cbv iota. unfold kernel, k_break_loop. rewrite seq_step. rewrite set_step. cbn [bind].
    rewrite (C47_diverges_exit false 1 0 fuel _ _ _ 0%nat 5%nat); [reflexivity|reflexivity|lia|reflexivity|repeat split|reflexivity].
  - split; vm_compute; reflexivity.
Qed.
Print Assumptions C47_refuted.

(** * C48: k_set on k_bool. *)

(** SIMD: the variable becomes mask && value in all lanes: inactive lanes become false. *)
Theorem C48_simd : forall len i fuel b e s, exists s', exec true len i fuel (SetB b e) s = Some s' /\
  (forall l, bvars s' b l = mask s l && evb i s e l) /\
  (forall b' l, b' <> b -> bvars s' b' l = bvars s b' l) /\ (forall x l, vars s' x l = vars s x l) /\ arr s' = arr s.
Proof.
  intros. eexists. split; [reflexivity|]. cbn [bvars vars arr with_bvars]. split; [|split].
  - intros l. unfold upd, ksetb. rewrite Nat.eqb_refl. reflexivity.
  - intros b' l Hb. unfold upd. destruct (Nat.eqb b' b) eqn:E; [apply Nat.eqb_eq in E; contradiction|reflexivity].
  - split; reflexivity.
Qed.
Print Assumptions C48_simd.

(** So it is an assignment to the active lanes exactly when the variable was false in
    the inactive lanes; in particular when all lanes are active. *)
Theorem C48_correct_iff : forall len i fuel b e s s', exec true len i fuel (SetB b e) s = Some s' ->
  ((forall l, bvars s' b l = if mask s l then evb i s e l else bvars s b l) <-> (forall l, mask s l = false -> bvars s b l = false)).
Proof.
  intros len i fuel b e s s' H. destruct (C48_simd len i fuel b e s) as (s1 & E & B & _). rewrite E in H. injection H as <-.
  split; intros G l.
  - intros Hm. specialize (G l). rewrite B, Hm in G. cbn in G. auto.
  - rewrite B. destruct (mask s l) eqn:Em; [reflexivity|]. rewrite (G l Em). reflexivity.
Qed.
Print Assumptions C48_correct_iff.

(** Scalar (the tail of a launch): always an assignment to the active lanes. *)
Theorem C48_scalar : forall len i fuel b e s, exists s', exec false len i fuel (SetB b e) s = Some s' /\
  forall l, bvars s' b l = if mask s l then evb i s e l else bvars s b l.
Proof.
  intros. eexists. split; [reflexivity|]. intros l. cbn [bvars with_bvars]. unfold upd, ksetb. rewrite Nat.eqb_refl. reflexivity.
Qed.
Print Assumptions C48_scalar.

(** Finding: an assignment in a branch destroys the value of the lanes that did not take it, so
    the same kernel gives different results in the SIMD part and in the tail of one launch. *)
Definition k_setb : prog :=
  Seq (Set_ 0 (ELoad 0)) (Seq (SetB 0 (BConst true))
  (Seq (If (gtc 3) (SetB 0 (BConst true)) EndIf)
       (If (BVar 0) (Store 1 (EConst 1)) (Else (Store 1 (EConst 0)))))).
Definition setb_mem : mem := fun a i => if Nat.eqb a 0 then i mod 4 else 7.
Theorem C48_refuted :
  option_map (fun '(_, t) => ta t 1%nat) (run 1 k_setb (thread_of (fun _ _ => 0) (fun _ _ => true) setb_mem 0)) = Some 1 /\
  option_map (fun m' => map (m' 1%nat) [0; 1; 2; 3; 4]) (launch_kernel 4 5 1 k_setb (fun _ _ => 0) (fun _ _ => true) setb_mem) = Some [0; 0; 0; 0; 1].
Proof. split; vm_compute; reflexivity. Qed.
Print Assumptions C48_refuted.
