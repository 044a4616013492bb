(** Proofs about Gpu.v. *)
From Coq Require Import ZArith Lia Bool List Permutation.
From Coq Require Import ZifyBool.
From Verif Require Import CInt ScalarOps CpuSimd Gpu.
Import ListNotations.
Open Scope Z_scope.

(** Greatest number of threads whose indices are faithful. *)
Definition index_limit (k : index_kind) (total : Z) : Prop :=
  match k with KInt => total <= 2 ^ 31 | KSize32 => total <= 2 ^ 32 | KSize => True end.

Lemma thread_index_id k total g : index_limit k total -> 0 <= g < total -> thread_index k g = g.
Proof.
  intros Hl Hg. destruct k; cbn [index_limit thread_index] in *.
  - rewrite to_s_to_u by lia. apply to_s_id; [lia|]. unfold in_s. change (2 ^ (32 - 1)) with (2 ^ 31). lia.
  - apply to_u_id. unfold in_u. lia.
  - reflexivity.
Qed.

Lemma flat_map_seq (t : nat) : forall b s, flat_map (fun b => map (fun x => (b * t + x)%nat) (seq 0 t)) (seq s b) = seq (s * t) (b * t).
Proof.
  induction b as [|b IH]; intros s; [reflexivity|].
  cbn [seq flat_map]. rewrite IH. replace (S b * t)%nat with (t + b * t)%nat by lia. rewrite seq_app.
  f_equal; [|f_equal; lia].
  clear. assert (G : forall n o, map (fun x => (s * t + x)%nat) (seq o n) = seq (s * t + o) n).
  { induction n as [|n IH]; intros o; [reflexivity|]. cbn [seq map]. rewrite IH. f_equal. f_equal. lia. }
  rewrite G. f_equal. lia.
Qed.

Lemma threads_seq blocks tpb : 0 <= blocks -> 0 <= tpb -> threads blocks tpb = map Z.of_nat (seq 0 (Z.to_nat (blocks * tpb))).
Proof.
  intros Hb Ht. unfold threads. replace (Z.to_nat (blocks * tpb)) with (Z.to_nat blocks * Z.to_nat tpb)%nat by lia.
  rewrite <- (Nat.mul_0_l (Z.to_nat tpb)). rewrite <- flat_map_seq.
  assert (G : forall b s, flat_map (fun b => map (fun t => Z.of_nat b * tpb + Z.of_nat t) (seq 0 (Z.to_nat tpb))) (seq s b) =
    map Z.of_nat (flat_map (fun b => map (fun x => (b * Z.to_nat tpb + x)%nat) (seq 0 (Z.to_nat tpb))) (seq s b))).
  { induction b as [|b IH]; intros s; [reflexivity|].
    cbn [seq flat_map]. rewrite map_app, <- IH. f_equal. rewrite map_map. apply map_ext. intros x. lia. }
  apply G.
Qed.

Lemma in_threads blocks tpb g : 0 <= blocks -> 0 <= tpb -> In g (threads blocks tpb) <-> 0 <= g < blocks * tpb.
Proof.
  intros. rewrite threads_seq by assumption. rewrite in_map_iff. split.
  - intros (x & <- & Hx). apply in_seq in Hx. lia.
  - intros Hg. exists (Z.to_nat g). split; [lia|]. apply in_seq. lia.
Qed.

Lemma guarded_all k n blocks tpb : 0 <= blocks -> 0 <= tpb -> 0 <= n <= blocks * tpb -> index_limit k (blocks * tpb) ->
  guarded_indices k n (threads blocks tpb) = map Z.of_nat (seq 0 (Z.to_nat n)).
Proof.
  intros Hb Ht Hn Hl. unfold guarded_indices.
  rewrite (map_ext_in (thread_index k) (fun x => x)).
  2:{ intros g Hg. apply in_threads in Hg; [|assumption..]. eapply thread_index_id; eauto. }
  rewrite map_id, threads_seq by assumption.
  replace (Z.to_nat (blocks * tpb)) with (Z.to_nat n + Z.to_nat (blocks * tpb - n))%nat by lia.
  rewrite seq_app, map_app, filter_app.
  rewrite <- (app_nil_r (map Z.of_nat (seq 0 (Z.to_nat n)))) at 2. f_equal.
  - assert (G : forall l, (forall x, In x l -> (x < n)) -> filter (fun i => i <? n) l = l).
    { induction l as [|x l IH]; intros Hx; [reflexivity|]. cbn [filter]. pose proof (Hx x (or_introl eq_refl)). replace (x <? n) with true by lia.
      f_equal. apply IH. intros y Hy. apply Hx. right; assumption. }
    apply G. intros x Hx. apply in_map_iff in Hx. destruct Hx as (y & <- & Hy). apply in_seq in Hy. lia.
  - assert (G : forall l, (forall x, In x l -> (n <= x)) -> filter (fun i => i <? n) l = []).
    { induction l as [|x l IH]; intros Hx; [reflexivity|]. cbn [filter]. pose proof (Hx x (or_introl eq_refl)). replace (x <? n) with false by lia.
      apply IH. intros y Hy. apply Hx. right; assumption. }
    apply G. intros x Hx. apply in_map_iff in Hx. destruct Hx as (y & <- & Hy). apply in_seq in Hy. lia.
Qed.

Lemma ceil_bounds n b : 0 <= n -> 1 <= b -> n <= (n + b - 1) / b * b < n + b.
Proof.
  intros Hn Hb. pose proof (Z.div_mod (n + b - 1) b ltac:(lia)). pose proof (Z.mod_pos_bound (n + b - 1) b ltac:(lia)). nia.
Qed.
Lemma quot_ceil n b : 0 <= n -> 1 <= b -> Z.quot (n + b - 1) b = (n + b - 1) / b.
Proof. intros. apply Z.quot_div_nonneg; lia. Qed.
Lemma gpu_params_bounds n tpb : 0 <= n -> 2 <= tpb -> n < gpu_params n tpb * tpb.
Proof.
  intros Hn Ht. unfold gpu_params. rewrite Z.quot_div_nonneg by lia.
  pose proof (Z.div_mod (n + tpb) (tpb - 1) ltac:(lia)). pose proof (Z.mod_pos_bound (n + tpb) (tpb - 1) ltac:(lia)). nia.
Qed.

(** *** Schedules *)
Section Sched.
Variables (k : index_kind) (n dst : Z) (guard : mem -> Z -> option bool) (get : mem -> Z -> option Z) (total : Z) (m0 : mem).
Hypothesis Hlim : index_limit k total.
Hypothesis Hmapped : forall i, 0 <= i < n -> m0 (dst + i) <> None.
(** [guard] and [get] at [i] see, of the output array, at most element [i]. *)
Hypothesis Hlocal : forall i m, 0 <= i < n -> (forall x, (x = dst + i \/ x < dst \/ dst + n <= x) -> m x = m0 x) ->
  guard m i = guard m0 i /\ get m i = get m0 i.
Hypothesis Hdef : forall i, 0 <= i < n -> exists c, guard m0 i = Some c /\ (c = true -> get m0 i <> None).

Definition final (i : Z) : option Z := match guard m0 i with Some true => get m0 i | _ => m0 (dst + i) end.

Definition inv (s : gstate) : Prop :=
  (forall x, (x < dst \/ dst + n <= x) -> gmem s x = m0 x) /\
  (forall i, 0 <= i < n -> gmem s (dst + i) <> None) /\
  (forall g, 0 <= g < total -> g < n -> match pcs s g with
     | Start => gmem s (dst + g) = m0 (dst + g)
     | Computed i v => i = g /\ guard m0 g = Some true /\ get m0 g = Some v /\ gmem s (dst + g) = m0 (dst + g)
     | Done => gmem s (dst + g) = final g
     end) /\
  (forall g, 0 <= g < total -> n <= g -> match pcs s g with Computed _ _ => False | _ => True end).

Lemma inv_start : inv (start m0).
Proof. unfold inv, start. cbn [gmem pcs]. split; [reflexivity|]. split; [assumption|]. split; intros; [reflexivity|exact I]. Qed.

Lemma set_pc_same f g p : set_pc f g p g = p.
Proof. unfold set_pc. rewrite Z.eqb_refl. reflexivity. Qed.
Lemma set_pc_other f g p x : x <> g -> set_pc f g p x = f x.
Proof. intros. unfold set_pc. replace (x =? g) with false by lia. reflexivity. Qed.

Lemma inv_step s g : inv s -> 0 <= g < total -> exists s', gstep k n dst guard get s g = Some s' /\ inv s'.
Proof.
  intros (I1 & I2 & I3 & I4) Hg. unfold gstep. destruct (pcs s g) as [|i v|] eqn:Ep.
  - rewrite (thread_index_id k total g Hlim Hg). destruct (g <? n) eqn:En.
    + assert (Hn : 0 <= g < n) by lia. pose proof (I3 g Hg ltac:(lia)) as Hs. rewrite Ep in Hs.
      destruct (Hlocal g (gmem s) Hn) as [Lg Le].
      { intros x [->|Hx]; [exact Hs|]. apply I1. lia. }
      destruct (Hdef g Hn) as (c & Hc & Hget). rewrite Lg, Hc. cbn [bind]. destruct c.
      * rewrite Le. destruct (get m0 g) as [v|] eqn:Ev; [|exfalso; apply Hget; reflexivity]. cbn [bind]. eexists. split; [reflexivity|].
        unfold inv. cbn [gmem pcs]. split; [exact I1|]. split; [exact I2|]. split.
        -- intros h Hh Hhn. destruct (Z.eq_dec h g) as [->|Hne]; [rewrite set_pc_same; auto|rewrite set_pc_other by assumption; apply I3; assumption].
        -- intros h Hh Hhn. rewrite set_pc_other by lia. apply I4; assumption.
      * eexists. split; [reflexivity|]. unfold inv. cbn [gmem pcs]. split; [exact I1|]. split; [exact I2|]. split.
        -- intros h Hh Hhn. destruct (Z.eq_dec h g) as [->|Hne].
           ++ rewrite set_pc_same. unfold final. rewrite Hc. exact Hs.
           ++ rewrite set_pc_other by assumption. apply I3; assumption.
        -- intros h Hh Hhn. rewrite set_pc_other by lia. apply I4; assumption.
    + eexists. split; [reflexivity|]. unfold inv. cbn [gmem pcs]. split; [exact I1|]. split; [exact I2|]. split.
      * intros h Hh Hhn. rewrite set_pc_other by lia. apply I3; assumption.
      * intros h Hh Hhn. destruct (Z.eq_dec h g) as [->|Hne]; [rewrite set_pc_same; exact I|rewrite set_pc_other by assumption; apply I4; assumption].
  - destruct (Z_lt_le_dec g n) as [Hn|Hn]; [|specialize (I4 g Hg Hn); rewrite Ep in I4; contradiction].
    pose proof (I3 g Hg Hn) as Hs. rewrite Ep in Hs. destruct Hs as (-> & Hgd & Hge & Hm).
    unfold write. destruct (gmem s (dst + g)) as [w|] eqn:Ew; [|exfalso; apply (I2 g); [lia|exact Ew]]. cbn [bind].
    eexists. split; [reflexivity|]. unfold inv. cbn [gmem pcs]. split; [|split; [|split]].
    + intros x Hx. replace (x =? dst + g) with false by lia. apply I1. exact Hx.
    + intros i Hi. destruct (dst + i =? dst + g) eqn:E; [discriminate|]. apply I2. exact Hi.
    + intros h Hh Hhn. destruct (Z.eq_dec h g) as [->|Hne].
      * rewrite set_pc_same, Z.eqb_refl. unfold final. rewrite Hgd. congruence.
      * rewrite set_pc_other by assumption. replace (dst + h =? dst + g) with false by lia. apply I3; assumption.
    + intros h Hh Hhn. rewrite set_pc_other by lia. apply I4; assumption.
  - exists s. split; [reflexivity|]. repeat split; assumption.
Qed.

Lemma run_inv : forall sched s, inv s -> Forall (fun g => 0 <= g < total) sched -> exists s', run_schedule k n dst guard get s sched = Some s' /\ inv s'.
Proof.
  induction sched as [|g l IH]; intros s Hi Hf; cbn [run_schedule]; [eauto|].
  inversion Hf; subst. destruct (inv_step s g Hi H1) as (s1 & E & Hi1). rewrite E. cbn [bind]. apply IH; assumption.
Qed.

(** A finished thread stays finished; two steps finish a thread. *)
Lemma step_done s g s' h : gstep k n dst guard get s g = Some s' -> pcs s h = Done -> pcs s' h = Done.
Proof.
  intros E Hd. unfold gstep in E. destruct (pcs s g) as [|i v|] eqn:Ep.
  - destruct (thread_index k g <? n).
    + destruct (guard (gmem s) (thread_index k g)) as [[|]|]; cbn [bind] in E; [|injection E as <-|discriminate].
      * destruct (get (gmem s) (thread_index k g)); cbn [bind] in E; [|discriminate]. injection E as <-. cbn [pcs]. unfold set_pc. destruct (h =? g) eqn:E1; [assert (h = g) by lia; subst; congruence|exact Hd].
      * cbn [pcs]. unfold set_pc. destruct (h =? g); [reflexivity|exact Hd].
    + injection E as <-. cbn [pcs]. unfold set_pc. destruct (h =? g); [reflexivity|exact Hd].
  - destruct (write (gmem s) (dst + i) v); cbn [bind] in E; [|discriminate]. injection E as <-. cbn [pcs]. unfold set_pc. destruct (h =? g); [reflexivity|exact Hd].
  - injection E as <-. exact Hd.
Qed.
Definition progress (p : pc) : Z := match p with Start => 0 | Computed _ _ => 1 | Done => 2 end.
Lemma step_progress s g s' h : gstep k n dst guard get s g = Some s' -> progress (pcs s h) <= progress (pcs s' h) /\ (h = g -> Z.min 2 (progress (pcs s h) + 1) <= progress (pcs s' h)).
Proof.
  intros E. unfold gstep in E. destruct (pcs s g) as [|i v|] eqn:Ep.
  - destruct (thread_index k g <? n).
    + destruct (guard (gmem s) (thread_index k g)) as [[|]|]; cbn [bind] in E; [|injection E as <-|discriminate].
      * destruct (get (gmem s) (thread_index k g)); cbn [bind] in E; [|discriminate]. injection E as <-. cbn [pcs]. unfold set_pc.
        destruct (h =? g) eqn:E1; [assert (h = g) by lia; subst; rewrite Ep; cbn [progress]; lia|lia].
      * cbn [pcs]. unfold set_pc. destruct (h =? g) eqn:E1; [assert (h = g) by lia; subst; rewrite Ep; cbn [progress]; lia|lia].
    + injection E as <-. cbn [pcs]. unfold set_pc. destruct (h =? g) eqn:E1; [assert (h = g) by lia; subst; rewrite Ep; cbn [progress]; lia|lia].
  - destruct (write (gmem s) (dst + i) v); cbn [bind] in E; [|discriminate]. injection E as <-. cbn [pcs]. unfold set_pc.
    destruct (h =? g) eqn:E1; [assert (h = g) by lia; subst; rewrite Ep; cbn [progress]; lia|lia].
  - injection E as <-. split; [lia|]. intros ->. rewrite Ep. cbn [progress]. lia.
Qed.
Lemma run_progress : forall sched s s' h, run_schedule k n dst guard get s sched = Some s' ->
  Z.min 2 (progress (pcs s h) + Z.of_nat (count_occ Z.eq_dec sched h)) <= progress (pcs s' h).
Proof.
  induction sched as [|g l IH]; intros s s' h E; cbn [run_schedule count_occ] in *.
  - injection E as <-. lia.
  - destruct (gstep k n dst guard get s g) as [s1|] eqn:E1; cbn [bind] in E; [|discriminate].
    specialize (IH s1 s' h E). destruct (step_progress s g s1 h E1) as [P1 P2].
    destruct (Z.eq_dec g h) as [->|Hne]; [specialize (P2 eq_refl); lia|lia].
Qed.
Lemma run_finished sched s : run_schedule k n dst guard get (start m0) sched = Some s ->
  forall l, (forall g, In g l -> (2 <= count_occ Z.eq_dec sched g)%nat) -> finished l s.
Proof.
  intros E l Hl. apply Forall_forall. intros g Hg. pose proof (run_progress _ _ _ g E). specialize (Hl g Hg).
  cbn [start pcs progress] in H. destruct (pcs s g); cbn [progress] in H; try lia. reflexivity.
Qed.
End Sched.
