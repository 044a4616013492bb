(** Proofs about Memory.v. *)
From Coq Require Import ZArith Lia Bool List.
From Coq Require Import ZifyBool.
From Verif Require Import CInt ScalarOps Memory MemorySpec.
Import ListNotations.
Open Scope Z_scope.

Lemma fresh_bytes_of p n init : (forall n, length (init n) = Z.to_nat n) -> 0 <= n -> bytes_of (Block p (init n)) = n.
Proof. intros Hi Hn. unfold bytes_of. cbn [contents]. rewrite Hi. lia. Qed.
Lemma fresh_len n : length (fresh_bytes n) = Z.to_nat n.
Proof. apply repeat_length. Qed.
Lemma zero_len n : length (zero_bytes n) = Z.to_nat n.
Proof. apply repeat_length. Qed.

(** The invariant of reachable heaps. *)
Definition good (W a : Z) (h : heap) : Prop :=
  Forall (fun b => aligned a (addr b) /\ in_address_space W b) h /\ separated h.

Lemma good_nil W a : good W a [].
Proof. split; [constructor|]. intros i j b1 b2 _ H. destruct i; discriminate. Qed.

Lemma separated_cons b h : (forall c, In c h -> disjoint b c /\ addr b <> addr c) -> separated h -> separated (b :: h).
Proof.
  intros Hb Hs i j b1 b2 Hij H1 H2.
  destruct i as [|i], j as [|j]; cbn [nth_error] in *; try congruence.
  - injection H1 as <-. apply Hb. eapply nth_error_In; eauto.
  - injection H2 as <-. destruct (Hb b1) as [Hd Ha]; [eapply nth_error_In; eauto|].
    split; [unfold disjoint in *; lia|congruence].
  - eapply Hs; [|eauto|eauto]. congruence.
Qed.
Lemma separated_tail b h : separated (b :: h) -> separated h.
Proof. intros Hs i j b1 b2 Hij H1 H2. apply (Hs (S i) (S j) b1 b2); auto. Qed.
Lemma separated_head b h c : separated (b :: h) -> In c h -> disjoint b c /\ addr b <> addr c.
Proof. intros Hs Hc. destruct (In_nth_error _ _ Hc) as [j Hj]. apply (Hs 0%nat (S j) b c); auto. Qed.
Lemma separated_filter f h : separated h -> separated (filter f h).
Proof.
  induction h as [|b h IH]; intros Hs; cbn [filter]; [exact Hs|].
  destruct (f b); [|apply IH; eapply separated_tail; eauto].
  apply separated_cons; [|apply IH; eapply separated_tail; eauto].
  intros c Hc. apply filter_In in Hc. eapply separated_head; [eauto|tauto].
Qed.

Lemma sys_alloc_ok W os init h a n : posix W os -> (forall n, length (init n) = Z.to_nat n) -> 0 <= n ->
  sys_alloc os init h a n = (null, h) \/
  exists p, sys_alloc os init h a n = (p, Block p (init n) :: h) /\ p <> null /\ aligned a p /\
    in_address_space W (Block p (init n)) /\ bytes_of (Block p (init n)) = n /\
    forall c, In c h -> disjoint (Block p (init n)) c /\ p <> addr c.
Proof.
  intros Hos Hi Hn. unfold sys_alloc. destruct (os h a n) as [p|] eqn:E; [right|left; reflexivity].
  destruct (Hos _ _ _ _ E) as (H1 & H2 & H3 & H4). pose proof (fresh_bytes_of p n init Hi Hn) as Hb.
  exists p. split; [reflexivity|]. split; [unfold null; lia|]. split; [exact H2|].
  split; [unfold in_address_space; rewrite Hb; cbn [addr]; lia|]. split; [exact Hb|].
  intros c Hc. destruct (H4 _ Hc) as [Ha Hd]. split; [|congruence].
  unfold disjoint. rewrite Hb. cbn [addr]. lia.
Qed.

Lemma sys_alloc_good W os init h a n : posix W os -> (forall n, length (init n) = Z.to_nat n) -> 0 <= n ->
  good W a h -> good W a (snd (sys_alloc os init h a n)).
Proof.
  intros Hos Hi Hn [Hf Hs]. destruct (sys_alloc_ok W os init h a n Hos Hi Hn) as [->|(p & -> & Hp & Ha & Has & Hb & Hd)]; cbn [snd].
  - split; assumption.
  - split; [constructor; [split; assumption|assumption]|]. apply separated_cons; [|assumption].
    intros c Hc. exact (Hd c Hc).
Qed.

Lemma sys_free_good W a h p h' : good W a h -> sys_free h p = Some h' -> good W a h'.
Proof.
  intros [Hf Hs] E. unfold sys_free in E.
  destruct (p =? null); [injection E as <-; split; assumption|].
  destruct (existsb (is_block p) h); [|discriminate]. injection E as <-.
  split; [|apply separated_filter; assumption].
  rewrite Forall_forall in *. intros b Hb. apply filter_In in Hb. apply Hf. tauto.
Qed.

Lemma to_u_nonneg W n : 0 <= W -> 0 <= to_u W n.
Proof. intros H. pose proof (to_u_range W n H). unfold in_u in *. lia. Qed.

Lemma history_good o W pl os : 0 <= W -> posix W os -> forall l h h',
  good W (max_alignment pl) h -> history o W pl os h l = Some h' -> good W (max_alignment pl) h'.
Proof.
  intros HW Hos. induction l as [|c l IH]; intros h h' Hg E; cbn [history] in E.
  - injection E as <-. exact Hg.
  - destruct (step o W pl os h c) as [h1|] eqn:E1; cbn [bind] in E; [|discriminate].
    apply (IH h1); [|exact E]. destruct c as [n|sz n|p]; cbn [step] in E1.
    + injection E1 as <-. apply sys_alloc_good; auto using fresh_len, to_u_nonneg.
    + unfold aligned_alloc_for in E1. destruct (nat_mul o W n (to_s W sz)) as [m|]; cbn [bind option_map] in E1; [|discriminate].
      injection E1 as <-. apply sys_alloc_good; auto using fresh_len, to_u_nonneg.
    + eapply sys_free_good; eauto.
Qed.

Lemma sys_free_live h p : p <> null -> (exists b, In b h /\ addr b = p) ->
  exists h', sys_free h p = Some h' /\ forall b, In b h' <-> In b h /\ addr b <> p.
Proof.
  intros Hp (b & Hb & Ha). unfold sys_free. destruct (p =? null) eqn:E; [lia|].
  destruct (existsb (is_block p) h) eqn:E2.
  - eexists. split; [reflexivity|]. intros c. rewrite filter_In. unfold is_block.
    destruct (addr c =? p) eqn:E3; cbn [negb]; intuition lia.
  - exfalso. rewrite <- not_true_iff_false in E2. apply E2. apply existsb_exists. exists b. split; [assumption|unfold is_block; lia].
Qed.

Lemma room_head p h init n sizeof m : (forall n, length (init n) = Z.to_nat n) -> 0 <= n -> m * sizeof <= n -> room_for (Block p (init n) :: h) p sizeof m.
Proof. intros Hi Hn H. exists (Block p (init n)). split; [left; reflexivity|]. split; [reflexivity|]. rewrite fresh_bytes_of; auto. Qed.

Lemma carith_s W z : carith (Ity true W) z = if (- 2 ^ (W - 1) <=? z) && (z <=? 2 ^ (W - 1) - 1) then Some z else None.
Proof. reflexivity. Qed.

(** The multiplication, for a size in range. *)
Lemma nat_mul_fits o W a b : 0 < W -> - 2 ^ (W - 1) <= a * b < 2 ^ (W - 1) -> nat_mul o W a b = Some (a * b).
Proof.
  intros HW H. destruct o; cbn [nat_mul].
  - rewrite carith_s. destruct ((- 2 ^ (W - 1) <=? a * b) && (a * b <=? 2 ^ (W - 1) - 1)) eqn:E; [reflexivity|lia].
  - rewrite to_s_id; [reflexivity|lia|unfold in_s; lia].
Qed.

Lemma alloc_for_bytes o W pl os h sizeof n m : nat_mul o W n (to_s W sizeof) = Some m ->
  aligned_alloc_for o W pl os h sizeof n = Some (sys_alloc os fresh_bytes h (max_alignment pl) (to_u W m)).
Proof. intros E. unfold aligned_alloc_for. rewrite E. reflexivity. Qed.

(** A program-wide correct allocator: bump allocation above every live block. *)
Definition top (h : heap) : Z := fold_right (fun b t => Z.max t (addr b + bytes_of b + 1)) 1 h.
Definition round_up (a x : Z) : Z := (x + a - 1) / a * a.
Definition bump (W : Z) : oracle := fun h a n =>
  if a <=? 0 then None else
  let p := round_up a (top h) in if (p + n <=? 2 ^ W) && (0 <=? n) && forallb (fun b => negb (addr b =? p)) h then Some p else None.

Lemma top_ge h b : In b h -> addr b + bytes_of b < top h.
Proof. induction h as [|c h IH]; cbn [In top fold_right]; [tauto|]. intros [->|H]; [lia|]. specialize (IH H). unfold top in IH. lia. Qed.
Lemma top_pos h : 1 <= top h.
Proof. induction h; cbn [top fold_right] in *; unfold top in *; lia. Qed.
Lemma round_up_ge a x : 0 < a -> x <= round_up a x.
Proof. intros. unfold round_up. pose proof (Z.div_mod (x + a - 1) a ltac:(lia)). pose proof (Z.mod_pos_bound (x + a - 1) a ltac:(lia)). nia. Qed.
Lemma bump_posix W : posix W (bump W).
Proof.
  intros h a n p E. unfold bump in E. destruct (a <=? 0) eqn:E0; [discriminate|].
  destruct ((round_up a (top h) + n <=? 2 ^ W) && (0 <=? n) && forallb (fun b => negb (addr b =? round_up a (top h))) h) eqn:E1; [|discriminate].
  injection E as <-. rewrite !andb_true_iff in E1. destruct E1 as [[E1 E2] E3]. rewrite forallb_forall in E3.
  pose proof (round_up_ge a (top h) ltac:(lia)). pose proof (top_pos h).
  split; [lia|]. split; [unfold aligned, round_up; apply Z_mod_mult|]. split; [lia|].
  intros b Hb. pose proof (top_ge h b Hb). pose proof (E3 b Hb) as H2. split; [lia|]. right; lia.
Qed.

(** *** Copies *)
Lemma find_block_in h p b : find_block h p = Some b -> In b h /\ addr b = p.
Proof. intros H. apply find_some in H. unfold is_block in H. split; [tauto|lia]. Qed.
Lemma find_set_same h p c b : find_block h p = Some b -> find_block (set_block h p c) p = Some (Block p c).
Proof.
  unfold find_block, set_block, is_block. induction h as [|d h IH]; cbn [find map]; [discriminate|].
  destruct (addr d =? p) eqn:E; cbn [addr].
  - intros _. rewrite Z.eqb_refl. reflexivity.
  - intros H. rewrite E. apply IH. exact H.
Qed.
Lemma find_set_other h p q c : p <> q -> find_block (set_block h p c) q = find_block h q.
Proof.
  intros Hn. unfold find_block, set_block, is_block. induction h as [|d h IH]; cbn [find map]; [reflexivity|].
  destruct (addr d =? p) eqn:E; cbn [addr].
  - replace (p =? q) with false by lia. replace (addr d =? q) with false by lia. exact IH.
  - destruct (addr d =? q); [reflexivity|exact IH].
Qed.

Lemma copy_bytes_ok hd pd hs ps n bd bs : 0 <= n -> find_block hd pd = Some bd -> find_block hs ps = Some bs ->
  n <= bytes_of bd -> n <= bytes_of bs ->
  exists hd', copy_bytes hd pd hs ps n = Some hd' /\
    find_block hd' pd = Some (Block pd (firstn (Z.to_nat n) (contents bs) ++ skipn (Z.to_nat n) (contents bd))) /\
    forall q, q <> pd -> find_block hd' q = find_block hd q.
Proof.
  intros Hn Hd Hs Ld Ls. unfold copy_bytes. destruct (n =? 0) eqn:E.
  - exists hd. assert (n = 0) by lia. subst. destruct bd as [ad cd]. split; [reflexivity|].
    split; [|reflexivity]. rewrite Hd. destruct (find_block_in _ _ _ Hd) as [_ <-]. reflexivity.
  - rewrite Hs, Hd. cbn [bind]. unfold first_bytes. unfold bytes_of in *. replace (n <=? Z.of_nat (length (contents bs))) with true by lia.
    cbn [bind]. replace (n <=? Z.of_nat (length (contents bd))) with true by lia. eexists. split; [reflexivity|].
    split; [eapply find_set_same; eauto|]. intros q Hq. apply find_set_other. congruence.
Qed.

Lemma copy_bytes_small hd pd hs ps n bs : 0 < n -> find_block hs ps = Some bs -> bytes_of bs < n -> copy_bytes hd pd hs ps n = None.
Proof.
  intros Hn Hs L. unfold copy_bytes. destruct (n =? 0) eqn:E; [lia|]. rewrite Hs. cbn [bind].
  destruct (find_block hd pd); cbn [bind]; [|reflexivity]. unfold first_bytes, bytes_of in *.
  replace (n <=? Z.of_nat (length (contents bs))) with false by lia. reflexivity.
Qed.
