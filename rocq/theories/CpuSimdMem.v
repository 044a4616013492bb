From Coq Require Import ZArith Lia Bool List ZifyBool Arith.
From Verif Require Import CInt BitLemmas FloatSpec FloatProofs Fp16 Fp16Spec Fp16Proofs ScalarOps ScalarSpec ScalarProofs CpuSimd CpuSimdSpec CpuSimdProofs.
Import ListNotations.
Open Scope Z_scope.

(** *** Reductions on logicals *)
Lemma conds_ok n a : length a = n -> canonical a -> conds n a = Some (map truth a).
Proof.
  intros L C. unfold conds. apply sequence_some. apply list_ext; [rewrite !map_length, seq_length; lia|].
  intros k Hk. rewrite map_length, seq_length in Hk. rewrite nth_error_map_seq by exact Hk.
  rewrite nth_error_map, nth_error_map. rewrite nth_lane by lia. fold (lane a k). rewrite nth_lane by lia. cbn [bind option_map].
  f_equal. f_equal. unfold canonical in C. rewrite Forall_forall in C.
  rewrite (canon_truth (nth k a 0)) at 1 by (apply C, nth_In; lia). apply canon_ltrue.
Qed.

Lemma and_list_forallb l : and_list l = forallb (fun b => b) l.
Proof. induction l; cbn; congruence. Qed.
Lemma or_list_existsb l : or_list l = existsb (fun b => b) l.
Proof. induction l; cbn; congruence. Qed.
Lemma count_fold l : forall acc, fold_left (fun (acc : Z) (b : bool) => acc + (if b then 1 else 0)) l acc = acc + count_true l.
Proof.
  induction l as [|b l IH]; intros acc; cbn [fold_left]; [unfold count_true; cbn; lia|].
  rewrite IH. unfold count_true. destruct b; cbn [filter length]; lia.
Qed.

Lemma all1_ok n a : length a = n -> canonical a -> all1 n a = Some (if forallb truth a then -1 else 0).
Proof.
  intros L C. unfold all1. rewrite (conds_ok n a L C). cbn [bind]. rewrite and_list_forallb.
  replace (forallb (fun b => b) (map truth a)) with (forallb truth a); [reflexivity|]. clear. induction a; cbn; congruence.
Qed.
Lemma any1_ok n a : length a = n -> canonical a -> any1 n a = Some (if existsb truth a then -1 else 0).
Proof.
  intros L C. unfold any1. rewrite (conds_ok n a L C). cbn [bind]. rewrite or_list_existsb.
  replace (existsb (fun b => b) (map truth a)) with (existsb truth a); [reflexivity|]. clear. induction a; cbn; congruence.
Qed.
Lemma nbtrue1_ok n a : length a = n -> canonical a -> nbtrue1 n a = Some (count_true (map truth a)).
Proof. intros L C. unfold nbtrue1. rewrite (conds_ok n a L C). cbn [bind]. rewrite count_fold. f_equal. Qed.

(** *** Writes *)
Definition addr_in (x : Z) (l : list (Z * option Z)) : bool := existsb (fun p => fst p =? x) l.

Lemma run_writes_ok (g : Z -> option Z) : forall l m,
  (forall a v, In (a, v) l -> m a <> None /\ v <> None /\ g a = v) ->
  exists m', run_writes m l = Some m' /\ forall x, m' x = if addr_in x l then g x else m x.
Proof.
  induction l as [|[a v] l IH]; intros m H; [exists m; split; [reflexivity|reflexivity]|].
  destruct (H a v (or_introl eq_refl)) as (Hm & Hv & Hg). destruct v as [v|]; [|congruence]. cbn [run_writes].
  unfold write. destruct (m a) as [o|] eqn:Ea; [|congruence]. cbn [bind].
  destruct (IH (fun x => if x =? a then Some v else m x)) as (m' & E & N).
  { intros b w Hin. destruct (H b w (or_intror Hin)) as (H1 & H2 & H3). split; [|tauto].
    destruct (b =? a); [discriminate|exact H1]. }
  exists m'. split; [exact E|]. intros x. rewrite N. cbn [addr_in existsb fst]. fold (addr_in x l).
  rewrite (Z.eqb_sym a x). destruct (x =? a) eqn:E1; cbn [orb].
  - assert (x = a) as -> by lia. destruct (addr_in a l); congruence.
  - reflexivity.
Qed.

Lemma run_writes_needs : forall l m m', run_writes m l = Some m' -> forall a v, In (a, v) l -> m a <> None.
Proof.
  induction l as [|[a [v|]] l IH]; intros m m' H b w Hin; cbn [run_writes In] in *; [tauto| |discriminate].
  unfold write in H. destruct (m a) as [o|] eqn:Ea; [|discriminate]. cbn [bind] in H.
  destruct Hin as [Hin|Hin]; [injection Hin as <- _; congruence|].
  pose proof (IH _ _ H b w Hin) as P. cbn beta in P. destruct (b =? a) eqn:E; [|exact P]. assert (b = a) as -> by lia. congruence.
Qed.

(** Mapped range. *)
Definition mapped (m : mem) (p : Z) (k : nat) : Prop := forall i, (i < k)%nat -> m (p + Z.of_nat i) <> None.
Definition in_range (p x : Z) (k : nat) : bool := (p <=? x) && (x <? p + Z.of_nat k).

Lemma addr_in_iff x l : addr_in x l = true <-> exists v, In (x, v) l.
Proof.
  unfold addr_in. rewrite existsb_exists. split.
  - intros ((a & v) & Hin & E). cbn in E. assert (a = x) as -> by lia. exists v. exact Hin.
  - intros (v & Hin). exists (x, v). split; [exact Hin|apply Z.eqb_refl].
Qed.

(** Writes at [p + i * s], i = 0 .. n-1, distinct addresses. *)
Lemma store_ok t n m p a : length a = n -> mapped m p n ->
  exists m', store t n m p a = Some m' /\
    forall x, m' x = if in_range p x n then Some (lane_out t (nth (Z.to_nat (x - p)) a 0)) else m x.
Proof.
  intros L M. unfold store.
  destruct (run_writes_ok (fun x => Some (lane_out t (nth (Z.to_nat (x - p)) a 0)))
    (map (fun i => (p + Z.of_nat i, bind (lane a i) (fun x => Some (lane_out t x)))) (seq 0 n)) m) as (m' & E & N).
  - intros b v Hin. apply in_map_iff in Hin. destruct Hin as (i & Ei & Hs). injection Ei as <- <-. apply in_seq in Hs.
    rewrite nth_lane by lia. cbn [bind]. split; [apply M; lia|]. split; [discriminate|].
    replace (Z.to_nat (p + Z.of_nat i - p)) with i by lia. reflexivity.
  - exists m'. split; [exact E|]. intros x. rewrite N.
    assert (addr_in x (map (fun i => (p + Z.of_nat i, bind (lane a i) (fun x => Some (lane_out t x)))) (seq 0 n)) = in_range p x n) as ->; [|reflexivity].
    apply eq_true_iff_eq. rewrite addr_in_iff. unfold in_range. split.
    + intros (v & Hin). apply in_map_iff in Hin. destruct Hin as (i & Ei & Hs). injection Ei as <- _. apply in_seq in Hs. lia.
    + intros H. eexists. apply in_map_iff. exists (Z.to_nat (x - p)). split; [f_equal; lia|apply in_seq; lia].
Qed.

(** *** Masked accesses *)
Definition active (l : reg) (i : nat) : bool := truth (nth i l 0).

Lemma mask_store_from_ok t l p a : forall is m, NoDup is -> (forall i, In i is -> (i < length l)%nat /\ (i < length a)%nat) ->
  (forall i, In i is -> active l i = true -> m (p + Z.of_nat i) <> None) ->
  exists m', mask_store_from t is m l p a = Some m' /\
    forall x, (forall i, In i is -> active l i = true -> x = p + Z.of_nat i -> m' x = Some (lane_out t (nth i a 0)))
      /\ ((forall i, In i is -> active l i = true -> x <> p + Z.of_nat i) -> m' x = m x).
Proof.
  induction is as [|i is IH]; intros m ND Hlen Hmap; cbn [mask_store_from].
  - exists m. split; [reflexivity|]. intros x. split; [intros i []|reflexivity].
  - inversion ND as [|? ? Hni ND']; subst. destruct (Hlen i (or_introl eq_refl)) as (L1 & L2).
    rewrite nth_lane by exact L1. cbn [bind]. change (negb (nth i l 0 =? 0)) with (active l i).
    destruct (active l i) eqn:Eact.
    + rewrite nth_lane by exact L2. cbn [bind]. unfold write.
      pose proof (Hmap i (or_introl eq_refl) Eact) as Hm. destruct (m (p + Z.of_nat i)) as [o|] eqn:Eo; [|congruence]. cbn [bind].
      destruct (IH (fun x => if x =? p + Z.of_nat i then Some (lane_out t (nth i a 0)) else m x) ND') as (m' & E & N).
      { intros j Hj. apply Hlen. right. exact Hj. }
      { intros j Hj Ha. cbn beta. destruct (p + Z.of_nat j =? p + Z.of_nat i); [discriminate|]. apply Hmap; [right; exact Hj|exact Ha]. }
      exists m'. split; [exact E|]. intros x. destruct (N x) as (N1 & N2). split.
      * intros j [<-|Hj] Ha Hx; [|apply N1; assumption]. rewrite N2.
        -- rewrite Hx, Z.eqb_refl. reflexivity.
        -- intros j Hj Ha' E'. assert (i = j) as -> by lia. tauto.
      * intros H. rewrite N2.
        -- destruct (x =? p + Z.of_nat i) eqn:E'; [|reflexivity]. exfalso. apply (H i (or_introl eq_refl) Eact). lia.
        -- intros j Hj Ha'. apply H; [right; exact Hj|exact Ha'].
    + destruct (IH m ND') as (m' & E & N).
      { intros j Hj. apply Hlen. right. exact Hj. }
      { intros j Hj Ha. apply Hmap; [right; exact Hj|exact Ha]. }
      exists m'. split; [exact E|]. intros x. destruct (N x) as (N1 & N2). split.
      * intros j [<-|Hj] Ha Hx; [congruence|apply N1; assumption].
      * intros H. apply N2. intros j Hj Ha. apply H; [right; exact Hj|exact Ha].
Qed.

(** Specification of the written addresses. *)
Lemma mask_store_ok t n m l p a : length l = n -> length a = n ->
  (forall i, (i < n)%nat -> active l i = true -> m (p + Z.of_nat i) <> None) ->
  exists m', mask_store t n m l p a = Some m' /\
    (forall i, (i < n)%nat -> active l i = true -> m' (p + Z.of_nat i) = Some (lane_out t (nth i a 0))) /\
    (forall x, (forall i, (i < n)%nat -> active l i = true -> x <> p + Z.of_nat i) -> m' x = m x).
Proof.
  intros L1 L2 H. unfold mask_store.
  destruct (mask_store_from_ok t l p a (seq 0 n) m (seq_NoDup _ _)) as (m' & E & N).
  - intros i Hi. apply in_seq in Hi. lia.
  - intros i Hi Ha. apply in_seq in Hi. apply H; [lia|exact Ha].
  - exists m'. split; [exact E|]. split.
    + intros i Hi Ha. apply (proj1 (N _)) with (i := i); [apply in_seq; lia|exact Ha|reflexivity].
    + intros x Hx. apply (proj2 (N x)). intros i Hi Ha. apply in_seq in Hi. apply Hx; [lia|exact Ha].
Qed.

Lemma maskz_load_ok t n m l p : length l = n ->
  (forall i, (i < n)%nat -> active l i = true -> bind (m (p + Z.of_nat i)) (lane_in t) <> None) ->
  exists r, maskz_load t n m l p = Some r /\ length r = n /\
    forall i, (i < n)%nat -> Some (nth i r 0) = if active l i then bind (m (p + Z.of_nat i)) (lane_in t) else Some 0.
Proof.
  intros L H. unfold maskz_load.
  destruct (func_body_defined n (fun i => bind (lane l i) (fun c =>
    if negb (c =? 0) then bind (read m (p + Z.of_nat i)) (lane_in t) else Some 0))) as (r & E).
  - intros i Hi. rewrite nth_lane by lia. cbn [bind]. change (negb (nth i l 0 =? 0)) with (active l i).
    destruct (active l i) eqn:Ea; [apply H; assumption|discriminate].
  - exists r. split; [exact E|]. pose proof (func_body_length _ _ _ E) as Lr. split; [exact Lr|]. intros i Hi.
    rewrite <- nth_lane by lia. rewrite (func_body_lane _ _ _ E i Hi). rewrite nth_lane by lia. reflexivity.
Qed.

Lemma masko_load_ok t n m l p o : length l = n -> length o = n ->
  (forall i, (i < n)%nat -> active l i = true -> bind (m (p + Z.of_nat i)) (lane_in t) <> None) ->
  exists r, masko_load t n m l p o = Some r /\ length r = n /\
    forall i, (i < n)%nat -> Some (nth i r 0) = if active l i then bind (m (p + Z.of_nat i)) (lane_in t) else Some (nth i o 0).
Proof.
  intros L Lo H. unfold masko_load.
  destruct (func_body_defined n (fun i => bind (lane l i) (fun c =>
    if negb (c =? 0) then bind (read m (p + Z.of_nat i)) (lane_in t) else lane o i))) as (r & E).
  - intros i Hi. rewrite nth_lane by lia. cbn [bind]. change (negb (nth i l 0 =? 0)) with (active l i).
    destruct (active l i) eqn:Ea; [apply H; assumption|]. rewrite nth_lane by lia. discriminate.
  - exists r. split; [exact E|]. pose proof (func_body_length _ _ _ E) as Lr. split; [exact Lr|]. intros i Hi.
    rewrite <- nth_lane by lia. rewrite (func_body_lane _ _ _ E i Hi). rewrite (nth_lane l) by lia. cbn [bind].
    change (negb (nth i l 0 =? 0)) with (active l i). destruct (active l i); [reflexivity|]. apply nth_lane. lia.
Qed.

(** *** Array-of-structures *)
Lemma sequence_length {A} (l : list (option A)) r : sequence l = Some r -> length r = length l.
Proof. intros H. apply sequence_some in H. rewrite H, map_length. reflexivity. Qed.

Lemma sequence_defined {A} (l : list (option A)) : ~ In None l -> exists r, sequence l = Some r.
Proof.
  induction l as [|[x|] l IH]; cbn [In sequence]; intros H; [eauto| |tauto].
  destruct IH as (r & E); [tauto|]. rewrite E. cbn [bind]. eauto.
Qed.

Lemma load_deg_ok t deg n m p :
  (forall k, (k < deg * n)%nat -> bind (m (p + Z.of_nat k)) (lane_in t) <> None) ->
  exists regs, load_deg t deg n m p = Some regs /\ length regs = deg /\
    forall j, (j < deg)%nat -> length (nth j regs []) = n /\
      forall i, (i < n)%nat -> Some (nth i (nth j regs []) 0) = bind (m (p + Z.of_nat (deg * i + j))) (lane_in t).
Proof.
  intros H. unfold load_deg.
  set (f := fun j => func_body n (fun i => bind (read m (p + Z.of_nat (deg * i + j))) (lane_in t))).
  assert (Hdef : forall j, (j < deg)%nat -> exists r, f j = Some r).
  { intros j Hj. apply func_body_defined. intros i Hi. apply H. nia. }
  destruct (sequence_defined (map f (seq 0 deg))) as (regs & E).
  { intros Hin. apply in_map_iff in Hin. destruct Hin as (j & Ej & Hs). apply in_seq in Hs. destruct (Hdef j ltac:(lia)) as (r & Er). congruence. }
  exists regs. split; [exact E|]. pose proof (sequence_length _ _ E) as L. rewrite map_length, seq_length in L. split; [exact L|].
  intros j Hj. apply sequence_some in E. pose proof (nth_error_map_seq f deg j Hj) as E1. rewrite E, nth_error_map in E1.
  destruct (nth_error regs j) as [r|] eqn:Er; [|discriminate]. cbn [option_map] in E1. injection E1 as E1.
  replace (nth j regs []) with r by (symmetry; apply nth_error_nth; exact Er).
  split; [apply (func_body_length _ _ _ (eq_sym E1))|]. intros i Hi.
  rewrite <- nth_lane by (rewrite (func_body_length _ _ _ (eq_sym E1)); exact Hi).
  rewrite (func_body_lane _ _ _ (eq_sym E1) i Hi). reflexivity.
Qed.

Definition lane_at (regs : list reg) (j i : nat) : Z := nth i (nth j regs []) 0.

Lemma store_deg_ok t deg n m p regs : (0 < deg)%nat -> length regs = deg -> (forall j, (j < deg)%nat -> length (nth j regs []) = n) ->
  mapped m p (deg * n) ->
  exists m', store_deg t deg n m p regs = Some m' /\
    (forall i j, (i < n)%nat -> (j < deg)%nat -> m' (p + Z.of_nat (deg * i + j)) = Some (lane_out t (lane_at regs j i))) /\
    (forall x, in_range p x (deg * n) = false -> m' x = m x).
Proof.
  intros Hd L Lr M. unfold store_deg. set (ws := flat_map _ _).
  set (g := fun x : Z => let k := Z.to_nat (x - p) in Some (lane_out t (lane_at regs (k mod deg) (k / deg)))).
  assert (Hw : forall a v, In (a, v) ws <-> exists i j, (i < n)%nat /\ (j < deg)%nat /\ a = p + Z.of_nat (deg * i + j) /\ v = Some (lane_out t (lane_at regs j i))).
  { intros a v. unfold ws. rewrite in_flat_map. split.
    - intros (i & Hi & Hin). apply in_map_iff in Hin. destruct Hin as (j & Ej & Hj). injection Ej as <- <-.
      apply in_seq in Hi, Hj. exists i, (j - 1)%nat. split; [lia|]. split; [lia|]. split; [reflexivity|].
      rewrite (nth_error_nth' regs []) by lia. cbn [bind]. rewrite nth_lane by (rewrite Lr; lia). reflexivity.
    - intros (i & j & Hi & Hj & -> & ->). exists i. split; [apply in_seq; lia|]. apply in_map_iff. exists (S j). split; [|apply in_seq; lia].
      replace (S j - 1)%nat with j by lia. f_equal.
      rewrite (nth_error_nth' regs []) by lia. cbn [bind]. rewrite nth_lane by (rewrite Lr; lia). reflexivity. }
  assert (Hg : forall i j, (i < n)%nat -> (j < deg)%nat -> g (p + Z.of_nat (deg * i + j)) = Some (lane_out t (lane_at regs j i))).
  { intros i j Hi Hj. unfold g. replace (Z.to_nat (p + Z.of_nat (deg * i + j) - p)) with (j + i * deg)%nat by nia.
    rewrite Nat.mod_add, Nat.div_add by lia. rewrite Nat.mod_small, Nat.div_small by lia. reflexivity. }
  destruct (run_writes_ok g ws m) as (m' & E & N).
  { intros a v Hin. apply Hw in Hin. destruct Hin as (i & j & Hi & Hj & -> & ->). split; [apply M; nia|]. split; [discriminate|]. apply Hg; assumption. }
  exists m'. split; [exact E|]. split.
  - intros i j Hi Hj. rewrite N. assert (addr_in (p + Z.of_nat (deg * i + j)) ws = true) as ->.
    { apply addr_in_iff. eexists. apply Hw. exists i, j. repeat split; assumption. }
    apply Hg; assumption.
  - intros x Hx. rewrite N. destruct (addr_in x ws) eqn:Ea; [|reflexivity]. exfalso.
    apply addr_in_iff in Ea. destruct Ea as (v & Hin). apply Hw in Hin. destruct Hin as (i & j & Hi & Hj & -> & _). unfold in_range in Hx. nia.
Qed.

(** The round trips. *)
Lemma load_after_store t deg n m p regs : (0 < deg)%nat -> length regs = deg -> (forall j, (j < deg)%nat -> length (nth j regs []) = n) ->
  mapped m p (deg * n) -> (forall j i, (j < deg)%nat -> (i < n)%nat -> lane_in t (lane_out t (lane_at regs j i)) = Some (lane_at regs j i)) ->
  exists m', store_deg t deg n m p regs = Some m' /\ load_deg t deg n m' p = Some regs.
Proof.
  intros Hd L Lr M RT. destruct (store_deg_ok t deg n m p regs Hd L Lr M) as (m' & E & W & _). exists m'. split; [exact E|].
  assert (Hdm : forall k, (k < deg * n)%nat -> exists i j, k = (deg * i + j)%nat /\ (i < n)%nat /\ (j < deg)%nat).
  { intros k Hk. exists (k / deg)%nat, (k mod deg)%nat. split; [apply Nat.div_mod; lia|]. split; [apply Nat.div_lt_upper_bound; lia|apply Nat.mod_upper_bound; lia]. }
  destruct (load_deg_ok t deg n m' p) as (regs' & E' & L' & N').
  { intros k Hk. destruct (Hdm k Hk) as (i & j & -> & Hi & Hj). rewrite W by assumption. cbn [bind]. rewrite RT by assumption. discriminate. }
  rewrite E'. f_equal. apply (nth_ext _ _ [] []); [lia|]. intros j Hj. rewrite L' in Hj.
  destruct (N' j Hj) as (Lj & Nj). apply (nth_ext _ _ 0 0); [rewrite Lj, Lr by exact Hj; reflexivity|]. intros i Hi. rewrite Lj in Hi.
  pose proof (Nj i Hi) as Q. rewrite W in Q by assumption. cbn [bind] in Q. rewrite RT in Q by assumption. injection Q as ->. reflexivity.
Qed.

Lemma store_after_load t deg n m p : (0 < deg)%nat -> mapped m p (deg * n) ->
  (forall k v, (k < deg * n)%nat -> m (p + Z.of_nat k) = Some v -> exists x, lane_in t v = Some x /\ lane_out t x = v) ->
  exists regs m', load_deg t deg n m p = Some regs /\ store_deg t deg n m p regs = Some m' /\ forall x, m' x = m x.
Proof.
  intros Hd M RT. destruct (load_deg_ok t deg n m p) as (regs & E & L & N).
  { intros k Hk. specialize (M k Hk). destruct (m (p + Z.of_nat k)) as [v|] eqn:Ev; [|congruence]. cbn [bind].
    destruct (RT k v Hk Ev) as (x & -> & _). discriminate. }
  destruct (store_deg_ok t deg n m p regs Hd L (fun j Hj => proj1 (N j Hj)) M) as (m' & E' & W & F).
  exists regs, m'. split; [exact E|]. split; [exact E'|]. intros x. destruct (in_range p x (deg * n)) eqn:Er; [|apply F; exact Er].
  unfold in_range in Er. set (k := Z.to_nat (x - p)). assert (x = p + Z.of_nat k /\ (k < deg * n)%nat) as (Ex & Hk) by (unfold k; lia).
  rewrite Ex. clear Ex Er. assert (k = deg * (k / deg) + k mod deg)%nat as Ek by (apply Nat.div_mod; lia).
  assert (k / deg < n)%nat by (apply Nat.div_lt_upper_bound; lia). assert (k mod deg < deg)%nat by (apply Nat.mod_upper_bound; lia).
  specialize (M k Hk). destruct (m (p + Z.of_nat k)) as [v|] eqn:Ev; [|congruence]. destruct (RT k v Hk Ev) as (y & Ey & Eo).
  rewrite Ek, W by assumption. destruct (N (k mod deg)%nat ltac:(assumption)) as (_ & Nj).
  pose proof (Nj (k / deg)%nat ltac:(assumption)) as Q. rewrite <- Ek, Ev in Q. cbn [bind] in Q. rewrite Ey in Q. injection Q as Q. unfold lane_at. rewrite Q, Eo. reflexivity.
Qed.

(** *** zip / unzip *)
Lemma even_lemmas i : Nat.even (i * 2) = true /\ Nat.even (i * 2 + 1) = false /\ (i * 2 / 2 = i)%nat /\ ((i * 2 + 1) / 2 = i)%nat.
Proof.
  split; [rewrite Nat.even_mul; cbn; apply orb_true_r|]. split; [rewrite Nat.even_add, Nat.even_mul; cbn; rewrite orb_true_r; reflexivity|].
  split; [apply Nat.div_mul; lia|]. rewrite Nat.add_comm, Nat.div_add by lia. reflexivity.
Qed.

Section Zip.
Variable h : nat.
Variables a b : reg.
Hypothesis La : length a = (2 * h)%nat.
Hypothesis Lb : length b = (2 * h)%nat.

Lemma half_n : (2 * h / 2 = h)%nat. Proof. rewrite Nat.mul_comm. apply Nat.div_mul. lia. Qed.

Definition zl (o k : nat) : option Z := if Nat.even k then lane a (k / 2 + o) else lane b (k / 2 + o).

Lemma zip_build o : (o + h <= 2 * h)%nat ->
  build (2 * h) (flat_map (fun i => [((i * 2)%nat, lane a (i + o)); ((i * 2 + 1)%nat, lane b (i + o))]) (seq 0 h)) = func_body (2 * h) (zl o).
Proof.
  intros Ho. rewrite func_body_seq. apply build_ok.
  - intros i v Hin. apply in_flat_map in Hin. destruct Hin as (q & Hq & Hin). apply in_seq in Hq. unfold zl.
    destruct (even_lemmas q) as (E1 & E2 & E3 & E4).
    destruct Hin as [E|[E|[]]]; injection E as <- <-.
    + rewrite E1, E3. split; [lia|]. split; [reflexivity|]. rewrite nth_lane by lia. discriminate.
    + rewrite E2, E4. split; [lia|]. split; [reflexivity|]. rewrite nth_lane by lia. discriminate.
  - intros k Hk. pose proof (Nat.div_mod k 2 ltac:(lia)) as D. pose proof (Nat.mod_upper_bound k 2 ltac:(lia)).
    destruct (Nat.eq_dec (k mod 2) 0) as [E|E].
    + exists (lane a (k / 2 + o)). apply in_flat_map. exists (k / 2)%nat. split; [apply in_seq; lia|]. left. f_equal. lia.
    + exists (lane b (k / 2 + o)). apply in_flat_map. exists (k / 2)%nat. split; [apply in_seq; lia|]. right. left. f_equal. lia.
Qed.

Lemma ziplo_fb : ziplo (2 * h) a b = func_body (2 * h) (zl 0).
Proof.
  unfold ziplo. rewrite half_n. rewrite <- zip_build by lia. f_equal. apply flat_map_ext. intros i. rewrite Nat.add_0_r. reflexivity.
Qed.
Lemma ziphi_fb : ziphi (2 * h) a b = func_body (2 * h) (zl h).
Proof. unfold ziphi. rewrite half_n. apply zip_build. lia. Qed.

Definition uz (o k : nat) : option Z := if Nat.ltb k h then lane a (k * 2 + o) else lane b (2 * (k - h) + o).

Lemma unzip_build o : (o < 2)%nat ->
  build (2 * h) (map (fun i => (i, lane a (i * 2 + o))) (seq 0 h) ++ map (fun i => (i, lane b (2 * (i - h) + o))) (seq h (2 * h - h))) = func_body (2 * h) (uz o).
Proof.
  intros Ho. rewrite func_body_seq. apply build_ok.
  - intros i v Hin. apply in_app_iff in Hin. unfold uz. destruct Hin as [Hin|Hin]; apply in_map_iff in Hin; destruct Hin as (q & E & Hq); injection E as <- <-; apply in_seq in Hq.
    + destruct (Nat.ltb_spec q h); [|lia]. split; [lia|]. split; [reflexivity|]. rewrite nth_lane by lia. discriminate.
    + destruct (Nat.ltb_spec q h); [lia|]. split; [lia|]. split; [reflexivity|]. rewrite nth_lane by lia. discriminate.
  - intros k Hk. destruct (Nat.lt_ge_cases k h).
    + eexists. apply in_app_iff. left. apply in_map_iff. exists k. split; [reflexivity|apply in_seq; lia].
    + eexists. apply in_app_iff. right. apply in_map_iff. exists k. split; [reflexivity|apply in_seq; lia].
Qed.

Lemma unziplo_fb : unziplo (2 * h) a b = func_body (2 * h) (uz 0).
Proof.
  unfold unziplo. rewrite half_n. rewrite <- unzip_build by lia. f_equal. f_equal; apply map_ext; intros i; rewrite Nat.add_0_r; reflexivity.
Qed.
Lemma unziphi_fb : unziphi (2 * h) a b = func_body (2 * h) (uz 1).
Proof. unfold unziphi. rewrite half_n. rewrite <- unzip_build by lia. reflexivity. Qed.

Lemma zl_def o i : (o + h <= 2 * h)%nat -> (i < 2 * h)%nat -> zl o i <> None.
Proof.
  intros Ho Hi. unfold zl. assert (i / 2 < h)%nat by (apply Nat.div_lt_upper_bound; lia).
  destruct (Nat.even i); rewrite nth_lane by lia; discriminate.
Qed.
Lemma uz_def o i : (o < 2)%nat -> (i < 2 * h)%nat -> uz o i <> None.
Proof.
  intros Ho Hi. unfold uz. destruct (Nat.ltb_spec i h); rewrite nth_lane by lia; discriminate.
Qed.

Lemma zip_lanes : exists x y, zip (2 * h) a b = Some (x, y) /\ length x = (2 * h)%nat /\ length y = (2 * h)%nat /\
  (forall i, (i < 2 * h)%nat -> lane x i = zl 0 i) /\ (forall i, (i < 2 * h)%nat -> lane y i = zl h i).
Proof.
  unfold zip. rewrite ziplo_fb, ziphi_fb.
  destruct (func_body_defined (2 * h) (zl 0)) as (x & Ex); [intros; apply zl_def; lia|].
  destruct (func_body_defined (2 * h) (zl h)) as (y & Ey); [intros; apply zl_def; lia|].
  rewrite Ex, Ey. cbn [bind2 bind]. exists x, y. split; [reflexivity|].
  split; [apply (func_body_length _ _ _ Ex)|]. split; [apply (func_body_length _ _ _ Ey)|].
  split; apply func_body_lane; assumption.
Qed.
Lemma unzip_lanes : exists x y, unzip (2 * h) a b = Some (x, y) /\ length x = (2 * h)%nat /\ length y = (2 * h)%nat /\
  (forall i, (i < 2 * h)%nat -> lane x i = uz 0 i) /\ (forall i, (i < 2 * h)%nat -> lane y i = uz 1 i).
Proof.
  unfold unzip. rewrite unziplo_fb, unziphi_fb.
  destruct (func_body_defined (2 * h) (uz 0)) as (x & Ex); [intros; apply uz_def; lia|].
  destruct (func_body_defined (2 * h) (uz 1)) as (y & Ey); [intros; apply uz_def; lia|].
  rewrite Ex, Ey. cbn [bind2 bind]. exists x, y. split; [reflexivity|].
  split; [apply (func_body_length _ _ _ Ex)|]. split; [apply (func_body_length _ _ _ Ey)|].
  split; apply func_body_lane; assumption.
Qed.
End Zip.

Lemma reg_ext (x y : reg) n : length x = n -> length y = n -> (forall i, (i < n)%nat -> lane x i = lane y i) -> x = y.
Proof. intros L1 L2 H. apply list_ext; [lia|]. intros k Hk. apply H. lia. Qed.

Lemma unzip_zip h a b : length a = (2 * h)%nat -> length b = (2 * h)%nat ->
  bind (zip (2 * h) a b) (fun p => unzip (2 * h) (fst p) (snd p)) = Some (a, b).
Proof.
  intros La Lb. destruct (zip_lanes h a b La Lb) as (x & y & E & Lx & Ly & Nx & Ny). rewrite E. cbn [bind fst snd].
  destruct (unzip_lanes h x y Lx Ly) as (u & v & E' & Lu & Lv & Nu & Nv). rewrite E'. f_equal.
  assert (forall o k, (o < 2)%nat -> (k < 2 * h)%nat -> uz h x y o k = if Nat.eqb o 0 then lane a k else lane b k) as U.
  { intros o k Ho Hk. unfold uz. destruct (Nat.ltb_spec k h) as [H|H].
    - rewrite Nx by lia. unfold zl. destruct (even_lemmas k) as (E1 & E2 & E3 & E4).
      destruct o as [|[|o]]; [| |lia]; cbn [Nat.eqb].
      + rewrite Nat.add_0_r, E1, E3, Nat.add_0_r. reflexivity.
      + rewrite E2, E4, Nat.add_0_r. reflexivity.
    - rewrite Ny by lia. unfold zl. destruct (even_lemmas (k - h)) as (E1 & E2 & E3 & E4).
      rewrite (Nat.mul_comm 2). destruct o as [|[|o]]; [| |lia]; cbn [Nat.eqb].
      + rewrite Nat.add_0_r, E1, E3. f_equal. lia.
      + rewrite E2, E4. f_equal. lia. }
  f_equal; apply (reg_ext _ _ (2 * h)); try assumption; intros i Hi.
  - rewrite Nu by exact Hi. rewrite U by lia. reflexivity.
  - rewrite Nv by exact Hi. rewrite U by lia. reflexivity.
Qed.

Lemma zip_unzip h a b : length a = (2 * h)%nat -> length b = (2 * h)%nat ->
  bind (unzip (2 * h) a b) (fun p => zip (2 * h) (fst p) (snd p)) = Some (a, b).
Proof.
  intros La Lb. destruct (unzip_lanes h a b La Lb) as (x & y & E & Lx & Ly & Nx & Ny). rewrite E. cbn [bind fst snd].
  destruct (zip_lanes h x y Lx Ly) as (u & v & E' & Lu & Lv & Nu & Nv). rewrite E'. f_equal.
  assert (forall o k, (o = 0 \/ o = h)%nat -> (k < 2 * h)%nat -> zl x y o k = if Nat.eqb o 0 then (if Nat.eqb h 0 then zl x y o k else lane a k) else lane b k) as U.
  { intros o k Ho Hk. assert (h <> 0)%nat as Hh by lia. destruct (Nat.eqb_spec h 0); [lia|].
    unfold zl. pose proof (Nat.div_mod k 2 ltac:(lia)) as D. pose proof (Nat.mod_upper_bound k 2 ltac:(lia)) as B.
    assert (k / 2 < h)%nat by (apply Nat.div_lt_upper_bound; lia).
    destruct (Nat.even k) eqn:Ev.
    - assert (k mod 2 = 0)%nat. { apply Nat.even_spec in Ev. destruct Ev as (q & ->). rewrite Nat.mul_comm. apply Nat.mod_mul. lia. }
      rewrite Nx by lia. unfold uz. destruct (Nat.eqb_spec o 0) as [->|].
      + destruct (Nat.ltb_spec (k / 2 + 0) h); [|lia]. f_equal. lia.
      + destruct Ho as [->| ->]; [lia|]. destruct (Nat.ltb_spec (k / 2 + h) h); [lia|]. f_equal. lia.
    - assert (k mod 2 = 1)%nat.
      { destruct (Nat.eq_dec (k mod 2) 0) as [E0|E0]; [|lia]. rewrite E0, Nat.add_0_r in D. rewrite D, Nat.even_mul in Ev. discriminate. }
      rewrite Ny by lia. unfold uz. destruct (Nat.eqb_spec o 0) as [->|].
      + destruct (Nat.ltb_spec (k / 2 + 0) h); [|lia]. f_equal. lia.
      + destruct Ho as [->| ->]; [lia|]. destruct (Nat.ltb_spec (k / 2 + h) h); [lia|]. f_equal. lia. }
  destruct h as [|h'].
  - destruct a, b; cbn in La, Lb; try discriminate. destruct u, v; cbn in Lu, Lv; try discriminate. reflexivity.
  - f_equal; apply (reg_ext _ _ (2 * S h')); try assumption; intros i Hi.
    + rewrite Nu by exact Hi. rewrite U by (try lia; left; reflexivity). reflexivity.
    + rewrite Nv by exact Hi. rewrite U by (try lia; right; reflexivity). reflexivity.
Qed.
