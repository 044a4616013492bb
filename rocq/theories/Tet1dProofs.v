(** Proofs about Tet1d.v. *)
From Coq Require Import ZArith Lia Bool List.
From Coq Require Import ZifyBool.
From Verif Require Import CInt ScalarOps CpuSimd CpuSimdSpec CpuSimdProofs CpuSimdMem Pack PackSpec PackProofs PackProofs2 Gpu Tet1d Tet1dSpec.
Import ListNotations.
Open Scope Z_scope.

Lemma scalar_get_value m e i : scalar_get m e i = value (nth_elem m i) e.
Proof.
  induction e as [v|data sz|g e IH|g e IH s|g l IHl r IHr|g l IHl r IHr x IHx]; cbn [scalar_get value]; unfold bind2; rewrite ?IH, ?IHl, ?IHr, ?IHx; reflexivity.
Qed.
Lemma scalar_getb_value m e i : scalar_getb m e i = valueb (nth_elem m i) e.
Proof.
  induction e; cbn [scalar_getb valueb]; unfold bind2; rewrite ?scalar_get_value; try reflexivity.
  - rewrite IHe1, IHe2. destruct o; reflexivity.
  - rewrite IHe. reflexivity.
Qed.

(** Locality. *)
Lemma value_ext el el' e : (forall a, In a (arrays e) -> el (fst a) = el' (fst a)) -> value el e = value el' e.
Proof.
  induction e; cbn [arrays value]; intros H.
  - reflexivity.
  - apply (H (data, sz)). left; reflexivity.
  - rewrite IHe by assumption. reflexivity.
  - rewrite IHe by assumption. reflexivity.
  - rewrite IHe1, IHe2; [reflexivity| |]; intros a Ha; apply H; apply in_or_app; tauto.
  - rewrite IHe1, IHe2, IHe3; [reflexivity| | |]; intros a Ha; apply H; rewrite !in_app_iff; tauto.
Qed.
Lemma valueb_ext el el' e : (forall a, In a (arraysb e) -> el (fst a) = el' (fst a)) -> valueb el e = valueb el' e.
Proof.
  induction e; cbn [arraysb valueb]; intros H.
  - rewrite (value_ext el el'); [reflexivity|assumption].
  - rewrite (value_ext el el' l), (value_ext el el' r); [reflexivity| |]; intros a Ha; apply H; apply in_or_app; tauto.
  - rewrite IHe1, IHe2; [reflexivity| |]; intros a Ha; apply H; apply in_or_app; tauto.
  - rewrite IHe by assumption. reflexivity.
Qed.
Lemma elem_local dst n (m m' : mem) j l : no_partial_overlap dst n l -> 0 <= j < n ->
  (forall x, (x = dst + j \/ x < dst \/ dst + n <= x) -> m' x = m x) ->
  forall a, In a l -> nth_elem m' j (fst a) = nth_elem m j (fst a).
Proof.
  intros Ho Hj Hm a Ha. unfold no_partial_overlap in Ho. rewrite Forall_forall in Ho. specialize (Ho a Ha).
  unfold nth_elem. apply Hm. lia.
Qed.
Lemma value_local dst n (m m' : mem) j e : no_partial_overlap dst n (arrays e) -> 0 <= j < n ->
  (forall x, (x = dst + j \/ x < dst \/ dst + n <= x) -> m' x = m x) ->
  value (nth_elem m' j) e = value (nth_elem m j) e.
Proof. intros. apply value_ext. eapply elem_local; eauto. Qed.
Lemma valueb_local dst n (m m' : mem) j e : no_partial_overlap dst n (arraysb e) -> 0 <= j < n ->
  (forall x, (x = dst + j \/ x < dst \/ dst + n <= x) -> m' x = m x) ->
  valueb (nth_elem m' j) e = valueb (nth_elem m j) e.
Proof. intros. apply valueb_ext. eapply elem_local; eauto. Qed.

(** *** SIMD evaluation *)
Section Simd.
Variables (t : ety) (len N : nat).
Hypothesis Ht : t <> EF16.
Hypothesis HN : (1 <= N)%nat.

Definition lanes_are (r : option pack) (f : nat -> option Z) : Prop :=
  exists p, r = Some p /\ shape N len p /\ forall j, (j < N * len)%nat -> lane (flat p) j = f j.

Lemma lanes_of_vec r f g : one_vec len N r (func_body (N * len) f) -> (forall j, (j < N * len)%nat -> f j = g j) -> (forall j, (j < N * len)%nat -> g j <> None) -> lanes_are r g.
Proof.
  intros [H1 H2] Hfg Hd. destruct (func_body_defined (N * len) f) as [R HR]; [intros j Hj; rewrite Hfg by exact Hj; apply Hd; exact Hj|].
  rewrite HR in H1. destruct r as [p|]; [|discriminate]. cbn [option_map] in H1. injection H1 as H1.
  exists p. split; [reflexivity|]. split; [apply H2; reflexivity|]. intros j Hj. rewrite H1. rewrite (func_body_lane _ _ _ HR j Hj). apply Hfg. exact Hj.
Qed.

Lemma bind_some {A B} (x : option A) (f : A -> option B) : bind x f <> None -> exists a, x = Some a /\ f a <> None.
Proof. destruct x as [a|]; cbn [bind]; [eauto|congruence]. Qed.

Lemma lane_in_id x : lane_in t x = Some x.
Proof. destruct t; try reflexivity. contradiction. Qed.
Lemma lane_out_id x : lane_out t x = x.
Proof. destruct t; try reflexivity. contradiction. Qed.

Lemma simd_get_ok m i : forall e, (forall j, (j < N * len)%nat -> value (nth_elem m (i + Z.of_nat j)) e <> None) ->
  lanes_are (simd_get t len N m e i) (fun j => value (nth_elem m (i + Z.of_nat j)) e).
Proof.
  induction e as [v|data sz|g e IH|g e IH s|g l IHl r IHr|g l IHl r IHr x IHx]; cbn [simd_get value]; intros Hd.
  - apply (lanes_of_vec _ (fun _ => lane_in t v)); [apply pk_set1_ok; assumption| |exact Hd]. intros j Hj. apply lane_in_id.
  - eapply lanes_of_vec; [apply pk_load_ok; assumption| |exact Hd].
    intros j Hj. cbv beta. unfold read, nth_elem. rewrite <- Z.add_assoc. destruct (m (data + (i + Z.of_nat j))); cbn [bind]; [apply lane_in_id|reflexivity].
  - destruct IH as (p & -> & Sp & Lp); [intros j Hj; destruct (bind_some _ _ (Hd j Hj)) as (a & -> & _); discriminate|]. cbn [bind].
    eapply lanes_of_vec; [apply pk_un_ok; assumption| |exact Hd]. intros j Hj. cbv beta. rewrite Lp by exact Hj. reflexivity.
  - destruct IH as (p & -> & Sp & Lp); [intros j Hj; destruct (bind_some _ _ (Hd j Hj)) as (a & -> & _); discriminate|]. cbn [bind].
    eapply lanes_of_vec; [apply pk_shift_ok; assumption| |exact Hd]. intros j Hj. cbv beta. rewrite Lp by exact Hj. reflexivity.
  - destruct IHl as (p & -> & Sp & Lp); [intros j Hj; destruct (bind_some _ _ (Hd j Hj)) as (a & -> & _); discriminate|].
    destruct IHr as (q & -> & Sq & Lq); [intros j Hj; destruct (bind_some _ _ (Hd j Hj)) as (a & _ & Hb); destruct (bind_some _ _ Hb) as (b & -> & _); discriminate|].
    unfold bind2. cbn [bind]. eapply lanes_of_vec; [apply pk_bin_ok; assumption| |exact Hd]. intros j Hj. cbv beta. unfold bind2. rewrite Lp, Lq by exact Hj. reflexivity.
  - destruct IHl as (p & -> & Sp & Lp); [intros j Hj; destruct (bind_some _ _ (Hd j Hj)) as (a & -> & _); discriminate|].
    destruct IHr as (q & -> & Sq & Lq); [intros j Hj; destruct (bind_some _ _ (Hd j Hj)) as (a & _ & Hb); destruct (bind_some _ _ Hb) as (b & -> & _); discriminate|].
    destruct IHx as (w & -> & Sw & Lw); [intros j Hj; destruct (bind_some _ _ (Hd j Hj)) as (a & _ & Hb); destruct (bind_some _ _ Hb) as (b & _ & Hc); destruct (bind_some _ _ Hc) as (c & -> & _); discriminate|].
    unfold bind2. cbn [bind]. eapply lanes_of_vec; [apply pk_ter_ok; assumption| |exact Hd]. intros j Hj. cbv beta. unfold bind2. rewrite Lp, Lq, Lw by exact Hj. reflexivity.
Qed.

Lemma lbool_canon b : lbool b = canon b.
Proof. destruct b; reflexivity. Qed.
Lemma lane_bop_canon o x y : lane_bop o (lbool x) (lbool y) = Some (lbool (scalar_bop o x y)).
Proof. destruct o, x, y; reflexivity. Qed.
Lemma lane_not_canon x : lane_not (lbool x) = Some (lbool (negb x)).
Proof. destruct x; reflexivity. Qed.

Definition blane (o : option bool) : option Z := bind o (fun b => Some (lbool b)).

Lemma simd_getb_ok m i : forall e, (forall j, (j < N * len)%nat -> valueb (nth_elem m (i + Z.of_nat j)) e <> None) ->
  lanes_are (simd_getb t len N m e i) (fun j => blane (valueb (nth_elem m (i + Z.of_nat j)) e)).
Proof.
  induction e as [g e|g l r|o l IHl r IHr|e IH]; cbn [simd_getb valueb]; intros Hd.
  - destruct (simd_get_ok m i e) as (p & -> & Sp & Lp); [intros j Hj; destruct (bind_some _ _ (Hd j Hj)) as (a & -> & _); discriminate|]. cbn [bind].
    eapply lanes_of_vec; [apply pk_un_ok; assumption| |].
    + intros j Hj. cbv beta. rewrite Lp by exact Hj. destruct (value _ e); reflexivity.
    + intros j Hj. specialize (Hd j Hj). unfold blane. destruct (value _ e); cbn [bind] in *; congruence.
  - destruct (simd_get_ok m i l) as (p & -> & Sp & Lp); [intros j Hj; destruct (bind_some _ _ (Hd j Hj)) as (a & -> & _); discriminate|].
    destruct (simd_get_ok m i r) as (q & -> & Sq & Lq); [intros j Hj; destruct (bind_some _ _ (Hd j Hj)) as (a & _ & Hb); destruct (bind_some _ _ Hb) as (b & -> & _); discriminate|].
    unfold bind2. cbn [bind]. eapply lanes_of_vec; [apply pk_bin_ok; assumption| |].
    + intros j Hj. cbv beta. unfold bind2. rewrite Lp, Lq by exact Hj. destruct (value _ l); [|reflexivity]. destruct (value _ r); reflexivity.
    + intros j Hj. specialize (Hd j Hj). unfold blane. destruct (bind (value _ l) _); cbn [bind] in *; congruence.
  - destruct IHl as (p & -> & Sp & Lp); [intros j Hj; destruct (bind_some _ _ (Hd j Hj)) as (a & -> & _); discriminate|].
    destruct IHr as (q & -> & Sq & Lq); [intros j Hj; destruct (bind_some _ _ (Hd j Hj)) as (a & _ & Hb); destruct (bind_some _ _ Hb) as (b & -> & _); discriminate|].
    unfold bind2. cbn [bind]. eapply lanes_of_vec; [apply pk_bin_ok; assumption| |].
    + intros j Hj. cbv beta. unfold bind2. rewrite Lp, Lq by exact Hj. unfold blane. destruct (valueb _ l); [|reflexivity]. destruct (valueb _ r); [|reflexivity]. apply lane_bop_canon.
    + intros j Hj. specialize (Hd j Hj). unfold blane. destruct (bind (valueb _ l) _); cbn [bind] in *; congruence.
  - destruct IH as (p & -> & Sp & Lp); [intros j Hj; destruct (bind_some _ _ (Hd j Hj)) as (a & -> & _); discriminate|]. cbn [bind].
    eapply lanes_of_vec; [apply pk_un_ok; assumption| |].
    + intros j Hj. cbv beta. rewrite Lp by exact Hj. unfold blane. destruct (valueb _ e); [|reflexivity]. apply lane_not_canon.
    + intros j Hj. specialize (Hd j Hj). unfold blane. destruct (valueb _ e); cbn [bind] in *; congruence.
Qed.

(** *** The loops *)
Section Kernel.
Variables (m0 : mem) (dst n : Z) (e : expr).
Hypothesis Hmapped : forall j, 0 <= j < n -> m0 (dst + j) <> None.
(** [F j]: what element j must hold at the end. *)
Variable F : Z -> option Z.
Hypothesis HF : forall j, 0 <= j < n -> F j <> None.

(** The first [i] elements are done. *)
Definition state_at (m : mem) (i : Z) : Prop :=
  forall x, m x = if (dst <=? x) && (x <? dst + i) then F (x - dst) else m0 x.

Lemma state_local m i j : state_at m i -> i <= j < n -> 0 <= i -> forall x, (x = dst + j \/ x < dst \/ dst + n <= x) -> m x = m0 x.
Proof. intros S Hj Hi x Hx. rewrite S. destruct ((dst <=? x) && (x <? dst + i)) eqn:E; [lia|reflexivity]. Qed.

Lemma state_mapped m i j : state_at m i -> 0 <= i <= n -> 0 <= j < n -> m (dst + j) <> None.
Proof. intros S Hi Hj. rewrite S. destruct ((dst <=? dst + j) && (dst + j <? dst + i)); [apply HF; lia|apply Hmapped; exact Hj]. Qed.

Lemma store_state m i p : state_at m i -> 0 <= i -> i + L len N <= n -> shape N len p ->
  (forall j, (j < N * len)%nat -> lane (flat p) j = F (i + Z.of_nat j)) ->
  exists m', pk_store t len N m (dst + i) p = Some m' /\ state_at m' (i + L len N).
Proof.
  intros S Hi Hn Sp Lp. rewrite pk_store_ok by assumption. unfold L, pk_len in *.
  destruct (store_ok t (N * len) m (dst + i) (flat p)) as (m' & E & W).
  - apply flat_length. exact Sp.
  - intros j Hj. replace (dst + i + Z.of_nat j) with (dst + (i + Z.of_nat j)) by lia. eapply state_mapped; eauto; lia.
  - exists m'. split; [exact E|]. intros x. rewrite W. unfold in_range.
    destruct ((dst + i <=? x) && (x <? dst + i + Z.of_nat (N * len))) eqn:E1.
    + replace ((dst <=? x) && (x <? dst + (i + Z.of_nat N * Z.of_nat len))) with true by nia.
      rewrite lane_out_id. pose proof (Lp (Z.to_nat (x - (dst + i))) ltac:(lia)) as H.
      replace (i + Z.of_nat (Z.to_nat (x - (dst + i)))) with (x - dst) in H by lia. rewrite <- H. symmetry.
      apply nth_lane. rewrite (flat_length _ _ _ Sp). lia.
    + rewrite S. destruct ((dst <=? x) && (x <? dst + i)) eqn:E2.
      * replace ((dst <=? x) && (x <? dst + (i + Z.of_nat N * Z.of_nat len))) with true by nia. reflexivity.
      * replace ((dst <=? x) && (x <? dst + (i + Z.of_nat N * Z.of_nat len))) with false by nia. reflexivity.
Qed.

Lemma write_state m i v : state_at m i -> 0 <= i < n -> F i = Some v ->
  exists m', write m (dst + i) v = Some m' /\ state_at m' (i + 1).
Proof.
  intros S Hi Hv. unfold write. destruct (m (dst + i)) eqn:E; [|exfalso; eapply state_mapped; eauto; lia].
  eexists. split; [reflexivity|]. intros x. destruct (x =? dst + i) eqn:E1.
  - replace ((dst <=? x) && (x <? dst + (i + 1))) with true by lia. replace (x - dst) with i by lia. symmetry; exact Hv.
  - rewrite S. destruct ((dst <=? x) && (x <? dst + i)) eqn:E2.
    + replace ((dst <=? x) && (x <? dst + (i + 1))) with true by lia. reflexivity.
    + replace ((dst <=? x) && (x <? dst + (i + 1))) with false by lia. reflexivity.
Qed.

Lemma skip_state m i : state_at m i -> 0 <= i -> F i = m0 (dst + i) -> state_at m (i + 1).
Proof.
  intros S Hi Hv x. rewrite S. destruct ((dst <=? x) && (x <? dst + i)) eqn:E2.
  - replace ((dst <=? x) && (x <? dst + (i + 1))) with true by lia. reflexivity.
  - destruct ((dst <=? x) && (x <? dst + (i + 1))) eqn:E3; [|reflexivity]. assert (x = dst + i) by lia. subst x. replace (dst + i - dst) with i by lia. symmetry; exact Hv.
Qed.

Hypothesis Hov : no_partial_overlap dst n (arrays e).

Lemma value_state m i j : state_at m i -> 0 <= i -> i <= j < n -> value (nth_elem m j) e = value (nth_elem m0 j) e.
Proof. intros S Hi Hj. apply (value_local dst n); [assumption|lia|]. apply (state_local m i); assumption. Qed.

Hypothesis HL : 1 <= L len N.

Section Unmasked.
Hypothesis HFv : forall j, 0 <= j < n -> F j = value (nth_elem m0 j) e.

Lemma cw_simd_ok : forall fuel m i, state_at m i -> 0 <= i <= n -> (Z.to_nat (n - i) < fuel)%nat ->
  exists m' i', cw_simd t len N fuel m dst e i n = Some (m', i') /\ state_at m' i' /\ i <= i' <= n.
Proof.
  induction fuel as [|f IH]; intros m i S Hi Hf; [lia|]. cbn [cw_simd]. destruct (i + L len N <? n) eqn:E.
  - destruct (simd_get_ok m i e) as (p & -> & Sp & Lp).
    { intros j Hj. unfold L, pk_len in *. rewrite (value_state m i) by (try assumption; lia). rewrite <- HFv by lia. apply HF. lia. }
    cbn [bind]. destruct (store_state m i p S) as (m1 & -> & S1); [lia|lia|exact Sp| |].
    { intros j Hj. rewrite Lp by exact Hj. unfold L, pk_len in *. rewrite (value_state m i) by (try assumption; lia). symmetry. apply HFv. lia. }
    cbn [bind]. destruct (IH m1 (i + L len N) S1) as (m' & i' & E' & S' & Hi'); [lia|lia|]. exists m', i'. split; [exact E'|]. split; [exact S'|lia].
  - exists m, i. split; [reflexivity|]. split; [exact S|lia].
Qed.
Lemma cw_scalar_ok : forall fuel m i, state_at m i -> 0 <= i <= n -> (Z.to_nat (n - i) < fuel)%nat ->
  exists m', cw_scalar fuel m dst e i n = Some m' /\ state_at m' n.
Proof.
  induction fuel as [|f IH]; intros m i S Hi Hf; [lia|]. cbn [cw_scalar]. destruct (i <? n) eqn:E.
  - rewrite scalar_get_value, (value_state m i) by (try assumption; lia). rewrite <- HFv by lia.
    destruct (F i) as [v|] eqn:Ev; [|exfalso; apply (HF i); [lia|exact Ev]]. cbn [bind].
    destruct (write_state m i v S) as (m1 & -> & S1); [lia|exact Ev|]. cbn [bind]. apply IH; [exact S1|lia|lia].
  - exists m. split; [reflexivity|]. replace n with i by lia. exact S.
Qed.
Lemma cpu_kernel_ok : 0 <= n -> exists m', cpu_kernel t len N m0 dst e n = Some m' /\ state_at m' n.
Proof.
  intros Hn. unfold cpu_kernel. destruct (cw_simd_ok (S (Z.to_nat n)) m0 0) as (m1 & i1 & -> & S1 & Hi1); [|lia|lia|].
  - intros x. destruct ((dst <=? x) && (x <? dst + 0)) eqn:E; [lia|reflexivity].
  - cbn [bind fst snd]. apply cw_scalar_ok; [exact S1|lia|lia].
Qed.
End Unmasked.

Section Masked.
Variable k : bexpr.
Hypothesis Hovk : no_partial_overlap dst n (arraysb k).
Hypothesis Hk : forall j, 0 <= j < n -> valueb (nth_elem m0 j) k <> None.
Hypothesis HFk : forall j, 0 <= j < n -> F j = match valueb (nth_elem m0 j) k with Some true => value (nth_elem m0 j) e | _ => m0 (dst + j) end.

Lemma valueb_state m i j : state_at m i -> 0 <= i -> i <= j < n -> valueb (nth_elem m j) k = valueb (nth_elem m0 j) k.
Proof. intros S Hi Hj. apply (valueb_local dst n); [assumption|lia|]. apply (state_local m i); assumption. Qed.

(** In the SIMD loop the value is computed for all lanes. *)
Hypothesis Hv : forall j, 0 <= j < n -> value (nth_elem m0 j) e <> None.

Lemma cwm_simd_ok : forall fuel m i, state_at m i -> 0 <= i <= n -> (Z.to_nat (n - i) < fuel)%nat ->
  exists m' i', cwm_simd t len N fuel m dst k e i n = Some (m', i') /\ state_at m' i' /\ i <= i' <= n.
Proof.
  induction fuel as [|f IH]; intros m i S Hi Hf; [lia|]. cbn [cwm_simd]. destruct (i + L len N <? n) eqn:E.
  - destruct (simd_getb_ok m i k) as (c & -> & Sc & Lc).
    { intros j Hj. unfold L, pk_len in *. rewrite (valueb_state m i) by (try assumption; lia). apply Hk. lia. }
    destruct (simd_get_ok m i e) as (p & -> & Sp & Lp).
    { intros j Hj. unfold L, pk_len in *. rewrite (value_state m i) by (try assumption; lia). apply Hv. lia. }
    destruct (lanes_of_vec (pk_load t len N m (dst + i)) _ (fun j => m0 (dst + (i + Z.of_nat j))) (pk_load_ok t len N m (dst + i) HN)) as (o & -> & So & Lo).
    { intros j Hj. unfold L, pk_len in *. unfold read. rewrite <- Z.add_assoc.
      rewrite (state_local m i (i + Z.of_nat j) S ltac:(lia) ltac:(lia) (dst + (i + Z.of_nat j)) ltac:(lia)).
      destruct (m0 (dst + (i + Z.of_nat j))); cbn [bind]; [apply lane_in_id|reflexivity]. }
    { intros j Hj. unfold L, pk_len in *. apply Hmapped. lia. }
    cbn [bind].
    destruct (lanes_of_vec (pk_if_else len c p o) _ (fun j => F (i + Z.of_nat j)) (pk_if_else_ok len N c p o HN Sc Sp So)) as (r & -> & Sr & Lr).
    { intros j Hj. unfold L, pk_len in *. rewrite Lc, Lp, Lo by exact Hj. rewrite (valueb_state m i), (value_state m i) by (try assumption; lia).
      rewrite HFk by lia. pose proof (Hk (i + Z.of_nat j) ltac:(lia)). unfold blane.
      destruct (valueb (nth_elem m0 (i + Z.of_nat j)) k) as [[|]|]; [reflexivity|reflexivity|congruence]. }
    { intros j Hj. unfold L, pk_len in *. apply HF. lia. }
    cbn [bind]. destruct (store_state m i r S) as (m1 & -> & S1); [lia|lia|exact Sr|exact Lr|].
    cbn [bind]. destruct (IH m1 (i + L len N) S1) as (m' & i' & E' & S' & Hi'); [lia|lia|]. exists m', i'. split; [exact E'|]. split; [exact S'|lia].
  - exists m, i. split; [reflexivity|]. split; [exact S|lia].
Qed.
Lemma cwm_scalar_ok : forall fuel m i, state_at m i -> 0 <= i <= n -> (Z.to_nat (n - i) < fuel)%nat ->
  exists m', cwm_scalar fuel m dst k e i n = Some m' /\ state_at m' n.
Proof.
  induction fuel as [|f IH]; intros m i S Hi Hf; [lia|]. cbn [cwm_scalar]. destruct (i <? n) eqn:E.
  - rewrite scalar_getb_value, (valueb_state m i) by (try assumption; lia). pose proof (HFk i ltac:(lia)) as HFi. pose proof (Hk i ltac:(lia)) as Hki.
    destruct (valueb (nth_elem m0 i) k) as [[|]|]; [| |congruence]; cbn [bind].
    + rewrite scalar_get_value, (value_state m i) by (try assumption; lia). rewrite <- HFi.
      destruct (F i) as [v|] eqn:Ev; [|exfalso; apply (HF i); [lia|exact Ev]]. cbn [bind].
      destruct (write_state m i v S) as (m1 & -> & S1); [lia|exact Ev|]. cbn [bind]. apply IH; [exact S1|lia|lia].
    + apply IH; [apply skip_state; [exact S|lia|exact HFi]|lia|lia].
  - exists m. split; [reflexivity|]. replace n with i by lia. exact S.
Qed.
Lemma cpu_kernel_mask_ok : 0 <= n -> exists m', cpu_kernel_mask t len N m0 dst k e n = Some m' /\ state_at m' n.
Proof.
  intros Hn. unfold cpu_kernel_mask. destruct (cwm_simd_ok (S (Z.to_nat n)) m0 0) as (m1 & i1 & -> & S1 & Hi1); [|lia|lia|].
  - intros x. destruct ((dst <=? x) && (x <? dst + 0)) eqn:E; [lia|reflexivity].
  - cbn [bind fst snd]. apply cwm_scalar_ok; [exact S1|lia|lia].
Qed.
End Masked.
End Kernel.
End Simd.
