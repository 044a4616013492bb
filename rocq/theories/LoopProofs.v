(** Proofs about Loop.v: the loop on any back end whose operators and memory operators are right. *)
From Coq Require Import ZArith Lia List Bool ZifyBool.
From Verif Require Import CInt ScalarOps ScalarSpec Portable PortableSpec PortableProofs Loop LoopSpec.
Open Scope Z_scope.

Lemma veval_occurs B env env' :
  (forall e, (forall k, occurs k e = true -> env k = env' k) -> veval B env e = veval B env' e) /\
  (forall l, (forall k, occursl k l = true -> env k = env' k) -> leval B env l = leval B env' l).
Proof.
  apply exp_ind; cbn [veval leval occurs occursl]; intros.
  - f_equal. apply H. apply Nat.eqb_refl.
  - reflexivity.
  - reflexivity.
  - rewrite H by assumption. reflexivity.
  - rewrite H, H0 by (intros; apply H1; lia). reflexivity.
  - rewrite H, H0, H1 by (intros; apply H2; lia). reflexivity.
  - rewrite H by assumption. reflexivity.
  - rewrite H, H0, H1 by (intros; apply H2; lia). reflexivity.
  - rewrite H by assumption. reflexivity.
  - reflexivity.
  - rewrite H, H0 by (intros; apply H1; lia). reflexivity.
  - rewrite H, H0 by (intros; apply H1; lia). reflexivity.
  - rewrite H by assumption. reflexivity.
  - rewrite H by assumption. reflexivity.
Qed.
Lemma element_occurs t i env env' :
  (forall e, (forall k, occurs k e = true -> env k = env' k) -> element t env i e = element t env' i e) /\
  (forall l, (forall k, occursl k l = true -> env k = env' k) -> logical_element t env i l = logical_element t env' i l).
Proof.
  apply exp_ind; cbn [element logical_element occurs occursl]; intros.
  - f_equal. apply H. apply Nat.eqb_refl.
  - reflexivity.
  - reflexivity.
  - rewrite H by assumption. reflexivity.
  - rewrite H, H0 by (intros; apply H1; lia). reflexivity.
  - rewrite H, H0, H1 by (intros; apply H2; lia). reflexivity.
  - rewrite H by assumption. reflexivity.
  - rewrite H, H0, H1 by (intros; apply H2; lia). reflexivity.
  - rewrite H by assumption. reflexivity.
  - reflexivity.
  - rewrite H, H0 by (intros; apply H1; lia). reflexivity.
  - rewrite H, H0 by (intros; apply H1; lia). reflexivity.
  - rewrite H by assumption. reflexivity.
  - rewrite H by assumption. reflexivity.
Qed.
Lemma load_all_ok {A} (ld : Z -> option A) d (P : nat -> A -> Prop) : forall srcs,
  (forall k, (k < length srcs)%nat -> exists r, ld (nth k srcs 0) = Some r /\ P k r) ->
  exists rs, load_all ld srcs = Some rs /\ length rs = length srcs /\ forall k, (k < length srcs)%nat -> P k (nth k rs d).
Proof.
  intros srcs. revert P. induction srcs as [|s srcs IH]; intros P H; cbn [load_all].
  - exists nil. split; [reflexivity|]. split; [reflexivity|]. cbn. lia.
  - destruct (H 0%nat) as (r & R & Pr); [cbn; lia|]. cbn [nth] in R. rewrite R. cbn [bind].
    destruct (IH (fun k => P (S k))) as (rs & E & L & Q). { intros k Hk. apply (H (S k)). cbn. lia. }
    rewrite E. cbn [bind]. exists (r :: rs). split; [reflexivity|]. split; [cbn; lia|]. intros [|k] Hk; cbn [nth]; [exact Pr|]. apply Q. cbn in Hk. lia.
Qed.

Section Loops.
Variables (V : Type) (O : mops V) (run : (nat -> V) -> option V) (elem : (nat -> Z) -> Z -> option Z) (d : V) (srcs : list Z).
Let len := mo_len O.
Let sz := mo_size O.
Variables (repv : V -> (Z -> Z) -> Prop) (repl : V -> (Z -> bool) -> Prop) (val_at : (Z -> option Z) -> Z -> Z -> Prop) (okaddr : Z -> Prop).
Notation lanes := (all_lanes len).
Hypothesis H_len : 0 < len.
Hypothesis H_sz : 0 < sz.
Hypothesis H_eval : forall rs args, length rs = length srcs -> (forall k, (k < length srcs)%nat -> repv (nth k rs d) (args k)) -> lanes (fun i => elem (fun k => args k i) i <> None) ->
  exists r, run (variables d rs) = Some r /\ repv r (fun i => val (elem (fun k => args k i) i)).
Hypothesis H_local : forall m m' a v, (forall x, a <= x < a + sz -> m' x = m x) -> val_at m a v -> val_at m' a v.
Hypothesis H_mapped : forall m a v, val_at m a v -> forall x, a <= x < a + sz -> m x <> None.
Hypothesis H_load : forall m a f, okaddr a -> lanes (fun i => val_at m (a + i * sz) (f i)) -> exists r, mo_load O m a = Some r /\ repv r f.
Hypothesis H_store : forall m a r f, okaddr a -> repv r f -> lanes (fun i => forall x, a + i * sz <= x < a + i * sz + sz -> m x <> None) ->
  exists m', mo_store O m a r = Some m' /\ lanes (fun i => val_at m' (a + i * sz) (f i)) /\ forall x, x < a \/ a + len * sz <= x -> m' x = m x.
Hypothesis H_tail : forall i n, 0 <= i <= n -> n < i + len -> n + len < 2 ^ 31 -> exists l, mo_tail O i n = Some l /\ repl l (fun k => i + k <? n).
Hypothesis H_maskz : forall l p m a f, repl l p -> lanes (fun i => p i = true -> val_at m (a + i * sz) (f i)) ->
  exists r, mo_maskz_load O l m a = Some r /\ repv r (fun i => if p i then f i else 0).
Hypothesis H_mstore : forall l p m a r f, repl l p -> repv r f -> lanes (fun i => p i = true -> forall x, a + i * sz <= x < a + i * sz + sz -> m x <> None) ->
  exists m', mo_mask_store O l m a r = Some m' /\ lanes (fun i => p i = true -> val_at m' (a + i * sz) (f i)) /\
    forall x, (forall i, 0 <= i < len -> p i = true -> x < a + i * sz \/ a + i * sz + sz <= x) -> m' x = m x.

Variables (dst n : Z) (v : nat -> Z -> Z) (m0 : Z -> option Z).
Notation out := (fun j => elem (fun k => v k j) (j mod len)).
Hypothesis H_n : 0 <= n.
Hypothesis H_int : n + len < 2 ^ 31.
Hypothesis H_src : forall k j, (k < length srcs)%nat -> 0 <= j < n -> val_at m0 (nth k srcs 0 + j * sz) (v k j).
Hypothesis H_dst : forall x, dst <= x < dst + n * sz -> m0 x <> None.
Hypothesis H_alias : forall k, (k < length srcs)%nat -> same_or_apart sz n (nth k srcs 0) dst.
Hypothesis H_oks : forall k q, (k < length srcs)%nat -> okaddr (nth k srcs 0 + q * len * sz).
Hypothesis H_okd : forall q, okaddr (dst + q * len * sz).
Hypothesis H_def : forall j, 0 <= j < n -> out j <> None.
Hypothesis H_zero : forall j, 0 <= j < len -> n mod len <= j -> elem (fun _ => 0) j <> None.

(** the memory after the elements below [i] *)
Definition done (i : Z) (m : Z -> option Z) : Prop :=
  (forall j, 0 <= j < i -> val_at m (dst + j * sz) (val (out j))) /\ forall x, x < dst \/ dst + i * sz <= x -> m x = m0 x.

Lemma apart i m k j : done i m -> 0 <= i <= j -> j < n -> (k < length srcs)%nat -> val_at m (nth k srcs 0 + j * sz) (v k j).
Proof.
  intros (_ & F) Hi Hj Hk. apply (H_local m0); [|exact (H_src k j Hk ltac:(lia))]. intros x Hx. apply F.
  pose proof (Z.mul_le_mono_nonneg_r i j sz ltac:(lia) ltac:(lia)). pose proof (Z.mul_le_mono_nonneg_r (j + 1) n sz ltac:(lia) ltac:(lia)).
  pose proof (Z.mul_nonneg_nonneg i sz ltac:(lia) ltac:(lia)). destruct (H_alias k Hk) as [E|[E|E]]; lia.
Qed.
Lemma still_mapped i m x : done i m -> 0 <= i <= n -> dst <= x < dst + n * sz -> m x <> None.
Proof.
  intros (D & F) Hi Hx. destruct (Z.ltb_spec x (dst + i * sz)) as [L|L]; [|rewrite F by lia; apply H_dst; lia].
  pose proof (Z.div_mod (x - dst) sz ltac:(lia)) as E. pose proof (Z.mod_pos_bound (x - dst) sz H_sz). set (q := (x - dst) / sz) in *.
  assert (0 <= q < i) as Hq by nia. apply (H_mapped m (dst + q * sz) _ (D q Hq)). nia.
Qed.

Lemma full_step q m : let i := q * len in 0 <= q -> i + len <= n -> done i m ->
  exists rs r m', load_all (fun s => mo_load O m (s + i * mo_size O)) srcs = Some rs /\ run (variables d rs) = Some r /\
    mo_store O m (dst + i * mo_size O) r = Some m' /\ done (i + len) m'.
Proof.
  intros i Hq Hi D. fold sz. assert (0 <= i) as I0 by (unfold i; nia).
  destruct (load_all_ok (fun s => mo_load O m (s + i * sz)) d (fun k r => repv r (fun j => v k (i + j))) srcs) as (rs & E & L & P).
  { intros k Hk. apply H_load; [exact (H_oks k q Hk)|]. intros j Hj. replace (nth k srcs 0 + i * sz + j * sz) with (nth k srcs 0 + (i + j) * sz) by ring. apply (apart i); auto; lia. }
  assert (forall j, 0 <= j < len -> (i + j) mod len = j) as M.
  { intros j Hj. unfold i. rewrite Z.add_comm, Z.mod_add by lia. apply Z.mod_small. exact Hj. }
  destruct (H_eval rs (fun k j => v k (i + j)) L P) as (r & R & Q).
  { intros j Hj. pose proof (H_def (i + j) ltac:(lia)) as H. cbv beta in H. rewrite (M j Hj) in H. exact H. }
  destruct (H_store m (dst + i * sz) r _ (H_okd q) Q) as (m' & S & W & F).
  { intros j Hj x Hx. apply (still_mapped i m x D ltac:(lia)). pose proof (Z.mul_nonneg_nonneg (i + j) sz ltac:(lia) ltac:(lia)). pose proof (Z.mul_le_mono_nonneg_r (i + j + 1) n sz ltac:(lia) ltac:(lia)). lia. }
  exists rs, r, m'. split; [exact E|]. split; [exact R|]. split; [exact S|]. destruct D as (D & G). split.
  - intros j Hj. destruct (Z.ltb_spec j i) as [J|J].
    + apply (H_local m); [|exact (D j ltac:(lia))]. intros x Hx. apply F. left. pose proof (Z.mul_le_mono_nonneg_r (j + 1) i sz ltac:(lia) ltac:(lia)). lia.
    + specialize (W (j - i) ltac:(lia)). cbv beta in W. replace (dst + i * sz + (j - i) * sz) with (dst + j * sz) in W by ring. replace (i + (j - i)) with j in W by ring.
      rewrite <- (M (j - i) ltac:(lia)) in W. replace (i + (j - i)) with j in W by ring. exact W.
  - intros x Hx. pose proof (Z.mul_nonneg_nonneg i sz I0 ltac:(lia)). rewrite F by nia. apply G. nia.
Qed.

Lemma full_ok : forall fuel q m, let i := q * len in 0 <= q -> i <= n -> (Z.to_nat (n - i) < fuel)%nat -> done i m ->
  exists i' m', full_vectors fuel O run d srcs dst n i m = Some (i', m') /\ i' = n - n mod len /\ done i' m'.
Proof.
  induction fuel as [|fuel IH]; intros q m i Hq Hi Hf D; [lia|]. cbn [full_vectors]. fold len. assert (0 <= i) as I0 by (unfold i; nia).
  assert (carith i32 (i + len) = Some (i + len)) as ->.
  { unfold carith. change (is_signed i32) with true. change (ty_min i32) with (- 2 ^ 31). change (ty_max i32) with (2 ^ 31 - 1). replace ((- 2 ^ 31 <=? i + len) && (i + len <=? 2 ^ 31 - 1)) with true by lia. reflexivity. }
  cbn [bind]. destruct (Z.leb_spec (i + len) n) as [L|L].
  - destruct (full_step q m Hq L D) as (rs & r & m' & E & R & S & D'). fold i in E, S, D'. rewrite E. cbn [bind]. rewrite R. cbn [bind]. rewrite S. cbn [bind].
    replace (i + len) with ((q + 1) * len) in * by (unfold i; ring). apply IH; [lia|lia|unfold i in Hf; lia|exact D'].
  - exists i, m. split; [reflexivity|]. split; [|exact D]. pose proof (Z.mod_unique n len q (n - i) ltac:(lia) ltac:(unfold i; ring)). lia.
Qed.
Lemma vector_loop_ok : exists m', vector_loop O run d srcs dst n m0 = Some m' /\
  (forall j, 0 <= j < n -> exists r, out j = Some r /\ val_at m' (dst + j * sz) r) /\ forall x, x < dst \/ dst + n * sz <= x -> m' x = m0 x.
Proof.
  unfold vector_loop. destruct (full_ok (Z.to_nat n + 1) 0 m0) as (i & m & E & Hi & D); [lia|lia|lia|split; [lia|reflexivity]|].
  change (0 * len) with 0 in E. rewrite E. cbn [bind fst snd]. clear E. unfold last_vector. fold sz.
  pose proof (Z.mod_pos_bound n len H_len) as Hm. pose proof (Z.div_mod n len ltac:(lia)) as Hd.
  assert (0 <= i <= n) as I0 by (pose proof (Z.mod_le n len H_n H_len); lia).
  destruct (H_tail i n I0 ltac:(lia) H_int) as (l & T & Tl). rewrite T. cbn [bind].
  assert (forall j, 0 <= j < len -> (i + j) mod len = j) as M.
  { intros j Hj. replace (i + j) with (j + n / len * len) by lia. rewrite Z.mod_add by lia. apply Z.mod_small. exact Hj. }
  destruct (load_all_ok (fun s => mo_maskz_load O l m (s + i * sz)) d (fun k r => repv r (fun j => if i + j <? n then v k (i + j) else 0)) srcs) as (rs & E & L & P).
  { intros k Hk. apply (H_maskz l (fun k => i + k <? n) m _ (fun j => v k (i + j)) Tl). intros j Hj Pj. replace (nth k srcs 0 + i * sz + j * sz) with (nth k srcs 0 + (i + j) * sz) by ring. apply (apart i); auto; lia. }
  rewrite E. cbn [bind].
  destruct (H_eval rs (fun k j => if i + j <? n then v k (i + j) else 0) L P) as (r & R & Q).
  { intros j Hj. destruct (Z.ltb_spec (i + j) n) as [J|J].
    - pose proof (H_def (i + j) ltac:(lia)) as H. cbv beta in H. rewrite (M j Hj) in H. exact H.
    - apply H_zero; lia. }
  rewrite R. cbn [bind].
  destruct (H_mstore l _ m (dst + i * sz) r _ Tl Q) as (m' & S & W & F).
  { intros j Hj Pj x Hx. apply (still_mapped i m x D I0). pose proof (Z.mul_nonneg_nonneg (i + j) sz ltac:(lia) ltac:(lia)). pose proof (Z.mul_le_mono_nonneg_r (i + j + 1) n sz ltac:(lia) ltac:(lia)). lia. }
  exists m'. split; [exact S|]. destruct D as (D & G). split.
  - intros j Hj. exists (val (out j)). split; [apply val_some; exact (H_def j Hj)|]. destruct (Z.ltb_spec j i) as [J|J].
    + apply (H_local m); [|exact (D j ltac:(lia))]. intros x Hx. apply F. intros k Hk Pk. left. pose proof (Z.mul_le_mono_nonneg_r (j + 1) i sz ltac:(lia) ltac:(lia)).
      pose proof (Z.mul_nonneg_nonneg k sz ltac:(lia) ltac:(lia)). lia.
    + specialize (W (j - i) ltac:(lia)). cbv beta in W. replace (i + (j - i)) with j in W by ring. replace (dst + i * sz + (j - i) * sz) with (dst + j * sz) in W by ring.
      destruct (Z.ltb_spec j n) as [_|]; [|lia]. specialize (W eq_refl). rewrite <- (M (j - i) ltac:(lia)) in W. replace (i + (j - i)) with j in W by ring. exact W.
  - intros x Hx. pose proof (Z.mul_nonneg_nonneg i sz ltac:(lia) ltac:(lia)). pose proof (Z.mul_le_mono_nonneg_r i n sz ltac:(lia) ltac:(lia)). rewrite F; [apply G; lia|].
    intros k Hk Pk. pose proof (Z.mul_nonneg_nonneg k sz ltac:(lia) ltac:(lia)). pose proof (Z.mul_le_mono_nonneg_r (i + k + 1) n sz ltac:(lia) ltac:(lia)). lia.
Qed.
End Loops.

(** ** Integer bodies *)
Section Ints.
Variables (B : mbackend) (t : ity).
Let len := mo_len (mb_mem B).
Notation lanes := (all_lanes len).
Variables (repv : V B -> (Z -> Z) -> Prop) (d : V B) (body : vexp) (srcs : list Z).
Hypothesis H_any : exists r f, repv r f.
Hypothesis H_ext : forall r f g, repv r f -> lanes (fun i => f i = g i) -> repv r g.
Hypothesis H_eval : forall env args body, (forall k, repv (env k) (args k)) -> lanes (fun i => element t (fun k => args k i) i body <> None) ->
  exists r, veval B env body = Some r /\ repv r (fun i => val (element t (fun k => args k i) i body)).
Hypothesis H_occurs : forall k, occurs k body = true -> (k < length srcs)%nat.
Lemma eval_vars (rs : list (V B)) args : length rs = length srcs -> (forall k, (k < length srcs)%nat -> repv (nth k rs d) (args k)) ->
  lanes (fun i => element t (fun k => args k i) i body <> None) ->
  exists r, veval B (variables d rs) body = Some r /\ repv r (fun i => val (element t (fun k => args k i) i body)).
Proof.
  intros L R D. destruct H_any as (r0 & f0 & R0).
  pose (env' := fun k => if (k <? length srcs)%nat then nth k rs d else r0). pose (args' := fun k => if (k <? length srcs)%nat then args k else f0).
  rewrite (proj1 (veval_occurs B (variables d rs) env') body).
  2:{ intros k Hk. unfold env', variables. pose proof (H_occurs k Hk). destruct (Nat.ltb_spec k (length srcs)); [reflexivity|lia]. }
  assert (forall i, element t (fun k => args' k i) i body = element t (fun k => args k i) i body) as E.
  { intros i. apply (proj1 (element_occurs t i _ _)). intros k Hk. unfold args'. pose proof (H_occurs k Hk). destruct (Nat.ltb_spec k (length srcs)); [reflexivity|lia]. }
  destruct (H_eval env' args' body) as (r & Q & P).
  - intros k. unfold env', args'. destruct (Nat.ltb_spec k (length srcs)); [apply R; assumption|exact R0].
  - intros i Hi. rewrite E. exact (D i Hi).
  - exists r. split; [exact Q|]. exact (H_ext _ _ _ P (fun i _ => f_equal val (E i))).
Qed.

End Ints.
