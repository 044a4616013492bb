(** C41-C43: TET1D expressions, masked assignment, slices and sizes. *)
From Coq Require Import ZArith Lia Bool List.
From Coq Require Import ZifyBool.
From Verif Require Import CInt ScalarOps CpuSimd CpuSimdSpec CpuSimdProofs CpuSimdMem Pack PackSpec PackProofs Gpu GpuProofs PropGpu Tet1d Tet1dSpec Tet1dProofs.
Import ListNotations.
Open Scope Z_scope.

(** The i-th element of the result, everything else unchanged. *)
Definition holds_at (m m' : mem) (dst n : Z) (F : Z -> option Z) : Prop :=
  (forall i, 0 <= i < n -> m' (dst + i) = F i) /\ (forall x, (x < dst \/ dst + n <= x) -> m' x = m x).

Lemma state_holds m m' dst n F : state_at m dst F m' n -> holds_at m m' dst n F.
Proof.
  intros S. split.
  - intros i Hi. rewrite S. replace ((dst <=? dst + i) && (dst + i <? dst + n)) with true by lia. f_equal. lia.
  - intros x Hx. rewrite S. replace ((dst <=? x) && (x <? dst + n)) with false by lia. reflexivity.
Qed.

(** C41 (CPU). [out = expr], any vector length and unroll factor. *)
Theorem C41_cpu : forall t len N m dst e n, t <> EF16 -> (1 <= N)%nat -> (1 <= len)%nat ->
  size e = Some n -> 0 <= n -> no_partial_overlap dst n (arrays e) ->
  (forall i, 0 <= i < n -> m (dst + i) <> None) ->
  (forall i, 0 <= i < n -> value (nth_elem m i) e <> None) ->
  exists m', assign t len N m dst e = Some m' /\ holds_at m m' dst n (fun i => value (nth_elem m i) e).
Proof.
  intros t len N m dst e n Ht HN Hlen Hs Hn Ho Hm Hv. unfold assign. rewrite Hs. cbn [bind].
  destruct (cpu_kernel_ok t len N Ht HN m dst n e Hm (fun i => value (nth_elem m i) e) Hv Ho) as (m' & E & S).
  - unfold L, pk_len. nia.
  - reflexivity.
  - exact Hn.
  - exists m'. split; [exact E|]. apply state_holds. exact S.
Qed.
Print Assumptions C41_cpu.

(** An expression of scalars only has no size: nothing is written. *)
Theorem C41_scalar_only : forall t len N m dst v, assign t len N m dst (EScal v) = Some m.
Proof. intros. unfold assign, cpu_kernel. cbn [size bind]. cbn [cw_simd Z.to_nat Z.add]. unfold L, pk_len.
  replace (Z.of_nat N * Z.of_nat len <? -1) with false by nia. reflexivity. Qed.
Print Assumptions C41_scalar_only.

(** C41 (GPU). The same under every schedule of the threads. *)
Theorem C41_gpu : forall k b m dst e n blocks sched, size e = Some n -> 0 <= n -> 1 <= b -> blocks = kernel_param_cuda n b -> max_threads k (blocks * b) ->
  no_partial_overlap dst n (arrays e) ->
  (forall i, 0 <= i < n -> m (dst + i) <> None) ->
  (forall i, 0 <= i < n -> value (nth_elem m i) e <> None) ->
  Forall (fun g => In g (threads blocks b)) sched ->
  exists s, gpu_assign k b m dst e sched = Some s /\
    (finished (threads blocks b) s -> holds_at m (gmem s) dst n (fun i => value (nth_elem m i) e)) /\
    ((forall g, In g (threads blocks b) -> (2 <= count_occ Z.eq_dec sched g)%nat) -> finished (threads blocks b) s).
Proof.
  intros k b m dst e n blocks sched Hs Hn Hb Hbl Hl Ho Hm Hv Hf. unfold gpu_assign. rewrite Hs. cbn [bind].
  destruct (C32_any_schedule k n dst (fun _ _ => Some true) (fun m i => scalar_get m e i) blocks b m sched Hn Hb Hbl Hl Hm) as (s & E & H1 & H2 & H3); auto.
  - intros i m' Hi Hx. split; [reflexivity|]. rewrite !scalar_get_value. eapply value_local; eauto.
  - intros i Hi. exists true. split; [reflexivity|]. intros _. rewrite scalar_get_value. apply Hv. exact Hi.
  - exists s. split; [exact E|]. split; [|exact H3]. intros Hfin. split; [|exact H1]. intros i Hi. rewrite (H2 Hfin i Hi). apply scalar_get_value.
Qed.
Print Assumptions C41_gpu.

Definition tmem : mem := fun x => if (0 <=? x) && (x <? 40) then Some (x * x) else None.
(** a[i] + 3 * b[i] over 7 elements with vectors of 2 registers of 1 lane, and in place. *)
Definition ex_e : expr := EBin (s_add i32) (EIn 0 7) (EBin (s_mul i32) (EScal 3) (EIn 20 7)).
Example C41_ex : size ex_e = Some 7 /\ no_partial_overlap 10 7 (arrays ex_e) /\ no_partial_overlap 0 7 (arrays ex_e) /\
  option_map (fun m => map m [9; 10; 11; 12; 13; 14; 15; 16; 17]) (assign (EI i32) 1 2 tmem 10 ex_e) =
    Some (map Some [81; 0 + 3 * 400; 1 + 3 * 441; 4 + 3 * 484; 9 + 3 * 529; 16 + 3 * 576; 25 + 3 * 625; 36 + 3 * 676; 289]) /\
  option_map (fun m => map m [0; 6; 7]) (assign (EI i32) 4 1 tmem 0 ex_e) = Some (map Some [1200; 36 + 3 * 676; 49]).
Proof.
  split; [reflexivity|]. split; [repeat constructor; cbn [fst]; lia|]. split; [repeat constructor; cbn [fst]; lia|]. vm_compute. auto.
Qed.

(** C42 (CPU). [out(mask) = expr] writes where the mask is true only. *)
Theorem C42_cpu : forall t len N m dst c e sc se n, t <> EF16 -> (1 <= N)%nat -> (1 <= len)%nat ->
  sizeb c = Some sc -> size e = Some se -> compute_size sc se = Some n -> 0 <= n ->
  no_partial_overlap dst n (arrays e) -> no_partial_overlap dst n (arraysb c) ->
  (forall i, 0 <= i < n -> m (dst + i) <> None) ->
  (forall i, 0 <= i < n -> valueb (nth_elem m i) c <> None) ->
  (forall i, 0 <= i < n -> value (nth_elem m i) e <> None) ->
  exists m', assign_mask t len N m dst c e = Some m' /\
    holds_at m m' dst n (fun i => match valueb (nth_elem m i) c with Some true => value (nth_elem m i) e | _ => m (dst + i) end).
Proof.
  intros t len N m dst c e sc se n Ht HN Hlen Hc He Hs Hn Ho Hoc Hm Hb Hv. unfold assign_mask, bind2. rewrite Hc, He. cbn [bind]. rewrite Hs. cbn [bind].
  destruct (cpu_kernel_mask_ok t len N Ht HN m dst n e Hm (fun i => match valueb (nth_elem m i) c with Some true => value (nth_elem m i) e | _ => m (dst + i) end)) with (k := c) as (m' & E & S); auto.
  - intros j Hj. destruct (valueb (nth_elem m j) c) as [[|]|]; auto.
  - unfold L, pk_len. nia.
  - exists m'. split; [exact E|]. apply state_holds. exact S.
Qed.
Print Assumptions C42_cpu.

(** C42 (GPU): there the value is needed only where the mask is true. *)
Theorem C42_gpu : forall k b m dst c e sc se n blocks sched,
  sizeb c = Some sc -> size e = Some se -> compute_size sc se = Some n -> 0 <= n -> 1 <= b -> blocks = kernel_param_cuda n b -> max_threads k (blocks * b) ->
  no_partial_overlap dst n (arrays e) -> no_partial_overlap dst n (arraysb c) ->
  (forall i, 0 <= i < n -> m (dst + i) <> None) ->
  (forall i, 0 <= i < n -> valueb (nth_elem m i) c <> None) ->
  (forall i, 0 <= i < n -> valueb (nth_elem m i) c = Some true -> value (nth_elem m i) e <> None) ->
  Forall (fun g => In g (threads blocks b)) sched ->
  exists s, gpu_assign_mask k b m dst c e sched = Some s /\
    (finished (threads blocks b) s ->
       holds_at m (gmem s) dst n (fun i => match valueb (nth_elem m i) c with Some true => value (nth_elem m i) e | _ => m (dst + i) end)) /\
    ((forall g, In g (threads blocks b) -> (2 <= count_occ Z.eq_dec sched g)%nat) -> finished (threads blocks b) s).
Proof.
  intros k b m dst c e sc se n blocks sched Hc He Hs Hn Hb Hbl Hl Ho Hoc Hm Hd Hv Hf. unfold gpu_assign_mask, bind2. rewrite Hc, He. cbn [bind]. rewrite Hs. cbn [bind].
  destruct (C32_any_schedule k n dst (fun m i => scalar_getb m c i) (fun m i => scalar_get m e i) blocks b m sched Hn Hb Hbl Hl Hm) as (s & E & H1 & H2 & H3); auto.
  - intros i m' Hi Hx. rewrite !scalar_get_value, !scalar_getb_value. split; [eapply valueb_local|eapply value_local]; eauto.
  - intros i Hi. rewrite scalar_getb_value. specialize (Hd i Hi). specialize (Hv i Hi). destruct (valueb (nth_elem m i) c) as [x|]; [|congruence].
    exists x. split; [reflexivity|]. intros ->. rewrite scalar_get_value. auto.
  - exists s. split; [exact E|]. split; [|exact H3]. intros Hfin. split; [|exact H1]. intros i Hi. rewrite (H2 Hfin i Hi).
    rewrite scalar_getb_value, scalar_get_value. reflexivity.
Qed.
Print Assumptions C42_gpu.

Definition ex_c : bexpr := BBin Band (BCmp (fun x y => y <=? x) (EIn 0 5) (EScal 3)) (BNot (BCmp Z.eqb (EIn 0 5) (EScal 9))).
Example C42_ex : sizeb ex_c = Some 5 /\
  option_map (fun m => map m [9; 10; 11; 12; 13; 14; 15]) (assign_mask (EI i32) 2 1 tmem 10 ex_c (EIn 20 5)) = Some (map Some [81; 100; 121; 484; 169; 576; 225]).
Proof. vm_compute. auto. Qed.
(** On CPU the value is computed in the masked-out lanes too: dividing by the
    elements the mask excludes is undefined in the SIMD loop (3 elements, vectors
    of 2 lanes), although every selected element is fine. *)
Definition div_e : expr := EBin (s_div i32) (EScal 10) (EIn 0 3).
Definition div_c : bexpr := BCmp (fun x y => negb (x =? y)) (EIn 0 3) (EScal 0).
Theorem C42_masked_out_lanes_refuted :
  (forall i, 0 <= i < 3 -> valueb (nth_elem tmem i) div_c = Some true -> value (nth_elem tmem i) div_e <> None) /\
  assign_mask (EI i32) 2 1 tmem 10 div_c div_e = None /\
  option_map (fun m => map m [10; 11; 12]) (assign_mask (EI i32) 4 1 tmem 10 div_c div_e) = Some (map Some [100; 10; 2]).
Proof.
  split; [|vm_compute; auto]. intros i Hi. assert (H : i = 0 \/ i = 1 \/ i = 2) by lia.
  destruct H as [-> | [-> | ->]]; vm_compute; congruence.
Qed.
Print Assumptions C42_masked_out_lanes_refuted.

(** C43. Sizes: when the asserts pass, all arrays have the size of the expression. *)
Lemma compute_size_inv a b n : compute_size a b = Some n -> (a = n /\ 0 <= n \/ a < 0) /\ (b = n /\ 0 <= n \/ b < 0) /\ 0 <= n.
Proof.
  unfold compute_size. destruct (negb ((0 <=? a) || (0 <=? b))) eqn:E1; [discriminate|].
  destruct (negb (((a <? 0) && (0 <=? b)) || ((0 <=? a) && (b <? 0)) || (a =? b))) eqn:E2; [discriminate|].
  intros H. injection H as <-. destruct (a <? 0) eqn:E3; lia.
Qed.
Lemma sizes e : Forall (fun a => 0 <= snd a) (arrays e) -> forall n, size e = Some n ->
  (n < 0 -> arrays e = []) /\ (0 <= n -> arrays e <> [] /\ Forall (fun a => snd a = n) (arrays e)).
Proof.
  induction e as [v|data sz|g e IH|g e IH s|g l IHl r IHr|g l IHl r IHr x IHx]; cbn [arrays size]; intros Hp n Hs.
  - injection Hs as <-. split; [reflexivity|lia].
  - injection Hs as <-. inversion Hp; subst. cbn [snd] in *. split; [lia|]. intros _. split; [discriminate|]. repeat constructor.
  - apply IH; assumption.
  - apply IH; assumption.
  - apply Forall_app in Hp. destruct Hp as [Pl Pr]. unfold bind2 in Hs. destruct (size l) as [a|]; cbn [bind] in Hs; [|discriminate].
    destruct (size r) as [b|]; cbn [bind] in Hs; [|discriminate]. destruct (compute_size_inv _ _ _ Hs) as (Ha & Hb & Hn).
    destruct (IHl Pl a eq_refl) as [A1 A2]. destruct (IHr Pr b eq_refl) as [B1 B2]. split; [lia|]. intros _.
    assert (Forall (fun a => snd a = n) (arrays l)) by (destruct Ha as [[-> _]|Ha]; [apply A2; lia|rewrite A1 by lia; constructor]).
    assert (Forall (fun a => snd a = n) (arrays r)) by (destruct Hb as [[-> _]|Hb]; [apply B2; lia|rewrite B1 by lia; constructor]).
    split; [|apply Forall_app; split; assumption].
    intros Hnil. apply app_eq_nil in Hnil. destruct Hnil as [N1 N2].
    destruct Ha as [[-> _]|Ha]; [destruct (A2 Hn); congruence|]. destruct Hb as [[-> _]|Hb]; [destruct (B2 Hn); congruence|].
    unfold compute_size in Hs. replace (negb ((0 <=? a) || (0 <=? b))) with true in Hs by lia. discriminate.
  - apply Forall_app in Hp. destruct Hp as [Pl Pr]. apply Forall_app in Pr. destruct Pr as [Pr Px]. unfold bind2 in Hs. destruct (size l) as [a|]; cbn [bind] in Hs; [|discriminate].
    destruct (size r) as [b|]; cbn [bind] in Hs; [|discriminate]. destruct (size x) as [c|]; cbn [bind] in Hs; [|discriminate].
    unfold compute_size3 in Hs. destruct (compute_size a b) as [ab|] eqn:Eab; cbn [bind] in Hs; [|discriminate].
    destruct (compute_size_inv _ _ _ Eab) as (Ha & Hb & Hab). destruct (compute_size_inv _ _ _ Hs) as (Hab2 & Hc & Hn).
    assert (ab = n) by lia. subst ab.
    destruct (IHl Pl a eq_refl) as [A1 A2]. destruct (IHr Pr b eq_refl) as [B1 B2]. destruct (IHx Px c eq_refl) as [C1 C2]. split; [lia|]. intros _.
    assert (Forall (fun a => snd a = n) (arrays l)) by (destruct Ha as [[-> _]|Ha]; [apply A2; lia|rewrite A1 by lia; constructor]).
    assert (Forall (fun a => snd a = n) (arrays r)) by (destruct Hb as [[-> _]|Hb]; [apply B2; lia|rewrite B1 by lia; constructor]).
    assert (Forall (fun a => snd a = n) (arrays x)) by (destruct Hc as [[-> _]|Hc]; [apply C2; lia|rewrite C1 by lia; constructor]).
    split; [|apply Forall_app; split; [|apply Forall_app; split]; assumption].
    intros Hnil. apply app_eq_nil in Hnil. destruct Hnil as [N1 N2]. apply app_eq_nil in N2. destruct N2 as [N2 N3].
    destruct Ha as [[-> _]|Ha]; [destruct (A2 Hn); congruence|]. destruct Hb as [[-> _]|Hb]; [destruct (B2 Hn); congruence|].
    unfold compute_size in Eab. replace (negb ((0 <=? a) || (0 <=? b))) with true in Eab by lia. discriminate.
Qed.
Theorem C43_sizes_agree : forall e n, Forall (fun a => 0 <= snd a) (arrays e) -> size e = Some n -> 0 <= n ->
  arrays e <> [] /\ Forall (fun a => snd a = n) (arrays e).
Proof. intros e n Hp Hs Hn. apply (sizes e Hp n Hs). exact Hn. Qed.
Print Assumptions C43_sizes_agree.

(** Hence an assignment whose operators are total reads inside its arrays only: it
    is defined as soon as each array is readable over its own declared size. *)
Fixpoint total_ops (e : expr) : Prop :=
  match e with
  | EScal _ | EIn _ _ => True
  | EUn g e => (forall x, g x <> None) /\ total_ops e
  | EShift g e s => (forall x, g x s <> None) /\ total_ops e
  | EBin g l r => (forall x y, g x y <> None) /\ total_ops l /\ total_ops r
  | ETer g l r x => (forall a b c, g a b c <> None) /\ total_ops l /\ total_ops r /\ total_ops x
  end.
Lemma total_value el e : total_ops e -> (forall a, In a (arrays e) -> el (fst a) <> None) -> value el e <> None.
Proof.
  induction e as [v|data sz|g e IH|g e IH s|g l IHl r IHr|g l IHl r IHr x IHx]; cbn [total_ops arrays value]; intros Ht Ha.
  - discriminate.
  - apply (Ha (data, sz)). left; reflexivity.
  - destruct Ht as [Hg Ht]. specialize (IH Ht Ha). destruct (value el e); cbn [bind]; [apply Hg|congruence].
  - destruct Ht as [Hg Ht]. specialize (IH Ht Ha). destruct (value el e); cbn [bind]; [apply Hg|congruence].
  - destruct Ht as (Hg & Hl & Hr). assert (value el l <> None) by (apply IHl; [assumption|]; intros; apply Ha; apply in_or_app; tauto).
    assert (value el r <> None) by (apply IHr; [assumption|]; intros; apply Ha; apply in_or_app; tauto).
    destruct (value el l); cbn [bind]; [|congruence]. destruct (value el r); cbn [bind]; [apply Hg|congruence].
  - destruct Ht as (Hg & Hl & Hr & Hx). assert (value el l <> None) by (apply IHl; [assumption|]; intros; apply Ha; rewrite !in_app_iff; tauto).
    assert (value el r <> None) by (apply IHr; [assumption|]; intros; apply Ha; rewrite !in_app_iff; tauto).
    assert (value el x <> None) by (apply IHx; [assumption|]; intros; apply Ha; rewrite !in_app_iff; tauto).
    destruct (value el l); cbn [bind]; [|congruence]. destruct (value el r); cbn [bind]; [|congruence]. destruct (value el x); cbn [bind]; [apply Hg|congruence].
Qed.
Theorem C43_no_out_of_bounds : forall t len N m dst e n, t <> EF16 -> (1 <= N)%nat -> (1 <= len)%nat ->
  size e = Some n -> 0 <= n -> total_ops e ->
  Forall (fun a => 0 <= snd a /\ readable m a) (arrays e) -> (forall i, 0 <= i < n -> m (dst + i) <> None) ->
  no_partial_overlap dst n (arrays e) -> assign t len N m dst e <> None.
Proof.
  intros t len N m dst e n Ht HN Hlen Hs Hn Htot Ha Hm Ho.
  destruct (C41_cpu t len N m dst e n Ht HN Hlen Hs Hn Ho Hm) as (m' & E & _); [|congruence].
  intros i Hi. apply total_value; [assumption|]. intros a Hin.
  assert (Hsz : Forall (fun a => snd a = n) (arrays e)).
  { apply C43_sizes_agree; [|assumption..]. rewrite Forall_forall in *. intros x Hx. apply Ha. exact Hx. }
  rewrite Forall_forall in Ha, Hsz. apply (Ha a Hin). rewrite (Hsz a Hin). exact Hi.
Qed.
Print Assumptions C43_no_out_of_bounds.
Example C43_ex : total_ops (EBin (fun x y => Some (Z.land x y)) (EIn 0 3) (EScal 1)) /\ readable tmem (0, 3) /\ size (EBin (s_add i32) (EIn 0 3) (EIn 5 4)) = None.
Proof. split; [cbn; repeat split; discriminate|]. split; [|reflexivity]. intros i Hi. cbn [fst snd] in *. unfold tmem. replace ((0 <=? 0 + i) && (0 + i <? 40)) with true by lia. discriminate. Qed.

(** C43. Slices: elements i0..i1 of the array, negative indices counting from the
    end; accepted exactly when 0 <= i0 < i1 < size. *)
Definition from_end (sz i : Z) : Z := if i <? 0 then sz + i else i.
Theorem C43_slice : forall data sz i0 i1,
  (forall s, slice data sz i0 i1 = Some s <->
     s = EIn (data + from_end sz i0) (from_end sz i1 - from_end sz i0 + 1) /\ 0 <= from_end sz i0 < from_end sz i1 /\ from_end sz i1 < sz) /\
  (forall s m k, slice data sz i0 i1 = Some s -> value (nth_elem m k) s = m (data + (from_end sz i0 + k)) /\
     (forall n, size s = Some n -> 0 <= k < n -> 0 <= from_end sz i0 + k < sz)).
Proof.
  intros data sz i0 i1.
  assert (H : forall s, slice data sz i0 i1 = Some s <->
     s = EIn (data + from_end sz i0) (from_end sz i1 - from_end sz i0 + 1) /\ 0 <= from_end sz i0 < from_end sz i1 /\ from_end sz i1 < sz).
  { intros s. unfold slice, from_end.
    replace (if 0 <=? i0 then i0 else sz + i0) with (if i0 <? 0 then sz + i0 else i0) by (destruct (0 <=? i0) eqn:?, (i0 <? 0) eqn:?; lia).
    replace (if 0 <=? i1 then i1 else sz + i1) with (if i1 <? 0 then sz + i1 else i1) by (destruct (0 <=? i1) eqn:?, (i1 <? 0) eqn:?; lia).
    set (a := if i0 <? 0 then sz + i0 else i0). set (b := if i1 <? 0 then sz + i1 else i1).
    destruct ((0 <=? a) && (a <? b) && (b <? sz)) eqn:E.
    - split; [intros Hs; injection Hs as <-; split; [reflexivity|lia]|intros [-> _]; reflexivity].
    - split; [discriminate|]. intros [_ Hc]. lia. }
  split; [exact H|]. intros s m k Hs. apply H in Hs. destruct Hs as [-> Hr]. cbn [value size]. unfold nth_elem. split; [f_equal; lia|].
  intros n Hn Hk. injection Hn as <-. lia.
Qed.
Print Assumptions C43_slice.
(** In particular a one-element slice is rejected, and so are three operands whose
    first two are scalars. *)
Theorem C43_refuted : (forall data sz i, slice data sz i i = None) /\
  (forall g a b d n, size (ETer g (EScal a) (EScal b) (EIn d n)) = None) /\
  (forall g a b d n, 0 <= n -> size (ETer g (EScal a) (EIn d n) (EScal b)) = Some n).
Proof.
  split; [|split].
  - intros. unfold slice. destruct (0 <=? i); match goal with |- (if ?c then _ else _) = _ => replace c with false by lia; reflexivity end.
  - reflexivity.
  - intros. cbn [size]. unfold bind2, compute_size3. cbn [bind]. unfold compute_size.
    assert (E1 : (0 <=? n) = true) by lia. assert (E2 : (n <? 0) = false) by lia. assert (E3 : (n =? -1) = false) by lia.
    cbn [Z.ltb Z.compare Z.leb]. rewrite E1. cbn [negb orb andb bind]. rewrite E1, E2, E3. reflexivity.
Qed.
Print Assumptions C43_refuted.
