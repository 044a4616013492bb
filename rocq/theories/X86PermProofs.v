(** Proofs about the lane permutations of the x86 extensions: each program is
    run once on symbolic bytes. *)

From Coq Require Import ZArith String List Arith Bool Lia.
From Verif Require Import X86Shuffle X86Deg234 X86ShuffleSpec X86ShuffleProofs
  X86Perm X86PermSpec.
Import ListNotations.

Lemma call_stack_sound : forall v p ins outs rs m vs,
  call_stack None sbor p ins outs rs m = Some vs ->
  call_stack 0%Z zbor p ins outs (map (denr v) rs) (denr v m) =
  Some (map (denr v) vs).
Proof.
  intros v p ins outs rs m vs H. unfold call_stack in *.
  destruct (run None sbor p (mkState (combine ins rs) m)) as [s|] eqn:E;
    [|discriminate].
  apply (run_sound v) in E. unfold dens in E at 1. cbn [env mem] in E.
  rewrite combine_dene, E. cbn. now rewrite looks_sound, H.
Qed.

Lemma call_stack_frame : forall p ins outs rs m vs rest,
  call_stack 0%Z zbor p ins outs rs m = Some vs ->
  call_stack 0%Z zbor p ins outs rs (m ++ rest) = Some vs.
Proof.
  intros p ins outs rs m vs rest H. unfold call_stack in *.
  destruct (run 0%Z zbor p (mkState (combine ins rs) m)) as [s|] eqn:E;
    [|discriminate].
  apply (run_frame 0%Z zbor rest) in E. unfold more in E at 1.
  cbn [env mem] in E. rewrite E. exact H.
Qed.

(** The result of running [p] on symbolic bytes is [nout] registers of [r]
    bytes whose elements of [w] bytes are the elements [src 0], [src 1], ...
    of the [nin] registers given as parameters. *)
Definition moves (p : program) (ins outs : list string) (nin nout r w k : nat)
  (src : nat -> nat) : bool :=
  match call_stack None sbor p ins outs
          (map (fun j => inputs (j * r) r) (seq 0 nin))
          (inputs (nin * r) k) with
  | Some vs =>
      (List.length vs =? nout) &&
      forallb (fun x => List.length x =? r) vs &&
      forallb (fun i => (src i * w + w <=? nin * r)) (seq 0 (nout * r / w)) &&
      sb_eqb (concat vs)
        (flat_map (fun i => map (fun b => Some (src i * w + b)) (seq 0 w))
                  (seq 0 (nout * r / w)))
  | None => false
  end.

Lemma concat_slices : forall (rs : list (list Z)) r rest,
  Forall (fun x => List.length x = r) rs ->
  forall pre,
  map (fun j => denr (at_list (pre ++ concat rs ++ rest))
                  (inputs (List.length pre + j * r) r))
      (seq 0 (List.length rs)) = rs.
Proof.
  induction rs as [|x rs IH]; intros r rest H pre; [reflexivity|].
  inversion H as [|? ? Hx Hrs]; subst.
  cbn [List.length seq map concat]. f_equal.
  - rewrite denr_inputs, map_nth_seq by
      (rewrite !app_length; cbn; lia).
    rewrite Nat.mul_0_l, Nat.add_0_r, skipn_app, skipn_all, Nat.sub_diag.
    cbn [app skipn]. rewrite <- app_assoc, firstn_app, firstn_all, Nat.sub_diag.
    cbn. apply app_nil_r.
  - rewrite <- seq_shift, map_map.
    rewrite <- (IH _ rest Hrs (pre ++ x)) at 2.
    apply map_ext. intro j. rewrite <- !app_assoc, app_length. f_equal.
    f_equal. cbn. lia.
Qed.

Lemma concat_length : forall (rs : list (list Z)) r,
  Forall (fun x => List.length x = r) rs ->
  List.length (concat rs) = List.length rs * r.
Proof.
  induction rs as [|x rs IH]; intros r H; [reflexivity|].
  inversion H; subst. cbn. now rewrite app_length, (IH (List.length x)).
Qed.

Lemma concat_denr : forall v vs, concat (map (denr v) vs) = denr v (concat vs).
Proof.
  intros v vs. unfold denr. symmetry. apply concat_map.
Qed.

Lemma moves_sound : forall p ins outs nin nout r w k src, 0 < w ->
  moves p ins outs nin nout r w k src = true ->
  forall rs m, List.length rs = nin ->
  Forall (fun x => List.length x = r) rs -> k <= List.length m ->
  exists vs, call_stack 0%Z zbor p ins outs rs m = Some vs /\
    (List.length vs = nout /\ Forall (fun x => List.length x = r) vs) /\
    forall i, i < nout * r / w ->
      elt w i (concat vs) = elt w (src i) (concat rs).
Proof.
  intros p ins outs nin nout r w k src Hw H rs m L F K. unfold moves in H.
  destruct (call_stack None sbor p ins outs _ _) as [ss|] eqn:E;
    [|discriminate].
  apply andb_prop in H as [H H4]. apply andb_prop in H as [H H3].
  apply andb_prop in H as [H1 H2].
  apply Nat.eqb_eq in H1. apply sb_eqb_eq in H4.
  rewrite forallb_forall in H2, H3.
  set (m1 := firstn k m).
  assert (Lm : List.length m1 = k) by (unfold m1; rewrite firstn_length; lia).
  set (v := at_list (concat rs ++ m1)).
  pose proof (call_stack_sound v _ _ _ _ _ _ E) as S.
  rewrite map_map in S.
  pose proof (concat_slices rs r m1 F []) as C. cbn [app List.length plus] in C.
  rewrite L in C. fold v in C. rewrite C in S.
  assert (Lc : List.length (concat rs) = nin * r)
    by (rewrite (concat_length rs r F); now rewrite L).
  assert (Em : denr v (inputs (nin * r) k) = m1).
  { rewrite denr_inputs. unfold v.
    rewrite map_nth_seq by (rewrite app_length; lia).
    rewrite <- Lc, skipn_app, skipn_all, Nat.sub_diag. cbn [app skipn].
    now rewrite firstn_all2 by lia. }
  rewrite Em in S.
  apply (call_stack_frame _ _ _ _ _ _ (skipn k m)) in S.
  unfold m1 in S at 1. rewrite firstn_skipn in S.
  exists (map (denr v) ss). split; [exact S|]. split; [split|].
  - now rewrite map_length.
  - apply Forall_forall. intros x Hx. apply in_map_iff in Hx as [y [<- Hy]].
    unfold denr. rewrite map_length. apply Nat.eqb_eq, H2, Hy.
  - intros i Hi. rewrite concat_denr, H4. unfold elt, denr.
    rewrite skipn_map, firstn_map.
    rewrite (chunk_flat_map (fun i =>
        map (fun b => Some (src i * w + b)) (seq 0 w)))
      by (try (intro; now rewrite map_length, seq_length);
          rewrite seq_length; exact Hi).
    rewrite seq_nth by exact Hi. cbn [plus]. rewrite map_map. cbn [den].
    assert (B : src i * w + w <= nin * r).
    { apply Nat.leb_le. apply H3. apply in_seq. lia. }
    rewrite <- (map_map (fun b => src i * w + b) v), seq_add. unfold v.
    rewrite map_nth_seq by (rewrite app_length; lia).
    rewrite skipn_app, firstn_app.
    replace (w - List.length (skipn (src i * w) (concat rs))) with 0
      by (rewrite skipn_length; lia).
    cbn. now rewrite app_nil_r.
Qed.

(** ** The programs *)

Definition vtyps : list vtyp :=
  [El I8; El U8; El I16; El U16; El I32; El U32; El I64; El U64; El F32;
   El F64; F16].
Lemma vtyp_in : forall t, In t vtyps.
Proof. intros [[]|]; cbn; tauto. Qed.

Lemma all_cases : forall f : ext -> vtyp -> bool,
  forallb (fun e => forallb (f e) vtyps) exts = true ->
  forall e t, f e t = true.
Proof.
  intros f H e t. rewrite forallb_forall in H. specialize (H e (ext_in e)).
  rewrite forallb_forall in H. exact (H t (vtyp_in t)).
Qed.

Lemma lane_bytes_pos : forall t, 0 < lane_bytes t.
Proof. intros [[]|]; cbn; lia. Qed.

(** Where lane [i] of a reverse comes from. *)
Definition reverse_src (e : ext) (t : vtyp) (i : nat) : nat :=
  match t with
  | El _ => lanes e t - 1 - i
  | F16 => let h := lanes e t / 2 in
           if i <? h then h - 1 - i else lanes e t + h - 1 - i
  end.

Definition reverse_check (e : ext) (t : vtyp) : bool :=
  match reverse_prog e t with
  | Some p => moves p (regs "a0" t) (regs "ret" t) (nregs t) (nregs t)
                (reg_bytes e) (lane_bytes t) 0 (reverse_src e t)
  | None => match e, t with
            | (Avx512Knl | Avx512Skylake), El F64 => true
            | _, _ => false
            end
  end.
Lemma reverse_checks : forall e t, reverse_check e t = true.
Proof. apply all_cases. vm_compute. reflexivity. Qed.

Definition zip_src (hi : bool) (e : ext) (t : vtyp) (i : nat) : nat :=
  (if hi then lanes e t / 2 else 0) + i / 2 + (i mod 2) * lanes e t.
Definition unzip_src (hi : bool) (i : nat) : nat :=
  2 * i + (if hi then 1 else 0).

Definition zip_check (hi : bool) (e : ext) (t : vtyp) : bool :=
  moves (zip_prog hi e t) (regs "a0" t ++ regs "a1" t) (regs "ret" t)
    (2 * nregs t) (nregs t) (reg_bytes e) (lane_bytes t) 0 (zip_src hi e t).
Definition unzip_check (hi : bool) (e : ext) (t : vtyp) : bool :=
  moves (unzip_prog hi e t) (regs "a0" t ++ regs "a1" t) (regs "ret" t)
    (2 * nregs t) (nregs t) (reg_bytes e) (lane_bytes t) (3 * reg_bytes e)
    (unzip_src hi).
Lemma zip_checks : forall hi e t, zip_check hi e t = true.
Proof. intros []; apply all_cases; vm_compute; reflexivity. Qed.
Lemma unzip_checks : forall hi e t, unzip_check hi e t = true.
Proof. intros []; apply all_cases; vm_compute; reflexivity. Qed.

(** ** The functions *)

Lemma vector_app : forall e t a b, vector e t a -> vector e t b ->
  List.length (a ++ b) = 2 * nregs t /\
  Forall (fun x => List.length x = reg_bytes e) (a ++ b).
Proof.
  intros e t a b [La Fa] [Lb Fb]. split.
  - rewrite app_length. lia.
  - now apply Forall_app.
Qed.

Lemma vector_bytes : forall e t v, vector e t v ->
  List.length (concat v) = lanes e t * lane_bytes t.
Proof.
  intros e t v [L F]. rewrite (concat_length v _ F), L.
  destruct e, t as [[]|]; reflexivity.
Qed.

Lemma elt_app1 : forall w i (a b : list Z) n, List.length a = n * w -> i < n ->
  elt w i (a ++ b) = elt w i a.
Proof.
  intros w i a b n L H. unfold elt.
  assert (i * w + w <= n * w) by nia.
  rewrite skipn_app, firstn_app.
  replace (w - List.length (skipn (i * w) a)) with 0
    by (rewrite skipn_length; lia).
  cbn. apply app_nil_r.
Qed.

Lemma elt_app2 : forall w i (a b : list Z) n, List.length a = n * w ->
  elt w (n + i) (a ++ b) = elt w i b.
Proof.
  intros w i a b n L. unfold elt.
  rewrite skipn_app, skipn_all2 by (rewrite L; nia).
  cbn [app]. do 2 f_equal. rewrite L. nia.
Qed.

Lemma lane_app1 : forall e t a b i, vector e t a -> i < lanes e t ->
  elt (lane_bytes t) i (concat (a ++ b)) = lane t i a.
Proof.
  intros e t a b i V H. rewrite concat_app.
  now rewrite (elt_app1 _ _ _ _ (lanes e t) (vector_bytes e t a V) H).
Qed.
Lemma lane_app2 : forall e t a b i, vector e t a ->
  elt (lane_bytes t) (lanes e t + i) (concat (a ++ b)) = lane t i b.
Proof.
  intros e t a b i V. rewrite concat_app.
  now rewrite (elt_app2 _ _ _ _ (lanes e t) (vector_bytes e t a V)).
Qed.

Lemma lanes_even : forall e t, lanes e t = 2 * (lanes e t / 2).
Proof. intros [] [[]|]; reflexivity. Qed.

Lemma skipn_add : forall (l : list Z) x y, skipn x (skipn y l) = skipn (y + x) l.
Proof.
  intros l x y; revert l; induction y as [|y IH]; intros l; [reflexivity|].
  destruct l; [now rewrite !skipn_nil|]. cbn. apply IH.
Qed.

(** Vectors with the same lanes are equal. *)
Lemma elts_eq : forall w n (a b : list Z), 
  List.length a = n * w -> List.length b = n * w ->
  (forall i, i < n -> elt w i a = elt w i b) -> a = b.
Proof.
  intros w n; induction n as [|n IH]; intros a b La Lb H.
  - destruct a; [|discriminate]. now destruct b.
  - rewrite <- (firstn_skipn w a), <- (firstn_skipn w b). f_equal.
    + pose proof (H 0 ltac:(lia)) as H0. unfold elt in H0. exact H0.
    + apply IH; [rewrite skipn_length; lia..|].
      intros i Hi. specialize (H (S i) ltac:(lia)). unfold elt in *.
      rewrite !skipn_add.
      replace (w + i * w) with (S i * w) by (cbn; lia). exact H.
Qed.

Lemma app_split : forall (x y a b : list Z), List.length x = List.length y ->
  x ++ a = y ++ b -> x = y /\ a = b.
Proof.
  induction x as [|u x IH]; intros [|v y] a b L E; try discriminate; [auto|].
  cbn in *. injection E as -> E. injection L as L.
  destruct (IH _ _ _ L E) as [-> ->]. auto.
Qed.

Lemma concat_inj : forall r (a b : list (list Z)),
  Forall (fun x => List.length x = r) a ->
  Forall (fun x => List.length x = r) b ->
  List.length a = List.length b -> concat a = concat b -> a = b.
Proof.
  intros r a; induction a as [|x a IH]; intros [|y b] Fa Fb L E;
    try discriminate; [reflexivity|].
  inversion Fa; inversion Fb; subst. cbn in E.
  assert (x = y /\ concat a = concat b) as [-> E'].
  { apply app_split; [congruence|exact E]. }
  f_equal. apply IH; auto.
Qed.

Lemma vector_eq : forall e t a b, vector e t a -> vector e t b ->
  (forall i, i < lanes e t -> lane t i a = lane t i b) -> a = b.
Proof.
  intros e t a b Va Vb H. pose proof Va as [La Fa]. pose proof Vb as [Lb Fb].
  apply (concat_inj (reg_bytes e)); auto; [congruence|].
  apply (elts_eq (lane_bytes t) (lanes e t)); auto using vector_bytes.
Qed.

Lemma reverse_ok : forall e t v, vector e t v ->
  ~ (t = El F64 /\ (e = Avx512Knl \/ e = Avx512Skylake)) ->
  exists r, reverse_x86 e t v = Some r /\ vector e t r /\
    forall i, i < lanes e t -> lane t i r = lane t (reverse_src e t i) v.
Proof.
  intros e t v V N. pose proof (reverse_checks e t) as C.
  unfold reverse_check, reverse_x86 in *.
  destruct (reverse_prog e t) as [p|].
  - destruct V as [L F].
    apply (moves_sound _ _ _ _ _ _ _ _ _ (lane_bytes_pos t) C v []);
      auto.
  - exfalso. apply N. destruct e, t as [[]|]; try discriminate; auto.
Qed.

Lemma zip_ok : forall hi e t a b, vector e t a -> vector e t b ->
  exists r, zip_half_x86 hi e t a b = Some r /\ vector e t r /\
    forall i, i < lanes e t / 2 ->
      lane t (2 * i) r = lane t ((if hi then lanes e t / 2 else 0) + i) a /\
      lane t (2 * i + 1) r = lane t ((if hi then lanes e t / 2 else 0) + i) b.
Proof.
  intros hi e t a b Va Vb. destruct (vector_app e t a b Va Vb) as [L F].
  destruct (moves_sound _ _ _ _ _ _ _ _ _ (lane_bytes_pos t)
    (zip_checks hi e t) (a ++ b) [] L F) as [r [E [V H]]];
    [apply Nat.le_refl|].
  exists r. split; [exact E|]. split; [exact V|]. intros i Hi.
  pose proof (lanes_even e t) as Ev.
  set (h := lanes e t / 2) in *. fold (lanes e t) in H.
  pose proof (H (2 * i) ltac:(lia)) as H0.
  pose proof (H (2 * i + 1) ltac:(lia)) as H1.
  unfold zip_src in H0, H1. fold h in H0, H1.
  replace (2 * i / 2) with i in H0
    by (rewrite Nat.mul_comm, Nat.div_mul; lia).
  replace ((2 * i) mod 2) with 0 in H0
    by (rewrite Nat.mul_comm, Nat.mod_mul; lia).
  replace ((2 * i + 1) / 2) with i in H1
    by (rewrite Nat.mul_comm, Nat.div_add_l; cbn; lia).
  replace ((2 * i + 1) mod 2) with 1 in H1
    by (rewrite Nat.add_comm, Nat.mul_comm, Nat.mod_add; cbn; lia).
  rewrite Nat.mul_0_l, Nat.add_0_r in H0.
  rewrite Nat.mul_1_l in H1.
  split.
  - unfold lane at 1. rewrite H0. apply (lane_app1 e t); [exact Va|].
    destruct hi; lia.
  - unfold lane at 1. rewrite H1, Nat.add_comm. now apply lane_app2.
Qed.

Lemma unzip_ok : forall hi e t a b m, vector e t a -> vector e t b ->
  stack e m ->
  exists r, unzip_half_x86 hi e t a b m = Some r /\ vector e t r /\
    forall i, i < lanes e t / 2 ->
      lane t i r = lane t (2 * i + (if hi then 1 else 0)) a /\
      lane t (lanes e t / 2 + i) r =
        lane t (2 * i + (if hi then 1 else 0)) b.
Proof.
  intros hi e t a b m Va Vb S. destruct (vector_app e t a b Va Vb) as [L F].
  destruct (moves_sound _ _ _ _ _ _ _ _ _ (lane_bytes_pos t)
    (unzip_checks hi e t) (a ++ b) m L F S) as [r [E [V H]]].
  exists r. split; [exact E|]. split; [exact V|]. intros i Hi.
  pose proof (lanes_even e t) as Ev.
  set (h := lanes e t / 2) in *. fold (lanes e t) in H.
  pose proof (H i ltac:(lia)) as H0.
  pose proof (H (h + i) ltac:(lia)) as H1.
  unfold unzip_src in H0, H1. split.
  - unfold lane at 1. rewrite H0. apply (lane_app1 e t); [exact Va|].
    destruct hi; lia.
  - unfold lane at 1. rewrite H1.
    replace (2 * (h + i) + (if hi then 1 else 0))
      with (lanes e t + (2 * i + (if hi then 1 else 0))) by lia.
    now apply lane_app2.
Qed.
