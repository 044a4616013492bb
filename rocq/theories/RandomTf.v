From Coq Require Import ZArith Znumtheory Bool List Lia.
From Verif Require Import CInt BitLemmas ScalarOps ScalarSpec ScalarProofs CpuSimd CpuSimdSpec CpuSimdProofs CpuSimdLoop Random RandomSpec RandomProofs.
Import ListNotations.
Open Scope Z_scope.

(** *** ThreeFry, register version *)
Lemma addw_word w x y : 0 <= w -> word w (addw w x y).
Proof. apply word_addw. Qed.
Lemma mix_word w N x : 0 <= w -> 0 <= N <= w -> word2 w x -> word2 w (mix w N x).
Proof.
  intros Hw HN. destruct x as [a b]. intros [Ha Hb]. cbn [fst snd] in *. unfold mix, word2. cbn [fst snd].
  split; [apply word_addw; assumption|]. apply word_lxor; [assumption|apply word_rotl; assumption|apply word_addw; assumption].
Qed.
Lemma nth_rot (P : Z -> Prop) rot i : length rot = 8%nat -> Forall P rot -> P (nth (i mod 8) rot 0).
Proof. intros L H. rewrite Forall_forall in H. apply H. apply nth_In. rewrite L. apply Nat.mod_upper_bound. lia. Qed.
Lemma nth_rot2 (P : Z * Z -> Prop) rot i : length rot = 8%nat -> Forall P rot -> P (nth (i mod 8) rot (0, 0)).
Proof. intros L H. rewrite Forall_forall in H. apply H. apply nth_In. rewrite L. apply Nat.mod_upper_bound. lia. Qed.

Lemma t2_word w p rot R c k : 0 <= w -> length rot = 8%nat -> Forall (fun N => 0 < N < w) rot -> word2 w (t2 w p rot R c k).
Proof.
  intros Hw L HR. induction R as [|r IH]; cbn [t2]; [split; apply word_addw; assumption|].
  pose proof (mix_word w (nth (r mod 8) rot 0) _ Hw ltac:(pose proof (nth_rot _ rot r L HR) as X; cbv beta in X; lia) IH) as W.
  destruct (mix w (nth (r mod 8) rot 0) (t2 w p rot r c k)) as [x0 x1].
  destruct (Nat.eqb (S r mod 4) 0); [split; apply word_addw; assumption|exact W].
Qed.

Lemma four i : Nat.eqb (i mod 4) 3 = Nat.eqb (S i mod 4) 0.
Proof.
  pose proof (Nat.div_mod i 4 ltac:(lia)). pose proof (Nat.mod_upper_bound i 4 ltac:(lia)).
  set (q := (i / 4)%nat) in *. set (m := (i mod 4)%nat) in *.
  assert (S i mod 4 = if Nat.eqb m 3 then 0 else S m)%nat as ->.
  { symmetry. destruct (Nat.eqb_spec m 3).
    - apply Nat.mod_unique with (S q); lia.
    - apply Nat.mod_unique with q; lia. }
  destruct (Nat.eqb_spec m 3); reflexivity.
Qed.
Lemma four_div i : Nat.eqb (S i mod 4) 0 = true -> (i / 4 + 1 = S i / 4)%nat.
Proof.
  intros H. apply Nat.eqb_eq in H. pose proof (Nat.div_mod (S i) 4 ltac:(lia)) as D. rewrite H in D.
  enough (i / 4 = S i / 4 - 1)%nat by lia. symmetry. apply Nat.div_unique with 3%nat; lia.
Qed.
Lemma addw_addw w x e d : 0 <= w -> addw w (addw w x e) d = addw w x ((e + d) mod 2 ^ w).
Proof.
  intros Hw. pose proof (pow2_pos w Hw). unfold addw. rewrite Z.add_mod_idemp_l, Z.add_mod_idemp_r by lia. f_equal. ring.
Qed.

Section TfReg.
Variables (t : ity) (n : nat).
Hypothesis Ht : t = u32 \/ t = u64.
Local Notation w := (bits t).
Lemma tw0 : 0 <= w.
Proof. pose proof (w_pos t Ht). lia. Qed.

Lemma keys3 k0 k1 p m : (m < 3)%nat -> nth m [mk n k0; mk n k1; mk n p] [] = mk n (fun i => nth m [k0 i; k1 i; p i] 0).
Proof. intros H. destruct m as [|[|[|m]]]; [reflexivity..|lia]. Qed.
Lemma keys5 k0 k1 k2 k3 p m : (m < 5)%nat -> nth m [mk n k0; mk n k1; mk n k2; mk n k3; mk n p] [] = mk n (fun i => nth m [k0 i; k1 i; k2 i; k3 i; p i] 0).
Proof. intros H. destruct m as [|[|[|[|[|m]]]]]; [reflexivity..|lia]. Qed.

Lemma round2_mk rot i F : length rot = 8%nat -> Forall (fun N => 0 < N < w) rot -> wf2 w F ->
  threefry2_round t n rot i (mk2 n F) = Some (mk2 n (fun l => mix w (nth (i mod 8) rot 0) (F l))).
Proof.
  intros L HR HF. pose proof (nth_rot _ rot i L HR) as HN. cbv beta in HN. unfold threefry2_round, mk2.
  set (N := nth (i mod 8) rot 0) in *. clearbody N.
  rewrite vadd_mk by assumption. cbn [bind]. rewrite shift_mod_mk; [|assumption|assumption|intros l; apply HF]. cbn [bind].
  rewrite vxor_mk; [|assumption|intros l; apply word_rotl; [lia|apply HF]|intros l; apply word_addw; apply tw0]. cbn [bind].
  f_equal. f_equal; apply mk_ext; intros l _; unfold mix; destruct (F l); reflexivity.
Qed.
Lemma inject2_mk par k i F :
  threefry2_inject t n [mk n (fun l => fst (k l)); mk n (fun l => snd (k l)); mk n (fun l => Z.lxor (Z.lxor par (fst (k l))) (snd (k l)))] i (mk2 n F)
  = Some (mk2 n (fun l => let '(x0, x1) := F l in let sk := subkey w par [fst (k l); snd (k l)] in
      if Nat.eqb (S i mod 4) 0 then (addw w x0 (sk (S i / 4)%nat 0%nat), addw w x1 (sk (S i / 4)%nat 1%nat)) else (x0, x1))).
Proof.
  unfold threefry2_inject, mk2. rewrite four. destruct (Nat.eqb (S i mod 4) 0) eqn:E.
  - rewrite (four_div i E). set (d := (S i / 4)%nat). clearbody d.
    rewrite (keys3 _ _ _ ((d + 0) mod 3)) by (apply Nat.mod_upper_bound; lia). rewrite (keys3 _ _ _ ((d + 1) mod 3)) by (apply Nat.mod_upper_bound; lia).
    rewrite vset1_mk. rewrite vadd_mk by assumption. cbn [bind]. rewrite vadd_mk by assumption. cbn [bind]. rewrite vadd_mk by assumption. cbn [bind].
    f_equal. f_equal; apply mk_ext; intros l _; destruct (F l) as [x0 x1]; cbn [fst snd]; unfold subkey; cbn [length Nat.eqb Nat.add].
    + reflexivity.
    + rewrite addw_addw by apply tw0. reflexivity.
  - f_equal. f_equal; apply mk_ext; intros l _; destruct (F l); reflexivity.
Qed.
Lemma rounds2_mk rot par c k : length rot = 8%nat -> Forall (fun N => 0 < N < w) rot -> forall m i,
  threefry2_rounds t n rot [mk n (fun l => fst (k l)); mk n (fun l => snd (k l)); mk n (fun l => Z.lxor (Z.lxor par (fst (k l))) (snd (k l)))] m i
    (mk2 n (fun l => t2 w par rot i (c l) (k l))) = Some (mk2 n (fun l => t2 w par rot (i + m) (c l) (k l))).
Proof.
  intros L HR. induction m as [|m IH]; intros i.
  - rewrite Nat.add_0_r. reflexivity.
  - cbn [threefry2_rounds]. rewrite round2_mk; [|assumption|assumption|intros l; apply t2_word; [apply tw0|assumption|assumption]]. cbn [bind].
    rewrite inject2_mk. cbn [bind]. specialize (IH (S i)). cbn [t2] in IH. rewrite IH. f_equal. apply mk2_ext. intros l _.
    replace (S i + m)%nat with (i + S m)%nat by lia. reflexivity.
Qed.
Lemma threefry2_mk rot par R c k : length rot = 8%nat -> Forall (fun N => 0 < N < w) rot -> word w par -> wf2 w k ->
  threefry2 t n rot par R (mk2 n c) (mk2 n k) = Some (mk2 n (fun l => t2 w par rot R (c l) (k l))).
Proof.
  intros L HR HP Hk. unfold threefry2. rewrite vset1_mk. cbn [bind]. unfold mk2 at 1 2 3 4 5 6 7 8. cbn [fst snd].
  rewrite vxor_mk; [|assumption|intros l; exact HP|intros l; apply Hk]. cbn [bind]. rewrite vadd_mk by assumption. cbn [bind].
  rewrite vxor_mk; [|assumption|intros l; apply word_lxor; [apply tw0|exact HP|apply Hk]|intros l; apply Hk]. cbn [bind]. rewrite vadd_mk by assumption. cbn [bind].
  pose proof (rounds2_mk rot par c k L HR R 0) as X. cbn [t2 Nat.add] in X. cbn [mk2 fst snd] in X. 
  etransitivity; [|exact X]. f_equal. unfold mk2. f_equal; apply mk_ext; intros l _; cbn [fst snd]; unfold subkey; cbn [length Nat.eqb Nat.add].
  - change (Z.of_nat 0) with 0. rewrite Z.add_0_r. change (nth (1 mod 3) (xkey par [fst (k l); snd (k l)]) 0) with (snd (k l)).
    rewrite (Z.mod_small (snd (k l))) by apply Hk. reflexivity.
Qed.

(** Four words. *)
Lemma t4_word rot p R c k : length rot = 8%nat -> Forall (fun N => 0 < fst N < w /\ 0 < snd N < w) rot -> word4 w (t4 w p rot R c k).
Proof.
  intros L HR. destruct k as [[[k0 k1] k2] k3]. pose proof tw0 as Hw.
  assert (forall x s, word4 w (let '(x0, x1, x2, x3) := x in
     (addw w x0 (subkey w p [k0; k1; k2; k3] s 0%nat), addw w x1 (subkey w p [k0; k1; k2; k3] s 1%nat),
      addw w x2 (subkey w p [k0; k1; k2; k3] s 2%nat), addw w x3 (subkey w p [k0; k1; k2; k3] s 3%nat)))) as ADD.
  { intros [[[x0 x1] x2] x3] s. unfold word4. cbn [fst snd]. split; [|split; [|split]]; apply word_addw; assumption. }
  induction R as [|r IH]; cbn [t4]; [apply ADD|].
  destruct (t4 w p rot r c (k0, k1, k2, k3)) as [[[x0 x1] x2] x3]. pose proof (nth_rot2 _ rot r L HR) as HN. cbv beta in HN.
  destruct (nth (r mod 8) rot (0, 0)) as [r0 r1]. cbn [fst snd] in HN. destruct IH as (I0 & I1 & I2 & I3). cbn [fst snd] in *.
  pose proof (mix_word w r0 (x0, x1) Hw ltac:(lia) ltac:(split; assumption)) as W1. pose proof (mix_word w r1 (x2, x3) Hw ltac:(lia) ltac:(split; assumption)) as W2.
  destruct (mix w r0 (x0, x1)) as [y0 y1]. destruct (mix w r1 (x2, x3)) as [y2 y3].
  destruct (Nat.eqb (S r mod 4) 0); [apply (ADD (y0, y3, y2, y1))|]. unfold word4, word2 in *. cbn [fst snd] in *. tauto.
Qed.

(** What one round of the code computes on one lane. *)
Definition l4 (rot : list (Z * Z)) (i : nat) (x : Z * Z * Z * Z) : Z * Z * Z * Z :=
  let '(x0, x1, x2, x3) := x in
  let '(r0, r2) := nth (i mod 8) rot (0, 0) in
  if Nat.even i then let '(y0, y1) := mix w r0 (x0, x1) in let '(y2, y3) := mix w r2 (x2, x3) in (y0, y1, y2, y3)
  else let '(y0, y3) := mix w r0 (x0, x3) in let '(y2, y1) := mix w r2 (x2, x1) in (y0, y1, y2, y3).
Lemma round4_mk rot i F : length rot = 8%nat -> Forall (fun N => 0 < fst N < w /\ 0 < snd N < w) rot -> wf4 w F ->
  threefry4_round t n rot i (mk4 n F) = Some (mk4 n (fun l => l4 rot i (F l))).
Proof.
  intros L HR HF. pose proof (nth_rot2 _ rot i L HR) as HN. cbv beta in HN. unfold threefry4_round, mk4, l4. pose proof tw0 as W0.
  destruct (nth (i mod 8) rot (0, 0)) as [r0 r2]. cbn [fst snd] in HN. destruct HN as [N0 N2].
  assert (wf w (fun l => fst (fst (fst (F l))))) as F0 by (intros l; apply HF). assert (wf w (fun l => snd (fst (fst (F l))))) as F1 by (intros l; apply HF).
  assert (wf w (fun l => snd (fst (F l)))) as F2 by (intros l; apply HF). assert (wf w (fun l => snd (F l))) as F3 by (intros l; apply HF).
  assert (forall f N, 0 < N < w -> wf w f -> wf w (fun l => rotl w (f l) N)) as WR by (intros f N HN Hf l; apply word_rotl; [lia|apply Hf]).
  assert (forall f g, wf w (fun l => addw w (f l) (g l))) as WA by (intros f g l; apply word_addw; exact W0).
  destruct (Nat.even i).
  - rewrite vadd_mk by assumption; cbn [bind]; rewrite shift_mod_mk by assumption; cbn [bind]; rewrite vxor_mk by (first [assumption|apply WR; assumption|apply WA]); cbn [bind].
    rewrite vadd_mk by assumption; cbn [bind]; rewrite shift_mod_mk by assumption; cbn [bind]; rewrite vxor_mk by (first [assumption|apply WR; assumption|apply WA]); cbn [bind].
    f_equal. apply tup4; apply mk_ext; intros l _; destruct (F l) as [[[x0 x1] x2] x3]; reflexivity.
  - rewrite vadd_mk by assumption; cbn [bind]; rewrite shift_mod_mk by assumption; cbn [bind]; rewrite vxor_mk by (first [assumption|apply WR; assumption|apply WA]); cbn [bind].
    rewrite vadd_mk by assumption; cbn [bind]; rewrite shift_mod_mk by assumption; cbn [bind]; rewrite vxor_mk by (first [assumption|apply WR; assumption|apply WA]); cbn [bind].
    f_equal. apply tup4; apply mk_ext; intros l _; destruct (F l) as [[[x0 x1] x2] x3]; reflexivity.
Qed.
Definition q0 (k : Z * Z * Z * Z) := fst (fst (fst k)).
Definition q1 (k : Z * Z * Z * Z) := snd (fst (fst k)).
Definition q2 (k : Z * Z * Z * Z) := snd (fst k).
Definition q3 (k : Z * Z * Z * Z) := snd k.
Definition ks4 par k := [mk n (fun l => q0 (k l)); mk n (fun l => q1 (k l)); mk n (fun l => q2 (k l)); mk n (fun l => q3 (k l));
  mk n (fun l => Z.lxor (Z.lxor (Z.lxor (Z.lxor par (q0 (k l))) (q1 (k l))) (q2 (k l))) (q3 (k l)))].
Lemma inject4_mk par k i F :
  threefry4_inject t n (ks4 par k) i (mk4 n F)
  = Some (mk4 n (fun l => let '(x0, x1, x2, x3) := F l in let sk := subkey w par [q0 (k l); q1 (k l); q2 (k l); q3 (k l)] in let d := (S i / 4)%nat in
      if Nat.eqb (S i mod 4) 0 then (addw w x0 (sk d 0%nat), addw w x1 (sk d 1%nat), addw w x2 (sk d 2%nat), addw w x3 (sk d 3%nat)) else (x0, x1, x2, x3))).
Proof.
  unfold threefry4_inject, mk4, ks4. rewrite four. destruct (Nat.eqb (S i mod 4) 0) eqn:E.
  - rewrite (four_div i E). set (d := (S i / 4)%nat). clearbody d.
    rewrite (keys5 _ _ _ _ _ ((d + 0) mod 5)) by (apply Nat.mod_upper_bound; lia). rewrite (keys5 _ _ _ _ _ ((d + 1) mod 5)) by (apply Nat.mod_upper_bound; lia).
    rewrite (keys5 _ _ _ _ _ ((d + 2) mod 5)) by (apply Nat.mod_upper_bound; lia). rewrite (keys5 _ _ _ _ _ ((d + 3) mod 5)) by (apply Nat.mod_upper_bound; lia).
    rewrite vset1_mk. do 4 (rewrite vadd_mk by assumption; cbn [bind]). rewrite vadd_mk by assumption; cbn [bind].
    f_equal. apply tup4; apply mk_ext; intros l _; destruct (F l) as [[[x0 x1] x2] x3]; cbn [fst snd]; unfold subkey; cbn [length Nat.eqb Nat.add]; try reflexivity.
    rewrite addw_addw by apply tw0. reflexivity.
  - f_equal. apply tup4; apply mk_ext; intros l _; destruct (F l) as [[[x0 x1] x2] x3]; reflexivity.
Qed.

Lemma even_four i : Nat.eqb (S i mod 4) 0 = true -> Nat.even i = false.
Proof.
  intros H. apply Nat.eqb_eq in H. pose proof (Nat.div_mod (S i) 4 ltac:(lia)) as D. rewrite H in D.
  set (q := (S i / 4)%nat) in *. clearbody q. rewrite <- Bool.not_true_iff_false. intros E. apply Nat.even_spec in E. destruct E as [m ->]. lia.
Qed.
Lemma step4 rot par i c k :
  (let '(x0, x1, x2, x3) := l4 rot i (unswap i (t4 w par rot i c k)) in
   let sk := subkey w par [q0 k; q1 k; q2 k; q3 k] in let d := (S i / 4)%nat in
   if Nat.eqb (S i mod 4) 0 then (addw w x0 (sk d 0%nat), addw w x1 (sk d 1%nat), addw w x2 (sk d 2%nat), addw w x3 (sk d 3%nat)) else (x0, x1, x2, x3))
  = unswap (S i) (t4 w par rot (S i) c k).
Proof.
  destruct k as [[[k0 k1] k2] k3]. cbn [t4]. cbn [q0 q1 q2 q3 fst snd]. destruct (t4 w par rot i c (k0, k1, k2, k3)) as [[[x0 x1] x2] x3].
  pose proof (even_four i) as EF. unfold unswap. replace (Nat.even (S i)) with (negb (Nat.even i)) by (rewrite Nat.even_succ, <- Nat.negb_even; reflexivity).
  unfold l4. destruct (nth (i mod 8) rot (0, 0)) as [r0 r2]. destruct (Nat.eqb (S i mod 4) 0).
  - rewrite (EF eq_refl). cbn [negb]. destruct (mix w r0 (x0, x1)) as [y0 y1]. destruct (mix w r2 (x2, x3)) as [y2 y3]. reflexivity.
  - destruct (Nat.even i); cbn [negb]; destruct (mix w r0 (x0, x1)) as [y0 y1]; destruct (mix w r2 (x2, x3)) as [y2 y3]; reflexivity.
Qed.
Lemma unswap_word i x : word4 w x -> word4 w (unswap i x).
Proof. destruct x as [[[x0 x1] x2] x3]. unfold unswap, word4. destruct (Nat.even i); cbn [fst snd]; tauto. Qed.

Lemma rounds4_mk rot par c k : length rot = 8%nat -> Forall (fun N => 0 < fst N < w /\ 0 < snd N < w) rot -> forall m i,
  threefry4_rounds t n rot (ks4 par k) m i (mk4 n (fun l => unswap i (t4 w par rot i (c l) (k l))))
  = Some (mk4 n (fun l => unswap (i + m) (t4 w par rot (i + m) (c l) (k l)))).
Proof.
  intros L HR. induction m as [|m IH]; intros i.
  - rewrite Nat.add_0_r. reflexivity.
  - cbn [threefry4_rounds]. rewrite round4_mk; [|assumption|assumption|intros l; apply unswap_word; apply t4_word; assumption]. cbn [bind].
    rewrite inject4_mk. cbn [bind].
    erewrite mk4_ext; [|intros l _; apply step4]. rewrite IH. f_equal. apply mk4_ext. intros l _.
    replace (S i + m)%nat with (i + S m)%nat by lia. reflexivity.
Qed.
Lemma threefry4_mk rot par R c k : length rot = 8%nat -> Forall (fun N => 0 < fst N < w /\ 0 < snd N < w) rot -> word w par -> wf4 w k ->
  threefry4 t n rot par R (mk4 n c) (mk4 n k) = Some (mk4 n (fun l => unswap R (t4 w par rot R (c l) (k l)))).
Proof.
  intros L HR HP Hk. unfold threefry4, mk4 at 1 2. rewrite vset1_mk. cbn [bind]. pose proof tw0 as W0.
  assert (wf w (fun l => q0 (k l))) as K0 by (intros l; apply Hk). assert (wf w (fun l => q1 (k l))) as K1 by (intros l; apply Hk).
  assert (wf w (fun l => q2 (k l))) as K2 by (intros l; apply Hk). assert (wf w (fun l => q3 (k l))) as K3 by (intros l; apply Hk).
  assert (wf w (fun _ => par)) as KP by (intros l; exact HP).
  assert (forall f g, wf w f -> wf w g -> wf w (fun l => Z.lxor (f l) (g l))) as WX by (intros f g Hf Hg l; apply word_lxor; [exact W0|apply Hf|apply Hg]).
  change (fun l => fst (fst (fst (k l)))) with (fun l => q0 (k l)). change (fun l => snd (fst (fst (k l)))) with (fun l => q1 (k l)).
  change (fun l => snd (fst (k l))) with (fun l => q2 (k l)). change (fun l => snd (k l)) with (fun l => q3 (k l)).
  rewrite vxor_mk by assumption; cbn [bind]; rewrite vadd_mk by assumption; cbn [bind].
  rewrite vxor_mk by (try assumption; apply WX; assumption); cbn [bind]; rewrite vadd_mk by assumption; cbn [bind].
  rewrite vxor_mk by (try assumption; repeat apply WX; assumption); cbn [bind]; rewrite vadd_mk by assumption; cbn [bind].
  rewrite vxor_mk by (try assumption; repeat apply WX; assumption); cbn [bind]; rewrite vadd_mk by assumption; cbn [bind].
  pose proof (rounds4_mk rot par c k L HR R 0) as X. cbn [Nat.add] in X. etransitivity; [|exact X]. f_equal.
  unfold mk4. apply tup4; apply mk_ext; intros l _; specialize (K0 l); specialize (K1 l); specialize (K2 l); specialize (K3 l); cbv beta in K0, K1, K2, K3;
    destruct (k l) as [[[k0 k1] k2] k3]; destruct (c l) as [[[c0 c1] c2] c3]; cbn [t4 unswap Nat.even fst snd]; unfold subkey; cbn [length Nat.eqb Nat.add]; try reflexivity.
  change (Z.of_nat 0) with 0. rewrite Z.add_0_r. change (nth (3 mod 5) (xkey par [k0; k1; k2; k3]) 0) with k3.
  rewrite (Z.mod_small k3) by apply K3. reflexivity.
Qed.
End TfReg.
