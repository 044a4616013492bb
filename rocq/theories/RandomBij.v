From Coq Require Import ZArith Znumtheory Zpow_facts Bool List Lia.
From Verif Require Import CInt BitLemmas RandomSpec RandomProofs RandomTf.
Import ListNotations.
Open Scope Z_scope.

(** Invertible on the set P. *)
Definition invertible {A} (P : A -> Prop) (f : A -> A) : Prop :=
  exists g, (forall x, P x -> P (f x) /\ g (f x) = x) /\ (forall y, P y -> P (g y) /\ f (g y) = y).
Lemma inv_id {A} (P : A -> Prop) : invertible P (fun x => x).
Proof. exists (fun x => x). auto. Qed.
Lemma inv_comp {A} (P : A -> Prop) f h : invertible P f -> invertible P h -> invertible P (fun x => h (f x)).
Proof.
  intros (g & G1 & G2) (k & K1 & K2). exists (fun y => g (k y)). split.
  - intros x Hx. destruct (G1 x Hx) as [Pf E]. destruct (K1 _ Pf) as [Pk E']. split; [exact Pk|]. rewrite E'. exact E.
  - intros y Hy. destruct (K2 y Hy) as [Pk E]. destruct (G2 _ Pk) as [Pf E']. split; [exact Pf|]. rewrite E'. exact E.
Qed.
Lemma inv_ext {A} (P : A -> Prop) f h : (forall x, f x = h x) -> invertible P f -> invertible P h.
Proof.
  intros E (g & G1 & G2). exists g. split; intros x Hx; [rewrite <- E; apply G1; exact Hx|]. rewrite <- E. apply G2; exact Hx.
Qed.
Lemma inv_inj {A} (P : A -> Prop) f x y : invertible P f -> P x -> P y -> f x = f y -> x = y.
Proof. intros (g & G1 & _) Hx Hy E. rewrite <- (proj2 (G1 x Hx)), <- (proj2 (G1 y Hy)), E. reflexivity. Qed.
Lemma inv_onto {A} (P : A -> Prop) f y : invertible P f -> P y -> exists x, P x /\ f x = y.
Proof. intros (g & _ & G2) Hy. exists (g y). apply G2. exact Hy. Qed.

Lemma lxor_cancel a b : Z.lxor (Z.lxor a b) b = a.
Proof. rewrite Z.lxor_assoc, Z.lxor_nilpotent, Z.lxor_0_r. reflexivity. Qed.
Lemma lxor_cancel_l a b : Z.lxor a (Z.lxor a b) = b.
Proof. rewrite <- Z.lxor_assoc, Z.lxor_nilpotent, Z.lxor_0_l. reflexivity. Qed.

Lemma odd_inverse w M : 0 <= w -> Z.odd M = true -> exists N, (M * N) mod 2 ^ w = 1 mod 2 ^ w.
Proof.
  intros Hw HM. assert (rel_prime M (2 ^ w)) as RP.
  { apply rel_prime_Zpower_r; [exact Hw|].
    apply rel_prime_sym. destruct (prime_rel_prime 2 prime_2 M) as [a b c]; [|constructor; assumption].
    intros D. apply Z.odd_spec in HM. destruct HM as [k ->]. destruct D as [q D]. lia. }
  destruct (rel_prime_bezout _ _ RP) as [u v E]. exists u. replace (M * u) with (1 + (- v) * 2 ^ w) by (rewrite <- E; ring).
  apply Z.mod_add. pose proof (pow2_pos w Hw). lia.
Qed.
Lemma lo_lo w M N x : 0 <= w -> (M * N) mod 2 ^ w = 1 mod 2 ^ w -> word w x -> lo w N (lo w M x) = x.
Proof.
  intros Hw E Hx. pose proof (pow2_pos w Hw). unfold lo. rewrite Z.mul_mod_idemp_r by lia.
  replace (N * (M * x)) with ((M * N) * x) by ring. rewrite <- Z.mul_mod_idemp_l by lia. rewrite E.
  rewrite Z.mul_mod_idemp_l by lia. rewrite Z.mul_1_l. apply Z.mod_small. exact Hx.
Qed.

Lemma p2_round_inv w M k : 0 <= w -> word w M -> Z.odd M = true -> word w k -> invertible (word2 w) (p2_round w M k).
Proof.
  intros Hw HM OM Hk. destruct (odd_inverse w M Hw OM) as [N EN].
  assert ((N * M) mod 2 ^ w = 1 mod 2 ^ w) as EN' by (rewrite Z.mul_comm; exact EN).
  exists (fun o => let '(o0, o1) := o in let c0 := lo w N o1 in (c0, Z.lxor (Z.lxor (hi w M c0) k) o0)). split.
  - intros x Hx. split; [apply p2_round_word; assumption|]. destruct x as [c0 c1], Hx as [H0 H1]. cbn [fst snd] in *. unfold p2_round.
    rewrite (lo_lo w M N) by assumption. rewrite lxor_cancel_l. reflexivity.
  - intros [o0 o1] [H0 H1]. cbn [fst snd] in *. split.
    + unfold word2. cbn [fst snd]. split; [apply word_lo; assumption|]. apply word_lxor; [assumption| |assumption]. apply word_lxor; [assumption| |assumption].
      apply word_hi; [assumption..|apply word_lo; assumption].
    + unfold p2_round. rewrite (lo_lo w N M) by assumption. rewrite lxor_cancel_l. reflexivity.
Qed.
Lemma p2_inv w M B R k : 0 <= w -> word w M -> Z.odd M = true -> invertible (word2 w) (fun c => p2 w M B R c k).
Proof.
  intros Hw HM OM. induction R as [|R IH]; [apply inv_id|].
  cbn [p2]. apply (inv_comp (word2 w) (fun c => p2 w M B R c k) (p2_round w M ((k + Z.of_nat R * B) mod 2 ^ w)) IH).
  apply p2_round_inv; [assumption..|apply word_mod; assumption].
Qed.
Lemma p4_round_inv w M0 M1 k0 k1 : 0 <= w -> word w M0 -> word w M1 -> Z.odd M0 = true -> Z.odd M1 = true -> word w k0 -> word w k1 ->
  invertible (word4 w) (p4_round w M0 M1 k0 k1).
Proof.
  intros Hw HM0 HM1 O0 O1 Hk0 Hk1. destruct (odd_inverse w M0 Hw O0) as [N0 E0]. destruct (odd_inverse w M1 Hw O1) as [N1 E1].
  assert ((N0 * M0) mod 2 ^ w = 1 mod 2 ^ w) as E0' by (rewrite Z.mul_comm; exact E0).
  assert ((N1 * M1) mod 2 ^ w = 1 mod 2 ^ w) as E1' by (rewrite Z.mul_comm; exact E1).
  exists (fun o => let '(o0, o1, o2, o3) := o in let c0 := lo w N0 o3 in let c2 := lo w N1 o1 in
    (c0, Z.lxor (hi w M1 c2) (Z.lxor o0 k0), c2, Z.lxor (hi w M0 c0) (Z.lxor o2 k1))). split.
  - intros x Hx. split; [apply p4_round_word; assumption|]. destruct x as [[[c0 c1] c2] c3], Hx as (H0 & H1 & H2 & H3). cbn [fst snd] in *. unfold p4_round.
    rewrite (lo_lo w M0 N0), (lo_lo w M1 N1) by assumption. rewrite !lxor_cancel, !lxor_cancel_l. reflexivity.
  - intros [[[o0 o1] o2] o3] (H0 & H1 & H2 & H3). cbn [fst snd] in *. split.
    + unfold word4. cbn [fst snd]. split; [|split; [|split]]; try (apply word_lo; assumption);
        (apply word_lxor; [assumption| |apply word_lxor; assumption]); (apply word_hi; [assumption..|apply word_lo; assumption]).
    + unfold p4_round. rewrite (lo_lo w N0 M0), (lo_lo w N1 M1) by assumption. rewrite !lxor_cancel_l, !lxor_cancel. reflexivity.
Qed.
Lemma p4_inv w M0 M1 B0 B1 R k : 0 <= w -> word w M0 -> word w M1 -> Z.odd M0 = true -> Z.odd M1 = true ->
  invertible (word4 w) (fun c => p4 w M0 M1 B0 B1 R c k).
Proof.
  intros Hw HM0 HM1 O0 O1. induction R as [|R IH]; [apply inv_id|].
  cbn [p4]. apply (inv_comp (word4 w) (fun c => p4 w M0 M1 B0 B1 R c k)
    (p4_round w M0 M1 ((fst k + Z.of_nat R * B0) mod 2 ^ w) ((snd k + Z.of_nat R * B1) mod 2 ^ w)) IH).
  apply p4_round_inv; [assumption..|apply word_mod; assumption|apply word_mod; assumption].
Qed.

(** *** ThreeFry *)
Definition subw (w a b : Z) := (a - b) mod 2 ^ w.
Lemma sub_add w a b : 0 <= w -> word w a -> subw w (addw w a b) b = a.
Proof. intros Hw Ha. pose proof (pow2_pos w Hw). unfold subw, addw. rewrite Zminus_mod_idemp_l. replace (a + b - b) with a by ring. apply Z.mod_small. exact Ha. Qed.
Lemma add_sub w a b : 0 <= w -> word w a -> addw w (subw w a b) b = a.
Proof. intros Hw Ha. pose proof (pow2_pos w Hw). unfold subw, addw. rewrite Z.add_mod_idemp_l by lia. replace (a - b + b) with a by ring. apply Z.mod_small. exact Ha. Qed.
Lemma rotl_rotl w x N : 0 <= N <= w -> word w x -> rotl w (rotl w x N) (w - N) = x.
Proof.
  intros HN Hx. unfold rotl, word in *. pose proof (pow2_pos N ltac:(lia)). pose proof (pow2_pos (w - N) ltac:(lia)).
  replace (w - (w - N)) with N by lia.
  assert (2 ^ w = 2 ^ (w - N) * 2 ^ N) as E by (rewrite <- Z.pow_add_r by lia; f_equal; lia).
  assert (0 <= x / 2 ^ (w - N) < 2 ^ N) as Q by (split; [apply Z.div_pos; lia|apply Z.div_lt_upper_bound; lia]).
  set (y := x mod 2 ^ (w - N) * 2 ^ N + x / 2 ^ (w - N)).
  assert (y mod 2 ^ N = x / 2 ^ (w - N)) as -> by (unfold y; rewrite Z.add_comm, Z.mod_add by lia; apply Z.mod_small; exact Q). unfold y.
  rewrite Z.div_add_l by lia. rewrite (Z.div_small (x / _)) by exact Q. rewrite Z.add_0_r. rewrite Z.mul_comm. symmetry. apply Z.div_mod. lia.
Qed.
Definition unmix (w N : Z) (y : Z * Z) : Z * Z := let '(a, b) := y in let b' := rotl w (Z.lxor b a) (w - N) in (subw w a b', b').
Lemma unmix_mix w N x : 0 <= w -> 0 <= N <= w -> word2 w x -> unmix w N (mix w N x) = x.
Proof.
  intros Hw HN. destruct x as [a b]. intros [Ha Hb]. cbn [fst snd] in *. unfold mix, unmix. rewrite lxor_cancel, rotl_rotl, sub_add by assumption. reflexivity.
Qed.
Lemma mix_unmix w N y : 0 <= w -> 0 <= N <= w -> word2 w y -> word2 w (unmix w N y) /\ mix w N (unmix w N y) = y.
Proof.
  intros Hw HN. destruct y as [a b]. intros [Ha Hb]. cbn [fst snd] in *. unfold mix, unmix.
  assert (word w (Z.lxor b a)) as WX by (apply word_lxor; assumption). split.
  - split; cbn [fst snd]; [apply word_mod; assumption|apply word_rotl; [lia|assumption]].
  - rewrite add_sub by assumption. pose proof (rotl_rotl w (Z.lxor b a) (w - N) ltac:(lia) WX) as RR. replace (w - (w - N)) with N in RR by lia. rewrite RR, lxor_cancel. reflexivity.
Qed.
Lemma mix_inv w N : 0 <= w -> 0 <= N <= w -> invertible (word2 w) (mix w N).
Proof.
  intros Hw HN. exists (unmix w N). split; intros x Hx; [split; [apply mix_word; assumption|apply unmix_mix; assumption]|apply mix_unmix; assumption].
Qed.
Lemma add2_inv w e0 e1 : 0 <= w -> invertible (word2 w) (fun x => (addw w (fst x) e0, addw w (snd x) e1)).
Proof.
  intros Hw. exists (fun y => (subw w (fst y) e0, subw w (snd y) e1)). split; intros [x0 x1] [H0 H1]; cbn [fst snd] in *.
  - rewrite !sub_add by assumption. split; [split; apply word_addw; assumption|reflexivity].
  - rewrite !add_sub by assumption. split; [split; apply word_mod; assumption|reflexivity].
Qed.
Lemma t2_inv w par rot R k : 0 <= w -> length rot = 8%nat -> Forall (fun N => 0 < N < w) rot -> invertible (word2 w) (fun c => t2 w par rot R c k).
Proof.
  intros Hw L HR. induction R as [|r IH]; [apply add2_inv; exact Hw|].
  pose proof (nth_rot _ rot r L HR) as HN. cbv beta in HN.
  pose proof (inv_comp _ _ _ IH (mix_inv w (nth (r mod 8) rot 0) Hw ltac:(lia))) as S1.
  cbn [t2]. destruct (Nat.eqb (S r mod 4) 0).
  - eapply inv_ext; [|exact (inv_comp _ _ _ S1 (add2_inv w (subkey w par [fst k; snd k] (S r / 4) 0) (subkey w par [fst k; snd k] (S r / 4) 1) Hw))].
    intros c. cbv beta. destruct (mix w (nth (r mod 8) rot 0) (t2 w par rot r c k)); reflexivity.
  - eapply inv_ext; [|exact S1]. intros c. cbv beta. destruct (mix w (nth (r mod 8) rot 0) (t2 w par rot r c k)); reflexivity.
Qed.
Definition addall (w e0 e1 e2 e3 : Z) (x : Z * Z * Z * Z) := let '(x0, x1, x2, x3) := x in (addw w x0 e0, addw w x1 e1, addw w x2 e2, addw w x3 e3).
Lemma add4_inv w e0 e1 e2 e3 : 0 <= w -> invertible (word4 w) (addall w e0 e1 e2 e3).
Proof.
  intros Hw. exists (fun y => let '(x0, x1, x2, x3) := y in (subw w x0 e0, subw w x1 e1, subw w x2 e2, subw w x3 e3)).
  split; intros [[[x0 x1] x2] x3] (H0 & H1 & H2 & H3); cbn [fst snd] in *; unfold addall.
  - rewrite !sub_add by assumption. split; [split; [|split; [|split]]; apply word_addw; assumption|reflexivity].
  - rewrite !add_sub by assumption. split; [split; [|split; [|split]]; apply word_mod; assumption|reflexivity].
Qed.
Definition mix4 (w r0 r1 : Z) (x : Z * Z * Z * Z) := let '(x0, x1, x2, x3) := x in
  let '(y0, y1) := mix w r0 (x0, x1) in let '(y2, y3) := mix w r1 (x2, x3) in (y0, y3, y2, y1).
Lemma mix4_inv w r0 r1 : 0 <= w -> 0 <= r0 <= w -> 0 <= r1 <= w -> invertible (word4 w) (mix4 w r0 r1).
Proof.
  intros Hw H0 H1. exists (fun y => let '(y0, y3, y2, y1) := y in let '(x0, x1) := unmix w r0 (y0, y1) in let '(x2, x3) := unmix w r1 (y2, y3) in (x0, x1, x2, x3)).
  split; intros [[[x0 x1] x2] x3] (I0 & I1 & I2 & I3); cbn [fst snd] in *; unfold mix4.
  - pose proof (mix_word w r0 (x0, x1) Hw H0 ltac:(split; assumption)) as W1. pose proof (mix_word w r1 (x2, x3) Hw H1 ltac:(split; assumption)) as W2.
    pose proof (unmix_mix w r0 (x0, x1) Hw H0 ltac:(split; assumption)) as U1. pose proof (unmix_mix w r1 (x2, x3) Hw H1 ltac:(split; assumption)) as U2.
    destruct (mix w r0 (x0, x1)) as [y0 y1]. destruct (mix w r1 (x2, x3)) as [y2 y3]. rewrite U1, U2. unfold word2, word4 in *. cbn [fst snd] in *. tauto.
  - destruct (mix_unmix w r0 (x0, x3) Hw H0 ltac:(split; assumption)) as [W1 U1]. destruct (mix_unmix w r1 (x2, x1) Hw H1 ltac:(split; assumption)) as [W2 U2].
    destruct (unmix w r0 (x0, x3)) as [y0 y1]. destruct (unmix w r1 (x2, x1)) as [y2 y3]. rewrite U1, U2. unfold word2, word4 in *. cbn [fst snd] in *. tauto.
Qed.
Lemma t4_inv w par rot R k : 0 <= w -> length rot = 8%nat -> Forall (fun N => 0 < fst N < w /\ 0 < snd N < w) rot ->
  invertible (word4 w) (fun c => t4 w par rot R c k).
Proof.
  intros Hw L HR. destruct k as [[[k0 k1] k2] k3]. set (sk := subkey w par [k0; k1; k2; k3]).
  induction R as [|r IH].
  - eapply inv_ext; [|exact (add4_inv w (sk 0%nat 0%nat) (sk 0%nat 1%nat) (sk 0%nat 2%nat) (sk 0%nat 3%nat) Hw)]. intros [[[x0 x1] x2] x3]. reflexivity.
  - pose proof (nth_rot2 _ rot r L HR) as HN. cbv beta in HN. cbn [t4]. destruct (nth (r mod 8) rot (0, 0)) as [r0 r1]. cbn [fst snd] in HN.
    pose proof (inv_comp _ _ _ IH (mix4_inv w r0 r1 Hw ltac:(lia) ltac:(lia))) as S1. destruct (Nat.eqb (S r mod 4) 0).
    + set (d := (S r / 4)%nat). eapply inv_ext; [|exact (inv_comp _ _ _ S1 (add4_inv w (sk d 0%nat) (sk d 1%nat) (sk d 2%nat) (sk d 3%nat) Hw))].
      intros c. cbv beta. destruct (t4 w par rot r c (k0, k1, k2, k3)) as [[[x0 x1] x2] x3]. unfold mix4. destruct (mix w r0 (x0, x1)). destruct (mix w r1 (x2, x3)). reflexivity.
    + eapply inv_ext; [|exact S1].
      intros c. cbv beta. destruct (t4 w par rot r c (k0, k1, k2, k3)) as [[[x0 x1] x2] x3]. unfold mix4. destruct (mix w r0 (x0, x1)). destruct (mix w r1 (x2, x3)). reflexivity.
Qed.
Lemma unswap_inv w R : invertible (word4 w) (unswap R).
Proof.
  exists (unswap R). split; intros [[[x0 x1] x2] x3] H; unfold unswap, word4 in *; destruct (Nat.even R); cbn [fst snd] in *; tauto.
Qed.
