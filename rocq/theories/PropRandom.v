(** C38, C39, C40: the counter-based generators of the random module. *)
From Coq Require Import ZArith Bool List Lia.
From Verif Require Import CInt ScalarOps CpuSimd Random RandomSpec RandomProofs RandomTf RandomBij.
Import ListNotations.
Open Scope Z_scope.

Local Notation at_ r i := (nth i r 0) (only parsing).

Lemma regw_mk w n r : 0 <= w -> regw w n r -> r = mk n (fun i => at_ r i) /\ wf w (fun i => at_ r i).
Proof. intros Hw [L F]. split; [symmetry; apply mk_of; exact L|apply wf_nth; assumption]. Qed.

(** *** C38: every lane of mulhilo holds the two words of the exact product *)
Theorem C38_mulhilo64 : forall n a b, regw 64 n a -> regw 64 n b ->
  exists low high, mulhilo64 n a b = Some (low, high) /\ length low = n /\ length high = n /\
    forall i, (i < n)%nat -> 0 <= at_ low i < 2 ^ 64 /\ 0 <= at_ high i < 2 ^ 64 /\ at_ a i * at_ b i = at_ high i * 2 ^ 64 + at_ low i.
Proof.
  intros n a b Ha Hb. destruct (regw_mk 64 n a ltac:(lia) Ha) as [Ea Wa]. destruct (regw_mk 64 n b ltac:(lia) Hb) as [Eb Wb].
  pose proof (mulhilo_halves_mk u64 n (or_intror eq_refl) 32 _ _ ltac:(lia) eq_refl Wa Wb) as E. rewrite <- Ea, <- Eb in E.
  do 2 eexists. split; [exact E|]. rewrite !mk_length. split; [reflexivity|]. split; [reflexivity|]. intros i Hi. rewrite !mk_nth by exact Hi.
  split; [apply (word_lo 64); lia|]. split; [apply (word_hi 64); [lia|apply Wa|apply Wb]|]. unfold hi, lo. cbn [bits u64]. rewrite Z.mul_comm with (m := 2 ^ 64). apply Z.div_mod. lia.
Qed.
Print Assumptions C38_mulhilo64.

Theorem C38_mulhilo32 : forall n a b, regw 32 (2 * n) a -> regw 32 (2 * n) b ->
  exists low high, mulhilo32 n a b = Some (low, high) /\ length low = (2 * n)%nat /\ length high = (2 * n)%nat /\
    forall i, (i < 2 * n)%nat -> 0 <= at_ low i < 2 ^ 32 /\ 0 <= at_ high i < 2 ^ 32 /\ at_ a i * at_ b i = at_ high i * 2 ^ 32 + at_ low i.
Proof.
  intros n a b Ha Hb. destruct (regw_mk 32 _ a ltac:(lia) Ha) as [Ea Wa]. destruct (regw_mk 32 _ b ltac:(lia) Hb) as [Eb Wb].
  pose proof (mulhilo32_mk n _ _ Wa Wb) as E. rewrite <- Ea, <- Eb in E.
  do 2 eexists. split; [exact E|]. rewrite !mk_length. split; [reflexivity|]. split; [reflexivity|]. intros i Hi. rewrite !mk_nth by exact Hi.
  split; [apply (word_lo 32); lia|]. split; [apply (word_hi 32); [lia|apply Wa|apply Wb]|]. unfold hi, lo. rewrite Z.mul_comm with (m := 2 ^ 32). apply Z.div_mod. lia.
Qed.
Print Assumptions C38_mulhilo32.

(** The alternative 32-bit version kept in the source computes the same thing. *)
Theorem C38_mulhilo32_halves : forall n a b, regw 32 (2 * n) a -> regw 32 (2 * n) b ->
  mulhilo_halves u32 (2 * n) 16 a b = mulhilo32 n a b.
Proof.
  intros n a b Ha Hb. destruct (regw_mk 32 _ a ltac:(lia) Ha) as [Ea Wa]. destruct (regw_mk 32 _ b ltac:(lia) Hb) as [Eb Wb].
  rewrite Ea, Eb. rewrite mulhilo32_mk by assumption.
  apply (mulhilo_halves_mk u32 (2 * n) (or_introl eq_refl) 16); [lia|reflexivity|assumption..].
Qed.
Print Assumptions C38_mulhilo32_halves.

Example C38_ex : mulhilo64 2 [0xFFFFFFFFFFFFFFFF; 0xFFFFFFFF00000001] [0xFFFFFFFFFFFFFFFF; 0x1FFFFFFFF]
  = Some ([1; 0x2FFFFFFFF], [0xFFFFFFFFFFFFFFFE; 0x1FFFFFFFD]).
Proof. vm_compute. reflexivity. Qed.

(** *** C39: Philox.  nrounds = r + 1; [p2], [p4] are the Random123 definitions. *)
Definition words2 (w : Z) (x : Z * Z) : Prop := word w (fst x) /\ word w (snd x).
Definition words4 (w : Z) (x : Z * Z * Z * Z) : Prop :=
  let '(a, b, c, d) := x in word w a /\ word w b /\ word w c /\ word w d.
Lemma words4_word4 w x : words4 w x <-> word4 w x.
Proof. destruct x as [[[a b] c] d]. reflexivity. Qed.

Theorem C39_philox2x32 : forall n r c0 c1 k0, regw 32 (2 * n)%nat c0 -> regw 32 (2 * n)%nat c1 -> regw 32 (2 * n)%nat k0 ->
  exists o0 o1, philox2x32 n r (c0, c1) k0 = Some (o0, o1) /\ length o0 = (2 * n)%nat /\ length o1 = (2 * n)%nat /\
    forall i, (i < (2 * n))%nat -> (at_ o0 i, at_ o1 i) = p2 32 0xD256D193 0x9E3779B9 (S r) (at_ c0 i, at_ c1 i) (at_ k0 i).
Proof.
  intros n r c0 c1 k0 Hc0 Hc1 Hk0.
  destruct (regw_mk 32 _ c0 ltac:(lia) Hc0) as [Ec0 Wc0].
  destruct (regw_mk 32 _ c1 ltac:(lia) Hc1) as [Ec1 Wc1].
  destruct (regw_mk 32 _ k0 ltac:(lia) Hk0) as [Ek0 Wk0].
  pose proof (philox2_mk u32 (2 * n) (mulhilo32 n) (or_introl eq_refl) (mulhilo32_mk n) 0xD256D193 0x9E3779B9 r (fun i => (at_ c0 i, at_ c1 i)) (fun i => at_ k0 i) ltac:(split; vm_compute; congruence) Wk0 ltac:(intros i; split; [apply Wc0|apply Wc1])) as E.
  cbv beta delta [mk2 mk4] in E. cbn [fst snd] in E. rewrite <- Ec0, <- Ec1, <- Ek0 in E.
  do 2 eexists. split; [exact E|]. rewrite !mk_length. split; [reflexivity|]. split; [reflexivity|]. intros i Hi. rewrite !mk_nth by exact Hi.
  match goal with |- _ = ?X => destruct X as [x0 x1] eqn:EX end. cbn [bits u32 u64]. rewrite EX. reflexivity.
Qed.
Print Assumptions C39_philox2x32.

Theorem C39_philox2x64 : forall n r c0 c1 k0, regw 64 n c0 -> regw 64 n c1 -> regw 64 n k0 ->
  exists o0 o1, philox2x64 n r (c0, c1) k0 = Some (o0, o1) /\ length o0 = n /\ length o1 = n /\
    forall i, (i < n)%nat -> (at_ o0 i, at_ o1 i) = p2 64 0xD2B74407B1CE6E93 0x9E3779B97F4A7C15 (S r) (at_ c0 i, at_ c1 i) (at_ k0 i).
Proof.
  intros n r c0 c1 k0 Hc0 Hc1 Hk0.
  destruct (regw_mk 64 _ c0 ltac:(lia) Hc0) as [Ec0 Wc0].
  destruct (regw_mk 64 _ c1 ltac:(lia) Hc1) as [Ec1 Wc1].
  destruct (regw_mk 64 _ k0 ltac:(lia) Hk0) as [Ek0 Wk0].
  pose proof (philox2_mk u64 n (mulhilo64 n) (or_intror eq_refl) (fun f g Hf Hg => mulhilo_halves_mk u64 n (or_intror eq_refl) 32 f g ltac:(lia) eq_refl Hf Hg) 0xD2B74407B1CE6E93 0x9E3779B97F4A7C15 r (fun i => (at_ c0 i, at_ c1 i)) (fun i => at_ k0 i) ltac:(split; vm_compute; congruence) Wk0 ltac:(intros i; split; [apply Wc0|apply Wc1])) as E.
  cbv beta delta [mk2 mk4] in E. cbn [fst snd] in E. rewrite <- Ec0, <- Ec1, <- Ek0 in E.
  do 2 eexists. split; [exact E|]. rewrite !mk_length. split; [reflexivity|]. split; [reflexivity|]. intros i Hi. rewrite !mk_nth by exact Hi.
  match goal with |- _ = ?X => destruct X as [x0 x1] eqn:EX end. cbn [bits u32 u64]. rewrite EX. reflexivity.
Qed.
Print Assumptions C39_philox2x64.

Theorem C39_philox4x32 : forall n r c0 c1 c2 c3 k0 k1, regw 32 (2 * n)%nat c0 -> regw 32 (2 * n)%nat c1 -> regw 32 (2 * n)%nat c2 -> regw 32 (2 * n)%nat c3 -> regw 32 (2 * n)%nat k0 -> regw 32 (2 * n)%nat k1 ->
  exists o0 o1 o2 o3, philox4x32 n r (c0, c1, c2, c3) (k0, k1) = Some (o0, o1, o2, o3) /\ length o0 = (2 * n)%nat /\ length o1 = (2 * n)%nat /\ length o2 = (2 * n)%nat /\ length o3 = (2 * n)%nat /\
    forall i, (i < (2 * n))%nat -> (at_ o0 i, at_ o1 i, at_ o2 i, at_ o3 i) = p4 32 0xD2511F53 0xCD9E8D57 0x9E3779B9 0xBB67AE85 (S r) (at_ c0 i, at_ c1 i, at_ c2 i, at_ c3 i) (at_ k0 i, at_ k1 i).
Proof.
  intros n r c0 c1 c2 c3 k0 k1 Hc0 Hc1 Hc2 Hc3 Hk0 Hk1.
  destruct (regw_mk 32 _ c0 ltac:(lia) Hc0) as [Ec0 Wc0].
  destruct (regw_mk 32 _ c1 ltac:(lia) Hc1) as [Ec1 Wc1].
  destruct (regw_mk 32 _ c2 ltac:(lia) Hc2) as [Ec2 Wc2].
  destruct (regw_mk 32 _ c3 ltac:(lia) Hc3) as [Ec3 Wc3].
  destruct (regw_mk 32 _ k0 ltac:(lia) Hk0) as [Ek0 Wk0].
  destruct (regw_mk 32 _ k1 ltac:(lia) Hk1) as [Ek1 Wk1].
  pose proof (philox4_mk u32 (2 * n) (mulhilo32 n) (or_introl eq_refl) (mulhilo32_mk n) 0xD2511F53 0xCD9E8D57 0x9E3779B9 0xBB67AE85 r (fun i => (at_ c0 i, at_ c1 i, at_ c2 i, at_ c3 i)) (fun i => (at_ k0 i, at_ k1 i)) ltac:(split; vm_compute; congruence) ltac:(split; vm_compute; congruence) ltac:(intros i; split; [apply Wk0|apply Wk1]) ltac:(intros i; split; [apply Wc0|split; [apply Wc1|split; [apply Wc2|apply Wc3]]])) as E.
  cbv beta delta [mk2 mk4] in E. cbn [fst snd] in E. rewrite <- Ec0, <- Ec1, <- Ec2, <- Ec3, <- Ek0, <- Ek1 in E.
  do 4 eexists. split; [exact E|]. rewrite !mk_length. split; [reflexivity|]. split; [reflexivity|]. split; [reflexivity|]. split; [reflexivity|]. intros i Hi. rewrite !mk_nth by exact Hi.
  match goal with |- _ = ?X => destruct X as [[[x0 x1] x2] x3] eqn:EX end. cbn [bits u32 u64]. rewrite EX. reflexivity.
Qed.
Print Assumptions C39_philox4x32.

Theorem C39_philox4x64 : forall n r c0 c1 c2 c3 k0 k1, regw 64 n c0 -> regw 64 n c1 -> regw 64 n c2 -> regw 64 n c3 -> regw 64 n k0 -> regw 64 n k1 ->
  exists o0 o1 o2 o3, philox4x64 n r (c0, c1, c2, c3) (k0, k1) = Some (o0, o1, o2, o3) /\ length o0 = n /\ length o1 = n /\ length o2 = n /\ length o3 = n /\
    forall i, (i < n)%nat -> (at_ o0 i, at_ o1 i, at_ o2 i, at_ o3 i) = p4 64 0xD2E7470EE14C6C93 0xCA5A826395121157 0x9E3779B97F4A7C15 0xBB67AE8584CAA73B (S r) (at_ c0 i, at_ c1 i, at_ c2 i, at_ c3 i) (at_ k0 i, at_ k1 i).
Proof.
  intros n r c0 c1 c2 c3 k0 k1 Hc0 Hc1 Hc2 Hc3 Hk0 Hk1.
  destruct (regw_mk 64 _ c0 ltac:(lia) Hc0) as [Ec0 Wc0].
  destruct (regw_mk 64 _ c1 ltac:(lia) Hc1) as [Ec1 Wc1].
  destruct (regw_mk 64 _ c2 ltac:(lia) Hc2) as [Ec2 Wc2].
  destruct (regw_mk 64 _ c3 ltac:(lia) Hc3) as [Ec3 Wc3].
  destruct (regw_mk 64 _ k0 ltac:(lia) Hk0) as [Ek0 Wk0].
  destruct (regw_mk 64 _ k1 ltac:(lia) Hk1) as [Ek1 Wk1].
  pose proof (philox4_mk u64 n (mulhilo64 n) (or_intror eq_refl) (fun f g Hf Hg => mulhilo_halves_mk u64 n (or_intror eq_refl) 32 f g ltac:(lia) eq_refl Hf Hg) 0xD2E7470EE14C6C93 0xCA5A826395121157 0x9E3779B97F4A7C15 0xBB67AE8584CAA73B r (fun i => (at_ c0 i, at_ c1 i, at_ c2 i, at_ c3 i)) (fun i => (at_ k0 i, at_ k1 i)) ltac:(split; vm_compute; congruence) ltac:(split; vm_compute; congruence) ltac:(intros i; split; [apply Wk0|apply Wk1]) ltac:(intros i; split; [apply Wc0|split; [apply Wc1|split; [apply Wc2|apply Wc3]]])) as E.
  cbv beta delta [mk2 mk4] in E. cbn [fst snd] in E. rewrite <- Ec0, <- Ec1, <- Ec2, <- Ec3, <- Ek0, <- Ek1 in E.
  do 4 eexists. split; [exact E|]. rewrite !mk_length. split; [reflexivity|]. split; [reflexivity|]. split; [reflexivity|]. split; [reflexivity|]. intros i Hi. rewrite !mk_nth by exact Hi.
  match goal with |- _ = ?X => destruct X as [[[x0 x1] x2] x3] eqn:EX end. cbn [bits u32 u64]. rewrite EX. reflexivity.
Qed.
Print Assumptions C39_philox4x64.

(** *** C40: ThreeFry, any number R of rounds; [t2], [t4] are the Random123 definitions. *)

Theorem C40_threefry2x32 : forall n R c0 c1 k0 k1, regw 32 n c0 -> regw 32 n c1 -> regw 32 n k0 -> regw 32 n k1 ->
  exists o0 o1, threefry2x32 n R (c0, c1) (k0, k1) = Some (o0, o1) /\ length o0 = n /\ length o1 = n /\
    forall i, (i < n)%nat -> (at_ o0 i, at_ o1 i) = t2 32 0x1BD11BDA skein_32x2 R (at_ c0 i, at_ c1 i) (at_ k0 i, at_ k1 i).
Proof.
  intros n R c0 c1 k0 k1 Hc0 Hc1 Hk0 Hk1.
  destruct (regw_mk 32 _ c0 ltac:(lia) Hc0) as [Ec0 Wc0].
  destruct (regw_mk 32 _ c1 ltac:(lia) Hc1) as [Ec1 Wc1].
  destruct (regw_mk 32 _ k0 ltac:(lia) Hk0) as [Ek0 Wk0].
  destruct (regw_mk 32 _ k1 ltac:(lia) Hk1) as [Ek1 Wk1].
  pose proof (threefry2_mk u32 n (or_introl eq_refl) skein_32x2 0x1BD11BDA R (fun i => (at_ c0 i, at_ c1 i)) (fun i => (at_ k0 i, at_ k1 i)) eq_refl ltac:(repeat constructor; cbn; lia) ltac:(split; vm_compute; congruence) ltac:(intros i; split; [apply Wk0|apply Wk1])) as E.
  cbv beta delta [mk2 mk4] in E. cbn [fst snd] in E. rewrite <- Ec0, <- Ec1, <- Ek0, <- Ek1 in E.
  do 2 eexists. split; [exact E|]. rewrite !mk_length. split; [reflexivity|]. split; [reflexivity|]. intros i Hi. rewrite !mk_nth by exact Hi.
  match goal with |- _ = ?X => destruct X as [x0 x1] eqn:EX end. cbn [bits u32 u64]. rewrite EX. reflexivity.
Qed.
Print Assumptions C40_threefry2x32.

Theorem C40_threefry2x64 : forall n R c0 c1 k0 k1, regw 64 n c0 -> regw 64 n c1 -> regw 64 n k0 -> regw 64 n k1 ->
  exists o0 o1, threefry2x64 n R (c0, c1) (k0, k1) = Some (o0, o1) /\ length o0 = n /\ length o1 = n /\
    forall i, (i < n)%nat -> (at_ o0 i, at_ o1 i) = t2 64 0x1BD11BDAA9FC1A22 skein_64x2 R (at_ c0 i, at_ c1 i) (at_ k0 i, at_ k1 i).
Proof.
  intros n R c0 c1 k0 k1 Hc0 Hc1 Hk0 Hk1.
  destruct (regw_mk 64 _ c0 ltac:(lia) Hc0) as [Ec0 Wc0].
  destruct (regw_mk 64 _ c1 ltac:(lia) Hc1) as [Ec1 Wc1].
  destruct (regw_mk 64 _ k0 ltac:(lia) Hk0) as [Ek0 Wk0].
  destruct (regw_mk 64 _ k1 ltac:(lia) Hk1) as [Ek1 Wk1].
  pose proof (threefry2_mk u64 n (or_intror eq_refl) skein_64x2 0x1BD11BDAA9FC1A22 R (fun i => (at_ c0 i, at_ c1 i)) (fun i => (at_ k0 i, at_ k1 i)) eq_refl ltac:(repeat constructor; cbn; lia) ltac:(split; vm_compute; congruence) ltac:(intros i; split; [apply Wk0|apply Wk1])) as E.
  cbv beta delta [mk2 mk4] in E. cbn [fst snd] in E. rewrite <- Ec0, <- Ec1, <- Ek0, <- Ek1 in E.
  do 2 eexists. split; [exact E|]. rewrite !mk_length. split; [reflexivity|]. split; [reflexivity|]. intros i Hi. rewrite !mk_nth by exact Hi.
  match goal with |- _ = ?X => destruct X as [x0 x1] eqn:EX end. cbn [bits u32 u64]. rewrite EX. reflexivity.
Qed.
Print Assumptions C40_threefry2x64.

Theorem C40_threefry4x32 : forall n R c0 c1 c2 c3 k0 k1 k2 k3, regw 32 n c0 -> regw 32 n c1 -> regw 32 n c2 -> regw 32 n c3 -> regw 32 n k0 -> regw 32 n k1 -> regw 32 n k2 -> regw 32 n k3 ->
  exists o0 o1 o2 o3, threefry4x32 n R (c0, c1, c2, c3) (k0, k1, k2, k3) = Some (o0, o1, o2, o3) /\ length o0 = n /\ length o1 = n /\ length o2 = n /\ length o3 = n /\
    forall i, (i < n)%nat -> (at_ o0 i, at_ o1 i, at_ o2 i, at_ o3 i) = unswap R (t4 32 0x1BD11BDA skein_32x4 R (at_ c0 i, at_ c1 i, at_ c2 i, at_ c3 i) (at_ k0 i, at_ k1 i, at_ k2 i, at_ k3 i)).
Proof.
  intros n R c0 c1 c2 c3 k0 k1 k2 k3 Hc0 Hc1 Hc2 Hc3 Hk0 Hk1 Hk2 Hk3.
  destruct (regw_mk 32 _ c0 ltac:(lia) Hc0) as [Ec0 Wc0].
  destruct (regw_mk 32 _ c1 ltac:(lia) Hc1) as [Ec1 Wc1].
  destruct (regw_mk 32 _ c2 ltac:(lia) Hc2) as [Ec2 Wc2].
  destruct (regw_mk 32 _ c3 ltac:(lia) Hc3) as [Ec3 Wc3].
  destruct (regw_mk 32 _ k0 ltac:(lia) Hk0) as [Ek0 Wk0].
  destruct (regw_mk 32 _ k1 ltac:(lia) Hk1) as [Ek1 Wk1].
  destruct (regw_mk 32 _ k2 ltac:(lia) Hk2) as [Ek2 Wk2].
  destruct (regw_mk 32 _ k3 ltac:(lia) Hk3) as [Ek3 Wk3].
  pose proof (threefry4_mk u32 n (or_introl eq_refl) skein_32x4 0x1BD11BDA R (fun i => (at_ c0 i, at_ c1 i, at_ c2 i, at_ c3 i)) (fun i => (at_ k0 i, at_ k1 i, at_ k2 i, at_ k3 i)) eq_refl ltac:(repeat constructor; cbn; lia) ltac:(split; vm_compute; congruence) ltac:(intros i; split; [apply Wk0|split; [apply Wk1|split; [apply Wk2|apply Wk3]]])) as E.
  cbv beta delta [mk2 mk4] in E. cbn [fst snd] in E. rewrite <- Ec0, <- Ec1, <- Ec2, <- Ec3, <- Ek0, <- Ek1, <- Ek2, <- Ek3 in E.
  do 4 eexists. split; [exact E|]. rewrite !mk_length. split; [reflexivity|]. split; [reflexivity|]. split; [reflexivity|]. split; [reflexivity|]. intros i Hi. rewrite !mk_nth by exact Hi.
  match goal with |- _ = ?X => destruct X as [[[x0 x1] x2] x3] eqn:EX end. cbn [bits u32 u64]. rewrite EX. reflexivity.
Qed.
Print Assumptions C40_threefry4x32.

Theorem C40_threefry4x64 : forall n R c0 c1 c2 c3 k0 k1 k2 k3, regw 64 n c0 -> regw 64 n c1 -> regw 64 n c2 -> regw 64 n c3 -> regw 64 n k0 -> regw 64 n k1 -> regw 64 n k2 -> regw 64 n k3 ->
  exists o0 o1 o2 o3, threefry4x64 n R (c0, c1, c2, c3) (k0, k1, k2, k3) = Some (o0, o1, o2, o3) /\ length o0 = n /\ length o1 = n /\ length o2 = n /\ length o3 = n /\
    forall i, (i < n)%nat -> (at_ o0 i, at_ o1 i, at_ o2 i, at_ o3 i) = unswap R (t4 64 0x1BD11BDAA9FC1A22 skein_64x4 R (at_ c0 i, at_ c1 i, at_ c2 i, at_ c3 i) (at_ k0 i, at_ k1 i, at_ k2 i, at_ k3 i)).
Proof.
  intros n R c0 c1 c2 c3 k0 k1 k2 k3 Hc0 Hc1 Hc2 Hc3 Hk0 Hk1 Hk2 Hk3.
  destruct (regw_mk 64 _ c0 ltac:(lia) Hc0) as [Ec0 Wc0].
  destruct (regw_mk 64 _ c1 ltac:(lia) Hc1) as [Ec1 Wc1].
  destruct (regw_mk 64 _ c2 ltac:(lia) Hc2) as [Ec2 Wc2].
  destruct (regw_mk 64 _ c3 ltac:(lia) Hc3) as [Ec3 Wc3].
  destruct (regw_mk 64 _ k0 ltac:(lia) Hk0) as [Ek0 Wk0].
  destruct (regw_mk 64 _ k1 ltac:(lia) Hk1) as [Ek1 Wk1].
  destruct (regw_mk 64 _ k2 ltac:(lia) Hk2) as [Ek2 Wk2].
  destruct (regw_mk 64 _ k3 ltac:(lia) Hk3) as [Ek3 Wk3].
  pose proof (threefry4_mk u64 n (or_intror eq_refl) skein_64x4 0x1BD11BDAA9FC1A22 R (fun i => (at_ c0 i, at_ c1 i, at_ c2 i, at_ c3 i)) (fun i => (at_ k0 i, at_ k1 i, at_ k2 i, at_ k3 i)) eq_refl ltac:(repeat constructor; cbn; lia) ltac:(split; vm_compute; congruence) ltac:(intros i; split; [apply Wk0|split; [apply Wk1|split; [apply Wk2|apply Wk3]]])) as E.
  cbv beta delta [mk2 mk4] in E. cbn [fst snd] in E. rewrite <- Ec0, <- Ec1, <- Ec2, <- Ec3, <- Ek0, <- Ek1, <- Ek2, <- Ek3 in E.
  do 4 eexists. split; [exact E|]. rewrite !mk_length. split; [reflexivity|]. split; [reflexivity|]. split; [reflexivity|]. split; [reflexivity|]. intros i Hi. rewrite !mk_nth by exact Hi.
  match goal with |- _ = ?X => destruct X as [[[x0 x1] x2] x3] eqn:EX end. cbn [bits u32 u64]. rewrite EX. reflexivity.
Qed.
Print Assumptions C40_threefry4x64.

(** *** Bijections: for a fixed key no two counters give the same output, and every
    output is reached. *)

Theorem C39_bijection_philox2x32 : forall R k,
  (forall c c', words2 32 c -> words2 32 c' -> p2 32 0xD256D193 0x9E3779B9 R c k = p2 32 0xD256D193 0x9E3779B9 R c' k -> c = c') /\
  (forall o, words2 32 o -> exists c, words2 32 c /\ p2 32 0xD256D193 0x9E3779B9 R c k = o).
Proof.
  intros R k. pose proof (p2_inv 32 0xD256D193 0x9E3779B9 R k ltac:(lia) ltac:(split; vm_compute; congruence) eq_refl) as I. split.
  - intros c c' Hc Hc' E. exact (inv_inj _ _ _ _ I Hc Hc' E).
  - intros o Ho. exact (inv_onto _ _ _ I Ho).
Qed.
Print Assumptions C39_bijection_philox2x32.

Theorem C39_bijection_philox2x64 : forall R k,
  (forall c c', words2 64 c -> words2 64 c' -> p2 64 0xD2B74407B1CE6E93 0x9E3779B97F4A7C15 R c k = p2 64 0xD2B74407B1CE6E93 0x9E3779B97F4A7C15 R c' k -> c = c') /\
  (forall o, words2 64 o -> exists c, words2 64 c /\ p2 64 0xD2B74407B1CE6E93 0x9E3779B97F4A7C15 R c k = o).
Proof.
  intros R k. pose proof (p2_inv 64 0xD2B74407B1CE6E93 0x9E3779B97F4A7C15 R k ltac:(lia) ltac:(split; vm_compute; congruence) eq_refl) as I. split.
  - intros c c' Hc Hc' E. exact (inv_inj _ _ _ _ I Hc Hc' E).
  - intros o Ho. exact (inv_onto _ _ _ I Ho).
Qed.
Print Assumptions C39_bijection_philox2x64.

Theorem C39_bijection_philox4x32 : forall R k,
  (forall c c', words4 32 c -> words4 32 c' -> p4 32 0xD2511F53 0xCD9E8D57 0x9E3779B9 0xBB67AE85 R c k = p4 32 0xD2511F53 0xCD9E8D57 0x9E3779B9 0xBB67AE85 R c' k -> c = c') /\
  (forall o, words4 32 o -> exists c, words4 32 c /\ p4 32 0xD2511F53 0xCD9E8D57 0x9E3779B9 0xBB67AE85 R c k = o).
Proof.
  intros R k. pose proof (p4_inv 32 0xD2511F53 0xCD9E8D57 0x9E3779B9 0xBB67AE85 R k ltac:(lia) ltac:(split; vm_compute; congruence) ltac:(split; vm_compute; congruence) eq_refl eq_refl) as I. split.
  - intros c c' Hc Hc' E. apply words4_word4 in Hc, Hc'. exact (inv_inj _ _ _ _ I Hc Hc' E).
  - intros o Ho. apply words4_word4 in Ho. destruct (inv_onto _ _ _ I Ho) as (c & Hc & E). exists c. split; [apply words4_word4; exact Hc|exact E].
Qed.
Print Assumptions C39_bijection_philox4x32.

Theorem C39_bijection_philox4x64 : forall R k,
  (forall c c', words4 64 c -> words4 64 c' -> p4 64 0xD2E7470EE14C6C93 0xCA5A826395121157 0x9E3779B97F4A7C15 0xBB67AE8584CAA73B R c k = p4 64 0xD2E7470EE14C6C93 0xCA5A826395121157 0x9E3779B97F4A7C15 0xBB67AE8584CAA73B R c' k -> c = c') /\
  (forall o, words4 64 o -> exists c, words4 64 c /\ p4 64 0xD2E7470EE14C6C93 0xCA5A826395121157 0x9E3779B97F4A7C15 0xBB67AE8584CAA73B R c k = o).
Proof.
  intros R k. pose proof (p4_inv 64 0xD2E7470EE14C6C93 0xCA5A826395121157 0x9E3779B97F4A7C15 0xBB67AE8584CAA73B R k ltac:(lia) ltac:(split; vm_compute; congruence) ltac:(split; vm_compute; congruence) eq_refl eq_refl) as I. split.
  - intros c c' Hc Hc' E. apply words4_word4 in Hc, Hc'. exact (inv_inj _ _ _ _ I Hc Hc' E).
  - intros o Ho. apply words4_word4 in Ho. destruct (inv_onto _ _ _ I Ho) as (c & Hc & E). exists c. split; [apply words4_word4; exact Hc|exact E].
Qed.
Print Assumptions C39_bijection_philox4x64.

Theorem C40_bijection_threefry2x32 : forall R k,
  (forall c c', words2 32 c -> words2 32 c' -> t2 32 0x1BD11BDA skein_32x2 R c k = t2 32 0x1BD11BDA skein_32x2 R c' k -> c = c') /\
  (forall o, words2 32 o -> exists c, words2 32 c /\ t2 32 0x1BD11BDA skein_32x2 R c k = o).
Proof.
  intros R k. pose proof (t2_inv 32 0x1BD11BDA skein_32x2 R k ltac:(lia) eq_refl ltac:(repeat constructor; cbn; lia)) as I. split.
  - intros c c' Hc Hc' E. exact (inv_inj _ _ _ _ I Hc Hc' E).
  - intros o Ho. exact (inv_onto _ _ _ I Ho).
Qed.
Print Assumptions C40_bijection_threefry2x32.

Theorem C40_bijection_threefry2x64 : forall R k,
  (forall c c', words2 64 c -> words2 64 c' -> t2 64 0x1BD11BDAA9FC1A22 skein_64x2 R c k = t2 64 0x1BD11BDAA9FC1A22 skein_64x2 R c' k -> c = c') /\
  (forall o, words2 64 o -> exists c, words2 64 c /\ t2 64 0x1BD11BDAA9FC1A22 skein_64x2 R c k = o).
Proof.
  intros R k. pose proof (t2_inv 64 0x1BD11BDAA9FC1A22 skein_64x2 R k ltac:(lia) eq_refl ltac:(repeat constructor; cbn; lia)) as I. split.
  - intros c c' Hc Hc' E. exact (inv_inj _ _ _ _ I Hc Hc' E).
  - intros o Ho. exact (inv_onto _ _ _ I Ho).
Qed.
Print Assumptions C40_bijection_threefry2x64.

Theorem C40_bijection_threefry4x32 : forall R k,
  (forall c c', words4 32 c -> words4 32 c' -> unswap R (t4 32 0x1BD11BDA skein_32x4 R c k) = unswap R (t4 32 0x1BD11BDA skein_32x4 R c' k) -> c = c') /\
  (forall o, words4 32 o -> exists c, words4 32 c /\ unswap R (t4 32 0x1BD11BDA skein_32x4 R c k) = o).
Proof.
  intros R k. pose proof (inv_comp _ _ _ (t4_inv 32 0x1BD11BDA skein_32x4 R k ltac:(lia) eq_refl ltac:(repeat constructor; cbn; lia)) (unswap_inv 32 R)) as I. split.
  - intros c c' Hc Hc' E. apply words4_word4 in Hc, Hc'. exact (inv_inj _ _ _ _ I Hc Hc' E).
  - intros o Ho. apply words4_word4 in Ho. destruct (inv_onto _ _ _ I Ho) as (c & Hc & E). exists c. split; [apply words4_word4; exact Hc|exact E].
Qed.
Print Assumptions C40_bijection_threefry4x32.

Theorem C40_bijection_threefry4x64 : forall R k,
  (forall c c', words4 64 c -> words4 64 c' -> unswap R (t4 64 0x1BD11BDAA9FC1A22 skein_64x4 R c k) = unswap R (t4 64 0x1BD11BDAA9FC1A22 skein_64x4 R c' k) -> c = c') /\
  (forall o, words4 64 o -> exists c, words4 64 c /\ unswap R (t4 64 0x1BD11BDAA9FC1A22 skein_64x4 R c k) = o).
Proof.
  intros R k. pose proof (inv_comp _ _ _ (t4_inv 64 0x1BD11BDAA9FC1A22 skein_64x4 R k ltac:(lia) eq_refl ltac:(repeat constructor; cbn; lia)) (unswap_inv 64 R)) as I. split.
  - intros c c' Hc Hc' E. apply words4_word4 in Hc, Hc'. exact (inv_inj _ _ _ _ I Hc Hc' E).
  - intros o Ho. apply words4_word4 in Ho. destruct (inv_onto _ _ _ I Ho) as (c & Hc & E). exists c. split; [apply words4_word4; exact Hc|exact E].
Qed.
Print Assumptions C40_bijection_threefry4x64.

(** The same on the vectors returned by the library, lane by lane. *)

Theorem C39_distinct_philox2x32 : forall n r c0 c1 d0 d1 k0 l0 o0 o1 e0 e1 i, regw 32 (2 * n) c0 -> regw 32 (2 * n) c1 -> regw 32 (2 * n) k0 -> regw 32 (2 * n) d0 -> regw 32 (2 * n) d1 -> regw 32 (2 * n) l0 -> (i < (2 * n))%nat ->
  philox2x32 n r (c0, c1) k0 = Some (o0, o1) -> philox2x32 n r (d0, d1) l0 = Some (e0, e1) ->
  at_ k0 i = at_ l0 i -> at_ o0 i = at_ e0 i -> at_ o1 i = at_ e1 i ->
  at_ c0 i = at_ d0 i /\ at_ c1 i = at_ d1 i.
Proof.
  intros n r c0 c1 d0 d1 k0 l0 o0 o1 e0 e1 i Hc0 Hc1 Hk0 Hd0 Hd1 Hl0 Hi E1 E2 K0 O0 O1.
  destruct (C39_philox2x32 n r c0 c1 k0 Hc0 Hc1 Hk0) as (u0 & u1 & F1 & _ & _ & L1).
  destruct (C39_philox2x32 n r d0 d1 l0 Hd0 Hd1 Hl0) as (v0 & v1 & F2 & _ & _ & L2).
  rewrite F1 in E1. rewrite F2 in E2. injection E1 as -> ->. injection E2 as -> ->.
  specialize (L1 i Hi). specialize (L2 i Hi). rewrite O0, O1 in L1. rewrite K0 in L1. rewrite L2 in L1.
  pose proof (proj1 (C39_bijection_philox2x32 (S r) (at_ l0 i)) (at_ c0 i, at_ c1 i) (at_ d0 i, at_ d1 i) ltac:(split; [apply (proj2 (regw_mk 32 _ _ ltac:(lia) Hc0))|apply (proj2 (regw_mk 32 _ _ ltac:(lia) Hc1))]) ltac:(split; [apply (proj2 (regw_mk 32 _ _ ltac:(lia) Hd0))|apply (proj2 (regw_mk 32 _ _ ltac:(lia) Hd1))]) (eq_sym L1)) as E.
  injection E as X0 X1. split; assumption.
Qed.
Print Assumptions C39_distinct_philox2x32.

Theorem C39_distinct_philox2x64 : forall n r c0 c1 d0 d1 k0 l0 o0 o1 e0 e1 i, regw 64 n c0 -> regw 64 n c1 -> regw 64 n k0 -> regw 64 n d0 -> regw 64 n d1 -> regw 64 n l0 -> (i < n)%nat ->
  philox2x64 n r (c0, c1) k0 = Some (o0, o1) -> philox2x64 n r (d0, d1) l0 = Some (e0, e1) ->
  at_ k0 i = at_ l0 i -> at_ o0 i = at_ e0 i -> at_ o1 i = at_ e1 i ->
  at_ c0 i = at_ d0 i /\ at_ c1 i = at_ d1 i.
Proof.
  intros n r c0 c1 d0 d1 k0 l0 o0 o1 e0 e1 i Hc0 Hc1 Hk0 Hd0 Hd1 Hl0 Hi E1 E2 K0 O0 O1.
  destruct (C39_philox2x64 n r c0 c1 k0 Hc0 Hc1 Hk0) as (u0 & u1 & F1 & _ & _ & L1).
  destruct (C39_philox2x64 n r d0 d1 l0 Hd0 Hd1 Hl0) as (v0 & v1 & F2 & _ & _ & L2).
  rewrite F1 in E1. rewrite F2 in E2. injection E1 as -> ->. injection E2 as -> ->.
  specialize (L1 i Hi). specialize (L2 i Hi). rewrite O0, O1 in L1. rewrite K0 in L1. rewrite L2 in L1.
  pose proof (proj1 (C39_bijection_philox2x64 (S r) (at_ l0 i)) (at_ c0 i, at_ c1 i) (at_ d0 i, at_ d1 i) ltac:(split; [apply (proj2 (regw_mk 64 _ _ ltac:(lia) Hc0))|apply (proj2 (regw_mk 64 _ _ ltac:(lia) Hc1))]) ltac:(split; [apply (proj2 (regw_mk 64 _ _ ltac:(lia) Hd0))|apply (proj2 (regw_mk 64 _ _ ltac:(lia) Hd1))]) (eq_sym L1)) as E.
  injection E as X0 X1. split; assumption.
Qed.
Print Assumptions C39_distinct_philox2x64.

Theorem C39_distinct_philox4x32 : forall n r c0 c1 c2 c3 d0 d1 d2 d3 k0 k1 l0 l1 o0 o1 o2 o3 e0 e1 e2 e3 i, regw 32 (2 * n) c0 -> regw 32 (2 * n) c1 -> regw 32 (2 * n) c2 -> regw 32 (2 * n) c3 -> regw 32 (2 * n) k0 -> regw 32 (2 * n) k1 -> regw 32 (2 * n) d0 -> regw 32 (2 * n) d1 -> regw 32 (2 * n) d2 -> regw 32 (2 * n) d3 -> regw 32 (2 * n) l0 -> regw 32 (2 * n) l1 -> (i < (2 * n))%nat ->
  philox4x32 n r (c0, c1, c2, c3) (k0, k1) = Some (o0, o1, o2, o3) -> philox4x32 n r (d0, d1, d2, d3) (l0, l1) = Some (e0, e1, e2, e3) ->
  at_ k0 i = at_ l0 i -> at_ k1 i = at_ l1 i -> at_ o0 i = at_ e0 i -> at_ o1 i = at_ e1 i -> at_ o2 i = at_ e2 i -> at_ o3 i = at_ e3 i ->
  at_ c0 i = at_ d0 i /\ at_ c1 i = at_ d1 i /\ at_ c2 i = at_ d2 i /\ at_ c3 i = at_ d3 i.
Proof.
  intros n r c0 c1 c2 c3 d0 d1 d2 d3 k0 k1 l0 l1 o0 o1 o2 o3 e0 e1 e2 e3 i Hc0 Hc1 Hc2 Hc3 Hk0 Hk1 Hd0 Hd1 Hd2 Hd3 Hl0 Hl1 Hi E1 E2 K0 K1 O0 O1 O2 O3.
  destruct (C39_philox4x32 n r c0 c1 c2 c3 k0 k1 Hc0 Hc1 Hc2 Hc3 Hk0 Hk1) as (u0 & u1 & u2 & u3 & F1 & _ & _ & _ & _ & L1).
  destruct (C39_philox4x32 n r d0 d1 d2 d3 l0 l1 Hd0 Hd1 Hd2 Hd3 Hl0 Hl1) as (v0 & v1 & v2 & v3 & F2 & _ & _ & _ & _ & L2).
  rewrite F1 in E1. rewrite F2 in E2. injection E1 as -> -> -> ->. injection E2 as -> -> -> ->.
  specialize (L1 i Hi). specialize (L2 i Hi). rewrite O0, O1, O2, O3 in L1. rewrite K0, K1 in L1. rewrite L2 in L1.
  pose proof (proj1 (C39_bijection_philox4x32 (S r) (at_ l0 i, at_ l1 i)) (at_ c0 i, at_ c1 i, at_ c2 i, at_ c3 i) (at_ d0 i, at_ d1 i, at_ d2 i, at_ d3 i) ltac:(split; [apply (proj2 (regw_mk 32 _ _ ltac:(lia) Hc0))|split; [apply (proj2 (regw_mk 32 _ _ ltac:(lia) Hc1))|split; [apply (proj2 (regw_mk 32 _ _ ltac:(lia) Hc2))|apply (proj2 (regw_mk 32 _ _ ltac:(lia) Hc3))]]]) ltac:(split; [apply (proj2 (regw_mk 32 _ _ ltac:(lia) Hd0))|split; [apply (proj2 (regw_mk 32 _ _ ltac:(lia) Hd1))|split; [apply (proj2 (regw_mk 32 _ _ ltac:(lia) Hd2))|apply (proj2 (regw_mk 32 _ _ ltac:(lia) Hd3))]]]) (eq_sym L1)) as E.
  injection E as X0 X1 X2 X3. split; [|split; [|split]]; assumption.
Qed.
Print Assumptions C39_distinct_philox4x32.

Theorem C39_distinct_philox4x64 : forall n r c0 c1 c2 c3 d0 d1 d2 d3 k0 k1 l0 l1 o0 o1 o2 o3 e0 e1 e2 e3 i, regw 64 n c0 -> regw 64 n c1 -> regw 64 n c2 -> regw 64 n c3 -> regw 64 n k0 -> regw 64 n k1 -> regw 64 n d0 -> regw 64 n d1 -> regw 64 n d2 -> regw 64 n d3 -> regw 64 n l0 -> regw 64 n l1 -> (i < n)%nat ->
  philox4x64 n r (c0, c1, c2, c3) (k0, k1) = Some (o0, o1, o2, o3) -> philox4x64 n r (d0, d1, d2, d3) (l0, l1) = Some (e0, e1, e2, e3) ->
  at_ k0 i = at_ l0 i -> at_ k1 i = at_ l1 i -> at_ o0 i = at_ e0 i -> at_ o1 i = at_ e1 i -> at_ o2 i = at_ e2 i -> at_ o3 i = at_ e3 i ->
  at_ c0 i = at_ d0 i /\ at_ c1 i = at_ d1 i /\ at_ c2 i = at_ d2 i /\ at_ c3 i = at_ d3 i.
Proof.
  intros n r c0 c1 c2 c3 d0 d1 d2 d3 k0 k1 l0 l1 o0 o1 o2 o3 e0 e1 e2 e3 i Hc0 Hc1 Hc2 Hc3 Hk0 Hk1 Hd0 Hd1 Hd2 Hd3 Hl0 Hl1 Hi E1 E2 K0 K1 O0 O1 O2 O3.
  destruct (C39_philox4x64 n r c0 c1 c2 c3 k0 k1 Hc0 Hc1 Hc2 Hc3 Hk0 Hk1) as (u0 & u1 & u2 & u3 & F1 & _ & _ & _ & _ & L1).
  destruct (C39_philox4x64 n r d0 d1 d2 d3 l0 l1 Hd0 Hd1 Hd2 Hd3 Hl0 Hl1) as (v0 & v1 & v2 & v3 & F2 & _ & _ & _ & _ & L2).
  rewrite F1 in E1. rewrite F2 in E2. injection E1 as -> -> -> ->. injection E2 as -> -> -> ->.
  specialize (L1 i Hi). specialize (L2 i Hi). rewrite O0, O1, O2, O3 in L1. rewrite K0, K1 in L1. rewrite L2 in L1.
  pose proof (proj1 (C39_bijection_philox4x64 (S r) (at_ l0 i, at_ l1 i)) (at_ c0 i, at_ c1 i, at_ c2 i, at_ c3 i) (at_ d0 i, at_ d1 i, at_ d2 i, at_ d3 i) ltac:(split; [apply (proj2 (regw_mk 64 _ _ ltac:(lia) Hc0))|split; [apply (proj2 (regw_mk 64 _ _ ltac:(lia) Hc1))|split; [apply (proj2 (regw_mk 64 _ _ ltac:(lia) Hc2))|apply (proj2 (regw_mk 64 _ _ ltac:(lia) Hc3))]]]) ltac:(split; [apply (proj2 (regw_mk 64 _ _ ltac:(lia) Hd0))|split; [apply (proj2 (regw_mk 64 _ _ ltac:(lia) Hd1))|split; [apply (proj2 (regw_mk 64 _ _ ltac:(lia) Hd2))|apply (proj2 (regw_mk 64 _ _ ltac:(lia) Hd3))]]]) (eq_sym L1)) as E.
  injection E as X0 X1 X2 X3. split; [|split; [|split]]; assumption.
Qed.
Print Assumptions C39_distinct_philox4x64.

Theorem C40_distinct_threefry2x32 : forall n R c0 c1 d0 d1 k0 k1 l0 l1 o0 o1 e0 e1 i, regw 32 n c0 -> regw 32 n c1 -> regw 32 n k0 -> regw 32 n k1 -> regw 32 n d0 -> regw 32 n d1 -> regw 32 n l0 -> regw 32 n l1 -> (i < n)%nat ->
  threefry2x32 n R (c0, c1) (k0, k1) = Some (o0, o1) -> threefry2x32 n R (d0, d1) (l0, l1) = Some (e0, e1) ->
  at_ k0 i = at_ l0 i -> at_ k1 i = at_ l1 i -> at_ o0 i = at_ e0 i -> at_ o1 i = at_ e1 i ->
  at_ c0 i = at_ d0 i /\ at_ c1 i = at_ d1 i.
Proof.
  intros n R c0 c1 d0 d1 k0 k1 l0 l1 o0 o1 e0 e1 i Hc0 Hc1 Hk0 Hk1 Hd0 Hd1 Hl0 Hl1 Hi E1 E2 K0 K1 O0 O1.
  destruct (C40_threefry2x32 n R c0 c1 k0 k1 Hc0 Hc1 Hk0 Hk1) as (u0 & u1 & F1 & _ & _ & L1).
  destruct (C40_threefry2x32 n R d0 d1 l0 l1 Hd0 Hd1 Hl0 Hl1) as (v0 & v1 & F2 & _ & _ & L2).
  rewrite F1 in E1. rewrite F2 in E2. injection E1 as -> ->. injection E2 as -> ->.
  specialize (L1 i Hi). specialize (L2 i Hi). rewrite O0, O1 in L1. rewrite K0, K1 in L1. rewrite L2 in L1.
  pose proof (proj1 (C40_bijection_threefry2x32 R (at_ l0 i, at_ l1 i)) (at_ c0 i, at_ c1 i) (at_ d0 i, at_ d1 i) ltac:(split; [apply (proj2 (regw_mk 32 _ _ ltac:(lia) Hc0))|apply (proj2 (regw_mk 32 _ _ ltac:(lia) Hc1))]) ltac:(split; [apply (proj2 (regw_mk 32 _ _ ltac:(lia) Hd0))|apply (proj2 (regw_mk 32 _ _ ltac:(lia) Hd1))]) (eq_sym L1)) as E.
  injection E as X0 X1. split; assumption.
Qed.
Print Assumptions C40_distinct_threefry2x32.

Theorem C40_distinct_threefry2x64 : forall n R c0 c1 d0 d1 k0 k1 l0 l1 o0 o1 e0 e1 i, regw 64 n c0 -> regw 64 n c1 -> regw 64 n k0 -> regw 64 n k1 -> regw 64 n d0 -> regw 64 n d1 -> regw 64 n l0 -> regw 64 n l1 -> (i < n)%nat ->
  threefry2x64 n R (c0, c1) (k0, k1) = Some (o0, o1) -> threefry2x64 n R (d0, d1) (l0, l1) = Some (e0, e1) ->
  at_ k0 i = at_ l0 i -> at_ k1 i = at_ l1 i -> at_ o0 i = at_ e0 i -> at_ o1 i = at_ e1 i ->
  at_ c0 i = at_ d0 i /\ at_ c1 i = at_ d1 i.
Proof.
  intros n R c0 c1 d0 d1 k0 k1 l0 l1 o0 o1 e0 e1 i Hc0 Hc1 Hk0 Hk1 Hd0 Hd1 Hl0 Hl1 Hi E1 E2 K0 K1 O0 O1.
  destruct (C40_threefry2x64 n R c0 c1 k0 k1 Hc0 Hc1 Hk0 Hk1) as (u0 & u1 & F1 & _ & _ & L1).
  destruct (C40_threefry2x64 n R d0 d1 l0 l1 Hd0 Hd1 Hl0 Hl1) as (v0 & v1 & F2 & _ & _ & L2).
  rewrite F1 in E1. rewrite F2 in E2. injection E1 as -> ->. injection E2 as -> ->.
  specialize (L1 i Hi). specialize (L2 i Hi). rewrite O0, O1 in L1. rewrite K0, K1 in L1. rewrite L2 in L1.
  pose proof (proj1 (C40_bijection_threefry2x64 R (at_ l0 i, at_ l1 i)) (at_ c0 i, at_ c1 i) (at_ d0 i, at_ d1 i) ltac:(split; [apply (proj2 (regw_mk 64 _ _ ltac:(lia) Hc0))|apply (proj2 (regw_mk 64 _ _ ltac:(lia) Hc1))]) ltac:(split; [apply (proj2 (regw_mk 64 _ _ ltac:(lia) Hd0))|apply (proj2 (regw_mk 64 _ _ ltac:(lia) Hd1))]) (eq_sym L1)) as E.
  injection E as X0 X1. split; assumption.
Qed.
Print Assumptions C40_distinct_threefry2x64.

Theorem C40_distinct_threefry4x32 : forall n R c0 c1 c2 c3 d0 d1 d2 d3 k0 k1 k2 k3 l0 l1 l2 l3 o0 o1 o2 o3 e0 e1 e2 e3 i, regw 32 n c0 -> regw 32 n c1 -> regw 32 n c2 -> regw 32 n c3 -> regw 32 n k0 -> regw 32 n k1 -> regw 32 n k2 -> regw 32 n k3 -> regw 32 n d0 -> regw 32 n d1 -> regw 32 n d2 -> regw 32 n d3 -> regw 32 n l0 -> regw 32 n l1 -> regw 32 n l2 -> regw 32 n l3 -> (i < n)%nat ->
  threefry4x32 n R (c0, c1, c2, c3) (k0, k1, k2, k3) = Some (o0, o1, o2, o3) -> threefry4x32 n R (d0, d1, d2, d3) (l0, l1, l2, l3) = Some (e0, e1, e2, e3) ->
  at_ k0 i = at_ l0 i -> at_ k1 i = at_ l1 i -> at_ k2 i = at_ l2 i -> at_ k3 i = at_ l3 i -> at_ o0 i = at_ e0 i -> at_ o1 i = at_ e1 i -> at_ o2 i = at_ e2 i -> at_ o3 i = at_ e3 i ->
  at_ c0 i = at_ d0 i /\ at_ c1 i = at_ d1 i /\ at_ c2 i = at_ d2 i /\ at_ c3 i = at_ d3 i.
Proof.
  intros n R c0 c1 c2 c3 d0 d1 d2 d3 k0 k1 k2 k3 l0 l1 l2 l3 o0 o1 o2 o3 e0 e1 e2 e3 i Hc0 Hc1 Hc2 Hc3 Hk0 Hk1 Hk2 Hk3 Hd0 Hd1 Hd2 Hd3 Hl0 Hl1 Hl2 Hl3 Hi E1 E2 K0 K1 K2 K3 O0 O1 O2 O3.
  destruct (C40_threefry4x32 n R c0 c1 c2 c3 k0 k1 k2 k3 Hc0 Hc1 Hc2 Hc3 Hk0 Hk1 Hk2 Hk3) as (u0 & u1 & u2 & u3 & F1 & _ & _ & _ & _ & L1).
  destruct (C40_threefry4x32 n R d0 d1 d2 d3 l0 l1 l2 l3 Hd0 Hd1 Hd2 Hd3 Hl0 Hl1 Hl2 Hl3) as (v0 & v1 & v2 & v3 & F2 & _ & _ & _ & _ & L2).
  rewrite F1 in E1. rewrite F2 in E2. injection E1 as -> -> -> ->. injection E2 as -> -> -> ->.
  specialize (L1 i Hi). specialize (L2 i Hi). rewrite O0, O1, O2, O3 in L1. rewrite K0, K1, K2, K3 in L1. rewrite L2 in L1.
  pose proof (proj1 (C40_bijection_threefry4x32 R (at_ l0 i, at_ l1 i, at_ l2 i, at_ l3 i)) (at_ c0 i, at_ c1 i, at_ c2 i, at_ c3 i) (at_ d0 i, at_ d1 i, at_ d2 i, at_ d3 i) ltac:(split; [apply (proj2 (regw_mk 32 _ _ ltac:(lia) Hc0))|split; [apply (proj2 (regw_mk 32 _ _ ltac:(lia) Hc1))|split; [apply (proj2 (regw_mk 32 _ _ ltac:(lia) Hc2))|apply (proj2 (regw_mk 32 _ _ ltac:(lia) Hc3))]]]) ltac:(split; [apply (proj2 (regw_mk 32 _ _ ltac:(lia) Hd0))|split; [apply (proj2 (regw_mk 32 _ _ ltac:(lia) Hd1))|split; [apply (proj2 (regw_mk 32 _ _ ltac:(lia) Hd2))|apply (proj2 (regw_mk 32 _ _ ltac:(lia) Hd3))]]]) (eq_sym L1)) as E.
  injection E as X0 X1 X2 X3. split; [|split; [|split]]; assumption.
Qed.
Print Assumptions C40_distinct_threefry4x32.

Theorem C40_distinct_threefry4x64 : forall n R c0 c1 c2 c3 d0 d1 d2 d3 k0 k1 k2 k3 l0 l1 l2 l3 o0 o1 o2 o3 e0 e1 e2 e3 i, regw 64 n c0 -> regw 64 n c1 -> regw 64 n c2 -> regw 64 n c3 -> regw 64 n k0 -> regw 64 n k1 -> regw 64 n k2 -> regw 64 n k3 -> regw 64 n d0 -> regw 64 n d1 -> regw 64 n d2 -> regw 64 n d3 -> regw 64 n l0 -> regw 64 n l1 -> regw 64 n l2 -> regw 64 n l3 -> (i < n)%nat ->
  threefry4x64 n R (c0, c1, c2, c3) (k0, k1, k2, k3) = Some (o0, o1, o2, o3) -> threefry4x64 n R (d0, d1, d2, d3) (l0, l1, l2, l3) = Some (e0, e1, e2, e3) ->
  at_ k0 i = at_ l0 i -> at_ k1 i = at_ l1 i -> at_ k2 i = at_ l2 i -> at_ k3 i = at_ l3 i -> at_ o0 i = at_ e0 i -> at_ o1 i = at_ e1 i -> at_ o2 i = at_ e2 i -> at_ o3 i = at_ e3 i ->
  at_ c0 i = at_ d0 i /\ at_ c1 i = at_ d1 i /\ at_ c2 i = at_ d2 i /\ at_ c3 i = at_ d3 i.
Proof.
  intros n R c0 c1 c2 c3 d0 d1 d2 d3 k0 k1 k2 k3 l0 l1 l2 l3 o0 o1 o2 o3 e0 e1 e2 e3 i Hc0 Hc1 Hc2 Hc3 Hk0 Hk1 Hk2 Hk3 Hd0 Hd1 Hd2 Hd3 Hl0 Hl1 Hl2 Hl3 Hi E1 E2 K0 K1 K2 K3 O0 O1 O2 O3.
  destruct (C40_threefry4x64 n R c0 c1 c2 c3 k0 k1 k2 k3 Hc0 Hc1 Hc2 Hc3 Hk0 Hk1 Hk2 Hk3) as (u0 & u1 & u2 & u3 & F1 & _ & _ & _ & _ & L1).
  destruct (C40_threefry4x64 n R d0 d1 d2 d3 l0 l1 l2 l3 Hd0 Hd1 Hd2 Hd3 Hl0 Hl1 Hl2 Hl3) as (v0 & v1 & v2 & v3 & F2 & _ & _ & _ & _ & L2).
  rewrite F1 in E1. rewrite F2 in E2. injection E1 as -> -> -> ->. injection E2 as -> -> -> ->.
  specialize (L1 i Hi). specialize (L2 i Hi). rewrite O0, O1, O2, O3 in L1. rewrite K0, K1, K2, K3 in L1. rewrite L2 in L1.
  pose proof (proj1 (C40_bijection_threefry4x64 R (at_ l0 i, at_ l1 i, at_ l2 i, at_ l3 i)) (at_ c0 i, at_ c1 i, at_ c2 i, at_ c3 i) (at_ d0 i, at_ d1 i, at_ d2 i, at_ d3 i) ltac:(split; [apply (proj2 (regw_mk 64 _ _ ltac:(lia) Hc0))|split; [apply (proj2 (regw_mk 64 _ _ ltac:(lia) Hc1))|split; [apply (proj2 (regw_mk 64 _ _ ltac:(lia) Hc2))|apply (proj2 (regw_mk 64 _ _ ltac:(lia) Hc3))]]]) ltac:(split; [apply (proj2 (regw_mk 64 _ _ ltac:(lia) Hd0))|split; [apply (proj2 (regw_mk 64 _ _ ltac:(lia) Hd1))|split; [apply (proj2 (regw_mk 64 _ _ ltac:(lia) Hd2))|apply (proj2 (regw_mk 64 _ _ ltac:(lia) Hd3))]]]) (eq_sym L1)) as E.
  injection E as X0 X1 X2 X3. split; [|split; [|split]]; assumption.
Qed.
Print Assumptions C40_distinct_threefry4x64.

(** Known answers of Random123 (kat_vectors) for counter 0 and key 0. *)
Example philox2x32_kat : philox2x32 1 9 ([0; 1], [0; 0]) [0; 0] <> None /\
  option_map (fun o => (at_ (fst o) 0%nat, at_ (snd o) 0%nat)) (philox2x32 1 9 ([0; 1], [0; 0]) [0; 0]) = Some (0xff1dae59, 0x6cd10df2).
Proof. vm_compute. split; [discriminate|reflexivity]. Qed.
Example philox4x64_kat : philox4x64 1 9 ([0], [0], [0], [0]) ([0], [0])
  = Some ([0x16554d9eca36314c], [0xdb20fe9d672d0fdc], [0xd7e772cee186176b], [0x7e68b68aec7ba23b]).
Proof. vm_compute. reflexivity. Qed.
Example threefry2x64_kat : threefry2x64 1 20 ([0], [0]) ([0], [0]) = Some ([0xc2b6e3a8c2c69865], [0x6f81ed42f350084d]).
Proof. vm_compute. reflexivity. Qed.
Example threefry4x32_kat : threefry4x32 1 20 ([0], [0], [0], [0]) ([0], [0], [0], [0])
  = Some ([0x9c6ca96a], [0xe17eae66], [0xfc10ecd4], [0x5256a7d8]).
Proof. vm_compute. reflexivity. Qed.
