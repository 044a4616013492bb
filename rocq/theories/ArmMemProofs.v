(** Proofs about the ARM memory operators. *)
From Coq Require Import ZArith Lia List Bool ZifyBool.
From Verif Require Import CInt BitLemmas FloatSpec Fp16 Fp16Spec ScalarOps ScalarSpec ScalarProofs X86Deg234 X86Arith X86ArithSpec X86LaneLemmas
  X86EmulProofs X86SelectProofs X86Mem X86MemSpec X86MemProofs X86MemProofs2 Arm ArmSpec ArmProofs ArmProofs4 ArmPerm ArmPermSpec ArmPermProofs ArmMem ArmMemSpec.
Import ListNotations.
Open Scope Z_scope.

Lemma ok8_128 : ok8 128. Proof. split; reflexivity. Qed.
Lemma ok8_64 : ok8 64. Proof. split; reflexivity. Qed.
Lemma ok8_16 : ok8 16. Proof. split; reflexivity. Qed.
Lemma okw_64 : okw 128 64. Proof. repeat split; lia. Qed.
Lemma okw_16 : okw 128 16. Proof. repeat split; lia. Qed.

Lemma build2_o f x y : f 0 = Some x -> f 1 = Some y -> build_o 64 2 f = Some (build 64 2 (fun i => if i =? 0 then x else y)).
Proof. intros E0 E1. cbn [build_o]. change (Z.of_nat 0) with 0. change (Z.of_nat 1) with 1. rewrite E0, E1. reflexivity. Qed.
Lemma bind2_o f (g := fun x y => build 64 2 (fun i => if i =? 0 then x else y)) :
  bind (f 0) (fun x => bind (f 1) (fun y => Some (g x y))) = build_o 64 2 f.
Proof.
  destruct (f 0) as [x|] eqn:E0; cbn [bind].
  - destruct (f 1) as [y|] eqn:E1; cbn [bind]; [symmetry; apply build2_o; assumption|].
    cbn [build_o]. change (Z.of_nat 0) with 0. change (Z.of_nat 1) with 1. rewrite E0, E1. reflexivity.
  - cbn [build_o]. change (Z.of_nat 0) with 0. rewrite E0. reflexivity.
Qed.

Lemma a_load_ok e t m a : mem_type t -> (forall i, 0 <= i < aelems e t -> mapped (mw t) m (a + i * (mw t / 8))) ->
  exists r, a_load e t m a = Some r /\ in_reg (an e) r /\
    forall i, 0 <= i < aelems e t -> holds (mw t) m (a + i * (mw t / 8)) (pattern t r i).
Proof.
  intros H M. pose proof (okw_amw e t H) as On. pose proof (ok8_mw t H) as O. unfold aelems in *.
  assert (Q : an e = 128 -> exists r, rdw 128 m a = Some r /\ in_reg (an e) r /\
    forall i, 0 <= i < an e / mw t -> holds (mw t) m (a + i * (mw t / 8)) (pattern t r i)).
  { intros E. rewrite E in *. destruct (rdw_mapped 128 m a ok8_128) as (r & Er & Hr).
    { intros k Hk. destruct (byte_index (mw t) 128 k On O Hk) as (I1 & I2 & I3). rewrite I3, Z.add_assoc. apply M; assumption. }
    exists r. split; [exact Er|]. split; [exact (proj1 Hr)|]. intros i Hi. apply (holds_elem 128); assumption. }
  destruct e as [| |b vq].
  - destruct t as [t| |]; [apply Q; reflexivity|apply Q; reflexivity|].
    destruct (gathered 128 64 (fun i => a + i * 8) m okw_64 ok8_64 M) as [_ (r & Er & Rr & A)].
    exists r. split; [|split; assumption]. cbn [a_load]. rewrite <- Er. change (nlanes 128 64) with 2%nat.
    rewrite <- bind2_o. rewrite Z.add_0_r. reflexivity.
  - apply Q. reflexivity.
  - cbn [a_load]. unfold sv_ld1. set (e := Sve b vq) in *.
    destruct (mask_build_o (an e) (mw t) (active (mw t) (svtrue e (uty t))) (fun _ => true) m a (fun _ => 0)) as (r & E & R & A); try assumption.
    { intros i Hi. apply (active_true e (uty t)); [apply mem_ty, H|exact Hi]. }
    { intros i Hi. pose proof (pow2_pos (mw t)). destruct O. lia. }
    { intros i Hi _. apply M, Hi. }
    exists r. split; [exact E|]. split; [exact R|]. exact A.
Qed.

Lemma a_store_ok e t m a v : mem_type t -> in_reg (an e) v -> (forall i, 0 <= i < aelems e t -> mapped (mw t) m (a + i * (mw t / 8))) ->
  exists m', a_store e t m a v = Some m' /\
    (forall i, 0 <= i < aelems e t -> holds (mw t) m' (a + i * (mw t / 8)) (pattern t v i)) /\
    (forall x, x < a \/ a + aelems e t * (mw t / 8) <= x -> m' x = m x) /\ (forall x, m x <> None -> m' x <> None).
Proof.
  intros H Hv M. pose proof (okw_amw e t H) as On. pose proof (ok8_mw t H) as O. unfold aelems in *.
  assert (L : forall cond k, Z.of_nat k = an e / mw t -> (forall i, 0 <= i < an e / mw t -> cond i = true) ->
    exists m', store_loop (mw t) cond (fun i => Some (a + i * (mw t / 8))) (fun i => lane (mw t) i v) k m = Some m' /\
    (forall i, 0 <= i < an e / mw t -> holds (mw t) m' (a + i * (mw t / 8)) (pattern t v i)) /\
    (forall x, x < a \/ a + an e / mw t * (mw t / 8) <= x -> m' x = m x) /\ (forall x, m x <> None -> m' x <> None)).
  { intros cond k Hk Hc. destruct (store_loop_stored (mw t) cond (fun _ => true) a (fun i => lane (mw t) i v) k m) as (m' & E & A & U & D).
    { exact O. } { rewrite Hk. exact Hc. } { rewrite Hk. intros i Hi _. apply M, Hi. }
    rewrite Hk in *. exists m'. split; [exact E|]. split; [|split; [|exact D]].
    - intros i Hi. specialize (A i Hi eq_refl). cbv beta in A. rewrite lane_mod in A by (destruct O; lia). exact A.
    - intros x Hx. apply U. intros i Hi _. unfold outside. assert (0 < mw t / 8) by (destruct O; lia). nia. }
  assert (Q : an e = 128 -> exists m', wrw 128 m a v = Some m' /\
    (forall i, 0 <= i < an e / mw t -> holds (mw t) m' (a + i * (mw t / 8)) (pattern t v i)) /\
    (forall x, x < a \/ a + an e / mw t * (mw t / 8) <= x -> m' x = m x) /\ (forall x, m x <> None -> m' x <> None)).
  { intros E. rewrite E in *. destruct (wrw_ok 128 m a v ok8_128) as (m' & Em & A & U & D).
    { intros k Hk. destruct (byte_index (mw t) 128 k On O Hk) as (I1 & I2 & I3). rewrite I3, Z.add_assoc. apply M; assumption. }
    exists m'. split; [exact Em|]. split; [|split; [|exact D]].
    - intros i Hi. apply (holds_elem 128); try assumption. rewrite Z.mod_small in A by exact Hv. exact A.
    - intros x Hx. apply U. unfold outside. change (128 / 8) with 16.
      destruct (mw_cases t H) as [Ew|[Ew|[Ew|Ew]]]; rewrite Ew in Hx; cbn in Hx; lia. }
  destruct e as [| |b vq].
  - destruct t as [t| |]; [apply Q; reflexivity|apply Q; reflexivity|].
    destruct (L (fun _ => true) 2%nat) as (m' & E & A); [reflexivity|reflexivity|]. exists m'. split; [|exact A]. rewrite <- E.
    cbn [a_store store_loop bind]. change (Z.of_nat 0) with 0. change (Z.of_nat 1) with 1. change (mw MF64) with 64. change (64 / 8) with 8.
    replace (a + 0 * 8) with a by lia. replace (a + 1 * 8) with (a + 8) by lia. reflexivity.
  - apply Q. reflexivity.
  - cbn [a_store]. unfold sv_st1. apply L; [apply nlanes_z, On|]. intros i Hi.
    apply (active_true _ (uty t)); [apply mem_ty, H|exact Hi].
Qed.

(** ** Degrees above one *)

Lemma collect_ok {T} (d : T) f : forall k, (forall j, 0 <= j < Z.of_nat k -> f j <> None) ->
  exists l, collect k f = Some l /\ length l = k /\ forall j, 0 <= j < Z.of_nat k -> f j = Some (nthz d l j).
Proof.
  induction k as [|k IH]; intros H.
  - exists []. split; [reflexivity|]. split; [reflexivity|]. intros; lia.
  - destruct IH as (l & E & Ll & A); [intros; apply H; lia|]. cbn [collect]. rewrite E. cbn [bind].
    destruct (f (Z.of_nat k)) as [x|] eqn:Ex; [|exfalso; apply (H (Z.of_nat k)); [lia|exact Ex]]. cbn [bind].
    exists (l ++ [x]). split; [reflexivity|]. split; [rewrite app_length; cbn; lia|]. intros j Hj. unfold nthz.
    destruct (Z.eq_dec j (Z.of_nat k)) as [->|].
    + rewrite app_nth2 by lia. rewrite Ex. rewrite Nat2Z.id, Ll, Nat.sub_diag. reflexivity.
    + rewrite app_nth1 by lia. apply A. lia.
Qed.

Lemma ldn_ok deg n w m a : okw n w -> ok8 w -> 0 <= deg ->
  (forall i j, 0 <= i < n / w -> 0 <= j < deg -> mapped w m (a + (i * deg + j) * (w / 8))) ->
  exists rs, i_ldn deg n w m a = Some rs /\ Z.of_nat (length rs) = deg /\
    forall j, 0 <= j < deg -> in_reg n (nthz 0 rs j) /\
      forall i, 0 <= i < n / w -> holds w m (a + (i * deg + j) * (w / 8)) (lane w i (nthz 0 rs j)).
Proof.
  intros On O Hd M. unfold i_ldn.
  assert (G : forall j, 0 <= j < deg -> exists r, build_o w (nlanes n w) (fun i => rdw w m (a + (i * deg + j) * (w / 8))) = Some r /\
    in_reg n r /\ forall i, 0 <= i < n / w -> holds w m (a + (i * deg + j) * (w / 8)) (lane w i r)).
  { intros j Hj. apply (gathered n w (fun i => a + (i * deg + j) * (w / 8)) m On O). intros i Hi. apply M; assumption. }
  destruct (collect_ok 0 (fun j => build_o w (nlanes n w) (fun i => rdw w m (a + (i * deg + j) * (w / 8)))) (Z.to_nat deg)) as (l & E & Ll & A).
  { intros j Hj N. destruct (G j) as (r & Er & _); [lia|]. cbv beta in N. congruence. }
  exists l. split; [exact E|]. split; [lia|]. intros j Hj. specialize (A j ltac:(lia)). cbv beta in A.
  destruct (G j Hj) as (r & Er & R & Hr). rewrite Er in A. injection A as <-. split; [exact R|exact Hr].
Qed.

Lemma a_load_deg_ok deg e t m a : mem_type t -> 0 <= deg ->
  (forall i j, 0 <= i < aelems e t -> 0 <= j < deg -> mapped (mw t) m (a + (i * deg + j) * (mw t / 8))) ->
  exists rs, a_load_deg deg e t m a = Some rs /\ Z.of_nat (length rs) = deg /\
    forall j, 0 <= j < deg -> in_reg (an e) (nthz 0 rs j) /\
      forall i, 0 <= i < aelems e t -> holds (mw t) m (a + (i * deg + j) * (mw t / 8)) (pattern t (nthz 0 rs j) i).
Proof.
  intros H Hd M. unfold aelems in *. unfold a_load_deg. destruct (is_neon128 e && (mw t =? 64)) eqn:E.
  - destruct e; try discriminate. cbn in E. apply Z.eqb_eq in E. rewrite E in *. unfold pattern. rewrite E.
    destruct (ldn_ok deg 128 64 m a okw_64 ok8_64 Hd M) as (rs & Er & R). exists rs. split; [|exact R]. rewrite <- Er.
    unfold i_ldn. change (nlanes 128 64) with 2%nat. change (64 / 8) with 8.
    assert (X : forall k, collect k (fun j => bind (rdw 64 m (a + j * 8)) (fun x => bind (rdw 64 m (a + (j + deg) * 8)) (fun y =>
      Some (build 64 2 (fun i => if i =? 0 then x else y))))) = collect k (fun j => build_o 64 2 (fun i => rdw 64 m (a + (i * deg + j) * 8)))).
    { induction k as [|k IH]; [reflexivity|]. cbn [collect]. rewrite IH. rewrite <- bind2_o.
      replace (0 * deg + Z.of_nat k) with (Z.of_nat k) by lia. replace (1 * deg + Z.of_nat k) with (Z.of_nat k + deg) by lia. reflexivity. }
    apply X.
  - destruct (ldn_ok deg (an e) (mw t) m a (okw_amw e t H) (ok8_mw t H) Hd M) as (rs & Er & R). exists rs. split; [exact Er|exact R].
Qed.

Lemma store_at w (pos val : Z -> Z) a k m : ok8 w ->
  (forall i j, 0 <= i < Z.of_nat k -> 0 <= j < Z.of_nat k -> pos i = pos j -> i = j) ->
  (forall i, 0 <= i < Z.of_nat k -> mapped w m (a + pos i * (w / 8))) ->
  exists m', store_loop w (fun _ => true) (fun i => Some (a + pos i * (w / 8))) val k m = Some m' /\
    (forall i, 0 <= i < Z.of_nat k -> holds w m' (a + pos i * (w / 8)) (val i mod 2 ^ w)) /\
    (forall x, (forall i, 0 <= i < Z.of_nat k -> outside w (a + pos i * (w / 8)) x) -> m' x = m x) /\
    (forall x, m x <> None -> m' x <> None).
Proof.
  intros O I M. destruct (store_loop_ok w (fun _ => true) (fun i => Some (a + pos i * (w / 8))) val O k m) as (m' & E & A & U & D).
  { intros i Hi _. eexists. split; [reflexivity|]. apply M, Hi. }
  exists m'. split; [exact E|]. split; [|split; [|exact D]].
  - intros i Hi. apply (A i _ Hi eq_refl eq_refl). intros j b Hj _ Eb. injection Eb as <-. apply strided_disjoint; [exact O|].
    intros E1. assert (i = j) by (apply I; [lia|lia|exact E1]). lia.
  - intros x Hx. apply U. intros i b Hi _ Eb. injection Eb as <-. apply Hx, Hi.
Qed.

Lemma stn_ok deg n w m a rs : okw n w -> ok8 w -> 0 < deg ->
  (forall i j, 0 <= i < n / w -> 0 <= j < deg -> mapped w m (a + (i * deg + j) * (w / 8))) ->
  exists m', i_stn deg n w m a rs = Some m' /\
    (forall i j, 0 <= i < n / w -> 0 <= j < deg -> holds w m' (a + (i * deg + j) * (w / 8)) (lane w i (nthz 0 rs j))) /\
    (forall x, x < a \/ a + deg * (n / w) * (w / 8) <= x -> m' x = m x) /\ (forall x, m x <> None -> m' x <> None).
Proof.
  intros On O Hd M. assert (W : 0 <= w) by (destruct O; lia). assert (W8 : 0 < w / 8) by (destruct O; lia).
  assert (N : 0 <= n / w) by (destruct On as (?&?&?); apply Z.div_pos; lia).
  assert (K : Z.of_nat (Z.to_nat (deg * (n / w))) = deg * (n / w)) by nia.
  assert (D : forall k, 0 <= k < deg * (n / w) -> 0 <= k / deg < n / w /\ 0 <= k mod deg < deg /\ k = k / deg * deg + k mod deg).
  { intros k Hk. split; [split; [apply Z.div_pos; lia|apply Z.div_lt_upper_bound; lia]|]. split; [apply Z.mod_pos_bound; lia|].
    pose proof (Z.div_mod k deg ltac:(lia)). lia. }
  unfold i_stn.
  destruct (store_at w (fun k => k) (fun k => lane w (k / deg) (reg_of rs (k mod deg))) a (Z.to_nat (deg * (n / w))) m O) as (m' & E & A & U & F).
  { intros; assumption. }
  { rewrite K. intros k Hk. destruct (D k Hk) as (D1 & D2 & D3). rewrite D3. apply M; assumption. }
  rewrite K in *. exists m'. split; [exact E|]. split; [|split; [|exact F]].
  - intros i j Hi Hj. specialize (A (i * deg + j) ltac:(nia)). cbv beta in A.
    replace ((i * deg + j) / deg) with i in A by (rewrite Z.div_add_l by lia; rewrite Z.div_small by lia; lia).
    replace ((i * deg + j) mod deg) with j in A by (rewrite Z.add_comm, Z.mod_add by lia; symmetry; apply Z.mod_small; lia).
    rewrite lane_mod in A by exact W. exact A.
  - intros x Hx. apply U. intros i Hi. unfold outside. nia.
Qed.

Lemma a_store_deg_ok deg e t m a rs : mem_type t -> 0 < deg ->
  (forall i j, 0 <= i < aelems e t -> 0 <= j < deg -> mapped (mw t) m (a + (i * deg + j) * (mw t / 8))) ->
  exists m', a_store_deg deg e t m a rs = Some m' /\
    (forall i j, 0 <= i < aelems e t -> 0 <= j < deg -> holds (mw t) m' (a + (i * deg + j) * (mw t / 8)) (pattern t (nthz 0 rs j) i)) /\
    (forall x, x < a \/ a + deg * aelems e t * (mw t / 8) <= x -> m' x = m x) /\ (forall x, m x <> None -> m' x <> None).
Proof.
  intros H Hd M. unfold aelems in *.
  pose proof (stn_ok deg (an e) (mw t) m a rs (okw_amw e t H) (ok8_mw t H) Hd M) as Q.
  unfold a_store_deg. destruct e; try exact Q. destruct t as [t| |]; try exact Q. destruct (bits t =? 64) eqn:E; [|exact Q]. clear Q.
  apply Z.eqb_eq in E. unfold pattern, mw in *. cbn [uty] in *. rewrite E in *. change (an Neon128 / 64) with 2 in *. change (64 / 8) with 8 in *.
  assert (K : Z.of_nat (Z.to_nat (2 * deg)) = 2 * deg) by lia.
  destruct (store_at 64 (fun k => k / 2 + k mod 2 * deg) (fun k => lane 64 (k mod 2) (reg_of rs (k / 2))) a (Z.to_nat (2 * deg)) m ok8_64) as (m' & Em & A & U & F).
  { rewrite K. intros i j Hi Hj Eij. assert (i mod 2 = 0 \/ i mod 2 = 1) as [Ei|Ei] by (Z.to_euclidean_division_equations; lia);
    assert (j mod 2 = 0 \/ j mod 2 = 1) as [Ej|Ej] by (Z.to_euclidean_division_equations; lia); rewrite Ei, Ej in Eij; Z.to_euclidean_division_equations; lia. }
  { rewrite K. intros k Hk. change (64 / 8) with 8. replace (k / 2 + k mod 2 * deg) with (k mod 2 * deg + k / 2) by lia. apply M; Z.to_euclidean_division_equations; lia. }
  rewrite K in *. exists m'. split; [exact Em|]. split; [|split; [|exact F]].
  - intros i j Hi Hj. specialize (A (2 * j + i) ltac:(lia)). cbv beta in A.
    replace ((2 * j + i) / 2) with j in A by (Z.to_euclidean_division_equations; lia).
    replace ((2 * j + i) mod 2) with i in A by (Z.to_euclidean_division_equations; lia).
    rewrite lane_mod in A by lia. rewrite (Z.add_comm j) in A. exact A.
  - intros x Hx. apply U. intros k Hk. unfold outside. change (64 / 8) with 8.
    assert (0 <= k / 2 < deg) by (Z.to_euclidean_division_equations; lia).
    assert (k mod 2 = 0 \/ k mod 2 = 1) as [Ek|Ek] by (Z.to_euclidean_division_equations; lia); rewrite Ek; lia.
Qed.
