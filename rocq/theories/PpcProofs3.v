(** Comparisons, logicals, selection, reductions and masks of the POWER back ends. *)
From Coq Require Import ZArith Lia List Bool ZifyBool.
From Verif Require Import CInt BitLemmas ScalarOps ScalarSpec ScalarProofs CpuSimd X86Deg234 X86Arith
  X86ArithSpec X86LaneLemmas X86ArithProofs X86EmulProofs X86LogicProofs X86SelectProofs X86RedProofs X86FmaProofs
  Arm ArmSpec ArmProofs ArmProofs2 ArmProofs3 ArmProofs4 Ppc PpcSpec PpcProofs PpcProofs2.
Import ListNotations.
Open Scope Z_scope.

Lemma ok64' : okw 128 64.
Proof. exact PpcProofs.ok64. Qed.
Lemma truth_mod w (b : bool) : 0 < w -> (if b then -1 else 0) mod 2 ^ w = if b then 2 ^ w - 1 else 0.
Proof.
  intros Hw. destruct b; [|apply Zmod_0_l]. symmetry. pose proof (pow2_pos w ltac:(lia)). apply Z.mod_unique with (-1); lia.
Qed.
Lemma plogical_ext t l p q : plogical t l p -> (forall i, 0 <= i < 128 / bits t -> p i = q i) -> plogical t l q.
Proof. intros [R L] E. split; [exact R|]. intros i Hi. rewrite L, E by exact Hi. reflexivity. Qed.
Lemma emu64_l_ok t p : bits t = 64 -> plogical t (emu64_l p) p.
Proof.
  intros B. split; [apply in_reg_pair64|]. rewrite B. change (128 / 64) with 2. intros i Hi.
  change ((emu64_l p / 2 ^ (64 * i)) mod 2 ^ 64) with (lane 64 i (emu64_l p)). unfold emu64_l. rewrite lane_pair64 by exact Hi.
  destruct (Z.eqb_spec i 0) as [->|]; [apply truth_mod; lia|]. replace i with 1 by lia. apply truth_mod; lia.
Qed.
Lemma vec_cmp_ok t p a b : In t int_types -> plogical t (vec_cmp p t a b) (fun i => p (elt t a i) (elt t b i)).
Proof.
  intros H. split; [exact (in_reg_build 128 (bits t) _ (pok t H))|]. intros i Hi.
  change (lane (bits t) i (vec_cmp p t a b) = if p (elt t a i) (elt t b i) then 2 ^ bits t - 1 else 0).
  unfold vec_cmp, vec_2, lanewise2. rewrite lane_buildn by (exact (pok t H) || exact Hi). rewrite !elt_lane. apply truth_mod.
  pose proof (bits_pos t H); lia.
Qed.
Lemma p_cmp_ok s p e t a b : In t int_types -> (forall x y, s x y = p x y) ->
  plogical t (p_cmp s p e t a b) (fun i => p (elt t a i) (elt t b i)).
Proof.
  intros H Es. unfold p_cmp. destruct (emulated64 e t) eqn:E; [|apply vec_cmp_ok; exact H].
  destruct (emulated_inv e t E) as [_ B]. eapply plogical_ext; [apply emu64_l_ok; exact B|]. intros i _. cbn beta.
  rewrite Es, !elt64 by exact B. reflexivity.
Qed.
Lemma nor_lane w a i : okw 128 w -> 0 <= i < 128 / w -> lane w i (vec_nor a a) = 2 ^ w - 1 - lane w i a.
Proof.
  intros O Hi. destruct O as (O1 & O2 & O3). assert (w * i + w <= 128) by nia. pose proof (lane_range w i a ltac:(lia)) as R.
  assert (0 <= 2 ^ w - 1 - lane w i a < 2 ^ w) as R' by lia.
  apply Z.bits_inj'. intros k Hk. destruct (Z_lt_ge_dec k w) as [L|L].
  - unfold lane at 1. rewrite Z.mod_pow2_bits_low by lia. rewrite Z.div_pow2_bits by nia. rewrite nor_bit by nia.
    replace (2 ^ w - 1 - lane w i a) with ((Z.lnot (lane w i a)) mod 2 ^ w).
    + rewrite Z.mod_pow2_bits_low, Z.lnot_spec by lia. unfold lane. rewrite Z.mod_pow2_bits_low, Z.div_pow2_bits by nia.
      destruct (Z.testbit a (k + w * i)); reflexivity.
    + symmetry. apply Z.mod_unique with (-1); [lia|]. unfold Z.lnot. lia.
  - rewrite !Z.bits_above_log2; try reflexivity; try lia.
    + destruct (Z.eq_dec (2 ^ w - 1 - lane w i a) 0) as [->|]; [cbn; lia|]. apply Z.lt_le_trans with w; [|lia]. apply Z.log2_lt_pow2; lia.
    + pose proof (lane_range w i (vec_nor a a) ltac:(lia)). lia.
    + pose proof (lane_range w i (vec_nor a a) ltac:(lia)).
      destruct (Z.eq_dec (lane w i (vec_nor a a)) 0) as [->|]; [cbn; lia|]. apply Z.lt_le_trans with w; [|lia]. apply Z.log2_lt_pow2; lia.
Qed.
Lemma nor_ok t l p : In t int_types -> plogical t l p -> plogical t (vec_nor l l) (fun i => negb (p i)).
Proof.
  intros H [R L]. split; [apply in_reg_nor|]. intros i Hi. change (lane (bits t) i (vec_nor l l) = if negb (p i) then 2 ^ bits t - 1 else 0).
  rewrite nor_lane by (exact (pok t H) || exact Hi). specialize (L i Hi). fold (lane (bits t) i l) in L. rewrite L. destruct (p i); cbn [negb]; lia.
Qed.
Lemma p_ne_ok e t a b : In t int_types -> plogical t (p_ne e t a b) (fun i => negb (elt t a i =? elt t b i)).
Proof.
  intros H. unfold p_ne. destruct (emulated64 e t) eqn:E.
  - destruct (emulated_inv e t E) as [_ B]. eapply plogical_ext; [apply emu64_l_ok; exact B|]. intros i _. cbn beta.
    rewrite !elt64 by exact B. reflexivity.
  - apply (nor_ok t _ (fun i => elt t a i =? elt t b i)); [exact H|]. apply vec_cmp_ok. exact H.
Qed.
Lemma arg_ok t l p i : bits t = 64 -> plogical t l p -> 0 <= i < 128 / bits t -> logical_arg l i = if p i then 1 else 0.
Proof.
  intros B [_ L] Hi. specialize (L i Hi). rewrite B in L. unfold logical_arg.
  change (lane 64 i l) with ((l / 2 ^ (64 * i)) mod 2 ^ 64). rewrite L. destruct (p i); reflexivity.
Qed.
Lemma p_lop2_ok s v g e t a b p q : In t int_types -> plogical t a p -> plogical t b q ->
  (forall x y : bool, s (if x then 1 else 0) (if y then 1 else 0) = g x y) ->
  in_reg 128 (v a b) ->
  (forall k, 0 <= k < 128 -> Z.testbit (v a b) k = g (Z.testbit a k) (Z.testbit b k)) ->
  plogical t (p_lop2 s v e t a b) (fun i => g (p i) (q i)).
Proof.
  intros H A B S Rv Bv. unfold p_lop2. destruct (emulated64 e t) eqn:E.
  - destruct (emulated_inv e t E) as [_ Bt]. eapply plogical_ext; [apply emu64_l_ok; exact Bt|]. intros i Hi. cbn beta.
    rewrite (arg_ok t a p i Bt A Hi), (arg_ok t b q i Bt B Hi). apply S.
  - split; [exact Rv|]. intros i Hi. destruct A as [_ A]. destruct B as [_ B]. specialize (A i Hi). specialize (B i Hi).
    fold (lane (bits t) i a) in A. fold (lane (bits t) i b) in B. fold (lane (bits t) i (v a b)).
    pose proof (bits_pos t H) as Bp. destruct (pok t H) as (O1 & O2 & O3). assert (bits t * i + bits t <= 128) by nia.
    assert (forall (x : bool) k, 0 <= k < bits t -> Z.testbit (if x then 2 ^ bits t - 1 else 0) k = x) as T.
    { intros x k Hk. destruct x; [|apply Z.bits_0]. replace (2 ^ bits t - 1) with (Z.ones (bits t)) by (rewrite Z.ones_equiv; lia).
      apply Z.ones_spec_low. exact Hk. }
    assert (forall x : bool, 0 <= (if x then 2 ^ bits t - 1 else 0) < 2 ^ bits t) as R by (intros x; pose proof (pow2_pos (bits t)); destruct x; lia).
    pose proof (lane_range (bits t) i (v a b) ltac:(lia)) as Rl.
    rewrite <- (Z.mod_small (lane (bits t) i (v a b)) (2 ^ bits t)) by exact Rl.
    rewrite <- (Z.mod_small (if g (p i) (q i) then _ else _) (2 ^ bits t)) by apply R.
    apply Z.bits_inj'. intros k Hk. destruct (Z_lt_ge_dec k (bits t)) as [Lk|Lk].
    + rewrite !Z.mod_pow2_bits_low by lia. rewrite T by lia. unfold lane. rewrite Z.mod_pow2_bits_low, Z.div_pow2_bits by nia.
      rewrite Bv by nia. f_equal.
      * rewrite <- (T (p i) k) by lia. rewrite <- A. unfold lane. rewrite Z.mod_pow2_bits_low, Z.div_pow2_bits by nia. reflexivity.
      * rewrite <- (T (q i) k) by lia. rewrite <- B. unfold lane. rewrite Z.mod_pow2_bits_low, Z.div_pow2_bits by nia. reflexivity.
    + rewrite !Z.mod_pow2_bits_high by lia. reflexivity.
Qed.
Lemma p_notl_ok e t a p : In t int_types -> plogical t a p -> plogical t (p_notl e t a) (fun i => negb (p i)).
Proof.
  intros H A. unfold p_notl. destruct (emulated64 e t) eqn:E; [|apply nor_ok; assumption].
  destruct (emulated_inv e t E) as [_ B]. eapply plogical_ext; [apply emu64_l_ok; exact B|]. intros i Hi. cbn beta.
  rewrite (arg_ok t a p i B A Hi). destruct (p i); reflexivity.
Qed.
Lemma p_lops_ok e t a b p q : In t int_types -> plogical t a p -> plogical t b q ->
  plogical t (p_andl e t a b) (fun i => p i && q i) /\ plogical t (p_orl e t a b) (fun i => p i || q i) /\
  plogical t (p_xorl e t a b) (fun i => xorb (p i) (q i)) /\ plogical t (p_andnotl e t a b) (fun i => p i && negb (q i)) /\
  plogical t (p_notl e t a) (fun i => negb (p i)).
Proof.
  intros H A B. pose proof (proj1 A) as Ra. pose proof (proj1 B) as Rb. split; [|split; [|split; [|split]]].
  - apply (p_lop2_ok _ _ andb); try assumption; [intros [] []; reflexivity|apply in_reg_land; (lia || assumption)|]. intros; apply Z.land_spec.
  - apply (p_lop2_ok _ _ orb); try assumption; [intros [] []; reflexivity|apply in_reg_lor; (lia || assumption)|]. intros; apply Z.lor_spec.
  - apply (p_lop2_ok _ _ xorb); try assumption; [intros [] []; reflexivity|apply in_reg_lxor; (lia || assumption)|]. intros; apply Z.lxor_spec.
  - apply (p_lop2_ok _ _ (fun x y => x && negb y)); try assumption; [intros [] []; reflexivity|apply in_reg_andc; assumption|].
    intros k Hk. unfold vec_andc. rewrite Z.land_spec, Z.lnot_spec by lia. reflexivity.
  - apply p_notl_ok; assumption.
Qed.
Lemma splats_logical t (b : bool) : In t int_types -> plogical t (vec_splats (bits t) (if b then -1 else 0)) (fun _ => b).
Proof.
  intros H. split; [apply in_reg_splats; exact (pok t H)|]. intros i Hi. fold (lane (bits t) i (vec_splats (bits t) (if b then -1 else 0))).
  rewrite lane_splats by (exact (pok t H) || exact Hi). apply truth_mod. pose proof (bits_pos t H); lia.
Qed.
Lemma p_set1l_ok e t x : In t int_types -> plogical t (p_set1l e t x) (fun _ => negb (x =? 0)).
Proof.
  intros H. unfold p_set1l. destruct (emulated64 e t) eqn:E.
  - destruct (emulated_inv e t E) as [_ B]. eapply plogical_ext; [|intros i _; reflexivity].
    replace (if x =? 0 then 0 else -1) with (if negb (x =? 0) then -1 else 0) by (destruct (x =? 0); reflexivity).
    exact (emu64_l_ok t (fun _ => negb (x =? 0)) B).
  - destruct (x =? 0); cbn [negb]; [exact (splats_logical t false H)|exact (splats_logical t true H)].
Qed.
Lemma truth_nz t l p i : In t int_types -> plogical t l p -> 0 <= i < 128 / bits t -> (lane (bits t) i l =? 0) = negb (p i).
Proof.
  intros H [_ L] Hi. specialize (L i Hi). fold (lane (bits t) i l) in L. rewrite L.
  assert (2 ^ bits t - 1 <> 0) by (ty_cases H; cbn; lia). destruct (p i); cbn [negb]; lia.
Qed.
Lemma p_if_else1_ok e t l p a b : In t int_types -> in_reg 128 a -> in_reg 128 b -> plogical t l p ->
  pvector t (p_if_else1 e t l a b) (fun i v => v = if p i then elt t a i else elt t b i).
Proof.
  intros H Ha Hb L. unfold p_if_else1. destruct (emulated64 e t) eqn:E.
  - destruct (emulated_inv e t E) as [_ B]. split; [apply in_reg_pair64|]. rewrite B. change (128 / 64) with 2. intros i Hi.
    pose proof (truth_nz t l p i H L) as T. rewrite B in T. specialize (T Hi).
    rewrite !elt_lane, !B, lane_pair64 by exact Hi. rewrite <- B, cast_mod_pow, B by exact H.
    destruct (Z.eqb_spec i 0) as [->|].
    + rewrite T. destruct (p 0); reflexivity.
    + replace i with 1 in * by lia. rewrite T. destruct (p 1); reflexivity.
  - destruct (manual_selects 128 (bits t) l p a b (pok t H) Ha Hb L) as [R S].
    assert (vec_sel b a l = Z.lor (Z.land a l) (Z.land (Z.lnot l) b)) as -> by (unfold vec_sel; rewrite Z.lor_comm, (Z.land_comm b); reflexivity).
    split; [exact R|]. intros i Hi. rewrite !elt_lane, S by exact Hi. destruct (p i); reflexivity.
Qed.
Lemma lane_zero w i : okw 128 w -> 0 <= i < 128 / w -> lane w i (vec_splats w 0) = 0.
Proof. intros O Hi. rewrite lane_splats by assumption. apply Zmod_0_l. Qed.
Lemma p_all_ok e t l p : In t int_types -> plogical t l p -> p_all e t l = true <-> (forall i, 0 <= i < 128 / bits t -> p i = true).
Proof.
  intros H L. unfold p_all. destruct (emulated64 e t) eqn:E.
  - destruct (emulated_inv e t E) as [_ B]. pose proof (truth_nz t l p 0 H L) as T0. pose proof (truth_nz t l p 1 H L) as T1.
    rewrite B in *. change (128 / 64) with 2 in *. rewrite T0, T1 by lia. rewrite !negb_involutive. split.
    + intros A i Hi. apply andb_prop in A. assert (i = 0 \/ i = 1) as [->| ->] by lia; apply A.
    + intros A. rewrite (A 0), (A 1) by lia. reflexivity.
  - unfold vec_all_ne. pose proof (nlanes_z 128 (bits t) (pok t H)) as N. rewrite forallb_forall. split.
    + intros A i Hi. specialize (A (Z.to_nat i)). rewrite Z2Nat.id in A by lia.
      rewrite lane_zero in A by (exact (pok t H) || exact Hi). rewrite (truth_nz t l p i H L Hi), negb_involutive in A.
      apply A. apply in_seq. lia.
    + intros A i Hi. apply in_seq in Hi. rewrite lane_zero by (exact (pok t H) || lia). rewrite (truth_nz t l p _ H L) by lia.
      rewrite negb_involutive. apply A. lia.
Qed.
Lemma p_any_ok e t l p : In t int_types -> plogical t l p -> p_any e t l = true <-> (exists i, 0 <= i < 128 / bits t /\ p i = true).
Proof.
  intros H L. unfold p_any. destruct (emulated64 e t) eqn:E.
  - destruct (emulated_inv e t E) as [_ B]. pose proof (truth_nz t l p 0 H L) as T0. pose proof (truth_nz t l p 1 H L) as T1.
    rewrite B in *. change (128 / 64) with 2 in *. rewrite T0, T1 by lia. rewrite !negb_involutive. split.
    + intros A. apply orb_prop in A. destruct A; [exists 0|exists 1]; (split; [lia|assumption]).
    + intros (i & Hi & A). assert (i = 0 \/ i = 1) as [->| ->] by lia; rewrite A; [reflexivity|apply orb_true_r].
  - unfold vec_any_ne. pose proof (nlanes_z 128 (bits t) (pok t H)) as N. rewrite existsb_exists. split.
    + intros (i & Hi & A). apply in_seq in Hi. rewrite lane_zero in A by (exact (pok t H) || lia). rewrite (truth_nz t l p _ H L) in A by lia.
      rewrite negb_involutive in A. exists (Z.of_nat i). split; [lia|exact A].
    + intros (i & Hi & A). exists (Z.to_nat i). split; [apply in_seq; lia|]. rewrite Z2Nat.id by lia.
      rewrite lane_zero by (exact (pok t H) || exact Hi). rewrite (truth_nz t l p i H L Hi), negb_involutive. exact A.
Qed.
Lemma fold_sum f l : forall s, fold_left (fun s (i : nat) => s + f i) l s = s + lsum (map f l).
Proof. induction l as [|x l IH]; intros s; cbn [fold_left map lsum]; [unfold lsum; cbn; lia|]. rewrite IH. unfold lsum. cbn [fold_right]. lia. Qed.
Lemma p_nbtrue_ok e t l p : In t int_types -> plogical t l p -> p_nbtrue e t l = Some (count_true (128 / bits t) p).
Proof.
  intros H L. unfold p_nbtrue. destruct (emulated64 e t) eqn:E.
  - destruct (emulated_inv e t E) as [_ B]. destruct L as [_ L]. rewrite B in *. change (128 / 64) with 2 in *.
    assert (forall i, 0 <= i < 2 -> to_s 64 (lane 64 i l) = if p i then -1 else 0) as T.
    { intros i Hi. specialize (L i Hi). fold (lane 64 i l) in L. rewrite L. destruct (p i); reflexivity. }
    rewrite !T by lia. unfold count_true. change (Z.to_nat 2) with 2%nat. cbn [seq filter]. change (Z.of_nat 0) with 0. change (Z.of_nat 1) with 1.
    destruct (p 0), (p 1); reflexivity.
  - f_equal. rewrite (fold_sum (fun i => if lane (bits t) (Z.of_nat i) l =? 0 then 0 else 1)).
    pose proof (nlanes_z 128 (bits t) (pok t H)) as N.
    rewrite (lsum_count (nlanes 128 (bits t)) (fun i => if lane (bits t) i l =? 0 then 0 else 1) 1 p).
    + rewrite N. lia.
    + intros i Hi. rewrite (truth_nz t l p i H L) by lia. destruct (p i); reflexivity.
Qed.
Lemma p_to_mask_ok e t l p : In t int_types -> plogical t l p ->
  pvector t (p_to_mask e t l) (fun i v => v = if p i then cast t (-1) else 0).
Proof.
  intros H L. assert (pvector t l (fun i v => v = if p i then cast t (-1) else 0)) as V.
  { split; [apply L|]. intros i Hi. rewrite elt_lane. destruct L as [_ L]. specialize (L i Hi). fold (lane (bits t) i l) in L. rewrite L.
    clear L. destruct (p i); ty_cases H; reflexivity. }
  assert (bits t = 64 -> pair64 (lane 64 0 l) (lane 64 1 l) = l) as I.
  { intros B. apply (reg_ext 128 64); [exact ok64'|apply in_reg_pair64|apply L|]. change (128 / 64) with 2. intros i Hi.
    rewrite lane_pair64 by exact Hi. assert (i = 0 \/ i = 1) as [->| ->] by lia; cbn [Z.eqb Pos.eqb]; apply Z.mod_small; apply lane_range; lia. }
  unfold p_to_mask. destruct (emulated64 e t) eqn:E; [|exact V]. destruct (emulated_inv e t E) as [_ B]. specialize (I B).
  assert (pair64 (s_reinterpret u64 i64 (lane 64 0 l)) (s_reinterpret u64 i64 (lane 64 1 l)) = l) as I'.
  { rewrite <- I at 3. apply (reg_ext 128 64); [exact ok64'|apply in_reg_pair64|apply in_reg_pair64|]. change (128 / 64) with 2. intros i Hi.
    rewrite !lane_pair64 by exact Hi. destruct (i =? 0); unfold s_reinterpret; cbn [is_signed u64 i64 negb]; (etransitivity; [apply (cast_mod i64); cbn; tauto|apply (cast_mod u64); cbn; tauto]). }
  rewrite I, I'. destruct (is_signed t); exact V.
Qed.
Lemma p_to_logical_ok e t a : In t int_types -> plogical t (p_to_logical e t a) (fun i => negb (elt t a i =? 0)).
Proof.
  intros H. unfold p_to_logical. destruct (emulated64 e t) eqn:E.
  - destruct (emulated_inv e t E) as [_ B]. eapply plogical_ext; [apply emu64_l_ok; exact B|]. intros i _. cbn beta.
    rewrite !elt64 by exact B. reflexivity.
  - eapply plogical_ext; [apply p_ne_ok; exact H|]. intros i Hi. cbn beta. rewrite (elt_lane t (vec_splats _ _)), lane_zero by (exact (pok t H) || exact Hi).
    replace (cast t 0) with 0 by (ty_cases H; reflexivity). reflexivity.
Qed.

(** *** iota and loop tails *)
Lemma lane_count t : In t int_types -> 2 <= 128 / bits t <= 16.
Proof. intros H. ty_cases H; cbn; lia. Qed.
Lemma small_in t x : In t int_types -> 0 <= x <= 16 -> in_ty t x.
Proof. intros H Hx. unfold in_ty. ty_cases H; cbn; lia. Qed.
Lemma p_iota_ok e t : In t int_types -> exists r, p_iota e t = Some r /\ pvector t r (fun i v => v = i).
Proof.
  intros H. unfold p_iota. destruct (emulated64 e t) eqn:E.
  - destruct (emulated_inv e t E) as [_ B]. exists (pair64 0 1). split; [reflexivity|]. split; [apply in_reg_pair64|].
    rewrite B. change (128 / 64) with 2. intros i Hi. rewrite elt_lane, B, lane_pair64 by exact Hi. rewrite <- B, cast_mod_pow by exact H.
    destruct (Z.eqb_spec i 0) as [->|]; [|replace i with 1 by lia]; apply cast_s; try exact H; apply small_in; (exact H || lia).
  - apply splat_insert_ok; [exact H|]. intros i Hi. eexists. split; [reflexivity|]. rewrite cast_idem by exact H.
    pose proof (lane_count t H). apply cast_s; [exact H|apply small_in; [exact H|lia]].
Qed.
Lemma p_tail_ok e t i n : In t int_types -> n <= i \/ in_ty i32 (n - i) ->
  exists l, p_mask_for_loop_tail e t i n = Some l /\ plogical t l (fun j => i + j <? n).
Proof.
  intros H D. pose proof (lane_count t H) as C. unfold p_mask_for_loop_tail. destruct (n <=? i) eqn:Le.
  - eexists. split; [reflexivity|]. eapply plogical_ext; [apply p_set1l_ok; exact H|]. intros j Hj. cbn. lia.
  - destruct D as [D|D]; [lia|]. change i32 with (promote i32) at 1. rewrite (carith_fits' i32 (n - i)); [|cbn; tauto|reflexivity|exact D].
    cbn [bind]. change (p_len t) with (128 / bits t). destruct (n - i <? 128 / bits t) eqn:Lt.
    + destruct (p_iota_ok e t H) as (v & Ev & [Rv V]). rewrite Ev. cbn [bind]. eexists. split; [reflexivity|].
      eapply plogical_ext; [apply p_cmp_ok; [exact H|reflexivity]|]. intros j Hj. cbn beta. rewrite V by exact Hj.
      destruct (p_set1_ok e t (cast t (n - i)) H) as [_ S]. rewrite S by exact Hj. rewrite cast_idem by exact H.
      rewrite cast_s by (exact H || (apply small_in; [exact H|lia])). lia.
    + eexists. split; [reflexivity|]. eapply plogical_ext; [apply p_set1l_ok; exact H|]. intros j Hj. cbn. lia.
Qed.
