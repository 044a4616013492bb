(** Lanes of the ARM operators: arithmetic, bitwise operators and shifts. *)
From Coq Require Import ZArith Lia List Bool ZifyBool.
From Verif Require Import CInt BitLemmas ScalarOps ScalarSpec ScalarProofs CpuSimd CpuSimdProofs X86Deg234 X86Arith
  X86ArithSpec X86LaneLemmas X86ArithProofs X86EmulProofs X86LogicProofs X86SelectProofs X86RedProofs X86FmaProofs Arm ArmSpec.
Import ListNotations.
Open Scope Z_scope.

Lemma an_pos e : 0 < an e.
Proof. destruct e; cbn [an]; lia. Qed.

Lemma okw_mul k w m : 0 < k -> 0 < w -> m = w * (m / w) -> 0 <= m -> okw (m * k) w.
Proof.
  intros Hk Hw E Hm. unfold okw. split; [lia|]. split; [nia|].
  replace (m * k) with ((m / w * k) * w) at 2 by nia. rewrite Z.div_mul by lia. nia.
Qed.

Lemma okw_an e w : w = 8 \/ w = 16 \/ w = 32 \/ w = 64 -> okw (an e) w.
Proof.
  intros H. destruct e as [| |b vq]; cbn [an].
  1,2: unfold okw; destruct H as [->|[->|[->| ->]]]; cbn; lia.
  apply okw_mul; [lia|lia| |lia]. destruct H as [->|[->|[->| ->]]]; reflexivity.
Qed.
Lemma bits_cases t : In t int_types -> bits t = 8 \/ bits t = 16 \/ bits t = 32 \/ bits t = 64.
Proof. intros H. ty_cases H; cbn; lia. Qed.
Lemma okw_ant e t : In t int_types -> okw (an e) (bits t).
Proof. intros H. apply okw_an, bits_cases, H. Qed.
Lemma okw_128 t : In t int_types -> okw 128 (bits t).
Proof. intros H. apply (okw_ant Neon128 t H). Qed.

(** predicates *)
Lemma okw_pred n w : okw n w -> w = 8 \/ w = 16 \/ w = 32 \/ w = 64 -> okw (n / 8) (w / 8) /\ n / 8 / (w / 8) = n / w.
Proof.
  intros (H1 & H2 & H3) Hw.
  assert (exists k, w = 8 * k /\ 0 < k) as (k & -> & Hk) by (exists (w / 8); destruct Hw as [->|[->|[->| ->]]]; cbn; lia).
  assert (8 * k / 8 = k) as Ek by (rewrite Z.mul_comm; apply Z.div_mul; lia). rewrite Ek.
  assert (n / 8 = k * (n / (8 * k))) as En.
  { rewrite H3 at 1. replace (8 * k * (n / (8 * k))) with (k * (n / (8 * k)) * 8) by lia. apply Z.div_mul. lia. }
  assert (n / 8 / k = n / (8 * k)) as Eq by (rewrite En at 1; rewrite (Z.mul_comm k); apply Z.div_mul; lia).
  split; [|exact Eq]. unfold okw. rewrite Eq. split; [exact Hk|]. split; [apply Z.div_pos; lia|exact En].
Qed.
Lemma nlanes_pred n w : okw n w -> w = 8 \/ w = 16 \/ w = 32 \/ w = 64 -> nlanes n w = nlanes (n / 8) (w / 8).
Proof. intros O Hw. unfold nlanes. destruct (okw_pred n w O Hw) as [_ ->]. reflexivity. Qed.
Lemma w8_pos w : w = 8 \/ w = 16 \/ w = 32 \/ w = 64 -> 1 <= w / 8.
Proof. intros [->|[->|[->| ->]]]; cbn; lia. Qed.
Lemma pow_w8 w : w = 8 \/ w = 16 \/ w = 32 \/ w = 64 -> 2 <= 2 ^ (w / 8).
Proof. intros [->|[->|[->| ->]]]; cbn; lia. Qed.

Lemma active_lane w p i : 1 <= w / 8 -> 0 <= i -> active w p i = Z.testbit (lane (w / 8) i p) 0.
Proof. intros Hw Hi. unfold active. rewrite testbit_lane by lia. replace (0 <? w / 8) with true by lia. cbn [andb]. f_equal. lia. Qed.
Lemma lane_pred n w f i : okw n w -> w = 8 \/ w = 16 \/ w = 32 \/ w = 64 -> 0 <= i < n / w ->
  lane (w / 8) i (pred n w f) = if f i then 1 else 0.
Proof.
  intros O Hw Hi. unfold pred. rewrite (nlanes_pred n w O Hw). destruct (okw_pred n w O Hw) as [O' E].
  rewrite lane_buildn by (assumption || lia). pose proof (pow_w8 w Hw). destruct (f i); apply Z.mod_small; lia.
Qed.
Lemma in_reg_pred n w f : okw n w -> w = 8 \/ w = 16 \/ w = 32 \/ w = 64 -> in_reg (n / 8) (pred n w f).
Proof. intros O Hw. unfold pred. rewrite (nlanes_pred n w O Hw). apply in_reg_build. apply (okw_pred n w O Hw). Qed.
Lemma active_pred n w f i : okw n w -> w = 8 \/ w = 16 \/ w = 32 \/ w = 64 -> 0 <= i < n / w -> active w (pred n w f) i = f i.
Proof.
  intros O Hw Hi. rewrite active_lane by (try apply w8_pos; assumption || lia). rewrite lane_pred by assumption.
  destruct (f i); reflexivity.
Qed.
Lemma active_true e t i : In t int_types -> 0 <= i < an e / bits t -> active (bits t) (svtrue e t) i = true.
Proof. intros H Hi. apply (active_pred (an e) (bits t) (fun _ => true)); auto using okw_ant, bits_cases. Qed.

(** lane-wise operators *)
Lemma both1_lw u e t f g : In t int_types -> (forall x, ulane (bits t) x -> f x mod 2 ^ bits t = g x) ->
  lw1 (an e) (bits t) (both1 u e t f) g.
Proof.
  intros H F. pose proof (okw_ant e t H) as O. destruct e as [| |b vq]; [apply lanewise1_lw; assumption..|].
  intros a Ha. split; [apply in_reg_build; exact O|]. intros i Hi. unfold both1, sv_1_x.
  rewrite lane_buildn by assumption. rewrite active_true by assumption. apply F. apply lane_range. destruct O; lia.
Qed.
Lemma both2_lw u e t f g : In t int_types -> (forall x y, ulane (bits t) x -> ulane (bits t) y -> f x y mod 2 ^ bits t = g x y) ->
  lw2 (an e) (bits t) (both2 u e t f) g.
Proof.
  intros H F. pose proof (okw_ant e t H) as O. destruct e as [| |b vq]; [apply lanewise2_lw; assumption..|].
  intros a c Ha Hc. split; [apply in_reg_build; exact O|]. intros i Hi. unfold both2, sv_2_x.
  rewrite lane_buildn by assumption. rewrite active_true by assumption. apply F; apply lane_range; destruct O; lia.
Qed.
Lemma both3_lane u e t f a b c i : In t int_types -> 0 <= i < an e / bits t ->
  in_reg (an e) (both3 u e t f a b c) /\
  lane (bits t) i (both3 u e t f a b c) = f (lane (bits t) i a) (lane (bits t) i b) (lane (bits t) i c) mod 2 ^ bits t.
Proof.
  intros H Hi. pose proof (okw_ant e t H) as O. destruct e as [| |q vq]; unfold both3, v_3, sv_3_x.
  1,2: split; [apply in_reg_build; exact O|]; rewrite lane_buildn by assumption; reflexivity.
  split; [apply in_reg_build; exact O|]. rewrite lane_buildn by assumption. rewrite active_true by assumption. reflexivity.
Qed.

Lemma lw1_av e t f g a (P : Z -> Z -> Prop) : In t int_types -> lw1 (an e) (bits t) f g -> in_reg (an e) a ->
  (forall i, P i (cast t (g (lane (bits t) i a)))) -> avector e t (f a) P.
Proof. intros H L Ha HP. destruct (L a Ha) as [R E]. split; [exact R|]. intros i Hi. rewrite elt_lane, E by assumption. apply HP. Qed.
Lemma lw2_av e t f g a b (P : Z -> Z -> Prop) : In t int_types -> lw2 (an e) (bits t) f g -> in_reg (an e) a -> in_reg (an e) b ->
  (forall i, P i (cast t (g (lane (bits t) i a) (lane (bits t) i b)))) -> avector e t (f a b) P.
Proof. intros H L Ha Hb HP. destruct (L a b Ha Hb) as [R E]. split; [exact R|]. intros i Hi. rewrite elt_lane, E by assumption. apply HP. Qed.
Lemma both1_av u e t f a (P : Z -> Z -> Prop) : In t int_types -> in_reg (an e) a ->
  (forall i, P i (cast t (f (lane (bits t) i a)))) -> avector e t (both1 u e t f a) P.
Proof.
  intros H Ha HP. apply (lw1_av e t _ (fun x => f x mod 2 ^ bits t)); [assumption|apply both1_lw; auto|assumption|].
  intros i. rewrite cast_mod_pow by assumption. apply HP.
Qed.
Lemma both2_av u e t f a b (P : Z -> Z -> Prop) : In t int_types -> in_reg (an e) a -> in_reg (an e) b ->
  (forall i, P i (cast t (f (lane (bits t) i a) (lane (bits t) i b)))) -> avector e t (both2 u e t f a b) P.
Proof.
  intros H Ha Hb HP. apply (lw2_av e t _ (fun x y => f x y mod 2 ^ bits t)); [assumption|apply both2_lw; auto|assumption..|].
  intros i. rewrite cast_mod_pow by assumption. apply HP.
Qed.
Lemma lanewise2_av e t f a b (P : Z -> Z -> Prop) : In t int_types -> in_reg (an e) a -> in_reg (an e) b ->
  (forall i, P i (cast t (f (lane (bits t) i a) (lane (bits t) i b)))) -> avector e t (lanewise2 (an e) (bits t) f a b) P.
Proof.
  intros H Ha Hb HP. apply (lw2_av e t _ (fun x y => f x y mod 2 ^ bits t)); [assumption|apply lanewise2_lw; auto using okw_ant|assumption..|].
  intros i. rewrite cast_mod_pow by assumption. apply HP.
Qed.

Lemma cast_add t x y : In t int_types -> cast t (x + y) = cast t (cast t x + cast t y).
Proof. intros H. apply (cast_congr t). symmetry. apply add_cast. exact H. Qed.
Lemma cast_sub t x y : In t int_types -> cast t (x - y) = cast t (cast t x - cast t y).
Proof. intros H. apply (cast_congr t). symmetry. apply sub_cast. exact H. Qed.
Lemma cast_mul t x y : In t int_types -> cast t (x * y) = cast t (cast t x * cast t y).
Proof. intros H. apply (cast_congr t). symmetry. apply mul_cast. exact H. Qed.
Lemma cast_neg t x : In t int_types -> cast t (- x) = cast t (- cast t x).
Proof. intros H. replace (- x) with (0 - x) by lia. rewrite cast_sub by assumption. rewrite (cast_id t 0);
  [f_equal; lia|assumption|apply one_in; assumption]. Qed.

Lemma a_add_ok u e t a b : In t int_types -> in_reg (an e) a -> in_reg (an e) b ->
  avector e t (a_add u e t a b) (fun i v => wraps_to t (elt t a i + elt t b i) v).
Proof. intros H Ha Hb. apply both2_av; try assumption. intros i. rewrite cast_add by assumption. rewrite !elt_lane. apply cast_wraps. assumption. Qed.
Lemma a_sub_ok u e t a b : In t int_types -> in_reg (an e) a -> in_reg (an e) b ->
  avector e t (a_sub u e t a b) (fun i v => wraps_to t (elt t a i - elt t b i) v).
Proof. intros H Ha Hb. apply both2_av; try assumption. intros i. rewrite cast_sub by assumption. rewrite !elt_lane. apply cast_wraps. assumption. Qed.

(** *** The emulation loops *)
Lemma op2_loop_ok f b1 k : forall b0,
  (forall j, 0 <= j < Z.of_nat k -> f (b0 j) (b1 j) <> None) ->
  exists r, op2_loop f b1 k b0 = Some r /\
    (forall j, 0 <= j < Z.of_nat k -> f (b0 j) (b1 j) = Some (r j)) /\ (forall j, Z.of_nat k <= j -> r j = b0 j).
Proof.
  induction k as [|k IH]; intros b0 D.
  - exists b0. cbn [op2_loop]. split; [reflexivity|]. split; [intros; lia|reflexivity].
  - destruct (IH b0) as (r & E & V & O); [intros; apply D; lia|]. cbn [op2_loop]. rewrite E. cbn [bind].
    rewrite (O (Z.of_nat k)) by lia. destruct (f (b0 (Z.of_nat k)) (b1 (Z.of_nat k))) as [x|] eqn:F.
    2:{ exfalso. apply (D (Z.of_nat k)); [lia|exact F]. }
    cbn [bind]. eexists. split; [reflexivity|]. split.
    + intros j Hj. destruct (Z.eqb_spec j (Z.of_nat k)) as [->|N]; [exact F|]. apply V. lia.
    + intros j Hj. destruct (Z.eqb_spec j (Z.of_nat k)) as [->|N]; [lia|]. apply O. lia.
Qed.
Lemma op2_loop_none f b1 k j : forall b0, 0 <= j < Z.of_nat k -> f (b0 j) (b1 j) = None -> op2_loop f b1 k b0 = None.
Proof.
  induction k as [|k IH]; intros b0 Hj F; [lia|]. cbn [op2_loop].
  destruct (op2_loop f b1 k b0) as [r|] eqn:E; [|reflexivity]. cbn [bind].
  destruct (Z.eq_dec j (Z.of_nat k)) as [->|N]; [|exfalso; rewrite IH in E by (lia || assumption); discriminate].
  assert (r (Z.of_nat k) = b0 (Z.of_nat k)) as ->; [|rewrite F; reflexivity].
  clear - E. assert (forall m b r, op2_loop f b1 m b = Some r -> forall j, Z.of_nat m <= j -> r j = b j) as G.
  { clear. induction m as [|m IH]; intros b r E j Hj; cbn [op2_loop] in E; [injection E as <-; reflexivity|].
    destruct (op2_loop f b1 m b) as [r'|] eqn:E'; [|discriminate]. cbn [bind] in E.
    destruct (f (r' (Z.of_nat m)) (b1 (Z.of_nat m))); [|discriminate]. cbn [bind] in E. injection E as <-.
    destruct (Z.eqb_spec j (Z.of_nat m)); [lia|]. apply (IH b); [assumption|lia]. }
  apply (G k); [assumption|lia].
Qed.

Lemma emulate_op2_ok e t f a b (P : Z -> Z -> Prop) : In t int_types -> architectural e ->
  (forall i, 0 <= i < an e / bits t -> exists v, f (elt t a i) (elt t b i) = Some v /\ P i (cast t v)) ->
  exists r, emulate_op2 e t f a b = Some r /\ avector e t r P.
Proof.
  intros H A D. pose proof (okw_ant e t H) as O. unfold emulate_op2.
  replace (match e with Sve _ _ => an e / bits t <=? 2048 / bits t | _ => true end) with true.
  2:{ destruct e; try reflexivity. symmetry. apply Z.leb_le. apply Z.div_le_mono; [destruct O; lia|exact A]. }
  destruct (op2_loop_ok f (fun i => cast t (lane (bits t) i b)) (nlanes (an e) (bits t)) (fun i => cast t (lane (bits t) i a)))
    as (r & E & V & _).
  { intros j Hj. rewrite nlanes_z in Hj by assumption. destruct (D j Hj) as (v & F & _). rewrite !elt_lane in F. rewrite F. discriminate. }
  rewrite E. cbn [bind]. eexists. split; [reflexivity|]. split; [apply in_reg_build; assumption|].
  intros i Hi. destruct (D i Hi) as (v & F & Pv). rewrite !elt_lane in F. rewrite V in F by (rewrite nlanes_z by assumption; exact Hi).
  injection F as F. rewrite elt_lane, lane_buildn, cast_mod_pow by assumption. rewrite F. exact Pv.
Qed.
Lemma emulate_op2_none e t f a b i : In t int_types -> 0 <= i < an e / bits t -> f (elt t a i) (elt t b i) = None ->
  emulate_op2 e t f a b = None.
Proof.
  intros H Hi F. unfold emulate_op2.
  destruct (match e with Sve _ _ => an e / bits t <=? 2048 / bits t | _ => true end); [|reflexivity].
  rewrite (op2_loop_none _ _ _ i); [reflexivity| |exact F]. rewrite nlanes_z by (apply okw_ant; assumption). exact Hi.
Qed.

(** lanes of a register as a CPU vector *)
Lemma cpu_lane t a i : (i < nlanes 128 (bits t))%nat -> CpuSimd.lane (cpu_of t a) i = Some (elt t a (Z.of_nat i)).
Proof.
  intros Hi. unfold cpu_of, CpuSimd.lane, lane_list. rewrite !nth_error_map.
  rewrite (nth_error_nth' _ 0%nat) by (rewrite seq_length; exact Hi). rewrite seq_nth by exact Hi.
  cbn [option_map]. rewrite elt_lane. reflexivity.
Qed.
Lemma of_cpu_ok t l (P : Z -> Z -> Prop) : In t int_types -> length l = nlanes 128 (bits t) ->
  (forall i v, 0 <= i < 128 / bits t -> nth_error l (Z.to_nat i) = Some v -> P i (cast t v)) ->
  in_reg 128 (of_cpu t l) /\ forall i, 0 <= i < 128 / bits t -> P i (elt t (of_cpu t l) i).
Proof.
  intros H L D. pose proof (okw_128 t H) as O. unfold of_cpu. split; [apply in_reg_build; exact O|]. intros i Hi.
  rewrite elt_lane, lane_buildn, cast_mod_pow by assumption. apply D; [exact Hi|]. apply nth_error_nth'.
  rewrite L. pose proof (nlanes_z 128 (bits t) O). lia.
Qed.
Lemma emulate_op1_ok t f a (P : Z -> Z -> Prop) : In t int_types ->
  (forall i, 0 <= i < 128 / bits t -> exists v, f (elt t a i) = Some v /\ P i (cast t v)) ->
  exists r, emulate_op1 t f a = Some r /\ avector Neon128 t r P.
Proof.
  intros H D. pose proof (nlanes_z 128 (bits t) (okw_128 t H)) as N. unfold emulate_op1, scalar_impl1.
  destruct (func_body_defined (nlanes 128 (bits t)) (fun i => bind (CpuSimd.lane (cpu_of t a) i) f)) as (r & E).
  { intros i Hi. rewrite cpu_lane by exact Hi. cbn [bind]. destruct (D (Z.of_nat i)) as (v & -> & _); [lia|discriminate]. }
  rewrite E. cbn [bind]. eexists. split; [reflexivity|]. apply of_cpu_ok; [assumption|apply (func_body_length _ _ _ E)|].
  intros i v Hi Hv. pose proof (func_body_lane _ _ _ E (Z.to_nat i) ltac:(lia)) as L. unfold CpuSimd.lane in L at 1. rewrite Hv in L.
  cbn beta in L. rewrite cpu_lane in L by lia. cbn [bind] in L. rewrite Z2Nat.id in L by lia.
  destruct (D i Hi) as (v' & F & Pv). rewrite F in L. injection L as ->. exact Pv.
Qed.
Lemma emulate_op3_ok t f a b c (P : Z -> Z -> Prop) : In t int_types ->
  (forall i, 0 <= i < 128 / bits t -> exists v, f (elt t a i) (elt t b i) (elt t c i) = Some v /\ P i (cast t v)) ->
  exists r, emulate_op3 t f a b c = Some r /\ avector Neon128 t r P.
Proof.
  intros H D. pose proof (nlanes_z 128 (bits t) (okw_128 t H)) as N. unfold emulate_op3, scalar_impl3.
  match goal with |- context [func_body ?n ?g] => destruct (func_body_defined n g) as (r & E) end.
  { intros i Hi. rewrite !cpu_lane by exact Hi. cbn [bind bind2]. destruct (D (Z.of_nat i)) as (v & -> & _); [lia|discriminate]. }
  rewrite E. cbn [bind]. eexists. split; [reflexivity|]. apply of_cpu_ok; [assumption|apply (func_body_length _ _ _ E)|].
  intros i v Hi Hv. pose proof (func_body_lane _ _ _ E (Z.to_nat i) ltac:(lia)) as L. unfold CpuSimd.lane in L at 1. rewrite Hv in L.
  cbn beta in L. rewrite !cpu_lane in L by lia. cbn [bind bind2] in L. rewrite Z2Nat.id in L by lia.
  destruct (D i Hi) as (v' & F & Pv). rewrite F in L. injection L as ->. exact Pv.
Qed.
Lemma emulate_op1_none t f a i : In t int_types -> 0 <= i < 128 / bits t -> f (elt t a i) = None -> emulate_op1 t f a = None.
Proof.
  intros H Hi F. pose proof (nlanes_z 128 (bits t) (okw_128 t H)) as N. unfold emulate_op1.
  destruct (scalar_impl1 _ f (cpu_of t a)) as [r|] eqn:E; [|reflexivity]. exfalso. unfold scalar_impl1 in E.
  pose proof (func_body_length _ _ _ E) as Ln. pose proof (func_body_lane _ _ _ E (Z.to_nat i) ltac:(lia)) as L.
  cbn beta in L. rewrite cpu_lane in L by lia. cbn [bind] in L. rewrite Z2Nat.id in L by lia. rewrite F in L. unfold CpuSimd.lane in L.
  apply nth_error_None in L. lia.
Qed.
Lemma emulate_op3_none t f a b c i : In t int_types -> 0 <= i < 128 / bits t -> f (elt t a i) (elt t b i) (elt t c i) = None ->
  emulate_op3 t f a b c = None.
Proof.
  intros H Hi F. pose proof (nlanes_z 128 (bits t) (okw_128 t H)) as N. unfold emulate_op3.
  destruct (scalar_impl3 _ f (cpu_of t a) (cpu_of t b) (cpu_of t c)) as [r|] eqn:E; [|reflexivity]. exfalso. unfold scalar_impl3 in E.
  pose proof (func_body_length _ _ _ E) as Ln. pose proof (func_body_lane _ _ _ E (Z.to_nat i) ltac:(lia)) as L.
  cbn beta in L. rewrite !cpu_lane in L by lia. cbn [bind bind2] in L. rewrite Z2Nat.id in L by lia. rewrite F in L. unfold CpuSimd.lane in L.
  apply nth_error_None in L. lia.
Qed.
