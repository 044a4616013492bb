(** Bitwise operators, logicals, comparisons, selection, minimum, maximum, absolute value. *)
From Coq Require Import ZArith Lia List Bool ZifyBool.
From Verif Require Import CInt BitLemmas ScalarOps ScalarSpec ScalarProofs X86Deg234 X86Arith X86ArithSpec
  X86LaneLemmas X86ArithProofs X86EmulProofs.
Import ListNotations.
Open Scope Z_scope.

(** ** Logicals *)

Definition ones (w : Z) : Z := 2 ^ w - 1.
Lemma m1_mod w : 0 <= w -> -1 mod 2 ^ w = 2 ^ w - 1.
Proof.
  intros. pose proof (pow2_pos w H). symmetry. apply (Z.mod_unique _ _ (-1)); lia.
Qed.

(** logical held in a register *)
Definition reg_logical (n w l : Z) (p : Z -> bool) : Prop :=
  in_reg n l /\ forall i, 0 <= i < n / w -> lane w i l = if p i then 2 ^ w - 1 else 0.

Lemma logical_reg e t l p : is512 e = false -> logical e t l p <-> reg_logical (nb e) (bits t) l p.
Proof. intros E. unfold logical, reg_logical, lane. rewrite E. reflexivity. Qed.
Lemma logical_mask e t l p : is512 e = true ->
  logical e t l p <-> (0 <= l < 2 ^ (nb e / bits t) /\ forall i, 0 <= i < nb e / bits t -> Z.testbit l i = p i).
Proof. intros E. unfold logical. rewrite E. reflexivity. Qed.

Lemma logical_ext e t l p q : logical e t l p -> (forall i, 0 <= i < nb e / bits t -> p i = q i) -> logical e t l q.
Proof.
  unfold logical. destruct (is512 e); intros [R L] E; (split; [exact R|]); intros i Hi;
    rewrite L, E by assumption; reflexivity.
Qed.

Lemma lor_ones0 w x : 0 <= w -> ulane w x -> Z.lor (2 ^ w - 1) x = 2 ^ w - 1.
Proof.
  intros Hw Hx. apply Z.bits_inj'. intros q Hq. bitspec. decb.
  destruct (Z.ltb_spec q w); [reflexivity|]. cbn. apply (testbit_ulane w); assumption || lia.
Qed.
Lemma land_ones_r w x : 0 <= w -> ulane w x -> Z.land x (2 ^ w - 1) = x.
Proof. intros Hw Hx. rewrite land_mask by assumption. apply Z.mod_small. exact Hx. Qed.
Lemma land_ones_l w x : 0 <= w -> ulane w x -> Z.land (2 ^ w - 1) x = x.
Proof. intros. rewrite Z.land_comm. apply land_ones_r; assumption. Qed.
Lemma ulane_ones w : 0 <= w -> ulane w (2 ^ w - 1).
Proof. intros. pose proof (pow2_pos w H). split; lia. Qed.
Lemma ulane_0 w : 0 <= w -> ulane w 0.
Proof. intros. split; [lia|apply pow2_pos; lia]. Qed.
Lemma lnot_ones_land w x : 0 <= w -> ulane w x -> Z.land (Z.lnot (2 ^ w - 1)) x = 0.
Proof.
  intros Hw Hx. apply Z.bits_inj'. intros q Hq. bitspec. rewrite Z.bits_0. decb.
  destruct (Z.ltb_spec q w); [reflexivity|]. cbn. apply (testbit_ulane w); assumption || lia.
Qed.
Lemma lnot_0_land x : Z.land (Z.lnot 0) x = x.
Proof. change (Z.lnot 0) with (-1). apply Z.land_m1_l. Qed.

Lemma reg_all_ones n : okw n 8 -> mm_set1 n 8 (-1) = 2 ^ n - 1.
Proof.
  intros H. apply Z.bits_inj'. intros q Hq. rewrite testbit_ones by (try apply H; lia).
  pose proof (in_reg_set1 n 8 (-1) H) as R.
  destruct (Z.ltb_spec q n).
  - pose proof (Z.div_mod q 8 ltac:(lia)) as D. pose proof (Z.mod_pos_bound q 8 ltac:(lia)).
    destruct H as (_ & Hn & En).
    assert (0 <= q / 8 < n / 8). { split; [apply Z.div_pos; lia|apply Z.div_lt_upper_bound; lia]. }
    pose proof (lane_set1 n 8 (-1) (q / 8) ltac:(unfold okw; lia) ltac:(assumption)) as L.
    assert (T : Z.testbit (lane 8 (q / 8) (mm_set1 n 8 (-1))) (q mod 8) = true).
    { rewrite L, m1_mod by lia. rewrite testbit_ones by lia. apply Z.ltb_lt. lia. }
    rewrite testbit_lane in T by lia. apply andb_true_iff in T. destruct T as [_ T]. rewrite <- T. f_equal. lia.
  - apply (reg_high n); assumption.
Qed.

Lemma nb_okw8 e : okw (nb e) 8.
Proof. destruct e; okw. Qed.

(** [notb] complements every bit of the register *)
Lemma x_notb_eq e t a : in_reg (nb e) a -> x_notb e t a = 2 ^ nb e - 1 - a.
Proof.
  intros Ha. unfold x_notb, x_andnotb, mm_andnot. rewrite reg_all_ones by apply nb_okw8.
  pose proof (nb_pos e) as Hn. rewrite land_mask by assumption.
  unfold Z.lnot. pose proof (pow2_pos (nb e) Hn). symmetry. apply (Z.mod_unique _ _ (-1)); unfold in_reg in Ha; lia.
Qed.
Lemma x_notb_lane e t a w i : okw (nb e) w -> in_reg (nb e) a -> 0 <= i < nb e / w ->
  in_reg (nb e) (x_notb e t a) /\ lane w i (x_notb e t a) = 2 ^ w - 1 - lane w i a.
Proof.
  intros H Ha Hi. split.
  - rewrite x_notb_eq by assumption. unfold in_reg in *. lia.
  - unfold x_notb, x_andnotb, mm_andnot. destruct H as (Hw & Hn & En).
    rewrite lane_andnot by lia.
    assert (E : lane w i (mm_set1 (nb e) 8 (-1)) = 2 ^ w - 1).
    { rewrite reg_all_ones by apply nb_okw8. apply Z.bits_inj'. intros q Hq. bitspec. decb.
      destruct (Z.ltb_spec q w); [|reflexivity]. replace (w * i + q <? nb e) with true by nia.
      replace (0 <=? w * i + q) with true by nia. reflexivity. }
    rewrite E, land_mask by lia. unfold Z.lnot. pose proof (lane_range w i a ltac:(lia)).
    symmetry. apply (Z.mod_unique _ _ (-1)); lia.
Qed.

(** bitwise operators: bit by bit *)
Lemma x_bitop_ok e t a b : in_reg (nb e) a -> in_reg (nb e) b ->
  in_reg (nb e) (x_andb e t a b) /\ in_reg (nb e) (x_orb e t a b) /\ in_reg (nb e) (x_xorb e t a b) /\
  in_reg (nb e) (x_andnotb e t a b).
Proof.
  intros Ha Hb. pose proof (nb_pos e). unfold x_andb, x_orb, x_xorb, x_andnotb, mm_and, mm_or, mm_xor, mm_andnot.
  split; [apply in_reg_land; assumption|]. split; [apply in_reg_lor; assumption|].
  split; [apply in_reg_lxor; assumption|apply in_reg_andnot; assumption].
Qed.

(** logical operators *)
Definition xmask (x : bool) (w : Z) : Z := if x then 2 ^ w - 1 else 0.

Lemma logical_bin e t (o : Z -> Z -> Z) (f : bool -> bool -> bool) a b p q : In t int_types ->
  (forall n x y, 0 <= n -> in_reg n x -> in_reg n y -> in_reg n (o x y)) ->
  (forall w i x y, 0 <= w -> 0 <= i -> lane w i (o x y) = o (lane w i x) (lane w i y)) ->
  (forall x y k, Z.testbit (o x y) k = f (Z.testbit x k) (Z.testbit y k)) ->
  logical e t a p -> logical e t b q -> f false false = false ->
  logical e t (o a b) (fun i => f (p i) (q i)).
Proof.
  intros H HR HL HT La Lb F0. pose proof (okw_nb e t H) as (Hw & Hn & En).
  destruct (is512 e) eqn:E.
  - apply logical_mask in La, Lb; try assumption. apply logical_mask; [assumption|].
    destruct La as [Ra La], Lb as [Rb Lb]. split.
    + apply HR; try assumption. apply Z.div_pos; lia.
    + intros i Hi. rewrite HT, La, Lb by assumption. reflexivity.
  - apply logical_reg in La, Lb; try assumption. apply logical_reg; [assumption|].
    destruct La as [Ra La], Lb as [Rb Lb]. split.
    + apply HR; assumption.
    + intros i Hi. rewrite HL, La, Lb by (assumption || lia).
      apply Z.bits_inj'. intros k Hk. rewrite HT.
      destruct (p i), (q i); destruct (f true true) eqn:F11; destruct (f true false) eqn:F10; destruct (f false true) eqn:F01;
        rewrite ?F0, ?F11, ?F10, ?F01, ?Z.bits_0, ?testbit_ones by lia;
        destruct (Z.ltb_spec k (bits t)); rewrite ?F0, ?F11, ?F10, ?F01; reflexivity.
Qed.

Lemma x_andl_ok e t a b p q : In t int_types -> logical e t a p -> logical e t b q ->
  logical e t (x_andl e t a b) (fun i => p i && q i).
Proof.
  intros. apply (logical_bin e t Z.land andb); try assumption; try reflexivity.
  - intros; apply in_reg_land; assumption.
  - intros; apply lane_land; assumption.
  - intros; apply Z.land_spec.
Qed.
Lemma x_orl_ok e t a b p q : In t int_types -> logical e t a p -> logical e t b q ->
  logical e t (x_orl e t a b) (fun i => p i || q i).
Proof.
  intros. apply (logical_bin e t Z.lor orb); try assumption; try reflexivity.
  - intros; apply in_reg_lor; assumption.
  - intros; apply lane_lor; assumption.
  - intros; apply Z.lor_spec.
Qed.
Lemma x_xorl_ok e t a b p q : In t int_types -> logical e t a p -> logical e t b q ->
  logical e t (x_xorl e t a b) (fun i => xorb (p i) (q i)).
Proof.
  intros. apply (logical_bin e t Z.lxor xorb); try assumption; try reflexivity.
  - intros; apply in_reg_lxor; assumption.
  - intros; apply lane_lxor; assumption.
  - intros; apply Z.lxor_spec.
Qed.

Lemma le_eq e t : le e t = nb e / bits t.
Proof. reflexivity. Qed.

Lemma x_notl_ok e t a p : In t int_types -> logical e t a p -> logical e t (x_notl e t a) (fun i => negb (p i)).
Proof.
  intros H La. pose proof (okw_nb e t H) as O. pose proof O as (Hw & Hn & En).
  assert (HL : 0 <= nb e / bits t) by (apply Z.div_pos; lia).
  unfold x_notl. destruct (is512 e) eqn:E.
  - apply logical_mask in La; [|assumption]. apply logical_mask; [assumption|]. rewrite le_eq. split.
    + apply Z.mod_pos_bound. apply pow2_pos. assumption.
    + intros i Hi. rewrite testbit_mod_pow by lia. decb. rewrite Z.lnot_spec by lia. destruct La as [_ La].
      rewrite La by assumption. reflexivity.
  - apply logical_reg in La; [|assumption]. apply logical_reg; [assumption|]. destruct La as [R La]. split.
    + rewrite x_notb_eq by assumption. unfold in_reg in *. lia.
    + intros i Hi. destruct (x_notb_lane e t a (bits t) i O R Hi) as [_ L]. rewrite L, La by assumption.
      destruct (p i); cbn [negb]; lia.
Qed.

Lemma x_andnotl_ok e t a b p q : In t int_types -> logical e t a p -> logical e t b q ->
  logical e t (x_andnotl e t a b) (fun i => p i && negb (q i)).
Proof.
  intros H La Lb. pose proof (okw_nb e t H) as O. pose proof O as (Hw & Hn & En).
  assert (HL : 0 <= nb e / bits t) by (apply Z.div_pos; lia).
  unfold x_andnotl. destruct (is512 e) eqn:E.
  - apply logical_mask in La, Lb; try assumption. apply logical_mask; [assumption|]. rewrite le_eq.
    destruct La as [Ra La], Lb as [Rb Lb]. split.
    + apply Z.mod_pos_bound. apply pow2_pos. assumption.
    + intros i Hi. rewrite testbit_mod_pow by lia. decb. rewrite Z.land_spec, Z.lnot_spec by lia.
      rewrite La, Lb by assumption. reflexivity.
  - apply logical_reg in La, Lb; try assumption. apply logical_reg; [assumption|].
    destruct La as [Ra La], Lb as [Rb Lb]. unfold x_andnotb, mm_andnot. split.
    + apply in_reg_andnot; assumption.
    + intros i Hi. rewrite lane_andnot, La, Lb by (assumption || lia).
      destruct (p i), (q i); cbn [andb negb];
        rewrite ?lnot_0_land, ?Z.land_0_r, ?lnot_ones_land by (try apply ulane_ones; lia); reflexivity.
Qed.

Lemma x_set1l_ok e t x : In t int_types -> logical e t (x_set1l e t x) (fun _ => negb (x =? 0)).
Proof.
  intros H. pose proof (okw_nb e t H) as O. pose proof O as (Hw & Hn & En).
  assert (HL : 0 <= nb e / bits t) by (apply Z.div_pos; lia).
  unfold x_set1l. destruct (is512 e) eqn:E.
  - apply logical_mask; [assumption|]. rewrite le_eq. destruct (x =? 0); cbn [negb].
    + split; [split; [lia|apply pow2_pos; assumption]|]. intros. apply Z.bits_0.
    + split; [apply Z.mod_pos_bound; apply pow2_pos; assumption|]. intros i Hi.
      rewrite testbit_mod_pow by lia. decb. rewrite Z.lnot_spec, Z.bits_0 by lia. reflexivity.
  - apply logical_reg; [assumption|]. destruct (x =? 0); cbn [negb].
    + split; [apply in_reg_0; assumption|]. intros. apply lane_0; lia.
    + assert (O64 : okw (nb e) 64) by (destruct e; okw).
      assert (Eq : mm_cmpeq (nb e) 64 mm_zero mm_zero = 2 ^ nb e - 1).
      { pose proof (in_reg_build (nb e) 64 (fun i => if lane 64 i mm_zero =? lane 64 i mm_zero then -1 else 0) O64) as R.
        change (build _ _ _) with (mm_cmpeq (nb e) 64 mm_zero mm_zero) in R.
        apply Z.bits_inj'. intros q Hq. rewrite testbit_ones by lia. destruct (Z.ltb_spec q (nb e)).
        - pose proof (Z.div_mod q 64 ltac:(lia)) as D. pose proof (Z.mod_pos_bound q 64 ltac:(lia)).
          assert (0 <= q / 64 < nb e / 64).
          { split; [apply Z.div_pos; lia|apply Z.div_lt_upper_bound; [lia|]]. destruct O64 as (_&_&<-). lia. }
          assert (T : Z.testbit (lane 64 (q / 64) (mm_cmpeq (nb e) 64 mm_zero mm_zero)) (q mod 64) = true).
          { unfold mm_cmpeq, lanewise2. rewrite lane_buildn by assumption. rewrite Z.eqb_refl, m1_mod by lia.
            rewrite testbit_ones by lia. apply Z.ltb_lt. lia. }
          rewrite testbit_lane in T by lia. apply andb_true_iff in T. destruct T as [_ T]. rewrite <- T. f_equal. lia.
        - apply (reg_high (nb e)); assumption. }
      rewrite Eq. split; [unfold in_reg; pose proof (pow2_pos (nb e) Hn); lia|].
      intros i Hi. apply Z.bits_inj'. intros q Hq. bitspec. decb.
      destruct (Z.ltb_spec q (bits t)); [|reflexivity]. replace (bits t * i + q <? nb e) with true by nia.
      replace (0 <=? bits t * i + q) with true by nia. reflexivity.
Qed.

(** ** Masks *)

Lemma testbit_lane1 r i : 0 <= i -> lane 1 i r = Z.b2z (Z.testbit r i).
Proof. intros. unfold lane. rewrite Z.mul_1_l. rewrite Z.testbit_spec' by lia. reflexivity. Qed.
Lemma testbit_build1 k f i : 0 <= i < Z.of_nat k -> Z.testbit (build 1 k f) i = (f i mod 2 =? 1).
Proof.
  intros Hi. pose proof (lane_build 1 k f i ltac:(lia) Hi) as L. rewrite testbit_lane1 in L by lia.
  change (2 ^ 1) with 2 in L. rewrite <- L. destruct (Z.testbit _ _); reflexivity.
Qed.

Lemma msb_bit w x : 0 < w -> ulane w x -> x / 2 ^ (w - 1) = Z.b2z (Z.testbit x (w - 1)).
Proof.
  intros Hw [H0 H1]. rewrite Z.testbit_spec' by lia. symmetry. apply Z.mod_small.
  pose proof (pow2_pos (w - 1) ltac:(lia)). pose proof (pow2_split w Hw).
  split; [apply Z.div_pos; lia|apply Z.div_lt_upper_bound; lia].
Qed.
Lemma msb_leb w x : 0 < w -> ulane w x -> (2 ^ (w - 1) <=? x) = Z.testbit x (w - 1).
Proof.
  intros Hw Hx. pose proof (msb_bit w x Hw Hx) as E. pose proof (pow2_pos (w - 1) ltac:(lia)).
  destruct Hx. destruct (Z.leb_spec (2 ^ (w - 1)) x).
  - destruct (Z.testbit x (w - 1)); [reflexivity|]. cbn in E. apply Z.div_small_iff in E; lia.
  - rewrite Z.div_small in E by lia. destruct (Z.testbit x (w - 1)); [discriminate|reflexivity].
Qed.

Lemma testbit_movemask n w a i : okw n w -> 0 <= i < n / w ->
  Z.testbit (mm_movemask n w a) i = Z.testbit (lane w i a) (w - 1).
Proof.
  intros H Hi. unfold mm_movemask. rewrite testbit_build1 by (rewrite nlanes_z by assumption; lia).
  rewrite msb_bit by (try apply lane_range; destruct H; lia). destruct (Z.testbit _ _); reflexivity.
Qed.
Lemma movemask_range n w a : okw n w -> 0 <= mm_movemask n w a < 2 ^ (n / w).
Proof.
  intros H. unfold mm_movemask. pose proof (build_range 1 (nlanes n w) (fun i => lane w i a / 2 ^ (w - 1)) ltac:(lia)) as R.
  rewrite nlanes_z, Z.mul_1_l in R by assumption. exact R.
Qed.

Lemma cmp_mask_ok e t p a b : In t int_types -> is512 e = true ->
  logical e t (mm_cmp_mask 512 t p a b) (fun i => p (elt t a i) (elt t b i)).
Proof.
  intros H E. assert (N : nb e = 512) by (destruct e; try discriminate E; reflexivity).
  pose proof (okw_nb e t H) as O. rewrite N in O.
  apply logical_mask; [assumption|]. rewrite N. unfold mm_cmp_mask. split.
  - pose proof (build_range 1 (nlanes 512 (bits t)) (fun i => if p (cast t (lane (bits t) i a)) (cast t (lane (bits t) i b)) then 1 else 0) ltac:(lia)) as R.
    rewrite nlanes_z, Z.mul_1_l in R by assumption. exact R.
  - intros i Hi. rewrite testbit_build1 by (rewrite nlanes_z by assumption; lia).
    unfold elt. fold (lane (bits t) i a) (lane (bits t) i b). destruct (p _ _); reflexivity.
Qed.

(** ** Comparisons on registers *)

Definition regcmp (n w : Z) (f : Z -> Z -> Z) (p : Z -> Z -> bool) : Prop :=
  forall a b, in_reg n a -> in_reg n b ->
    reg_logical n w (f a b) (fun i => p (lane w i a) (lane w i b)).

Lemma regcmp_lw n w f (p : Z -> Z -> bool) : lw2 n w f (fun x y => if p x y then 2 ^ w - 1 else 0) <-> regcmp n w f p.
Proof. reflexivity. Qed.

Lemma cmpeq_ok n w : okw n w -> regcmp n w (mm_cmpeq n w) Z.eqb.
Proof.
  intros H. apply (proj1 (regcmp_lw _ _ _ _)). apply lanewise2_lw; [assumption|]. intros x y _ _. pose proof (pow2_pos w ltac:(destruct H; lia)).
  destruct (x =? y); [apply m1_mod; destruct H; lia|apply Z.mod_0_l; lia].
Qed.
Lemma cmpgt_ok n w : okw n w -> regcmp n w (mm_cmpgt n w) (fun x y => to_s w y <? to_s w x).
Proof.
  intros H. apply (proj1 (regcmp_lw _ _ _ _)). apply lanewise2_lw; [assumption|]. intros x y _ _. pose proof (pow2_pos w ltac:(destruct H; lia)).
  destruct (to_s w y <? to_s w x); [apply m1_mod; destruct H; lia|apply Z.mod_0_l; lia].
Qed.

Lemma eq64_ok : regcmp 128 64 eq64_sse2 Z.eqb.
Proof.
  intros a b Ha Hb. unfold eq64_sse2, mm_and. cbv zeta.
  assert (O32 : okw 128 32) by okw.
  destruct (cmpeq_ok 128 32 O32 a b Ha Hb) as [R L].
  set (t := mm_cmpeq 128 32 a b) in *.
  assert (Rs : in_reg 128 (mm_shuffle_epi32 t 177)) by (apply (in_reg_build 128 32); okw).
  assert (Ls : forall j, 0 <= j < 4 -> lane 32 j (mm_shuffle_epi32 t 177) = lane 32 (if Z.even j then j + 1 else j - 1) t).
  { intros j Hj. unfold mm_shuffle_epi32. change 4%nat with (nlanes 128 32).
    rewrite lane_buildn by (okw || exact Hj). rewrite Z.mod_small by (apply lane_range; lia).
    assert (j = 0 \/ j = 1 \/ j = 2 \/ j = 3) as [-> | [-> | [-> | ->]]] by lia; reflexivity. }
  split; [apply in_reg_land; assumption || lia|].
  intros i Hi. change (128 / 64) with 2 in Hi. change (128 / 32) with 4 in L.
  change 64 with (2 * 32). rewrite !lane_join by lia. rewrite !lane_land by lia.
  rewrite !Ls by lia.
  assert (Ev : Z.even (2 * i) = true) by (apply Z.even_spec; exists i; lia).
  assert (Od : Z.even (2 * i + 1) = false) by (rewrite Z.add_comm, Z.even_add_mul_2; reflexivity).
  rewrite Ev, Od. replace (2 * i + 1 - 1) with (2 * i) by lia. rewrite !L by lia.
  pose proof (lane_range 32 (2 * i) a ltac:(lia)). pose proof (lane_range 32 (2 * i + 1) a ltac:(lia)).
  pose proof (lane_range 32 (2 * i) b ltac:(lia)). pose proof (lane_range 32 (2 * i + 1) b ltac:(lia)).
  destruct (Z.eqb_spec (lane 32 (2 * i) a) (lane 32 (2 * i) b)) as [E0|E0];
  destruct (Z.eqb_spec (lane 32 (2 * i + 1) a) (lane 32 (2 * i + 1) b)) as [E1|E1];
    rewrite ?Z.land_0_r, ?Z.land_0_l, ?Z.land_diag.
  - rewrite E0, E1, Z.eqb_refl. reflexivity.
  - decb. reflexivity.
  - decb. reflexivity.
  - decb. reflexivity.
Qed.

Lemma eq_native_ok e t : In t int_types -> is512 e = false -> regcmp (nb e) (bits t) (eq_native e t) Z.eqb.
Proof.
  intros H E a b Ha Hb. pose proof (okw_nb e t H) as O. unfold eq_native.
  destruct e; try discriminate E; try (apply cmpeq_ok; assumption).
  destruct (Z.eqb_spec (bits t) 64) as [E64|E64]; [rewrite E64; apply eq64_ok; assumption|apply cmpeq_ok; assumption].
Qed.

Lemma gt_signed_ok e w : okw (nb e) w -> is512 e = false ->
  regcmp (nb e) w (gt_signed e w) (fun x y => to_s w y <? to_s w x).
Proof.
  intros O E a b Ha Hb. unfold gt_signed.
  destruct e; try discriminate E; try (apply cmpgt_ok; assumption).
  destruct (Z.eqb_spec w 64) as [E64|E64]; [|apply cmpgt_ok; assumption]. subst w.
  cbn [nb] in *. split; [apply (in_reg_build 128 64); assumption|].
  intros i Hi. change 2%nat with (nlanes 128 64). rewrite lane_buildn by assumption.
  destruct (_ <? _); reflexivity.
Qed.

(** comparing unsigned numbers through a shift of the origin *)
Lemma bias_gt w x y : 0 < w -> ulane w x -> ulane w y ->
  (to_s w ((y + 2 ^ (w - 1)) mod 2 ^ w) <? to_s w ((x + 2 ^ (w - 1)) mod 2 ^ w)) = (y <? x).
Proof.
  intros Hw Hx Hy. unfold ulane in *. pose proof (pow2_split w Hw). pose proof (pow2_pos (w - 1) ltac:(lia)).
  assert (S : forall z, 0 <= z < 2 ^ w -> to_s w ((z + 2 ^ (w - 1)) mod 2 ^ w) = z - 2 ^ (w - 1)).
  { intros z Hz. unfold to_s. cbv zeta. rewrite Z.mod_mod by lia.
    destruct (Z.lt_ge_cases z (2 ^ (w - 1))).
    - rewrite Z.mod_small by lia. decb. lia.
    - replace (z + 2 ^ (w - 1)) with (z - 2 ^ (w - 1) + 1 * 2 ^ w) by lia.
      rewrite Z.mod_add, Z.mod_small by lia. decb. reflexivity. }
  rewrite !S by assumption. lia.
Qed.

Lemma gt_native_ok e t : In t int_types -> is512 e = false ->
  regcmp (nb e) (bits t) (gt_native e t) (fun x y => cast t y <? cast t x).
Proof.
  intros H E a b Ha Hb. pose proof (okw_nb e t H) as O. unfold gt_native.
  pose proof (bits_pos t H) as Bp.
  destruct (is_signed t) eqn:Sg.
  - destruct (gt_signed_ok e (bits t) O E a b Ha Hb) as [R L]. split; [exact R|].
    intros i Hi. rewrite L by assumption. unfold cast. rewrite Sg. reflexivity.
  - cbv zeta. unfold x_set1. pose proof (in_reg_set1 (nb e) (bits t) (2 ^ (bits t - 1)) O) as Rc.
    destruct (lw_add _ _ O a _ Ha Rc) as [Ra La]. destruct (lw_add _ _ O b _ Hb Rc) as [Rb Lb].
    destruct (gt_signed_ok e (bits t) O E _ _ Ra Rb) as [R L]. split; [exact R|].
    intros i Hi. rewrite L, La, Lb, lane_set1 by assumption.
    pose proof (pow2_split (bits t) ltac:(lia)). pose proof (pow2_pos (bits t - 1) ltac:(lia)).
    rewrite (Z.mod_small (2 ^ (bits t - 1))) by lia.
    rewrite bias_gt by (try apply lane_range; lia).
    unfold cast. rewrite Sg. unfold to_u. rewrite !Z.mod_small by (apply lane_range; lia). reflexivity.
Qed.

(** ** Merging two AVX2 logicals into an AVX-512 mask *)

Lemma reg_logical_msb n w l p i : okw n w -> reg_logical n w l p -> 0 <= i < n / w ->
  Z.testbit (lane w i l) (w - 1) = p i.
Proof.
  intros (Hw & _) [_ L] Hi. rewrite L by assumption. destruct (p i).
  - rewrite testbit_ones by lia. apply Z.ltb_lt. lia.
  - apply Z.bits_0.
Qed.

Lemma lane16_perm v j : in_reg 256 v -> 0 <= j < 16 ->
  lane 16 j (mm_permute4x64_epi64 v 216) =
  lane 16 (4 * (if j / 4 =? 0 then 0 else if j / 4 =? 1 then 2 else if j / 4 =? 2 then 1 else 3) + j mod 4) v.
Proof.
  intros Hv Hj. pose proof (Z.div_mod j 4 ltac:(lia)) as D. pose proof (Z.mod_pos_bound j 4 ltac:(lia)) as M.
  assert (Q : 0 <= j / 4 < 4) by (split; [apply Z.div_pos; lia|apply Z.div_lt_upper_bound; lia]).
  set (q := j / 4) in *. set (m := j mod 4) in *. clearbody q m. subst j.
  rewrite lane_lane by lia. change (4 * 16) with 64.
  unfold mm_permute4x64_epi64. change 4%nat with (nlanes 256 64). rewrite lane_buildn by (okw || exact Q).
  rewrite Z.mod_small by (apply lane_range; lia).
  assert (q = 0 \/ q = 1 \/ q = 2 \/ q = 3) as [-> | [-> | [-> | ->]]] by lia;
    (change (lane 2 0 216) with 0 || change (lane 2 1 216) with 2 || change (lane 2 2 216) with 1 || change (lane 2 3 216) with 3);
    cbn [Z.eqb Pos.eqb]; rewrite lane_lane by lia; reflexivity.
Qed.

Lemma movemask_unpack v h p i : in_reg 256 v -> (h = 0 \/ h = 1) -> reg_logical 256 16 v p -> 0 <= i < 8 ->
  Z.testbit (mm_movemask 256 32 (mm_unpack_epi16_256 h (mm_permute4x64_epi64 v 216) (mm_permute4x64_epi64 v 216))) i
  = p (8 * h + i).
Proof.
  intros Hv Hh Lv Hi. rewrite testbit_movemask by (okw || exact Hi).
  rewrite testbit_lane by lia. cbn [Z.ltb Z.compare Pos.compare Pos.compare_cont]. 
  change (32 - 1 <? 32) with true. cbn [andb].
  replace (32 * i + (32 - 1)) with (16 * (2 * i + 1) + 15) by lia.
  set (u := mm_permute4x64_epi64 v 216).
  pose proof (testbit_lane 16 (2 * i + 1) (mm_unpack_epi16_256 h u u) 15 ltac:(lia) ltac:(lia) ltac:(lia)) as T.
  change (15 <? 16) with true in T. cbn [andb] in T. rewrite <- T. clear T.
  unfold mm_unpack_epi16_256. change 16%nat with (nlanes 256 16).
  rewrite lane_buildn by (okw || (change (256 / 16) with 16; lia)). cbv zeta.
  set (j := (2 * i + 1) / 8 * 8 + h * 4 + (2 * i + 1) mod 8 / 2).
  replace (if (2 * i + 1) mod 2 =? 0 then lane 16 j u else lane 16 j u) with (lane 16 j u) by (destruct (_ =? 0); reflexivity).
  rewrite Z.mod_small by (apply lane_range; lia). unfold u.
  assert (Hj : 0 <= j < 16 /\ 4 * (if j / 4 =? 0 then 0 else if j / 4 =? 1 then 2 else if j / 4 =? 2 then 1 else 3) + j mod 4 = 8 * h + i).
  { unfold j. assert (i = 0 \/ i = 1 \/ i = 2 \/ i = 3 \/ i = 4 \/ i = 5 \/ i = 6 \/ i = 7) as C by lia.
    destruct Hh as [-> | ->]; destruct C as [-> | [-> | [-> | [-> | [-> | [-> | [-> | ->]]]]]]]; vm_compute; repeat split; discriminate. }
  destruct Hj as [Hj Ej]. rewrite lane16_perm by assumption. rewrite Ej.
  apply (reg_logical_msb 256 16 v p); [okw|assumption|]. change (256 / 16) with 16. lia.
Qed.

Lemma tb_lor_shift a b s k : 0 <= s -> 0 <= a < 2 ^ s -> 0 <= k ->
  Z.testbit (Z.lor a (b * 2 ^ s)) k = if k <? s then Z.testbit a k else Z.testbit b (k - s).
Proof.
  intros Hs Ha Hk. rewrite Z.lor_spec, tb_mul by lia. destruct (Z.ltb_spec k s); decb.
  - apply orb_false_r.
  - rewrite (testbit_small a s k) by lia. reflexivity.
Qed.

Lemma merge_mask_ok t v0 v1 p0 p1 : In t int_types -> wide t = false ->
  reg_logical 256 (bits t) v0 p0 -> reg_logical 256 (bits t) v1 p1 ->
  logical Avx512Knl t (merge_mask t v0 v1) (fun i => if i <? 256 / bits t then p0 i else p1 (i - 256 / bits t)).
Proof.
  intros H W L0 L1. apply logical_mask; [reflexivity|]. cbn [nb].
  assert (bits t = 8 \/ bits t = 16) as [E|E] by (ty_cases H; try discriminate W; cbn; auto);
    unfold merge_mask; rewrite E in *; cbn [Z.eqb Pos.eqb].
  - pose proof (movemask_range 256 8 v0 ltac:(okw)) as R0. pose proof (movemask_range 256 8 v1 ltac:(okw)) as R1.
    change (256 / 8) with 32 in *. change (512 / 8) with 64. split.
    + rewrite Z.lor_comm, lor_disjoint by lia. lia.
    + intros i Hi. rewrite tb_lor_shift by lia. destruct (Z.ltb_spec i 32).
      * rewrite testbit_movemask by (okw || exact (conj (proj1 Hi) H0)).
        apply (reg_logical_msb 256 8 v0 p0); [okw|assumption|]. change (256 / 8) with 32. lia.
      * rewrite testbit_movemask by (okw || (change (256 / 8) with 32; lia)).
        apply (reg_logical_msb 256 8 v1 p1); [okw|assumption|]. change (256 / 8) with 32. lia.
  - destruct L0 as [V0 L0]. destruct L1 as [V1 L1].
    pose proof (fun h i Hh Hi => movemask_unpack v0 h p0 i V0 Hh (conj V0 L0) Hi) as M0.
    pose proof (fun h i Hh Hi => movemask_unpack v1 h p1 i V1 Hh (conj V1 L1) Hi) as M1.
    set (A := mm_movemask 256 32 (mm_unpack_epi16_256 0 (mm_permute4x64_epi64 v0 216) (mm_permute4x64_epi64 v0 216))).
    set (B := mm_movemask 256 32 (mm_unpack_epi16_256 1 (mm_permute4x64_epi64 v0 216) (mm_permute4x64_epi64 v0 216))).
    set (C := mm_movemask 256 32 (mm_unpack_epi16_256 0 (mm_permute4x64_epi64 v1 216) (mm_permute4x64_epi64 v1 216))).
    set (D := mm_movemask 256 32 (mm_unpack_epi16_256 1 (mm_permute4x64_epi64 v1 216) (mm_permute4x64_epi64 v1 216))).
    assert (RA : 0 <= A < 2 ^ 8) by (apply (movemask_range 256 32); okw).
    assert (RB : 0 <= B < 2 ^ 8) by (apply (movemask_range 256 32); okw).
    assert (RC : 0 <= C < 2 ^ 8) by (apply (movemask_range 256 32); okw).
    assert (RD : 0 <= D < 2 ^ 8) by (apply (movemask_range 256 32); okw).
    pose proof (M0 0) as TA. pose proof (M0 1) as TB. pose proof (M1 0) as TC. pose proof (M1 1) as TD.
    fold A in TA. fold B in TB. fold C in TC. fold D in TD.
    clearbody A B C D.
    assert (E1 : Z.lor A (B * 2 ^ 8) = B * 2 ^ 8 + A) by (rewrite Z.lor_comm; apply lor_disjoint; lia).
    assert (R1 : 0 <= Z.lor A (B * 2 ^ 8) < 2 ^ 16) by lia.
    assert (E2 : Z.lor (Z.lor A (B * 2 ^ 8)) (C * 2 ^ 16) = C * 2 ^ 16 + (B * 2 ^ 8 + A)).
    { rewrite E1, Z.lor_comm. apply lor_disjoint; lia. }
    assert (R2 : 0 <= Z.lor (Z.lor A (B * 2 ^ 8)) (C * 2 ^ 16) < 2 ^ 24) by lia.
    assert (E3 : Z.lor (Z.lor (Z.lor A (B * 2 ^ 8)) (C * 2 ^ 16)) (D * 2 ^ 24) = D * 2 ^ 24 + (C * 2 ^ 16 + (B * 2 ^ 8 + A))).
    { rewrite E2, Z.lor_comm. apply lor_disjoint; lia. }
    change (256 / 16) with 16. change (512 / 16) with 32. split; [lia|].
    intros i Hi. rewrite tb_lor_shift by lia. destruct (Z.ltb_spec i 24).
    + rewrite tb_lor_shift by lia. destruct (Z.ltb_spec i 16).
      * rewrite tb_lor_shift by lia. destruct (Z.ltb_spec i 8).
        -- rewrite TA by lia. f_equal.
        -- rewrite TB by lia. f_equal. lia.
      * rewrite TC by lia. f_equal.
    + replace (i <? 16) with false by lia. rewrite TD by lia. f_equal. lia.
Qed.

Lemma split_cmp512_ok t f p a b : In t int_types -> wide t = false -> in_reg 512 a -> in_reg 512 b ->
  regcmp 256 (bits t) f p ->
  logical Avx512Knl t (split_cmp512 t f a b) (fun i => p (lane (bits t) i a) (lane (bits t) i b)).
Proof.
  intros H W Ha Hb Hf. unfold split_cmp512.
  assert (O : okw 256 (bits t)) by (ty_cases H; okw).
  pose proof (in_reg_lo 256 a ltac:(lia)) as Al. pose proof (in_reg_hi 256 a ltac:(lia) Ha) as Ah.
  pose proof (in_reg_lo 256 b ltac:(lia)) as Bl. pose proof (in_reg_hi 256 b ltac:(lia) Hb) as Bh.
  eapply logical_ext.
  - apply merge_mask_ok; [assumption|assumption|apply Hf; assumption|apply Hf; assumption].
  - cbn [nb]. intros i Hi. cbv beta. destruct (okw_double 256 (bits t) O) as [_ E2]. change (2 * 256) with 512 in *.
    destruct (Z.ltb_spec i (256 / bits t)).
    + rewrite !(lane_lo 256) by (assumption || lia). reflexivity.
    + rewrite !(lane_hi 256) by (assumption || lia).
      replace (256 / bits t + (i - 256 / bits t)) with i by lia. reflexivity.
Qed.

(** ** Comparison operators *)

Lemma cast_inj_lane t x y : In t int_types -> ulane (bits t) x -> ulane (bits t) y -> (cast t x =? cast t y) = (x =? y).
Proof.
  intros H Hx Hy. destruct (Z.eqb_spec x y); [subst; apply Z.eqb_refl|].
  apply Z.eqb_neq. intros C. apply (f_equal (fun z => z mod 2 ^ bits t)) in C. rewrite !cast_mod in C by assumption.
  unfold ulane in *. rewrite !Z.mod_small in C by lia. contradiction.
Qed.

(** a comparison operator: native on SSE and AVX2, two SSE4.2 halves on AVX, masks on AVX-512 *)
Lemma cmp_dispatch (f native : ext -> ity -> Z -> Z -> Z) pm pl e t a b : In t int_types ->
  in_reg (nb e) a -> in_reg (nb e) b ->
  (forall e' , is512 e' = false -> regcmp (nb e') (bits t) (native e' t) pl) ->
  (forall x y, ulane (bits t) x -> ulane (bits t) y -> pl x y = pm (cast t x) (cast t y)) ->
  (forall a b, f e t a b = match e with
    | Sse2 | Sse42 | Avx2 => native e t a b
    | Avx => split2 256 (native Sse42 t) a b
    | Avx512Knl => if wide t then mm_cmp_mask 512 t pm a b else split_cmp512 t (native Avx2 t) a b
    | Avx512Skylake => mm_cmp_mask 512 t pm a b
    end) ->
  logical e t (f e t a b) (fun i => pm (elt t a i) (elt t b i)).
Proof.
  intros H Ha Hb Hn Hp Ef. rewrite Ef. pose proof (bits_pos t H) as Bp.
  assert (X : forall i, pl (lane (bits t) i a) (lane (bits t) i b) = pm (elt t a i) (elt t b i)).
  { intros i. apply Hp; apply lane_range; lia. }
  destruct e.
  1,2,4: apply logical_reg; [reflexivity|];
    match goal with |- reg_logical (nb ?e) _ _ _ => destruct (Hn e eq_refl a b Ha Hb) as [R L] end;
    (split; [exact R|]); intros i Hi; rewrite L, X by assumption; reflexivity.
  - apply logical_reg; [reflexivity|].
    pose proof (split2_lw 128 (bits t) (native Sse42 t) (fun x y => if pl x y then 2 ^ bits t - 1 else 0)
      ltac:(ty_cases H; okw) (proj2 (regcmp_lw _ _ _ _) (Hn Sse42 eq_refl))) as S.
    destruct (S a b Ha Hb) as [R L]. split; [exact R|]. intros i Hi. specialize (L i Hi). cbv beta in L.
    rewrite X in L. exact L.
  - destruct (wide t) eqn:W; [apply cmp_mask_ok; [assumption|reflexivity]|].
    eapply logical_ext; [apply split_cmp512_ok; try assumption; apply (Hn Avx2 eq_refl)|].
    intros i Hi. cbv beta. apply X.
  - apply cmp_mask_ok; [assumption|reflexivity].
Qed.

Lemma x_eq_ok e t a b : In t int_types -> in_reg (nb e) a -> in_reg (nb e) b ->
  logical e t (x_eq e t a b) (fun i => elt t a i =? elt t b i).
Proof.
  intros H Ha Hb. apply (cmp_dispatch x_eq eq_native Z.eqb Z.eqb); try assumption.
  - intros. apply eq_native_ok; assumption.
  - intros. symmetry. apply cast_inj_lane; assumption.
  - intros. destruct e; reflexivity.
Qed.
Lemma x_gt_ok e t a b : In t int_types -> in_reg (nb e) a -> in_reg (nb e) b ->
  logical e t (x_gt e t a b) (fun i => elt t b i <? elt t a i).
Proof.
  intros H Ha Hb. eapply logical_ext.
  - apply (cmp_dispatch x_gt gt_native (fun x y => negb (x <=? y)) (fun x y => cast t y <? cast t x)); try assumption.
    + intros. apply gt_native_ok; assumption.
    + intros. cbv beta. rewrite Z.ltb_antisym. reflexivity.
    + intros. destruct e; reflexivity.
  - intros. cbv beta. rewrite Z.ltb_antisym. reflexivity.
Qed.
Lemma x_lt_ok e t a b : In t int_types -> in_reg (nb e) a -> in_reg (nb e) b ->
  logical e t (x_lt e t a b) (fun i => elt t a i <? elt t b i).
Proof. intros. unfold x_lt. apply x_gt_ok; assumption. Qed.

Lemma x_ne_ok e t a b : In t int_types -> in_reg (nb e) a -> in_reg (nb e) b ->
  logical e t (x_ne e t a b) (fun i => negb (elt t a i =? elt t b i)).
Proof.
  intros H Ha Hb. pose proof (x_notl_ok e t _ _ H (x_eq_ok e t a b H Ha Hb)) as N.
  unfold x_ne. destruct e; try exact N.
  - destruct (wide t); [|exact N]. exact (cmp_mask_ok Avx512Knl t (fun x y => negb (x =? y)) a b H eq_refl).
  - exact (cmp_mask_ok Avx512Skylake t (fun x y => negb (x =? y)) a b H eq_refl).
Qed.
Lemma x_ge_ok e t a b : In t int_types -> in_reg (nb e) a -> in_reg (nb e) b ->
  logical e t (x_ge e t a b) (fun i => elt t b i <=? elt t a i).
Proof.
  intros H Ha Hb. pose proof (x_notl_ok e t _ _ H (x_lt_ok e t a b H Ha Hb)) as N.
  apply logical_ext with (fun i => negb (elt t a i <? elt t b i)); [|intros; rewrite Z.leb_antisym; reflexivity].
  unfold x_ge. destruct e; try exact N.
  - destruct (wide t); [|exact N]. exact (cmp_mask_ok Avx512Knl t (fun x y => negb (x <? y)) a b H eq_refl).
  - exact (cmp_mask_ok Avx512Skylake t (fun x y => negb (x <? y)) a b H eq_refl).
Qed.
Lemma x_le_ok e t a b : In t int_types -> in_reg (nb e) a -> in_reg (nb e) b ->
  logical e t (x_le e t a b) (fun i => elt t a i <=? elt t b i).
Proof.
  intros H Ha Hb. pose proof (x_notl_ok e t _ _ H (x_gt_ok e t a b H Ha Hb)) as N.
  assert (N' : logical e t (x_notl e t (x_gt e t a b)) (fun i => elt t a i <=? elt t b i)).
  { eapply logical_ext; [exact N|]. intros; cbv beta; rewrite Z.leb_antisym; reflexivity. }
  unfold x_le. destruct e; try exact N'.
  - destruct (wide t); [|exact N']. exact (cmp_mask_ok Avx512Knl t Z.leb a b H eq_refl).
  - exact (cmp_mask_ok Avx512Skylake t Z.leb a b H eq_refl).
Qed.
