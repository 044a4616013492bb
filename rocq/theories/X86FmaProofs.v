(** Multiplication, division and the fused operators, with the inputs on which their emulation is
    undefined. *)
From Coq Require Import ZArith Lia List Bool ZifyBool.
From Verif Require Import CInt BitLemmas ScalarOps ScalarSpec ScalarProofs X86Deg234 X86Arith X86ArithSpec
  X86LaneLemmas X86ArithProofs X86EmulProofs X86LogicProofs X86SelectProofs.
Import ListNotations.
Open Scope Z_scope.

(** an emulation is undefined as soon as the scalar function is undefined on some lane *)
Lemma emul2_upto_none e t f a b k ret i : In t int_types -> in_reg (nb e) a -> in_reg (nb e) b ->
  Z.of_nat k <= nb e / bits t -> 0 <= i < Z.of_nat k -> f (elt t a i) (elt t b i) = None ->
  emul2_upto e t f a b k ret = None.
Proof.
  intros H Ha Hb. revert ret. induction k as [|k IH]; intros ret Hk Hi Hn; [lia|]. cbn [emul2_upto].
  destruct (Z.eq_dec i (Z.of_nat k)) as [->|].
  - destruct (emul2_upto e t f a b k ret) as [r|]; [|reflexivity]. cbn [bind].
    rewrite !get_lane_ok by (assumption || lia). rewrite Hn. reflexivity.
  - rewrite IH by (assumption || lia). reflexivity.
Qed.
Lemma emul2_none e t f undef a b i : In t int_types -> in_reg (nb e) a -> in_reg (nb e) b ->
  0 <= i < nb e / bits t -> f (elt t a i) (elt t b i) = None -> emul2 e t f undef a b = None.
Proof.
  intros H Ha Hb Hi Hn. pose proof (le_z e t H) as E. unfold emul2.
  apply (emul2_upto_none e t f a b _ undef i); try assumption; lia.
Qed.

(** scalar product *)
Lemma s_mul_defined t x y : In t int_types -> wide t = true ->
  s_mul t x y = None <-> (is_signed t = true /\ ~ in_ty t (x * y)).
Proof.
  intros H W. unfold wide in W. unfold s_mul, casted, carith, in_ty. rewrite promote_wide by lia.
  destruct (is_signed t).
  - destruct ((ty_min t <=? x * y) && (x * y <=? ty_max t)) eqn:E; cbn [bind].
    + split; [discriminate|]. intros [_ N]. exfalso. apply N. lia.
    + split; [|reflexivity]. intros _. split; [reflexivity|]. lia.
  - cbn [bind]. split; [discriminate|]. intros [? _]. discriminate.
Qed.
Lemma mul_emulated_wide e t : In t int_types -> mul_emulated e t = true -> wide t = true.
Proof. intros H. ext_cases e H; cbn; auto. Qed.

Lemma x_mul_none e t undef a b i : In t int_types -> in_reg (nb e) a -> in_reg (nb e) b -> mul_emulated e t = true ->
  0 <= i < nb e / bits t -> s_mul t (elt t a i) (elt t b i) = None -> x_mul e t undef a b = None.
Proof.
  intros H Ha Hb He Hi Hn.
  assert (E : x_mul e t undef a b = emul2 e t (s_mul t) undef a b) by (ext_cases e H; try discriminate He; reflexivity).
  rewrite E. apply (emul2_none e t _ undef a b i); assumption.
Qed.

(** scalar division *)
Lemma quot_in t x y : In t int_types -> in_ty t x -> in_ty t y -> y <> 0 ->
  in_ty t (Z.quot x y) \/ (is_signed t = true /\ x = ty_min t /\ y = -1).
Proof.
  intros H Hx Hy N. pose proof (bits_pos t H) as Bp. pose proof (pow2_pos (bits t - 1) ltac:(lia)) as P.
  pose proof (pow2_pos (bits t) ltac:(lia)) as P0.
  unfold in_ty, ty_min, ty_max in *. destruct (is_signed t).
  - destruct (Z.eq_dec y (-1)) as [->|N1].
    + replace (Z.quot x (-1)) with (- x).
      * destruct (Z.eq_dec x (- 2 ^ (bits t - 1))); [right; auto|left; lia].
      * change (-1) with (- (1)). rewrite Z.quot_opp_r by lia. rewrite Z.quot_1_r. reflexivity.
    + left. destruct (Z.eq_dec y 1) as [->|N2]; [rewrite Z.quot_1_r; lia|].
      assert (A : Z.abs (Z.quot x y) = Z.abs x / Z.abs y).
      { rewrite <- Z.quot_abs by assumption. apply Z.quot_div_nonneg; lia. }
      assert (Z.abs x / Z.abs y <= Z.abs x / 2) by (apply Z.div_le_compat_l; lia).
      assert (Z.abs x / 2 * 2 <= Z.abs x) by (rewrite Z.mul_comm; apply Z.mul_div_le; lia).
      assert (0 <= Z.abs x / 2) by (apply Z.div_pos; lia). lia.
  - left. rewrite Z.quot_div_nonneg by lia.
    assert (x / y <= x / 1) by (apply Z.div_le_compat_l; lia). rewrite Z.div_1_r in *.
    pose proof (Z.div_pos x y ltac:(lia) ltac:(lia)). lia.
Qed.

Lemma s_div_ok t x y : In t int_types -> in_ty t x -> in_ty t y -> ~ bad_div t x y ->
  exists r, s_div t x y = Some r /\ wraps_to t (Z.quot x y) r.
Proof.
  intros H Hx Hy NB. unfold bad_div in NB. unfold s_div. destruct (Z.eqb_spec y 0) as [E|E]; [exfalso; auto|].
  assert (C : exists z, carith (promote t) (Z.quot x y) = Some z /\ z = Z.quot x y).
  { destruct (quot_in t x y H Hx Hy E) as [I|(Sg & -> & ->)].
    - exists (Z.quot x y). split; [|reflexivity]. apply carith_promote_fits; assumption.
    - assert (bits t < 32) by (destruct (Z.lt_ge_cases (bits t) 32); [assumption|exfalso; apply NB; right; auto]).
      eexists. split; [|reflexivity]. ty_cases H; try discriminate Sg; try (cbn in *; lia); reflexivity. }
  destruct C as (z & C & ->). rewrite C. cbn [casted bind]. eexists. split; [reflexivity|]. apply cast_wraps. assumption.
Qed.
Lemma s_div_bad t x y : In t int_types -> in_ty t x -> in_ty t y -> bad_div t x y -> s_div t x y = None.
Proof.
  intros H Hx Hy [->|(Sg & W & -> & ->)]; [reflexivity|].
  ty_cases H; try discriminate Sg; try (cbn in W; lia); reflexivity.
Qed.
Lemma s_div_in_ty t a b r : In t int_types -> s_div t a b = Some r -> in_ty t r.
Proof.
  intros H E. unfold s_div in E. destruct (b =? 0); [discriminate|]. unfold casted, bind in E.
  destruct (carith _ _); [|discriminate]. injection E as <-. apply cast_in_ty. assumption.
Qed.
Lemma x_div_ok e t undef a b : In t int_types -> in_reg (nb e) undef -> in_reg (nb e) a -> in_reg (nb e) b ->
  (forall i, 0 <= i < nb e / bits t -> ~ bad_div t (elt t a i) (elt t b i)) ->
  exists r, x_div e t undef a b = Some r /\ vector e t r (fun i v => wraps_to t (Z.quot (elt t a i) (elt t b i)) v).
Proof.
  intros H Hu Ha Hb ND. unfold x_div.
  destruct (emul2_ok e t (s_div t) undef a b H Hu Ha Hb) as (r & Er & R & L).
  - intros x y z. apply s_div_in_ty. assumption.
  - intros i Hi. destruct (s_div_ok t (elt t a i) (elt t b i) H (elt_range _ _ _ H) (elt_range _ _ _ H) (ND i Hi)) as (z & E & _).
    rewrite E. discriminate.
  - exists r. split; [exact Er|]. split; [exact R|]. intros i Hi.
    destruct (s_div_ok t (elt t a i) (elt t b i) H (elt_range _ _ _ H) (elt_range _ _ _ H) (ND i Hi)) as (z & E & Wz).
    rewrite L in E by assumption. injection E as ->. exact Wz.
Qed.
Lemma x_div_none e t undef a b i : In t int_types -> in_reg (nb e) a -> in_reg (nb e) b ->
  0 <= i < nb e / bits t -> bad_div t (elt t a i) (elt t b i) -> x_div e t undef a b = None.
Proof.
  intros H Ha Hb Hi B. apply (emul2_none e t _ undef a b i); try assumption.
  apply s_div_bad; try assumption; apply elt_range; assumption.
Qed.

(** ** Fused operators *)

Lemma lane_elt_ex t r i : In t int_types -> exists k, lane (bits t) i r = elt t r i + k * 2 ^ bits t.
Proof.
  intros H. rewrite <- (elt_congr t r i H). exists (- (elt t r i / 2 ^ bits t)).
  rewrite Z.mod_eq by (apply pow_bits_nz; assumption). lia.
Qed.
Lemma cast_ex t z : In t int_types -> exists k, cast t z = z + k * 2 ^ bits t.
Proof.
  intros H. destruct (cast_wraps t z H) as [_ [k E]]. exists (- k). lia.
Qed.

Lemma fma_factor_reg e t (neg : bool) a : In t int_types -> in_reg (nb e) a ->
  let a' := if neg then x_neg e t a else a in
  in_reg (nb e) a' /\ forall i, 0 <= i < nb e / bits t -> elt t a' i = fma_factor t neg (elt t a i).
Proof.
  intros H Ha. destruct neg; cbn [fma_factor]; [|split; [exact Ha|reflexivity]].
  destruct (x_neg_lw e t H a Ha) as [R L]. split; [exact R|]. intros i Hi. rewrite !elt_lane, L, cast_mod_pow by assumption.
  apply cast_congr. rewrite <- !(Z.sub_0_l). rewrite (Zminus_mod 0 (cast t _)), cast_mod, <- Zminus_mod by assumption. reflexivity.
Qed.

Lemma fma_emulate_ok neg sub e t undef a b c : In t int_types -> in_reg (nb e) undef ->
  in_reg (nb e) a -> in_reg (nb e) b -> in_reg (nb e) c ->
  (mul_emulated e t = true -> forall i, 0 <= i < nb e / bits t ->
     s_mul t (fma_factor t neg (elt t a i)) (elt t b i) <> None) ->
  exists r, fma_emulate neg sub e t undef a b c = Some r /\
    vector e t r (fun i v => wraps_to t (fma_value neg sub (elt t a i) (elt t b i) (elt t c i)) v).
Proof.
  intros H Hu Ha Hb Hc Hd. destruct (fma_factor_reg e t neg a H Ha) as [Ra' La']. unfold fma_emulate.
  set (a' := if neg then x_neg e t a else a) in *.
  destruct (x_mul_ok e t undef a' b H Hu Ra' Hb) as (p & Ep & Rp & Lp).
  { intros He i Hi. rewrite La' by assumption. apply Hd; assumption. }
  rewrite Ep. cbn [bind]. eexists. split; [reflexivity|].
  destruct (x_add_lw e t H p c Rp Hc) as [R1 L1]. destruct (x_sub_lw e t H p c Rp Hc) as [R2 L2].
  assert (G : forall i, 0 <= i < nb e / bits t -> forall r,
    lane (bits t) i r = (if sub then lane (bits t) i p - lane (bits t) i c else lane (bits t) i p + lane (bits t) i c) mod 2 ^ bits t ->
    wraps_to t (fma_value neg sub (elt t a i) (elt t b i) (elt t c i)) (elt t r i)).
  { intros i Hi r Er. split; [apply elt_range; assumption|].
    rewrite (elt_of_lane t r i _ H Er). destruct (Lp i Hi) as [_ [k1 E1]]. rewrite La' in E1 by assumption.
    destruct (lane_elt_ex t p i H) as [k2 E2]. destruct (lane_elt_ex t c i H) as [k3 E3].
    destruct (cast_ex t (- elt t a i) H) as [k4 E4].
    destruct (cast_ex t (if sub then lane (bits t) i p - lane (bits t) i c else lane (bits t) i p + lane (bits t) i c) H) as [k5 E5].
    rewrite E5, E2, E3. unfold fma_value, fma_factor in *.
    set (M := 2 ^ bits t) in *. clearbody M.
    assert (Ep' : elt t p i = (if neg then - elt t a i + k4 * M else elt t a i) * elt t b i - k1 * M).
    { destruct neg; [rewrite <- E4|]; lia. }
    rewrite Ep'.
    exists (k1 - (if neg then k4 * elt t b i else 0) - k5 - k2 + (if sub then k3 else - k3)).
    destruct neg, sub; ring. }
  destruct sub; (split; [assumption|]); intros i Hi; apply G; auto.
Qed.
Lemma fma_emulate_none neg sub e t undef a b c i : In t int_types -> in_reg (nb e) a -> in_reg (nb e) b ->
  mul_emulated e t = true -> 0 <= i < nb e / bits t ->
  s_mul t (fma_factor t neg (elt t a i)) (elt t b i) = None -> fma_emulate neg sub e t undef a b c = None.
Proof.
  intros H Ha Hb He Hi Hn. destruct (fma_factor_reg e t neg a H Ha) as [Ra' La']. unfold fma_emulate.
  rewrite (x_mul_none e t undef _ b i); try assumption; [reflexivity|]. rewrite La' by assumption. exact Hn.
Qed.

Lemma split3_ok n t (f : Z -> Z -> Z -> option Z) (P : Z -> Z -> Z -> Z -> Prop) a b c : In t int_types -> okw n (bits t) ->
  in_reg (2 * n) a -> in_reg (2 * n) b -> in_reg (2 * n) c ->
  (forall x y z, in_reg n x -> in_reg n y -> in_reg n z ->
     (forall i, 0 <= i < n / bits t ->
        (exists j, 0 <= j < 2 * n / bits t /\ elt t x i = elt t a j /\ elt t y i = elt t b j)) ->
     exists r, f x y z = Some r /\ in_reg n r /\ forall i, 0 <= i < n / bits t -> P (elt t x i) (elt t y i) (elt t z i) (elt t r i)) ->
  exists r, split3o (2 * n) f a b c = Some r /\ in_reg (2 * n) r /\
    forall i, 0 <= i < 2 * n / bits t -> P (elt t a i) (elt t b i) (elt t c i) (elt t r i).
Proof.
  intros H O Ha Hb Hc Hf. pose proof O as (Hw & Hn & En). destruct (okw_double n (bits t) O) as [_ E2].
  assert (HL : 0 <= n / bits t) by (apply Z.div_pos; lia).
  assert (LO : forall x i, 0 <= i < n / bits t -> elt t (mm_lo (2 * n) x) i = elt t x i).
  { intros. rewrite !elt_lane, lane_lo by assumption. reflexivity. }
  assert (HI : forall x i, 0 <= i < n / bits t -> elt t (mm_hi (2 * n) x) i = elt t x (n / bits t + i)).
  { intros. rewrite !elt_lane, lane_hi by (assumption || lia). reflexivity. }
  destruct (Hf _ _ _ (in_reg_lo n a Hn) (in_reg_lo n b Hn) (in_reg_lo n c Hn)) as (r0 & E0 & R0 & L0).
  { intros i Hi. exists i. rewrite !LO by assumption. repeat split; lia. }
  destruct (Hf _ _ _ (in_reg_hi n a Hn Ha) (in_reg_hi n b Hn Hb) (in_reg_hi n c Hn Hc)) as (r1 & E1 & R1 & L1).
  { intros i Hi. exists (n / bits t + i). rewrite !HI by assumption. repeat split; lia. }
  unfold split3o. rewrite E0, E1. cbn [bind]. eexists. split; [reflexivity|].
  split; [apply in_reg_setr; assumption|]. intros i Hi.
  assert (X : elt t (mm_setr (2 * n) r0 r1) i = if i <? n / bits t then elt t r0 i else elt t r1 (i - n / bits t)).
  { rewrite !elt_lane, lane_setr by (assumption || lia). destruct (i <? n / bits t); reflexivity. }
  rewrite X. destruct (Z.ltb_spec i (n / bits t)).
  - specialize (L0 i ltac:(lia)). rewrite !LO in L0 by lia. exact L0.
  - specialize (L1 (i - n / bits t) ltac:(lia)). rewrite !HI in L1 by lia.
    replace (n / bits t + (i - n / bits t)) with i in L1 by lia. exact L1.
Qed.

Lemma x_fma_ok neg sub e t undef a b c : In t int_types -> in_reg (nb e) undef ->
  in_reg (nb e) a -> in_reg (nb e) b -> in_reg (nb e) c ->
  (mul_emulated (fma_ext e) t = true -> forall i, 0 <= i < nb e / bits t ->
     s_mul t (fma_factor t neg (elt t a i)) (elt t b i) <> None) ->
  exists r, x_fma_fms neg sub e t undef a b c = Some r /\
    vector e t r (fun i v => wraps_to t (fma_value neg sub (elt t a i) (elt t b i) (elt t c i)) v).
Proof.
  intros H Hu Ha Hb Hc Hd.
  destruct e; try (apply fma_emulate_ok; assumption); unfold x_fma_fms, vector; cbn [nb fma_ext] in *.
  - apply (split3_ok 128 t _ (fun x y z v => wraps_to t (fma_value neg sub x y z) v)); try assumption; [ty_cases H; okw|].
    intros x y z Hx Hy Hz HE.
    apply (fma_emulate_ok neg sub Sse42 t (undef mod 2 ^ 128) x y z); try assumption.
    + apply Z.mod_pos_bound. reflexivity.
    + intros He i Hi. destruct (HE i Hi) as (j & Hj & -> & ->). apply Hd; assumption.
  - apply (split3_ok 256 t _ (fun x y z v => wraps_to t (fma_value neg sub x y z) v)); try assumption; [ty_cases H; okw|].
    intros x y z Hx Hy Hz HE.
    apply (fma_emulate_ok neg sub Avx2 t (undef mod 2 ^ 256) x y z); try assumption.
    + apply Z.mod_pos_bound. reflexivity.
    + intros He i Hi. destruct (HE i Hi) as (j & Hj & -> & ->). apply Hd; assumption.
Qed.

Lemma split3_none n e t neg sub undef a b c i : In t int_types -> nb e = n ->
  in_reg (2 * n) a -> in_reg (2 * n) b -> mul_emulated e t = true -> 0 <= i < 2 * n / bits t ->
  s_mul t (fma_factor t neg (elt t a i)) (elt t b i) = None ->
  split3o (2 * n) (fma_emulate neg sub e t undef) a b c = None.
Proof.
  intros H En Ha Hb He Hi Hn. pose proof (okw_nb e t H) as O. rewrite En in O. pose proof O as (Hw & Hnn & E).
  destruct (okw_double n (bits t) O) as [_ E2].
  unfold split3o. destruct (Z.lt_ge_cases i (n / bits t)).
  - rewrite (fma_emulate_none neg sub e t undef _ _ _ i); try assumption; try reflexivity; rewrite ?En; try apply in_reg_lo; try assumption; [lia|].
    rewrite !elt_lane, !lane_lo by (assumption || lia). exact Hn.
  - destruct (fma_emulate neg sub e t undef (mm_lo (2 * n) a) (mm_lo (2 * n) b) (mm_lo (2 * n) c)) as [r|]; [|reflexivity]. cbn [bind].
    rewrite (fma_emulate_none neg sub e t undef _ _ _ (i - n / bits t)); try assumption; try reflexivity; rewrite ?En;
      try (apply in_reg_hi; assumption); [lia|].
    rewrite !elt_lane, !lane_hi by (assumption || lia).
    replace (n / bits t + (i - n / bits t)) with i by lia. exact Hn.
Qed.
Lemma x_fma_none neg sub e t undef a b c i : In t int_types -> in_reg (nb e) a -> in_reg (nb e) b ->
  mul_emulated (fma_ext e) t = true -> 0 <= i < nb e / bits t ->
  s_mul t (fma_factor t neg (elt t a i)) (elt t b i) = None -> x_fma_fms neg sub e t undef a b c = None.
Proof.
  intros H Ha Hb He Hi Hn.
  destruct e; try (apply (fma_emulate_none neg sub _ t undef a b c i); assumption); unfold x_fma_fms; cbn [nb fma_ext] in *.
  - apply (split3_none 128 Sse42 t neg sub _ a b c i); try assumption. reflexivity.
  - apply (split3_none 256 Avx2 t neg sub _ a b c i); try assumption. reflexivity.
Qed.
