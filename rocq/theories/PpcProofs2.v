(** Undefined cases, fma family, bitwise operators and shifts of the POWER back ends. *)
From Coq Require Import ZArith Lia List Bool ZifyBool.
From Verif Require Import CInt BitLemmas ScalarOps ScalarSpec ScalarProofs CpuSimd X86Deg234 X86Arith
  X86ArithSpec X86LaneLemmas X86ArithProofs X86EmulProofs X86LogicProofs X86SelectProofs X86RedProofs X86FmaProofs
  Arm ArmSpec ArmProofs ArmProofs2 ArmProofs3 Ppc PpcSpec PpcProofs.
Import ListNotations.
Open Scope Z_scope.

Lemma i64_in : In i64 int_types.
Proof. cbn; tauto. Qed.

Lemma p_add_none a b i : 0 <= i < 2 -> ~ in_ty i64 (elt i64 a i + elt i64 b i) -> p_add Vmx i64 a b = None.
Proof. intros Hi N. apply (emu64_none _ i Hi). exact (c64_none _ N). Qed.
Lemma p_sub_none a b i : 0 <= i < 2 -> ~ in_ty i64 (elt i64 a i - elt i64 b i) -> p_sub Vmx i64 a b = None.
Proof. intros Hi N. apply (emu64_none _ i Hi). exact (c64_none _ N). Qed.
Lemma p_mul_none a b i : 0 <= i < 2 -> ~ in_ty i64 (elt i64 a i * elt i64 b i) -> p_mul Vmx i64 a b = None.
Proof. intros Hi N. apply (emu64_none _ i Hi). exact (c64_none _ N). Qed.
Lemma p_neg_none a i : 0 <= i < 2 -> elt i64 a i = - 2 ^ 63 -> p_neg Vmx i64 a = None.
Proof. intros Hi N. apply (emu64_none _ i Hi). change (cast i64 (lane 64 i a)) with (elt i64 a i). rewrite N. reflexivity. Qed.
Lemma p_abs_none a i : 0 <= i < 2 -> elt i64 a i = - 2 ^ 63 -> p_abs Vmx i64 a = None.
Proof. intros Hi N. apply (emu64_none _ i Hi). change (cast i64 (lane 64 i a)) with (elt i64 a i). rewrite N. reflexivity. Qed.
Lemma p_subs_none e a b i : 0 <= i < 2 -> elt i64 b i = - 2 ^ 63 -> p_subs e i64 a b = None.
Proof.
  intros Hi N. assert (s_subs i64 (elt i64 a i) (elt i64 b i) = None) as E.
  { rewrite N. change (- 2 ^ 63) with (ty_min i64). rewrite s_subs_min; [reflexivity|exact i64_in|reflexivity|apply elt_range; exact i64_in]. }
  destruct e.
  - apply (emu64_none _ i Hi). exact E.
  - exact (splat_insert_none i64 (fun i => s_subs i64 (vec_extract i64 a i) (vec_extract i64 b i)) i i64_in Hi E).
Qed.

(** *** fma family *)
Definition s_gen (neg sub : bool) : ity -> Z -> Z -> Z -> option Z :=
  if sub then (if neg then s_fnms else s_fms) else (if neg then s_fnma else s_fma).
Lemma s_gen_value neg sub t x y z r : In t int_types -> s_gen neg sub t x y z = Some r -> wraps_to t (p_fma_value neg sub x y z) r.
Proof.
  intros H. destruct neg, sub; unfold s_gen, p_fma_value; intros E; rewrite ?Z.add_opp_r.
  - apply s_fnms_value; assumption.
  - apply s_fnma_value; assumption.
  - apply s_fms_value; assumption.
  - apply s_fma_value; assumption.
Qed.
Lemma s_gen_some neg sub t x y z : In t int_types -> bits t = 64 -> (t = i64 -> Forall (in_ty i64) (p_fma_steps neg sub x y z)) ->
  exists r, s_gen neg sub t x y z = Some r.
Proof.
  intros H B D. pose proof (wide64 t H B) as W. destruct (is_signed t) eqn:S.
  - specialize (D (signed64 t H B S)). rewrite <- (signed64 t H B S) in D. unfold p_fma_steps in D.
    inversion D as [|? ? D1 D']; subst. inversion D' as [|? ? D2 D'']; subst. inversion D'' as [|? ? D3 _]; subst.
    destruct neg, sub; unfold s_gen, s_fma, s_fms, s_fnma, s_fnms, casted;
      rewrite ?(carith_fits' t _ H W D1); cbn [bind]; rewrite (carith_fits' t _ H W D2); cbn [bind]; rewrite (carith_fits' t _ H W D3);
      eexists; reflexivity.
  - assert (forall z, exists v, carith (promote t) z = Some v) as C.
    { intros w. apply (carith_some t w H W). congruence. }
    destruct neg, sub; unfold s_gen, s_fma, s_fms, s_fnma, s_fnms, casted.
    1, 2: destruct (C (- x)) as (n & ->); cbn [bind]; destruct (C (n * y)) as (p & ->).
    3, 4: destruct (C (x * y)) as (p & ->).
    all: cbn [bind].
    + destruct (C (p - z)) as (v & ->); eexists; reflexivity.
    + destruct (C (p + z)) as (v & ->); eexists; reflexivity.
    + destruct (C (p - z)) as (v & ->); eexists; reflexivity.
    + destruct (C (p + z)) as (v & ->); eexists; reflexivity.
Qed.
Lemma carith_i64_none z : ~ in_ty i64 z -> carith (promote i64) z = None.
Proof. intros N. apply carith_none; [cbn; tauto|reflexivity|reflexivity|exact N]. Qed.
Lemma s_gen_none neg sub x y z : in_ty i64 x -> ~ Forall (in_ty i64) (p_fma_steps neg sub x y z) -> s_gen neg sub i64 x y z = None.
Proof.
  intros Ix N.
  assert (forall w, in_ty i64 w -> carith (promote i64) w = Some w) as F by (intros w; exact (carith_fits' i64 w i64_in eq_refl)).
  set (x' := if neg then - x else x) in *.
  assert (s_gen neg sub i64 x y z = casted i64 (bind (carith (promote i64) x') (fun n => bind (carith (promote i64) (n * y))
            (fun p => carith (promote i64) (if sub then p - z else p + z))))) as ->.
  { unfold x'. destruct neg, sub; unfold s_gen, s_fma, s_fms, s_fnma, s_fnms; rewrite ?(F x Ix); reflexivity. }
  unfold casted. destruct (in_ty_dec i64 x') as [I1|I1]; [rewrite (F _ I1)|rewrite (carith_i64_none _ I1); reflexivity].
  cbn [bind]. destruct (in_ty_dec i64 (x' * y)) as [I2|I2]; [rewrite (F _ I2)|rewrite (carith_i64_none _ I2); reflexivity].
  cbn [bind]. rewrite carith_i64_none; [reflexivity|]. intros I3. apply N. unfold p_fma_steps. fold x'.
  constructor; [exact I1|]. constructor; [exact I2|]. constructor; [destruct sub; exact I3|constructor].
Qed.
Lemma p_fma_emu neg sub e t a b c : emulated64 e t = true -> p_fma_family neg sub e t a b c = emu64_3 t (s_gen neg sub t) a b c.
Proof. intros E. destruct neg, sub; unfold p_fma_family, p_fma, p_fms, p_fnma, p_fnms, s_gen; rewrite E; reflexivity. Qed.
Lemma mul_lane t a b i : In t int_types -> 0 <= i < 128 / bits t ->
  cast t (lane (bits t) i (vec_mul (bits t) a b)) = cast t (elt t a i * elt t b i).
Proof.
  intros H Hi. unfold vec_mul, vec_2, lanewise2. rewrite lane_buildn by (exact (pok t H) || exact Hi).
  rewrite cast_mod_pow by exact H. rewrite cast_mul by exact H. reflexivity.
Qed.
Lemma wraps_eq t V X : In t int_types -> cast t X = cast t V -> wraps_to t V (cast t X).
Proof. intros H ->. apply cast_wraps. exact H. Qed.
Lemma cast_idem t x : In t int_types -> cast t (cast t x) = cast t x.
Proof. intros H. apply cast_id; [exact H|apply cast_in_ty; exact H]. Qed.
Lemma p_fma_ok neg sub e t a b c : In t int_types -> in_reg 128 c ->
  (e = Vmx -> t = i64 -> forall i, 0 <= i < 2 -> Forall (in_ty i64) (p_fma_steps neg sub (elt t a i) (elt t b i) (elt t c i))) ->
  exists r, p_fma_family neg sub e t a b c = Some r /\
    pvector t r (fun i v => wraps_to t (p_fma_value neg sub (elt t a i) (elt t b i) (elt t c i)) v).
Proof.
  intros H Hc D. destruct (emulated64 e t) eqn:E.
  - rewrite p_fma_emu by exact E. destruct (emulated_inv e t E) as [Ev B]. apply emu64_ok; [assumption..|]. intros i Hi.
    rewrite !elt64 by exact B. destruct (s_gen_some neg sub t (elt t a i) (elt t b i) (elt t c i) H B) as (r & Er); [auto|].
    exists r. split; [exact Er|]. pose proof (s_gen_value neg sub t _ _ _ r H Er) as W. rewrite cast_s by (assumption || apply W). exact W.
  - destruct neg, sub; unfold p_fma_family, p_fma, p_fms, p_fnma, p_fnms; rewrite E.
    + unfold p_neg. rewrite E. pose proof (vec_neg_pv t H c Hc) as V.
      assert (exists c', (if is_signed t then Some (vec_neg (bits t) c) else Some (vec_sub (bits t) (vec_splats (bits t) 0) c)) = Some c' /\
                pvector t c' (fun i v => wraps_to t (- elt t c i) v)) as (c' & -> & V').
      { destruct (is_signed t); eexists; (split; [reflexivity|exact V]). }
      cbn [bind]. eexists. split; [reflexivity|]. apply vec_2_pv; [exact H|]. intros i Hi. apply wraps_eq; [exact H|].
      rewrite cast_sub, mul_lane by assumption. rewrite <- elt_lane. destruct V' as [_ V']. specialize (V' i Hi).
      rewrite (wraps_cast t _ _ H V'). rewrite <- cast_sub by exact H. f_equal. unfold p_fma_value. ring.
    + eexists. split; [reflexivity|]. apply vec_2_pv; [exact H|]. intros i Hi. apply wraps_eq; [exact H|].
      rewrite cast_sub, mul_lane by assumption. rewrite <- (cast_idem t (lane _ _ c)) by exact H. rewrite <- cast_sub by exact H.
      rewrite <- elt_lane. f_equal. unfold p_fma_value. ring.
    + eexists. split; [reflexivity|]. apply vec_2_pv; [exact H|]. intros i Hi. apply wraps_eq; [exact H|].
      rewrite cast_sub, mul_lane by assumption. rewrite <- (cast_idem t (lane _ _ c)) by exact H. rewrite <- cast_sub by exact H.
      rewrite <- elt_lane. f_equal.
    + eexists. split; [reflexivity|]. apply vec_2_pv; [exact H|]. intros i Hi. apply wraps_eq; [exact H|].
      rewrite cast_add, mul_lane by assumption. rewrite <- (cast_idem t (lane _ _ c)) by exact H. rewrite <- cast_add by exact H.
      rewrite <- elt_lane. f_equal.
Qed.
Lemma p_fma_none neg sub a b c i : 0 <= i < 2 -> ~ Forall (in_ty i64) (p_fma_steps neg sub (elt i64 a i) (elt i64 b i) (elt i64 c i)) ->
  p_fma_family neg sub Vmx i64 a b c = None.
Proof.
  intros Hi N. rewrite p_fma_emu by reflexivity. apply (emu64_none _ i Hi). apply s_gen_none; [apply (elt_range i64 a i i64_in)|exact N].
Qed.

(** *** Bitwise operators *)
Lemma pair64_bit f k : 0 <= k < 128 -> Z.testbit (pair64 (f 0) (f 1)) k = Z.testbit (f (k / 64)) (k mod 64).
Proof.
  intros Hk. unfold pair64. change 2%nat with (nlanes 128 64). rewrite (testbit_buildn 128 64) by (exact ok64 || exact Hk).
  assert (k / 64 = 0 \/ k / 64 = 1) as [E|E] by (pose proof (Z.div_pos k 64); pose proof (Z.div_lt_upper_bound k 64 2); lia); rewrite E; reflexivity.
Qed.
Lemma cast_bit t z k : In t int_types -> 0 <= k < bits t -> Z.testbit (cast t z) k = Z.testbit z k.
Proof.
  intros H Hk. rewrite <- (Z.mod_pow2_bits_low (cast t z) (bits t)), <- (Z.mod_pow2_bits_low z (bits t)) by lia.
  f_equal. apply cast_mod. exact H.
Qed.
Lemma emu_bit t f g a b k : In t int_types -> bits t = 64 -> 0 <= k < 128 ->
  (forall x y i, 0 <= i -> Z.testbit (f x y) i = g (Z.testbit x i) (Z.testbit y i)) ->
  exists r, emu64_2 t (fun x y => Some (s_opbit t f x y)) a b = Some r /\ in_reg 128 r /\ 
    Z.testbit r k = g (Z.testbit a k) (Z.testbit b k).
Proof.
  intros H B Hk F. eexists. split; [reflexivity|]. split; [apply in_reg_pair64|].
  rewrite (pair64_bit (fun i => s_opbit t f (cast t (lane 64 i a)) (cast t (lane 64 i b)))) by exact Hk. cbn beta.
  destruct (lane_bit 128 64 a k ok64 Hk) as (L & M & Ea). destruct (lane_bit 128 64 b k ok64 Hk) as (_ & _ & Eb).
  rewrite (proj2 (s_opbit_ok t f g _ _ H F)) by (rewrite B; exact M). rewrite !cast_bit by (exact H || rewrite B; exact M).
  rewrite Ea, Eb. reflexivity.
Qed.
Lemma p_bit2_ok s f v g e t a b k : In t int_types -> in_reg 128 a -> in_reg 128 b -> 0 <= k < 128 ->
  s t = s_opbit t f ->
  (forall x y i, 0 <= i -> Z.testbit (f x y) i = g (Z.testbit x i) (Z.testbit y i)) ->
  in_reg 128 (v a b) -> Z.testbit (v a b) k = g (Z.testbit a k) (Z.testbit b k) ->
  exists r, p_bit2 s v e t a b = Some r /\ in_reg 128 r /\ Z.testbit r k = g (Z.testbit a k) (Z.testbit b k).
Proof.
  intros H Ha Hb Hk Es F Rv Bv. unfold p_bit2. destruct (emulated64 e t) eqn:E.
  - rewrite Es. apply emu_bit; [exact H|apply (emulated_inv e t E)|exact Hk|exact F].
  - exists (v a b). auto.
Qed.
Lemma in_reg_andc a b : in_reg 128 a -> in_reg 128 b -> in_reg 128 (vec_andc a b).
Proof. intros Ha Hb. unfold vec_andc. rewrite Z.land_comm. apply in_reg_andnot; (lia || assumption). Qed.
Lemma in_reg_nor a b : in_reg 128 (vec_nor a b).
Proof. unfold vec_nor, in_reg. apply Z.mod_pos_bound. lia. Qed.
Lemma nor_bit a b k : 0 <= k < 128 -> Z.testbit (vec_nor a b) k = negb (Z.testbit a k || Z.testbit b k).
Proof. intros Hk. unfold vec_nor. rewrite Z.mod_pow2_bits_low, Z.lnot_spec, Z.lor_spec by lia. reflexivity. Qed.
Lemma p_bits_ok e t a b k : In t int_types -> in_reg 128 a -> in_reg 128 b -> 0 <= k < 128 ->
  (exists r, p_andb e t a b = Some r /\ in_reg 128 r /\ Z.testbit r k = Z.testbit a k && Z.testbit b k) /\
  (exists r, p_orb e t a b = Some r /\ in_reg 128 r /\ Z.testbit r k = Z.testbit a k || Z.testbit b k) /\
  (exists r, p_xorb e t a b = Some r /\ in_reg 128 r /\ Z.testbit r k = xorb (Z.testbit a k) (Z.testbit b k)) /\
  (exists r, p_andnotb e t a b = Some r /\ in_reg 128 r /\ Z.testbit r k = Z.testbit a k && negb (Z.testbit b k)) /\
  (exists r, p_notb e t a = Some r /\ in_reg 128 r /\ Z.testbit r k = negb (Z.testbit a k)).
Proof.
  intros H Ha Hb Hk.
  split; [|split; [|split; [|split]]].
  - apply (p_bit2_ok s_andb Z.land vec_and andb); try assumption; try reflexivity; intros; try apply Z.land_spec. apply in_reg_land; (lia || assumption).
  - apply (p_bit2_ok s_orb Z.lor vec_or orb); try assumption; try reflexivity; intros; try apply Z.lor_spec. apply in_reg_lor; (lia || assumption).
  - apply (p_bit2_ok s_xorb Z.lxor vec_xor xorb); try assumption; try reflexivity; intros; try apply Z.lxor_spec. apply in_reg_lxor; (lia || assumption).
  - apply (p_bit2_ok s_andnotb (fun a b => Z.land a (Z.lnot b)) vec_andc (fun x y => x && negb y)); try assumption; try reflexivity.
    + intros x y i Hi. rewrite Z.land_spec, Z.lnot_spec by exact Hi. reflexivity.
    + apply in_reg_andc; assumption.
    + unfold vec_andc. rewrite Z.land_spec, Z.lnot_spec by lia. reflexivity.
  - unfold p_notb. destruct (emulated64 e t) eqn:E.
    + destruct (emu_bit t (fun x _ => Z.lnot x) (fun x _ => negb x) a 0 k H (proj2 (emulated_inv e t E)) Hk) as (r & Er & Rr & Br).
      * intros x y i Hi. apply Z.lnot_spec. exact Hi.
      * exists r. split; [|auto]. rewrite <- Er. unfold emu64_1, emu64_2, s_notb. unfold emu64. cbn [bind]. f_equal.
    + eexists. split; [reflexivity|]. split; [apply in_reg_nor|]. rewrite nor_bit by exact Hk. destruct (Z.testbit a k); reflexivity.
Qed.

(** *** Shifts *)
Lemma count_lane_p t c i : In t int_types -> 0 <= c < bits t -> 0 <= i < 128 / bits t ->
  lane (bits t) i (vec_splats (bits t) (to_u (bits t) c)) mod bits t = c.
Proof.
  intros H Hc Hi. rewrite lane_splats by (exact (pok t H) || exact Hi). unfold to_u.
  assert (bits t < 2 ^ bits t) by (ty_cases H; cbn; lia). rewrite Z.mod_mod by lia. rewrite (Z.mod_small c (2 ^ bits t)) by lia.
  apply Z.mod_small. exact Hc.
Qed.
Lemma shift_emu t f a (P : Z -> Z -> Prop) : In t int_types -> bits t = 64 ->
  (forall i, 0 <= i < 128 / bits t -> exists r, f (elt t a i) = Some r /\ in_ty t r /\ P i r) ->
  exists r, emu64_1 t f a = Some r /\ pvector t r P.
Proof.
  intros H B D. apply emu64_ok; [assumption..|]. intros i Hi. rewrite elt64 by exact B.
  destruct (D i) as (r & Er & Ir & Pr); [rewrite B; exact Hi|]. exists r. split; [exact Er|]. rewrite cast_s by assumption. exact Pr.
Qed.
Lemma p_shl_ok e t a c : In t int_types -> 0 <= c < bits t ->
  exists r, p_shl e t a c = Some r /\ pvector t r (fun i v => wraps_to t (elt t a i * 2 ^ c) v).
Proof.
  intros H Hc. unfold p_shl. destruct (emulated64 e t) eqn:E.
  - apply shift_emu; [exact H|apply (emulated_inv e t E)|]. intros i Hi.
    destruct (s_shl_ok t (elt t a i) c H Hc) as (r & Er & W). exists r. split; [exact Er|]. split; [apply W|exact W].
  - eexists. split; [reflexivity|]. apply vec_2_pv; [exact H|]. intros i Hi. rewrite count_lane_p by assumption. apply wraps_eq; [exact H|].
    rewrite cast_mul by exact H. symmetry. rewrite cast_mul, elt_lane, cast_idem by exact H. reflexivity.
Qed.
Lemma p_shr_ok e t a c : In t int_types -> 0 <= c < bits t ->
  exists r, p_shr e t a c = Some r /\ pvector t r (fun i v => wraps_to t ((elt t a i mod 2 ^ bits t) / 2 ^ c) v).
Proof.
  intros H Hc. unfold p_shr. destruct (emulated64 e t) eqn:E.
  - apply shift_emu; [exact H|apply (emulated_inv e t E)|]. intros i Hi.
    destruct (s_shr_ok t (elt t a i) c H (elt_range t a i H) Hc) as (r & Er & W). exists r. split; [exact Er|]. split; [apply W|exact W].
  - eexists. split; [reflexivity|]. apply vec_2_pv; [exact H|]. intros i Hi. rewrite count_lane_p by assumption. apply wraps_eq; [exact H|].
    rewrite elt_lane, cast_mod by exact H. rewrite (Z.mod_small (lane _ _ _)); [reflexivity|]. apply lane_range. pose proof (bits_pos t H); lia.
Qed.
Lemma sra_lane t a c i : In t int_types -> 0 <= c < bits t -> 0 <= i < 128 / bits t ->
  elt t (vec_sra (bits t) a (vec_splats (bits t) (to_u (bits t) c))) i = cast t (to_s (bits t) (lane (bits t) i a) / 2 ^ c).
Proof.
  intros H Hc Hi. unfold vec_sra, vec_2, lanewise2. rewrite elt_lane, lane_buildn by (exact (pok t H) || exact Hi).
  rewrite cast_mod_pow by exact H. rewrite count_lane_p by assumption. reflexivity.
Qed.
Lemma in_ty_div t x c : In t int_types -> 0 <= c -> in_ty t x -> in_ty t (x / 2 ^ c).
Proof.
  intros H Hc [A B]. pose proof (pow2_pos c Hc). pose proof (min_le_max t H). 
  assert (ty_min t <= 0 <= ty_max t) by (ty_cases H; cbn; lia).
  split; [apply Z.div_le_lower_bound; nia|]. destruct (Z_le_gt_dec 0 x).
  - apply Z.le_trans with x; [|lia]. apply Z.div_le_upper_bound; nia.
  - apply Z.le_trans with 0; [|lia]. apply Z.lt_le_incl. apply Z.div_lt_upper_bound; nia.
Qed.
Lemma p_shra_ok e t a c : In t int_types -> 0 <= c < bits t -> is_signed t = true \/ (e = Vmx /\ t = u64) ->
  exists r, p_shra e t a c = Some r /\ pvector t r (fun i v => v = elt t a i / 2 ^ c).
Proof.
  intros H Hc D. unfold p_shra. destruct (emulated64 e t) eqn:E.
  - apply shift_emu; [exact H|apply (emulated_inv e t E)|]. intros i Hi.
    eexists. split; [apply s_shra_ok; [exact H|apply elt_range; exact H|exact Hc]|]. split; [|reflexivity].
    apply in_ty_div; [exact H|lia|apply elt_range; exact H].
  - destruct D as [S|[-> ->]]; [|discriminate]. eexists. split; [reflexivity|].
    split; [exact (in_reg_build 128 (bits t) _ (pok t H))|]. intros i Hi. rewrite sra_lane by assumption.
    replace (to_s (bits t) (lane (bits t) i a)) with (elt t a i) by (rewrite elt_lane; unfold cast; rewrite S; reflexivity).
    apply cast_s; [exact H|]. apply in_ty_div; [exact H|lia|apply elt_range; exact H].
Qed.
Lemma sra_unsigned w c x : 0 < w -> 0 <= c < w -> 0 <= x < 2 ^ w -> 
  to_u w (to_s w x / 2 ^ c) = if x <? 2 ^ (w - 1) then x / 2 ^ c else x / 2 ^ c + (2 ^ w - 2 ^ (w - c)).
Proof.
  intros Hw Hc Hx. unfold to_s, to_u. rewrite (Z.mod_small x) by exact Hx. pose proof (pow2_pos c ltac:(lia)).
  assert (2 ^ w = 2 ^ (w - c) * 2 ^ c) as E by (rewrite <- Z.pow_add_r by lia; f_equal; lia).
  assert (0 < 2 ^ (w - c)) by (apply pow2_pos; lia).
  destruct (x <? 2 ^ (w - 1)) eqn:L.
  - apply Z.mod_small. split; [apply Z.div_pos; lia|]. apply Z.le_lt_trans with x; [|lia]. apply Z.div_le_upper_bound; nia.
  - replace (x - 2 ^ w) with (x + (- 2 ^ (w - c)) * 2 ^ c) by lia. rewrite Z.div_add by lia.
    assert (0 <= x / 2 ^ c < 2 ^ (w - c)) by (split; [apply Z.div_pos; lia|apply Z.div_lt_upper_bound; lia]).
    assert (2 ^ (w - c) <= 2 ^ w) by (apply Z.pow_le_mono_r; lia).
    symmetry. apply Z.mod_unique with (-1); lia.
Qed.
Lemma p_shra_unsigned e t a c : In t int_types -> 0 <= c < bits t -> is_signed t = false -> ~ (e = Vmx /\ t = u64) ->
  exists r, p_shra e t a c = Some r /\
    pvector t r (fun i v => v = if elt t a i <? 2 ^ (bits t - 1) then elt t a i / 2 ^ c
                                else elt t a i / 2 ^ c + (2 ^ bits t - 2 ^ (bits t - c))).
Proof.
  intros H Hc S N. unfold p_shra.
  assert (emulated64 e t = false) as ->.
  { destruct (emulated64 e t) eqn:E; [|reflexivity]. destruct (emulated_inv e t E) as [-> B]. exfalso. apply N. split; [reflexivity|].
    clear N. ty_cases H; cbn in *; (discriminate || reflexivity). }
  eexists. split; [reflexivity|]. split; [exact (in_reg_build 128 (bits t) _ (pok t H))|]. intros i Hi. rewrite sra_lane by assumption.
  pose proof (bits_pos t H) as Bp. pose proof (lane_range (bits t) i a ltac:(lia)) as L.
  assert (forall z, cast t z = to_u (bits t) z) as Ct by (intros z; unfold cast; rewrite S; reflexivity).
  assert (elt t a i = lane (bits t) i a) as -> by (rewrite elt_lane, Ct; unfold to_u; apply Z.mod_small; exact L).
  rewrite Ct. apply sra_unsigned; (lia || assumption).
Qed.
Lemma p_set1_ok e t x : In t int_types -> pvector t (p_set1 e t x) (fun _ v => v = cast t x).
Proof.
  intros H. unfold p_set1. destruct (emulated64 e t) eqn:E.
  - destruct (emulated_inv e t E) as [_ B]. split; [apply in_reg_pair64|]. rewrite B. change (128 / 64) with 2. intros i Hi.
    rewrite elt_lane, B, lane_pair64 by exact Hi. rewrite <- B, cast_mod_pow by exact H. destruct (i =? 0); reflexivity.
  - split; [apply in_reg_splats; exact (pok t H)|]. intros i Hi. rewrite elt_lane, lane_splats by (exact Hi || exact (pok t H)).
    apply cast_mod_pow. exact H.
Qed.
