(** C49: every integer operator of the x86 extensions computes, in every lane, the value of the
    corresponding scalar operation, whatever instruction sequence the extension needs. *)
From Coq Require Import ZArith Lia List Bool ZifyBool.
From Verif Require Import CInt BitLemmas ScalarOps ScalarSpec ScalarProofs X86Deg234 X86Arith X86ArithSpec
  X86LaneLemmas X86ArithProofs X86EmulProofs X86LogicProofs X86SelectProofs X86RedProofs X86FmaProofs.
Import ListNotations.
Open Scope Z_scope.

(** a vector with the given elements, and its elements, for the examples *)
Definition vec (t : ity) (l : list Z) : Z := fold_right (fun x r => x mod 2 ^ bits t + r * 2 ^ bits t) 0 l.
Definition elts (e : ext) (t : ity) (r : Z) : list Z :=
  map (fun i => elt t r (Z.of_nat i)) (seq 0 (Z.to_nat (nb e / bits t))).

(** *** Addition, subtraction, opposite: exact modulo 2^bits *)
Theorem C49_add e t a b : In t int_types -> in_reg (nb e) a -> in_reg (nb e) b ->
  vector e t (x_add e t a b) (fun i v => wraps_to t (elt t a i + elt t b i) v).
Proof.
  intros H Ha Hb. apply (lw2_vector e t _ _ a b _ H (x_add_lw e t H) Ha Hb). intros i.
  rewrite cast_mod_pow by assumption. rewrite !elt_lane.
  rewrite (cast_congr t _ (cast t (lane (bits t) i a) + cast t (lane (bits t) i b)) (eq_sym (add_cast t _ _ H))).
  apply cast_wraps. assumption.
Qed.
Theorem C49_sub e t a b : In t int_types -> in_reg (nb e) a -> in_reg (nb e) b ->
  vector e t (x_sub e t a b) (fun i v => wraps_to t (elt t a i - elt t b i) v).
Proof.
  intros H Ha Hb. apply (lw2_vector e t _ _ a b _ H (x_sub_lw e t H) Ha Hb). intros i.
  rewrite cast_mod_pow by assumption. rewrite !elt_lane.
  rewrite (cast_congr t _ (cast t (lane (bits t) i a) - cast t (lane (bits t) i b)) (eq_sym (sub_cast t _ _ H))).
  apply cast_wraps. assumption.
Qed.
Theorem C49_neg e t a : In t int_types -> in_reg (nb e) a ->
  vector e t (x_neg e t a) (fun i v => wraps_to t (- elt t a i) v).
Proof.
  intros H Ha. destruct (fma_factor_reg e t true a H Ha) as [R L]. split; [exact R|]. intros i Hi.
  rewrite L by assumption. apply cast_wraps. assumption.
Qed.
Example C49_add_ex : elts Sse2 i8 (x_add Sse2 i8 (vec i8 [127; -128; 3; 4]) (vec i8 [1; -1; 5; -6]))
  = [-128; 127; 8; -2; 0; 0; 0; 0; 0; 0; 0; 0; 0; 0; 0; 0].
Proof. vm_compute. reflexivity. Qed.

(** *** Multiplication: exact modulo 2^bits when defined; undefined exactly when nsimd computes a
    signed product with the scalar operator and some product overflows *)
Theorem C49_mul e t undef a b : In t int_types -> in_reg (nb e) undef -> in_reg (nb e) a -> in_reg (nb e) b ->
  (mul_emulated e t = true -> is_signed t = true -> forall i, 0 <= i < nb e / bits t -> in_ty t (elt t a i * elt t b i)) ->
  exists r, x_mul e t undef a b = Some r /\ vector e t r (fun i v => wraps_to t (elt t a i * elt t b i) v).
Proof.
  intros H Hu Ha Hb Hd. apply x_mul_ok; try assumption. intros He i Hi C.
  apply s_mul_defined in C; [|assumption|apply (mul_emulated_wide e); assumption]. destruct C as [Sg N].
  apply N. apply Hd; assumption.
Qed.
Theorem C49_mul_undefined e t undef a b : In t int_types -> in_reg (nb e) undef -> in_reg (nb e) a -> in_reg (nb e) b ->
  x_mul e t undef a b = None <->
  (mul_emulated e t = true /\ is_signed t = true /\ exists i, 0 <= i < nb e / bits t /\ ~ in_ty t (elt t a i * elt t b i)).
Proof.
  intros H Hu Ha Hb. split.
  - intros N. destruct (mul_emulated e t) eqn:He.
    2:{ destruct (C49_mul e t undef a b H Hu Ha Hb) as (r & E & _); [congruence|congruence]. }
    split; [reflexivity|]. destruct (is_signed t) eqn:Sg.
    2:{ destruct (C49_mul e t undef a b H Hu Ha Hb) as (r & E & _); [congruence|congruence]. }
    split; [reflexivity|].
    assert (D : forall k : nat, Z.of_nat k <= nb e / bits t ->
      (exists i, 0 <= i < Z.of_nat k /\ ~ in_ty t (elt t a i * elt t b i)) \/
      (forall i, 0 <= i < Z.of_nat k -> in_ty t (elt t a i * elt t b i))).
    { induction k as [|k IH]; intros Hk; [right; lia|]. destruct IH as [(i & Hi & X)|A]; [lia| |].
      - left. exists i. split; [lia|exact X].
      - assert (in_ty t (elt t a (Z.of_nat k) * elt t b (Z.of_nat k)) \/ ~ in_ty t (elt t a (Z.of_nat k) * elt t b (Z.of_nat k)))
          as [Y|Y] by (unfold in_ty; lia).
        + right. intros i Hi. destruct (Z.eq_dec i (Z.of_nat k)) as [->|]; [exact Y|apply A; lia].
        + left. exists (Z.of_nat k). split; [lia|exact Y]. }
    pose proof (le_z e t H) as LZ. destruct (D (Z.to_nat (le e t)) ltac:(lia)) as [X|A].
    + rewrite LZ in X. exact X.
    + destruct (C49_mul e t undef a b H Hu Ha Hb) as (r & E & _); [intros _ _; rewrite <- LZ; exact A|congruence].
  - intros (He & Sg & i & Hi & N). apply (x_mul_none e t undef a b i); try assumption.
    apply s_mul_defined; [assumption|apply (mul_emulated_wide e); assumption|]. split; assumption.
Qed.
Example C49_mul_ex : option_map (elts Sse42 i32) (x_mul Sse42 i32 0 (vec i32 [65536; -3; 7; 0]) (vec i32 [65537; 5; -1; 9]))
  = Some [65536; -15; -7; 0].
Proof. vm_compute. reflexivity. Qed.
Example C49_mul_undefined_ex : x_mul Avx2 i64 0 (vec i64 [2 ^ 32; 1; 1; 1]) (vec i64 [2 ^ 31; 1; 1; 1]) = None.
Proof. vm_compute. reflexivity. Qed.

(** *** Division truncates towards zero; undefined exactly on a zero divisor and on MIN / -1 of the
    32- and 64-bit signed types *)
Theorem C49_div e t undef a b : In t int_types -> in_reg (nb e) undef -> in_reg (nb e) a -> in_reg (nb e) b ->
  (forall i, 0 <= i < nb e / bits t -> ~ bad_div t (elt t a i) (elt t b i)) ->
  exists r, x_div e t undef a b = Some r /\ vector e t r (fun i v => wraps_to t (Z.quot (elt t a i) (elt t b i)) v).
Proof. exact (x_div_ok e t undef a b). Qed.
Theorem C49_div_undefined e t undef a b i : In t int_types -> in_reg (nb e) a -> in_reg (nb e) b ->
  0 <= i < nb e / bits t -> bad_div t (elt t a i) (elt t b i) -> x_div e t undef a b = None.
Proof. exact (x_div_none e t undef a b i). Qed.
Example C49_div_ex : option_map (elts Sse2 i32) (x_div Sse2 i32 0 (vec i32 [7; -7; 7; -7]) (vec i32 [2; 2; -2; -2]))
  = Some [3; -3; -3; 3].
Proof. vm_compute. reflexivity. Qed.

(** *** fma, fms, fnma, fnms: (neg, sub) = (false, false), (false, true), (true, false), (true, true) *)
Theorem C49_fma neg sub e t undef a b c : In t int_types -> in_reg (nb e) undef ->
  in_reg (nb e) a -> in_reg (nb e) b -> in_reg (nb e) c ->
  (mul_emulated (fma_ext e) t = true -> is_signed t = true -> forall i, 0 <= i < nb e / bits t ->
     in_ty t (fma_factor t neg (elt t a i) * elt t b i)) ->
  exists r, x_fma_fms neg sub e t undef a b c = Some r /\
    vector e t r (fun i v => wraps_to t (fma_value neg sub (elt t a i) (elt t b i) (elt t c i)) v).
Proof.
  intros H Hu Ha Hb Hc Hd. apply x_fma_ok; try assumption. intros He i Hi C.
  apply s_mul_defined in C; [|assumption|apply (mul_emulated_wide (fma_ext e)); assumption]. destruct C as [Sg N].
  apply N. apply Hd; assumption.
Qed.
Theorem C49_fma_undefined neg sub e t undef a b c i : In t int_types -> in_reg (nb e) a -> in_reg (nb e) b ->
  mul_emulated (fma_ext e) t = true -> is_signed t = true -> 0 <= i < nb e / bits t ->
  ~ in_ty t (fma_factor t neg (elt t a i) * elt t b i) -> x_fma_fms neg sub e t undef a b c = None.
Proof.
  intros H Ha Hb He Sg Hi N. apply (x_fma_none neg sub e t undef a b c i); try assumption.
  apply s_mul_defined; [assumption|apply (mul_emulated_wide (fma_ext e)); assumption|]. split; assumption.
Qed.
Example C49_fnms_ex : option_map (elts Avx i16) (x_fma_fms true true Avx i16 0 (vec i16 [3; -3; 200]) (vec i16 [5; 5; 200]) (vec i16 [1; -2; 0]))
  = Some [-16; 17; 25536; 0; 0; 0; 0; 0; 0; 0; 0; 0; 0; 0; 0; 0].
Proof. vm_compute. reflexivity. Qed.

(** *** Shifts by 0 .. bits-1 *)
Theorem C49_shl e t a s : In t int_types -> in_reg (nb e) a -> 0 <= s < bits t ->
  vector e t (x_shl e t a s) (fun i v => wraps_to t (elt t a i * 2 ^ s) v).
Proof.
  intros H Ha Hs. pose proof (x_shl_lw e t s H Hs) as L.
  apply (lw1_vector e t (fun a => x_shl e t a s) _ a _ H L Ha). intros i. rewrite cast_mod_pow by assumption.
  rewrite elt_lane. set (x := lane (bits t) i a).
  rewrite (cast_congr t (x * 2 ^ s) (cast t x * 2 ^ s)); [apply cast_wraps; assumption|].
  rewrite Z.mul_mod, <- (cast_mod t x H), <- Z.mul_mod by (apply pow_bits_nz; assumption). reflexivity.
Qed.
Theorem C49_shr e t a s : In t int_types -> in_reg (nb e) a -> 0 <= s < bits t ->
  vector e t (x_shr e t a s) (fun i v => wraps_to t ((elt t a i mod 2 ^ bits t) / 2 ^ s) v).
Proof.
  intros H Ha Hs. apply (lw1_vector e t (fun a => x_shr e t a s) _ a _ H (x_shr_lw e t s H Hs) Ha). intros i.
  rewrite elt_congr by assumption. apply cast_wraps. assumption.
Qed.
Theorem C49_shra e t undef a s : In t int_types -> in_reg (nb e) undef -> in_reg (nb e) a -> 0 <= s < bits t ->
  exists r, x_shra e t undef a s = Some r /\ vector e t r (fun i v => v = elt t a i / 2 ^ s).
Proof. exact (x_shra_ok e t undef a s). Qed.
Example C49_shra_ex : option_map (elts Avx512Knl i8) (x_shra Avx512Knl i8 0 (vec i8 [-128; 127; -1; 64]) 3)
  = Some ([-16; 15; -1; 8] ++ repeat 0 60).
Proof. vm_compute. reflexivity. Qed.

(** *** Bitwise operators act on every bit *)
Theorem C49_bitwise e t a b k : in_reg (nb e) a -> in_reg (nb e) b -> 0 <= k < nb e ->
  Z.testbit (x_andb e t a b) k = Z.testbit a k && Z.testbit b k /\
  Z.testbit (x_orb e t a b) k = Z.testbit a k || Z.testbit b k /\
  Z.testbit (x_xorb e t a b) k = xorb (Z.testbit a k) (Z.testbit b k) /\
  Z.testbit (x_andnotb e t a b) k = Z.testbit a k && negb (Z.testbit b k) /\
  Z.testbit (x_notb e t a) k = negb (Z.testbit a k).
Proof.
  intros Ha Hb Hk. unfold x_andb, x_orb, x_xorb, x_notb, x_andnotb, mm_and, mm_or, mm_xor, mm_andnot.
  rewrite reg_all_ones by apply nb_okw8. bitspec.
  replace (0 <=? k) with true by lia. replace (k <? nb e) with true by lia. cbn [andb].
  rewrite andb_true_r. rewrite (andb_comm (negb _)). auto.
Qed.
Theorem C49_bitwise_registers e t a b : in_reg (nb e) a -> in_reg (nb e) b ->
  in_reg (nb e) (x_andb e t a b) /\ in_reg (nb e) (x_orb e t a b) /\ in_reg (nb e) (x_xorb e t a b) /\
  in_reg (nb e) (x_andnotb e t a b) /\ in_reg (nb e) (x_notb e t a).
Proof.
  intros Ha Hb. destruct (x_bitop_ok e t a b Ha Hb) as (A & B & C & D). repeat (split; [assumption|]).
  rewrite x_notb_eq by assumption. unfold in_reg in *. lia.
Qed.

(** *** Comparisons *)
Theorem C49_compare e t a b : In t int_types -> in_reg (nb e) a -> in_reg (nb e) b ->
  logical e t (x_eq e t a b) (fun i => elt t a i =? elt t b i) /\
  logical e t (x_ne e t a b) (fun i => negb (elt t a i =? elt t b i)) /\
  logical e t (x_lt e t a b) (fun i => elt t a i <? elt t b i) /\
  logical e t (x_le e t a b) (fun i => elt t a i <=? elt t b i) /\
  logical e t (x_gt e t a b) (fun i => elt t b i <? elt t a i) /\
  logical e t (x_ge e t a b) (fun i => elt t b i <=? elt t a i).
Proof.
  intros H Ha Hb.
  exact (conj (x_eq_ok e t a b H Ha Hb) (conj (x_ne_ok e t a b H Ha Hb) (conj (x_lt_ok e t a b H Ha Hb)
    (conj (x_le_ok e t a b H Ha Hb) (conj (x_gt_ok e t a b H Ha Hb) (x_ge_ok e t a b H Ha Hb)))))).
Qed.
Example C49_compare_ex :
  x_lt Avx512Knl u16 (vec u16 [40000; 1; 5]) (vec u16 [3; 40000; 5]) = 2 /\
  elts Sse2 u64 (x_gt Sse2 u64 (vec u64 [2 ^ 63; 1]) (vec u64 [1; 2 ^ 63])) = [2 ^ 64 - 1; 0].
Proof. vm_compute. auto. Qed.

(** *** Logical operators *)
Theorem C49_logical_operators e t a b p q : In t int_types -> logical e t a p -> logical e t b q ->
  logical e t (x_andl e t a b) (fun i => p i && q i) /\
  logical e t (x_orl e t a b) (fun i => p i || q i) /\
  logical e t (x_xorl e t a b) (fun i => xorb (p i) (q i)) /\
  logical e t (x_andnotl e t a b) (fun i => p i && negb (q i)) /\
  logical e t (x_notl e t a) (fun i => negb (p i)).
Proof.
  intros H La Lb.
  exact (conj (x_andl_ok e t a b p q H La Lb) (conj (x_orl_ok e t a b p q H La Lb) (conj (x_xorl_ok e t a b p q H La Lb)
    (conj (x_andnotl_ok e t a b p q H La Lb) (x_notl_ok e t a p H La))))).
Qed.
Theorem C49_set1l e t x : In t int_types -> logical e t (x_set1l e t x) (fun _ => negb (x =? 0)).
Proof. exact (x_set1l_ok e t x). Qed.
Theorem C49_set1 e t x : In t int_types -> in_ty t x -> vector e t (x_set1 e t x) (fun _ v => v = x).
Proof.
  intros H Hx. pose proof (okw_nb e t H) as O. split; [apply in_reg_set1; exact O|]. intros i Hi.
  rewrite elt_lane. unfold x_set1. rewrite lane_set1, cast_mod_pow by assumption. apply cast_id; assumption.
Qed.

(** *** Selection, minimum, maximum, absolute value *)
Theorem C49_if_else e t l p a b : In t int_types -> in_reg (nb e) a -> in_reg (nb e) b -> logical e t l p ->
  vector e t (x_if_else1 e t l a b) (fun i v => v = if p i then elt t a i else elt t b i).
Proof.
  intros H Ha Hb L. destruct (x_if_else1_ok e t l p a b H Ha Hb L) as [R S]. split; [exact R|]. intros i Hi.
  rewrite !elt_lane, S by assumption. destruct (p i); reflexivity.
Qed.
Theorem C49_min_max e t a b : In t int_types -> in_reg (nb e) a -> in_reg (nb e) b ->
  vector e t (x_min e t a b) (fun i v => v = Z.min (elt t a i) (elt t b i)) /\
  vector e t (x_max e t a b) (fun i v => v = Z.max (elt t a i) (elt t b i)).
Proof.
  intros H Ha Hb. split.
  - apply (lw2_vector e t _ _ a b _ H (x_min_lw e t H) Ha Hb). intros i. rewrite cast_mod_pow by assumption.
    apply cast_id; [assumption|]. pose proof (elt_range t a i H). pose proof (elt_range t b i H). rewrite !elt_lane in *.
    unfold in_ty in *. lia.
  - apply (lw2_vector e t _ _ a b _ H (x_max_lw e t H) Ha Hb). intros i. rewrite cast_mod_pow by assumption.
    apply cast_id; [assumption|]. pose proof (elt_range t a i H). pose proof (elt_range t b i H). rewrite !elt_lane in *.
    unfold in_ty in *. lia.
Qed.
Theorem C49_abs e t a : In t int_types -> in_reg (nb e) a ->
  vector e t (x_abs e t a) (fun i v => wraps_to t (Z.abs (elt t a i)) v).
Proof.
  intros H Ha. apply (lw1_vector e t _ _ a _ H (x_abs_lw e t H) Ha). intros i. rewrite cast_mod_pow by assumption.
  apply cast_wraps. assumption.
Qed.
Example C49_abs_ex : elts Sse2 i8 (x_abs Sse2 i8 (vec i8 [-128; -127; 5; -1])) = [-128; 127; 5; 1] ++ repeat 0 12 /\
  elts Avx2 i64 (x_abs Avx2 i64 (vec i64 [-5; 5; - 2 ^ 63; 0])) = [5; 5; - 2 ^ 63; 0].
Proof. vm_compute. auto. Qed.

(** *** Saturated arithmetic *)
Theorem C49_adds e t a b : In t int_types -> in_reg (nb e) a -> in_reg (nb e) b ->
  vector e t (x_adds e t a b) (fun i v => v = clamp t (elt t a i + elt t b i)).
Proof.
  intros H Ha Hb. apply (lw2_vector e t _ _ a b _ H (x_adds_lw e t H) Ha Hb). intros i. rewrite cast_mod_pow by assumption.
  apply cast_id; [assumption|]. apply clamp_in. assumption.
Qed.
Lemma neg_fits t y : In t int_types -> in_ty t y -> is_signed t = true -> y <> ty_min t -> cast t (- y) = - y.
Proof.
  intros H Hy Sg N. apply cast_id; [assumption|]. unfold in_ty, ty_min, ty_max in *. rewrite Sg in *. lia.
Qed.
Lemma neg_min t : In t int_types -> is_signed t = true -> cast t (- ty_min t) = ty_min t.
Proof. intros H Sg. ty_cases H; try discriminate Sg; reflexivity. Qed.
(** subs saturates, except that on the 32- and 64-bit signed types subtracting the smallest value adds it instead *)
Theorem C49_subs e t a b : In t int_types -> in_reg (nb e) a -> in_reg (nb e) b ->
  vector e t (x_subs e t a b) (fun i v =>
    v = if (32 <=? bits t) && is_signed t && (elt t b i =? ty_min t)
        then clamp t (elt t a i + ty_min t) else clamp t (elt t a i - elt t b i)).
Proof.
  intros H Ha Hb. apply (lw2_vector e t _ _ a b _ H (x_subs_lw e t H) Ha Hb). intros i. rewrite cast_mod_pow by assumption.
  rewrite <- !elt_lane. unfold subs_result. change (wide t) with (32 <=? bits t).
  pose proof (elt_range t b i H) as Rb.
  destruct (32 <=? bits t), (is_signed t) eqn:Sg; cbn [andb];
    try (apply cast_id; [assumption|apply clamp_in; assumption]).
  destruct (Z.eqb_spec (elt t b i) (ty_min t)) as [E|E].
  - rewrite E, neg_min by assumption. apply cast_id; [assumption|apply clamp_in; assumption].
  - rewrite neg_fits by assumption. rewrite Z.add_opp_r. apply cast_id; [assumption|apply clamp_in; assumption].
Qed.
Theorem C49_subs_saturates_refuted : exists e t a b i, In t int_types /\ in_reg (nb e) a /\ in_reg (nb e) b /\
  0 <= i < nb e / bits t /\ elt t (x_subs e t a b) i <> clamp t (elt t a i - elt t b i).
Proof.
  exists Avx2, i32, (vec i32 [0]), (vec i32 [- 2 ^ 31]), 0.
  split; [cbn; tauto|]. repeat split; vm_compute; discriminate || reflexivity.
Qed.
Example C49_adds_ex : elts Avx2 i32 (x_adds Avx2 i32 (vec i32 [2 ^ 31 - 1; - 2 ^ 31; 5; -5]) (vec i32 [1; -1; 6; 6]))
  = [2 ^ 31 - 1; - 2 ^ 31; 11; 1; 0; 0; 0; 0].
Proof. vm_compute. reflexivity. Qed.

(** *** Conversions of logicals, reductions *)
Theorem C49_to_mask e t l p : In t int_types -> logical e t l p ->
  vector e t (x_to_mask e t l) (fun i v => v = if p i then cast t (-1) else 0).
Proof. exact (x_to_mask_ok e t l p). Qed.
Theorem C49_to_logical e t a : In t int_types -> in_reg (nb e) a ->
  logical e t (x_to_logical e t a) (fun i => negb (elt t a i =? 0)).
Proof. exact (x_to_logical_ok e t a). Qed.
Theorem C49_loadl e t v : In t int_types -> in_reg (nb e) v ->
  logical e t (x_loadl e t v) (fun i => negb (elt t v i =? 0)).
Proof. exact (x_loadl_ok e t v). Qed.
Theorem C49_storel e t l p : In t int_types -> logical e t l p ->
  vector e t (x_storel e t l) (fun i v => v = if p i then 1 else 0).
Proof. exact (x_storel_ok e t l p). Qed.
Theorem C49_reductions e t l p : In t int_types -> logical e t l p ->
  (x_all e t l = true <-> forall i, 0 <= i < nb e / bits t -> p i = true) /\
  (x_any e t l = true <-> exists i, 0 <= i < nb e / bits t /\ p i = true) /\
  x_nbtrue e t l = count_true (nb e / bits t) p.
Proof.
  intros H L. exact (conj (x_all_ok e t l p H L) (conj (x_any_ok e t l p H L) (x_nbtrue_ok e t l p H L))).
Qed.
Example C49_reductions_ex :
  let l := x_lt Avx i16 (vec i16 [1; 2; 3]) (vec i16 [5; 2; 7]) in
  x_nbtrue Avx i16 l = 2 /\ x_any Avx i16 l = true /\ x_all Avx i16 l = false /\
  x_all Avx i16 (x_notl Avx i16 (x_set1l Avx i16 0)) = true.
Proof. vm_compute. auto. Qed.
Print Assumptions C49_add.
Print Assumptions C49_sub.
Print Assumptions C49_neg.
Print Assumptions C49_mul.
Print Assumptions C49_mul_undefined.
Print Assumptions C49_div.
Print Assumptions C49_div_undefined.
Print Assumptions C49_fma.
Print Assumptions C49_fma_undefined.
Print Assumptions C49_shl.
Print Assumptions C49_shr.
Print Assumptions C49_shra.
Print Assumptions C49_bitwise.
Print Assumptions C49_bitwise_registers.
Print Assumptions C49_compare.
Print Assumptions C49_logical_operators.
Print Assumptions C49_set1l.
Print Assumptions C49_set1.
Print Assumptions C49_if_else.
Print Assumptions C49_min_max.
Print Assumptions C49_abs.
Print Assumptions C49_adds.
Print Assumptions C49_subs.
Print Assumptions C49_subs_saturates_refuted.
Print Assumptions C49_to_mask.
Print Assumptions C49_to_logical.
Print Assumptions C49_loadl.
Print Assumptions C49_storel.
Print Assumptions C49_reductions.
