(** Properties C09-C13 and C15: scalar integer operators (egg/scalar.py) and
    popcnt (include/nsimd/nsimd.h).  [None] is undefined behaviour. *)
From Coq Require Import ZArith Lia Bool List.
From Verif Require BitLemmas.
From Verif Require Import CInt ScalarOps ScalarSpec ScalarProofs.
Import ListNotations.
Open Scope Z_scope.

(** C09. *)
Theorem C09_adds_saturates : forall t a b, In t int_types -> in_ty t a -> in_ty t b ->
  s_adds t a b = Some (clamp t (a + b)).
Proof. exact s_adds_ok. Qed.
Print Assumptions C09_adds_saturates.
Example C09_ex : s_adds i8 100 100 = Some 127 /\ s_adds i8 (-100) (-100) = Some (-128)
  /\ s_adds u16 65535 1 = Some 65535 /\ s_adds i64 (2 ^ 63 - 1) 1 = Some (2 ^ 63 - 1).
Proof. vm_compute. auto. Qed.

(** C10. Exact except when the most negative value is subtracted... *)
Theorem C10_subs_saturates : forall t a b, In t int_types -> in_ty t a -> in_ty t b ->
  (is_signed t = true -> b <> ty_min t) -> s_subs t a b = Some (clamp t (a - b)).
Proof. exact s_subs_ok. Qed.
Print Assumptions C10_subs_saturates.
(** ... where i8/i16 ADD it and i32/i64 are undefined. *)
Theorem C10_subs_most_negative : forall t a, In t int_types -> is_signed t = true -> in_ty t a ->
  s_subs t a (ty_min t) = if bits t <? 32 then Some (clamp t (a + ty_min t)) else None.
Proof. exact s_subs_min. Qed.
Print Assumptions C10_subs_most_negative.
Theorem C10_subs_refuted : exists t a b, In t int_types /\ in_ty t a /\ in_ty t b /\
  exists r, s_subs t a b = Some r /\ r <> clamp t (a - b).
Proof.
  exists i8, 5, (-128). split; [cbn; tauto|]. split; [vm_compute; split; discriminate|].
  split; [vm_compute; split; discriminate|]. exists (-123). split; vm_compute; [reflexivity|discriminate].
Qed.
Print Assumptions C10_subs_refuted.
Example C10_ex : s_subs i16 (-32768) 1 = Some (-32768) /\ s_subs u8 3 4 = Some 0 /\ s_subs i8 5 (-127) = Some 127.
Proof. vm_compute. auto. Qed.

(** C11. Shift amounts in [0, bits). *)
Theorem C11_shl : forall t a s, In t int_types -> 0 <= s < bits t ->
  exists r, s_shl t a s = Some r /\ wraps_to t (a * 2 ^ s) r.
Proof. exact s_shl_ok. Qed.
Print Assumptions C11_shl.
Theorem C11_shr : forall t a s, In t int_types -> in_ty t a -> 0 <= s < bits t ->
  exists r, s_shr t a s = Some r /\ wraps_to t ((a mod 2 ^ bits t) / 2 ^ s) r.
Proof. exact s_shr_ok. Qed.
Print Assumptions C11_shr.
Theorem C11_shra : forall t a s, In t int_types -> in_ty t a -> 0 <= s < bits t ->
  s_shra t a s = Some (a / 2 ^ s).
Proof. exact s_shra_ok. Qed.
Print Assumptions C11_shra.
Example C11_ex : s_shra i8 (-7) 1 = Some (-4) /\ s_shr i8 (-1) 1 = Some 127 /\ s_shl u8 255 1 = Some 254
  /\ s_shra i64 (- 2 ^ 63) 63 = Some (-1).
Proof. vm_compute. auto. Qed.

(** C12. [Z.testbit a i] is bit [i] of the two's complement pattern of [a]. *)
Theorem C12_bitwise : forall t a b, In t int_types ->
  (in_ty t (s_orb t a b) /\ in_ty t (s_andb t a b) /\ in_ty t (s_xorb t a b)
   /\ in_ty t (s_andnotb t a b) /\ in_ty t (s_notb t a)) /\
  forall i, 0 <= i < bits t ->
    Z.testbit (s_orb t a b) i = orb (Z.testbit a i) (Z.testbit b i) /\
    Z.testbit (s_andb t a b) i = andb (Z.testbit a i) (Z.testbit b i) /\
    Z.testbit (s_xorb t a b) i = xorb (Z.testbit a i) (Z.testbit b i) /\
    Z.testbit (s_andnotb t a b) i = andb (Z.testbit a i) (negb (Z.testbit b i)) /\
    Z.testbit (s_notb t a) i = negb (Z.testbit a i).
Proof.
  intros t a b H.
  destruct (s_opbit_ok t Z.lor orb a b H) as [R1 B1]; [intros; apply Z.lor_spec|].
  destruct (s_opbit_ok t Z.land andb a b H) as [R2 B2]; [intros; apply Z.land_spec|].
  destruct (s_opbit_ok t Z.lxor xorb a b H) as [R3 B3]; [intros; apply Z.lxor_spec|].
  destruct (s_opbit_ok t (fun a b => Z.land a (Z.lnot b)) (fun x y => andb x (negb y)) a b H) as [R4 B4];
    [intros; rewrite Z.land_spec, Z.lnot_spec by assumption; reflexivity|].
  destruct (s_opbit_ok t (fun a _ => Z.lnot a) (fun x _ => negb x) a 0 H) as [R5 B5];
    [intros; apply Z.lnot_spec; assumption|].
  split; [auto|]. intros i Hi. repeat split; [apply B1|apply B2|apply B3|apply B4|apply B5]; exact Hi.
Qed.
Print Assumptions C12_bitwise.
Example C12_ex : s_andnotb i8 (-1) 1 = -2 /\ s_notb u8 0 = 255 /\ s_xorb i16 (-32768) (-1) = 32767.
Proof. vm_compute. auto. Qed.

(** Logicals and masks: to_mask sets every bit to the logical, to_logical is true
    exactly when some bit is set. *)
Theorem C12_masks : forall t, In t int_types ->
  (forall l, in_ty t (s_to_mask t l) /\
     (forall i, 0 <= i < bits t -> Z.testbit (s_to_mask t l) i = l) /\
     s_to_logical (s_to_mask t l) = l) /\
  (forall a, in_ty t a ->
     (s_to_logical a = true <-> exists i, 0 <= i < bits t /\ Z.testbit a i = true)).
Proof.
  intros t H. pose proof (bits_pos t H) as HB. split.
  - intro l.
    assert (B : forall i, 0 <= i < bits t -> Z.testbit (s_to_mask t l) i = l).
    { intros i Hi. unfold s_to_mask. destruct (is_signed t); cbn [negb];
        rewrite testbit_cast by assumption;
        try (rewrite (testbit_cast (uty t)) by (try apply uty_in; try assumption; exact Hi));
        destruct l; [apply Z.bits_m1; lia|apply Z.bits_0|apply Z.bits_m1; lia|apply Z.bits_0]. }
    split; [|split; [exact B|]].
    + unfold s_to_mask. destruct (is_signed t); cbn [negb]; apply cast_in_ty; assumption.
    + unfold s_to_logical. specialize (B 0 ltac:(lia)). destruct l.
      * destruct (Z.eqb_spec (s_to_mask t true) 0) as [E|_]; [|reflexivity].
        rewrite E, Z.bits_0 in B. discriminate.
      * ty_cases H; reflexivity.
  - intros a Ha. unfold s_to_logical. rewrite Bool.negb_true_iff, Z.eqb_neq. split.
    + intro N. destruct (Z_lt_le_dec a 0) as [L|L].
      * exists (bits t - 1). split; [lia|].
        unfold in_ty, ty_min, ty_max in Ha. destruct (is_signed t); [|lia].
        rewrite <- (Z.lnot_involutive a), Z.lnot_spec by lia.
        rewrite (BitLemmas.testbit_small (Z.lnot a) (bits t - 1)); [reflexivity|unfold Z.lnot; lia|lia].
      * exists (Z.log2 a). split.
        -- split; [apply Z.log2_nonneg|]. apply Z.log2_lt_pow2; [lia|].
           unfold in_ty, ty_min, ty_max in Ha. destruct (is_signed t); [|lia].
           pose proof (Z.pow_lt_mono_r 2 (bits t - 1) (bits t) ltac:(lia) ltac:(lia) ltac:(lia)). lia.
        -- apply Z.bit_log2. lia.
    + intros [i [_ Hi]] ->. rewrite Z.bits_0 in Hi. discriminate.
Qed.
Print Assumptions C12_masks.

(** reinterpret between integer types of the same width keeps every bit, so going
    back is the identity; cvt keeps values which the target type can represent and
    otherwise wraps. *)
Theorem C12_reinterpret_cvt : forall from to a, In from int_types -> In to int_types -> in_ty from a ->
  (bits from = bits to ->
     in_ty to (s_reinterpret from to a) /\
     (forall i, 0 <= i < bits to -> Z.testbit (s_reinterpret from to a) i = Z.testbit a i) /\
     s_reinterpret to from (s_reinterpret from to a) = a) /\
  (wraps_to to a (s_cvt to a) /\ (in_ty to a -> s_cvt to a = a)).
Proof.
  intros from to a H1 H2 Ha. split.
  - intro E. unfold s_reinterpret. split; [apply cast_in_ty; assumption|]. split.
    + intros i Hi. rewrite testbit_cast by assumption.
      rewrite (testbit_cast (uty from)) by (try apply uty_in; try assumption; cbn [uty bits]; lia).
      reflexivity.
    + rewrite <- (cast_id from a H1 Ha) at 2. apply cast_congr.
      pose proof (cast_mod (uty to) (cast to (cast (uty from) a)) (uty_in to H2)) as M1.
      pose proof (cast_mod to (cast (uty from) a) H2) as M2.
      pose proof (cast_mod (uty from) a (uty_in from H1)) as M3.
      cbn [uty bits] in M1, M3. rewrite E in M3 |- *. congruence.
  - unfold s_cvt. split; [apply cast_wraps; assumption|]. intro R. apply cast_id; assumption.
Qed.
Print Assumptions C12_reinterpret_cvt.
Example C12_ex_masks : s_to_mask i8 true = -1 /\ s_to_mask u16 true = 65535 /\ s_to_logical (-128) = true /\
  s_reinterpret i8 u8 (-128) = 128 /\ s_cvt u8 (-1) = 255.
Proof. vm_compute. auto. Qed.

(** C13. *)
Theorem C13_minmax : forall a b, s_min a b = Z.min a b /\ s_max a b = Z.max a b.
Proof. intros. split; [apply s_min_ok|apply s_max_ok]. Qed.
Print Assumptions C13_minmax.

Theorem C13_abs : forall t a, In t int_types -> in_ty t a -> a <> ty_min t \/ is_signed t = false ->
  s_abs t a = Some (Z.abs a).
Proof. exact s_abs_ok. Qed.
Print Assumptions C13_abs.
(** the most negative value: itself for i8/i16, undefined for i32/i64. *)
Theorem C13_abs_min : forall t, In t int_types -> is_signed t = true ->
  s_abs t (ty_min t) = if bits t <? 32 then Some (ty_min t) else None.
Proof. exact s_abs_min. Qed.
Print Assumptions C13_abs_min.

(** Whenever evaluation is defined the result is the exact one modulo 2^bits. *)
Theorem C13_arith_value : forall t a b c r, In t int_types ->
  (s_add t a b = Some r -> wraps_to t (a + b) r) /\
  (s_sub t a b = Some r -> wraps_to t (a - b) r) /\
  (s_mul t a b = Some r -> wraps_to t (a * b) r) /\
  (s_neg t a = Some r -> wraps_to t (- a) r) /\
  (s_fma t a b c = Some r -> wraps_to t (a * b + c) r) /\
  (s_fms t a b c = Some r -> wraps_to t (a * b - c) r) /\
  (s_fnma t a b c = Some r -> wraps_to t (- (a * b) + c) r) /\
  (s_fnms t a b c = Some r -> wraps_to t (- (a * b) - c) r).
Proof.
  intros t a b c r H.
  exact (conj (s_add_value t a b r H) (conj (s_sub_value t a b r H) (conj (s_mul_value t a b r H)
        (conj (s_neg_value t a r H) (conj (s_fma_value t a b c r H) (conj (s_fms_value t a b c r H)
        (conj (s_fnma_value t a b c r H) (s_fnms_value t a b c r H)))))))).
Qed.
Print Assumptions C13_arith_value.

(** It is always defined on u8, i8, i16, u32, u64 ... *)
Theorem C13_fma_total : forall t a b c, In t [u8; i8; i16; u32; u64] ->
  in_ty t a -> in_ty t b -> in_ty t c ->
  exists r1 r2 r3 r4,
    s_fma t a b c = Some r1 /\ wraps_to t (a * b + c) r1 /\
    s_fms t a b c = Some r2 /\ wraps_to t (a * b - c) r2 /\
    s_fnma t a b c = Some r3 /\ wraps_to t (- (a * b) + c) r3 /\
    s_fnms t a b c = Some r4 /\ wraps_to t (- (a * b) - c) r4.
Proof.
  intros t a b c H. apply fma_value_total.
  - cbn in H |- *. tauto.
  - cbn in H. destruct H as [<-|[<-|[<-|[<-|[<-|[]]]]]]; reflexivity.
Qed.
Print Assumptions C13_fma_total.
(** ... on every type when product and sum are representable ... *)
Theorem C13_fma_representable : forall t a b c, In t int_types -> in_ty t (a * b) -> in_ty t (a * b + c) ->
  s_fma t a b c = Some (a * b + c).
Proof. exact fma_fits. Qed.
Print Assumptions C13_fma_representable.
(** ... but NOT on u16, although unsigned: the promotion to int overflows. *)
Theorem C13_mul_u16_undefined_refuted : exists a b, in_ty u16 a /\ in_ty u16 b /\ s_mul u16 a b = None.
Proof. exists 65535, 65535. repeat split; vm_compute; first [discriminate|reflexivity]. Qed.
Print Assumptions C13_mul_u16_undefined_refuted.
Example C13_ex : s_fma i8 100 100 100 = Some 116 /\ s_fnms u32 7 9 1 = Some 4294967232
  /\ s_abs i16 (-32768) = Some (-32768) /\ s_fma i32 (-5) 7 3 = Some (-32).
Proof. vm_compute. auto. Qed.

(** C15. *)
Theorem C15_popcnt : forall a, popcnt32 a = ones_below 32 a /\ popcnt64 a = ones_below 64 a.
Proof. intros. split; [apply popcnt32_ok|apply popcnt64_ok]. Qed.
Print Assumptions C15_popcnt.
Theorem C15_popcnt_halves : forall a, in_u 64 a -> popcnt64_split a = popcnt64 a.
Proof. exact popcnt64_split_ok. Qed.
Print Assumptions C15_popcnt_halves.
Example C15_ex : popcnt32 0xF0F0F0F1 = 17 /\ popcnt64_split (2 ^ 64 - 1) = 64.
Proof. vm_compute. auto. Qed.
