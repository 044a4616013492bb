(** C70-C75: the integer operators of the ARM back ends (neon128, aarch64, and SVE at every vector length, with
    or without emulated logicals) compute in every lane the value of the corresponding scalar operation.
    In every statement [u] stands for whatever an SVE instruction leaves in lanes that are not active. *)
From Coq Require Import ZArith Lia List Bool ZifyBool.
From Verif Require Import CInt BitLemmas ScalarOps ScalarSpec ScalarProofs X86Deg234 X86Arith X86ArithSpec
  X86LaneLemmas X86EmulProofs X86SelectProofs Arm ArmSpec ArmProofs ArmProofs2 ArmProofs3 ArmProofs4.
Import ListNotations.
Open Scope Z_scope.

(** a vector with the given elements, and its elements, for the examples *)
Definition avec (t : ity) (l : list Z) : Z := fold_right (fun x r => x mod 2 ^ bits t + r * 2 ^ bits t) 0 l.
Definition aelts (e : aext) (t : ity) (r : Z) : list Z :=
  map (fun i => elt t r (Z.of_nat i)) (seq 0 (Z.to_nat (an e / bits t))).
Definition sve128 := Sve false 1.
Definition sve256 := Sve false 2.

(** *** C70: arithmetic *)
Theorem C70_add_sub u e t a b : In t int_types -> in_reg (an e) a -> in_reg (an e) b ->
  avector e t (a_add u e t a b) (fun i v => wraps_to t (elt t a i + elt t b i) v) /\
  avector e t (a_sub u e t a b) (fun i v => wraps_to t (elt t a i - elt t b i) v).
Proof. intros. split; [apply a_add_ok|apply a_sub_ok]; assumption. Qed.
Example C70_add_ex : aelts sve256 i16 (a_add 7 sve256 i16 (avec i16 [32767; -32768; 3]) (avec i16 [1; -1; -5]))
  = [-32768; 32767; -2] ++ repeat 0 13.
Proof. vm_compute. reflexivity. Qed.

Theorem C70_mul u e t a b : In t int_types -> in_reg (an e) a -> in_reg (an e) b ->
  (arm_mul_emulated e t = true -> is_signed t = true -> forall i, 0 <= i < an e / bits t -> in_ty t (elt t a i * elt t b i)) ->
  exists r, a_mul u e t a b = Some r /\ avector e t r (fun i v => wraps_to t (elt t a i * elt t b i) v).
Proof. exact (a_mul_ok u e t a b). Qed.
Theorem C70_mul_undefined u e t a b i : In t int_types -> arm_mul_emulated e t = true -> is_signed t = true ->
  0 <= i < an e / bits t -> ~ in_ty t (elt t a i * elt t b i) -> a_mul u e t a b = None.
Proof. exact (a_mul_none u e t a b i). Qed.
Example C70_mul_ex : option_map (aelts Aarch64 i64) (a_mul 0 Aarch64 i64 (avec i64 [3; -4]) (avec i64 [-5; 6])) = Some [-15; -24] /\
  a_mul 0 Aarch64 i64 (avec i64 [2 ^ 62; 0]) (avec i64 [2; 0]) = None /\
  option_map (aelts sve128 i64) (a_mul 0 sve128 i64 (avec i64 [2 ^ 62; 3]) (avec i64 [2; 5])) = Some [- 2 ^ 63; 15].
Proof. vm_compute. auto. Qed.

Theorem C70_neg u e t a : In t int_types -> in_reg (an e) a ->
  (arm_neg_emulated e t = true -> is_signed t = true -> forall i, 0 <= i < an e / bits t -> in_ty t (- elt t a i)) ->
  exists r, a_neg u e t a = Some r /\ avector e t r (fun i v => wraps_to t (- elt t a i) v).
Proof. exact (a_neg_ok u e t a). Qed.
Theorem C70_abs u e t a : In t int_types -> in_reg (an e) a ->
  (arm_neg_emulated e t = true -> is_signed t = true -> forall i, 0 <= i < an e / bits t -> in_ty t (- elt t a i)) ->
  exists r, a_abs u e t a = Some r /\ avector e t r (fun i v => wraps_to t (Z.abs (elt t a i)) v).
Proof. exact (a_abs_ok u e t a). Qed.
Theorem C70_neg_abs_undefined u e t a i : In t int_types -> arm_neg_emulated e t = true -> is_signed t = true ->
  0 <= i < an e / bits t -> ~ in_ty t (- elt t a i) -> a_neg u e t a = None /\ a_abs u e t a = None.
Proof. intros. split; [apply (a_neg_none u e t a i)|apply (a_abs_none u e t a i)]; assumption. Qed.
Example C70_neg_ex : option_map (aelts Neon128 i64) (a_neg 0 Neon128 i64 (avec i64 [3; -4])) = Some [-3; 4] /\
  option_map (aelts Neon128 i64) (a_abs 0 Neon128 i64 (avec i64 [3; -4])) = Some [3; 4] /\
  a_abs 0 Neon128 i64 (avec i64 [- 2 ^ 63; 0]) = None /\
  option_map (aelts sve128 i64) (a_abs 0 sve128 i64 (avec i64 [- 2 ^ 63; -7])) = Some [- 2 ^ 63; 7].
Proof. vm_compute. auto. Qed.

Theorem C70_min_max u e t a b : In t int_types -> in_reg (an e) a -> in_reg (an e) b ->
  avector e t (a_min u e t a b) (fun i v => v = Z.min (elt t a i) (elt t b i)) /\
  avector e t (a_max u e t a b) (fun i v => v = Z.max (elt t a i) (elt t b i)).
Proof. intros. split; [apply a_min_ok|apply a_max_ok]; assumption. Qed.
Theorem C70_saturated e t a b : In t int_types -> in_reg (an e) a -> in_reg (an e) b ->
  avector e t (a_adds e t a b) (fun i v => v = clamp t (elt t a i + elt t b i)) /\
  avector e t (a_subs e t a b) (fun i v => v = clamp t (elt t a i - elt t b i)).
Proof. intros. split; [apply a_adds_ok|apply a_subs_ok]; assumption. Qed.
Example C70_min_ex : aelts Neon128 u64 (a_min 0 Neon128 u64 (avec u64 [2 ^ 63; 1]) (avec u64 [5; 2])) = [5; 1] /\
  aelts Neon128 i64 (a_subs Neon128 i64 (avec i64 [5; - 2 ^ 63]) (avec i64 [- 2 ^ 63; 1])) = [2 ^ 63 - 1; - 2 ^ 63].
Proof. vm_compute. auto. Qed.
Theorem C70_set1_len e t x : In t int_types -> in_ty t x ->
  avector e t (a_set1 e t x) (fun _ v => v = x) /\ (architectural e -> a_len e t = an e / bits t).
Proof. intros H Hx. split; [apply a_set1_ok; assumption|intros A; apply a_len_ok; assumption]. Qed.
Example C70_len_ex : a_len sve256 i32 = 8 /\ a_len Aarch64 i8 = 16.
Proof. vm_compute. auto. Qed.

(** *** C71: division.  SVE divides 32 and 64-bit lanes with an instruction, for which x / 0 = 0 and
    MIN / -1 = MIN; everything else is the C operator. *)
Theorem C71_div u e t a b : In t int_types -> architectural e -> in_reg (an e) a -> in_reg (an e) b ->
  (arm_div_emulated e t = true -> forall i, 0 <= i < an e / bits t -> ~ bad_div t (elt t a i) (elt t b i)) ->
  exists r, a_div u e t a b = Some r /\
    avector e t r (fun i v => if elt t b i =? 0 then v = 0 else wraps_to t (Z.quot (elt t a i) (elt t b i)) v).
Proof. exact (a_div_ok u e t a b). Qed.
Theorem C71_div_undefined u e t a b i : In t int_types -> arm_div_emulated e t = true -> 0 <= i < an e / bits t ->
  bad_div t (elt t a i) (elt t b i) -> a_div u e t a b = None.
Proof. exact (a_div_none u e t a b i). Qed.
Example C71_div_ex :
  option_map (aelts sve128 i32) (a_div 0 sve128 i32 (avec i32 [7; -7; - 2 ^ 31; 5]) (avec i32 [-2; 2; -1; 0])) = Some [-3; -3; - 2 ^ 31; 0] /\
  option_map (aelts Neon128 i32) (a_div 0 Neon128 i32 (avec i32 [7; -7; 6; 5]) (avec i32 [-2; 2; -1; 3])) = Some [-3; -3; -6; 1] /\
  a_div 0 Neon128 i32 (avec i32 [- 2 ^ 31; 1; 1; 1]) (avec i32 [-1; 1; 1; 1]) = None.
Proof. vm_compute. auto. Qed.

(** *** C72: bitwise operators and shifts *)
Theorem C72_bitwise u e t a b k : In t int_types -> 0 <= k < an e ->
  Z.testbit (a_andb u e t a b) k = Z.testbit a k && Z.testbit b k /\
  Z.testbit (a_orb u e t a b) k = Z.testbit a k || Z.testbit b k /\
  Z.testbit (a_xorb u e t a b) k = xorb (Z.testbit a k) (Z.testbit b k) /\
  Z.testbit (a_andnotb u e t a b) k = Z.testbit a k && negb (Z.testbit b k) /\
  Z.testbit (a_notb u e t a) k = negb (Z.testbit a k).
Proof. exact (a_bit_ok u e t a b k). Qed.
Theorem C72_bitwise_registers u e t a b : In t int_types -> in_reg (an e) a -> in_reg (an e) b ->
  in_reg (an e) (a_andb u e t a b) /\ in_reg (an e) (a_orb u e t a b) /\ in_reg (an e) (a_xorb u e t a b) /\
  in_reg (an e) (a_andnotb u e t a b) /\ in_reg (an e) (a_notb u e t a).
Proof. exact (a_bit_reg u e t a b). Qed.
Example C72_bitwise_ex : aelts Aarch64 u64 (a_notb 0 Aarch64 u64 (avec u64 [0; 5])) = [2 ^ 64 - 1; 2 ^ 64 - 6] /\
  aelts sve128 u64 (a_andnotb 9 sve128 u64 (avec u64 [15; 12]) (avec u64 [5; 4])) = [10; 8].
Proof. vm_compute. auto. Qed.
Theorem C72_shl u e t a c : In t int_types -> in_reg (an e) a -> 0 <= c < bits t ->
  exists r, a_shl u e t a c = Some r /\ avector e t r (fun i v => wraps_to t (elt t a i * 2 ^ c) v).
Proof. exact (a_shl_ok u e t a c). Qed.
Theorem C72_shr u e t a c : In t int_types -> in_reg (an e) a -> 0 <= c < bits t ->
  exists r, a_shr u e t a c = Some r /\ avector e t r (fun i v => wraps_to t ((elt t a i mod 2 ^ bits t) / 2 ^ c) v).
Proof. exact (a_shr_ok u e t a c). Qed.
Theorem C72_shra u e t a c : In t int_types -> in_reg (an e) a -> 0 <= c < bits t ->
  exists r, a_shra u e t a c = Some r /\ avector e t r (fun i v => v = elt t a i / 2 ^ c).
Proof. exact (a_shra_ok u e t a c). Qed.
Example C72_shift_ex :
  option_map (aelts Neon128 i32) (a_shra 0 Neon128 i32 (avec i32 [-9; 9; -1; 64]) 2) = Some [-3; 2; -1; 16] /\
  option_map (aelts Neon128 i32) (a_shr 0 Neon128 i32 (avec i32 [-1; 9; 8; 64]) 28) = Some [15; 0; 0; 0] /\
  option_map (aelts sve128 i32) (a_shl 0 sve128 i32 (avec i32 [-1; 9; 8; 64]) 31) = Some [- 2 ^ 31; - 2 ^ 31; 0; 0].
Proof. vm_compute. auto. Qed.

(** *** C73: comparisons, operators on logicals, selection, reductions of logicals *)
Theorem C73_compare u e t a b : In t int_types ->
  alogical e t (a_eq u e t a b) (fun i => elt t a i =? elt t b i) /\
  alogical e t (a_ne u e t a b) (fun i => negb (elt t a i =? elt t b i)) /\
  alogical e t (a_lt u e t a b) (fun i => elt t a i <? elt t b i) /\
  alogical e t (a_le u e t a b) (fun i => elt t a i <=? elt t b i) /\
  alogical e t (a_gt u e t a b) (fun i => elt t b i <? elt t a i) /\
  alogical e t (a_ge u e t a b) (fun i => elt t b i <=? elt t a i).
Proof.
  intros H. split; [apply a_cmp_ok; exact H|]. split; [apply a_ne_ok; exact H|]. split; [apply a_cmp_ok; exact H|].
  split; [apply a_cmp_ok; exact H|].
  split; (eapply alogical_ext; [apply a_cmp_ok; exact H|]); intros i _; cbn beta; [apply Z.gtb_ltb|apply Z.geb_leb].
Qed.
Theorem C73_logical_operators u e t a b p q : In t int_types -> alogical e t a p -> alogical e t b q ->
  alogical e t (a_andl u e t a b) (fun i => p i && q i) /\
  alogical e t (a_orl u e t a b) (fun i => p i || q i) /\
  alogical e t (a_xorl u e t a b) (fun i => xorb (p i) (q i)) /\
  alogical e t (a_andnotl u e t a b) (fun i => p i && negb (q i)) /\
  alogical e t (a_notl u e t a) (fun i => negb (p i)).
Proof.
  intros H A B. split; [apply a_andl_ok; assumption|]. split; [apply a_orl_ok; assumption|]. split; [apply a_xorl_ok; assumption|].
  split; [apply a_andnotl_ok; assumption|apply a_notl_ok; assumption].
Qed.
Theorem C73_set1l e t x : In t int_types -> native_logicals e -> alogical e t (a_set1l e t x) (fun _ => negb (x =? 0)).
Proof. intros H N. apply a_set1l_ok; assumption. Qed.
Theorem C73_if_else u e t l p a b : In t int_types -> in_reg (an e) a -> in_reg (an e) b -> alogical e t l p ->
  avector e t (a_if_else1 u e t l a b) (fun i v => v = if p i then elt t a i else elt t b i).
Proof.
  intros H Ha Hb L. destruct (a_if_else1_ok u e t H l p a b Ha Hb L) as [R S]. split; [exact R|]. intros i Hi.
  rewrite !elt_lane, S by assumption. destruct (p i); reflexivity.
Qed.
Theorem C73_all_any u e t l p : In t int_types -> alogical e t l p ->
  (a_all u e t l = true <-> (forall i, 0 <= i < an e / bits t -> p i = true)) /\
  (a_any u e t l = true <-> (exists i, 0 <= i < an e / bits t /\ p i = true)).
Proof. intros H L. split; [apply a_all_ok|apply a_any_ok]; assumption. Qed.
Theorem C73_nbtrue u e t l p : In t int_types -> architectural e -> alogical e t l p ->
  a_nbtrue u e t l = count_true (an e / bits t) p.
Proof. intros H A L. apply a_nbtrue_ok; assumption. Qed.
Theorem C73_to_mask e t l p : In t int_types -> alogical e t l p ->
  avector e t (a_to_mask e t l) (fun i v => v = if p i then cast t (-1) else 0).
Proof. intros H L. apply a_to_mask_ok; assumption. Qed.
Theorem C73_to_logical u e t a : In t int_types -> alogical e t (a_to_logical u e t a) (fun i => negb (elt t a i =? 0)).
Proof. intros H. apply a_to_logical_ok; assumption. Qed.
Example C73_ex :
  let l := a_lt 0 sve128 i16 (avec i16 [1; -2; 3; 4; 5; 6; 7; 8]) (avec i16 [2; -3; 9; 4; 6; 6; 8; 7]) in
  l = 1 + 2 ^ 4 + 2 ^ 8 + 2 ^ 12 /\ a_nbtrue 0 sve128 i16 l = 4 /\ a_any 0 sve128 i16 l = true /\ a_all 0 sve128 i16 l = false /\
  aelts sve128 i16 (a_if_else1 0 sve128 i16 l (avec i16 [1; 2; 3; 4; 5; 6; 7; 8]) 0) = [1; 0; 3; 0; 5; 0; 7; 0].
Proof. vm_compute. auto. Qed.
Example C73_ex_neon :
  let l := a_ge 0 Aarch64 u64 (avec u64 [2 ^ 63; 1]) (avec u64 [5; 5]) in
  a_nbtrue 0 Aarch64 u64 l = 1 /\ a_any 0 Aarch64 u64 l = true /\ a_all 0 Aarch64 u64 l = false /\ l = 2 ^ 64 - 1.
Proof. vm_compute. auto. Qed.

(** *** C74: fused operators *)
Theorem C74_fma u neg sub e t a b c : In t int_types -> in_reg (an e) a -> in_reg (an e) b -> in_reg (an e) c ->
  (arm_mul_emulated e t = true -> is_signed t = true -> forall i, 0 <= i < an e / bits t ->
     Forall (in_ty t) (fma_steps neg sub e (elt t a i) (elt t b i) (elt t c i))) ->
  exists r, fma_family neg sub u e t a b c = Some r /\
    avector e t r (fun i v => wraps_to t (fma_value neg sub (elt t a i) (elt t b i) (elt t c i)) v).
Proof. exact (a_fma_family_ok u neg sub e t a b c). Qed.
Theorem C74_fma_undefined u neg sub e t a b c i : In t int_types -> in_reg (an e) a -> in_reg (an e) b -> in_reg (an e) c ->
  arm_mul_emulated e t = true -> is_signed t = true -> 0 <= i < an e / bits t ->
  ~ Forall (in_ty t) (fma_steps neg sub e (elt t a i) (elt t b i) (elt t c i)) -> fma_family neg sub u e t a b c = None.
Proof. exact (a_fma_family_none u neg sub e t a b c i). Qed.
Example C74_fma_ex :
  option_map (aelts Neon128 i64) (fma_family false true 0 Neon128 i64 (avec i64 [3; -4]) (avec i64 [5; 6]) (avec i64 [1; 2])) = Some [14; -26] /\
  option_map (aelts sve128 i32) (fma_family true true 0 sve128 i32 (avec i32 [3; -4; 1; 0]) (avec i32 [5; 6; 1; 9]) (avec i32 [1; 2; 3; 4])) = Some [-16; 22; -4; -4].
Proof. vm_compute. auto. Qed.

(** *** C75: iota and the mask of the last iteration of a loop *)
Theorem C75_iota e t : In t int_types -> avector e t (a_iota e t) (fun i v => wraps_to t i v).
Proof. intros H. apply a_iota_ok. exact H. Qed.
Theorem C75_mask_for_loop_tail u e t i k : In t int_types -> architectural e -> native_logicals e -> (k <= i \/ in_ty i32 (k - i)) ->
  (t = i8 -> an e <= 1024) ->
  exists l, a_mask_for_loop_tail u e t i k = Some l /\ alogical e t l (fun j => i + j <? k).
Proof. exact (a_tail_ok u e t i k). Qed.
(** With 8-bit signed elements and more than 128 of them, the remaining count does not fit the element
    type: whenever more than 127 elements, but not a full vector, remain, the mask leaves the first one out. *)
Theorem C75_mask_for_loop_tail_refuted u vq i k : 8 < Zpos vq <= 16 -> i + 128 <= k < i + 16 * Zpos vq ->
  exists l, a_mask_for_loop_tail u (Sve false vq) i8 i k = Some l /\
    exists p, alogical (Sve false vq) i8 l p /\ p 0 = false /\ (i + 0 <? k) = true.
Proof.
  intros Hv Hk. assert (an (Sve false vq) / bits i8 = 16 * Zpos vq) as En.
  { cbn [an]. change (bits i8) with 8. replace (128 * Z.pos vq) with (16 * Z.pos vq * 8) by lia. apply Z.div_mul. lia. }
  destruct (a_tail_char u (Sve false vq) i8 i k) as (l & E & L).
  - cbn; tauto.
  - unfold architectural. cbn [an]. lia.
  - intros v; discriminate.
  - unfold in_ty; cbn; lia.
  - lia.
  - rewrite En. lia.
  - exists l. split; [exact E|]. eexists. split; [exact L|]. split; [|lia]. cbn beta.
    assert (cast i8 (k - i) = k - i - 256) as ->.
    { change (cast i8 (k - i)) with (to_s 8 (k - i)). unfold to_s. change (2 ^ (8 - 1)) with 128. change (2 ^ 8) with 256.
      rewrite Z.mod_small by lia. replace (k - i <? 128) with false by lia. reflexivity. }
    change (cast i8 0) with 0. lia.
Qed.
Example C75_ex : aelts Neon128 i32 (a_iota Neon128 i32) = [0; 1; 2; 3] /\
  option_map (aelts Neon128 i32) (a_mask_for_loop_tail 0 Neon128 i32 5 8) = Some [-1; -1; -1; 0] /\
  a_mask_for_loop_tail 0 sve128 i64 7 8 = Some 1 /\ a_mask_for_loop_tail 0 sve128 i64 8 8 = Some 0 /\
  a_mask_for_loop_tail 0 sve128 i64 0 8 = Some (1 + 2 ^ 8).
Proof. vm_compute. auto. Qed.

Print Assumptions C70_mul.
Print Assumptions C71_div.
Print Assumptions C72_shra.
Print Assumptions C73_all_any.
Print Assumptions C73_nbtrue.
Print Assumptions C74_fma_undefined.
Print Assumptions C75_mask_for_loop_tail_refuted.
