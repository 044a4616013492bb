(** C98-C101: the integer operators of the POWER back ends (vmx and vsx) compute in every element the value of
    the corresponding scalar operation. *)
From Coq Require Import ZArith Lia List Bool ZifyBool.
From Verif Require Import CInt BitLemmas ScalarOps ScalarSpec ScalarProofs X86Deg234 X86Arith X86ArithSpec
  X86LaneLemmas X86EmulProofs X86SelectProofs Ppc PpcSpec PpcProofs PpcProofs2 PpcProofs3.
Import ListNotations.
Open Scope Z_scope.

(** a vector with the given elements, and its elements, for the examples *)
Definition pvec (t : ity) (l : list Z) : Z := fold_right (fun x r => x mod 2 ^ bits t + r * 2 ^ bits t) 0 l.
Definition pelts (t : ity) (r : Z) : list Z := map (fun i => elt t r (Z.of_nat i)) (seq 0 (Z.to_nat (128 / bits t))).

(** *** C98: arithmetic *)
Theorem C98_add e t a b : In t int_types ->
  (e = Vmx -> t = i64 -> forall i, 0 <= i < 2 -> in_ty i64 (elt t a i + elt t b i)) ->
  exists r, p_add e t a b = Some r /\ pvector t r (fun i v => wraps_to t (elt t a i + elt t b i) v).
Proof. intros H. exact (p_add_ok e t H a b). Qed.
Theorem C98_sub e t a b : In t int_types ->
  (e = Vmx -> t = i64 -> forall i, 0 <= i < 2 -> in_ty i64 (elt t a i - elt t b i)) ->
  exists r, p_sub e t a b = Some r /\ pvector t r (fun i v => wraps_to t (elt t a i - elt t b i) v).
Proof. intros H. exact (p_sub_ok e t H a b). Qed.
Theorem C98_mul e t a b : In t int_types ->
  (e = Vmx -> t = i64 -> forall i, 0 <= i < 2 -> in_ty i64 (elt t a i * elt t b i)) ->
  exists r, p_mul e t a b = Some r /\ pvector t r (fun i v => wraps_to t (elt t a i * elt t b i) v).
Proof. intros H. exact (p_mul_ok e t H a b). Qed.
Theorem C98_neg e t a : In t int_types -> in_reg 128 a ->
  (e = Vmx -> t = i64 -> forall i, 0 <= i < 2 -> in_ty i64 (- elt t a i)) ->
  exists r, p_neg e t a = Some r /\ pvector t r (fun i v => wraps_to t (- elt t a i) v).
Proof. intros H. exact (p_neg_ok e t H a). Qed.
Theorem C98_abs e t a : In t int_types -> in_reg 128 a ->
  (e = Vmx -> t = i64 -> forall i, 0 <= i < 2 -> in_ty i64 (- elt t a i)) ->
  exists r, p_abs e t a = Some r /\ pvector t r (fun i v => wraps_to t (Z.abs (elt t a i)) v).
Proof. intros H. exact (p_abs_ok e t H a). Qed.
Theorem C98_min_max e t a b : In t int_types ->
  (exists r, p_min e t a b = Some r /\ pvector t r (fun i v => v = Z.min (elt t a i) (elt t b i))) /\
  (exists r, p_max e t a b = Some r /\ pvector t r (fun i v => v = Z.max (elt t a i) (elt t b i))).
Proof. intros H. split; [exact (p_min_ok e t H a b)|exact (p_max_ok e t H a b)]. Qed.
Theorem C98_adds e t a b : In t int_types ->
  exists r, p_adds e t a b = Some r /\ pvector t r (fun i v => v = clamp t (elt t a i + elt t b i)).
Proof. intros H. exact (p_adds_ok e t H a b). Qed.
Theorem C98_subs e t a b : In t int_types -> (t = i64 -> forall i, 0 <= i < 2 -> elt t b i <> - 2 ^ 63) ->
  exists r, p_subs e t a b = Some r /\ pvector t r (fun i v => v = clamp t (elt t a i - elt t b i)).
Proof. intros H. exact (p_subs_ok e t H a b). Qed.
Theorem C98_div e t a b : In t int_types -> (forall i, 0 <= i < 128 / bits t -> ~ bad_div t (elt t a i) (elt t b i)) ->
  exists r, p_div e t a b = Some r /\ pvector t r (fun i v => wraps_to t (Z.quot (elt t a i) (elt t b i)) v).
Proof. intros H. exact (p_div_ok e t H a b). Qed.
Theorem C98_fma neg sub e t a b c : In t int_types -> in_reg 128 c ->
  (e = Vmx -> t = i64 -> forall i, 0 <= i < 2 -> Forall (in_ty i64) (p_fma_steps neg sub (elt t a i) (elt t b i) (elt t c i))) ->
  exists r, p_fma_family neg sub e t a b c = Some r /\
    pvector t r (fun i v => wraps_to t (p_fma_value neg sub (elt t a i) (elt t b i) (elt t c i)) v).
Proof. exact (p_fma_ok neg sub e t a b c). Qed.
(** On vmx the operators on 64-bit integers are C expressions on signed integers: whenever one element overflows,
    the whole operation has no defined result.  [subs] on i64 is in this case on vsx too. *)
Theorem C98_arithmetic_undefined a b i : 0 <= i < 2 ->
  (~ in_ty i64 (elt i64 a i + elt i64 b i) -> p_add Vmx i64 a b = None) /\
  (~ in_ty i64 (elt i64 a i - elt i64 b i) -> p_sub Vmx i64 a b = None) /\
  (~ in_ty i64 (elt i64 a i * elt i64 b i) -> p_mul Vmx i64 a b = None) /\
  (elt i64 a i = - 2 ^ 63 -> p_neg Vmx i64 a = None /\ p_abs Vmx i64 a = None).
Proof.
  intros Hi. split; [exact (p_add_none a b i Hi)|]. split; [exact (p_sub_none a b i Hi)|]. split; [exact (p_mul_none a b i Hi)|].
  intros N. split; [exact (p_neg_none a i Hi N)|exact (p_abs_none a i Hi N)].
Qed.
Theorem C98_subs_undefined e a b i : 0 <= i < 2 -> elt i64 b i = - 2 ^ 63 -> p_subs e i64 a b = None.
Proof. exact (p_subs_none e a b i). Qed.
Theorem C98_div_undefined e t a b i : In t int_types -> 0 <= i < 128 / bits t -> bad_div t (elt t a i) (elt t b i) ->
  p_div e t a b = None.
Proof. intros H. exact (p_div_none e t H a b i). Qed.
Theorem C98_fma_undefined neg sub a b c i : 0 <= i < 2 ->
  ~ Forall (in_ty i64) (p_fma_steps neg sub (elt i64 a i) (elt i64 b i) (elt i64 c i)) -> p_fma_family neg sub Vmx i64 a b c = None.
Proof. exact (p_fma_none neg sub a b c i). Qed.
Example C98_ex :
  option_map (pelts i32) (p_add Vmx i32 (pvec i32 [2 ^ 31 - 1; 5; -7; 0]) (pvec i32 [1; -9; -7; 0])) = Some [- 2 ^ 31; -4; -14; 0] /\
  option_map (pelts i64) (p_mul Vmx i64 (pvec i64 [3; -4]) (pvec i64 [2 ^ 40; 5])) = Some [3 * 2 ^ 40; -20] /\
  option_map (pelts u64) (p_neg Vmx u64 (pvec u64 [1; 0])) = Some [2 ^ 64 - 1; 0] /\
  option_map (pelts i64) (p_subs Vsx i64 (pvec i64 [- 2 ^ 63; 7]) (pvec i64 [1; 9])) = Some [- 2 ^ 63; -2] /\
  option_map (pelts i32) (p_div Vsx i32 (pvec i32 [7; -7; 9; 1]) (pvec i32 [2; 2; -3; 5])) = Some [3; -3; -3; 0] /\
  option_map (pelts i16) (p_fma_family true true Vsx i16 (pvec i16 [3; -4; 1]) (pvec i16 [5; 6; 1]) (pvec i16 [1; 2; 3])) = Some [-16; 22; -4; 0; 0; 0; 0; 0] /\
  p_add Vmx i64 (pvec i64 [2 ^ 63 - 1; 0]) (pvec i64 [1; 0]) = None.
Proof. vm_compute. repeat split. Qed.

(** *** C99: bitwise operators, shifts and broadcasts *)
Theorem C99_bitwise e t a b k : In t int_types -> in_reg 128 a -> in_reg 128 b -> 0 <= k < 128 ->
  (exists r, p_andb e t a b = Some r /\ in_reg 128 r /\ Z.testbit r k = Z.testbit a k && Z.testbit b k) /\
  (exists r, p_orb e t a b = Some r /\ in_reg 128 r /\ Z.testbit r k = Z.testbit a k || Z.testbit b k) /\
  (exists r, p_xorb e t a b = Some r /\ in_reg 128 r /\ Z.testbit r k = xorb (Z.testbit a k) (Z.testbit b k)) /\
  (exists r, p_andnotb e t a b = Some r /\ in_reg 128 r /\ Z.testbit r k = Z.testbit a k && negb (Z.testbit b k)) /\
  (exists r, p_notb e t a = Some r /\ in_reg 128 r /\ Z.testbit r k = negb (Z.testbit a k)).
Proof. exact (p_bits_ok e t a b k). Qed.
Theorem C99_shl e t a c : In t int_types -> 0 <= c < bits t ->
  exists r, p_shl e t a c = Some r /\ pvector t r (fun i v => wraps_to t (elt t a i * 2 ^ c) v).
Proof. exact (p_shl_ok e t a c). Qed.
Theorem C99_shr e t a c : In t int_types -> 0 <= c < bits t ->
  exists r, p_shr e t a c = Some r /\ pvector t r (fun i v => wraps_to t ((elt t a i mod 2 ^ bits t) / 2 ^ c) v).
Proof. exact (p_shr_ok e t a c). Qed.
Theorem C99_shra e t a c : In t int_types -> 0 <= c < bits t -> is_signed t = true \/ (e = Vmx /\ t = u64) ->
  exists r, p_shra e t a c = Some r /\ pvector t r (fun i v => v = elt t a i / 2 ^ c).
Proof. exact (p_shra_ok e t a c). Qed.
(** On the other unsigned types the shift replicates the most significant bit, where every other back end inserts
    zeros: the result is wrong for every element of at least half of the range, whatever the count but 0. *)
Theorem C99_shra_unsigned e t a c : In t int_types -> 0 <= c < bits t -> is_signed t = false -> ~ (e = Vmx /\ t = u64) ->
  exists r, p_shra e t a c = Some r /\
    pvector t r (fun i v => v = if elt t a i <? 2 ^ (bits t - 1) then elt t a i / 2 ^ c
                                else elt t a i / 2 ^ c + (2 ^ bits t - 2 ^ (bits t - c))).
Proof. exact (p_shra_unsigned e t a c). Qed.
Theorem C99_shra_refuted e t a c i : In t int_types -> 0 < c < bits t -> is_signed t = false -> ~ (e = Vmx /\ t = u64) ->
  0 <= i < 128 / bits t -> 2 ^ (bits t - 1) <= elt t a i ->
  exists r, p_shra e t a c = Some r /\ elt t r i <> elt t a i / 2 ^ c.
Proof.
  intros H Hc S N Hi L. destruct (p_shra_unsigned e t a c H ltac:(lia) S N) as (r & Er & _ & V). exists r. split; [exact Er|].
  rewrite V by exact Hi. replace (elt t a i <? 2 ^ (bits t - 1)) with false by lia.
  assert (2 ^ (bits t - c) < 2 ^ bits t) by (apply Z.pow_lt_mono_r; lia). lia.
Qed.
Theorem C99_set1 e t x : In t int_types -> in_ty t x -> pvector t (p_set1 e t x) (fun _ v => v = x).
Proof. intros H I. destruct (p_set1_ok e t x H) as [R V]. split; [exact R|]. intros i Hi. rewrite V by exact Hi. exact (cast_id t x H I). Qed.
Example C99_ex :
  option_map (pelts u64) (p_notb Vmx u64 (pvec u64 [0; 5])) = Some [2 ^ 64 - 1; 2 ^ 64 - 6] /\
  option_map (pelts i32) (p_shra Vsx i32 (pvec i32 [-9; 9; -1; 64]) 2) = Some [-3; 2; -1; 16] /\
  option_map (pelts i32) (p_shr Vsx i32 (pvec i32 [-1; 9; 8; 64]) 28) = Some [15; 0; 0; 0] /\
  option_map (pelts u32) (p_shra Vsx u32 (pvec u32 [2 ^ 31; 8; 1; 0]) 3) = Some [2 ^ 31 + 2 ^ 30 + 2 ^ 29 + 2 ^ 28; 1; 0; 0] /\
  pelts i64 (p_set1 Vmx i64 (-3)) = [-3; -3].
Proof. vm_compute. repeat split. Qed.

(** *** C100: comparisons, operators on logicals, selection, reductions of logicals, masks *)
Theorem C100_compare e t a b : In t int_types ->
  plogical t (p_eq e t a b) (fun i => elt t a i =? elt t b i) /\
  plogical t (p_ne e t a b) (fun i => negb (elt t a i =? elt t b i)) /\
  plogical t (p_lt e t a b) (fun i => elt t a i <? elt t b i) /\
  plogical t (p_le e t a b) (fun i => elt t a i <=? elt t b i) /\
  plogical t (p_gt e t a b) (fun i => elt t b i <? elt t a i) /\
  plogical t (p_ge e t a b) (fun i => elt t b i <=? elt t a i).
Proof.
  intros H. split; [apply p_cmp_ok; [exact H|reflexivity]|]. split; [apply p_ne_ok; exact H|].
  split; [apply p_cmp_ok; [exact H|reflexivity]|]. split; [apply p_cmp_ok; [exact H|reflexivity]|].
  split; (eapply plogical_ext; [apply p_cmp_ok; [exact H|intros x y; symmetry; (apply Z.gtb_ltb || apply Z.geb_leb)]|]); intros i _; cbn beta;
    [apply Z.gtb_ltb|apply Z.geb_leb].
Qed.
Theorem C100_logical_operators e t a b p q : In t int_types -> plogical t a p -> plogical t b q ->
  plogical t (p_andl e t a b) (fun i => p i && q i) /\ plogical t (p_orl e t a b) (fun i => p i || q i) /\
  plogical t (p_xorl e t a b) (fun i => xorb (p i) (q i)) /\ plogical t (p_andnotl e t a b) (fun i => p i && negb (q i)) /\
  plogical t (p_notl e t a) (fun i => negb (p i)).
Proof. exact (p_lops_ok e t a b p q). Qed.
Theorem C100_set1l e t x : In t int_types -> plogical t (p_set1l e t x) (fun _ => negb (x =? 0)).
Proof. exact (p_set1l_ok e t x). Qed.
Theorem C100_if_else e t l p a b : In t int_types -> in_reg 128 a -> in_reg 128 b -> plogical t l p ->
  pvector t (p_if_else1 e t l a b) (fun i v => v = if p i then elt t a i else elt t b i).
Proof. exact (p_if_else1_ok e t l p a b). Qed.
Theorem C100_all_any e t l p : In t int_types -> plogical t l p ->
  (p_all e t l = true <-> (forall i, 0 <= i < 128 / bits t -> p i = true)) /\
  (p_any e t l = true <-> (exists i, 0 <= i < 128 / bits t /\ p i = true)).
Proof. intros H L. split; [exact (p_all_ok e t l p H L)|exact (p_any_ok e t l p H L)]. Qed.
Theorem C100_nbtrue e t l p : In t int_types -> plogical t l p -> p_nbtrue e t l = Some (count_true (128 / bits t) p).
Proof. exact (p_nbtrue_ok e t l p). Qed.
Theorem C100_to_mask e t l p : In t int_types -> plogical t l p ->
  pvector t (p_to_mask e t l) (fun i v => v = if p i then cast t (-1) else 0).
Proof. exact (p_to_mask_ok e t l p). Qed.
Theorem C100_to_logical e t a : In t int_types -> plogical t (p_to_logical e t a) (fun i => negb (elt t a i =? 0)).
Proof. exact (p_to_logical_ok e t a). Qed.
Example C100_ex :
  let l := p_lt Vsx i16 (pvec i16 [1; -2; 3; 4; 5; 6; 7; 8]) (pvec i16 [2; -3; 9; 4; 6; 6; 8; 7]) in
  pelts i16 l = [-1; 0; -1; 0; -1; 0; -1; 0] /\ p_nbtrue Vsx i16 l = Some 4 /\ p_any Vsx i16 l = true /\ p_all Vsx i16 l = false /\
  pelts i16 (p_if_else1 Vsx i16 l (pvec i16 [1; 2; 3; 4; 5; 6; 7; 8]) 0) = [1; 0; 3; 0; 5; 0; 7; 0].
Proof. vm_compute. repeat split. Qed.
Example C100_ex_pair :
  let l := p_ge Vmx u64 (pvec u64 [2 ^ 63; 1]) (pvec u64 [5; 5]) in
  p_nbtrue Vmx u64 l = Some 1 /\ p_any Vmx u64 l = true /\ p_all Vmx u64 l = false /\ l = 2 ^ 64 - 1 /\
  pelts u64 (p_notl Vmx u64 l) = [0; 2 ^ 64 - 1].
Proof. vm_compute. repeat split. Qed.

(** *** C101: iota and the mask of the last iteration of a loop *)
Theorem C101_iota e t : In t int_types -> exists r, p_iota e t = Some r /\ pvector t r (fun i v => v = i).
Proof. exact (p_iota_ok e t). Qed.
Theorem C101_mask_for_loop_tail e t i n : In t int_types -> n <= i \/ in_ty i32 (n - i) ->
  exists l, p_mask_for_loop_tail e t i n = Some l /\ plogical t l (fun j => i + j <? n).
Proof. exact (p_tail_ok e t i n). Qed.
Theorem C101_mask_for_loop_tail_undefined e t i n : i < n -> ~ in_ty i32 (n - i) -> p_mask_for_loop_tail e t i n = None.
Proof.
  intros L N. unfold p_mask_for_loop_tail. replace (n <=? i) with false by lia.
  assert (carith i32 (n - i) = None) as ->; [|reflexivity]. unfold carith. change (is_signed i32) with true.
  unfold in_ty in N. destruct ((ty_min i32 <=? n - i) && (n - i <=? ty_max i32)) eqn:E; [|reflexivity]. exfalso. apply N. lia.
Qed.
Example C101_ex : option_map (pelts i32) (p_iota Vsx i32) = Some [0; 1; 2; 3] /\
  option_map (pelts i32) (p_mask_for_loop_tail Vmx i32 5 8) = Some [-1; -1; -1; 0] /\
  option_map (pelts i64) (p_mask_for_loop_tail Vmx i64 7 8) = Some [-1; 0] /\
  option_map (pelts u8) (p_mask_for_loop_tail Vsx u8 0 100) = Some (repeat 255 16).
Proof. vm_compute. repeat split. Qed.

Print Assumptions C98_fma_undefined.
Print Assumptions C98_div.
Print Assumptions C99_bitwise.
Print Assumptions C99_shra_refuted.
Print Assumptions C100_nbtrue.
Print Assumptions C100_if_else.
Print Assumptions C101_mask_for_loop_tail.
