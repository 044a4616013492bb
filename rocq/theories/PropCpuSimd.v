(** Properties C16-C23: the CPU emulation backend (egg/platform_cpu.py).
    [None] is undefined behaviour (an unmapped element, signed overflow, ...).
    Vectors have any length [n]. *)
From Coq Require Import ZArith Lia Bool List.
From Verif Require Import CInt FloatSpec FloatProofs Fp16 ScalarOps ScalarSpec ScalarProofs CpuSimd CpuSimdSpec CpuSimdProofs CpuSimdMem CpuSimdLoop.
Import ListNotations.
Open Scope Z_scope.

(** C16. Any expression over vector operators computes lane [i] of its result from
    lane [i] of the variables with the scalar operators: [sveval]. *)
Theorem C16_lanewise : forall t n ve le e,
  ety_ok t -> (forall k, length (ve k) = n) -> (forall k, length (le k) = n /\ canonical (le k)) ->
  forall r, veval t n ve le e = Some r <->
    length r = n /\ forall i, (i < n)%nat ->
      sveval t (fun k => nth i (ve k) 0) (fun k => truth (nth i (le k) 0)) (Z.of_nat i) e = Some (nth i r 0).
Proof.
  intros t n ve le e Ht Hv Hl r.
  destruct (eval_ok t n ve le Ht Hv (fun k => proj1 (Hl k)) (fun k => proj2 (Hl k))) as [V _]. specialize (V e). unfold vgoal in V. rewrite V.
  rewrite <- func_body_seq, func_body_iff. split; intros [L H]; (split; [exact L|]); intros i Hi; specialize (H i Hi).
  - rewrite nth_lane in H by lia. exact H.
  - rewrite nth_lane by lia. exact H.
Qed.
Print Assumptions C16_lanewise.

(** Each lane of +, -, * on integers is the exact result modulo 2^bits, and the
    vector operation is defined as soon as every lane is. *)
Theorem C16_integer_arith : forall t op n a b, In t int_types ->
  length a = n -> length b = n ->
  (forall r, op2 t op n a b = Some r -> length r = n /\ forall i, (i < n)%nat -> wraps_to t (op (nth i a 0) (nth i b 0)) (nth i r 0)) /\
  ((forall i, (i < n)%nat -> in_ty t (op (nth i a 0) (nth i b 0))) ->
     exists r, op2 t op n a b = Some r /\ forall i, (i < n)%nat -> nth i r 0 = op (nth i a 0) (nth i b 0)) /\
  (In t [u32; u64] -> exists r, op2 t op n a b = Some r).
Proof.
  intros t op n a b Ht La Lb.
  assert (V : forall r, op2 t op n a b = Some r -> length r = n /\ forall i, (i < n)%nat -> wraps_to t (op (nth i a 0) (nth i b 0)) (nth i r 0)).
  { intros r E. pose proof (func_body_length _ _ _ E) as L. split; [exact L|]. intros i Hi.
    pose proof (func_body_lane _ _ _ E i Hi) as Q. rewrite !nth_lane in Q by lia. cbn [bind2 bind] in Q. symmetry in Q.
    eapply casted_value; [exact Ht|exact Q|]. intros y Hy. apply carith_congr; assumption. }
  split; [exact V|]. split.
  - intros F. destruct (func_body_defined n (fun i => bind2 (lane a i) (lane b i) (fun x y => casted t (carith (promote t) (op x y))))) as (r & E).
    { intros i Hi. rewrite !nth_lane by lia. cbn [bind2 bind]. rewrite carith_promote_fits by (try exact Ht; apply F; exact Hi). discriminate. }
    exists r. split; [exact E|]. intros i Hi. pose proof (func_body_length _ _ _ E) as L.
    pose proof (func_body_lane _ _ _ E i Hi) as Q. rewrite !nth_lane in Q by lia. cbn [bind2 bind] in Q.
    rewrite carith_promote_fits in Q by (try exact Ht; apply F; exact Hi). cbn [casted bind] in Q. rewrite cast_id in Q by (try exact Ht; apply F; exact Hi). injection Q as ->. reflexivity.
  - intros Hu. apply func_body_defined. intros i Hi. rewrite !nth_lane by lia. cbn [bind2 bind].
    destruct Hu as [<-|[<-|[]]]; unfold carith; cbn; discriminate.
Qed.
Print Assumptions C16_integer_arith.

(** x > y ? x - y : 0, on four u32 lanes. *)
Example C16_ex : veval (EI u32) 4 (fun k => match k with O => [7; 2; 4294967295; 5] | _ => [3; 9; 1; 5] end) (fun _ => [0; 0; 0; 0])
  (VIf (LCmp Z.gtb (VVar 0) (VVar 1)) (VBin (s_sub u32) (VVar 0) (VVar 1)) (VSet 0)) = Some [4; 0; 4294967294; 0].
Proof. vm_compute. reflexivity. Qed.
Example C16_ex2 : op2 i8 Z.add 2 [100; -5] [100; 7] = Some [-56; 2].
Proof. vm_compute. reflexivity. Qed.

(** C17. Any expression over logicals yields canonical lanes whose truth values are
    the boolean expression. *)
Theorem C17_logicals : forall t n ve le e,
  ety_ok t -> (forall k, length (ve k) = n) -> (forall k, length (le k) = n /\ canonical (le k)) ->
  forall r, leval t n ve le e = Some r <->
    length r = n /\ canonical r /\ forall i, (i < n)%nat ->
      sleval t (fun k => nth i (ve k) 0) (fun k => truth (nth i (le k) 0)) (Z.of_nat i) e = Some (truth (nth i r 0)).
Proof.
  intros t n ve le e Ht Hv Hl r.
  destruct (eval_ok t n ve le Ht Hv (fun k => proj1 (Hl k)) (fun k => proj2 (Hl k))) as [_ V]. specialize (V e). unfold lgoal in V. rewrite V.
  rewrite <- (func_body_seq n (fun i => option_map canon (sleval t (sv ve i) (sl le i) (Z.of_nat i) e))), func_body_iff. split.
  - intros [L H]. split; [exact L|]. assert (N : forall i, (i < n)%nat -> exists c, sleval t (sv ve i) (sl le i) (Z.of_nat i) e = Some c /\ nth i r 0 = canon c).
    { intros i Hi. specialize (H i Hi). rewrite nth_lane in H by lia. destruct (sleval _ _ _ _ e) as [c|]; [|discriminate]. exists c. split; [reflexivity|]. cbn in H. injection H as <-. reflexivity. }
    split.
    + apply Forall_forall. intros z Hz. apply (In_nth _ _ 0) in Hz. destruct Hz as (i & Hi & <-). destruct (N i ltac:(lia)) as (c & _ & ->). destruct c; [right|left]; reflexivity.
    + intros i Hi. destruct (N i Hi) as (c & Ec & ->). rewrite truth_canon. exact Ec.
  - intros [L [C H]]. split; [exact L|]. intros i Hi. specialize (H i Hi). fold (sv ve i) (sl le i) in H. rewrite nth_lane by lia. 
    unfold sv, sl in *. rewrite H. cbn. f_equal. symmetry. apply canon_truth. unfold canonical in C. rewrite Forall_forall in C. apply C. apply nth_In. lia.
Qed.
Print Assumptions C17_logicals.

Theorem C17_reductions : forall n a, length a = n -> canonical a ->
  all1 n a = Some (if forallb truth a then -1 else 0) /\
  any1 n a = Some (if existsb truth a then -1 else 0) /\
  nbtrue1 n a = Some (count_true (map truth a)).
Proof. intros n a L C. split; [apply all1_ok|split; [apply any1_ok|apply nbtrue1_ok]]; assumption. Qed.
Print Assumptions C17_reductions.

(** loadl yields canonical vectors, and loadl after storel is the identity. *)
Theorem C17_loadl : forall t n m p, (forall i, (i < n)%nat -> bind (m (p + Z.of_nat i)) (lane_in t) <> None) ->
  exists r, loadl t n m p = Some r /\ length r = n /\ canonical r /\
    forall i, (i < n)%nat -> forall x, bind (m (p + Z.of_nat i)) (lane_in t) = Some x -> truth (nth i r 0) = negb (is_zero t x).
Proof. exact loadl_ok. Qed.
Print Assumptions C17_loadl.
Theorem C17_storel_loadl : forall t n m p a, length a = n -> canonical a -> mapped m p n ->
  exists m', storel t n m p a = Some m' /\ loadl t n m' p = Some a.
Proof. exact loadl_storel. Qed.
Print Assumptions C17_storel_loadl.
(** to_logical after to_mask is the identity. *)
Theorem C17_mask_logical : forall t n a, ety_ok t -> length a = n -> canonical a ->
  bind (to_mask1 t n a) (to_logical1 t n) = Some a.
Proof.
  intros t n a Ht L C.
  pose proof (C17_logicals t n (fun _ => repeat 0 n) (fun _ => a) (LTo (VMask (LVar 0))) Ht (fun _ => repeat_length 0 n) (fun _ => conj L C) a) as Q.
  cbn [leval veval bind] in Q. apply Q. split; [exact L|]. split; [exact C|]. intros i Hi. cbn [sleval sveval]. f_equal.
  rewrite pattern_of_mask by exact Ht. apply negb_involutive.
Qed.
Print Assumptions C17_mask_logical.
Example C17_ex : leval (EI i16) 3 (fun _ => [5; -3; 0]) (fun _ => [0; 2 ^ 32 - 1; 2 ^ 32 - 1])
  (LAndnot (LVar 0) (LNot (LCmp Z.ltb (VVar 0) (VSet 0)))) = Some [0; 2 ^ 32 - 1; 0].
Proof. vm_compute. reflexivity. Qed.
Example C17_ex2 : all1 2 [2 ^ 32 - 1; 0] = Some 0 /\ any1 2 [2 ^ 32 - 1; 0] = Some (-1) /\ nbtrue1 2 [2 ^ 32 - 1; 0] = Some 1.
Proof. vm_compute. auto. Qed.

(** C18. [active l i]: lane [i] of the mask is true. Only elements of active lanes
    need to be mapped. *)
Theorem C18_mask_store : forall t n m l p a, length l = n -> length a = n ->
  (forall i, (i < n)%nat -> active l i = true -> m (p + Z.of_nat i) <> None) ->
  exists m', mask_store t n m l p a = Some m' /\
    (forall i, (i < n)%nat -> active l i = true -> m' (p + Z.of_nat i) = Some (lane_out t (nth i a 0))) /\
    (forall x, (forall i, (i < n)%nat -> active l i = true -> x <> p + Z.of_nat i) -> m' x = m x).
Proof. exact mask_store_ok. Qed.
Print Assumptions C18_mask_store.
Theorem C18_maskz_load : forall t n m l p, length l = n ->
  (forall i, (i < n)%nat -> active l i = true -> bind (m (p + Z.of_nat i)) (lane_in t) <> None) ->
  exists r, maskz_load t n m l p = Some r /\ length r = n /\
    forall i, (i < n)%nat -> Some (nth i r 0) = if active l i then bind (m (p + Z.of_nat i)) (lane_in t) else Some 0.
Proof. exact maskz_load_ok. Qed.
Print Assumptions C18_maskz_load.
Theorem C18_masko_load : forall t n m l p o, length l = n -> length o = n ->
  (forall i, (i < n)%nat -> active l i = true -> bind (m (p + Z.of_nat i)) (lane_in t) <> None) ->
  exists r, masko_load t n m l p o = Some r /\ length r = n /\
    forall i, (i < n)%nat -> Some (nth i r 0) = if active l i then bind (m (p + Z.of_nat i)) (lane_in t) else Some (nth i o 0).
Proof. exact masko_load_ok. Qed.
Print Assumptions C18_masko_load.
(** A memory of two elements, a vector of three lanes. *)
Definition mem2 : mem := fun x => if x =? 10 then Some 1 else if x =? 11 then Some 2 else None.
Example C18_ex : maskz_load (EI u8) 3 mem2 [5; 1; 0] 10 = Some [1; 2; 0] /\
  masko_load (EI u8) 3 mem2 [0; 1; 0] 10 [7; 8; 9] = Some [7; 2; 9] /\
  option_map (fun m => (m 10, m 11, m 12)) (mask_store (EI u8) 3 mem2 [0; 1; 0] 10 [7; 8; 9]) = Some (Some 1, Some 8, None).
Proof. vm_compute. auto. Qed.

(** C19. [lane_at regs j i]: lane [i] of register [j]. *)
Theorem C19_load_deg : forall t deg n m p,
  (forall k, (k < deg * n)%nat -> bind (m (p + Z.of_nat k)) (lane_in t) <> None) ->
  exists regs, load_deg t deg n m p = Some regs /\ length regs = deg /\
    forall j, (j < deg)%nat -> length (nth j regs []) = n /\
      forall i, (i < n)%nat -> Some (nth i (nth j regs []) 0) = bind (m (p + Z.of_nat (deg * i + j))) (lane_in t).
Proof. exact load_deg_ok. Qed.
Print Assumptions C19_load_deg.
Theorem C19_store_deg : forall t deg n m p regs, (0 < deg)%nat -> length regs = deg -> (forall j, (j < deg)%nat -> length (nth j regs []) = n) ->
  mapped m p (deg * n) ->
  exists m', store_deg t deg n m p regs = Some m' /\
    (forall i j, (i < n)%nat -> (j < deg)%nat -> m' (p + Z.of_nat (deg * i + j)) = Some (lane_out t (lane_at regs j i))) /\
    (forall x, in_range p x (deg * n) = false -> m' x = m x).
Proof. exact store_deg_ok. Qed.
Print Assumptions C19_store_deg.
(** Load after store, for lanes that the element type represents (always true
    except for f16 lanes that are not halves). *)
Theorem C19_load_after_store : forall t deg n m p regs, (0 < deg)%nat -> length regs = deg -> (forall j, (j < deg)%nat -> length (nth j regs []) = n) ->
  mapped m p (deg * n) -> (forall j i, (j < deg)%nat -> (i < n)%nat -> lane_in t (lane_out t (lane_at regs j i)) = Some (lane_at regs j i)) ->
  exists m', store_deg t deg n m p regs = Some m' /\ load_deg t deg n m' p = Some regs.
Proof. exact load_after_store. Qed.
Print Assumptions C19_load_after_store.
(** Store after load, for elements that survive the load (always true except for
    f16 NaN patterns other than 0xffff). *)
Theorem C19_store_after_load : forall t deg n m p, (0 < deg)%nat -> mapped m p (deg * n) ->
  (forall k v, (k < deg * n)%nat -> m (p + Z.of_nat k) = Some v -> exists x, lane_in t v = Some x /\ lane_out t x = v) ->
  exists regs m', load_deg t deg n m p = Some regs /\ store_deg t deg n m p regs = Some m' /\ forall x, m' x = m x.
Proof. exact store_after_load. Qed.
Print Assumptions C19_store_after_load.
(** Those side conditions are trivial for every type but f16. *)
Theorem C19_conditions : forall t x, t <> EF16 -> lane_in t (lane_out t x) = Some x /\ lane_in t x = Some x /\ lane_out t x = x.
Proof. intros [t| | |] x H; try (repeat split; reflexivity). congruence. Qed.
Print Assumptions C19_conditions.
Definition mem6 : mem := fun x => if (0 <=? x) && (x <? 6) then Some (x + 100) else None.
Example C19_ex : load_deg (EI i16) 3 2 mem6 0 = Some [[100; 103]; [101; 104]; [102; 105]] /\
  option_map (fun m => map m [0; 1; 2; 3; 4; 5; 6]) (store_deg (EI i16) 3 2 mem6 0 [[1; 4]; [2; 5]; [3; 6]])
  = Some [Some 1; Some 2; Some 3; Some 4; Some 5; Some 6; None].
Proof. vm_compute. auto. Qed.

(** C20. *)
Theorem C20_zip : forall h a b, length a = (2 * h)%nat -> length b = (2 * h)%nat ->
  exists x y, zip (2 * h) a b = Some (x, y) /\ length x = (2 * h)%nat /\ length y = (2 * h)%nat /\
    forall i, (i < h)%nat ->
      lane x (2 * i) = lane a i /\ lane x (2 * i + 1) = lane b i /\
      lane y (2 * i) = lane a (h + i) /\ lane y (2 * i + 1) = lane b (h + i).
Proof.
  intros h a b La Lb. destruct (zip_lanes h a b La Lb) as (x & y & E & Lx & Ly & X & Y). exists x, y.
  split; [exact E|]. split; [exact Lx|]. split; [exact Ly|]. intros i Hi.
  destruct (even_lemmas i) as (E1 & E2 & D1 & D2). rewrite !(Nat.mul_comm 2 i). rewrite !X, !Y by lia. unfold zl. rewrite E1, E2, D1, D2.
  rewrite Nat.add_0_r, (Nat.add_comm i h). auto.
Qed.
Print Assumptions C20_zip.
Theorem C20_unzip : forall h a b, length a = (2 * h)%nat -> length b = (2 * h)%nat ->
  exists x y, unzip (2 * h) a b = Some (x, y) /\ length x = (2 * h)%nat /\ length y = (2 * h)%nat /\
    forall i, (i < h)%nat ->
      lane x i = lane a (2 * i) /\ lane x (h + i) = lane b (2 * i) /\
      lane y i = lane a (2 * i + 1) /\ lane y (h + i) = lane b (2 * i + 1).
Proof.
  intros h a b La Lb. destruct (unzip_lanes h a b La Lb) as (x & y & E & Lx & Ly & X & Y). exists x, y.
  split; [exact E|]. split; [exact Lx|]. split; [exact Ly|]. intros i Hi.
  rewrite !X, !Y by lia. unfold uz. destruct (Nat.ltb_spec i h); [|lia]. destruct (Nat.ltb_spec (h + i) h); [lia|].
  replace (h + i - h)%nat with i by lia. rewrite (Nat.mul_comm i 2), Nat.add_0_r. auto.
Qed.
Print Assumptions C20_unzip.
Theorem C20_inverse : forall h a b, length a = (2 * h)%nat -> length b = (2 * h)%nat ->
  bind (zip (2 * h) a b) (fun p => unzip (2 * h) (fst p) (snd p)) = Some (a, b) /\
  bind (unzip (2 * h) a b) (fun p => zip (2 * h) (fst p) (snd p)) = Some (a, b).
Proof. intros h a b La Lb. split; [apply unzip_zip|apply zip_unzip]; assumption. Qed.
Print Assumptions C20_inverse.
Example C20_ex : zip 4 [1; 2; 3; 4] [5; 6; 7; 8] = Some ([1; 5; 2; 6], [3; 7; 4; 8]) /\
  unzip 4 [1; 2; 3; 4] [5; 6; 7; 8] = Some ([1; 3; 5; 7], [2; 4; 6; 8]).
Proof. vm_compute. auto. Qed.

(** C21. The loop bound is an [int] and [i + len] is computed in [int], hence the
    bound on [n].  Only the elements [0, n) of src and dst need to be mapped. *)
Theorem C21_loop_tail : forall t len g src dst n m0,
  (1 <= len)%nat -> 0 <= n -> n + Z.of_nat len <= 2 ^ 31 ->
  (forall k, 0 <= k < n -> exists v x, m0 (src + k) = Some v /\ lane_in t v = Some x /\ g x <> None) ->
  (forall k, 0 <= k < n -> m0 (dst + k) <> None) -> g 0 <> None ->
  src = dst \/ src + n <= dst \/ dst + n <= src ->
  exists m', tail_loop (Z.to_nat n + 1) t len g src dst n 0 m0 = Some m' /\
    (forall k, 0 <= k < n -> exists v x y,
        m0 (src + k) = Some v /\ lane_in t v = Some x /\ g x = Some y /\ m' (dst + k) = Some (lane_out t y)) /\
    (forall a, ~ (dst <= a < dst + n) -> m' a = m0 a).
Proof.
  intros t len g src dst n m0 H1 H2 H3 Hs Hd H0 Ha.
  destruct (tail_loop_ok t len g src dst n m0 H1 H2 H3) as (m' & E & W1 & W2); try assumption.
  - intros k Hk. destruct (Hs k Hk) as (v & x & E1 & E2 & E3). unfold tail_out. rewrite E1. cbn [bind]. rewrite E2. cbn [bind]. destruct (g x); [discriminate|congruence].
  - exists m'. split; [exact E|]. split; [|exact W2]. intros k Hk. destruct (Hs k Hk) as (v & x & E1 & E2 & E3).
    specialize (W1 k Hk). unfold tail_out in W1. rewrite E1 in W1. cbn [bind] in W1. rewrite E2 in W1. cbn [bind] in W1.
    destruct (g x) as [y|] eqn:Eg; [|congruence]. exists v, x, y. auto.
Qed.
Print Assumptions C21_loop_tail.
(** Near INT_MAX the same loop overflows an int: undefined. *)
Theorem C21_near_int_max_refuted : exists len i n, (1 <= len)%nat /\ 0 <= i < n /\ n < 2 ^ 31 /\ mask_for_loop_tail len i n = None.
Proof. exists 4%nat, (2 ^ 31 - 2), (2 ^ 31 - 1). repeat split; try lia. Qed.
Print Assumptions C21_near_int_max_refuted.
Example C21_ex : option_map (fun m => map m [0; 1; 2; 3; 4; 5; 6])
  (tail_loop 6 (EI i16) 4 (fun x => Some (x * 2)) 0 0 5 0 mem6) = Some [Some 200; Some 202; Some 204; Some 206; Some 208; Some 105; None].
Proof. vm_compute. reflexivity. Qed.

(** C22. *)
Theorem C22_upcvt : forall to n a, length a = (2 * n)%nat ->
  exists r0 r1, upcvt1 to n a = Some (r0, r1) /\ length r0 = n /\ length r1 = n /\
    (forall i, (i < n)%nat -> lane r0 i = Some (cast to (nth i a 0)) /\ lane r1 i = Some (cast to (nth (i + n) a 0))).
Proof. exact upcvt_lanes. Qed.
Print Assumptions C22_upcvt.
Theorem C22_downcvt : forall to n a b, In to int_types -> length a = n -> length b = n ->
  exists r, downcvt2 to n a b = Some r /\ length r = (2 * n)%nat /\
    (forall i, (i < n)%nat -> wraps_to to (nth i a 0) (nth i r 0) /\ wraps_to to (nth i b 0) (nth (n + i) r 0)).
Proof.
  intros to n a b Ht La Lb. destruct (downcvt_lanes to n a b La Lb) as (r & E & L & N). exists r. split; [exact E|]. split; [exact L|].
  intros i Hi. destruct (N i Hi) as (N1 & N2). rewrite nth_lane in N1, N2 by lia. rewrite (Nat.add_comm n i). injection N1 as ->. injection N2 as ->.
  split; apply cast_wraps; exact Ht.
Qed.
Print Assumptions C22_downcvt.
Theorem C22_round_trip : forall from to n a, In from int_types -> In to int_types -> bits to = 2 * bits from -> length a = (2 * n)%nat ->
  Forall (in_ty from) a ->
  bind (upcvt1 to n a) (fun p => downcvt2 from n (fst p) (snd p)) = Some a.
Proof. exact downcvt_upcvt. Qed.
Print Assumptions C22_round_trip.
Example C22_ex : upcvt1 u16 2 [-1; 2; -3; 4] = Some ([65535; 2], [65533; 4]) /\ downcvt2 i8 2 [65535; 2] [65533; 4] = Some [-1; 2; -3; 4].
Proof. vm_compute. auto. Qed.

(** C23. Manipulating the sign bit of a half that is not a NaN is correct... *)
Theorem C23_f16_sign_bit : forall a, in_u 16 a -> decode binary16 a <> FNaN ->
  f16_bitop Z.lxor a 0x8000 = Some (Z.lxor a 0x8000) /\
  f16_bitop Z.lor a 0x8000 = Some (Z.lor a 0x8000) /\
  f16_bitop Z.ldiff a 0x8000 = Some (Z.ldiff a 0x8000).
Proof.
  intros a Ha Hn. pose proof (f16_sign_op Z.lxor xorb a) as X. pose proof (f16_sign_op Z.lor orb a) as O. pose proof (f16_sign_op Z.ldiff (fun x y => x && negb y) a) as D.
  pose proof (half_bits a Z.lxor xorb) as HX. pose proof (half_bits a Z.lor orb) as HO. pose proof (half_bits a Z.ldiff (fun x y => x && negb y)) as HD.
  rewrite X, O, D; try assumption; try (intros; apply Z.lxor_spec || apply Z.lor_spec || (apply Z.ldiff_spec)); try (intros []; reflexivity);
    try (intros; apply Z.lxor_nonneg; tauto); try (intros; apply Z.lor_nonneg; tauto); try (intros; apply Z.ldiff_nonneg; tauto).
  rewrite HX, HO, HD; try assumption; try (intros; apply Z.lxor_spec || apply Z.lor_spec || (apply Z.ldiff_spec)); try (intros []; reflexivity). auto.
Qed.
Print Assumptions C23_f16_sign_bit.
(** ... but in general the operators do not act on the 16 bits. *)
Theorem C23_f16_bitwise_refuted :
  f16_bitop Z.lor 0x0400 0x4000 = Some 0x7c00 /\ Z.lor 0x0400 0x4000 = 0x4400 /\
  f16_notb 0x3c00 = Some 0xc400 /\ 0xffff - 0x3c00 = 0xc3ff.
Proof. vm_compute. auto. Qed.
Print Assumptions C23_f16_bitwise_refuted.
Example C23_ex : f16_bitop Z.lxor 0x3c00 0x8000 = Some 0xbc00 /\ f16_bitop Z.ldiff 0xbc01 0x8000 = Some 0x3c01.
Proof. vm_compute. auto. Qed.

(** C52. Gather and scatter of one vector. *)
Theorem C52_gather : forall t n m p idx, length idx = n ->
  (forall i, (i < n)%nat -> bind (m (p + nth i idx 0)) (lane_in t) <> None) ->
  exists r, gather t n m p idx = Some r /\ length r = n /\
    forall i, (i < n)%nat -> Some (nth i r 0) = bind (m (p + nth i idx 0)) (lane_in t).
Proof. exact gather_ok. Qed.
Print Assumptions C52_gather.
Theorem C52_gather_linear : forall t n m p step,
  (forall i, (i < n)%nat -> bind (m (p + Z.of_nat i * step)) (lane_in t) <> None) ->
  exists r, gather_linear t n m p step = Some r /\ length r = n /\
    forall i, (i < n)%nat -> Some (nth i r 0) = bind (m (p + Z.of_nat i * step)) (lane_in t).
Proof. exact gather_linear_ok. Qed.
Print Assumptions C52_gather_linear.
(** Among lanes with equal indices the highest lane wins. *)
Theorem C52_scatter : forall t n m p idx a, length idx = n -> length a = n ->
  (forall i, (i < n)%nat -> m (p + nth i idx 0) <> None) ->
  exists m', scatter t n m p idx a = Some m' /\
    (forall i, (i < n)%nat -> (forall j, (i < j < n)%nat -> nth j idx 0 <> nth i idx 0) ->
       m' (p + nth i idx 0) = Some (lane_out t (nth i a 0))) /\
    (forall x, (forall i, (i < n)%nat -> x <> p + nth i idx 0) -> m' x = m x).
Proof. exact scatter_ok. Qed.
Print Assumptions C52_scatter.
Theorem C52_scatter_linear : forall t n m p step a, length a = n ->
  (forall i, (i < n)%nat -> m (p + Z.of_nat i * step) <> None) ->
  exists m', scatter_linear t n m p step a = Some m' /\
    (step <> 0 -> forall i, (i < n)%nat -> m' (p + Z.of_nat i * step) = Some (lane_out t (nth i a 0))) /\
    (forall x, (forall i, (i < n)%nat -> x <> p + Z.of_nat i * step) -> m' x = m x).
Proof. exact scatter_linear_ok. Qed.
Print Assumptions C52_scatter_linear.
Example C52_ex : gather (EI i16) 3 mem6 1 [3; 0; -1] = Some [104; 101; 100] /\
  gather_linear (EI i16) 3 mem6 0 2 = Some [100; 102; 104] /\
  option_map (fun m => map m [0; 1; 2; 3]) (scatter (EI i16) 3 mem6 1 [2; 0; 2] [7; 8; 9]) = Some [Some 100; Some 8; Some 102; Some 9].
Proof. vm_compute. auto. Qed.
