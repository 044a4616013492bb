(** More of C16, C18, C22, C23 and C31: the remaining one-register operators of the
    CPU emulation backend, and zero-initialised pairs. *)
From Coq Require Import ZArith Lia Bool List.
From Verif Require Import CInt FloatSpec FloatProofs Fp16 Fp16Spec Fp16Proofs ScalarOps ScalarSpec ScalarProofs CpuSimd CpuSimdSpec CpuSimdProofs CpuSimdMem CpuSimdLoop
  X86Arith X86ArithSpec X86FmaProofs Memory MemorySpec MemoryProofs PropMemory.
Import ListNotations.
Open Scope Z_scope.

Local Notation lane := CpuSimd.lane.

(** C16. Division truncates toward zero in every lane; it is undefined exactly when
    some lane divides by zero or overflows an int or a wider signed type ([bad_div]). *)
Theorem C16_integer_div : forall t n a b, In t int_types -> length a = n -> length b = n ->
  (forall i, (i < n)%nat -> in_ty t (nth i a 0) /\ in_ty t (nth i b 0)) ->
  ((forall i, (i < n)%nat -> ~ bad_div t (nth i a 0) (nth i b 0)) ->
     exists r, op2_div t n a b = Some r /\ length r = n /\
       forall i, (i < n)%nat -> wraps_to t (Z.quot (nth i a 0) (nth i b 0)) (nth i r 0)) /\
  ((exists i, (i < n)%nat /\ bad_div t (nth i a 0) (nth i b 0)) -> op2_div t n a b = None).
Proof.
  intros t n a b Ht La Lb Hr. change (op2_div t n a b) with (func_body n (fun i => bind2 (lane a i) (lane b i) (s_div t))). split.
  - intros NB. destruct (func_body_defined n (fun i => bind2 (lane a i) (lane b i) (s_div t))) as (r & E).
    { intros i Hi. rewrite !nth_lane by lia. cbn [bind2 bind]. destruct (Hr i Hi) as [Ha Hb]. destruct (s_div_ok t _ _ Ht Ha Hb (NB i Hi)) as (z & -> & _). discriminate. }
    exists r. split; [exact E|]. pose proof (func_body_length _ _ _ E) as L. split; [exact L|]. intros i Hi.
    pose proof (func_body_lane _ _ _ E i Hi) as Q. rewrite !nth_lane in Q by lia. cbn [bind2 bind] in Q. destruct (Hr i Hi) as [Ha Hb].
    destruct (s_div_ok t _ _ Ht Ha Hb (NB i Hi)) as (z & Ez & W). rewrite Ez in Q. injection Q as ->. exact W.
  - intros (i & Hi & B). rewrite func_body_seq. apply sequence_map_none. apply in_map_iff. exists i. split; [|apply in_seq; lia].
    rewrite !nth_lane by lia. cbn [bind2 bind]. destruct (Hr i Hi). apply s_div_bad; assumption.
Qed.
Print Assumptions C16_integer_div.
Example C16_div_ex : op2_div i8 3 [-7; 7; -128] [2; -2; -1] = Some [-3; -3; -128] /\ op2_div i32 1 [- 2 ^ 31] [-1] = None /\ op2_div u8 2 [9; 9] [2; 0] = None.
Proof. vm_compute. auto. Qed.

(** iota: 0, 1, 2, ... as long as the lane numbers fit (they do: at most 16 lanes). *)
Theorem C16_iota : forall t n, In t int_types -> Z.of_nat n <= ty_max t + 1 ->
  exists r, iota t n = Some r /\ length r = n /\ forall i, (i < n)%nat -> nth i r 0 = Z.of_nat i.
Proof.
  intros t n Ht Hn. destruct (func_body_defined n (fun i => Some (cast t (Z.of_nat i)))) as (r & E); [discriminate|].
  exists r. split; [exact E|]. pose proof (func_body_length _ _ _ E) as L. split; [exact L|]. intros i Hi.
  pose proof (func_body_lane _ _ _ E i Hi) as Q. rewrite nth_lane in Q by lia. injection Q as Q. rewrite Q. apply cast_id; [exact Ht|].
  split; [|lia]. assert (ty_min t <= 0); [|lia]. cbn in Ht. decompose [or] Ht; subst; cbn; lia || tauto.
Qed.
Print Assumptions C16_iota.
Example C16_iota_ex : Z.of_nat (nb_el (EI i8)) <= ty_max i8 + 1 /\ iota i8 4 = Some [0; 1; 2; 3].
Proof. split; [vm_compute; discriminate|reflexivity]. Qed.

(** C18. Plain loads and stores. *)
Theorem C18_load : forall t n m p,
  (forall i, (i < n)%nat -> bind (m (p + Z.of_nat i)) (lane_in t) <> None) ->
  exists r, load t n m p = Some r /\ length r = n /\
    forall i, (i < n)%nat -> bind (m (p + Z.of_nat i)) (lane_in t) = Some (nth i r 0).
Proof.
  intros t n m p D. destruct (func_body_defined n (fun i => bind (read m (p + Z.of_nat i)) (lane_in t)) D) as (r & E).
  exists r. split; [exact E|]. pose proof (func_body_length _ _ _ E) as L. split; [exact L|]. intros i Hi.
  pose proof (func_body_lane _ _ _ E i Hi) as Q. rewrite nth_lane in Q by lia. symmetry. exact Q.
Qed.
Print Assumptions C18_load.
Theorem C18_store : forall t n m p a, length a = n -> (forall i, (i < n)%nat -> m (p + Z.of_nat i) <> None) ->
  exists m', store t n m p a = Some m' /\
    (forall i, (i < n)%nat -> m' (p + Z.of_nat i) = Some (lane_out t (nth i a 0))) /\
    (forall x, (forall i, (i < n)%nat -> x <> p + Z.of_nat i) -> m' x = m x).
Proof.
  intros t n m p a La M. destruct (store_ok t n m p a La M) as (m' & E & V). exists m'. split; [exact E|]. split.
  - intros i Hi. rewrite V. unfold in_range. replace (Z.to_nat (p + Z.of_nat i - p)) with i by lia.
    destruct (Z.leb_spec p (p + Z.of_nat i)); [|lia]. destruct (Z.ltb_spec (p + Z.of_nat i) (p + Z.of_nat n)); [reflexivity|lia].
  - intros x Hx. rewrite V. destruct (in_range p x n) eqn:R; [|reflexivity]. unfold in_range in R. exfalso. apply (Hx (Z.to_nat (x - p))); lia.
Qed.
Print Assumptions C18_store.
Example C18_load_ex : load (EI i32) 2 (fun x => if x =? 3 then Some 30 else if x =? 4 then Some 40 else None) 3 = Some [30; 40].
Proof. reflexivity. Qed.

(** C22. Conversions between integer types wrap each lane into the destination type. *)
Theorem C22_cvt : forall to n a, In to int_types -> length a = n ->
  exists r, convert1 to n a = Some r /\ length r = n /\ forall i, (i < n)%nat -> wraps_to to (nth i a 0) (nth i r 0).
Proof.
  intros to n a Ht La. destruct (func_body_defined n (fun i => bind (lane a i) (fun x => Some (cast to x)))) as (r & E).
  { intros i Hi. rewrite nth_lane by lia. discriminate. }
  exists r. split; [exact E|]. pose proof (func_body_length _ _ _ E) as L. split; [exact L|]. intros i Hi.
  pose proof (func_body_lane _ _ _ E i Hi) as Q. rewrite !nth_lane in Q by lia. injection Q as Q. rewrite Q. apply cast_wraps. exact Ht.
Qed.
Print Assumptions C22_cvt.
Theorem C22_upcvt_wraps : forall to n a, In to int_types -> length a = (2 * n)%nat ->
  exists r0 r1, upcvt1 to n a = Some (r0, r1) /\ length r0 = n /\ length r1 = n /\
    (forall i, (i < n)%nat -> wraps_to to (nth i a 0) (nth i r0 0) /\ wraps_to to (nth (i + n) a 0) (nth i r1 0)).
Proof.
  intros to n a Ht La. destruct (upcvt_lanes to n a La) as (r0 & r1 & E & L0 & L1 & N). exists r0, r1. split; [exact E|]. split; [exact L0|]. split; [exact L1|].
  intros i Hi. destruct (N i Hi) as (N1 & N2). rewrite nth_lane in N1, N2 by lia. injection N1 as ->. injection N2 as ->. split; apply cast_wraps; exact Ht.
Qed.
Print Assumptions C22_upcvt_wraps.
Example C22_cvt_ex : convert1 u16 2 [-1; 5] = Some [65535; 5].
Proof. reflexivity. Qed.

(** C23. reinterpret keeps the bits of every lane: [lane_bits t x w] says that the
    memory image of a lane [x] of type [t] is the unsigned word [w]. *)
Definition lane_bits (t : ety) (x w : Z) : Prop :=
  match t with
  | EI t => in_ty t x /\ w = x mod 2 ^ bits t
  | EF16 => w = f32_to_u16 x
  | EF32 => w = x /\ in_u 32 x
  | EF64 => w = x /\ in_u 64 x
  end.
Theorem C23_reinterpret : forall from to n a w, ety_ok from -> ety_ok to -> ebitsize from = ebitsize to -> to <> EF16 -> length a = n ->
  (forall i, (i < n)%nat -> in_u (ebitsize from) (w i) /\ lane_bits from (nth i a 0) (w i)) ->
  exists r, reinterpret1 from to n a = Some r /\ length r = n /\ forall i, (i < n)%nat -> lane_bits to (nth i r 0) (w i).
Proof.
  intros from to n a w Hf Ht Hs Nt La H.
  assert (P : forall i, (i < n)%nat -> pattern_of from (nth i a 0) = w i).
  { intros i Hi. destruct (H i Hi) as [_ B]. destruct from as [f| | |]; cbn in *; [|congruence|destruct B as [-> _]; reflexivity|destruct B as [-> _]; reflexivity].
    destruct B as [_ ->]. cbn in Hf. decompose [or] Hf; try tauto; subst; reflexivity. }
  destruct (func_body_defined n (fun i => bind (lane a i) (fun x => value_of_pattern to (pattern_of from x)))) as (r & E).
  { intros i Hi. rewrite nth_lane by lia. cbn [bind]. destruct to; cbn; congruence. }
  exists r. split; [exact E|]. pose proof (func_body_length _ _ _ E) as L. split; [exact L|]. intros i Hi.
  pose proof (func_body_lane _ _ _ E i Hi) as Q. rewrite !nth_lane in Q by lia. cbn [bind] in Q. rewrite P in Q by exact Hi.
  destruct (H i Hi) as [R _]. rewrite Hs in R. destruct to as [t| | |]; cbn [value_of_pattern lane_bits ebitsize] in *; try congruence; injection Q as Q; rewrite Q; [|split; [reflexivity|exact R]|split; [reflexivity|exact R]].
  destruct (cast_wraps t (w i) Ht) as [B (k & D)]. split; [exact B|]. unfold in_u in R.
  rewrite <- (Z.mod_small (w i) (2 ^ bits t)) at 1 by exact R. replace (w i) with (cast t (w i) + k * 2 ^ bits t) at 1 by lia. apply Z.mod_add. cbn in Ht. decompose [or] Ht; try tauto; subst; cbn; lia.
Qed.
Print Assumptions C23_reinterpret.
(** Into f16 every lane becomes the single-precision copy of the half with these bits. *)
Theorem C23_reinterpret_to_f16 : forall t n a, In t [i16; u16] -> length a = n -> (forall i, (i < n)%nat -> in_ty t (nth i a 0)) ->
  exists r, reinterpret1 (EI t) EF16 n a = Some r /\ length r = n /\
    forall i, (i < n)%nat -> decode binary32 (nth i r 0) = widen (decode binary16 (nth i a 0 mod 2 ^ 16)).
Proof.
  intros t n a Ht La Ra.
  assert (P : forall x, pattern_of (EI t) x = x mod 2 ^ 16) by (intros x; cbn in Ht; destruct Ht as [<-|[<-|[]]]; reflexivity).
  assert (U : forall x, in_u 16 (x mod 2 ^ 16)) by (intros x; apply Z.mod_pos_bound; reflexivity).
  destruct (func_body_defined n (fun i => bind (lane a i) (fun x => value_of_pattern EF16 (pattern_of (EI t) x)))) as (r & E).
  { intros i Hi. rewrite nth_lane by lia. cbn [bind value_of_pattern]. rewrite P. destruct (u16_to_f32_exact_l _ (U (nth i a 0))) as (u & -> & _). discriminate. }
  exists r. split; [exact E|]. pose proof (func_body_length _ _ _ E) as L. split; [exact L|]. intros i Hi.
  pose proof (func_body_lane _ _ _ E i Hi) as Q. rewrite !nth_lane in Q by lia. cbn [bind value_of_pattern] in Q. rewrite P in Q.
  destruct (u16_to_f32_exact_l _ (U (nth i a 0))) as (u & Eu & _ & D). rewrite Eu in Q. injection Q as ->. exact D.
Qed.
Print Assumptions C23_reinterpret_to_f16.
Example C23_reinterpret_ex : reinterpret1 (EI i32) EF32 2 [-1; 5] = Some [2 ^ 32 - 1; 5] /\ reinterpret1 (EI i8) (EI u8) 2 [-1; 5] = Some [255; 5] /\
  reinterpret1 (EI i16) EF16 1 [-16384] = Some [0xc0000000] /\ reinterpret1 EF16 (EI i16) 1 [0xc0000000] = Some [-16384].
Proof. vm_compute. auto. Qed.

(** C31. pair_calloc zeroes the whole buffer on the CPU, and the device buffer on GPUs. *)
Theorem C31_calloc_zero : forall k W os_h os_d m sizeof sz p m', 0 < W -> posix W os_h -> posix W os_d ->
  0 <= sz -> 1 <= sizeof -> sz * sizeof < 2 ^ W ->
  pair_calloc k W os_h os_d m sizeof sz = Some (p, m') -> device_ptr p <> null ->
  (if gpu k then find_block (device m') (device_ptr p) else find_block (host m') (host_ptr p)) =
    Some (Block (device_ptr p) (repeat (Some 0) (Z.to_nat (sz * sizeof)))).
Proof.
  intros k W os_h os_d m sizeof sz p m' HW Hoh Hod H1 H2 H3 E Hn. unfold pair_calloc in E. destruct (gpu k) eqn:Hk.
  - destruct (C31_gpu zero_bytes k W os_h os_d m sizeof sz Hk HW Hoh Hod (or_intror eq_refl) H1 H2 H3) as (p1 & m1 & E1 & [B|B]);
      rewrite E in E1; injection E1 as <- <-; [destruct B; congruence|]. apply B.
  - assert (k = CPU) by (destruct k; try discriminate; reflexivity). subst k.
    destruct (C31_cpu zero_bytes W os_h os_d m sizeof sz HW Hoh (or_intror eq_refl) H1 H2 H3) as (p1 & m1 & E1 & D & _ & [B|B]);
      rewrite E in E1; injection E1 as <- <-; [destruct B; congruence|]. rewrite D. apply B.
Qed.
Print Assumptions C31_calloc_zero.
