From Coq Require Import ZArith Lia Bool List ZifyBool Arith.
From Verif Require Import CInt BitLemmas FloatSpec FloatProofs Fp16 Fp16Spec Fp16Proofs ScalarOps ScalarSpec ScalarProofs CpuSimd CpuSimdSpec CpuSimdProofs CpuSimdMem.
Import ListNotations.
Open Scope Z_scope.

(** *** mask_for_loop_tail *)
Lemma tail_mask_ok len i n : - 2 ^ 31 <= i -> i + Z.of_nat len <= 2 ^ 31 ->
  exists mask, mask_for_loop_tail len i n = Some mask /\ length mask = len /\ canonical mask /\
    forall k, (k < len)%nat -> active mask k = (i + Z.of_nat k <? n).
Proof.
  intros H1 H2. unfold mask_for_loop_tail.
  set (f := fun k => bind (carith i32 (i + Z.of_nat k)) (fun s => Some (if s <? n then ltrue else lfalse))).
  assert (F : forall k, (k < len)%nat -> f k = Some (canon (i + Z.of_nat k <? n))).
  { intros k Hk. unfold f. rewrite carith_i32 by lia. cbn [bind]. destruct (i + Z.of_nat k <? n); reflexivity. }
  destruct (func_body_defined len f) as (r & E); [intros k Hk; rewrite F by exact Hk; discriminate|].
  exists r. split; [exact E|]. pose proof (func_body_length _ _ _ E) as L. split; [exact L|].
  assert (N : forall k, (k < len)%nat -> nth k r 0 = canon (i + Z.of_nat k <? n)).
  { intros k Hk. pose proof (func_body_lane _ _ _ E k Hk) as Q. rewrite nth_lane in Q by lia. rewrite F in Q by exact Hk. injection Q as ->. reflexivity. }
  split.
  - unfold canonical. apply Forall_forall. intros x Hx. apply (In_nth _ _ 0) in Hx. destruct Hx as (k & Hk & <-). rewrite N by lia.
    destruct (i + Z.of_nat k <? n); [right|left]; reflexivity.
  - intros k Hk. unfold active. rewrite N by exact Hk. apply truth_canon.
Qed.

Section Tail.
Variables (t : ety) (len : nat) (g : Z -> option Z) (src dst n : Z) (m0 : mem).
Hypothesis Hlen : (1 <= len)%nat.
Hypothesis Hn : 0 <= n.
Hypothesis Hint : n + Z.of_nat len <= 2 ^ 31.

(** What must end up in dst[k]. *)
Definition tail_out (k : Z) : option Z :=
  bind (m0 (src + k)) (fun v => bind (lane_in t v) (fun x => bind (g x) (fun y => Some (lane_out t y)))).

Hypothesis Hsrc : forall k, 0 <= k < n -> tail_out k <> None.
Hypothesis Hdst : forall k, 0 <= k < n -> m0 (dst + k) <> None.
Hypothesis Hzero : g 0 <> None.
Hypothesis Halias : src = dst \/ src + n <= dst \/ dst + n <= src.

Definition tail_inv (i : Z) (m : mem) : Prop :=
  (forall k, 0 <= k < Z.min i n -> m (dst + k) = tail_out k) /\
  (forall a, ~ (dst <= a < dst + Z.min i n) -> m a = m0 a).

Lemma tail_loop_inv : forall fuel i m, 0 <= i -> i + Z.of_nat len <= n + 2 * Z.of_nat len ->
  tail_inv i m -> n - i < Z.of_nat fuel -> (0 < fuel)%nat ->
  exists m', tail_loop fuel t len g src dst n i m = Some m' /\ tail_inv n m'.
Proof.
  induction fuel as [|fuel IH]; intros i m Hi Hi2 (I1 & I2) Hf Hf0; [lia|]. cbn [tail_loop].
  destruct (i <? n) eqn:E.
  2: { exists m. split; [reflexivity|]. replace (Z.min i n) with n in * by lia. split; rewrite Z.min_id; assumption. }
  destruct (tail_mask_ok len i n ltac:(lia) ltac:(lia)) as (mask & -> & Lm & _ & Am). cbn [bind].
  (* sources not yet overwritten *)
  assert (Hs : forall k, i <= k < n -> m (src + k) = m0 (src + k)).
  { intros k Hk. apply I2. destruct Halias as [->|[H|H]]; lia. }
  destruct (maskz_load_ok t len m mask (src + i) Lm) as (v & -> & Lv & Nv).
  { intros k Hk Ha. rewrite Am in Ha by exact Hk. rewrite <- Z.add_assoc, Hs by lia.
    pose proof (Hsrc (i + Z.of_nat k) ltac:(lia)) as Q. unfold tail_out in Q. destruct (m0 (src + (i + Z.of_nat k))); [|cbn in Q; congruence].
    cbn [bind] in *. destruct (lane_in t z); [discriminate|cbn in Q; congruence]. }
  cbn [bind]. unfold scalar_impl1.
  assert (Gd : forall k, (k < len)%nat -> bind (lane v k) g <> None).
  { intros k Hk. rewrite nth_lane by lia. cbn [bind]. specialize (Nv k Hk). rewrite Am in Nv by exact Hk.
    destruct (i + Z.of_nat k <? n) eqn:Ek.
    - rewrite <- Z.add_assoc, Hs in Nv by lia. pose proof (Hsrc (i + Z.of_nat k) ltac:(lia)) as Q. unfold tail_out in Q.
      destruct (m0 (src + (i + Z.of_nat k))) as [w|]; cbn [bind] in *; [|congruence]. rewrite <- Nv in Q. cbn [bind] in Q.
      destruct (g (nth k v 0)); [discriminate|exfalso; apply Q; reflexivity].
    - injection Nv as ->. exact Hzero. }
  destruct (func_body_defined len (fun i => bind (lane v i) g) Gd) as (w & Ew). rewrite Ew. cbn [bind].
  pose proof (func_body_length _ _ _ Ew) as Lw.
  destruct (mask_store_ok t len m mask (dst + i) w Lm Lw) as (m' & Em & W1 & W2).
  { intros k Hk Ha. rewrite Am in Ha by exact Hk. rewrite <- Z.add_assoc. rewrite I2 by lia. apply Hdst. lia. }
  rewrite Em. cbn [bind]. rewrite carith_i32 by lia. cbn [bind].
  apply IH; try lia.
  split.
  - intros k Hk. destruct (Z_lt_le_dec k i) as [Hlt|Hge].
    + rewrite W2; [apply I1; lia|]. intros j Hj Ha. lia.
    + set (j := Z.to_nat (k - i)). assert ((j < len)%nat /\ k = i + Z.of_nat j) as (Hj & Ek) by (unfold j; lia).
      rewrite Ek, Z.add_assoc. rewrite W1 by (try exact Hj; rewrite Am by exact Hj; lia).
      specialize (Nv j Hj). rewrite Am in Nv by exact Hj. replace (i + Z.of_nat j <? n) with true in Nv by lia.
      rewrite <- Z.add_assoc, Hs in Nv by lia. unfold tail_out.
      pose proof (func_body_lane _ _ _ Ew j Hj) as Q. rewrite !nth_lane in Q by lia. cbn [bind] in Q.
      destruct (m0 (src + (i + Z.of_nat j))) as [z|]; cbn [bind] in *; [|discriminate]. rewrite <- Nv. cbn [bind]. rewrite <- Q. reflexivity.
  - intros a Ha. rewrite W2; [apply I2; lia|]. intros j Hj Hact. rewrite Am in Hact by exact Hj. lia.
Qed.

Lemma tail_loop_ok : exists m', tail_loop (Z.to_nat n + 1) t len g src dst n 0 m0 = Some m' /\
  (forall k, 0 <= k < n -> m' (dst + k) = tail_out k) /\ (forall a, ~ (dst <= a < dst + n) -> m' a = m0 a).
Proof.
  destruct (tail_loop_inv (Z.to_nat n + 1) 0 m0) as (m' & E & I1 & I2); try lia.
  - split; [lia|reflexivity].
  - exists m'. split; [exact E|]. rewrite Z.min_id in *. split; assumption.
Qed.
End Tail.

(** *** Conversions *)
Lemma upcvt_lanes to n a : length a = (2 * n)%nat ->
  exists r0 r1, upcvt1 to n a = Some (r0, r1) /\ length r0 = n /\ length r1 = n /\
    (forall i, (i < n)%nat -> lane r0 i = Some (cast to (nth i a 0)) /\ lane r1 i = Some (cast to (nth (i + n) a 0))).
Proof.
  intros L. unfold upcvt1. fold (stmts n (fun i => bind (lane a i) (fun x => Some (cast to x)))).
  fold (stmts n (fun i => bind (lane a (i + n)) (fun x => Some (cast to x)))).
  fold (func_body n (fun i => bind (lane a i) (fun x => Some (cast to x)))).
  fold (func_body n (fun i => bind (lane a (i + n)) (fun x => Some (cast to x)))).
  destruct (func_body_defined n (fun i => bind (lane a i) (fun x => Some (cast to x)))) as (r0 & E0).
  { intros i Hi. rewrite nth_lane by lia. discriminate. }
  destruct (func_body_defined n (fun i => bind (lane a (i + n)) (fun x => Some (cast to x)))) as (r1 & E1).
  { intros i Hi. rewrite nth_lane by lia. discriminate. }
  rewrite E0, E1. exists r0, r1. split; [reflexivity|]. split; [eapply func_body_length; exact E0|]. split; [eapply func_body_length; exact E1|].
  intros i Hi. rewrite (func_body_lane _ _ _ E0 i Hi), (func_body_lane _ _ _ E1 i Hi). rewrite !nth_lane by lia. split; reflexivity.
Qed.

Lemma downcvt_lanes to n a b : length a = n -> length b = n ->
  exists r, downcvt2 to n a b = Some r /\ length r = (2 * n)%nat /\
    (forall i, (i < n)%nat -> lane r i = Some (cast to (nth i a 0)) /\ lane r (i + n) = Some (cast to (nth i b 0))).
Proof.
  intros La Lb. unfold downcvt2.
  set (f := fun k => if Nat.ltb k n then Some (cast to (nth k a 0)) else Some (cast to (nth (k - n) b 0))).
  assert (build (2 * n) (map (fun i => (i, bind (lane a i) (fun x => Some (cast to x)))) (seq 0 n)
       ++ map (fun i => ((i + n)%nat, bind (lane b i) (fun x => Some (cast to x)))) (seq 0 n)) = func_body (2 * n) f) as ->.
  { rewrite func_body_seq. apply build_ok.
    - intros i v Hin. apply in_app_iff in Hin. unfold f. destruct Hin as [Hin|Hin]; apply in_map_iff in Hin; destruct Hin as (q & E & Hq); injection E as <- <-; apply in_seq in Hq; rewrite nth_lane by lia; cbn [bind].
      + destruct (Nat.ltb_spec q n); [|lia]. split; [lia|]. split; [reflexivity|discriminate].
      + destruct (Nat.ltb_spec (q + n) n); [lia|]. split; [lia|]. split; [f_equal; f_equal; f_equal; lia|discriminate].
    - intros k Hk. destruct (Nat.lt_ge_cases k n).
      + eexists. apply in_app_iff. left. apply in_map_iff. exists k. split; [reflexivity|apply in_seq; lia].
      + eexists. apply in_app_iff. right. apply in_map_iff. exists (k - n)%nat. split; [f_equal; lia|apply in_seq; lia]. }
  destruct (func_body_defined (2 * n) f) as (r & E); [intros i Hi; unfold f; destruct (Nat.ltb i n); discriminate|].
  exists r. split; [exact E|]. split; [eapply func_body_length; exact E|]. intros i Hi.
  rewrite !(func_body_lane _ _ _ E) by lia. unfold f. destruct (Nat.ltb_spec i n); [|lia]. destruct (Nat.ltb_spec (i + n) n); [lia|].
  split; [reflexivity|]. f_equal. f_equal. f_equal. lia.
Qed.

Lemma downcvt_upcvt from to n a : In from int_types -> In to int_types -> bits to = 2 * bits from -> length a = (2 * n)%nat ->
  Forall (in_ty from) a ->
  bind (upcvt1 to n a) (fun p => downcvt2 from n (fst p) (snd p)) = Some a.
Proof.
  intros Hf Hto Hb L F. destruct (upcvt_lanes to n a L) as (r0 & r1 & E & L0 & L1 & N). rewrite E. cbn [bind fst snd].
  destruct (downcvt_lanes from n r0 r1 L0 L1) as (r & E' & Lr & N'). rewrite E'. f_equal.
  rewrite Forall_forall in F.
  assert (RT : forall k, (k < 2 * n)%nat -> cast from (cast to (nth k a 0)) = nth k a 0).
  { intros k Hk. assert (In (nth k a 0) a) as Hin by (apply nth_In; lia). specialize (F _ Hin).
    rewrite (cast_congr from (cast to (nth k a 0)) (nth k a 0)); [apply cast_id; assumption|].
    pose proof (cast_mod to (nth k a 0) Hto) as Q. rewrite Hb in Q. pose proof (bits_pos from Hf).
    replace (2 * bits from) with (bits from + bits from) in Q by lia. rewrite Z.pow_add_r in Q by lia.
    pose proof (pow2_pos (bits from) ltac:(lia)).
    apply (f_equal (fun z => z mod 2 ^ bits from)) in Q. 
    rewrite <- !Znumtheory.Zmod_div_mod in Q; try lia; try (apply Z.divide_factor_l); nia || exact Q. }
  apply (reg_ext _ _ (2 * n)); try assumption. intros i Hi. rewrite (nth_lane a) by lia.
  destruct (Nat.lt_ge_cases i n) as [H|H].
  - destruct (N' i H) as (-> & _). destruct (N i H) as (Q & _). rewrite nth_lane in Q by lia. injection Q as ->. f_equal. apply RT. lia.
  - destruct (N' (i - n)%nat ltac:(lia)) as (_ & Q'). replace (i - n + n)%nat with i in Q' by lia. rewrite Q'.
    destruct (N (i - n)%nat ltac:(lia)) as (_ & Q). rewrite nth_lane in Q by lia. replace (i - n + n)%nat with i in Q by lia. injection Q as ->. f_equal. apply RT. lia.
Qed.

(** *** f16 sign manipulation *)
Lemma sign31 s : sign_bit binary32 s = (if s then 1 else 0) * 2 ^ 31.
Proof. destruct s; reflexivity. Qed.

Lemma bits31 s p (op : Z -> Z -> Z) (bop : bool -> bool -> bool) :
  (forall x y i, 0 <= i -> Z.testbit (op x y) i = bop (Z.testbit x i) (Z.testbit y i)) ->
  (forall x, bop x false = x) -> 0 <= p < 2 ^ 31 -> 0 <= op (sign_bit binary32 s + p) (2 ^ 31) ->
  op (sign_bit binary32 s + p) (2 ^ 31) = sign_bit binary32 (bop s true) + p.
Proof.
  intros Hop Hb Hp H0. rewrite !sign31. rewrite <- !lor_disjoint by lia.
  apply Z.bits_inj'. intros i Hi. rewrite Hop by exact Hi. rewrite !Z.lor_spec.
  rewrite !Z.mul_pow2_bits by lia. rewrite Z.pow2_bits_eqb by lia.
  destruct (Z.eqb_spec 31 i) as [<-|Hne].
  - rewrite (testbit_small p 31 31) by lia. rewrite !orb_false_r. change (31 - 31) with 0. destruct s; cbn -[Z.mul]; destruct (bop _ true); reflexivity.
  - rewrite Hb. f_equal. destruct (Z_lt_le_dec i 31).
    + rewrite !Z.testbit_neg_r by lia. reflexivity.
    + assert (forall b : bool, 0 <= (if b then 1 else 0) < 2 ^ 1) as Q by (intros []; lia).
      rewrite !(testbit_small _ 1) by (try lia; apply Q). reflexivity.
Qed.

(** The sign of the half produced is the sign of the single. *)
Lemma f32_to_u16_sign s s' p a : 0 <= p <= inf32 -> f32_to_u16 (sign_bit binary32 s + p) = a ->
  f32_to_u16 (sign_bit binary32 s' + p) = a - sign_bit binary16 s + sign_bit binary16 s'.
Proof. intros Hp <-. rewrite !f32_to_u16_round by exact Hp. lia. Qed.

Lemma widen_split a : in_u 16 a -> decode binary16 a <> FNaN -> exists s p, u16_to_f32 a = Some (sign_bit binary32 s + p) /\ 0 <= p <= inf32
  /\ a = sign_bit binary16 s + a mod 2 ^ 15 /\ f32_to_u16 (sign_bit binary32 s + p) = a.
Proof.
  intros Ha Hn. destruct (round_trip_l a Ha) as (u & Eu & R & _). destruct (u16_to_f32_exact_l a Ha) as (u' & Eu' & Hu & Du).
  rewrite Eu in Eu'. injection Eu' as <-. specialize (R Hn).
  destruct (decode32_split u Hu) as (s & p & Hp & E & Hf & Hi & _). exists s, p. rewrite E in *.
  assert (0 <= p <= inf32) as Hpi.
  { destruct (decode binary16 a) as [|s1|s1 m1] eqn:D; cbn [widen] in Du; [congruence| |].
    - destruct (Hi _ Du). unfold inf32 in *. lia.
    - destruct (Hf _ _ Du). unfold inf32 in *. lia. }
  split; [exact Eu|]. split; [exact Hpi|]. split; [|exact R].
  rewrite f32_to_u16_round in R by exact Hpi. rewrite <- R at 1.
  pose proof (round16_nonneg (vmag binary32 p) (vmag_nonneg binary32 p ltac:(cbn; lia) ltac:(lia))).
  set (r := Z.min _ _) in *. assert (0 <= r < 2 ^ 15) by lia. rewrite <- R.
  f_equal. symmetry. destruct s; cbn [sign_bit]; change (ebits binary16 + mbits binary16) with 15.
  - replace (2 ^ 15 + r) with (r + 1 * 2 ^ 15) by lia. rewrite Z.mod_add by lia. apply Z.mod_small. lia.
  - apply Z.mod_small. lia.
Qed.

Definition half_of (s : bool) (a : Z) : Z := (if s then 2 ^ 15 else 0) + a mod 2 ^ 15.

Lemma f16_sign_op op bop a : (forall x y i, 0 <= i -> Z.testbit (op x y) i = bop (Z.testbit x i) (Z.testbit y i)) ->
  (forall x, bop x false = x) -> (forall x y, 0 <= x -> 0 <= y -> 0 <= op x y) -> in_u 16 a -> decode binary16 a <> FNaN ->
  f16_bitop op a 0x8000 = Some (half_of (bop (2 ^ 15 <=? a) true) a).
Proof.
  intros Hop Hb Hpos Ha Hn. destruct (widen_split a Ha Hn) as (s & p & E & Hp & Ea & R).
  unfold f16_bitop. rewrite E. change (u16_to_f32 32768) with (Some (2 ^ 31)). cbn [bind2 bind]. f_equal.
  assert (0 <= p < 2 ^ 31) as Hp' by (unfold inf32 in *; lia).
  assert (0 <= sign_bit binary32 s) by (rewrite sign31; destruct s; lia).
  rewrite (bits31 s p op bop Hop Hb Hp') by (apply Hpos; lia).
  rewrite cast_id; [|cbn; tauto|unfold in_ty; change (ty_min u32) with 0; change (ty_max u32) with (2 ^ 32 - 1); destruct (bop s true); cbn [sign_bit]; change (2 ^ (ebits binary32 + mbits binary32)) with (2 ^ 31); lia].
  rewrite (f32_to_u16_sign s (bop s true) p a Hp R). 
  pose proof (Z.mod_pos_bound a (2 ^ 15) ltac:(lia)) as Hr. unfold half_of.
  assert ((2 ^ 15 <=? a) = s) as ->.
  { rewrite Ea. destruct s; cbn [sign_bit]; change (2 ^ (ebits binary16 + mbits binary16)) with (2 ^ 15); lia. }
  rewrite Ea at 1. unfold sign_bit. change (2 ^ (ebits binary16 + mbits binary16)) with (2 ^ 15). lia.
Qed.

(** *** Logicals through memory and through masks *)
Definition lane_zero_one (t : ety) (b : bool) : Z := if b then one_of t else 0.

Lemma one_of_back t : exists x, lane_in t (one_of t) = Some x /\ is_zero t x = false.
Proof. destruct t as [t| | |]; eexists; (split; [reflexivity|vm_compute; reflexivity]). Qed.
Lemma zero_back t : exists x, lane_in t 0 = Some x /\ is_zero t x = true.
Proof. destruct t as [t| | |]; eexists; (split; [reflexivity|vm_compute; reflexivity]). Qed.

Lemma storel_ok t n m p a : length a = n -> mapped m p n ->
  exists m', storel t n m p a = Some m' /\
    forall x, m' x = if in_range p x n then Some (lane_zero_one t (truth (nth (Z.to_nat (x - p)) a 0))) else m x.
Proof.
  intros L M. unfold storel.
  destruct (run_writes_ok (fun x => Some (lane_zero_one t (truth (nth (Z.to_nat (x - p)) a 0))))
     (map (fun i => (p + Z.of_nat i, bind (lane a i) (fun x => Some (if x =? 0 then 0 else one_of t)))) (seq 0 n)) m) as (m' & E & W).
  - intros x v Hin. apply in_map_iff in Hin. destruct Hin as (i & E & Hi). apply in_seq in Hi. injection E as <- <-.
    rewrite nth_lane by lia. cbn [bind]. split; [apply M; lia|]. split; [discriminate|].
    replace (Z.to_nat (p + Z.of_nat i - p)) with i by lia. unfold lane_zero_one, truth. destruct (nth i a 0 =? 0); reflexivity.
  - exists m'. split; [exact E|]. intros x. rewrite W. destruct (in_range p x n) eqn:R.
    + replace (addr_in x _) with true; [reflexivity|]. symmetry. apply addr_in_iff. unfold in_range in R.
      eexists. apply in_map_iff. exists (Z.to_nat (x - p)). split; [f_equal; lia|apply in_seq; lia].
    + destruct (addr_in x _) eqn:A; [|reflexivity]. apply addr_in_iff in A. destruct A as (v & Hin). apply in_map_iff in Hin.
      destruct Hin as (i & E' & Hi). apply in_seq in Hi. injection E' as <- <-. unfold in_range in R. lia.
Qed.

Lemma loadl_storel t n m p a : length a = n -> canonical a -> mapped m p n ->
  exists m', storel t n m p a = Some m' /\ loadl t n m' p = Some a.
Proof.
  intros L C M. destruct (storel_ok t n m p a L M) as (m' & E & W). exists m'. split; [exact E|].
  unfold loadl. apply func_body_iff. split; [exact L|]. intros i Hi. unfold read. rewrite W.
  replace (in_range p (p + Z.of_nat i) n) with true by (unfold in_range; lia).
  replace (Z.to_nat (p + Z.of_nat i - p)) with i by lia. cbn [bind]. rewrite nth_lane by lia.
  unfold canonical in C. rewrite Forall_forall in C. specialize (C (nth i a 0) ltac:(apply nth_In; lia)).
  unfold lane_zero_one. destruct C as [-> | ->].
  - change (truth 0) with false. cbv beta iota. destruct (zero_back t) as (x & -> & Z). cbn [bind]. rewrite Z. reflexivity.
  - change (truth (2 ^ 32 - 1)) with true. cbv beta iota. destruct (one_of_back t) as (x & -> & Z). cbn [bind]. rewrite Z. reflexivity.
Qed.

Lemma loadl_ok t n m p : (forall i, (i < n)%nat -> bind (m (p + Z.of_nat i)) (lane_in t) <> None) ->
  exists r, loadl t n m p = Some r /\ length r = n /\ canonical r /\
    forall i, (i < n)%nat -> forall x, bind (m (p + Z.of_nat i)) (lane_in t) = Some x -> truth (nth i r 0) = negb (is_zero t x).
Proof.
  intros D. unfold loadl.
  match goal with |- context [func_body n ?f] => set (g := f) end.
  assert (G : forall i, (i < n)%nat -> exists x, bind (m (p + Z.of_nat i)) (lane_in t) = Some x /\ g i = Some (canon (negb (is_zero t x)))).
  { intros i Hi. specialize (D i Hi). unfold g, read. destruct (bind (m (p + Z.of_nat i)) (lane_in t)) as [x|]; [|congruence].
    exists x. split; [reflexivity|]. cbn [bind]. destruct (is_zero t x); reflexivity. }
  destruct (func_body_defined n g) as (r & E); [intros i Hi; destruct (G i Hi) as (x & _ & ->); discriminate|].
  pose proof (func_body_length _ _ _ E) as L.
  assert (N : forall i, (i < n)%nat -> Some (nth i r 0) = g i).
  { intros i Hi. rewrite <- nth_lane by lia. apply (func_body_lane _ _ _ E i Hi). }
  exists r. split; [exact E|]. split; [exact L|]. split.
  - unfold canonical. apply Forall_forall. intros z Hz. apply (In_nth _ _ 0) in Hz. destruct Hz as (i & Hi & <-).
    specialize (N i ltac:(lia)). destruct (G i ltac:(lia)) as (x & _ & Gi). rewrite Gi in N. injection N as ->. destruct (negb (is_zero t x)); [right|left]; reflexivity.
  - intros i Hi x Hx. specialize (N i Hi). destruct (G i Hi) as (x' & Hx' & Gi). rewrite Hx in Hx'. injection Hx' as <-. rewrite Gi in N. injection N as ->. apply truth_canon.
Qed.

Lemma pattern_of_mask t b : ety_ok t -> (pattern_of t (all_ones_or_zero t b) =? 0) = negb b.
Proof.
  intros Ht. destruct t as [t| | |]; cbn [pattern_of]; [|destruct b; vm_compute; reflexivity..].
  cbn in Ht. destruct b; [|destruct Ht as [<-|[<-|[<-|[<-|[<-|[<-|[<-|[<-|[]]]]]]]]]; vm_compute; reflexivity].
  destruct Ht as [<-|[<-|[<-|[<-|[<-|[<-|[<-|[<-|[]]]]]]]]]; vm_compute; reflexivity.
Qed.

(** *** Gather and scatter *)
Lemma gather_ok t n m p idx : length idx = n ->
  (forall i, (i < n)%nat -> bind (m (p + nth i idx 0)) (lane_in t) <> None) ->
  exists r, gather t n m p idx = Some r /\ length r = n /\
    forall i, (i < n)%nat -> Some (nth i r 0) = bind (m (p + nth i idx 0)) (lane_in t).
Proof.
  intros L D. unfold gather.
  match goal with |- context [func_body n ?f] => set (g := f) end.
  assert (G : forall i, (i < n)%nat -> g i = bind (m (p + nth i idx 0)) (lane_in t)) by (intros i Hi; unfold g; rewrite nth_lane by lia; reflexivity).
  destruct (func_body_defined n g) as (r & E); [intros i Hi; rewrite G by exact Hi; apply D; exact Hi|].
  pose proof (func_body_length _ _ _ E). exists r. split; [exact E|]. split; [assumption|].
  intros i Hi. rewrite <- nth_lane by lia. rewrite (func_body_lane _ _ _ E i Hi). apply G. exact Hi.
Qed.

Lemma gather_linear_ok t n m p step :
  (forall i, (i < n)%nat -> bind (m (p + Z.of_nat i * step)) (lane_in t) <> None) ->
  exists r, gather_linear t n m p step = Some r /\ length r = n /\
    forall i, (i < n)%nat -> Some (nth i r 0) = bind (m (p + Z.of_nat i * step)) (lane_in t).
Proof.
  intros D. unfold gather_linear.
  destruct (func_body_defined n _ D) as (r & E). pose proof (func_body_length _ _ _ E). exists r. split; [exact E|]. split; [assumption|].
  intros i Hi. rewrite <- nth_lane by lia. apply (func_body_lane _ _ _ E i Hi).
Qed.

Lemma sequence_lanes idx n : length idx = n -> sequence (map (lane idx) (seq 0 n)) = Some idx.
Proof.
  intros L. apply sequence_some. apply list_ext; rewrite map_length, seq_length; [rewrite map_length; lia|].
  intros k Hk. rewrite nth_error_map_seq by exact Hk. rewrite nth_error_map. unfold lane. destruct (nth_error idx k) eqn:E; [reflexivity|].
  apply nth_error_None in E. lia.
Qed.

Lemma combine_seq_in {A} (l : list A) : forall s i k, In (i, k) (combine (seq s (length l)) l) <-> (s <= i)%nat /\ nth_error l (i - s) = Some k.
Proof.
  induction l as [|x l IH]; intros s i k; cbn [length seq combine In].
  - split; [tauto|]. intros (_ & H). destruct (i - s)%nat; discriminate.
  - rewrite IH. split.
    + intros [E|(H1 & H2)]; [injection E as <- <-; split; [lia|]; rewrite Nat.sub_diag; reflexivity|].
      split; [lia|]. replace (i - s)%nat with (S (i - S s)) by lia. exact H2.
    + intros (H1 & H2). destruct (Nat.eq_dec i s) as [->|Hne]; [left; rewrite Nat.sub_diag in H2; injection H2 as ->; reflexivity|].
      right. split; [lia|]. replace (i - s)%nat with (S (i - S s)) in H2 by lia. exact H2.
Qed.

(** Among lanes with the same index the last one wins. *)
Lemma run_writes_last : forall l m m', run_writes m l = Some m' ->
  forall x, m' x = match find (fun q => fst q =? x) (rev l) with Some q => snd q | None => m x end.
Proof.
  induction l as [|[a v] l IH]; intros m m' H x; cbn [run_writes] in H; [injection H as <-; reflexivity|].
  destruct v as [v|]; [|discriminate]. unfold write in H. destruct (m a) eqn:Ma; [|discriminate]. cbn [bind] in H.
  rewrite (IH _ _ H x). cbn [rev].
  assert (F : forall (l1 l2 : list (Z * option Z)) f, find f (l1 ++ l2) = match find f l1 with Some q => Some q | None => find f l2 end).
  { induction l1 as [|y l1 I1]; intros; cbn; [reflexivity|]. destruct (f y); [reflexivity|apply I1]. }
  rewrite F. destruct (find _ (rev l)); [reflexivity|]. cbn [find fst]. rewrite (Z.eqb_sym a x). destruct (x =? a); reflexivity.
Qed.

Lemma run_writes_defined : forall l m, (forall a v, In (a, v) l -> v <> None /\ m a <> None) -> exists m', run_writes m l = Some m'.
Proof.
  induction l as [|[a v] l IH]; intros m H; [eexists; reflexivity|]. cbn [run_writes].
  destruct (H a v (or_introl eq_refl)) as (Hv & Hm). destruct v as [v|]; [|congruence]. unfold write. destruct (m a) eqn:Ma; [|congruence]. cbn [bind].
  apply IH. intros b w Hin. destruct (H b w (or_intror Hin)) as (H1 & H2). split; [exact H1|]. cbn beta. destruct (b =? a); [discriminate|exact H2].
Qed.

(** Generic: writes at addresses [f i], values [g i], i = 0 .. n-1. *)
Lemma run_writes_indexed (f : nat -> Z) (g : nat -> Z) n m : (forall i, (i < n)%nat -> m (f i) <> None) ->
  exists m', run_writes m (map (fun i => (f i, Some (g i))) (seq 0 n)) = Some m' /\
    (forall i, (i < n)%nat -> (forall j, (i < j < n)%nat -> f j <> f i) -> m' (f i) = Some (g i)) /\
    (forall x, (forall i, (i < n)%nat -> f i <> x) -> m' x = m x).
Proof.
  intros H. revert H. induction n as [|n IH]; intros H.
  - exists m. split; [reflexivity|]. split; [intros; lia|reflexivity].
  - destruct IH as (m' & E & W1 & W2); [intros i Hi; apply H; lia|].
    rewrite seq_S, map_app. cbn [map]. change (0 + n)%nat with n.
    assert (App : forall l1 l2 m1, run_writes m1 (l1 ++ l2) = bind (run_writes m1 l1) (fun m2 => run_writes m2 l2)).
    { induction l1 as [|[a v] l1 I1]; intros l2 m1; [reflexivity|]. cbn [app run_writes]. destruct v as [v|]; [|reflexivity]. destruct (write m1 a v); cbn [bind]; [apply I1|reflexivity]. }
    rewrite App, E. cbn [bind run_writes]. unfold write.
    assert (m' (f n) <> None) as Hn.
    { pose proof (run_writes_last _ _ _ E (f n)) as Q. rewrite Q. destruct (find _ _) as [[a v]|] eqn:Fd; [|apply H; lia].
      apply find_some in Fd. destruct Fd as (Hin & _). apply in_rev in Hin. apply in_map_iff in Hin. destruct Hin as (q & Eq & _). injection Eq as <- <-. discriminate. }
    destruct (m' (f n)) eqn:Mn; [|congruence]. cbn [bind]. eexists. split; [reflexivity|]. split.
    + intros i Hi Hlast. destruct (Z.eqb_spec (f i) (f n)) as [Ef|Nf].
      * destruct (Nat.eq_dec i n) as [->|Hne]; [reflexivity|]. exfalso. apply (Hlast n); [lia|]. congruence.
      * assert (i <> n) by congruence. apply W1; [lia|]. intros j Hj. apply Hlast. lia.
    + intros x Hx. destruct (Z.eqb_spec x (f n)) as [->|_]; [exfalso; apply (Hx n); [lia|reflexivity]|]. apply W2. intros i Hi. apply Hx. lia.
Qed.

Lemma scatter_ok t n m p idx a : length idx = n -> length a = n ->
  (forall i, (i < n)%nat -> m (p + nth i idx 0) <> None) ->
  exists m', scatter t n m p idx a = Some m' /\
    (forall i, (i < n)%nat -> (forall j, (i < j < n)%nat -> nth j idx 0 <> nth i idx 0) ->
       m' (p + nth i idx 0) = Some (lane_out t (nth i a 0))) /\
    (forall x, (forall i, (i < n)%nat -> x <> p + nth i idx 0) -> m' x = m x).
Proof.
  intros Li La M. unfold scatter. rewrite sequence_lanes by exact Li. cbn [bind].
  destruct (run_writes_indexed (fun i => p + nth i idx 0) (fun i => lane_out t (nth i a 0)) n m M) as (m' & E & W1 & W2).
  exists m'. split; [|split].
  - rewrite <- E. f_equal. apply list_ext; rewrite !map_length, combine_length, seq_length, Li, Nat.min_id; [reflexivity|].
    intros k Hk. rewrite nth_error_map_seq by exact Hk. rewrite nth_error_map.
    assert (nth_error (combine (seq 0 n) idx) k = Some (k, nth k idx 0)) as ->.
    { assert (forall (l1 : list nat) (l2 : list Z) k x y, nth_error l1 k = Some x -> nth_error l2 k = Some y -> nth_error (combine l1 l2) k = Some (x, y)) as C.
      { induction l1 as [|u l1 I1]; intros [|w l2] [|q] x y; cbn; try discriminate; [intros [=->] [=->]; reflexivity|apply I1]. }
      apply C; [rewrite nth_error_nth' with (d := O) by (rewrite seq_length; exact Hk); rewrite seq_nth by exact Hk; reflexivity|].
      apply nth_error_nth'. lia. }
    cbn [option_map fst snd]. rewrite nth_lane by lia. reflexivity.
  - intros i Hi Hl. apply W1; [exact Hi|]. intros j Hj. specialize (Hl j Hj). lia.
  - intros x Hx. apply W2. intros i Hi. specialize (Hx i Hi). lia.
Qed.

Lemma scatter_linear_ok t n m p step a : length a = n ->
  (forall i, (i < n)%nat -> m (p + Z.of_nat i * step) <> None) ->
  exists m', scatter_linear t n m p step a = Some m' /\
    (step <> 0 -> forall i, (i < n)%nat -> m' (p + Z.of_nat i * step) = Some (lane_out t (nth i a 0))) /\
    (forall x, (forall i, (i < n)%nat -> x <> p + Z.of_nat i * step) -> m' x = m x).
Proof.
  intros La M. unfold scatter_linear.
  destruct (run_writes_indexed (fun i => p + Z.of_nat i * step) (fun i => lane_out t (nth i a 0)) n m M) as (m' & E & W1 & W2).
  exists m'. split; [|split].
  - rewrite <- E. f_equal. apply map_ext_in. intros i Hi. apply in_seq in Hi. rewrite nth_lane by lia. reflexivity.
  - intros Hs i Hi. apply W1; [exact Hi|]. intros j Hj. nia.
  - intros x Hx. apply W2. intros i Hi. specialize (Hx i Hi). lia.
Qed.

Lemma half_bits a op bop : (forall x y i, 0 <= i -> Z.testbit (op x y) i = bop (Z.testbit x i) (Z.testbit y i)) ->
  (forall x, bop x false = x) -> in_u 16 a -> half_of (bop (2 ^ 15 <=? a) true) a = op a 0x8000.
Proof.
  intros Hop Hb Ha. unfold in_u in Ha. pose proof (Z.mod_pos_bound a (2 ^ 15) ltac:(lia)) as Hr.
  unfold half_of. set (s := bop (2 ^ 15 <=? a) true).
  replace (if s then 2 ^ 15 else 0) with ((if s then 1 else 0) * 2 ^ 15) by (destruct s; reflexivity).
  rewrite <- lor_disjoint by lia. apply Z.bits_inj'. intros i Hi. rewrite Hop, Z.lor_spec by exact Hi.
  change 32768 with (2 ^ 15). rewrite Z.pow2_bits_eqb, Z.mul_pow2_bits by lia. rewrite Z.testbit_mod_pow2 by lia.
  assert (T15 : Z.testbit a 15 = (2 ^ 15 <=? a)).
  { rewrite Z.testbit_odd, shiftr_div by lia. destruct (Z.leb_spec (2 ^ 15) a) as [H|H].
    - replace (a / 2 ^ 15) with 1; [reflexivity|]. apply (Z.div_unique a (2 ^ 15) 1 (a - 2 ^ 15)); lia.
    - rewrite Z.div_small by lia. reflexivity. }
  destruct (Z.eqb_spec 15 i) as [<-|Hne].
  - rewrite T15. fold s. rewrite Z.sub_diag. cbn [Z.ltb Z.compare Pos.compare Pos.compare_cont andb]. rewrite orb_false_r. destruct s; reflexivity.
  - rewrite Hb. destruct (Z.ltb_spec i 15) as [H|H].
    + rewrite Z.testbit_neg_r by lia. reflexivity.
    + rewrite (testbit_small a 16 i) by lia. rewrite (testbit_small (if s then 1 else 0) 1 (i - 15)) by (destruct s; lia). reflexivity.
Qed.
