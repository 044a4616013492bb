(** Proofs for PropDevice.v: operators on floats and conversions. *)
From Coq Require Import ZArith Bool List Lia ZifyBool.
From Verif Require Import CInt FloatSpec Fp16 Fp16Spec Fp16Proofs ScalarOps ScalarSpec ScalarProofs RoundEven X86Cvt X86CvtSpec FloatProofs X86CvtProofs2 X86CvtProofs4 X86Float X86FloatSpec X86FloatProofs X86FloatProofs2 ArmFloat ArmFloatSpec ArmFloatProofs2.
From Verif Require Import FloatArith FloatArithSpec FloatArithProofs FloatArithProofs2 FloatArithProofs3 FloatArithProofs4 FloatArithProofs5 FloatArithProofs6 ScalarFloat FloatArithProofs7 FloatArithProofs8 FloatArithProofs9 FloatVecSpec FloatVecProofs ScalarBits Device DeviceSpec DeviceProofs.
Import ListNotations.
Local Open Scope Z_scope.

(** CUDA is either the scalar way or a half instruction *)
Definition native (d : dev) (arch : bool) (t : fty) : bool := match t with F16 => native_half d arch | _ => false end.
Lemma native_iff d arch t : native d arch t = true <-> half_hardware d arch t.
Proof. unfold half_hardware. destruct d, arch, t; cbn; intuition congruence. Qed.
Lemma native_t d arch t : native d arch t = true -> t = F16.
Proof. destruct t; [reflexivity|discriminate..]. Qed.
Lemma cu1_is d arch op t a : cu1 d arch op t a = if native d arch t then Some (op binary16 a) else opnum1 op t a.
Proof. destruct t; cbn [cu1 native opnum1]; [destruct (native_half d arch)|..]; reflexivity. Qed.
Lemma cu2_is d arch op t a b : cu2 d arch op t a b = if native d arch t then Some (op binary16 a b) else opnum2 op t a b.
Proof. destruct t; cbn [cu2 native opnum2]; [destruct (native_half d arch)|..]; reflexivity. Qed.
Lemma cu3_is d arch op t a b c : cu3 d arch op t a b c = if native d arch t then Some (op binary16 a b c) else opnum3 op t a b c.
Proof. destruct t; cbn [cu3 native opnum3]; [destruct (native_half d arch)|..]; reflexivity. Qed.
Lemma sy1_is op t a : sy1 op t a = opnum1 op t a. Proof. destruct t; reflexivity. Qed.
Lemma sy2_is op t a b : sy2 op t a b = opnum2 op t a b. Proof. destruct t; reflexivity. Qed.
Lemma sy3_is op t a b c : sy3 op t a b c = opnum3 op t a b c. Proof. destruct t; reflexivity. Qed.
Lemma libm1_new op t a : libm1 true op t a = opnum1 op t a. Proof. destruct t; reflexivity. Qed.

Section Native.
Variables (d : dev) (arch : bool) (t : fty).
(** one argument *)
Lemma lift1 (o : option Z) op a (P : Z -> Prop) : o = cu1 d arch op t a \/ o = opnum1 op t a -> gives t (opnum1 op t a) P ->
  (t = F16 -> 0 <= op binary16 a < 2 ^ fw t /\ P (op binary16 a)) -> gives t o P.
Proof.
  intros E S N. assert (G : gives t (cu1 d arch op t a) P). { rewrite cu1_is. destruct (native d arch t) eqn:K; [|exact S]. apply native_t in K. destruct (N K). eexists; split; [reflexivity|auto]. }
  destruct E as [->| ->]; assumption.
Qed.
Lemma lift2 (o : option Z) op a b (P : Z -> Prop) : o = cu2 d arch op t a b \/ o = opnum2 op t a b -> gives t (opnum2 op t a b) P ->
  (t = F16 -> 0 <= op binary16 a b < 2 ^ fw t /\ P (op binary16 a b)) -> gives t o P.
Proof.
  intros E S N. assert (G : gives t (cu2 d arch op t a b) P). { rewrite cu2_is. destruct (native d arch t) eqn:K; [|exact S]. apply native_t in K. destruct (N K). eexists; split; [reflexivity|auto]. }
  destruct E as [->| ->]; assumption.
Qed.
End Native.

Lemma g_arith_ok o d arch t a b : 0 <= a < 2 ^ fw t -> 0 <= b < 2 ^ fw t -> gives t (g_arith o d arch t a b) (result_is o (ff t) (decode (ff t) a) (decode (ff t) b)).
Proof.
  intros Ha Hb. assert (S : gives t (sf_arith o t a b) (result_is o (ff t) (decode (ff t) a) (decode (ff t) b))) by (destruct o; [apply sf_add_is|apply sf_sub_is|apply sf_mul_is|apply sf_div_is]; assumption).
  apply (lift2 d arch t _ (fop o) a b).
  - destruct d, o; auto.
  - destruct o; exact S.
  - intros ->. destruct (fop_is o binary16 a b good16 Ha Hb) as (K & R). split; [exact R|exact K].
Qed.
Lemma g_rec_ok d arch t a : 0 <= a < 2 ^ fw t -> gives t (g_recf d arch t a) (inverse_is (ff t) (decode (ff t) a)).
Proof.
  intros Ha. apply (lift1 d arch t _ (fun f x => fdiv f (fone f) x) a).
  - destruct d; [left; reflexivity..|right]. unfold g_recf. apply sy1_is.
  - apply (sf_rec_is t a Ha).
  - intros ->. destruct (inverse_ok binary16 a good16 Ha) as (K & R). split; [exact R|exact K].
Qed.
Lemma opnum_sqrt t a : 0 <= a < 2 ^ fw t -> gives t (opnum1 fsqrt t a) (root_is (ff t) (decode (ff t) a)).
Proof. intros Ha. rewrite <- libm1_new. exact (sf_sqrt_is true t a Ha). Qed.
Lemma g_sqrt_ok d arch t a : 0 <= a < 2 ^ fw t -> gives t (g_sqrtf d arch t a) (root_is (ff t) (decode (ff t) a)).
Proof.
  intros Ha. assert (D : gives t (Some (fsqrt (ff t) a)) (root_is (ff t) (decode (ff t) a))).
  { eexists; split; [reflexivity|]. rewrite <- ff_w in *. split; [apply fsqrt_rng|apply fsqrt_is; [|exact Ha]]; apply ff_good'. }
  assert (C : gives t (cu1 d arch fsqrt t a) (root_is (ff t) (decode (ff t) a))).
  { apply (lift1 d arch t _ fsqrt a); [left; reflexivity|apply opnum_sqrt; exact Ha|]. intros ->. split; [apply (fsqrt_rng binary16 a good16)|apply fsqrt_is; [exact good16|exact Ha]]. }
  destruct d; assumption.
Qed.
Lemma nearest_one f g x k k' : wider f g -> nearest f x k -> nearest g (x * 2 ^ ratio f g) k' -> k = k'.
Proof.
  intros W (N1 & N2) (M1 & M2). destruct (one_wide f g W) as (E & P1 & P2). rewrite E in *. set (R := 2 ^ ratio f g) in *. set (O := one f) in *.
  assert (A : Z.abs (k' * (O * R) - x * R) = Z.abs (k' * O - x) * R) by (rewrite <- (Z.abs_eq R) at 3 by lia; rewrite <- Z.abs_mul; f_equal; ring).
  rewrite A in *. assert (B1 : 2 * Z.abs (k' * O - x) <= O) by nia. assert (B2 : 2 * Z.abs (k' * O - x) = O -> Z.even k' = true) by (intros K; apply M2; nia). clear A M1 M2.
  destruct (Z.eq_dec k k') as [|N]; [assumption|exfalso]. assert (T : Z.abs (k - k') * O <= O) by nia. assert (T1 : Z.abs (k - k') = 1) by nia.
  assert (2 * Z.abs (k * O - x) = O /\ 2 * Z.abs (k' * O - x) = O) as (U & V) by nia. specialize (N2 U). specialize (B2 V).
  assert (k = k' + 1 \/ k = k' - 1) as [->| ->] by lia; [rewrite Z.add_1_r, Z.even_succ in N2|rewrite Z.sub_1_r, Z.even_pred in N2]; rewrite <- Z.negb_even, B2 in N2; discriminate.
Qed.
Lemma g_round_ok (op : fmt -> Z -> Z) (P : fmt -> Z -> Z -> Prop) o d arch t a :
  (forall f b, good_fmt f -> 0 <= b < 2 ^ width f -> fits f b (P f) (op f b)) ->
  (forall f g x k k', wider f g -> P f x k -> P g (x * 2 ^ ratio f g) k' -> k = k') ->
  o = cu1 d arch op t a \/ o = opnum1 op t a -> 0 <= a < 2 ^ fw t ->
  gives t o (fun r => rounded (ff t) (P (ff t)) (decode (ff t) a) (decode (ff t) r)).
Proof.
  intros H1 H2 E Ha. apply (lift1 d arch t o op a _ E).
  - rewrite <- libm1_new. exact (round_is op P H1 H2 true t a Ha).
  - intros ->. destruct (H1 binary16 a good16 Ha) as (K & R). split; [exact R|exact K].
Qed.
Lemma g_neg_ok d arch t a : 0 <= a < 2 ^ fw t -> gives t (g_negf d arch t a) (fun r => decode (ff t) r = opposite (decode (ff t) a)).
Proof.
  intros Ha. apply (lift1 d arch t _ fopp a); [destruct d; auto|exact (neg_is t a Ha)|]. intros ->. destruct (fopp_opp binary16 a good16 Ha) as (K & R). split; [exact R|exact K].
Qed.
Lemma fabs_ok t x : 0 <= x < 2 ^ fw t -> decode (ff t) (fabs_lib (ff t) x) = absolute (decode (ff t) x) /\ 0 <= fabs_lib (ff t) x < 2 ^ fw t.
Proof. unfold fabs_lib. rewrite ff_w. exact (hw_abs_ok t x). Qed.
Lemma g_absf_ok d arch t a : 0 <= a < 2 ^ fw t -> gives t (g_absf d arch t a) (fun r => decode (ff t) r = absolute (decode (ff t) a)).
Proof.
  intros Ha. apply (lift1 d arch t _ fabs_lib a).
  - destruct d; [left; reflexivity..|right; apply sy1_is].
  - destruct (fabs_ok t a Ha) as (D & R). destruct t; [|exists (fabs_lib (ff F32) a); split; [reflexivity|auto]|exists (fabs_lib (ff F64) a); split; [reflexivity|auto]].
    cbn [opnum1]. destruct (wide16 a Ha) as (x & Ex & Rx & Dx). rewrite Ex. cbn [bind]. eexists; split; [reflexivity|]. destruct (fabs_ok F32 x Rx) as (D' & R'). cbn [ff] in *.
    split; [apply f32_to_u16_range_l; exact R'|]. eapply wide_same; [exact R|exact R'|exact D|]. rewrite D', Dx. destruct (decode binary16 a); reflexivity.
  - intros ->. destruct (fabs_ok F16 a Ha). auto.
Qed.

(** ** minimum and maximum *)
Lemma fval_nan v : v = FNaN \/ v <> FNaN.
Proof. destruct v; [left; reflexivity|right; discriminate..]. Qed.
Lemma compare_self v : v <> FNaN -> compare v v = Equal.
Proof. intros N. destruct v as [|s|s m]; [contradiction|destruct s; reflexivity|]. cbn [compare]. rewrite Z.compare_refl. reflexivity. Qed.
Lemma flt_cases v w : v <> FNaN -> w <> FNaN -> (compare v w = Less /\ compare w v = Greater) \/ (compare v w = Greater /\ compare w v = Less) \/ (compare v w = Equal /\ compare w v = Equal).
Proof.
  intros Nv Nw. destruct v as [|s|s m], w as [|s'|s' m']; try contradiction; cbn [compare]; try (destruct s, s'; cbn; tauto); try (destruct s; tauto); try (destruct s'; tauto).
  rewrite (Z.compare_antisym (sval s m)). destruct (sval s m ?= sval s' m'); cbn; tauto.
Qed.
(** which of the two is chosen depends on the comparison only *)
Definition first_min (k : bool) (v w : fval) : bool :=
  match v, w with FNaN, _ => false | _, FNaN => true | _, _ => if flt v w then true else if flt w v then false else k end.
Definition first_max (k : bool) (v w : fval) : bool :=
  match v, w with FNaN, _ => false | _, FNaN => true | _, _ => if flt w v then true else if flt v w then false else k end.
Lemma fmin_first k f x y : fmin_lib k f x y = if first_min k (decode f x) (decode f y) then x else y.
Proof. unfold fmin_lib, first_min. destruct (decode f x), (decode f y); try reflexivity; destruct (flt _ _); try reflexivity; destruct (flt _ _); reflexivity. Qed.
Lemma fmax_first k f x y : fmax_lib k f x y = if first_max k (decode f x) (decode f y) then x else y.
Proof. unfold fmax_lib, first_max. destruct (decode f x), (decode f y); try reflexivity; destruct (flt _ _); try reflexivity; destruct (flt _ _); reflexivity. Qed.
Lemma first_min_ok k v w : let r := if first_min k v w then v else w in at_most r v /\ at_most r w.
Proof.
  cbv zeta. unfold at_most. destruct (fval_nan v) as [->|Nv]; [cbn [first_min]; split; [contradiction|intros N; rewrite compare_self by exact N; auto]|].
  destruct (fval_nan w) as [->|Nw]; [replace (first_min k v FNaN) with true by (destruct v; [contradiction|reflexivity..]); split; [intros N; rewrite compare_self by exact N; auto|contradiction]|].
  assert (E : first_min k v w = if flt v w then true else if flt w v then false else k) by (destruct v, w; try contradiction; reflexivity). rewrite E, flt_less, (flt_less w v).
  destruct (flt_cases v w Nv Nw) as [(A & B)|[(A & B)|(A & B)]]; rewrite A, ?B; cbn [is].
  - rewrite compare_self by exact Nv. auto.
  - rewrite B, compare_self by exact Nw. auto.
  - destruct k; rewrite ?A, ?B, compare_self by assumption; auto.
Qed.
Lemma first_max_ok k v w : let r := if first_max k v w then v else w in at_least r v /\ at_least r w.
Proof.
  cbv zeta. unfold at_least. destruct (fval_nan v) as [->|Nv]; [cbn [first_max]; split; [contradiction|intros N; rewrite compare_self by exact N; auto]|].
  destruct (fval_nan w) as [->|Nw]; [replace (first_max k v FNaN) with true by (destruct v; [contradiction|reflexivity..]); split; [intros N; rewrite compare_self by exact N; auto|contradiction]|].
  assert (E : first_max k v w = if flt w v then true else if flt v w then false else k) by (destruct v, w; try contradiction; reflexivity). rewrite E, flt_less, (flt_less v w).
  destruct (flt_cases v w Nv Nw) as [(A & B)|[(A & B)|(A & B)]]; rewrite ?A, ?B; cbn [is].
  - rewrite B, compare_self by exact Nw. auto.
  - rewrite A, compare_self by exact Nv. auto.
  - destruct k; rewrite ?A, ?B, compare_self by assumption; auto.
Qed.
Lemma first_min_wide k v w : first_min k (widened16 v) (widened16 w) = first_min k v w.
Proof. destruct v as [|s|s m], w as [|s'|s' m']; cbn [widened first_min]; try reflexivity. change (FFin s (m * 2 ^ ratio binary16 binary32)) with (widened16 (FFin s m)). change (FFin s' (m' * 2 ^ ratio binary16 binary32)) with (widened16 (FFin s' m')).
  rewrite !flt_less, !compare_wide. reflexivity. Qed.
Lemma first_max_wide k v w : first_max k (widened16 v) (widened16 w) = first_max k v w.
Proof. destruct v as [|s|s m], w as [|s'|s' m']; cbn [widened first_max]; try reflexivity. change (FFin s (m * 2 ^ ratio binary16 binary32)) with (widened16 (FFin s m)). change (FFin s' (m' * 2 ^ ratio binary16 binary32)) with (widened16 (FFin s' m')).
  rewrite !flt_less, !compare_wide. reflexivity. Qed.
Lemma choose_ok (q : fval -> fval -> bool) (op : fmt -> Z -> Z -> Z) t a b : (forall f x y, op f x y = if q (decode f x) (decode f y) then x else y) ->
  (forall v w, q (widened16 v) (widened16 w) = q v w) -> 0 <= a < 2 ^ fw t -> 0 <= b < 2 ^ fw t ->
  gives t (opnum2 op t a b) (fun r => same_number (ff t) r (if q (decode (ff t) a) (decode (ff t) b) then a else b)).
Proof.
  intros E W Ha Hb. destruct t; cbn [opnum2 ff fw] in *.
  - destruct (wide16 a Ha) as (x & Ex & Rx & Dx). destruct (wide16 b Hb) as (y & Ey & Ry & Dy). rewrite Ex, Ey. cbn [bind]. eexists; split; [reflexivity|].
    rewrite E, Dx, Dy, W. destruct (q _ _); (split; [apply f32_to_u16_range_l; assumption|apply narrow_same16; assumption]).
  - eexists; split; [reflexivity|]. rewrite E. cbn [ff]. destruct (q _ _); (split; [assumption|left; reflexivity]).
  - eexists; split; [reflexivity|]. rewrite E. cbn [ff]. destruct (q _ _); (split; [assumption|left; reflexivity]).
Qed.
Lemma chosen_smaller k f a b r : same_number f r (if first_min k (decode f a) (decode f b) then a else b) -> smaller_of f a b r.
Proof.
  intros S. pose proof (same_decode _ _ _ S) as D. pose proof (first_min_ok k (decode f a) (decode f b)) as (A & B). unfold smaller_of. rewrite D. destruct (first_min k _ _); cbn iota in *; auto.
Qed.
Lemma chosen_greater k f a b r : same_number f r (if first_max k (decode f a) (decode f b) then a else b) -> greater_of f a b r.
Proof.
  intros S. pose proof (same_decode _ _ _ S) as D. pose proof (first_max_ok k (decode f a) (decode f b)) as (A & B). unfold greater_of. rewrite D. destruct (first_max k _ _); cbn iota in *; auto.
Qed.
Lemma g_min_split k d arch t a b : ~ half_hardware d arch t -> g_minf k d arch t a b = opnum2 (fmin_lib k) t a b.
Proof. intros N. rewrite <- native_iff in N. destruct d; cbn [g_minf]; [..|apply sy2_is]; (destruct t; cbn [native] in N; [destruct (native_half _ arch) eqn:K; [congruence|rewrite cu2_is; cbn [native]; rewrite K; reflexivity]|reflexivity..]). Qed.
Lemma g_max_split k d arch t a b : ~ half_hardware d arch t -> g_maxf k d arch t a b = opnum2 (fmax_lib k) t a b.
Proof. intros N. rewrite <- native_iff in N. destruct d; cbn [g_maxf]; [..|apply sy2_is]; (destruct t; cbn [native] in N; [destruct (native_half _ arch) eqn:K; [congruence|rewrite cu2_is; cbn [native]; rewrite K; reflexivity]|reflexivity..]). Qed.
Lemma g_minf_ok k d arch t a b : ~ half_hardware d arch t -> 0 <= a < 2 ^ fw t -> 0 <= b < 2 ^ fw t -> gives t (g_minf k d arch t a b) (smaller_of (ff t) a b).
Proof.
  intros N Ha Hb. rewrite g_min_split by exact N. destruct (choose_ok (first_min k) (fmin_lib k) t a b (fmin_first k) (first_min_wide k) Ha Hb) as (r & E & R & S).
  exists r. split; [exact E|]. split; [exact R|]. exact (chosen_smaller k _ _ _ _ S).
Qed.
Lemma g_maxf_ok k d arch t a b : ~ half_hardware d arch t -> 0 <= a < 2 ^ fw t -> 0 <= b < 2 ^ fw t -> gives t (g_maxf k d arch t a b) (greater_of (ff t) a b).
Proof.
  intros N Ha Hb. rewrite g_max_split by exact N. destruct (choose_ok (first_max k) (fmax_lib k) t a b (fmax_first k) (first_max_wide k) Ha Hb) as (r & E & R & S).
  exists r. split; [exact E|]. split; [exact R|]. exact (chosen_greater k _ _ _ _ S).
Qed.

(** ** comparisons *)
Lemma g_cmpf_is p d arch t a b : native d arch t = false -> g_cmpf p d arch t a b = bind (cmpnum p t a b) (fun x => Some (c_int x)).
Proof.
  intros N. destruct t; cbn [g_cmpf cmpnum native] in *; [rewrite N|reflexivity..]. destruct (u16_to_f32 a); [|reflexivity]. destruct (u16_to_f32 b); reflexivity.
Qed.
Lemma g_cmp_ok p q d arch t a b : (forall v w, p v w = q (compare v w)) -> q Unordered = false -> 0 <= a < 2 ^ fw t -> 0 <= b < 2 ^ fw t ->
  g_cmpf p d arch t a b = Some (c_int (q (compare (decode (ff t) a) (decode (ff t) b)))).
Proof.
  intros H U Ha Hb. destruct (native d arch t) eqn:N.
  - pose proof (native_t _ _ _ N) as ->. cbn [native] in N. cbn [g_cmpf ff]. rewrite N, H. do 2 f_equal. unfold ordered. destruct (decode binary16 a), (decode binary16 b); cbn [compare andb]; auto.
  - rewrite g_cmpf_is by exact N. rewrite (cmp_is p q t a b H Ha Hb). reflexivity.
Qed.
Lemma g_ne_ok d arch t a b : 0 <= a < 2 ^ fw t -> 0 <= b < 2 ^ fw t ->
  g_nef d arch t a b = Some (c_int (match compare (decode (ff t) a) (decode (ff t) b) with Equal => false | Unordered => negb (native d arch t) | _ => true end)).
Proof.
  intros Ha Hb. unfold g_nef. destruct (native d arch t) eqn:N.
  - pose proof (native_t _ _ _ N) as ->. cbn [native] in N. cbn [g_cmpf ff]. rewrite N. do 2 f_equal. unfold ordered.
    change (negb (feqb (decode binary16 a) (decode binary16 b))) with (cmp_neq_uq (decode binary16 a) (decode binary16 b)). rewrite is_ne.
    destruct (decode binary16 a) as [|s|s m], (decode binary16 b) as [|s'|s' m']; cbn [andb negb]; try reflexivity; destruct (compare _ _) eqn:C; try reflexivity; exfalso; revert C; cbn [compare]; try (destruct s, s'; discriminate); try (destruct s; discriminate); try (destruct s'; discriminate); destruct (_ ?= _); discriminate.
  - rewrite g_cmpf_is by exact N. rewrite (cmp_is (fun x y => negb (feqb x y)) (fun c => negb (is c Equal)) t a b is_ne Ha Hb). cbn [bind]. do 2 f_equal. destruct (compare _ _); reflexivity.
Qed.

(** ** multiply and add *)
Definition sn0 (o : muladd) := match o with Fnma | Fnms => true | _ => false end.
Definition sn2 (o : muladd) := match o with Fms | Fnms => true | _ => false end.
Lemma g_muladd_sfm o t a b c : forall d arch, d = Oneapi \/ (o = Fma /\ ~ half_hardware d arch t) -> g_muladd o d arch t a b c = sfm (sn0 o) (sn2 o) true t a b c.
Proof.
  intros d arch [->|(-> & N)].
  - destruct o; cbn [g_muladd g_fmaf g_fmsf g_fnmaf g_fnmsf]; rewrite sy3_is; reflexivity.
  - rewrite <- native_iff in N. assert (K : native d arch t = false) by (destruct (native d arch t); congruence).
    destruct d; cbn [g_muladd g_fmaf]; [rewrite cu3_is, K; reflexivity..|rewrite sy3_is; reflexivity].
Qed.
Lemma factor_if o v : minus_if (sn0 o) v = factor o v. Proof. destruct o; reflexivity. Qed.
Lemma addend_if o v : minus_if (sn2 o) v = addend o v. Proof. destruct o; reflexivity. Qed.
Lemma sfm_once o t a b c : t <> F16 -> 0 <= a < 2 ^ fw t -> 0 <= b < 2 ^ fw t -> 0 <= c < 2 ^ fw t ->
  gives t (sfm (sn0 o) (sn2 o) true t a b c) (fused_is (ff t) (factor o (decode (ff t) a)) (decode (ff t) b) (addend o (decode (ff t) c))).
Proof. intros T Ha Hb Hc. destruct (sfm_c99_is (sn0 o) (sn2 o) t a b c T Ha Hb Hc) as (r & E & R & F). rewrite factor_if, addend_if in F. exists r. auto. Qed.
Lemma sfm_half o a b c : 0 <= a < 2 ^ 16 -> 0 <= b < 2 ^ 16 -> 0 <= c < 2 ^ 16 ->
  let v := factor o (decode binary16 a) in let w := decode binary16 b in let x := addend o (decode binary16 c) in
  exists y, gives F16 (sfm (sn0 o) (sn2 o) true F16 a b c) (fun r => fused_in_single v w x y r /\ (~ between_halves y -> fused_is binary16 v w x r)).
Proof.
  intros Ha Hb Hc v w x. destruct (sfm16_is (sn0 o) (sn2 o) true a b c Ha Hb Hc) as (r & y & E & R & Ry & F & H & B). rewrite factor_if, addend_if in *. exists y, r.
  split; [exact E|]. split; [exact R|]. split; [|exact B]. unfold fused_in_single. rewrite !widen_eq. auto.
Qed.
Lemma cuda_muladd o d arch t a b c : d <> Oneapi -> g_muladd o d arch t a b c = g_muladd Fma d arch t a b c.
Proof. intros N. destruct d; [destruct o; reflexivity..|contradiction]. Qed.
Lemma cuda_native a b c : g_muladd Fma Cuda true F16 a b c = Some (ffma binary16 a b c).
Proof. reflexivity. Qed.

(** ** conversions *)
Lemma float_int_rounded f z : good_fmt f -> correctly_rounded f (z <? 0) (twice_ratio (Z.abs z * one f) 1) (float_of_int f z).
Proof. intros G. pose proof (one_pos f G). unfold float_of_int. rewrite scale_one. change 1 with (2 ^ 0) at 1. apply encode_rounded; [exact G| |lia]. pose proof (Z.abs_nonneg z). nia. Qed.
Lemma half_int_rounded z : Z.abs z <= 2 ^ 16 -> correctly_rounded binary16 (z <? 0) (twice_ratio (Z.abs z * one binary16) 1) (f32_to_u16 (float_of_int binary32 z)) /\ 0 <= f32_to_u16 (float_of_int binary32 z) < 2 ^ 16.
Proof.
  intros Hz. assert (Hz' : Z.abs z <= 2 ^ (mbits binary32 + 1)) by (change (2 ^ (mbits binary32 + 1)) with 16777216; change (2 ^ 16) with 65536 in Hz; lia).
  pose proof (nearest_float_exact binary32 z good32 Hz') as D. rewrite <- nearest_float_eq in D. pose proof (nearest_float_range binary32 z good32) as R. rewrite <- nearest_float_eq in R.
  change (width binary32) with 32 in R. split; [|apply f32_to_u16_range_l; exact R]. pose proof (narrowed_half _ _ (narrow16 _ R)) as H. unfold as_half in H. rewrite D in H.
  revert H. apply rounded_ext; [|exact good16]. intros n Hn. unfold twice_ratio. change (one binary32) with (one binary16 * 2 ^ 125). rewrite Z.mul_1_r. rewrite Z.mul_assoc, Z.mul_assoc, <- Zmult_compare_compat_r by reflexivity. rewrite Z.mul_assoc. reflexivity.
Qed.
Lemma half_int_same z : Z.abs z <= 2 ^ 16 -> f32_to_u16 (float_of_int binary32 z) = float_of_int binary16 z.
Proof.
  intros Hz. destruct (half_int_rounded z Hz) as (A & _). pose proof (float_int_rounded binary16 z good16) as B.
  eapply rounded_unique; [exact good16| |exact A|exact B]. apply comparing_ratio. lia.
Qed.
Lemma int_of_float_ok f u x : good_fmt f -> truncation f u x (int_of_float u f x).
Proof.
  intros G. unfold int_of_float. destruct (decode f x) as [|s|s m] eqn:D; cbn [truncation].
  - intros (z & (s & m & D' & _) & _). congruence.
  - intros (z & (s' & m & D' & _) & _). congruence.
  - rewrite scale_one. destruct (_ && _) eqn:B; cbn [truncation].
    + split; [exists s, m; auto|unfold in_ty; lia].
    + intros (z & (s' & m' & D' & E) & R). rewrite D in D'. injection D' as <- <-. subst z. unfold in_ty in R. lia.
Qed.
Lemma int_of_half u x : 0 <= x < 2 ^ 16 -> bind (u16_to_f32 x) (int_of_float u binary32) = int_of_float u binary16 x.
Proof.
  intros R. destruct (wide16 x R) as (y & E & Ry & D). rewrite E. cbn [bind]. unfold int_of_float. rewrite D. destruct (decode binary16 x) as [|s|s m]; cbn [widened]; try reflexivity.
  replace (m * 2 ^ ratio binary16 binary32 / 2 ^ scale binary32) with (m / 2 ^ scale binary16); [reflexivity|].
  rewrite ratio16. change (2 ^ scale binary32) with (2 ^ scale binary16 * 2 ^ 125). rewrite Z.div_mul_cancel_r by (vm_compute; discriminate). reflexivity.
Qed.
Lemma int_types_fw t u : In t int_types -> bits t = fw u -> u = F16 -> forall x, in_ty t x -> Z.abs x <= 2 ^ 16.
Proof. intros H W -> x Hx. ty_cases H; cbn in W; try discriminate; unfold in_ty, ty_min, ty_max in Hx; cbn in Hx; change (2 ^ 16) with 65536; lia. Qed.
Lemma sc_int_float t u x : In t int_types -> bits t = fw u -> in_ty t x -> sc_cvt (SI t) (SF u) x = Some (float_of_int (ff u) x).
Proof. intros H W V. destruct u; cbn [sc_cvt same_sty ff]; [|reflexivity..]. rewrite half_int_same; [reflexivity|]. exact (int_types_fw t F16 H W eq_refl x V). Qed.
Lemma g_int_float d t u x : In t int_types -> bits t = fw u -> in_ty t x -> g_cvt d (SI t) (SF u) x = Some (float_of_int (ff u) x).
Proof.
  intros H W V. destruct d; [reflexivity..|]. unfold g_cvt. destruct u; [|reflexivity..]. rewrite half_int_same; [reflexivity|]. exact (int_types_fw t F16 H W eq_refl x V).
Qed.
Lemma sc_float_int t u x : 0 <= x < 2 ^ fw t -> sc_cvt (SF t) (SI u) x = int_of_float u (ff t) x.
Proof. intros R. destruct t; cbn [sc_cvt same_sty]; [|reflexivity..]. apply int_of_half. exact R. Qed.
Lemma g_float_int d t u x : 0 <= x < 2 ^ fw t -> g_cvt d (SF t) (SI u) x = int_of_float u (ff t) x.
Proof. intros R. destruct d; [reflexivity..|]. unfold g_cvt. apply sc_float_int. exact R. Qed.
Lemma same_sty_cast t u x : In t int_types -> In u int_types -> bits t = bits u -> in_ty t x -> (if same_sty (SI t) (SI u) then Some x else Some (cast u x)) = Some (cast u x).
Proof.
  intros H1 H2 W V. cbn [same_sty]. destruct (Bool.eqb _ _) eqn:S; [|reflexivity]. apply Bool.eqb_prop in S. rewrite W, Z.eqb_refl. cbn [andb]. f_equal. symmetry. apply cast_id; [exact H2|].
  replace u with t; [exact V|]. destruct t, u; cbn in *; congruence.
Qed.
Lemma g_half_half x : 0 <= x < 2 ^ 16 -> exists r, g_cvt Oneapi (SF F16) (SF F16) x = Some r /\ 0 <= r < 2 ^ 16 /\ same_number binary16 r x.
Proof.
  intros R. unfold g_cvt. destruct (wide16 x R) as (y & E & Ry & D). rewrite E. cbn [bind]. eexists; split; [reflexivity|]. split; [apply f32_to_u16_range_l; exact Ry|]. apply narrow_same16; assumption.
Qed.
