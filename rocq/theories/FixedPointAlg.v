(** exp by squaring, Newton square root, log2. *)
From Coq Require Import ZArith Lia Bool List ZifyBool.
From Verif Require Import CInt BitLemmas FloatSpec FloatProofs Fp16 RoundEven ScalarOps ScalarSpec ScalarProofs
  CpuSimd CpuSimdProofs FixedPoint FixedPointSpec FixedPointConv FixedPointProofs.
Import ListNotations.
Open Scope Z_scope.

(** *** exp *)
Section Exp.
Variables (lf rt : Z) (t : ity).
Hypothesis Hl : 0 <= lf.
Hypothesis Hr : 0 <= rt.
Hypothesis Hs : storage lf rt = Some t.
Hypothesis Hok : 1 <= rt \/ bits t < 32.
Variables (a b : Z) (pw : Z -> Z).
Hypothesis Hpw0 : pw 0 = 2 ^ rt.
Hypothesis Hpw : forall m, 1 <= m <= b -> is_power rt a m (pw m) /\ in_fmt lf rt (pw m).

Lemma pw_all m : 0 <= m <= b -> is_power rt a m (pw m).
Proof.
  intros Hm. destruct (Z.eq_dec m 0) as [->|]; [|apply Hpw; lia].
  unfold is_power. rewrite Hpw0, Z.mul_0_r. change (2 ^ 0) with 1. rewrite Z.pow_0_r. ring.
Qed.

Lemma pw_mul i j : 0 <= i -> 0 <= j -> 1 <= i + j <= b -> pw i * pw j = pw (i + j) * 2 ^ rt.
Proof.
  intros Hi Hj Hij. pose proof (pw_all i ltac:(lia)) as Pi. pose proof (pw_all j ltac:(lia)) as Pj.
  pose proof (pw_all (i + j) ltac:(lia)) as Pij. unfold is_power in *.
  assert (0 < 2 ^ (rt * (i + j))) as P by (apply pow2_pos; nia).
  apply (Z.mul_cancel_r _ _ (2 ^ (rt * (i + j)))); [lia|].
  transitivity ((a ^ i * 2 ^ rt) * (a ^ j * 2 ^ rt)).
  - rewrite <- Pi, <- Pj. rewrite Z.mul_add_distr_l, Z.pow_add_r by nia. ring.
  - transitivity ((a ^ (i + j) * 2 ^ rt) * 2 ^ rt); [rewrite Z.pow_add_r by lia; ring|]. rewrite <- Pij. ring.
Qed.

Lemma mul_pw i j : 0 <= i -> 0 <= j -> 1 <= i + j <= b -> fp_mul t rt (pw i) (pw j) = Some (pw (i + j)).
Proof.
  intros Hi Hj Hij. destruct (storage_spec lf rt t Hl Hr Hs) as (H & S & B & B2 & P).
  pose proof (pow2_pos rt Hr) as Pr. pose proof (pw_mul i j Hi Hj Hij) as E.
  destruct (Hpw (i + j) Hij) as (_ & Hf).
  rewrite fp_mul_l; try assumption; try lia.
  - rewrite E, Z_div_mult by lia. reflexivity.
  - rewrite E. apply (shifted_in_ty lf rt t); assumption.
Qed.

Lemma exp_loop_ok fuel : forall e k r, 1 <= e < 2 ^ (Z.of_nat fuel + 1) -> 1 <= k -> 0 <= r -> r + k * e = b ->
  exp_loop t rt fuel e (pw k) (pw r) = Some (Some (pw b)).
Proof.
  induction fuel as [|fuel IH]; intros e k r He Hk Hr0 E.
  - change (2 ^ (Z.of_nat 0 + 1)) with 2 in He. assert (e = 1) by lia. subst e.
    cbn [exp_loop]. change (1 <? 1) with false. cbv iota. rewrite mul_pw by lia. do 3 f_equal. lia.
  - cbn [exp_loop]. destruct (1 <? e) eqn:E1.
    2:{ assert (e = 1) by lia. subst e. rewrite mul_pw by lia. do 3 f_equal. lia. }
    replace (Z.of_nat (S fuel) + 1) with (Z.succ (Z.of_nat fuel + 1)) in He by lia. rewrite Z.pow_succ_r in He by lia.
    pose proof (Zodd_div2 e) as Ho. pose proof (Zeven_div2 e) as Hev.
    destruct (Z.odd e) eqn:Od.
    + apply Zodd_bool_iff in Od. specialize (Ho Od).
      set (h := Z.div2 e) in *.
      assert (Z.quot (e - 1) 2 = h) as ->.
      { rewrite Z.quot_div_nonneg by lia. rewrite Ho. replace (2 * h + 1 - 1) with (h * 2) by ring. apply Z_div_mult; lia. }
      assert (1 <= h) by lia.
      assert (k * e = 2 * k * h + k) as Ke by (rewrite Ho; ring).
      assert (2 * k <= 2 * k * h) by nia.
      rewrite (mul_pw r k) by lia. rewrite (mul_pw k k) by lia.
      apply IH; [lia|lia|lia|]. lia.
    + assert (Zeven e) as Evn by (apply Zeven_bool_iff; rewrite Zeven.Zeven_odd_bool, Od; reflexivity). specialize (Hev Evn).
      set (h := Z.div2 e) in *.
      assert (Z.quot e 2 = h) as ->.
      { rewrite Z.quot_div_nonneg by lia. rewrite Hev. replace (2 * h) with (h * 2) by ring. apply Z_div_mult; lia. }
      assert (1 <= h) by lia.
      assert (k * e = 2 * k * h) as Ke by (rewrite Hev; ring).
      assert (2 * k <= 2 * k * h) by nia.
      rewrite (mul_pw k k) by lia.
      apply IH; lia.
Qed.
End Exp.

(** 64 iterations always suffice: the loop terminates for every exponent. *)
Lemma exp_loop_terminates t rt fuel : forall e val res, e < 2 ^ (Z.of_nat fuel + 1) -> exp_loop t rt fuel e val res <> None.
Proof.
  induction fuel as [|fuel IH]; intros e val res He; cbn [exp_loop]; destruct (1 <? e) eqn:E1; try discriminate.
  - change (2 ^ (Z.of_nat 0 + 1)) with 2 in He. lia.
  - replace (Z.of_nat (S fuel) + 1) with (Z.succ (Z.of_nat fuel + 1)) in He by lia. rewrite Z.pow_succ_r in He by lia.
    destruct (Z.odd e); destruct (fp_mul t rt val val) as [v'|]; try (destruct (fp_mul t rt res val) as [r'|]); try discriminate;
      apply IH; apply Z.quot_lt_upper_bound; lia.
Qed.

(** the constants 1 and 2 *)
Lemma one_ok lf rt t : 0 <= lf -> 0 <= rt <= 30 -> storage lf rt = Some t -> fp_of_int t rt 1 = Some (2 ^ rt) /\ in_ty t (2 ^ rt).
Proof.
  intros Hl Hr Hs. destruct (storage_spec lf rt t Hl ltac:(lia) Hs) as (H & S & B & B2 & P).
  assert (in_ty t (2 ^ rt)) as I.
  { apply in_ty_signed; [assumption|]. assert (2 ^ rt < 2 ^ (bits t - 1)) by (apply Z.pow_lt_mono_r; lia).
    pose proof (pow2_pos rt ltac:(lia)). lia. }
  split; [|exact I]. pose proof (fp_of_int_l t rt 1 H Hr ltac:(lia)) as E. rewrite Z.mul_1_l in E. apply E. exact I.
Qed.
Lemma two_ok lf rt t : 0 <= lf -> 0 <= rt <= 30 -> storage lf rt = Some t -> fp_of_int t rt 2 = Some (2 * 2 ^ rt) /\ in_ty t (2 * 2 ^ rt).
Proof.
  intros Hl Hr Hs. destruct (storage_spec lf rt t Hl ltac:(lia) Hs) as (H & S & B & B2 & P).
  assert (in_ty t (2 * 2 ^ rt)) as I.
  { apply in_ty_signed; [assumption|]. rewrite <- Z.pow_succ_r by lia.
    assert (2 ^ (Z.succ rt) < 2 ^ (bits t - 1)) by (apply Z.pow_lt_mono_r; lia).
    pose proof (pow2_pos (Z.succ rt) ltac:(lia)). lia. }
  split; [|exact I]. apply (fp_of_int_l t rt 2 H Hr ltac:(lia)). exact I.
Qed.

Lemma fp_exp_pos lf rt t a b pw : 0 <= lf -> 0 <= rt <= 30 -> storage lf rt = Some t -> (1 <= rt \/ bits t < 32) ->
  0 < b < 2 ^ 63 ->
  (forall m, 1 <= m <= b -> is_power rt a m (pw m) /\ in_fmt lf rt (pw m)) ->
  fp_exp t rt 64 a b = Some (Some (pw b)).
Proof.
  intros Hl Hr Hs Hok Hb Hpw. unfold fp_exp.
  assert ((b =? 0) = false) as -> by lia. assert ((b <? 0) = false) as -> by lia.
  destruct (one_ok lf rt t Hl Hr Hs) as (-> & _).
  set (pw' := fun m => if m =? 0 then 2 ^ rt else pw m).
  assert (pw' 0 = 2 ^ rt) as E0 by reflexivity.
  assert (a = pw' 1) as E1.
  { unfold pw'. change (1 =? 0) with false. cbv iota. destruct (Hpw 1 ltac:(lia)) as (P & _). unfold is_power in P.
    rewrite Z.mul_1_r, Z.pow_1_r in P. pose proof (pow2_pos rt ltac:(lia)). apply (Z.mul_cancel_r _ _ (2 ^ rt)); lia. }
  assert (pw b = pw' b) as Eb by (unfold pw'; destruct (b =? 0) eqn:E; [lia|reflexivity]).
  rewrite Eb. rewrite E1 at 1. rewrite <- E0.
  apply (exp_loop_ok lf rt t Hl ltac:(lia) Hs Hok a b pw' E0).
  - intros m Hm. unfold pw'. destruct (m =? 0) eqn:E; [lia|]. apply Hpw; lia.
  - change (Z.of_nat 64 + 1) with 65. split; [lia|]. apply Z.lt_trans with (2 ^ 63); [lia|]. apply Z.pow_lt_mono_r; lia.
  - lia.
  - lia.
  - lia.
Qed.

Lemma fp_exp_terminates t rt a b : - 2 ^ 63 <= b < 2 ^ 63 -> fp_exp t rt 64 a b <> None.
Proof.
  intros Hb. unfold fp_exp. destruct (b =? 0); [discriminate|].
  destruct (if b <? 0 then bind (fp_of_int t rt 1) (fun one => fp_div t rt one a) else Some a) as [val|]; [|discriminate].
  destruct (if b <? 0 then carith i64 (- b) else Some b) as [e|] eqn:Ee; [|discriminate].
  destruct (fp_of_int t rt 1) as [one|]; [|discriminate].
  apply exp_loop_terminates. assert (2 ^ 63 < 2 ^ (Z.of_nat 64 + 1)) by (apply Z.pow_lt_mono_r; lia).
  destruct (b <? 0) eqn:E; [|injection Ee as <-; lia].
  unfold carith in Ee. cbn [is_signed i64] in Ee.
  destruct ((ty_min i64 <=? - b) && (- b <=? ty_max i64)) eqn:E2; [|discriminate]. injection Ee as <-. 
  change (ty_max i64) with (2 ^ 63 - 1) in E2. lia.
Qed.

Lemma fp_exp_neg t rt fuel a b one inv : - 2 ^ 63 < b < 0 -> fp_of_int t rt 1 = Some one -> fp_div t rt one a = Some inv ->
  fp_exp t rt fuel a b = fp_exp t rt fuel inv (- b).
Proof.
  intros Hb H1 Hd. unfold fp_exp. assert ((b =? 0) = false) as -> by lia. assert ((b <? 0) = true) as -> by lia.
  assert ((- b =? 0) = false) as -> by lia. assert ((- b <? 0) = false) as -> by lia.
  rewrite H1. cbn [bind]. rewrite Hd. unfold carith. cbn [is_signed i64].
  change (ty_min i64) with (- 2 ^ 63). change (ty_max i64) with (2 ^ 63 - 1).
  assert ((- 2 ^ 63 <=? - b) && (- b <=? 2 ^ 63 - 1) = true) as -> by lia. reflexivity.
Qed.

(** *** sqrt *)
Section Sqrt.
Variables (A r : Z).
Hypothesis HA : 0 < A.
Hypothesis Hr0 : 0 < r.
Hypothesis Hr1 : r * r <= A < (r + 1) * (r + 1).

Definition newton (x : Z) : Z := (x + A / x) / 2.

Lemma newton_ge x : 0 < x -> r <= newton x.
Proof.
  intros Hx. unfold newton. apply Z.div_le_lower_bound; [lia|].
  (* x + A/x >= 2r *)
  pose proof (Z.div_mod A x ltac:(lia)) as E. pose proof (Z.mod_pos_bound A x Hx) as M.
  set (q := A / x) in *. set (m := A mod x) in *.
  (* if q <= 2r - x - 1 then A < x(q+1) <= x (2r - x) <= r^2 *)
  destruct (Z_le_gt_dec (2 * r) (x + q)) as [|Hlt]; [lia|exfalso].
  assert (x * (q + 1) <= x * (2 * r - x)) by (apply Z.mul_le_mono_nonneg_l; lia).
  assert (x * (2 * r - x) = r * r - (x - r) * (x - r)) as E2 by ring.
  pose proof (Z.square_nonneg (x - r)) as SQ.
  assert (x * (q + 1) = x * q + x) as E3 by ring. lia.
Qed.

Lemma newton_big x : r < x -> newton x <= (x + r) / 2.
Proof.
  intros Hx. unfold newton. apply Z.div_le_mono; [lia|].
  assert (A / x <= r); [|lia]. apply Z.lt_succ_r. apply Z.div_lt_upper_bound; [lia|].
  assert ((r + 1) * (r + 1) <= x * Z.succ r); [|lia]. unfold Z.succ. apply Z.mul_le_mono_nonneg_r; lia.
Qed.

Lemma newton_root : r <= newton r <= r + 1.
Proof.
  split; [apply newton_ge; lia|]. unfold newton.
  assert (A / r <= r + 2).
  { apply Z.lt_succ_r. apply Z.div_lt_upper_bound; [lia|].
    replace (r * Z.succ (r + 2)) with ((r + 1) * (r + 1) + (r - 1)) by (unfold Z.succ; ring). lia. }
  apply Z.lt_succ_r. apply Z.div_lt_upper_bound; lia.
Qed.

Lemma newton_near x : r <= x <= r + 1 -> r <= newton x <= r + 1.
Proof.
  intros Hx. destruct (Z.eq_dec x r) as [->|]; [apply newton_root|].
  assert (x = r + 1) as -> by lia. split; [apply newton_ge; lia|].
  pose proof (newton_big (r + 1) ltac:(lia)) as N.
  assert ((r + 1 + r) / 2 < r + 1) by (apply Z.div_lt_upper_bound; lia). lia.
Qed.

(** the quadratic step: D x^2 <= U A is preserved with (U',D') *)
Lemma newton_step x U D U' D' : 0 < x -> 0 < U -> 0 < D -> 0 < U' -> 0 < D' ->
  D * A <= U * (x * x) -> D * (x * x) <= U * A ->
  D' * ((U + D) * (U + D)) <= U' * (4 * U * D) ->
  D' * (newton x * newton x) <= U' * A.
Proof.
  intros Hx HU HD HU' HD' H1 H2 H3.
  assert (2 * x * newton x <= x * x + A) as N.
  { unfold newton. pose proof (Z.div_mod A x ltac:(lia)) as E. pose proof (Z.mod_pos_bound A x Hx) as M.
    pose proof (Z.div_mod (x + A / x) 2 ltac:(lia)) as E2. pose proof (Z.mod_pos_bound (x + A / x) 2 ltac:(lia)) as M2.
    set (q := A / x) in *. set (n := (x + q) / 2) in *. nia. }
  pose proof (newton_ge x Hx) as G. set (n := newton x) in *. set (X := x * x) in *.
  assert (0 < X) as HX by (unfold X; nia).
  assert ((D * X - U * A) * (U * X - D * A) <= 0) as K by nia.
  assert ((X + A) * (X + A) * (U * D) <= X * A * ((U + D) * (U + D))) as K2 by nia.
  assert (4 * X * (n * n) <= (X + A) * (X + A)) as K3.
  { replace (4 * X * (n * n)) with ((2 * x * n) * (2 * x * n)) by (unfold X; ring). apply Z.mul_le_mono_nonneg; nia. }
  (* D' n^2 4 X U D <= D' (X+A)^2 U D <= D' X A (U+D)^2 <= X A U' 4 U D *)
  assert (0 < U * D) by nia.
  assert (D' * (4 * X * (n * n) * (U * D)) <= D' * ((X + A) * (X + A) * (U * D))) as S1.
  { apply Z.mul_le_mono_nonneg_l; [lia|]. apply Z.mul_le_mono_nonneg_r; lia. }
  assert (D' * ((X + A) * (X + A) * (U * D)) <= D' * (X * A * ((U + D) * (U + D)))) as S2.
  { apply Z.mul_le_mono_nonneg_l; [lia|]. exact K2. }
  assert (X * A * (D' * ((U + D) * (U + D))) <= X * A * (U' * (4 * U * D))) as S3.
  { apply Z.mul_le_mono_nonneg_l; [nia|]. exact H3. }
  assert (0 < 4 * X * (U * D)) as PP by nia.
  apply (Z.mul_le_mono_pos_r _ _ (4 * X * (U * D)) PP).
  replace (D' * (n * n) * (4 * X * (U * D))) with (D' * (4 * X * (n * n) * (U * D))) by ring.
  replace (U' * A * (4 * X * (U * D))) with (X * A * (U' * (4 * U * D))) by ring.
  replace (X * A * (D' * ((U + D) * (U + D)))) with (D' * (X * A * ((U + D) * (U + D)))) in S3 by ring. lia.
Qed.

(** one iteration on the invariant *)
Definition near (U D x : Z) : Prop := r <= x <= r + 1 \/ (r + 1 <= x /\ D * (x * x) <= U * A).

Lemma near_step U D U' D' x : 0 < D -> D <= U -> 0 < U' -> 0 < D' -> D' * ((U + D) * (U + D)) <= U' * (4 * U * D) ->
  near U D x -> near U' D' (newton x).
Proof.
  intros HD HU HU' HD' H [Hx|(Hx & Hq)].
  - left. apply newton_near; assumption.
  - pose proof (newton_ge x ltac:(lia)) as G.
    destruct (Z_le_gt_dec (newton x) (r + 1)); [left; lia|right]. split; [lia|].
    apply (newton_step x U D); try lia; try assumption.
    assert (A <= x * x) by nia. nia.
Qed.

Lemma near_final U D x : 0 < D -> near U D x -> (U - D) * (r + 1) <= D -> r <= x <= r + 1.
Proof.
  intros HD [Hx|(Hx & Hq)] Hs; [assumption|]. split; [lia|].
  destruct (Z_le_gt_dec x (r + 1)) as [|Hgt]; [lia|exfalso].
  (* x >= r+2: D (r+2)^2 <= U (r+1)^2 contradicts *)
  assert (D * ((r + 2) * (r + 2)) <= D * (x * x)) by (apply Z.mul_le_mono_nonneg_l; nia).
  assert (D <= U) by (destruct (Z_le_gt_dec D U); [assumption|exfalso; nia]).
  assert (U * A <= U * ((r + 1) * (r + 1) - 1)) by (apply Z.mul_le_mono_nonneg_l; lia).
  assert ((U - D) * (r + 1) * (r + 1) <= D * (r + 1)) by (apply Z.mul_le_mono_nonneg_r; lia). nia.
Qed.
End Sqrt.

Section SqrtLoop.
Variables (lf rt : Z) (t : ity).
Hypothesis Hl : 0 <= lf.
Hypothesis Hrt : 0 <= rt <= 30.
Hypothesis Hs : storage lf rt = Some t.
Variables (a r : Z).
Hypothesis Ha : 0 < a.
Hypothesis Hfit : a + 2 ^ rt + 2 < 2 ^ (bits t - 1 - rt).
Local Notation A := (a * 2 ^ rt).
Hypothesis Hr0 : 0 < r.
Hypothesis Hr1 : r * r <= A < (r + 1) * (r + 1).
Local Notation nw := (newton A).
Definition half : Z := (a + 2 ^ rt) / 2.

Lemma Prt : 0 < 2 ^ rt. Proof. apply pow2_pos; lia. Qed.
Lemma A_pos : 0 < A. Proof. pose proof Prt. nia. Qed.
Lemma bt : 8 <= bits t <= 64 /\ In t int_types /\ is_signed t = true /\ rt < bits t - 1 /\ 2 * rt <= bits t.
Proof. destruct (storage_spec lf rt t Hl ltac:(lia) Hs) as (H & S & B & B2 & P). repeat split; try assumption; lia. Qed.

Lemma small_ty z : 0 <= z < 2 ^ (bits t - 1 - rt) -> in_ty t (z * 2 ^ rt) /\ in_ty t z.
Proof.
  intros Hz. destruct bt as (B & H & SG & B2 & _). pose proof Prt.
  assert (2 ^ (bits t - 1) = 2 ^ (bits t - 1 - rt) * 2 ^ rt) as E by (rewrite <- Z.pow_add_r by lia; f_equal; lia).
  split; (apply in_ty_signed; [assumption|]); nia.
Qed.

(** one trip around the loop body *)
Lemma body_ok x0 : 0 < x0 -> x0 + A / x0 < 2 ^ (bits t - 1 - rt) ->
  fp_div t rt a x0 = Some (A / x0) /\ fp_add t x0 (A / x0) = Some (x0 + A / x0) /\
  fp_div t rt (x0 + A / x0) (2 * 2 ^ rt) = Some (nw x0).
Proof.
  intros Hx Hsum. destruct bt as (B & H & SG & B2 & _). pose proof Prt as P. pose proof A_pos as PA.
  assert (0 <= A / x0) as Q0 by (apply Z.div_pos; lia).
  destruct (small_ty a ltac:(lia)) as (IA & _).
  destruct (small_ty (A / x0) ltac:(lia)) as (_ & IQ).
  destruct (small_ty (x0 + A / x0) ltac:(lia)) as (IS1 & IS2).
  split; [|split].
  - rewrite fp_div_l; try assumption; try lia.
    + rewrite Z.quot_div_nonneg by lia. reflexivity.
    + rewrite Z.quot_div_nonneg by lia. assumption.
  - apply fp_add_l; assumption.
  - assert (Z.quot ((x0 + A / x0) * 2 ^ rt) (2 * 2 ^ rt) = nw x0) as E.
    { rewrite Z.quot_div_nonneg by nia. unfold newton. rewrite Z.div_mul_cancel_r by lia. reflexivity. }
    rewrite fp_div_l; try assumption; try lia; rewrite E; [reflexivity|].
    apply (small_ty (nw x0)). unfold newton. split; [apply Z.div_pos; lia|].
    apply Z.le_lt_trans with (x0 + A / x0); [|assumption]. apply Z.div_le_upper_bound; lia.
Qed.

Lemma half_ge : r <= half.
Proof.
  pose proof (newton_ge A r Hr1 a Ha) as N. unfold newton in N. unfold half.
  replace (A / a) with (2 ^ rt) in N; [exact N|]. rewrite Z.mul_comm, Z_div_mult by lia. reflexivity.
Qed.

Lemma sum_ok x : r <= x <= half -> x + A / x < 2 ^ (bits t - 1 - rt).
Proof.
  intros Hx. pose proof half_ge as HG. pose proof A_pos.
  assert (2 * half <= a + 2 ^ rt) as H2 by (unfold half; apply Z.mul_div_le; lia).
  destruct (Z.eq_dec x r) as [->|Hne].
  - assert (A / r < r + 3).
    { apply Z.div_lt_upper_bound; [lia|]. replace (r * (r + 3)) with ((r + 1) * (r + 1) + (r - 1)) by ring. lia. }
    lia.
  - assert (A / x < r + 1).
    { apply Z.div_lt_upper_bound; [lia|].
      assert ((r + 1) * (r + 1) <= x * (r + 1)) by (apply Z.mul_le_mono_nonneg_r; lia). lia. }
    lia.
Qed.

Lemma newton_le_half x : r <= x <= half -> nw x <= Z.max half (r + 1).
Proof.
  intros Hx. destruct (Z.eq_dec x r) as [->|Hne].
  - pose proof (newton_root A r Hr0 Hr1). lia.
  - pose proof (newton_big A r Hr0 Hr1 x ltac:(lia)) as N.
    assert ((x + r) / 2 <= x) by (apply Z.div_le_upper_bound; lia). lia.
Qed.

(** generic invariant along the iterations: [P k x] *)
Variable P : nat -> Z -> Prop.
Hypothesis Proot : forall k, P k r.
Hypothesis Pstep : forall k x, r <= x -> P k x -> P (S k) (nw x).
Hypothesis Pnear : forall k, P k (r + 1).

(** values never exceed max half (r+1); when half = r the next sum is small too *)
Lemma sum_ok' x : r <= x <= Z.max half (r + 1) -> x + A / x < 2 ^ (bits t - 1 - rt).
Proof.
  intros Hx. pose proof half_ge as HG. destruct (Z_le_gt_dec x half) as [|Hgt]; [apply sum_ok; lia|].
  assert (x = r + 1 /\ half = r) as (-> & Eh) by lia.
  assert (2 * half <= a + 2 ^ rt) as H2 by (unfold half; apply Z.mul_div_le; lia).
  assert (A / (r + 1) < r + 1) by (apply Z.div_lt_upper_bound; lia). lia.
Qed.
Lemma newton_le_half' x : r <= x <= Z.max half (r + 1) -> r <= nw x <= Z.max half (r + 1).
Proof.
  intros Hx. split; [apply (newton_ge A r Hr1); lia|]. destruct (Z_le_gt_dec x half) as [|Hgt]; [apply newton_le_half; lia|].
  pose proof (newton_near A r Hr0 Hr1 x ltac:(lia)). lia.
Qed.

Lemma sqrt_loop_ok : forall n k x0, r <= x0 <= Z.max half (r + 1) -> P k x0 ->
  exists x, sqrt_loop t rt a n x0 x0 = Some x /\ P (k + n)%nat x /\ r <= x.
Proof.
  induction n as [|n IH]; intros k x0 Hx HP.
  - exists x0. cbn [sqrt_loop]. rewrite Nat.add_0_r. split; [reflexivity|]. split; [assumption|lia].
  - cbn [sqrt_loop]. destruct (body_ok x0 ltac:(lia) (sum_ok' x0 Hx)) as (E1 & E2 & E3).
    rewrite E1. cbn [bind]. rewrite E2. cbn [bind]. destruct (two_ok lf rt t Hl Hrt Hs) as (-> & _). cbn [bind].
    rewrite E3. cbn [bind]. assert ((x0 =? 0) = false) as -> by lia.
    pose proof (newton_le_half' x0 Hx) as HN.
    assert (forall z, r <= z <= Z.max half (r + 1) -> z < 2 ^ (bits t - 1 - rt)) as Sm.
    { intros z Hz. pose proof (sum_ok' z Hz). assert (0 <= A / z) by (apply Z.div_pos; pose proof A_pos; lia). lia. }
    destruct bt as (B & H & SG & B2 & _).
    assert (in_ty t (x0 - nw x0)) as Id.
    { pose proof (Sm _ Hx). pose proof (Sm _ HN). apply in_ty_signed; [assumption|].
      assert (2 ^ (bits t - 1 - rt) <= 2 ^ (bits t - 1)) by (apply Z.pow_le_mono_r; lia). lia. }
    rewrite carith_promote_fits by assumption. cbn [bind].
    destruct (x0 - nw x0 =? 0) eqn:Eq.
    + exists (nw x0). split; [reflexivity|]. split; [|lia].
      (* a fixed point is the root *)
      assert (nw x0 = r) as ->; [|apply Proot].
      destruct (Z.eq_dec x0 r); [lia|]. pose proof (newton_big A r Hr0 Hr1 x0 ltac:(lia)) as N.
      assert ((x0 + r) / 2 < x0) by (apply Z.div_lt_upper_bound; lia). lia.
    + destruct (IH (S k) (nw x0) HN (Pstep k x0 ltac:(lia) HP)) as (x & Ex & Px & Gx).
      exists x. rewrite Ex. split; [reflexivity|]. split; [|assumption]. rewrite Nat.add_succ_r. exact Px.
Qed.

Lemma fp_sqrt_ok : P 0%nat half -> exists x, fp_sqrt t rt a = Some x /\ (x = r \/ P 9%nat x) /\ r <= x.
Proof.
  intros HP. unfold fp_sqrt. change 10%nat with (S 9). generalize 9%nat. intros nine. cbn [sqrt_loop].
  assert (A / a = 2 ^ rt) as EA by (rewrite Z.mul_comm, Z_div_mult by lia; reflexivity).
  destruct (body_ok a Ha ltac:(rewrite EA; lia)) as (E1 & E2 & E3).
  rewrite E1. cbn [bind]. rewrite E2. cbn [bind]. destruct (two_ok lf rt t Hl Hrt Hs) as (-> & _). cbn [bind].
  rewrite E3. cbn [bind]. assert ((a =? 0) = false) as -> by lia.
  assert (nw a = half) as En by (unfold newton, half; rewrite EA; reflexivity). rewrite En.
  pose proof half_ge as HG.
  assert (2 * half <= a + 2 ^ rt) as H2 by (unfold half; apply Z.mul_div_le; lia).
  destruct bt as (B & H & SG & B2 & _). pose proof Prt as P0.
  assert (in_ty t (a - half)) as Id.
  { apply in_ty_signed; [assumption|].
    assert (2 ^ (bits t - 1 - rt) <= 2 ^ (bits t - 1)) by (apply Z.pow_le_mono_r; lia). lia. }
  rewrite carith_promote_fits by assumption. cbn [bind].
  destruct (a - half =? 0) eqn:Eq.
  - exists half. split; [reflexivity|]. split; [|lia]. left.
    assert (a = half) as Eh by lia. rewrite <- Eh. rewrite <- Eh in HG, En.
    destruct (Z.eq_dec a r); [assumption|]. pose proof (newton_big A r Hr0 Hr1 a ltac:(lia)) as N.
    assert ((a + r) / 2 < a) by (apply Z.div_lt_upper_bound; lia). lia.
  - destruct (sqrt_loop_ok nine 0 half ltac:(lia) HP) as (x & Ex & Px & Gx).
    exists x. split; [exact Ex|]. split; [right; exact Px|assumption].
Qed.
End SqrtLoop.

(** Two instances of the invariant. *)
(** linear: the error is halved *)
Lemma fp_sqrt_linear lf rt t a r : 0 <= lf -> 0 <= rt <= 30 -> storage lf rt = Some t -> 0 < a ->
  a + 2 ^ rt + 2 < 2 ^ (bits t - 1 - rt) -> is_sqrt rt a r ->
  exists x, fp_sqrt t rt a = Some x /\ r <= x /\ (x <= r + 1 \/ (x - r) * 2 ^ 10 <= a + 2 ^ rt).
Proof.
  intros Hl Hrt Hs Ha Hfit (R0 & R1). pose proof (pow2_pos rt ltac:(lia)) as Pr.
  assert (0 < r) as R2 by nia.
  destruct (fp_sqrt_ok lf rt t Hl Hrt Hs a r Ha Hfit R2 R1
    (fun k x => x <= r + 1 \/ (x - r) * 2 ^ Z.of_nat k <= half rt a)) as (x & Ex & Px & Gx).
  - intros k. left. lia.
  - intros k x Hx [Hn|Hn].
    + left. pose proof (newton_near (a * 2 ^ rt) r R2 R1 x ltac:(lia)). lia.
    + destruct (Z.eq_dec x r) as [->|Hne]; [left; pose proof (newton_root (a * 2 ^ rt) r R2 R1); lia|].
      right. pose proof (newton_big (a * 2 ^ rt) r R2 R1 x ltac:(lia)) as N.
      assert (2 * ((x + r) / 2) <= x + r) by (apply Z.mul_div_le; lia).
      rewrite Nat2Z.inj_succ, Z.pow_succ_r by lia. pose proof (pow2_pos (Z.of_nat k) ltac:(lia)) as Pk.
      set (nn := newton (a * 2 ^ rt) x) in *. set (g := 2 ^ Z.of_nat k) in *.
      assert (2 * (nn - r) * g <= (x - r) * g) by (apply Z.mul_le_mono_nonneg_r; lia). lia.
  - right. change (2 ^ Z.of_nat 0) with 1. lia.
  - exists x. split; [exact Ex|]. split; [exact Gx|]. destruct Px as [->|[Hn|Hn]]; [left; lia|left; exact Hn|right].
    change (2 ^ Z.of_nat 9) with (2 ^ 9) in Hn.
    assert (2 * half rt a <= a + 2 ^ rt) as H2 by (unfold half; apply Z.mul_div_le; lia).
    change (2 ^ 10) with (2 * 2 ^ 9). lia.
Qed.

(** quadratic *)
Definition DD : Z := 2 ^ 60.
Definition nextU (U : Z) : Z := (U + DD) * (U + DD) / (4 * U) + 1.
Fixpoint iterU (n : nat) (U : Z) : Z := match n with O => U | S n' => nextU (iterU n' U) end.

Lemma nextU_ok U : 0 < U -> DD * ((U + DD) * (U + DD)) <= nextU U * (4 * U * DD) /\ DD <= nextU U /\ 0 < nextU U.
Proof.
  intros HU. assert (0 < DD) as HD by reflexivity. unfold nextU.
  set (x := (U + DD) * (U + DD)).
  pose proof (Z.div_mod x (4 * U) ltac:(lia)) as E. pose proof (Z.mod_pos_bound x (4 * U) ltac:(lia)) as M.
  set (q := x / (4 * U)) in *.
  assert (x <= (q + 1) * (4 * U)) as Hx by lia.
  assert (DD <= q) as Hq.
  { unfold q. apply Z.div_le_lower_bound; [lia|]. unfold x. pose proof (Z.square_nonneg (U - DD)). lia. }
  split; [|lia].
  replace ((q + 1) * (4 * U * DD)) with (DD * ((q + 1) * (4 * U))) by ring. apply Z.mul_le_mono_nonneg_l; lia.
Qed.

Lemma iterU_pos n U : 0 < U -> 0 < iterU n U.
Proof. intros HU. induction n as [|n IH]; [exact HU|]. cbn [iterU]. apply nextU_ok; assumption. Qed.

Definition Ustart : Z := 2 ^ 12 * DD.

Lemma fp_sqrt_quadratic lf rt t a r : 0 <= lf -> 0 <= rt <= 30 -> storage lf rt = Some t -> 0 < a ->
  a + 2 ^ rt + 2 < 2 ^ (bits t - 1 - rt) -> is_sqrt rt a r ->
  a <= 2 ^ 12 * 2 ^ rt -> 2 ^ rt <= 2 ^ 12 * a ->
  exists x, fp_sqrt t rt a = Some x /\ r <= x <= r + 1.
Proof.
  intros Hl Hrt Hs Ha Hfit (R0 & R1) Hb1 Hb2. pose proof (pow2_pos rt ltac:(lia)) as Pr.
  assert (0 < r) as R2 by nia.
  destruct (fp_sqrt_ok lf rt t Hl Hrt Hs a r Ha Hfit R2 R1
    (fun k x => near (a * 2 ^ rt) r (iterU (S k) Ustart) DD x)) as (x & Ex & Px & Gx).
  - intros k. left. lia.
  - intros k x Hx HP. pose proof (iterU_pos k Ustart eq_refl) as P0.
    destruct (nextU_ok (iterU k Ustart) P0) as (_ & U1 & U2).
    change (iterU (S k) Ustart) with (nextU (iterU k Ustart)) in HP.
    change (iterU (S (S k)) Ustart) with (nextU (nextU (iterU k Ustart))).
    destruct (nextU_ok (nextU (iterU k Ustart)) U2) as (V0 & V1 & V2).
    apply (near_step (a * 2 ^ rt) r ltac:(nia) R2 R1 (nextU (iterU k Ustart)) DD); try assumption; reflexivity.
  - assert (half rt a = newton (a * 2 ^ rt) a) as ->.
    { unfold newton, half. rewrite (Z.mul_comm a (2 ^ rt)), Z_div_mult by lia. reflexivity. }
    pose proof (newton_ge (a * 2 ^ rt) r R1 a Ha) as G.
    destruct (Z_le_gt_dec (newton (a * 2 ^ rt) a) (r + 1)); [left; lia|right]. split; [lia|].
    assert (0 < DD) as HD by reflexivity.
    destruct (nextU_ok Ustart eq_refl) as (W0 & W1 & W2).
    change (iterU 1 Ustart) with (nextU Ustart).
    apply (newton_step (a * 2 ^ rt) r ltac:(nia) R2 R1 a Ustart DD); try assumption; try reflexivity.
    + unfold Ustart. replace (DD * (a * 2 ^ rt)) with (DD * a * 2 ^ rt) by ring.
      replace (2 ^ 12 * DD * (a * a)) with (DD * a * (2 ^ 12 * a)) by ring. apply Z.mul_le_mono_nonneg_l; [nia|assumption].
    + unfold Ustart. replace (DD * (a * a)) with (DD * a * a) by ring.
      replace (2 ^ 12 * DD * (a * 2 ^ rt)) with (DD * a * (2 ^ 12 * 2 ^ rt)) by ring. apply Z.mul_le_mono_nonneg_l; [nia|assumption].
  - exists x. split; [exact Ex|]. destruct Px as [->|Px]; [lia|].
    apply (near_final (a * 2 ^ rt) r ltac:(nia) R2 R1 (iterU 10 Ustart) DD); [reflexivity|exact Px|].
    (* r + 1 <= 2^32 *)
    destruct (storage_spec lf rt t Hl ltac:(lia) Hs) as (H & S & B & B2 & P).
    assert (r < 2 ^ 32) as Hr32.
    { destruct (Z_lt_le_dec r (2 ^ 32)) as [|Hge]; [assumption|exfalso].
      assert (a * 2 ^ rt < 2 ^ (bits t - 1 - rt) * 2 ^ rt) by (apply Z.mul_lt_mono_pos_r; lia).
      rewrite <- Z.pow_add_r in H0 by lia. assert (2 ^ (bits t - 1 - rt + rt) <= 2 ^ 63) by (apply Z.pow_le_mono_r; lia).
      assert (2 ^ 32 * 2 ^ 32 <= r * r) by (apply Z.mul_le_mono_nonneg; lia). lia. }
    assert ((iterU 10 Ustart - DD) * 2 ^ 32 <= DD) as C by (vm_compute; discriminate).
    assert (0 <= iterU 10 Ustart - DD) as C0 by (vm_compute; discriminate).
    set (u := iterU 10 Ustart - DD) in *.
    assert (u * (r + 1) <= u * 2 ^ 32) by (apply Z.mul_le_mono_nonneg_l; lia). lia.
Qed.

Lemma fp_sqrt_zero t rt : fp_sqrt t rt 0 = None.
Proof. unfold fp_sqrt. change 10%nat with (S 9). cbn [sqrt_loop]. rewrite fp_div_zero. reflexivity. Qed.
