From Coq Require Import ZArith Znumtheory Bool List Lia.
From Verif Require Import CInt BitLemmas ScalarOps ScalarSpec ScalarProofs CpuSimd CpuSimdSpec CpuSimdProofs CpuSimdLoop Random RandomSpec.
Import ListNotations.
Open Scope Z_scope.

(** *** Words *)
Lemma word_mod w z : 0 <= w -> word w (z mod 2 ^ w).
Proof. intros H. apply Z.mod_pos_bound. apply pow2_pos. exact H. Qed.
Lemma word_lo w a b : 0 <= w -> word w (lo w a b).
Proof. apply word_mod. Qed.
Lemma word_addw w a b : 0 <= w -> word w (addw w a b).
Proof. apply word_mod. Qed.
Lemma word_hi w a b : 0 <= w -> word w a -> word w b -> word w (hi w a b).
Proof.
  intros Hw Ha Hb. unfold word, hi in *. pose proof (pow2_pos w Hw). split; [apply Z.div_pos; nia|]. apply Z.div_lt_upper_bound; nia.
Qed.
Lemma word_bits w z : 0 <= w -> (word w z <-> 0 <= z /\ forall i, w <= i -> Z.testbit z i = false).
Proof.
  intros Hw. split.
  - intros H. split; [apply H|]. intros i Hi. eapply testbit_small; [exact H|exact Hi].
  - intros [H0 H]. destruct (Z.eq_dec z 0) as [->|N]; [pose proof (pow2_pos w Hw); unfold word; lia|].
    split; [exact H0|]. apply Z.log2_lt_pow2; [lia|]. destruct (Z.lt_ge_cases (Z.log2 z) w) as [L|L]; [exact L|].
    exfalso. specialize (H (Z.log2 z) L). rewrite Z.bit_log2 in H by lia. discriminate.
Qed.
Lemma word_lxor w a b : 0 <= w -> word w a -> word w b -> word w (Z.lxor a b).
Proof.
  intros Hw Ha Hb. apply word_bits in Ha, Hb; [|assumption..]. apply word_bits; [assumption|]. split; [apply Z.lxor_nonneg; lia|].
  intros i Hi. rewrite Z.lxor_spec. rewrite (proj2 Ha), (proj2 Hb) by assumption. reflexivity.
Qed.
Lemma word_rotl w x N : 0 <= N <= w -> word w x -> word w (rotl w x N).
Proof.
  intros HN Hx. unfold word, rotl in *. pose proof (pow2_pos N ltac:(lia)). pose proof (pow2_pos (w - N) ltac:(lia)).
  assert (2 ^ w = 2 ^ (w - N) * 2 ^ N) as E by (rewrite <- Z.pow_add_r by lia; f_equal; lia).
  pose proof (Z.mod_pos_bound x (2 ^ (w - N)) ltac:(lia)). assert (0 <= x / 2 ^ (w - N) < 2 ^ N).
  { split; [apply Z.div_pos; lia|]. apply Z.div_lt_upper_bound; lia. }
  rewrite E in *. nia.
Qed.

(** *** Registers as functions of the lane *)
Definition mk (n : nat) (f : nat -> Z) : reg := map f (seq 0 n).
Lemma mk_ext n f g : (forall i, (i < n)%nat -> f i = g i) -> mk n f = mk n g.
Proof. intros H. apply map_ext_in. intros i Hi. apply in_seq in Hi. apply H. lia. Qed.
Lemma mk_lane n f i : (i < n)%nat -> lane (mk n f) i = Some (f i).
Proof. intros H. apply nth_error_map_seq. exact H. Qed.
Lemma mk_length n f : length (mk n f) = n.
Proof. unfold mk. rewrite map_length, seq_length. reflexivity. Qed.
Lemma mk_nth n f i : (i < n)%nat -> nth i (mk n f) 0 = f i.
Proof. intros H. erewrite nth_error_nth; [reflexivity|]. apply mk_lane; exact H. Qed.
Lemma mk_of r n : length r = n -> mk n (fun i => nth i r 0) = r.
Proof.
  intros <-. apply list_ext; rewrite mk_length; [reflexivity|]. intros k Hk. fold (lane (mk (length r) (fun i => nth i r 0)) k).
  rewrite mk_lane by exact Hk. fold (lane r k). rewrite nth_lane by exact Hk. reflexivity.
Qed.
Lemma func_body_mk n h f : (forall i, (i < n)%nat -> h i = Some (f i)) -> func_body n h = Some (mk n f).
Proof.
  intros H. rewrite func_body_seq. apply sequence_some. unfold mk. rewrite map_map. apply map_ext_in. intros i Hi. apply in_seq in Hi. apply H. lia.
Qed.

Lemma bind_eq {A B} (x : option A) (k : A -> option B) a r : x = Some a -> k a = r -> bind x k = r.
Proof. intros -> H. exact H. Qed.

Definition wf (w : Z) (f : nat -> Z) : Prop := forall i, word w (f i).
Lemma wf_nth w r : 0 <= w -> Forall (word w) r -> wf w (fun i => nth i r 0).
Proof.
  intros Hw H i. destruct (Nat.lt_ge_cases i (length r)) as [L|L].
  - rewrite Forall_forall in H. apply H. apply nth_In. exact L.
  - rewrite nth_overflow by exact L. unfold word. pose proof (pow2_pos w Hw). lia.
Qed.

Section Ops.
Variables (t : ity) (n : nat).
Hypothesis Ht : t = u32 \/ t = u64.
Local Notation w := (bits t).

Lemma t_in : In t int_types.
Proof. destruct Ht as [-> | ->]; cbn; tauto. Qed.
Lemma w_pos : 32 <= w.
Proof. destruct Ht as [-> | ->]; cbn; lia. Qed.
Lemma t_uns : is_signed t = false.
Proof. destruct Ht as [-> | ->]; reflexivity. Qed.
Lemma t_prom : promote t = t.
Proof. apply promote_wide. apply w_pos. Qed.
Lemma in_ty_word z : in_ty t z <-> word w z.
Proof. unfold in_ty, ty_min, ty_max, word. rewrite t_uns. lia. Qed.
Lemma cast_word z : cast t z = z mod 2 ^ w.
Proof. unfold cast. rewrite t_uns. reflexivity. Qed.
Lemma casted_word z : casted t (carith (promote t) z) = Some (z mod 2 ^ w).
Proof.
  rewrite t_prom. unfold carith. rewrite t_uns. cbn [casted bind]. rewrite ?cast_word. unfold to_u. try rewrite Z.mod_mod by (pose proof (pow2_pos w ltac:(pose proof w_pos; lia)); lia). reflexivity.
Qed.

Ltac lanes := intros i Hi; rewrite ?mk_lane by exact Hi; cbn [bind bind2].

Lemma vadd_mk f g : vadd t n (mk n f) (mk n g) = Some (mk n (fun i => addw w (f i) (g i))).
Proof. apply func_body_mk. lanes. rewrite casted_word. reflexivity. Qed.
Lemma vmul_mk f g : vmul t n (mk n f) (mk n g) = Some (mk n (fun i => lo w (f i) (g i))).
Proof. apply func_body_mk. lanes. rewrite casted_word. reflexivity. Qed.
Lemma opbit_word F a b : s_opbit t F a b = F a b mod 2 ^ w.
Proof. unfold s_opbit. rewrite t_uns. cbn [negb]. apply cast_word. Qed.
Lemma vxor_mk f g : wf w f -> wf w g -> vxor t n (mk n f) (mk n g) = Some (mk n (fun i => Z.lxor (f i) (g i))).
Proof.
  intros Hf Hg. apply func_body_mk. lanes. unfold s_xorb. rewrite opbit_word. f_equal. apply Z.mod_small.
  apply (word_lxor w); [pose proof w_pos; lia|apply Hf|apply Hg].
Qed.
Lemma vor_mk f g : vor t n (mk n f) (mk n g) = Some (mk n (fun i => Z.lor (f i) (g i) mod 2 ^ w)).
Proof. apply func_body_mk. lanes. unfold s_orb. rewrite opbit_word. reflexivity. Qed.
Lemma vshl_mk f s : 0 <= s < w -> vshl t n (mk n f) s = Some (mk n (fun i => (f i * 2 ^ s) mod 2 ^ w)).
Proof.
  intros Hs. apply func_body_mk. lanes. unfold s_shl. rewrite t_prom. destruct ((0 <=? s) && (s <? w)) eqn:E; [|lia].
  rewrite cast_word, shiftl_mul by lia. reflexivity.
Qed.
Lemma vshr_mk f s : wf w f -> 0 <= s < w -> vshr t n (mk n f) s = Some (mk n (fun i => f i / 2 ^ s)).
Proof.
  intros Hf Hs. apply func_body_mk. lanes. unfold s_shr. rewrite t_uns. cbn [negb]. apply u_shr_ok; [apply t_in|apply t_uns|apply in_ty_word; apply Hf|exact Hs].
Qed.
Lemma vlt_mk f g : vlt n (mk n f) (mk n g) = Some (mk n (fun i => canon (f i <? g i))).
Proof. apply func_body_mk. lanes. rewrite canon_cast. reflexivity. Qed.
Lemma orl_mk f g : orl n (mk n (fun i => canon (f i))) (mk n (fun i => canon (g i))) = Some (mk n (fun i => canon (f i || g i))).
Proof. apply func_body_mk. lanes. rewrite canon_or. reflexivity. Qed.
Lemma if_mk c f g : if_else1 n (mk n (fun i => canon (c i))) (mk n f) (mk n g) = Some (mk n (fun i => if c i then f i else g i)).
Proof. apply func_body_mk. lanes. rewrite canon_zero. destruct (c i); reflexivity. Qed.
Lemma vset1_mk z : vset1 t n z = Some (mk n (fun _ => z)).
Proof. apply func_body_mk. intros; reflexivity. Qed.

Lemma wf_shr f s : wf w f -> 0 <= s -> wf w (fun i => f i / 2 ^ s).
Proof.
  intros Hf Hs i. specialize (Hf i). unfold word in *. pose proof (pow2_pos s Hs). split; [apply Z.div_pos; lia|].
  pose proof (Z.div_le_upper_bound (f i) (2 ^ s) (f i) ltac:(lia) ltac:(nia)). lia.
Qed.

(** The carries computed by comparisons are right. *)
Lemma halves_arith h a b : 0 < h -> w = 2 * h -> word w a -> word w b ->
  let ah := a / 2 ^ h in let bh := b / 2 ^ h in
  let al := (a * 2 ^ h) mod 2 ^ w / 2 ^ h in let bl := (b * 2 ^ h) mod 2 ^ w / 2 ^ h in
  let ahbl := lo w ah bl in let albh := lo w al bh in let ahbh := lo w ah bh in let albl := lo w al bl in
  let tmp1 := (albh * 2 ^ h) mod 2 ^ w in let tmp2 := (ahbl * 2 ^ h) mod 2 ^ w in
  let tmp3 := addw w tmp1 tmp2 in
  let carry := if (tmp3 <? tmp1) || (tmp3 <? tmp2) then 1 else 0 in
  let low := addw w tmp3 albl in
  let carry := addw w carry (if (low <? tmp3) || (low <? albl) then 1 else 0) in
  let high := addw w (addw w (addw w ahbh (albh / 2 ^ h)) (ahbl / 2 ^ h)) carry in
  low = lo w a b /\ high = hi w a b.
Proof.
  intros Hh Ew Ha Hb. cbv zeta. unfold word in Ha, Hb.
  set (H := 2 ^ h). assert (0 < H) as PH by (apply pow2_pos; lia).
  assert (2 ^ w = H * H) as EW by (rewrite Ew; unfold H; rewrite <- Z.pow_add_r by lia; f_equal; lia).
  assert (2 <= H) as PH2 by (unfold H; pose proof (Z.pow_le_mono_r 2 1 h ltac:(lia) ltac:(lia)); lia).
  unfold addw, lo, hi. rewrite EW in *. clearbody H. clear Ew EW Hh h.
  assert (forall x, (x * H) mod (H * H) = (x mod H) * H) as shl by (intros; apply Z.mul_mod_distr_r; lia).
  rewrite !shl, !Z.div_mul by lia.
  pose proof (Z.div_mod a H ltac:(lia)) as Da. pose proof (Z.div_mod b H ltac:(lia)) as Db.
  pose proof (Z.mod_pos_bound a H ltac:(lia)) as Ma. pose proof (Z.mod_pos_bound b H ltac:(lia)) as Mb.
  assert (0 <= a / H < H) as Qa by (split; [apply Z.div_pos; lia|apply Z.div_lt_upper_bound; lia]).
  assert (0 <= b / H < H) as Qb by (split; [apply Z.div_pos; lia|apply Z.div_lt_upper_bound; lia]).
  set (ah := a / H) in *. set (al := a mod H) in *. set (bh := b / H) in *. set (bl := b mod H) in *.
  clearbody ah al bh bl. subst a b.
  assert (0 <= ah * bh <= (H-1)*(H-1)) as P1 by nia. assert (0 <= ah * bl <= (H-1)*(H-1)) as P2 by nia.
  assert (0 <= al * bh <= (H-1)*(H-1)) as P3 by nia. assert (0 <= al * bl <= (H-1)*(H-1)) as P4 by nia.
  replace ((H * ah + al) * (H * bh + bl)) with (H * H * (ah * bh) + H * (ah * bl) + H * (al * bh) + al * bl) by ring.
  set (p1 := ah * bh) in *. set (p2 := ah * bl) in *. set (p3 := al * bh) in *. set (p4 := al * bl) in *.
  clearbody p1 p2 p3 p4. clear Ha Hb ah al bh bl Ma Mb Qa Qb.
  rewrite !(Z.mod_small p1), !(Z.mod_small p2), !(Z.mod_small p3), !(Z.mod_small p4) by nia.
  pose proof (Z.div_mod p2 H ltac:(lia)) as D2. pose proof (Z.div_mod p3 H ltac:(lia)) as D3.
  pose proof (Z.mod_pos_bound p2 H ltac:(lia)) as M2. pose proof (Z.mod_pos_bound p3 H ltac:(lia)) as M3.
  assert (0 <= p2 / H <= H - 2) as Q2 by (split; [apply Z.div_pos; lia|]; assert (p2 / H < H - 1); [apply Z.div_lt_upper_bound; nia|lia]).
  assert (0 <= p3 / H <= H - 2) as Q3 by (split; [apply Z.div_pos; lia|]; assert (p3 / H < H - 1); [apply Z.div_lt_upper_bound; nia|lia]).
  set (q2 := p2 / H) in *. set (m2 := p2 mod H) in *. set (q3 := p3 / H) in *. set (m3 := p3 mod H) in *.
  clearbody q2 m2 q3 m3. subst p2 p3.
  set (W := H * H) in *.
  assert (0 <= m3 * H < W) as B3 by (unfold W; nia). assert (0 <= m2 * H < W) as B2 by (unfold W; nia). assert (0 <= p4 < W) as B4 by (unfold W; nia).
  set (x3 := m3 * H) in *. set (x2 := m2 * H) in *.
  assert (exists c, (c = 0 \/ c = 1) /\ x3 + x2 = c * W + (x3 + x2) mod W /\ 0 <= (x3 + x2) mod W < W /\
    (if ((x3 + x2) mod W <? x3) || ((x3 + x2) mod W <? x2) then 1 else 0) = c) as (c & Hc & E3 & R3 & ->).
  { destruct (Z.lt_ge_cases (x3 + x2) W).
    - exists 0. rewrite Z.mod_small by lia. split; [lia|]. split; [lia|]. split; [lia|]. destruct (Z.ltb_spec (x3 + x2) x3); [lia|]. destruct (Z.ltb_spec (x3 + x2) x2); [lia|]. reflexivity.
    - exists 1. assert ((x3 + x2) mod W = x3 + x2 - W) as -> by (symmetry; apply Z.mod_unique with 1; lia). split; [lia|]. split; [lia|]. split; [lia|]. destruct (Z.ltb_spec (x3 + x2 - W) x3); [reflexivity|lia]. }
  set (t3 := (x3 + x2) mod W) in *. clearbody t3.
  assert (exists d, (d = 0 \/ d = 1) /\ t3 + p4 = d * W + (t3 + p4) mod W /\ 0 <= (t3 + p4) mod W < W /\
    (if ((t3 + p4) mod W <? t3) || ((t3 + p4) mod W <? p4) then 1 else 0) = d) as (d & Hd & E4 & R4 & ->).
  { destruct (Z.lt_ge_cases (t3 + p4) W).
    - exists 0. rewrite Z.mod_small by lia. split; [lia|]. split; [lia|]. split; [lia|]. destruct (Z.ltb_spec (t3 + p4) t3); [lia|]. destruct (Z.ltb_spec (t3 + p4) p4); [lia|]. reflexivity.
    - exists 1. assert ((t3 + p4) mod W = t3 + p4 - W) as -> by (symmetry; apply Z.mod_unique with 1; lia). split; [lia|]. split; [lia|]. split; [lia|]. destruct (Z.ltb_spec (t3 + p4 - W) t3); [reflexivity|lia]. }
  set (lw := (t3 + p4) mod W) in *. clearbody lw.
  assert (W * p1 + H * (H * q2 + m2) + H * (H * q3 + m3) + p4 = (p1 + q3 + q2 + c + d) * W + lw) as TOT.
  { unfold x3, x2 in E3. unfold W in *. nia. }
  rewrite TOT. assert (4 <= W) as W4 by (unfold W; nia).
  assert (0 <= p1 + q3 + q2 + c + d < W) as BH.
  { assert (W * (p1 + q3 + q2 + c + d) + lw <= (W - 1) * (W - 1)) as BB.
    { rewrite Z.mul_comm, <- TOT. clear - P1 P2 P3 P4 PH2. unfold W. nia. }
    split; [lia|]. apply (Z.mul_lt_mono_pos_l W); [lia|]. replace ((W - 1) * (W - 1)) with (W * W - 2 * W + 1) in BB by ring. lia. }
  clear TOT. rewrite Z.div_add_l by lia. rewrite (Z.div_small lw) by lia. rewrite Z.add_0_r.
  rewrite Z.add_comm, Z.mod_add by lia. rewrite (Z.mod_small lw) by lia. split; [reflexivity|].
  rewrite (Z.mod_small (c + d)), (Z.mod_small (p1 + q3)), (Z.mod_small (p1 + q3 + q2)) by lia. rewrite Z.mod_small by lia. lia.
Qed.

Lemma mulhilo_halves_mk h f g : 0 < h -> w = 2 * h -> wf w f -> wf w g ->
  mulhilo_halves t n h (mk n f) (mk n g) = Some (mk n (fun i => lo w (f i) (g i)), mk n (fun i => hi w (f i) (g i))).
Proof.
  intros Hh Ew Hf Hg. assert (0 <= h < w) as Hs by lia. assert (0 <= w) as W0 by lia. unfold mulhilo_halves.
  assert (forall f, wf w (fun i => (f i * 2 ^ h) mod 2 ^ w)) as WL by (intros k i; apply word_mod; exact W0).
  assert (forall f g, wf w (fun i => lo w (f i) (g i))) as WM by (intros k l i; apply word_lo; exact W0).
  repeat (eapply bind_eq;
    [first [ apply vshr_mk; [first [exact Hf | exact Hg | apply WL | apply WM] | exact Hs]
           | apply vshl_mk; exact Hs | apply vmul_mk | apply vadd_mk | apply vset1_mk
           | apply vlt_mk | apply orl_mk | apply if_mk ] | cbv beta]).
  f_equal; f_equal; apply mk_ext; intros i _; pose proof (halves_arith h (f i) (g i) Hh Ew (Hf i) (Hg i)) as X; cbv zeta in X; [exact (proj1 X)|exact (proj2 X)].
Qed.

Lemma rot_word x N : 0 < N < w -> word w x -> Z.lor ((x * 2 ^ N) mod 2 ^ w) (x / 2 ^ (w - N)) mod 2 ^ w = rotl w x N.
Proof.
  intros HN Hx. pose proof (pow2_pos N ltac:(lia)). pose proof (pow2_pos (w - N) ltac:(lia)).
  assert (2 ^ w = 2 ^ (w - N) * 2 ^ N) as E by (rewrite <- Z.pow_add_r by lia; f_equal; lia).
  rewrite E at 1. rewrite Z.mul_mod_distr_r by lia. rewrite lor_disjoint; [|lia|].
  - fold (rotl w x N). apply Z.mod_small. apply word_rotl; [lia|exact Hx].
  - unfold word in Hx. rewrite E in Hx. split; [apply Z.div_pos; lia|]. apply Z.div_lt_upper_bound; lia.
Qed.
Lemma shift_mod_mk f N : 0 < N < w -> wf w f -> shift_mod t n (mk n f) N = Some (mk n (fun i => rotl w (f i) N)).
Proof.
  intros HN Hf. unfold shift_mod.
  assert (exists k, 0 <= k /\ w = 2 ^ k) as (k & K0 & K) by (destruct Ht as [-> | ->]; [exists 5|exists 6]; split; try lia; reflexivity).
  assert (forall m, 0 <= m < w -> Z.land m (w - 1) = m) as L.
  { intros m Hm. rewrite K, land_mask by exact K0. apply Z.mod_small. lia. }
  rewrite !L by lia. rewrite vshl_mk by lia. cbn [bind]. rewrite vshr_mk by (try assumption; lia). cbn [bind].
  rewrite vor_mk. f_equal. apply mk_ext. intros i _. apply rot_word; [exact HN|apply Hf].
Qed.
End Ops.

Lemma mulhilo32_mk n f g : wf 32 f -> wf 32 g ->
  mulhilo32 n (mk (2 * n) f) (mk (2 * n) g) = Some (mk (2 * n) (fun i => lo 32 (f i) (g i)), mk (2 * n) (fun i => hi 32 (f i) (g i))).
Proof.
  intros Hf Hg. unfold mulhilo32.
  assert (forall f, wf 32 f -> upcvt1 u64 n (mk (2 * n) f) = Some (mk n f, mk n (fun i => f (i + n)%nat))) as UP.
  { intros k Hk. destruct (upcvt_lanes u64 n (mk (2 * n) k)) as (r0 & r1 & E & L0 & L1 & LL); [apply mk_length|].
    rewrite E. f_equal. f_equal.
    - apply list_ext; [rewrite mk_length; exact L0|]. rewrite L0. intros i Hi. change (nth_error r0 i) with (lane r0 i).
      change (nth_error (mk n k) i) with (lane (mk n k) i). rewrite mk_lane by exact Hi. rewrite (proj1 (LL i Hi)), mk_nth by lia. f_equal.
      apply cast_id; [cbn; tauto|]. specialize (Hk i). unfold word in Hk. unfold in_ty, ty_min, ty_max. cbn [is_signed bits u64]. lia.
    - apply list_ext; [rewrite mk_length; exact L1|]. rewrite L1. intros i Hi. change (nth_error r1 i) with (lane r1 i).
      change (nth_error (mk n (fun i => k (i + n)%nat)) i) with (lane (mk n (fun i => k (i + n)%nat)) i). rewrite mk_lane by exact Hi. rewrite (proj2 (LL i Hi)), mk_nth by lia. f_equal.
      apply cast_id; [cbn; tauto|]. specialize (Hk (i + n)%nat). unfold word in Hk. unfold in_ty, ty_min, ty_max. cbn [is_signed bits u64]. lia. }
  assert (forall f, downcvt2 u32 n (mk n f) (mk n (fun i => f (i + n)%nat)) = Some (mk (2 * n) (fun i => f i mod 2 ^ 32))) as DOWN.
  { intros k. destruct (downcvt_lanes u32 n (mk n k) (mk n (fun i => k (i + n)%nat))) as (r & E & L & LL); [apply mk_length..|].
    rewrite E. f_equal. apply list_ext; [rewrite mk_length; exact L|]. rewrite L. intros i Hi. change (nth_error r i) with (lane r i).
    change (nth_error (mk (2 * n) (fun i => k i mod 2 ^ 32)) i) with (lane (mk (2 * n) (fun i => k i mod 2 ^ 32)) i). rewrite mk_lane by exact Hi.
    destruct (Nat.lt_ge_cases i n) as [G|G].
    - rewrite (proj1 (LL i G)), mk_nth by lia. f_equal. 
    - replace i with ((i - n) + n)%nat at 1 by lia. rewrite (proj2 (LL (i - n)%nat ltac:(lia))), mk_nth by lia.
      replace (i - n + n)%nat with i by lia. reflexivity. }
  rewrite !UP by assumption. cbn [bind].
  assert (u64 = u32 \/ u64 = u64) as T by (right; reflexivity).
  rewrite !(vmul_mk u64 n T). cbn [bind].
  rewrite !(vshr_mk u64 n T) by (first [intros i; apply word_lo; cbn; lia | cbn; lia]). cbn [bind bits u64].
  eapply bind_eq; [exact (DOWN (fun j => lo 64 (f j) (g j) / 2 ^ 32))|]. cbv beta.
  eapply bind_eq; [exact (DOWN (fun j => lo 64 (f j) (g j)))|]. cbv beta.
  unfold lo, hi.
  assert (forall i, 0 <= f i * g i < 2 ^ 64) as BND.
  { intros i. specialize (Hf i). specialize (Hg i). unfold word in *. change (2 ^ 64) with (2 ^ 32 * 2 ^ 32). nia. }
  f_equal; f_equal; apply mk_ext; intros i _; rewrite (Z.mod_small (f i * g i)) by apply BND; [reflexivity|].
  apply Z.mod_small. specialize (BND i). split; [apply Z.div_pos; lia|]. apply Z.div_lt_upper_bound; [lia|]. change (2 ^ 32 * 2 ^ 32) with (2 ^ 64). lia.
Qed.

(** *** Philox, register version *)
Definition mk2 (n : nat) (F : nat -> Z * Z) : reg * reg := (mk n (fun i => fst (F i)), mk n (fun i => snd (F i))).
Definition wf2 (w : Z) (F : nat -> Z * Z) : Prop := forall i, word w (fst (F i)) /\ word w (snd (F i)).
Definition mk4 (n : nat) (F : nat -> Z * Z * Z * Z) : reg * reg * reg * reg :=
  (mk n (fun i => fst (fst (fst (F i)))), mk n (fun i => snd (fst (fst (F i)))), mk n (fun i => snd (fst (F i))), mk n (fun i => snd (F i))).
Definition word4 (w : Z) (x : Z * Z * Z * Z) : Prop :=
  word w (fst (fst (fst x))) /\ word w (snd (fst (fst x))) /\ word w (snd (fst x)) /\ word w (snd x).
Definition word2 (w : Z) (x : Z * Z) : Prop := word w (fst x) /\ word w (snd x).
Definition wf4 (w : Z) (F : nat -> Z * Z * Z * Z) : Prop := forall i, word4 w (F i).
Lemma mk2_ext n F G : (forall i, (i < n)%nat -> F i = G i) -> mk2 n F = mk2 n G.
Proof. intros H. unfold mk2. f_equal; apply mk_ext; intros i Hi; rewrite H by exact Hi; reflexivity. Qed.
Lemma tup4 {A} (a b c d a' b' c' d' : A) : a = a' -> b = b' -> c = c' -> d = d' -> (a, b, c, d) = (a', b', c', d').
Proof. intros -> -> -> ->. reflexivity. Qed.
Lemma mk4_ext n F G : (forall i, (i < n)%nat -> F i = G i) -> mk4 n F = mk4 n G.
Proof. intros H. unfold mk4. apply tup4; apply mk_ext; intros i Hi; rewrite H by exact Hi; reflexivity. Qed.

Lemma p2_round_word w M k c : 0 <= w -> word w M -> word w k -> word2 w c -> word2 w (p2_round w M k c).
Proof.
  intros Hw HM Hk. destruct c as [c0 c1]. intros [H0 H1]. cbn [fst snd] in *. unfold p2_round, word2. cbn [fst snd]. split.
  - apply word_lxor; [assumption|apply word_lxor; [assumption|apply word_hi; assumption|assumption]|assumption].
  - apply word_lo; assumption.
Qed.
Lemma p2_word w M B R c k : 0 <= w -> word w M -> word2 w c -> word2 w (p2 w M B R c k).
Proof. intros Hw HM Hc. induction R as [|R IH]; [exact Hc|]. cbn [p2]. apply p2_round_word; [assumption..|apply word_mod; assumption|exact IH]. Qed.
Lemma p4_round_word w M0 M1 k0 k1 c : 0 <= w -> word w M0 -> word w M1 -> word w k0 -> word w k1 -> word4 w c -> word4 w (p4_round w M0 M1 k0 k1 c).
Proof.
  intros Hw HM0 HM1 Hk0 Hk1. destruct c as [[[c0 c1] c2] c3]. intros (H0 & H1 & H2 & H3). cbn [fst snd] in *. unfold p4_round, word4. cbn [fst snd].
  split; [|split; [|split]]; [|apply word_lo; assumption| |apply word_lo; assumption];
    (apply word_lxor; [assumption|apply word_lxor; [assumption|apply word_hi; assumption|assumption]|assumption]).
Qed.
Lemma p4_word w M0 M1 B0 B1 R c k : 0 <= w -> word w M0 -> word w M1 -> word4 w c -> word4 w (p4 w M0 M1 B0 B1 R c k).
Proof. intros Hw HM0 HM1 Hc. induction R as [|R IH]; [exact Hc|]. cbn [p4]. apply p4_round_word; [assumption..|apply word_mod; assumption|apply word_mod; assumption|exact IH]. Qed.

Section PhiloxReg.
Variables (t : ity) (n : nat) (mh : reg -> reg -> option (reg * reg)).
Hypothesis Ht : t = u32 \/ t = u64.
Local Notation w := (bits t).
Hypothesis Hmh : forall f g, wf w f -> wf w g -> mh (mk n f) (mk n g) = Some (mk n (fun i => lo w (f i) (g i)), mk n (fun i => hi w (f i) (g i))).

Lemma w0 : 0 <= w.
Proof. pose proof (w_pos t Ht). lia. Qed.

Lemma philox2_round_mk M k F : word w M -> wf w k -> wf2 w F ->
  philox2_round t n mh M (mk n k) (mk2 n F) = Some (mk2 n (fun i => p2_round w M (k i) (F i))).
Proof.
  intros HM Hk HF. unfold philox2_round, mk2. rewrite vset1_mk. cbn [bind].
  rewrite Hmh; [|intros i; exact HM|intros i; apply HF]. cbn [bind].
  rewrite vxor_mk; [|assumption|intros i; apply word_hi; [apply w0|exact HM|apply HF]|assumption]. cbn [bind].
  rewrite vxor_mk; [|assumption|intros i; apply word_lxor; [apply w0|apply word_hi; [apply w0|exact HM|apply HF]|apply Hk]|intros i; apply HF]. cbn [bind].
  f_equal. f_equal; apply mk_ext; intros i _; unfold p2_round; destruct (F i); reflexivity.
Qed.
Lemma addmul_mod a j B m : 0 < m -> ((a + j * B) mod m + B) mod m = (a + (j + 1) * B) mod m.
Proof. intros H. rewrite Z.add_mod_idemp_l by lia. f_equal. ring. Qed.

Lemma philox2_rounds_mk M B F k : word w M -> wf w k -> wf2 w F -> forall r j,
  philox2_rounds t n mh M B r (mk n (fun i => (k i + Z.of_nat j * B) mod 2 ^ w)) (mk2 n (fun i => p2 w M B (S j) (F i) (k i)))
  = Some (mk2 n (fun i => p2 w M B (S j + r) (F i) (k i))).
Proof.
  intros HM Hk HF. pose proof (pow2_pos w w0) as PW. induction r as [|r IH]; intros j.
  - cbn [philox2_rounds]. rewrite Nat.add_0_r. reflexivity.
  - cbn [philox2_rounds]. rewrite vset1_mk. cbn [bind]. rewrite vadd_mk by assumption. cbn [bind].
    assert (mk n (fun i => addw w ((k i + Z.of_nat j * B) mod 2 ^ w) B) = mk n (fun i => (k i + Z.of_nat (S j) * B) mod 2 ^ w)) as ->.
    { apply mk_ext. intros i _. unfold addw. rewrite addmul_mod by lia. do 3 f_equal. lia. }
    rewrite philox2_round_mk; [|assumption|intros i; apply word_mod; apply w0|intros i; apply p2_word; [apply w0|assumption|apply HF]].
    cbn [bind]. specialize (IH (S j)). cbn [p2] in IH |- *. rewrite IH. f_equal. apply mk2_ext. intros i _.
    replace (S j + S r)%nat with (S (S j) + r)%nat by lia. reflexivity.
Qed.
Lemma philox2_mk M B r F k : word w M -> wf w k -> wf2 w F ->
  philox2 t n mh M B r (mk2 n F) (mk n k) = Some (mk2 n (fun i => p2 w M B (S r) (F i) (k i))).
Proof.
  intros HM Hk HF. unfold philox2. rewrite philox2_round_mk by assumption. cbn [bind].
  assert (mk n k = mk n (fun i => (k i + Z.of_nat 0 * B) mod 2 ^ w)) as E.
  { apply mk_ext. intros i _. rewrite Z.mul_0_l, Z.add_0_r, Z.mod_small by apply Hk. reflexivity. }
  assert (mk2 n (fun i => p2_round w M (k i) (F i)) = mk2 n (fun i => p2 w M B 1 (F i) (k i))) as E2.
  { apply mk2_ext. intros i _. cbn [p2]. f_equal. change (Z.of_nat 0) with 0. rewrite Z.mul_0_l, Z.add_0_r, Z.mod_small by apply Hk. reflexivity. }
  rewrite E, E2. rewrite philox2_rounds_mk by assumption. reflexivity.
Qed.

Lemma philox4_round_mk M0 M1 k F : word w M0 -> word w M1 -> wf2 w k -> wf4 w F ->
  philox4_round t n mh M0 M1 (mk2 n k) (mk4 n F) = Some (mk4 n (fun i => p4_round w M0 M1 (fst (k i)) (snd (k i)) (F i))).
Proof.
  intros HM0 HM1 Hk HF. unfold philox4_round, mk4, mk2. rewrite !vset1_mk. cbn [bind fst snd]. pose proof w0 as W0.
  rewrite Hmh; [|intros i; exact HM0|intros i; apply HF]. cbn [bind].
  rewrite Hmh; [|intros i; exact HM1|intros i; apply HF]. cbn [bind].
  assert (wf w (fun i => hi w M1 (snd (fst (F i))))) as W1 by (intros i; apply word_hi; [exact W0|exact HM1|apply HF]).
  assert (wf w (fun i => hi w M0 (fst (fst (fst (F i)))))) as W2 by (intros i; apply word_hi; [exact W0|exact HM0|apply HF]).
  rewrite vxor_mk; [|assumption|exact W1|intros i; apply Hk]. cbn [bind].
  rewrite vxor_mk; [|assumption|intros i; apply word_lxor; [exact W0|apply W1|apply Hk]|intros i; apply HF]. cbn [bind].
  rewrite vxor_mk; [|assumption|exact W2|intros i; apply Hk]. cbn [bind].
  rewrite vxor_mk; [|assumption|intros i; apply word_lxor; [exact W0|apply W2|apply Hk]|intros i; apply HF]. cbn [bind].
  f_equal. apply tup4; apply mk_ext; intros i _; unfold p4_round; destruct (F i) as [[[c0 c1] c2] c3]; cbn [fst snd]; try reflexivity;
    rewrite !Z.lxor_assoc; f_equal; apply Z.lxor_comm.
Qed.
Lemma philox4_rounds_mk M0 M1 B0 B1 F k : word w M0 -> word w M1 -> wf2 w k -> wf4 w F -> forall r j,
  philox4_rounds t n mh M0 M1 B0 B1 r (mk2 n (fun i => ((fst (k i) + Z.of_nat j * B0) mod 2 ^ w, (snd (k i) + Z.of_nat j * B1) mod 2 ^ w)))
    (mk4 n (fun i => p4 w M0 M1 B0 B1 (S j) (F i) (k i)))
  = Some (mk4 n (fun i => p4 w M0 M1 B0 B1 (S j + r) (F i) (k i))).
Proof.
  intros HM0 HM1 Hk HF. pose proof (pow2_pos w w0) as PW. induction r as [|r IH]; intros j.
  - cbn [philox4_rounds]. rewrite Nat.add_0_r. reflexivity.
  - cbn [philox4_rounds]. rewrite !vset1_mk. cbn [bind]. unfold mk2 at 1 2. cbn [fst snd]. rewrite !vadd_mk by assumption. cbn [bind].
    assert (forall g B, mk n (fun i => addw w ((g i + Z.of_nat j * B) mod 2 ^ w) B) = mk n (fun i => (g i + Z.of_nat (S j) * B) mod 2 ^ w)) as E.
    { intros g B. apply mk_ext. intros i _. unfold addw. rewrite addmul_mod by lia. do 3 f_equal. lia. }
    rewrite (E (fun i => fst (k i)) B0), (E (fun i => snd (k i)) B1).
    change (mk n (fun i => (fst (k i) + Z.of_nat (S j) * B0) mod 2 ^ w), mk n (fun i => (snd (k i) + Z.of_nat (S j) * B1) mod 2 ^ w))
      with (mk2 n (fun i => ((fst (k i) + Z.of_nat (S j) * B0) mod 2 ^ w, (snd (k i) + Z.of_nat (S j) * B1) mod 2 ^ w))).
    rewrite philox4_round_mk; [|assumption|assumption|intros i; split; apply word_mod; apply w0|intros i; apply p4_word; [apply w0|assumption|assumption|apply HF]].
    cbn [bind]. specialize (IH (S j)). cbn [p4 fst snd] in IH |- *. rewrite IH. f_equal. apply mk4_ext. intros i _.
    replace (S j + S r)%nat with (S (S j) + r)%nat by lia. reflexivity.
Qed.
Lemma philox4_mk M0 M1 B0 B1 r F k : word w M0 -> word w M1 -> wf2 w k -> wf4 w F ->
  philox4 t n mh M0 M1 B0 B1 r (mk4 n F) (mk2 n k) = Some (mk4 n (fun i => p4 w M0 M1 B0 B1 (S r) (F i) (k i))).
Proof.
  intros HM0 HM1 Hk HF. unfold philox4. rewrite philox4_round_mk by assumption. cbn [bind].
  assert (mk2 n k = mk2 n (fun i => ((fst (k i) + Z.of_nat 0 * B0) mod 2 ^ w, (snd (k i) + Z.of_nat 0 * B1) mod 2 ^ w))) as E.
  { apply mk2_ext. intros i _. rewrite !Z.mul_0_l, !Z.add_0_r, !Z.mod_small by apply Hk. destruct (k i); reflexivity. }
  assert (mk4 n (fun i => p4_round w M0 M1 (fst (k i)) (snd (k i)) (F i)) = mk4 n (fun i => p4 w M0 M1 B0 B1 1 (F i) (k i))) as E2.
  { apply mk4_ext. intros i _. cbn [p4]. change (Z.of_nat 0) with 0. rewrite !Z.mul_0_l, !Z.add_0_r, !Z.mod_small by apply Hk. reflexivity. }
  rewrite E, E2. rewrite philox4_rounds_mk by assumption. reflexivity.
Qed.
End PhiloxReg.
