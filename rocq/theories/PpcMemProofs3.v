(** Loads and stores of the POWER back ends. *)
From Coq Require Import ZArith List Bool Lia ZifyBool.
From Verif Require Import CInt FloatSpec Fp16 Fp16Spec ScalarOps ScalarSpec ScalarProofs X86Deg234 X86Arith X86ArithSpec X86LaneLemmas X86EmulProofs X86SelectProofs X86Mem X86MemSpec X86MemProofs
  X86MemProofs2 Arm ArmSpec ArmProofs ArmProofs4 ArmPerm ArmPermSpec ArmPermProofs ArmMem ArmMemSpec ArmMemProofs Ppc PpcSpec PpcProofs PpcMem PpcMemSpec PpcMemProofs PpcMemProofs2.
Import ListNotations.
Open Scope Z_scope.

Lemma size_lanes t : mem_type t -> 0 < mw t / 8 /\ mw t / 8 * (128 / mw t) = 16 /\ 0 < 128 / mw t.
Proof. intros H. apply width_size, width_mw, H. Qed.
Lemma mapped_vector t m a : mem_type t -> (forall i, 0 <= i < 128 / mw t -> mapped (mw t) m (a + i * (mw t / 8))) -> mapped 128 m a.
Proof.
  intros H M k Hk. change (128 / 8) with 16 in Hk. pose proof (width_mw t H) as W.
  destruct (byte_index (mw t) 128 k (width_okw _ W) (width_ok8 _ W)) as (A & B & C); [change (128 / 8) with 16; lia|].
  specialize (M _ A _ B). rewrite C. rewrite Z.add_assoc. exact M.
Qed.
Lemma divides_mod a : (16 | a) -> a mod 16 = 0. Proof. intros [k ->]. apply Z_mod_mult. Qed.
Lemma vec_ld_at m a : (16 | a) -> vec_ld m a = rdw 128 m a.
Proof. intros H. unfold vec_ld. rewrite (divides_mod a H). rewrite Z.sub_0_r. reflexivity. Qed.
Lemma deref_at m a : (16 | a) -> deref m a = rdw 128 m a.
Proof. intros H. unfold deref. rewrite (divides_mod a H). reflexivity. Qed.
Lemma vec_st_at m a v : (16 | a) -> vec_st m a v = wrw 128 m a v.
Proof. intros H. unfold vec_st. rewrite (divides_mod a H). rewrite Z.sub_0_r. reflexivity. Qed.
Lemma assign_at m a v : (16 | a) -> assign m a v = wrw 128 m a v.
Proof. intros H. unfold assign. rewrite (divides_mod a H). reflexivity. Qed.
Lemma address_16 t a : mem_type t -> vector_address t a -> mw t =? 64 = false -> (16 | a).
Proof. intros H [E | E] N; [rewrite E in N; discriminate|exact E]. Qed.

Lemma p_load_ok al e t m a : mem_type t -> vector_address t a ->
  (forall i, 0 <= i < pelems t -> mapped (mw t) m (a + i * (mw t / 8))) ->
  exists r, p_load al e t m a = Some r /\ in_reg 128 r /\
    forall i, 0 <= i < pelems t -> holds (mw t) m (a + i * (mw t / 8)) (pattern t r i).
Proof.
  intros H Al M. unfold p_load, pelems in *. destruct (mw t =? 64) eqn:E.
  - apply Z.eqb_eq in E. unfold pattern. rewrite E in *. destruct (a_load_ok Neon128 MF64 m a I M) as (r & Er & R & A).
    exists r. split; [|split; [exact R|exact A]]. rewrite <- Er. unfold a_load.
    destruct (rdw 64 m a); [|reflexivity]. cbn [bind]. destruct (rdw 64 m (a + 8)); [|reflexivity]. cbn [bind]. rewrite two64_pair. reflexivity.
  - pose proof (address_16 t a H Al E) as D. assert (Q : (if al then vec_ld m a else deref m a) = rdw 128 m a) by (destruct al; [exact (vec_ld_at m a D)|exact (deref_at m a D)]). rewrite Q. clear Q.
    destruct (rdw_mapped 128 m a ok8_128 (mapped_vector t m a H M)) as (r & Er & Hr). exists r. split; [exact Er|]. split; [exact (proj1 Hr)|].
    intros i Hi. rewrite pattern_lane. apply (holds_elem 128); [apply width_okw, width_mw, H|apply ok8_mw, H|exact Hr|exact Hi].
Qed.
Lemma p_store_ok al e t m a v : mem_type t -> vector_address t a -> in_reg 128 v ->
  (forall i, 0 <= i < pelems t -> mapped (mw t) m (a + i * (mw t / 8))) ->
  exists m', p_store al e t m a v = Some m' /\
    (forall i, 0 <= i < pelems t -> holds (mw t) m' (a + i * (mw t / 8)) (pattern t v i)) /\
    (forall x, x < a \/ a + 16 <= x -> m' x = m x).
Proof.
  intros H Al Rv M. unfold p_store, pelems in *. destruct (mw t =? 64) eqn:E.
  - apply Z.eqb_eq in E. unfold pattern. rewrite E in *. destruct (a_store_ok Neon128 MF64 m a v I Rv M) as (m' & Er & A & U & _).
    exists m'. split; [exact Er|]. split; [exact A|exact U].
  - pose proof (address_16 t a H Al E) as D. assert (Q : (if al then vec_st m a v else assign m a v) = wrw 128 m a v) by (destruct al; [exact (vec_st_at m a v D)|exact (assign_at m a v D)]). rewrite Q. clear Q.
    destruct (wrw_ok 128 m a v ok8_128 (mapped_vector t m a H M)) as (m' & Er & Hr & U & _). exists m'. split; [exact Er|].
    rewrite Z.mod_small in Hr by exact Rv. split.
    + intros i Hi. rewrite pattern_lane. apply (holds_elem 128); [apply width_okw, width_mw, H|apply ok8_mw, H|exact Hr|exact Hi].
    + intros x Hx. apply U. unfold outside. change (128 / 8) with 16. exact Hx.
Qed.
(** other addresses *)
Lemma p_load_unaligned e t m a : mem_type t -> ~ vector_address t a -> p_load false e t m a = None.
Proof.
  intros H N. unfold p_load. destruct (Z.eqb_spec (mw t) 64) as [E | E]; [elim N; left; exact E|]. unfold deref.
  destruct (Z.eqb_spec (a mod 16) 0) as [E' | E']; [|reflexivity]. elim N. right. apply Z.mod_divide; [lia|exact E'].
Qed.
Lemma p_store_unaligned e t m a v : mem_type t -> ~ vector_address t a -> p_store false e t m a v = None.
Proof.
  intros H N. unfold p_store. destruct (Z.eqb_spec (mw t) 64) as [E | E]; [elim N; left; exact E|]. unfold assign.
  destruct (Z.eqb_spec (a mod 16) 0) as [E' | E']; [|reflexivity]. elim N. right. apply Z.mod_divide; [lia|exact E'].
Qed.

(** ** Degrees 2, 3 and 4 *)

Lemma p_collect_eq {A} k (f g : Z -> option A) : (forall j, f j = g j) -> p_collect k f = collect k g.
Proof. intros E. induction k as [|k IH]; [reflexivity|]. cbn [p_collect collect]. rewrite IH, E. reflexivity. Qed.
Lemma of_index deg n k : 0 < deg -> 0 <= k < deg * n -> 0 <= k / deg < n /\ 0 <= k mod deg < deg /\ k / deg * deg + k mod deg = k.
Proof.
  intros Hd Hk. pose proof (Z.mod_pos_bound k deg Hd). pose proof (Z.div_mod k deg ltac:(lia)).
  split; [split; [apply Z.div_pos; lia|apply Z.div_lt_upper_bound; lia]|]. split; [assumption|lia].
Qed.
Lemma index_lt deg n i j : 0 <= i < n -> 0 <= j < deg -> 0 <= i * deg + j < deg * n.
Proof. intros. nia. Qed.
Lemma mapped_flat deg t m a : 0 < deg ->
  (forall i j, 0 <= i < pelems t -> 0 <= j < deg -> mapped (mw t) m (a + (i * deg + j) * (mw t / 8))) ->
  forall k, 0 <= k < deg * pelems t -> mapped (mw t) m (a + k * (mw t / 8)).
Proof. intros Hd M k Hk. destruct (of_index deg (pelems t) k Hd Hk) as (A & B & C). specialize (M _ _ A B). rewrite C in M. exact M. Qed.
Lemma mapped_vectors deg t m a : mem_type t -> 0 < deg ->
  (forall i j, 0 <= i < pelems t -> 0 <= j < deg -> mapped (mw t) m (a + (i * deg + j) * (mw t / 8))) ->
  forall q, 0 <= q < deg -> mapped 128 m (a + q * 16).
Proof.
  intros H Hd M q Hq. destruct (size_lanes t H) as (S1 & S2 & S3). apply (mapped_vector t); [exact H|]. intros i Hi.
  replace (a + q * 16 + i * (mw t / 8)) with (a + (q * (128 / mw t) + i) * (mw t / 8)) by nia.
  apply (mapped_flat deg t m a Hd M). unfold pelems. nia.
Qed.
Lemma divides_plus a q : (16 | a) -> (16 | a + q * 16).
Proof. intros D. apply Z.divide_add_r; [exact D|]. exists q. reflexivity. Qed.

Lemma p_load_deg_ok deg al e t m a : mem_type t -> deg234 deg -> vector_address t a ->
  (forall i j, 0 <= i < pelems t -> 0 <= j < deg -> mapped (mw t) m (a + (i * deg + j) * (mw t / 8))) ->
  exists rs, p_load_deg deg al e t m a = Some rs /\ Z.of_nat (length rs) = deg /\
    forall j, 0 <= j < deg -> in_reg 128 (nthz 0 rs j) /\
      forall i, 0 <= i < pelems t -> holds (mw t) m (a + (i * deg + j) * (mw t / 8)) (pattern t (nthz 0 rs j) i).
Proof.
  intros H Hd Al M. assert (Pd : 0 < deg) by (destruct Hd as [-> | [-> | ->]]; lia). unfold p_load_deg. destruct (mw t =? 64) eqn:E.
  - apply Z.eqb_eq in E. unfold pattern, pelems in *. rewrite E in *. destruct (a_load_deg_ok deg Neon128 MF64 m a I ltac:(lia) M) as (rs & Er & Ll & A).
    exists rs. split; [|split; [exact Ll|exact A]]. rewrite <- Er. unfold a_load_deg. cbn [is_neon128 andb]. change (mw MF64 =? 64) with true. cbv iota.
    apply p_collect_eq. intros j. destruct (rdw 64 m (a + j * 8)); [|reflexivity]. cbn [bind].
    destruct (rdw 64 m (a + (j + deg) * 8)); [|reflexivity]. cbn [bind]. rewrite two64_pair. reflexivity.
  - pose proof (address_16 t a H Al E) as D. apply Z.eqb_neq in E. destruct (size_lanes t H) as (S1 & S2 & S3). pose proof (width_mw t H) as W.
    pose proof (mapped_vectors deg t m a H Pd M) as MV.
    rewrite (p_collect_eq _ _ (fun i => rdw 128 m (a + i * 16))) by (intros j; destruct al; [apply vec_ld_at|apply deref_at]; apply divides_plus, D).
    destruct (collect_ok 0 (fun i => rdw 128 m (a + i * 16)) (Z.to_nat deg)) as (v & Ev & Lv & V).
    { intros q Hq. destruct (rdw_mapped 128 m (a + q * 16) ok8_128 (MV q ltac:(lia))) as (r & Er & _). congruence. }
    rewrite Ev. cbn [bind]. eexists. split; [reflexivity|]. destruct (deinterleave_ok deg e t v H E Hd) as [Ll A]. split; [exact Ll|].
    intros j Hj. destruct (A j Hj) as [R L]. split; [exact R|]. intros i Hi. rewrite pattern_lane. rewrite (L i Hi). unfold flat, pelems in *.
    pose proof (index_lt deg _ i j Hi Hj) as K. set (k := i * deg + j) in *.
    destruct (of_index (128 / mw t) deg k S3 ltac:(lia)) as (K1 & K2 & K3).
    specialize (V (k / (128 / mw t)) ltac:(lia)). cbv beta in V.
    destruct (rdw_mapped 128 m _ ok8_128 (MV _ K1)) as (r & Er & Hr). rewrite V in Er. injection Er as Er.
    pose proof (holds_elem 128 (mw t) m _ r (k mod (128 / mw t)) (width_okw _ W) (width_ok8 _ W) Hr K2) as X.
    rewrite <- Er in X. unfold nthz in X. fold (vec_of v (k / (128 / mw t))) in X.
    replace (a + k / (128 / mw t) * 16 + k mod (128 / mw t) * (mw t / 8)) with (a + k * (mw t / 8)) in X by nia. exact X.
Qed.

Lemma store_vectors_ok st : (forall m a v, (16 | a) -> st m a v = wrw 128 m a v) -> forall l m a, (16 | a) ->
  (forall q, 0 <= q < Z.of_nat (length l) -> in_reg 128 (nthz 0 l q)) ->
  (forall q, 0 <= q < Z.of_nat (length l) -> mapped 128 m (a + q * 16)) ->
  exists m', store_vectors st m a l = Some m' /\
    (forall q, 0 <= q < Z.of_nat (length l) -> holds 128 m' (a + q * 16) (nthz 0 l q)) /\
    (forall x, x < a \/ a + Z.of_nat (length l) * 16 <= x -> m' x = m x).
Proof.
  intros St. induction l as [|v l IH]; intros m a D R M; cbn [length] in *.
  - exists m. split; [reflexivity|]. split; [lia|reflexivity].
  - cbn [store_vectors]. rewrite (St m a v D).
    assert (M0 : mapped 128 m a) by (specialize (M 0 ltac:(lia)); rewrite Z.add_0_r in M; exact M).
    destruct (wrw_ok 128 m a v ok8_128 M0) as (m1 & E1 & H1 & U1 & D1). rewrite E1. cbn [bind].
    destruct (IH m1 (a + 16)) as (m' & E & A & U).
    + exact (divides_plus a 1 D).
    + intros q Hq. specialize (R (q + 1) ltac:(lia)). unfold nthz in *. replace (Z.to_nat (q + 1)) with (S (Z.to_nat q)) in R by lia. exact R.
    + intros q Hq k Hk. specialize (M (q + 1) ltac:(lia) k Hk). replace (a + 16 + q * 16 + k) with (a + (q + 1) * 16 + k) by lia. apply D1, M.
    + exists m'. split; [exact E|]. split.
      * intros q Hq. destruct (Z.eq_dec q 0) as [-> | N].
        -- rewrite Z.add_0_r. apply (holds_keep 128 m1).
           ++ intros x Hx. apply U. unfold outside in Hx. change (128 / 8) with 16 in Hx. lia.
           ++ specialize (R 0 ltac:(lia)). rewrite Z.mod_small in H1 by exact R. exact H1.
        -- specialize (A (q - 1) ltac:(lia)). unfold nthz in *. replace (Z.to_nat q) with (S (Z.to_nat (q - 1))) by lia. cbn [nth].
           replace (a + q * 16) with (a + 16 + (q - 1) * 16) by lia. exact A.
      * intros x Hx. rewrite U by lia. apply U1. unfold outside. change (128 / 8) with 16. lia.
Qed.

Lemma flat_at w v j i : 0 <= i < 128 / w -> flat w v (j * (128 / w) + i) = lane w i (vec_of v j).
Proof.
  intros Hi. unfold flat. rewrite Z.add_comm, Z_mod_plus_full, Z_div_plus by lia. rewrite (Z.mod_small i), (Z.div_small i) by lia. reflexivity.
Qed.
Lemma p_store_deg_ok deg al e t m a rs : mem_type t -> deg234 deg -> vector_address t a ->
  (forall i j, 0 <= i < pelems t -> 0 <= j < deg -> mapped (mw t) m (a + (i * deg + j) * (mw t / 8))) ->
  exists m', p_store_deg deg al e t m a rs = Some m' /\
    (forall i j, 0 <= i < pelems t -> 0 <= j < deg -> holds (mw t) m' (a + (i * deg + j) * (mw t / 8)) (pattern t (nthz 0 rs j) i)) /\
    (forall x, x < a \/ a + deg * 16 <= x -> m' x = m x).
Proof.
  intros H Hd Al M. assert (Pd : 0 < deg) by (destruct Hd as [-> | [-> | ->]]; lia). unfold p_store_deg. destruct (mw t =? 64) eqn:E.
  - apply Z.eqb_eq in E. unfold pattern, pelems in *. rewrite E in *. destruct (stn_ok deg 128 64 m a rs okw_64 ok8_64 Pd M) as (m' & Er & A & U & _).
    exists m'. split; [|split; [exact A|]].
    + rewrite <- Er. unfold i_stn. change (128 / 64) with 2. change (64 / 8) with 8. rewrite (Z.mul_comm 2 deg). reflexivity.
    + intros x Hx. apply U. change (128 / 64) with 2. change (64 / 8) with 8. lia.
  - pose proof (address_16 t a H Al E) as D. apply Z.eqb_neq in E. destruct (size_lanes t H) as (S1 & S2 & S3). pose proof (width_mw t H) as W.
    pose proof (mapped_vectors deg t m a H Pd M) as MV. destruct (interleave_ok deg t rs H E Hd) as [Ll A].
    destruct (store_vectors_ok (if al then vec_st else assign)) with (l := interleave deg t rs) (m := m) (a := a) as (m' & Er & B & U).
    + intros m0 a0 v0 D0. destruct al; [exact (vec_st_at m0 a0 v0 D0)|exact (assign_at m0 a0 v0 D0)].
    + exact D.
    + intros q Hq. apply (A q). lia.
    + intros q Hq. apply MV. lia.
    + exists m'. split; [exact Er|]. rewrite Ll in *. split; [|exact U]. intros i j Hi Hj. rewrite pattern_lane. unfold pelems in *.
      pose proof (index_lt deg _ i j Hi Hj) as K. set (k := i * deg + j) in *.
      destruct (of_index (128 / mw t) deg k S3 ltac:(lia)) as (K1 & K2 & K3).
      pose proof (holds_elem 128 (mw t) m' _ _ (k mod (128 / mw t)) (width_okw _ W) (width_ok8 _ W) (B _ K1) K2) as X.
      destruct (A _ K1) as [_ L]. rewrite (L _ K2) in X. rewrite K3 in X.
      replace (k mod deg) with j in X by (unfold k; rewrite Z.add_comm, Z_mod_plus_full, Z.mod_small by lia; reflexivity).
      replace (k / deg) with i in X by (unfold k; rewrite Z.add_comm, Z_div_plus, (Z.div_small j) by lia; lia).
      rewrite (flat_at (mw t) rs j i Hi) in X.
      replace (a + k / (128 / mw t) * 16 + k mod (128 / mw t) * (mw t / 8)) with (a + k * (mw t / 8)) in X by nia. exact X.
Qed.

(** ** Masked, indexed and strided accesses *)

Lemma splat_fill w f : width w -> (forall i, 0 <= i < 128 / w -> exists x, f i = Some x /\ 0 <= x < 2 ^ w) ->
  exists r, splat_insert w f = Some r /\ in_reg 128 r /\ forall i, 0 <= i < 128 / w -> f i = Some (lane w i r).
Proof.
  intros W D. pose proof (width_okw w W) as O. destruct (width_size w W) as (S1 & S2 & S3). pose proof (nlanes_z 128 w O) as N.
  unfold splat_insert. destruct (D 0 ltac:(lia)) as (x & Ex & Rx). rewrite Ex. cbn [bind].
  destruct (insert_from_ok w f O (nlanes 128 w - 1) 1 (vec_splats w x)) as (s & Es & Rs & Ls & Ks).
  - apply in_reg_splats, O.
  - lia.
  - intros j Hj. destruct (D j) as (v & Ev & _); [lia|]. exists v. exact Ev.
  - exists s. split; [exact Es|]. split; [exact Rs|]. intros i Hi. destruct (D i Hi) as (v & Ev & Rv). rewrite Ev. f_equal.
    destruct (Z.eq_dec i 0) as [-> | Nz].
    + rewrite Ks, lane_splats by (assumption || lia). rewrite Z.mod_small by exact Rx. congruence.
    + rewrite (Ls i v) by (assumption || lia). symmetry. apply Z.mod_small, Rv.
Qed.
Lemma insert_fill w f r0 : width w -> in_reg 128 r0 -> (forall i, 0 <= i < 128 / w -> exists x, f i = Some x /\ 0 <= x < 2 ^ w) ->
  exists r, insert_from w f 0 (nlanes 128 w) r0 = Some r /\ in_reg 128 r /\ forall i, 0 <= i < 128 / w -> f i = Some (lane w i r).
Proof.
  intros W R0 D. pose proof (width_okw w W) as O. pose proof (nlanes_z 128 w O) as N.
  destruct (insert_from_ok w f O (nlanes 128 w) 0 r0 R0) as (s & Es & Rs & Ls & Ks).
  - lia.
  - intros j Hj. destruct (D j) as (v & Ev & _); [lia|]. exists v. exact Ev.
  - exists s. split; [exact Es|]. split; [exact Rs|]. intros i Hi. destruct (D i Hi) as (v & Ev & Rv). rewrite Ev. f_equal.
    rewrite (Ls i v) by (assumption || lia). symmetry. apply Z.mod_small, Rv.
Qed.
Lemma pair_fill f : (forall i, 0 <= i < 2 -> exists x, f i = Some x /\ 0 <= x < 2 ^ 64) ->
  exists r, emu64 f = Some r /\ in_reg 128 r /\ forall i, 0 <= i < 2 -> f i = Some (lane 64 i r).
Proof.
  intros D. destruct (D 0 ltac:(lia)) as (x & Ex & Rx). destruct (D 1 ltac:(lia)) as (y & Ey & Ry). unfold emu64. rewrite Ex. cbn [bind]. rewrite Ey. cbn [bind].
  eexists. split; [reflexivity|]. split; [apply in_reg_pair64|]. intros i Hi. rewrite lane_pair64 by exact Hi.
  assert (i = 0 \/ i = 1) as [-> | ->] by lia; cbn [Z.eqb]; rewrite Z.mod_small by assumption; assumption.
Qed.
Lemma pair_fill_t e t f : pair_of e t = true -> (forall i, 0 <= i < pelems t -> exists x, f i = Some x /\ 0 <= x < 2 ^ mw t) ->
  exists r, emu64 f = Some r /\ in_reg 128 r /\ forall i, 0 <= i < pelems t -> f i = Some (lane (mw t) i r).
Proof. intros E. unfold pelems. rewrite (pair_width e t E). exact (pair_fill f). Qed.
Lemma fill_ok e t f : mem_type t -> (forall i, 0 <= i < pelems t -> exists x, f i = Some x /\ 0 <= x < 2 ^ mw t) ->
  exists r, (if pair_of e t then emu64 f else splat_insert (mw t) f) = Some r /\ in_reg 128 r /\ forall i, 0 <= i < pelems t -> f i = Some (lane (mw t) i r).
Proof.
  intros H D. destruct (pair_of e t) eqn:E; [exact (pair_fill_t e t f E D)|]. apply splat_fill; [apply width_mw, H|exact D].
Qed.

Lemma ones_nz w (p : bool) : 1 <= w -> ((if p then 2 ^ w - 1 else 0) =? 0) = negb p.
Proof. intros H. pose proof (Z.pow_le_mono_r 2 1 w ltac:(lia) H). destruct p; [change (2 ^ 1) with 2 in *; lia|reflexivity]. Qed.
Lemma mask_lane t l p i : mem_type t -> plogical (uty t) l p -> 0 <= i < pelems t -> (lane (mw t) i l =? 0) = negb (p i).
Proof.
  intros H [_ L] Hi. specialize (L i Hi). fold (mw t) in L. unfold lane. unfold mw in *. rewrite L. apply ones_nz. fold (mw t).
  destruct (width_mw t H) as [-> | [-> | [-> | ->]]]; lia.
Qed.
Lemma p_maskoz_load_ok e t l m a other p : mem_type t -> plogical (uty t) l p -> (forall i, 0 <= i < pelems t -> 0 <= other i < 2 ^ mw t) ->
  (forall i, 0 <= i < pelems t -> p i = true -> mapped (mw t) m (a + i * (mw t / 8))) ->
  exists r, p_maskoz_load e t l m a other = Some r /\ in_reg 128 r /\
    forall i, 0 <= i < pelems t ->
      if p i then holds (mw t) m (a + i * (mw t / 8)) (pattern t r i) else pattern t r i = other i.
Proof.
  intros H L O M. unfold p_maskoz_load. cbv zeta. set (f := fun i => if lane (mw t) i l =? 0 then Some (other i) else rdw (mw t) m (a + i * (mw t / 8))).
  assert (F : forall i, 0 <= i < pelems t -> exists x, f i = Some x /\ 0 <= x < 2 ^ mw t /\ (if p i then holds (mw t) m (a + i * (mw t / 8)) x else x = other i)).
  { intros i Hi. unfold f. rewrite (mask_lane t l p i H L Hi). destruct (p i) eqn:Pi; cbn [negb].
    - destruct (rdw_mapped (mw t) m _ (ok8_mw t H) (M i Hi Pi)) as (x & Ex & Hx). exists x. split; [exact Ex|]. split; [exact (proj1 Hx)|exact Hx].
    - exists (other i). split; [reflexivity|]. split; [apply O, Hi|reflexivity]. }
  assert (X : exists r, (if pair_of e t then emu64 f else insert_from (mw t) f 0 (nlanes 128 (mw t)) (vec_splats (mw t) 0)) = Some r /\ in_reg 128 r /\
    forall i, 0 <= i < pelems t -> f i = Some (lane (mw t) i r)).
  { assert (F' : forall i, 0 <= i < pelems t -> exists x, f i = Some x /\ 0 <= x < 2 ^ mw t) by (intros i Hi; destruct (F i Hi) as (x & ? & ? & _); exists x; split; assumption).
    destruct (pair_of e t) eqn:E; [exact (pair_fill_t e t f E F')|]. apply insert_fill; [apply width_mw, H|apply in_reg_splats, width_okw, width_mw, H|exact F']. }
  destruct X as (r & Er & R & A). exists r. split; [exact Er|]. split; [exact R|]. intros i Hi. rewrite pattern_lane.
  destruct (F i Hi) as (x & Ex & _ & Px). rewrite (A i Hi) in Ex. injection Ex as ->. exact Px.
Qed.
Lemma p_mask_store_ok e t l m a v p : mem_type t -> plogical (uty t) l p ->
  (forall i, 0 <= i < pelems t -> p i = true -> mapped (mw t) m (a + i * (mw t / 8))) ->
  exists m', p_mask_store e t l m a v = Some m' /\
    (forall i, 0 <= i < pelems t -> p i = true -> holds (mw t) m' (a + i * (mw t / 8)) (pattern t v i)) /\
    (forall x, (forall i, 0 <= i < pelems t -> p i = true -> outside (mw t) (a + i * (mw t / 8)) x) -> m' x = m x).
Proof.
  intros H L M. unfold p_mask_store. cbv zeta. pose proof (nlanes_z 128 (mw t) (width_okw _ (width_mw t H))) as N.
  destruct (store_loop_stored (mw t) (fun i => negb (lane (mw t) i l =? 0)) p a (fun i => lane (mw t) i v) (nlanes 128 (mw t)) m (ok8_mw t H)) as (m' & E & A & U & _).
  - intros i Hi. rewrite (mask_lane t l p i H L) by (unfold pelems; lia). apply negb_involutive.
  - rewrite N. exact M.
  - exists m'. split; [exact E|]. rewrite N in *. split; [|exact U]. intros i Hi Pi. specialize (A i Hi Pi). cbv beta in A.
    rewrite lane_modw in A by (destruct (ok8_mw t H); lia). exact A.
Qed.
Lemma p_gather_ok e t m a idx : mem_type t ->
  (forall i, 0 <= i < pelems t -> mapped (mw t) m (a + index (mw t) idx i * (mw t / 8))) ->
  exists r, p_gather e t m a idx = Some r /\ in_reg 128 r /\
    forall i, 0 <= i < pelems t -> holds (mw t) m (a + index (mw t) idx i * (mw t / 8)) (pattern t r i).
Proof.
  intros H M. unfold p_gather. cbv zeta.
  destruct (fill_ok e t (fun i => rdw (mw t) m (at_index (mw t) a idx i)) H) as (r & E & R & A).
  - intros i Hi. rewrite at_index_eq. destruct (rdw_mapped (mw t) m _ (ok8_mw t H) (M i Hi)) as (x & Ex & Hx). exists x. split; [exact Ex|exact (proj1 Hx)].
  - exists r. split; [exact E|]. split; [exact R|]. intros i Hi. specialize (A i Hi). cbv beta in A. rewrite at_index_eq in A.
    destruct (rdw_mapped (mw t) m _ (ok8_mw t H) (M i Hi)) as (x & Ex & Hx). rewrite Ex in A. injection A as ->. exact Hx.
Qed.
Lemma p_gather_linear_ok e t m a step : mem_type t ->
  (forall i, 0 <= i < pelems t -> in_ty i32 (i * step)) ->
  (forall i, 0 <= i < pelems t -> mapped (mw t) m (a + i * step * (mw t / 8))) ->
  exists r, p_gather_linear e t m a step = Some r /\ in_reg 128 r /\
    forall i, 0 <= i < pelems t -> holds (mw t) m (a + i * step * (mw t / 8)) (pattern t r i).
Proof.
  intros H S M. unfold p_gather_linear. cbv zeta.
  set (f := fun i => if i =? 0 then rdw (mw t) m a else bind (at_step (mw t) a step i) (rdw (mw t) m)).
  assert (F : forall i, 0 <= i < pelems t -> f i = rdw (mw t) m (a + i * step * (mw t / 8))).
  { intros i Hi. unfold f. destruct (Z.eqb_spec i 0) as [-> | N]; [f_equal; lia|]. rewrite (at_step_ok _ _ _ _ (S i Hi)). reflexivity. }
  destruct (fill_ok e t f H) as (r & E & R & A).
  - intros i Hi. rewrite (F i Hi). destruct (rdw_mapped (mw t) m _ (ok8_mw t H) (M i Hi)) as (x & Ex & Hx). exists x. split; [exact Ex|exact (proj1 Hx)].
  - exists r. split; [exact E|]. split; [exact R|]. intros i Hi. specialize (A i Hi). rewrite (F i Hi) in A.
    destruct (rdw_mapped (mw t) m _ (ok8_mw t H) (M i Hi)) as (x & Ex & Hx). rewrite Ex in A. injection A as ->. exact Hx.
Qed.
Lemma p_scatter_ok e t m a idx v : mem_type t ->
  (forall i, 0 <= i < pelems t -> mapped (mw t) m (a + index (mw t) idx i * (mw t / 8))) ->
  exists m', p_scatter e t m a idx v = Some m' /\
    (forall i, 0 <= i < pelems t -> (forall j, i < j < pelems t -> index (mw t) idx j <> index (mw t) idx i) ->
       holds (mw t) m' (a + index (mw t) idx i * (mw t / 8)) (pattern t v i)) /\
    (forall x, (forall i, 0 <= i < pelems t -> outside (mw t) (a + index (mw t) idx i * (mw t / 8)) x) -> m' x = m x).
Proof.
  intros H M. pose proof (width_okw _ (width_mw t H)) as On. pose proof (ok8_mw t H) as O. unfold p_scatter, pelems in *. cbv zeta.
  destruct (scattered (mw t) (fun i => Some (at_index (mw t) a idx i)) (fun i => lane (mw t) i v) m 128 On O) as (m' & E & A & U & _).
  { intros k Hk. eexists. split; [reflexivity|]. apply M, Hk. }
  exists m'. split; [exact E|]. split.
  - intros i Hi Hd. specialize (A i _ Hi eq_refl). cbv beta in A. rewrite lane_modw in A by (destruct O; lia). apply A.
    intros j b Hj Eb. injection Eb as <-. rewrite !at_index_eq. apply strided_disjoint; [exact O|]. intros X. apply (Hd j Hj). congruence.
  - intros x Hx. apply U. intros i b Hi Eb. injection Eb as <-. apply Hx, Hi.
Qed.
Lemma p_scatter_linear_ok e t m a step v : mem_type t ->
  (forall i, 0 <= i < pelems t -> in_ty i32 (i * step)) ->
  (forall i, 0 <= i < pelems t -> mapped (mw t) m (a + i * step * (mw t / 8))) ->
  exists m', p_scatter_linear e t m a step v = Some m' /\
    (step <> 0 -> forall i, 0 <= i < pelems t -> holds (mw t) m' (a + i * step * (mw t / 8)) (pattern t v i)) /\
    (step = 0 -> holds (mw t) m' a (pattern t v (pelems t - 1))) /\
    (forall x, (forall i, 0 <= i < pelems t -> outside (mw t) (a + i * step * (mw t / 8)) x) -> m' x = m x).
Proof.
  intros H S M. pose proof (width_okw _ (width_mw t H)) as On. pose proof (ok8_mw t H) as O. unfold p_scatter_linear, pelems in *. cbv zeta.
  assert (W : 0 <= mw t) by (destruct O; lia). destruct (size_lanes t H) as (_ & _ & S3).
  destruct (lin_loop 128 (mw t) a step (fun i => lane (mw t) i v) m On O S M) as (m' & E & A1 & A2 & U & _).
  exists m'. split; [exact E|]. split; [|split; [|exact U]].
  - intros N i Hi. specialize (A1 N i Hi). cbv beta in A1. rewrite lane_modw in A1 by exact W. exact A1.
  - intros N. cbv beta in A2. rewrite lane_modw in A2 by exact W. apply (A2 N). exact S3.
Qed.
