(** Proofs about byte memory and the x86 memory operators. *)
From Coq Require Import ZArith Lia List Bool ZifyBool.
From Verif Require Import CInt BitLemmas FloatSpec Fp16 ScalarOps ScalarSpec ScalarProofs X86Deg234 X86Arith X86ArithSpec
  X86LaneLemmas X86ArithProofs X86EmulProofs X86LogicProofs X86Mem X86MemSpec.
Import ListNotations.
Open Scope Z_scope.

(** ** Bytes *)

Lemma pow8S k : 2 ^ (8 * Z.of_nat (S k)) = 256 * 2 ^ (8 * Z.of_nat k).
Proof. replace (8 * Z.of_nat (S k)) with (8 + 8 * Z.of_nat k) by lia. rewrite Z.pow_add_r by lia. reflexivity. Qed.

Lemma rd_ok m : forall k a, (forall j, 0 <= j < Z.of_nat k -> m (a + j) <> None) ->
  exists v, rd m a k = Some v /\ 0 <= v < 2 ^ (8 * Z.of_nat k) /\
    forall j, 0 <= j < Z.of_nat k -> exists b, m (a + j) = Some b /\ b mod 256 = (v / 2 ^ (8 * j)) mod 256.
Proof.
  induction k as [|k IH]; intros a H.
  - exists 0. cbn [rd]. split; [reflexivity|]. split; [cbn; lia|]. intros j Hj. lia.
  - cbn [rd]. pose proof (H 0 ltac:(lia)) as H0. rewrite Z.add_0_r in H0. destruct (m a) as [b|] eqn:Eb; [|congruence].
    destruct (IH (a + 1)) as (v & Ev & Rv & Bv).
    { intros j Hj. rewrite <- Z.add_assoc. apply H. lia. }
    exists (b mod 256 + 256 * v). rewrite Ev. cbn [bind]. split; [reflexivity|]. rewrite pow8S.
    pose proof (Z.mod_pos_bound b 256 ltac:(lia)). split; [lia|]. intros j Hj.
    destruct (Z.eq_dec j 0) as [->|N].
    + rewrite Z.add_0_r. exists b. split; [exact Eb|]. change (2 ^ (8 * 0)) with 1. rewrite Z.div_1_r.
      rewrite (Z.mul_comm 256), Z.mod_add by lia. rewrite Z.mod_mod by lia. reflexivity.
    + destruct (Bv (j - 1) ltac:(lia)) as (b' & E' & M'). exists b'. replace (a + 1 + (j - 1)) with (a + j) in E' by ring. split; [exact E'|].
      rewrite M'. replace (8 * j) with (8 + 8 * (j - 1)) by ring. rewrite Z.pow_add_r by lia. change (2 ^ 8) with 256.
      rewrite <- Z.div_div by lia. rewrite (Z.mul_comm 256 v), Z.div_add by lia. rewrite (Z.div_small (b mod 256)) by lia. reflexivity.
Qed.

(** two numbers with the same bytes are equal *)
Lemma bytes_eq : forall k u v, 0 <= u < 2 ^ (8 * Z.of_nat k) -> 0 <= v < 2 ^ (8 * Z.of_nat k) ->
  (forall j, 0 <= j < Z.of_nat k -> (u / 2 ^ (8 * j)) mod 256 = (v / 2 ^ (8 * j)) mod 256) -> u = v.
Proof.
  induction k as [|k IH]; intros u v Hu Hv H; [cbn in *; lia|]. rewrite pow8S in *.
  assert (E0 : u mod 256 = v mod 256). { pose proof (H 0 ltac:(lia)) as Q. change (2 ^ (8 * 0)) with 1 in Q. rewrite !Z.div_1_r in Q. exact Q. }
  assert (E1 : u / 256 = v / 256).
  { apply IH.
    - split; [apply Z.div_pos; lia|apply Z.div_lt_upper_bound; lia].
    - split; [apply Z.div_pos; lia|apply Z.div_lt_upper_bound; lia].
    - intros j Hj. pose proof (H (j + 1) ltac:(lia)) as Q. replace (8 * (j + 1)) with (8 + 8 * j) in Q by ring.
      rewrite Z.pow_add_r in Q by lia. change (2 ^ 8) with 256 in Q. rewrite <- !Z.div_div in Q by lia. exact Q. }
  rewrite (Z.div_mod u 256), (Z.div_mod v 256) by lia. rewrite E0, E1. reflexivity.
Qed.

Definition ok8 (w : Z) : Prop := 0 < w /\ w = 8 * (w / 8).
Lemma nbytes_z w : ok8 w -> Z.of_nat (nbytes w) = w / 8.
Proof. intros [? ?]. unfold nbytes. rewrite Z2Nat.id; lia. Qed.

Lemma holds_unique w m a u v : ok8 w -> holds w m a u -> holds w m a v -> u = v.
Proof.
  intros O [Ru Hu] [Rv Hv]. pose proof (nbytes_z w O) as N. destruct O as [P E].
  apply (bytes_eq (nbytes w)); rewrite ?N, <- ?E; try assumption.
  intros j Hj. destruct (Hu j Hj) as (b & Eb & Mb), (Hv j Hj) as (c & Ec & Mc). rewrite Eb in Ec. injection Ec as <-. congruence.
Qed.

Lemma rdw_mapped w m a : ok8 w -> mapped w m a -> exists v, rdw w m a = Some v /\ holds w m a v.
Proof.
  intros O H. pose proof (nbytes_z w O) as N. destruct (rd_ok m (nbytes w) a) as (v & E & R & B).
  { rewrite N. exact H. }
  exists v. split; [exact E|]. destruct O as [P Ew]. rewrite N in *. rewrite <- Ew in R. split; assumption.
Qed.
Lemma holds_mapped w m a v : holds w m a v -> mapped w m a.
Proof. intros [_ H] k Hk. destruct (H k Hk) as (b & E & _). congruence. Qed.
Lemma rdw_holds w m a v : ok8 w -> holds w m a v -> rdw w m a = Some v.
Proof.
  intros O H. destruct (rdw_mapped w m a O (holds_mapped _ _ _ _ H)) as (u & E & Hu).
  rewrite E. f_equal. eapply holds_unique; eassumption.
Qed.

Lemma wr_ok : forall k m a v, (forall j, 0 <= j < Z.of_nat k -> m (a + j) <> None) ->
  exists m', wr m a k v = Some m' /\
    forall x, m' x = if (a <=? x) && (x <? a + Z.of_nat k) then Some ((v / 2 ^ (8 * (x - a))) mod 256) else m x.
Proof.
  induction k as [|k IH]; intros m a v H.
  - exists m. split; [reflexivity|]. intros x. destruct (_ && _) eqn:C; [lia|reflexivity].
  - cbn [wr]. unfold write_byte at 1. pose proof (H 0 ltac:(lia)) as H0. rewrite Z.add_0_r in H0. destruct (m a) as [b|] eqn:Eb; [|congruence]. cbn [bind].
    destruct (IH (fun x => if x =? a then Some (v mod 256) else m x) (a + 1) (v / 256)) as (m' & E & M).
    { intros j Hj. destruct (_ =? a); [discriminate|]. rewrite <- Z.add_assoc. apply H. lia. }
    exists m'. split; [exact E|]. intros x. rewrite M.
    destruct (Z.eq_dec x a) as [->|Nx].
    + rewrite Z.eqb_refl. destruct (_ && _) eqn:C1; [lia|]. clear C1. destruct (_ && _) eqn:C2; [|lia].
      rewrite Z.sub_diag. change (2 ^ (8 * 0)) with 1. rewrite Z.div_1_r. reflexivity.
    + destruct (Z.eqb_spec x a); [contradiction|]. destruct ((a + 1 <=? x) && (x <? a + 1 + Z.of_nat k)) eqn:C1.
      * destruct ((a <=? x) && (x <? a + Z.of_nat (S k))) eqn:C2; [|lia]. f_equal. f_equal.
        rewrite Z.div_div by lia. f_equal. change 256 with (2 ^ 8). rewrite <- Z.pow_add_r by lia. f_equal. ring.
      * destruct ((a <=? x) && (x <? a + Z.of_nat (S k))) eqn:C2; [lia|reflexivity].
Qed.

Lemma wrw_ok w m a v : ok8 w -> mapped w m a ->
  exists m', wrw w m a v = Some m' /\ holds w m' a (v mod 2 ^ w) /\ (forall x, outside w a x -> m' x = m x) /\
    (forall x, m x <> None -> m' x <> None).
Proof.
  intros O H. pose proof (nbytes_z w O) as N. destruct O as [P Ew].
  destruct (wr_ok (nbytes w) m a v) as (m' & E & M). { rewrite N. exact H. }
  rewrite N in M. exists m'. split; [exact E|]. split; [|split].
  - split; [apply Z.mod_pos_bound; apply pow2_pos; lia|]. intros k Hk. rewrite M.
    destruct ((a <=? a + k) && (a + k <? a + w / 8)) eqn:C; [|lia]. eexists. split; [reflexivity|].
    rewrite Z.mod_mod by lia. replace (a + k - a) with k by ring.
    change 256 with (2 ^ 8). rewrite <- !Z.land_ones, <- !Z.shiftr_div_pow2 by lia.
    apply Z.bits_inj'. intros q Hq. rewrite !Z.land_spec, !Z.shiftr_spec, Z.land_spec by lia.
    destruct (Z.ltb_spec q 8).
    + rewrite (Z.ones_spec_low w) by lia. rewrite andb_true_r. reflexivity.
    + rewrite (Z.ones_spec_high 8) by lia. rewrite !andb_false_r. reflexivity.
  - intros x Hx. rewrite M. destruct (_ && _) eqn:C; [|reflexivity]. unfold outside in Hx. lia.
  - intros x Hx. rewrite M. destruct (_ && _); [discriminate|exact Hx].
Qed.

Lemma holds_keep w m m' a v : (forall x, ~ outside w a x -> m' x = m x) -> holds w m a v -> holds w m' a v.
Proof.
  intros K [R H]. split; [exact R|]. intros k Hk. destruct (H k Hk) as (b & E & M). exists b. split; [|exact M].
  rewrite K; [exact E|]. unfold outside. lia.
Qed.

(** ** Loops *)

Lemma load_loop_ok cond f : forall k buf, (forall i, 0 <= i < Z.of_nat k -> cond i = true -> f i <> None) ->
  exists b, load_loop cond f k buf = Some b /\
    (forall i, 0 <= i < Z.of_nat k -> if cond i then f i = Some (b i) else b i = buf i) /\
    (forall i, Z.of_nat k <= i -> b i = buf i).
Proof.
  induction k as [|k IH]; intros buf H.
  - exists buf. split; [reflexivity|]. split; [intros; lia|reflexivity].
  - destruct (IH buf) as (b & E & B & U). { intros i Hi. apply H. lia. }
    cbn [load_loop]. rewrite E. cbn [bind]. destruct (cond (Z.of_nat k)) eqn:C.
    + pose proof (H (Z.of_nat k) ltac:(lia) C) as F. destruct (f (Z.of_nat k)) as [x|] eqn:Ef; [|congruence]. cbn [bind].
      eexists. split; [reflexivity|]. split.
      * intros i Hi. destruct (Z.eq_dec i (Z.of_nat k)) as [->|Ni].
        -- rewrite C, Z.eqb_refl. exact Ef.
        -- destruct (Z.eqb_spec i (Z.of_nat k)); [contradiction|]. apply B. lia.
      * intros i Hi. destruct (Z.eqb_spec i (Z.of_nat k)); [lia|]. apply U. lia.
    + exists b. split; [reflexivity|]. split.
      * intros i Hi. destruct (Z.eq_dec i (Z.of_nat k)) as [->|Ni]; [rewrite C; apply U; lia|]. apply B. lia.
      * intros i Hi. apply U. lia.
Qed.

Lemma store_loop_ok w cond adr val : ok8 w -> forall k m,
  (forall i, 0 <= i < Z.of_nat k -> cond i = true -> exists a, adr i = Some a /\ mapped w m a) ->
  exists m', store_loop w cond adr val k m = Some m' /\
    (forall i a, 0 <= i < Z.of_nat k -> cond i = true -> adr i = Some a ->
       (forall j b, i < j < Z.of_nat k -> cond j = true -> adr j = Some b -> a + w / 8 <= b \/ b + w / 8 <= a) ->
       holds w m' a (val i mod 2 ^ w)) /\
    (forall x, (forall i a, 0 <= i < Z.of_nat k -> cond i = true -> adr i = Some a -> outside w a x) -> m' x = m x) /\
    (forall x, m x <> None -> m' x <> None).
Proof.
  intros O. induction k as [|k IH]; intros m H.
  - exists m. split; [reflexivity|]. repeat split; try (intros; lia); auto.
  - destruct (IH m) as (m1 & E & A & U & D). { intros i Hi. apply H. lia. }
    cbn [store_loop]. rewrite E. cbn [bind]. destruct (cond (Z.of_nat k)) eqn:C.
    + destruct (H (Z.of_nat k) ltac:(lia) C) as (a & Ea & Ma). rewrite Ea. cbn [bind].
      destruct (wrw_ok w m1 a (val (Z.of_nat k)) O) as (m' & E' & H' & U' & D').
      { intros j Hj. apply D. apply Ma. exact Hj. }
      exists m'. split; [exact E'|]. split; [|split].
      * intros i b Hi Ci Eb Hd. destruct (Z.eq_dec i (Z.of_nat k)) as [->|Ni].
        -- rewrite Ea in Eb. injection Eb as <-. exact H'.
        -- apply (holds_keep w m1).
           ++ intros x Hx. apply U'. destruct (Hd (Z.of_nat k) a ltac:(lia) C Ea); unfold outside in *; lia.
           ++ apply (A i b); try assumption; [lia|]. intros j c Hj. apply Hd. lia.
      * intros x Hx. rewrite U'; [|apply (Hx (Z.of_nat k)); [lia|assumption|assumption]]. apply U. intros i b Hi. apply Hx. lia.
      * intros x Hx. apply D', D, Hx.
    + exists m1. split; [reflexivity|]. split; [|split].
      * intros i b Hi Ci Eb Hd. destruct (Z.eq_dec i (Z.of_nat k)) as [->|Ni]; [congruence|].
        apply (A i b); try assumption; [lia|]. intros j c Hj. apply Hd. lia.
      * intros x Hx. apply U. intros i b Hi. apply Hx. lia.
      * exact D.
Qed.

Lemma build_o_ok w k f : (forall i, 0 <= i < Z.of_nat k -> f i <> None) ->
  exists g, (forall i, 0 <= i < Z.of_nat k -> f i = Some (g i)) /\ build_o w k f = Some (build w k g).
Proof.
  intros H. exists (fun i => match f i with Some x => x | None => 0 end). split.
  - intros i Hi. pose proof (H i Hi). destruct (f i); [reflexivity|congruence].
  - induction k as [|k IH]; [reflexivity|]. cbn [build_o build]. rewrite IH by (intros; apply H; lia). cbn [bind].
    pose proof (H (Z.of_nat k) ltac:(lia)). destruct (f (Z.of_nat k)); [reflexivity|congruence].
Qed.

Lemma ok8_bits t : In t int_types -> ok8 (bits t).
Proof. intros H. ty_cases H; cbn; split; reflexivity. Qed.
Lemma mem_ty t : mem_type t -> In (uty t) int_types.
Proof. destruct t; cbn; intros H; [exact H| |]; tauto. Qed.
Lemma ok8_mw t : mem_type t -> ok8 (mw t).
Proof. intros H. apply ok8_bits, mem_ty, H. Qed.
Lemma okw_mw e t : mem_type t -> okw (nb e) (mw t).
Proof. intros H. apply okw_nb, mem_ty, H. Qed.

(** ** Elements of a register in memory *)

Lemma byte_of_lane w i k v : ok8 w -> 0 <= i -> 0 <= k < w / 8 ->
  (lane w i v / 2 ^ (8 * k)) mod 256 = (v / 2 ^ (8 * (i * (w / 8) + k))) mod 256.
Proof.
  intros [P E] Hi Hk. change (lane 8 k (lane w i v) = lane 8 (i * (w / 8) + k) v).
  rewrite (Z.mul_comm i). rewrite (lane_lane 8 (w / 8) i k) by lia. replace (w / 8 * 8) with w by lia. reflexivity.
Qed.

Lemma holds_elem n w m a v i : okw n w -> ok8 w -> holds n m a v -> 0 <= i < n / w ->
  holds w m (a + i * (w / 8)) (lane w i v).
Proof.
  intros On O [R H] Hi. split; [apply lane_range; destruct O; lia|]. intros k Hk.
  destruct (H (i * (w / 8) + k)) as (b & E & M).
  { destruct On as (?&?&En), O as [? Ew]. assert (n / 8 = w / 8 * (n / w)).
    { rewrite En at 1. rewrite Ew at 1. replace (8 * (w / 8) * (n / w)) with ((w / 8 * (n / w)) * 8) by ring. apply Z.div_mul. lia. }
    nia. }
  exists b. rewrite <- Z.add_assoc. split; [exact E|]. rewrite M. symmetry. apply byte_of_lane; lia || assumption.
Qed.

Lemma x_load_ok e t m a : mem_type t -> (forall i, 0 <= i < nb e / mw t -> mapped (mw t) m (a + i * (mw t / 8))) ->
  exists r, x_load e m a = Some r /\ in_reg (nb e) r /\
    forall i, 0 <= i < nb e / mw t -> holds (mw t) m (a + i * (mw t / 8)) (lane (mw t) i r).
Proof.
  intros H M. pose proof (okw_mw e t H) as O. pose proof (ok8_mw t H) as O8.
  assert (On : ok8 (nb e)) by (destruct e; split; reflexivity).
  destruct (rdw_mapped (nb e) m a On) as (r & E & Hr).
  { intros k Hk. destruct O as (?&?&En), O8 as [? Ew]. assert (E8 : nb e / 8 = mw t / 8 * (nb e / mw t)).
    { rewrite En at 1. rewrite Ew at 1. replace (8 * (mw t / 8) * (nb e / mw t)) with ((mw t / 8 * (nb e / mw t)) * 8) by ring. apply Z.div_mul. lia. }
    rewrite E8 in Hk.
    pose proof (Z.div_mod k (mw t / 8) ltac:(lia)) as D. pose proof (Z.mod_pos_bound k (mw t / 8) ltac:(lia)).
    specialize (M (k / (mw t / 8))). unfold mapped in M. rewrite D.
    replace (a + (mw t / 8 * (k / (mw t / 8)) + k mod (mw t / 8))) with (a + k / (mw t / 8) * (mw t / 8) + k mod (mw t / 8)) by ring.
    apply M; [|lia]. split; [apply Z.div_pos; lia|apply Z.div_lt_upper_bound; lia]. }
  exists r. split; [exact E|]. split; [exact (proj1 Hr)|]. intros i Hi. apply (holds_elem (nb e)); assumption.
Qed.

(** ** Stores *)

Definition stored (w k : Z) (p : Z -> bool) (a : Z) (val : Z -> Z) (m m' : bmem) : Prop :=
  (forall i, 0 <= i < k -> p i = true -> holds w m' (a + i * (w / 8)) (val i mod 2 ^ w)) /\
  (forall x, (forall i, 0 <= i < k -> p i = true -> outside w (a + i * (w / 8)) x) -> m' x = m x) /\
  (forall x, m x <> None -> m' x <> None).

Lemma store_loop_stored w cond p a val k m : ok8 w -> (forall i, 0 <= i < Z.of_nat k -> cond i = p i) ->
  (forall i, 0 <= i < Z.of_nat k -> p i = true -> mapped w m (a + i * (w / 8))) ->
  exists m', store_loop w cond (fun i => Some (a + i * (w / 8))) val k m = Some m' /\ stored w (Z.of_nat k) p a val m m'.
Proof.
  intros O C M. destruct (store_loop_ok w cond (fun i => Some (a + i * (w / 8))) val O k m) as (m' & E & A & U & D).
  { intros i Hi Ci. eexists. split; [reflexivity|]. apply M; [exact Hi|]. rewrite <- C by exact Hi. exact Ci. }
  exists m'. split; [exact E|]. split; [|split; [|exact D]].
  - intros i Hi Pi. apply A; [exact Hi|rewrite C by exact Hi; exact Pi|reflexivity|].
    intros j b Hj _ Eb. injection Eb as <-. left. destruct O. nia.
  - intros x Hx. apply U. intros i b Hi Ci Eb. injection Eb as <-. apply Hx; [exact Hi|]. rewrite <- C by exact Hi. exact Ci.
Qed.

Lemma top_bit_ones w (p : bool) : 0 < w -> top_bit w (if p then 2 ^ w - 1 else 0) = p.
Proof.
  intros H. unfold top_bit. assert (2 ^ w = 2 * 2 ^ (w - 1)). { rewrite <- Z.pow_succ_r by lia. f_equal. lia. }
  pose proof (pow2_pos (w - 1) ltac:(lia)). destruct p; lia.
Qed.

Lemma ones_byte w k : ok8 w -> 0 <= k < w / 8 -> ((2 ^ w - 1) / 2 ^ (8 * k)) mod 256 = 255.
Proof.
  intros [P E] Hk. change 256 with (2 ^ 8). rewrite <- Z.land_ones, <- Z.shiftr_div_pow2 by lia. change 255 with (Z.ones 8).
  replace (2 ^ w - 1) with (Z.ones w) by (rewrite Z.ones_equiv; lia).
  apply Z.bits_inj'. intros q Hq. rewrite Z.land_spec, Z.shiftr_spec by lia. destruct (Z.ltb_spec q 8).
  - rewrite !Z.ones_spec_low by lia. reflexivity.
  - rewrite (Z.ones_spec_high 8) by lia. apply andb_false_r.
Qed.

(** the byte mask of a logical *)
Lemma byte_logical n w l p i k : okw n w -> ok8 w -> reg_logical n w l p -> 0 <= i < n / w -> 0 <= k < w / 8 ->
  lane 8 (i * (w / 8) + k) l = if p i then 255 else 0.
Proof.
  intros On O [R L] Hi Hk. unfold lane at 1. change (2 ^ 8) with 256. rewrite <- byte_of_lane by (lia || assumption). rewrite L by exact Hi.
  destruct (p i); [apply ones_byte; assumption|]. rewrite Z.div_0_l by (apply Z.pow_nonzero; lia). reflexivity.
Qed.

Lemma byte_index w n j : okw n w -> ok8 w -> 0 <= j < n / 8 -> 0 <= j / (w / 8) < n / w /\ 0 <= j mod (w / 8) < w / 8 /\ j = j / (w / 8) * (w / 8) + j mod (w / 8).
Proof.
  intros (?&?&En) [? Ew] Hj. assert (E8 : n / 8 = w / 8 * (n / w)).
  { rewrite En at 1. rewrite Ew at 1. replace (8 * (w / 8) * (n / w)) with ((w / 8 * (n / w)) * 8) by ring. apply Z.div_mul. lia. }
  pose proof (Z.div_mod j (w / 8) ltac:(lia)). pose proof (Z.mod_pos_bound j (w / 8) ltac:(lia)).
  split; [|lia]. split; [apply Z.div_pos; lia|apply Z.div_lt_upper_bound; lia].
Qed.

Lemma maskmoveu_ok w v l m a p : okw 128 w -> ok8 w -> reg_logical 128 w l p ->
  (forall i, 0 <= i < 128 / w -> p i = true -> mapped w m (a + i * (w / 8))) ->
  exists m', mm_maskmoveu v l m a = Some m' /\ stored w (128 / w) p a (fun i => lane w i v) m m'.
Proof.
  intros On O L M.
  destruct (store_loop_ok 8 (fun i => top_bit 8 (lane 8 i l)) (fun i => Some (a + i)) (fun i => lane 8 i v) ltac:(split; reflexivity) 16 m)
    as (m' & E & A & U & D).
  { intros j Hj Cj. eexists. split; [reflexivity|].
    destruct (byte_index w 128 j On O ltac:(change (128 / 8) with 16; lia)) as (I1 & I2 & I3).
    rewrite I3 in Cj. rewrite (byte_logical 128 w l p) in Cj by assumption.
    assert (P : p (j / (w / 8)) = true) by (destruct (p (j / (w / 8))); [reflexivity|discriminate]).
    intros k Hk. change (8 / 8) with 1 in Hk. assert (k = 0) as -> by lia. rewrite Z.add_0_r. rewrite I3.
    rewrite Z.add_assoc. apply M; assumption. }
  change (Z.of_nat 16) with 16 in *.
  assert (E8 : 16 = w / 8 * (128 / w)).
  { change 16 with (128 / 8). destruct On as (?&?&En), O as [? Ew]. rewrite En at 1. rewrite Ew at 1. replace (8 * (w / 8) * (128 / w)) with ((w / 8 * (128 / w)) * 8) by ring. apply Z.div_mul. lia. }
  exists m'. split; [exact E|]. split; [|split; [|exact D]].
  - intros i Hi Pi. rewrite Z.mod_small by (apply lane_range; destruct O; lia). split; [apply lane_range; destruct O; lia|].
    intros k Hk.
    assert (R : 0 <= i * (w / 8) + k < 16) by (rewrite E8; nia).
    destruct (A (i * (w / 8) + k) (a + (i * (w / 8) + k)) R) as [_ B].
    + rewrite (byte_logical 128 w l p) by assumption. rewrite Pi. reflexivity.
    + reflexivity.
    + intros j b Hj _ Eb. injection Eb as <-. change (8 / 8) with 1. lia.
    + destruct (B 0 ltac:(change (8 / 8) with 1; lia)) as (b & Eb & Mb). exists b. rewrite Z.add_0_r in Eb. rewrite <- Z.add_assoc. split; [exact Eb|].
      rewrite Mb. change (2 ^ (8 * 0)) with 1. rewrite Z.div_1_r. rewrite byte_of_lane by (lia || assumption).
      change (2 ^ 8) with 256. unfold lane. change (2 ^ 8) with 256. rewrite !Z.mod_mod by lia. reflexivity.
  - intros x Hx. apply U. intros j b Hj Cj Eb. injection Eb as <-. change (8 / 8) with 1.
    destruct (byte_index w 128 j On O ltac:(change (128 / 8) with 16; lia)) as (I1 & I2 & I3).
    rewrite I3 in Cj. rewrite (byte_logical 128 w l p) in Cj by assumption.
    assert (P : p (j / (w / 8)) = true) by (destruct (p (j / (w / 8))); [reflexivity|discriminate]).
    specialize (Hx _ I1 P). unfold outside in *. change (8 / 8) with 1. lia.
Qed.

(** two stores side by side *)
Lemma stored_app w k1 k2 p a v1 v2 val m m1 m2 : ok8 w -> 0 <= k1 -> 0 <= k2 ->
  stored w k1 p a v1 m m1 -> stored w k2 (fun i => p (k1 + i)) (a + k1 * (w / 8)) v2 m1 m2 ->
  (forall i, 0 <= i < k1 -> v1 i = val i) -> (forall i, 0 <= i < k2 -> v2 i = val (k1 + i)) ->
  stored w (k1 + k2) p a val m m2.
Proof.
  intros O K1 K2 (A1 & U1 & D1) (A2 & U2 & D2) V1 V2. split; [|split].
  - intros i Hi Pi. destruct (Z.ltb_spec i k1).
    + apply (holds_keep w m1).
      * intros x Hx. apply U2. intros j Hj Pj. unfold outside in *. destruct O. nia.
      * rewrite <- V1 by lia. apply A1; [lia|exact Pi].
    + specialize (A2 (i - k1) ltac:(lia)). cbv beta in A2. replace (k1 + (i - k1)) with i in A2 by ring.
      replace (a + k1 * (w / 8) + (i - k1) * (w / 8)) with (a + i * (w / 8)) in A2 by ring.
      rewrite V2 in A2 by lia. replace (k1 + (i - k1)) with i in A2 by ring. apply A2. exact Pi.
  - intros x Hx. rewrite U2, U1; [reflexivity| |].
    + intros i Hi. apply Hx. lia.
    + intros i Hi Pi. replace (a + k1 * (w / 8) + i * (w / 8)) with (a + (k1 + i) * (w / 8)) by ring. apply Hx; [lia|exact Pi].
  - intros x Hx. apply D2, D1, Hx.
Qed.

Lemma bit_cond l i : 0 <= i -> negb (Z.land (Z.shiftr l i) 1 =? 0) = Z.testbit l i.
Proof.
  intros Hi. change 1 with (Z.ones 1). rewrite Z.land_ones by lia. change (2 ^ 1) with 2.
  rewrite <- Z.bit0_mod. rewrite Z.shiftr_spec by lia. rewrite Z.add_0_l. destruct (Z.testbit l i); reflexivity.
Qed.

Lemma logical_lane e t l p i : In t int_types -> is512 e = false -> logical e t l p -> 0 <= i < nb e / bits t ->
  lane (bits t) i l = if p i then 2 ^ bits t - 1 else 0.
Proof. intros H N L Hi. apply logical_reg in L; [|exact N]. apply L. exact Hi. Qed.
Lemma logical_bit e t l p i : is512 e = true -> logical e t l p -> 0 <= i < nb e / bits t -> Z.testbit l i = p i.
Proof. intros N L Hi. apply logical_mask in L; [|exact N]. apply L. exact Hi. Qed.

Lemma stored_ext w k p a v v' m m' : (forall i, 0 <= i < k -> v i = v' i) -> stored w k p a v m m' -> stored w k p a v' m m'.
Proof. intros E (A & U & D). split; [|split; assumption]. intros i Hi Pi. rewrite <- E by exact Hi. apply A; assumption. Qed.

Lemma reg_logical_lo w l p : okw 128 w -> reg_logical 256 w l p -> reg_logical 128 w (mm_lo 256 l) p.
Proof.
  intros O [R L]. destruct (okw_double 128 w O) as [_ E]. change (2 * 128) with 256 in E. split; [apply (in_reg_lo 128); lia|]. intros i Hi.
  rewrite (lane_lo 128) by assumption. apply L. lia.
Qed.
Lemma reg_logical_hi w l p : okw 128 w -> reg_logical 256 w l p -> reg_logical 128 w (mm_hi 256 l) (fun i => p (128 / w + i)).
Proof.
  intros O [R L]. destruct (okw_double 128 w O) as [_ E]. change (2 * 128) with 256 in E. split; [apply (in_reg_hi 128); [lia|exact R]|]. intros i Hi.
  rewrite (lane_hi 128) by (assumption || lia). apply L. lia.
Qed.

Lemma x_mask_store_ok e t l m a v p : mem_type t -> logical e (uty t) l p -> in_reg (nb e) v ->
  (forall i, 0 <= i < nb e / mw t -> p i = true -> mapped (mw t) m (a + i * (mw t / 8))) ->
  exists m', x_mask_store e t l m a v = Some m' /\ stored (mw t) (nb e / mw t) p a (fun i => lane (mw t) i v) m m'.
Proof.
  intros H L Hv M. pose proof (okw_mw e t H) as On. pose proof (ok8_mw t H) as O. pose proof (mem_ty t H) as Ht.
  pose proof (nlanes_z _ _ On) as N.
  unfold x_mask_store. destruct (is_sse e) eqn:S.
  - assert (Nb : nb e = 128) by (destruct e; try discriminate; reflexivity).
    assert (N5 : is512 e = false) by (destruct e; try discriminate; reflexivity).
    rewrite Nb in *. apply maskmoveu_ok; try assumption. rewrite <- Nb. apply logical_reg in L; assumption.
  - destruct (msmall t && negb (skylake e)) eqn:K.
    + destruct (knl e) eqn:Kn.
      * assert (N5 : is512 e = true) by (destruct e; try discriminate; reflexivity).
        assert (Nb : nb e = 512) by (destruct e; try discriminate; reflexivity). rewrite Nb in *. rewrite <- N in *.
        apply store_loop_stored; try assumption. intros i Hi. rewrite bit_cond by lia.
        apply (logical_bit e (uty t)); try assumption. rewrite Nb. change (bits (uty t)) with (mw t). lia.
      * assert (Nb : nb e = 256) by (destruct e; try discriminate; cbn in K; try reflexivity; rewrite andb_false_r in K; discriminate).
        assert (N5 : is512 e = false) by (destruct e; try discriminate; reflexivity).
        apply logical_reg in L; [|exact N5]. change (bits (uty t)) with (mw t) in L. rewrite Nb in *.
        assert (O1 : okw 128 (mw t)) by exact (okw_mw Sse2 t H).
        destruct (okw_double 128 (mw t) O1) as [_ Ed]. change (2 * 128) with 256 in Ed.
        assert (Eh : 256 / mw t / 2 = 128 / mw t) by (rewrite Ed; replace (128 / mw t + 128 / mw t) with (128 / mw t * 2) by ring; apply Z.div_mul; lia).
        rewrite Eh.
        destruct (maskmoveu_ok (mw t) (mm_lo 256 v) (mm_lo 256 l) m a p O1 O (reg_logical_lo _ _ _ O1 L)) as (m1 & E1 & S1).
        { intros i Hi. apply M. lia. }
        unfold mask_store_sse. rewrite E1. cbn [bind].
        destruct (maskmoveu_ok (mw t) (mm_hi 256 v) (mm_hi 256 l) m1 (a + 128 / mw t * (mw t / 8)) _ O1 O (reg_logical_hi _ _ _ O1 L)) as (m2 & E2 & S2).
        { intros i Hi Pi. replace (a + 128 / mw t * (mw t / 8) + i * (mw t / 8)) with (a + (128 / mw t + i) * (mw t / 8)) by ring.
          intros k Hk. apply S1. apply M; [lia|exact Pi|exact Hk]. }
        exists m2. split; [exact E2|]. rewrite Ed.
        eapply (stored_app (mw t) _ _ p a); [exact O|lia|lia|exact S1|exact S2| |].
        -- intros i Hi. cbv beta. apply (lane_lo 128); assumption.
        -- intros i Hi. cbv beta. apply (lane_hi 128); [assumption|lia].
    + destruct (is512 e) eqn:N5.
      * assert (Nb : nb e = 512) by (destruct e; try discriminate; reflexivity).
        unfold mm_mask_storeu. rewrite Nb in *. rewrite <- N in *. apply store_loop_stored; try assumption.
        intros i Hi. apply (logical_bit e (uty t)); try assumption. rewrite Nb. change (bits (uty t)) with (mw t). lia.
      * assert (Nb : nb e = 256) by (destruct e; try discriminate; reflexivity).
        unfold mm_maskstore. rewrite Nb in *. rewrite <- N in *. apply store_loop_stored; try assumption.
        intros i Hi. change (mw t) with (bits (uty t)). rewrite (logical_lane e (uty t) l p) by (try assumption; rewrite Nb; change (bits (uty t)) with (mw t); lia).
        apply top_bit_ones. destruct O. assumption.
Qed.

(** ** Masked loads *)

Definition mask_loaded (w k : Z) (p : Z -> bool) (m : bmem) (a : Z) (other : Z -> Z) (r : Z) : Prop :=
  forall i, 0 <= i < k -> if p i then holds w m (a + i * (w / 8)) (lane w i r) else lane w i r = other i.

Lemma load_mask_build n w cond p m a buf : okw n w -> ok8 w -> (forall i, 0 <= i < n / w -> cond i = p i) ->
  (forall i, 0 <= i < n / w -> 0 <= buf i < 2 ^ w) ->
  (forall i, 0 <= i < n / w -> p i = true -> mapped w m (a + i * (w / 8))) ->
  exists r, bind (load_loop cond (fun i => rdw w m (a + i * (w / 8))) (nlanes n w) buf) (fun b => Some (build w (nlanes n w) b)) = Some r /\
    in_reg n r /\ mask_loaded w (n / w) p m a buf r.
Proof.
  intros On O C B M. pose proof (nlanes_z _ _ On) as N.
  destruct (load_loop_ok cond (fun i => rdw w m (a + i * (w / 8))) (nlanes n w) buf) as (b & E & A & _).
  { rewrite N. intros i Hi Ci. destruct (rdw_mapped w m (a + i * (w / 8)) O) as (x & Ex & _); [|congruence]. apply M; [exact Hi|]. rewrite <- C by exact Hi. exact Ci. }
  rewrite N in A. exists (build w (nlanes n w) b). rewrite E. cbn [bind]. split; [reflexivity|]. split; [apply in_reg_build; exact On|].
  intros i Hi. specialize (A i Hi). rewrite C in A by exact Hi. rewrite lane_buildn by assumption. destruct (p i) eqn:P.
  - destruct (rdw_mapped w m (a + i * (w / 8)) O) as (x & Ex & Hx); [apply M; assumption|]. rewrite Ex in A. injection A as <-.
    rewrite Z.mod_small by apply Hx. exact Hx.
  - rewrite A. apply Z.mod_small. apply B. exact Hi.
Qed.

Lemma mask_build_o n w cond p m a other : okw n w -> ok8 w -> (forall i, 0 <= i < n / w -> cond i = p i) ->
  (forall i, 0 <= i < n / w -> 0 <= other i < 2 ^ w) ->
  (forall i, 0 <= i < n / w -> p i = true -> mapped w m (a + i * (w / 8))) ->
  exists r, build_o w (nlanes n w) (fun i => if cond i then rdw w m (a + i * (w / 8)) else Some (other i)) = Some r /\
    in_reg n r /\ mask_loaded w (n / w) p m a other r.
Proof.
  intros On O C B M. pose proof (nlanes_z _ _ On) as N.
  destruct (build_o_ok w (nlanes n w) (fun i => if cond i then rdw w m (a + i * (w / 8)) else Some (other i))) as (g & G & E).
  { rewrite N. intros i Hi. rewrite C by exact Hi. destruct (p i) eqn:P; [|discriminate].
    destruct (rdw_mapped w m (a + i * (w / 8)) O) as (x & Ex & _); [|congruence]. apply M; assumption. }
  rewrite N in G. eexists. split; [exact E|]. split; [apply in_reg_build; exact On|].
  intros i Hi. specialize (G i Hi). rewrite C in G by exact Hi. rewrite lane_buildn by assumption. destruct (p i) eqn:P.
  - destruct (rdw_mapped w m (a + i * (w / 8)) O) as (x & Ex & Hx); [apply M; assumption|]. rewrite Ex in G. injection G as <-.
    rewrite Z.mod_small by apply Hx. exact Hx.
  - injection G as <-. apply Z.mod_small. apply B. exact Hi.
Qed.

Lemma maskload_emul_ok e t l other m a p : mem_type t -> maskload_emulated e t = true -> logical e (uty t) l p ->
  (forall i, 0 <= i < nb e / mw t -> p i = true -> mapped (mw t) m (a + i * (mw t / 8))) ->
  exists r, maskload_emul e t l other m a = Some r /\ in_reg (nb e) r /\
    mask_loaded (mw t) (nb e / mw t) p m a (fun i => lane (mw t) i other) r.
Proof.
  intros H Em L M. pose proof (okw_mw e t H) as On. pose proof (ok8_mw t H) as O. pose proof (mem_ty t H) as Ht.
  unfold maskload_emul. apply load_mask_build; try assumption.
  - intros i Hi. destruct (knl e) eqn:K.
    + rewrite bit_cond by lia. apply (logical_bit e (uty t)); try assumption. destruct e; try discriminate; reflexivity.
    + assert (N5 : is512 e = false). { destruct e; try discriminate; try reflexivity. unfold maskload_emulated in Em. cbn [skylake is_sse] in Em. rewrite !andb_false_r in Em. discriminate. }
      change (mw t) with (bits (uty t)). rewrite (logical_lane e (uty t) l p) by assumption.
      pose proof (pow2_pos (bits (uty t)) ltac:(destruct O; change (mw t) with (bits (uty t)) in *; lia)). destruct O as [P _]. change (mw t) with (bits (uty t)) in P.
      assert (2 <= 2 ^ bits (uty t)). { change 2 with (2 ^ 1) at 1. apply Z.pow_le_mono_r; lia. }
      destruct (p i); lia.
  - intros i Hi. apply lane_range. destruct O; lia.
Qed.

Lemma x_maskz_load_ok e t l m a p : mem_type t -> logical e (uty t) l p ->
  (forall i, 0 <= i < nb e / mw t -> p i = true -> mapped (mw t) m (a + i * (mw t / 8))) ->
  exists r, x_maskz_load e t l m a = Some r /\ in_reg (nb e) r /\ mask_loaded (mw t) (nb e / mw t) p m a (fun _ => 0) r.
Proof.
  intros H L M. pose proof (okw_mw e t H) as On. pose proof (ok8_mw t H) as O. pose proof (mem_ty t H) as Ht.
  unfold x_maskz_load. destruct (maskload_emulated e t) eqn:Em.
  - destruct (maskload_emul_ok e t l mm_zero m a p H Em L M) as (r & E & R & A). exists r. split; [exact E|]. split; [exact R|].
    intros i Hi. specialize (A i Hi). destruct (p i); [exact A|]. rewrite A. apply lane_0; [destruct O; lia|lia].
  - destruct (is512 e) eqn:N5.
    + assert (Nb : nb e = 512) by (destruct e; try discriminate; reflexivity). rewrite Nb in *. unfold mm_mask_loadu.
      destruct (mask_build_o 512 (mw t) (Z.testbit l) p m a (fun i => lane (mw t) i mm_zero)) as (r & E & R & A); try assumption.
      * intros i Hi. apply (logical_bit e (uty t)); try assumption. rewrite Nb. exact Hi.
      * intros i Hi. apply lane_range. destruct O; lia.
      * exists r. split; [exact E|]. split; [exact R|]. intros i Hi. specialize (A i Hi). destruct (p i); [exact A|]. rewrite A. apply lane_0; [destruct O; lia|lia].
    + assert (Nb : nb e = 256).
      { destruct e; try discriminate; try reflexivity; unfold maskload_emulated in Em; destruct (msmall t); discriminate. }
      rewrite Nb in *. unfold mm_maskload.
      destruct (mask_build_o 256 (mw t) (fun i => top_bit (mw t) (lane (mw t) i l)) p m a (fun _ => 0)) as (r & E & R & A); try assumption.
      * intros i Hi. change (mw t) with (bits (uty t)). rewrite (logical_lane e (uty t) l p) by (try assumption; rewrite Nb; exact Hi).
        apply top_bit_ones. destruct O. assumption.
      * intros i Hi. pose proof (pow2_pos (mw t) ltac:(destruct O; lia)). lia.
      * exists r. split; [exact E|]. split; [exact R|]. exact A.
Qed.

Lemma lane_blendv n w a b mk i : okw n w -> 0 <= i < n / w ->
  lane w i (mm_blendv n w a b mk) = if 2 ^ (w - 1) <=? lane w i mk then lane w i b else lane w i a.
Proof.
  intros O Hi. unfold mm_blendv. rewrite lane_buildn by assumption. destruct (_ <=? _); apply Z.mod_small; apply lane_range; destruct O; lia.
Qed.

Lemma blendv_bytes n w a b l p i : okw n w -> ok8 w -> okw n 8 -> reg_logical n w l p -> 0 <= i < n / w ->
  lane w i (mm_blendv n 8 a b l) = if p i then lane w i b else lane w i a.
Proof.
  intros On O O8 L Hi. set (c := lane w i (mm_blendv n 8 a b l)). pose proof (nbytes_z w O) as N.
  assert (W : 0 <= w) by (destruct O; lia).
  apply (bytes_eq (nbytes w)).
  - rewrite N. destruct O as [? E]. rewrite <- E. apply lane_range. exact W.
  - rewrite N. destruct O as [? E]. rewrite <- E. destruct (p i); apply lane_range; exact W.
  - rewrite N. intros k Hk. unfold c. rewrite byte_of_lane by (lia || assumption).
    assert (R : 0 <= i * (w / 8) + k < n / 8).
    { destruct On as (?&?&En). destruct O as [? Ew]. assert (n / 8 = w / 8 * (n / w)).
      { rewrite En at 1. rewrite Ew at 1. replace (8 * (w / 8) * (n / w)) with ((w / 8 * (n / w)) * 8) by ring. apply Z.div_mul. lia. }
      nia. }
    change (lane 8 (i * (w / 8) + k) (mm_blendv n 8 a b l) = (if p i then lane w i b else lane w i a) / 2 ^ (8 * k) mod 256).
    rewrite lane_blendv by assumption. rewrite (byte_logical n w l p) by assumption.
    destruct (p i); cbn [Z.leb]; rewrite byte_of_lane by (lia || assumption); reflexivity.
Qed.

Lemma x_masko_load_ok e t l m a other p : mem_type t -> logical e (uty t) l p -> in_reg (nb e) other ->
  (forall i, 0 <= i < nb e / mw t -> p i = true -> mapped (mw t) m (a + i * (mw t / 8))) ->
  exists r, x_masko_load e t l m a other = Some r /\ in_reg (nb e) r /\
    mask_loaded (mw t) (nb e / mw t) p m a (fun i => lane (mw t) i other) r.
Proof.
  intros H L Ho M. pose proof (okw_mw e t H) as On. pose proof (ok8_mw t H) as O. pose proof (mem_ty t H) as Ht.
  unfold x_masko_load. destruct (maskload_emulated e t) eqn:Em.
  - apply maskload_emul_ok; assumption.
  - destruct (is512 e) eqn:N5.
    + assert (Nb : nb e = 512) by (destruct e; try discriminate; reflexivity). rewrite Nb in *. unfold mm_mask_loadu.
      apply (mask_build_o 512 (mw t) (Z.testbit l) p m a (fun i => lane (mw t) i other)); try assumption.
      * intros i Hi. apply (logical_bit e (uty t)); try assumption. rewrite Nb. exact Hi.
      * intros i Hi. apply lane_range. destruct O; lia.
    + destruct (x_maskz_load_ok e t l m a p H L M) as (r & E & R & A). unfold x_maskz_load in E. rewrite Em, N5 in E. rewrite E. cbn [bind].
      assert (Nb : nb e = 256).
      { destruct e; try discriminate; try reflexivity; unfold maskload_emulated in Em; destruct (msmall t); discriminate. }
      apply logical_reg in L; [|exact N5]. change (bits (uty t)) with (mw t) in L. rewrite Nb in *.
      assert (Q : forall q, in_reg 256 q -> (forall i, 0 <= i < 256 / mw t -> lane (mw t) i q = if p i then lane (mw t) i r else lane (mw t) i other) ->
        in_reg 256 q /\ mask_loaded (mw t) (256 / mw t) p m a (fun i => lane (mw t) i other) q).
      { intros q Rq Lq. split; [exact Rq|]. intros i Hi. specialize (A i Hi). rewrite Lq by exact Hi. destruct (p i); [exact A|reflexivity]. }
      assert (G1 : in_reg 256 (mm_blendv 256 8 other r l) /\ mask_loaded (mw t) (256 / mw t) p m a (fun i => lane (mw t) i other) (mm_blendv 256 8 other r l)).
      { apply Q; [apply in_reg_build; repeat split; reflexivity || lia|]. intros i Hi. apply blendv_bytes; try assumption. repeat split; reflexivity || lia. }
      assert (G2 : in_reg 256 (mm_blendv 256 (mw t) other r l) /\ mask_loaded (mw t) (256 / mw t) p m a (fun i => lane (mw t) i other) (mm_blendv 256 (mw t) other r l)).
      { apply Q; [apply in_reg_build; assumption|]. intros i Hi. rewrite lane_blendv by assumption. rewrite (proj2 L) by exact Hi.
        change (2 ^ (mw t - 1) <=? (if p i then 2 ^ mw t - 1 else 0)) with (top_bit (mw t) (if p i then 2 ^ mw t - 1 else 0)).
        rewrite top_bit_ones by (destruct O; lia). reflexivity. }
      destruct e; try discriminate; destruct (is_float t); eexists; (split; [reflexivity|]); assumption.
Qed.

(** ** Gather and scatter *)

Lemma gathered n w f m : okw n w -> ok8 w -> (forall i, 0 <= i < n / w -> mapped w m (f i)) ->
  (exists r, bind (load_loop (fun _ => true) (fun i => rdw w m (f i)) (nlanes n w) (fun _ => 0)) (fun b => Some (build w (nlanes n w) b)) = Some r /\
    in_reg n r /\ forall i, 0 <= i < n / w -> holds w m (f i) (lane w i r)) /\
  (exists r, build_o w (nlanes n w) (fun i => rdw w m (f i)) = Some r /\
    in_reg n r /\ forall i, 0 <= i < n / w -> holds w m (f i) (lane w i r)).
Proof.
  intros On O M. pose proof (nlanes_z _ _ On) as N. split.
  - destruct (load_loop_ok (fun _ => true) (fun i => rdw w m (f i)) (nlanes n w) (fun _ => 0)) as (b & E & A & _).
    { rewrite N. intros i Hi _. destruct (rdw_mapped w m (f i) O) as (x & Ex & _); [|congruence]. apply M; exact Hi. }
    rewrite N in A. rewrite E. cbn [bind]. eexists. split; [reflexivity|]. split; [apply in_reg_build; exact On|]. intros i Hi.
    specialize (A i Hi). cbv beta iota in A. rewrite lane_buildn by assumption.
    destruct (rdw_mapped w m (f i) O) as (x & Ex & Hx); [apply M; assumption|]. rewrite Ex in A. injection A as <-.
    rewrite Z.mod_small by apply Hx. exact Hx.
  - destruct (build_o_ok w (nlanes n w) (fun i => rdw w m (f i))) as (g & G & E).
    { rewrite N. intros i Hi. destruct (rdw_mapped w m (f i) O) as (x & Ex & _); [|congruence]. apply M; assumption. }
    rewrite N in G. eexists. split; [exact E|]. split; [apply in_reg_build; exact On|]. intros i Hi. specialize (G i Hi). cbv beta in G.
    rewrite lane_buildn by assumption.
    destruct (rdw_mapped w m (f i) O) as (x & Ex & Hx); [apply M; assumption|]. rewrite Ex in G. injection G as <-.
    rewrite Z.mod_small by apply Hx. exact Hx.
Qed.

Lemma at_index_eq w a idx i : at_index w a idx i = a + index w idx i * (w / 8).
Proof. reflexivity. Qed.

Lemma x_gather_ok e t m a idx : mem_type t -> (forall i, 0 <= i < nb e / mw t -> mapped (mw t) m (a + index (mw t) idx i * (mw t / 8))) ->
  exists r, x_gather e t m a idx = Some r /\ in_reg (nb e) r /\
    forall i, 0 <= i < nb e / mw t -> holds (mw t) m (a + index (mw t) idx i * (mw t / 8)) (lane (mw t) i r).
Proof.
  intros H M. destruct (gathered (nb e) (mw t) (fun i => a + index (mw t) idx i * (mw t / 8)) m (okw_mw e t H) (ok8_mw t H) M) as [G1 G2].
  unfold x_gather. destruct (_ || _); assumption.
Qed.

Lemma scattered w adr val m n : okw n w -> ok8 w -> (forall i, 0 <= i < n / w -> exists k, adr i = Some k /\ mapped w m k) ->
  exists m', store_loop w (fun _ => true) adr val (nlanes n w) m = Some m' /\
    (forall i a, 0 <= i < n / w -> adr i = Some a ->
       (forall j b, i < j < n / w -> adr j = Some b -> a + w / 8 <= b \/ b + w / 8 <= a) -> holds w m' a (val i mod 2 ^ w)) /\
    (forall x, (forall i a, 0 <= i < n / w -> adr i = Some a -> outside w a x) -> m' x = m x) /\
    (forall x, m x <> None -> m' x <> None).
Proof.
  intros On O M. pose proof (nlanes_z _ _ On) as N.
  destruct (store_loop_ok w (fun _ => true) adr val O (nlanes n w) m) as (m' & E & A & U & D).
  { rewrite N. intros i Hi _. apply M. exact Hi. }
  rewrite N in *. exists m'. split; [exact E|]. split; [|split; [|exact D]].
  - intros i a Hi Ea Hd. apply A; try assumption; [reflexivity|]. intros j b Hj _. apply Hd. exact Hj.
  - intros x Hx. apply U. intros i a Hi _. apply Hx. exact Hi.
Qed.

Lemma strided_disjoint w a x y : ok8 w -> x <> y -> a + x * (w / 8) + w / 8 <= a + y * (w / 8) \/ a + y * (w / 8) + w / 8 <= a + x * (w / 8).
Proof. intros [P E] N. assert (0 < w / 8) by lia. assert (x + 1 <= y \/ y + 1 <= x) by lia. nia. Qed.

Lemma x_scatter_ok e t m a idx v : mem_type t ->
  (forall i, 0 <= i < nb e / mw t -> mapped (mw t) m (a + index (mw t) idx i * (mw t / 8))) ->
  exists m', x_scatter e t m a idx v = Some m' /\
    (forall i, 0 <= i < nb e / mw t -> (forall j, i < j < nb e / mw t -> index (mw t) idx j <> index (mw t) idx i) ->
       holds (mw t) m' (a + index (mw t) idx i * (mw t / 8)) (lane (mw t) i v)) /\
    (forall x, (forall i, 0 <= i < nb e / mw t -> outside (mw t) (a + index (mw t) idx i * (mw t / 8)) x) -> m' x = m x).
Proof.
  intros H M. pose proof (ok8_mw t H) as O.
  destruct (scattered (mw t) (fun i => Some (a + index (mw t) idx i * (mw t / 8))) (fun i => lane (mw t) i v) m (nb e) (okw_mw e t H) O) as (m' & E & A & U & _).
  { intros i Hi. eexists. split; [reflexivity|]. apply M. exact Hi. }
  exists m'. split; [|split].
  - unfold x_scatter. destruct (negb (is512 e) || msmall t) eqn:C; [exact E|]. assert (Nb : nb e = 512) by (destruct e; try discriminate; reflexivity).
    rewrite Nb in E. exact E.
  - intros i Hi Hd. specialize (A i _ Hi eq_refl). rewrite Z.mod_small in A by (apply lane_range; destruct O; lia). apply A.
    intros j b Hj Eb. injection Eb as <-. apply strided_disjoint; [exact O|]. intros E1. apply (Hd j Hj). symmetry. exact E1.
  - intros x Hx. apply U. intros i b Hi Eb. injection Eb as <-. apply Hx. exact Hi.
Qed.
