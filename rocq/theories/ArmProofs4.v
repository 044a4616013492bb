(** Comparisons, logicals, selection and reductions of the ARM back ends. *)
From Coq Require Import ZArith Lia List Bool ZifyBool.
From Verif Require Import CInt BitLemmas ScalarOps ScalarSpec ScalarProofs CpuSimd X86Deg234 X86Arith
  X86ArithSpec X86LaneLemmas X86ArithProofs X86EmulProofs X86LogicProofs X86SelectProofs X86RedProofs X86FmaProofs
  Arm ArmSpec ArmProofs ArmProofs2 ArmProofs3.
Import ListNotations.
Open Scope Z_scope.

(** a predicate holding the truth value [p i] in lane [i] *)
Definition pred_logical (n w l : Z) (p : Z -> bool) : Prop :=
  in_reg (n / 8) l /\ forall i, 0 <= i < n / w -> lane (w / 8) i l = if p i then 1 else 0.
Definition is_pred (e : aext) : bool := match e with Sve false _ => true | _ => false end.
Lemma alogical_reg e t l p : is_pred e = false -> alogical e t l p <-> reg_logical (an e) (bits t) l p.
Proof. intros E. unfold alogical, reg_logical, lane. destruct e as [| |[] vq]; try discriminate; reflexivity. Qed.
Lemma alogical_pred e t l p : is_pred e = true -> alogical e t l p <-> pred_logical (an e) (bits t) l p.
Proof. intros E. unfold alogical, pred_logical, lane, in_reg. destruct e as [| |[] vq]; try discriminate; reflexivity. Qed.
Lemma alogical_ext e t l p q : alogical e t l p -> (forall i, 0 <= i < an e / bits t -> p i = q i) -> alogical e t l q.
Proof.
  intros A E. destruct (is_pred e) eqn:P; [rewrite alogical_pred in * by exact P|rewrite alogical_reg in * by exact P];
    destruct A as [R L]; (split; [exact R|]); intros i Hi; rewrite <- E by exact Hi; apply L; exact Hi.
Qed.

Lemma reg_ext n w a b : okw n w -> in_reg n a -> in_reg n b -> (forall i, 0 <= i < n / w -> lane w i a = lane w i b) -> a = b.
Proof.
  intros O Ha Hb E. apply Z.bits_inj'. intros k Hk. destruct (Z_lt_dec k n) as [Hn|Hn].
  - destruct (lane_bit n w a k O ltac:(lia)) as (Hi & _ & <-). destruct (lane_bit n w b k O ltac:(lia)) as (_ & _ & <-).
    rewrite E by exact Hi. reflexivity.
  - rewrite (reg_high n a), (reg_high n b) by (assumption || lia). reflexivity.
Qed.

Section WithT.
Variables (u : Z) (e : aext) (t : ity).
Hypothesis H : In t int_types.
Local Notation w := (bits t).
Local Notation n := (an e).
Lemma Ow : okw n w.
Proof. exact (okw_ant e t H). Qed.
Hint Resolve Ow : core.
Lemma Ww : w = 8 \/ w = 16 \/ w = 32 \/ w = 64.
Proof. exact (bits_cases t H). Qed.
Hint Resolve Ww : core.

Lemma wpos : 8 <= w <= 64.
Proof. apply bits_pos. exact H. Qed.
Lemma pred_ok f : pred_logical n w (pred n w f) f.
Proof. split; [apply in_reg_pred; auto|]. intros i Hi. apply lane_pred; auto. Qed.
Lemma active_logical l p i : pred_logical n w l p -> 0 <= i < n / w -> active w l i = p i.
Proof.
  intros [_ L] Hi. rewrite active_lane by (try apply w8_pos; auto || lia). rewrite L by exact Hi. destruct (p i); reflexivity.
Qed.
Lemma svtrue_ok : pred_logical n w (svtrue e t) (fun _ => true).
Proof. apply pred_ok. Qed.
Lemma pred_land l p q m : pred_logical n w l p -> in_reg (n / 8) m \/ True ->
  (forall i, 0 <= i < n / w -> p i = true -> Z.testbit (lane (w / 8) i m) 0 = q i) ->
  pred_logical n w (Z.land l m) (fun i => p i && q i).
Proof.
  intros [R L] _ M. destruct (okw_pred n w Ow Ww) as [Ow' E']. pose proof (w8_pos w Ww). split.
  - pose proof (Z.land_nonneg l m). apply in_reg_bits; [destruct Ow'; lia|destruct R; lia|]. intros k Hk.
    rewrite Z.land_spec, (reg_high (n / 8) l) by auto. reflexivity.
  - intros i Hi. rewrite lane_land by lia. rewrite L by exact Hi. destruct (p i) eqn:Pi; cbn [andb]; [|apply Z.land_0_l].
    rewrite Z.land_comm. change 1 with (Z.ones 1). rewrite Z.land_ones by lia. change (2 ^ 1) with 2.
    rewrite <- Z.bit0_mod, M by auto. destruct (q i); reflexivity.
Qed.
Lemma bit0_lane l p i : pred_logical n w l p -> 0 <= i < n / w -> Z.testbit (lane (w / 8) i l) 0 = p i.
Proof. intros [_ L] Hi. rewrite L by exact Hi. destruct (p i); reflexivity. Qed.
Lemma sv_cmp_ok q a b : pred_logical n w (sv_cmp n t (svtrue e t) q a b) (fun i => q (elt t a i) (elt t b i)).
Proof.
  unfold sv_cmp.  split; [apply in_reg_pred; auto|]. intros i Hi. rewrite lane_pred by auto.
  rewrite active_true by auto. cbn [andb]. rewrite !elt_lane. reflexivity.
Qed.
Lemma lane_dupx x i : 0 <= i < n / w -> lane w i (sv_dup_x u n w (svtrue e t) x) = x mod 2 ^ w.
Proof. intros Hi. unfold sv_dup_x. rewrite lane_buildn by auto. rewrite active_true by auto. reflexivity. Qed.
Lemma from_pred_ok l p : is_neon e = false -> pred_logical n w l p -> alogical e t (from_pred u e t l) p.
Proof.
  intros E L. destruct e as [| |[] vq] eqn:Ee; try discriminate.
  - rewrite alogical_reg by (reflexivity). unfold from_pred, sv_sel.  rewrite <- Ee in *.  split; [apply in_reg_build; exact Ow|].
    intros i Hi. rewrite lane_buildn by auto. rewrite (active_logical l p) by auto. pose proof wpos.
    rewrite !lane_dupx by exact Hi. rewrite m1_mod, Z.mod_0_l by (lia || apply pow_bits_nz; auto).
    pose proof (pow2_pos w). destruct (p i); [apply Z.mod_small; lia|apply Z.mod_0_l; lia].
  - rewrite alogical_pred by (reflexivity). exact L.
Qed.
Lemma to_pred_ok l p : is_neon e = false -> alogical e t l p -> pred_logical n w (to_pred u e t l) p.
Proof.
  intros E L. destruct e as [| |[] vq] eqn:Ee; try discriminate.
  - rewrite alogical_reg in L by (reflexivity). unfold to_pred, sv_cmp. cbn [bits]. rewrite <- Ee in *. 
    split; [apply in_reg_pred; auto|]. intros i Hi. rewrite lane_pred by auto. rewrite active_true by auto.
     rewrite lane_dupx by exact Hi. cbn [andb]. destruct L as [_ L].  rewrite L by exact Hi. pose proof wpos.
    unfold cast. cbn [is_signed bits]. unfold to_u. rewrite m1_mod by lia. pose proof (pow2_pos w).
    rewrite (Z.mod_small (2 ^ w - 1)) by lia. destruct (p i).
    + rewrite Z.mod_small by lia. rewrite Z.eqb_refl. reflexivity.
    + rewrite Z.mod_0_l by lia. assert (2 ^ 8 <= 2 ^ w) by (apply Z.pow_le_mono_r; lia). change (2 ^ 8) with 256 in *.
      destruct (Z.eqb_spec 0 (2 ^ w - 1)); [lia|reflexivity].
  - rewrite alogical_pred in L by (reflexivity). exact L.
Qed.
Lemma neon_cmp_ok q a b : is_neon e = true -> reg_logical n w (v_2 w (l_cmp t q) a b) (fun i => q (elt t a i) (elt t b i)).
Proof.
  intros E. unfold v_2, lanewise2. rewrite <- (an_neon e E).  split; [apply in_reg_build; exact Ow|]. intros i Hi.
  rewrite lane_buildn by auto. unfold l_cmp. rewrite !elt_lane.  pose proof wpos.
  destruct (q _ _); [apply m1_mod; lia|apply Z.mod_0_l; apply pow_bits_nz; auto].
Qed.
Lemma a_cmp_ok q a b : alogical e t (a_cmp u q e t a b) (fun i => q (elt t a i) (elt t b i)).
Proof.
  destruct e as [| |b' vq] eqn:Ee.
  - rewrite alogical_reg by (reflexivity). unfold a_cmp. destruct (Z.eqb_spec (bits t) 64) as [E64|N].
    + rewrite E64. assert (okw 128 64) as O64 by (unfold okw; cbn; lia). change 2%nat with (nlanes 128 64). cbn [an].
      split; [apply in_reg_build; exact O64|]. intros i Hi. rewrite lane_buildn by auto. rewrite !elt_lane, E64.
      destruct (q _ _); reflexivity.
    + rewrite <- Ee. apply neon_cmp_ok. rewrite Ee. reflexivity.
  - rewrite alogical_reg by (reflexivity). unfold a_cmp. rewrite <- Ee. apply neon_cmp_ok. rewrite Ee. reflexivity.
  - unfold a_cmp. rewrite <- Ee. apply from_pred_ok; [rewrite Ee; reflexivity|]. apply sv_cmp_ok.
Qed.
Lemma reg_land m l p : in_reg m l -> 0 <= m -> in_reg m (Z.land p l).
Proof.
  intros R Hm. pose proof (Z.land_nonneg p l). apply in_reg_bits; [exact Hm|destruct R; lia|]. intros k Hk.
  rewrite Z.land_spec, (reg_high m l) by auto. apply andb_false_r.
Qed.

(** operators on logicals *)
Lemma not_lane a i : is_pred e = false -> in_reg n a -> 0 <= i < n / w ->
  in_reg n (a_notl u e t a) /\ lane w i (a_notl u e t a) = 2 ^ w - 1 - lane w i a.
Proof.
  intros P Ha Hi. pose proof wpos. pose proof (lane_range w i a ltac:(lia)) as R.
  assert (in_reg n (a_notl u e t a) /\ forall k, 0 <= k < n -> Z.testbit (a_notl u e t a) k = negb (Z.testbit a k)) as [R' B].
  { destruct e as [| |[] vq] eqn:Ee; try discriminate; unfold a_notl.
    - split; [apply in_reg_build; apply not_w; auto|]. intros k Hk. apply v1_lnot_bit; [apply not_w; auto|exact Hk].
    - split; [apply in_reg_build; apply not_w; auto|]. intros k Hk. apply v1_lnot_bit; [apply not_w; auto|exact Hk].
    - split; [apply both1_reg; auto|]. intros k Hk. apply (both1_bit u _ t Z.lnot negb); [auto..|]. intros. apply Z.lnot_spec. lia. }
  split; [exact R'|]. rewrite <- lxor_ones by (lia || auto). apply Z.bits_inj'. intros k Hk.
  rewrite testbit_lane by lia. rewrite Z.lxor_spec, tb_ones, testbit_lane by lia.
  destruct (Z.ltb_spec k w); [|rewrite andb_false_r; reflexivity].
  destruct Ow as (O1 & O2 & O3). rewrite B by nia. replace (0 <=? k) with true by lia. cbn [andb]. rewrite xorb_true_r. reflexivity.
Qed.
Lemma a_notl_ok l p : alogical e t l p -> alogical e t (a_notl u e t l) (fun i => negb (p i)).
Proof.
  intros L. destruct (is_pred e) eqn:P.
  - rewrite alogical_pred by (exact P). rewrite alogical_pred in L by (exact P).
    assert (a_notl u e t l = Z.land (svtrue e t) (Z.lnot l)) as -> by (destruct e as [| |[] vq]; try discriminate; reflexivity).
    eapply (pred_land (svtrue e t) (fun _ => true)); [apply svtrue_ok|auto|]. intros i Hi _.
    pose proof (w8_pos w Ww). rewrite testbit_lane by lia. replace (0 <? w / 8) with true by lia. cbn [andb].
    rewrite Z.lnot_spec by nia. f_equal. rewrite <- (bit0_lane l p i L Hi). rewrite testbit_lane by lia. replace (0 <? w / 8) with true by lia. reflexivity.
  - rewrite alogical_reg by (exact P). rewrite alogical_reg in L by (exact P).  destruct L as [R L].
    destruct Ow as (O1 & O2 & O3). pose proof (an_pos e) as Hn.  split; [apply (not_lane l 0); [auto..|nia]|].
    intros i Hi. destruct (not_lane l i P R Hi) as [_ ->]. rewrite L by exact Hi. destruct (p i); cbn [negb]; lia.
Qed.
Lemma a_lop2_ok (v z' : Z -> Z -> Z) z g a b p q :
  v = z' -> (forall pg x y, z pg x y = Z.land pg (z' x y)) ->
  (forall x y k, 0 <= k -> Z.testbit (z' x y) k = g (Z.testbit x k) (Z.testbit y k)) -> g false false = false ->
  alogical e t a p -> alogical e t b q -> alogical e t (a_lop2 u v z' z e t a b) (fun i => g (p i) (q i)).
Proof.
  intros Ev Ez B G0 La Lb. subst v. destruct (is_pred e) eqn:P.
  - rewrite alogical_pred by (exact P). rewrite alogical_pred in La by (exact P). rewrite alogical_pred in Lb by (exact P).
    assert (a_lop2 u z' z' z e t a b = z (svtrue e t) a b) as -> by (destruct e as [| |[] vq]; try discriminate; reflexivity).
    rewrite Ez. eapply (pred_land (svtrue e t) (fun _ => true)); [apply svtrue_ok|auto|]. intros i Hi _.
    pose proof (w8_pos w Ww). rewrite testbit_lane by lia. replace (0 <? w / 8) with true by lia. cbn [andb].
    rewrite B by nia. f_equal; [rewrite <- (bit0_lane a p i La Hi)|rewrite <- (bit0_lane b q i Lb Hi)];
      (rewrite testbit_lane by lia; replace (0 <? w / 8) with true by lia; reflexivity).
  - rewrite alogical_reg by (exact P). rewrite alogical_reg in La by (exact P). rewrite alogical_reg in Lb by (exact P).
     destruct La as [Ra La]. destruct Lb as [Rb Lb]. pose proof wpos.
    assert (0 <= n) as Hn by (destruct Ow; lia).
    assert (in_reg n (z' a b)) as Rz.
    { unfold in_reg in *. assert (0 <= z' a b).
      { apply Z.bits_iff_nonneg_ex. exists n. intros k Hk. rewrite B by lia. rewrite (reg_high n a), (reg_high n b) by (auto || lia). exact G0. }
      split; [auto|]. destruct (Z.eq_dec (z' a b) 0) as [->|N]; [apply pow2_pos; exact Hn|].
      apply Z.log2_lt_pow2; [lia|]. destruct (Z_lt_dec (Z.log2 (z' a b)) n) as [|G]; [auto|exfalso].
      pose proof (Z.bit_log2 (z' a b) ltac:(lia)) as Bl. rewrite B in Bl by (apply Z.log2_nonneg).
      rewrite (reg_high n a), (reg_high n b) in Bl by (auto || lia). congruence. }
    assert (in_reg n (a_lop2 u z' z' z e t a b) /\ forall k, 0 <= k < n -> Z.testbit (a_lop2 u z' z' z e t a b) k = g (Z.testbit a k) (Z.testbit b k)) as [R' B'].
    { destruct e as [| |[] vq] eqn:Ee; try discriminate; unfold a_lop2.
      - split; [exact Rz|]. intros k Hk. apply B. lia.
      - split; [exact Rz|]. intros k Hk. apply B. lia.
      - split; [apply both2_reg; auto|]. intros k Hk. apply both2_bit; auto. }
    split; [exact R'|]. intros i Hi. specialize (La i Hi). specialize (Lb i Hi).
    apply Z.bits_inj'. intros k Hk. rewrite testbit_lane by lia. destruct (Z.ltb_spec k w) as [Hkw|Hkw].
    + cbn [andb]. destruct Ow as (O1 & O2 & O3). rewrite B' by nia.
      assert (Z.testbit a (w * i + k) = p i) as ->.
      { transitivity (Z.testbit (lane w i a) k); [rewrite testbit_lane by lia; replace (k <? w) with true by lia; reflexivity|].
        rewrite La. destruct (p i); [rewrite tb_ones by lia; lia|apply Z.bits_0]. }
      assert (Z.testbit b (w * i + k) = q i) as ->.
      { transitivity (Z.testbit (lane w i b) k); [rewrite testbit_lane by lia; replace (k <? w) with true by lia; reflexivity|].
        rewrite Lb. destruct (q i); [rewrite tb_ones by lia; lia|apply Z.bits_0]. }
      destruct (g (p i) (q i)); [rewrite tb_ones by lia; lia|rewrite Z.bits_0; reflexivity].
    + cbn [andb]. destruct (g (p i) (q i)); [rewrite tb_ones by lia; lia|rewrite Z.bits_0; reflexivity].
Qed.
Lemma a_andl_ok a b p q : alogical e t a p -> alogical e t b q -> alogical e t (a_andl u e t a b) (fun i => p i && q i).
Proof. apply a_lop2_ok; try reflexivity. intros. apply Z.land_spec. Qed.
Lemma a_orl_ok a b p q : alogical e t a p -> alogical e t b q -> alogical e t (a_orl u e t a b) (fun i => p i || q i).
Proof. apply a_lop2_ok; try reflexivity. intros. apply Z.lor_spec. Qed.
Lemma a_xorl_ok a b p q : alogical e t a p -> alogical e t b q -> alogical e t (a_xorl u e t a b) (fun i => xorb (p i) (q i)).
Proof. apply a_lop2_ok; try reflexivity. intros. apply Z.lxor_spec. Qed.
Lemma a_andnotl_ok a b p q : alogical e t a p -> alogical e t b q -> alogical e t (a_andnotl u e t a b) (fun i => p i && negb (q i)).
Proof.
  apply (a_lop2_ok _ _ _ (fun x y => x && negb y)); try reflexivity. intros. rewrite Z.land_spec, Z.lnot_spec by lia. reflexivity.
Qed.
Lemma a_ne_ok a b : alogical e t (a_ne u e t a b) (fun i => negb (elt t a i =? elt t b i)).
Proof.
  assert (is_neon e = true -> alogical e t (a_notl u e t (a_eq u e t a b)) (fun i => negb (elt t a i =? elt t b i))) as K.
  { intros _. apply (a_notl_ok _ (fun i => elt t a i =? elt t b i)). apply a_cmp_ok. }
  destruct e as [| |b' vq] eqn:Ee; unfold a_ne; [apply K; reflexivity..|]. rewrite <- Ee.
  apply from_pred_ok; [rewrite Ee; reflexivity|]. apply (sv_cmp_ok (fun x y => negb (x =? y))).
Qed.
Lemma lane_set1_a x i : 0 <= i < n / w -> in_reg n (a_set1 e t x) /\ lane w i (a_set1 e t x) = x mod 2 ^ w.
Proof.
  intros Hi. unfold a_set1. destruct (is_neon e) eqn:E.
  - unfold v_dup. rewrite <- (an_neon e E).  split; [apply in_reg_build; exact Ow|apply lane_buildn; auto].
  -  split; [apply in_reg_build; exact Ow|apply lane_svdup; auto].
Qed.
Lemma n_pos : 0 < n / w.
Proof. destruct Ow as (O1 & O2 & O3). pose proof (an_pos e).  nia. Qed.
Lemma a_set1_ok x : in_ty t x -> avector e t (a_set1 e t x) (fun _ v => v = x).
Proof.
  intros Hx. pose proof n_pos. split; [apply (lane_set1_a x 0); lia|]. intros i Hi. destruct (lane_set1_a x i Hi) as [_ L].
  rewrite elt_lane.  rewrite L. rewrite cast_mod_pow by auto. apply cast_s; auto.
Qed.
Lemma a_set1l_ok x : native_logicals e -> alogical e t (a_set1l e t x) (fun _ => negb (x =? 0)).
Proof.
  intros N. pose proof wpos. assert (forall y, is_neon e = true -> reg_logical n w (v_dup w (if y =? 0 then 0 else -1)) (fun _ => negb (y =? 0))) as K.
  { intros y E. unfold v_dup. rewrite <- (an_neon e E).  split; [apply in_reg_build; exact Ow|]. intros i Hi. rewrite lane_buildn by auto.
    destruct (y =? 0); cbn [negb]; [apply Z.mod_0_l; apply pow_bits_nz; auto|apply m1_mod; lia]. }
  specialize (K x). destruct e as [| |[] vq] eqn:Ee; unfold a_set1l.
  - rewrite alogical_reg by (reflexivity). destruct (x =? 0); apply K; reflexivity.
  - rewrite alogical_reg by (reflexivity). destruct (x =? 0); apply K; reflexivity.
  - exfalso. apply (N vq). reflexivity.
  - rewrite alogical_pred by (reflexivity). rewrite <- Ee.  destruct (x =? 0); cbn [negb]; [|apply pred_ok].
    destruct (okw_pred n w Ow Ww) as [Ow' E']. split; [apply in_reg_0; destruct Ow'; lia|]. intros i Hi. apply lane_0; [|lia]. pose proof (w8_pos w Ww). lia.
Qed.
Lemma sel_ok l p a b : pred_logical n w l p -> selects n w p a b (sv_sel n w l a b).
Proof.
  intros L. unfold sv_sel. split; [apply in_reg_build; exact Ow|]. intros i Hi. rewrite lane_buildn by auto.
  rewrite (active_logical l p) by auto. pose proof wpos.
  destruct (p i); apply Z.mod_small; apply lane_range; lia.
Qed.
Lemma a_if_else1_ok l p a b : in_reg n a -> in_reg n b -> alogical e t l p -> selects n w p a b (a_if_else1 u e t l a b).
Proof.
  intros Ha Hb L. assert (is_neon e = true -> selects n w p a b (v_bsl l a b)) as K.
  { intros E. rewrite alogical_reg in L by (destruct e; try discriminate; reflexivity). unfold v_bsl. rewrite (Z.land_comm l a).
    apply manual_selects; auto. }
  destruct e as [| |b' vq] eqn:Ee; unfold a_if_else1; [apply K; reflexivity..|]. rewrite <- Ee in *. 
  apply sel_ok. apply to_pred_ok; [rewrite Ee; reflexivity|exact L].
Qed.

(** reductions *)
Lemma in_lane_list m v a x : okw m v -> In x (lane_list m v a) <-> exists i, 0 <= i < m / v /\ x = lane v i a.
Proof.
  intros Om. unfold lane_list. rewrite in_map_iff. pose proof (nlanes_z m v Om). split.
  - intros (i & <- & Hi). apply in_seq in Hi. exists (Z.of_nat i). split; [lia|reflexivity].
  - intros (i & Hi & ->). exists (Z.to_nat i). rewrite Z2Nat.id by lia. split; [reflexivity|]. apply in_seq. lia.
Qed.
Lemma fold_min_nz l d : (forall x, In x (d :: l) -> 0 <= x) -> fold_right Z.min d l <> 0 <-> (forall x, In x (d :: l) -> x <> 0).
Proof.
  intros P. assert (0 <= fold_right Z.min d l) as Q.
  { clear - P. induction l as [|y l IH]; cbn [fold_right]; [apply P; left; reflexivity|].
    apply Z.min_glb; [apply P; right; left; reflexivity|]. apply IH. intros x [<-|Hx]; apply P; [left|right; right]; auto. }
  induction l as [|y l IH]; cbn [fold_right In].
  - split; [intros N x [<-|[]]; exact N|intros N; apply N; left; reflexivity].
  - assert (0 <= fold_right Z.min d l) as Q'.
    { clear - P. induction l as [|z l IH]; cbn [fold_right]; [apply P; left; reflexivity|].
      apply Z.min_glb; [apply P; right; right; left; reflexivity|]. apply IH. intros x [<-|[<-|Hx]]; apply P; cbn; auto. }
    assert (0 <= y) as Qy by (apply P; cbn; auto).
    destruct IH as [I1 I2]; [intros x Hx; apply P; destruct Hx as [<-|Hx]; cbn; auto|exact Q'|]. split.
    + intros N x [<-|[<-|Hx]]; [apply I1; [lia|left; reflexivity]|lia|apply I1; [lia|right; auto]].
    + intros N. assert (y <> 0) by (apply N; auto). assert (fold_right Z.min d l <> 0) by (apply I2; intros x [<-|Hx]; apply N; auto). lia.
Qed.
Lemma fold_max_nz l : (forall x, In x l -> 0 <= x) -> fold_right Z.max 0 l <> 0 <-> (exists x, In x l /\ x <> 0).
Proof.
  induction l as [|y l IH]; cbn [fold_right In]; intros P.
  - split; [congruence|intros (x & [] & _)].
  - assert (0 <= y) by (apply P; auto). destruct IH as [I1 I2]; [auto|]. 
    assert (0 <= fold_right Z.max 0 l) by (clear; induction l; cbn [fold_right]; lia). split.
    + intros N. destruct (Z.eq_dec y 0); [|exists y; auto]. destruct I1 as (x & Hx & Nx); [lia|exists x; auto].
    + intros (x & [<-|Hx] & Nx); [lia|]. assert (fold_right Z.max 0 l <> 0) by (apply I2; exists x; auto). lia.
Qed.
Lemma half_logical l p : reg_logical 128 64 l p -> reg_logical 128 32 l (fun j => p (j / 2)).
Proof.
  intros [R L]. split; [exact R|]. intros j Hj. cbn in Hj. pose proof (Z.div_mod j 2 ltac:(lia)) as E. pose proof (Z.mod_pos_bound j 2 ltac:(lia)).
  rewrite E at 1. rewrite (lane_lane 32 2 (j / 2) (j mod 2) l) by lia. change (2 * 32) with 64. rewrite L by (cbn; lia).
  destruct (p (j / 2)); [|apply lane_0; lia]. assert (j mod 2 = 0 \/ j mod 2 = 1) as [->| ->] by lia; reflexivity.
Qed.
Lemma ones_nz v : 8 <= v -> 2 ^ v - 1 <> 0.
Proof. intros. assert (2 ^ 8 <= 2 ^ v) by (apply Z.pow_le_mono_r; lia). change (2 ^ 8) with 256 in *. lia. Qed.
Lemma lane_true v l p i : 8 <= v -> reg_logical 128 v l p -> 0 <= i < 128 / v -> lane v i l <> 0 <-> p i = true.
Proof.
  intros Hv [_ L] Hi. rewrite L by exact Hi. pose proof (ones_nz v Hv). destruct (p i); split; congruence.
Qed.
Lemma lanes_all v l p : okw 128 v -> 8 <= v -> reg_logical 128 v l p ->
  (forall x, In x (lane_list 128 v l) -> x <> 0) <-> (forall i, 0 <= i < 128 / v -> p i = true).
Proof.
  intros Ov Hv L. split.
  - intros N i Hi. apply (lane_true v l p i); [assumption..|]. apply N. apply in_lane_list; [exact Ov|]. exists i. auto.
  - intros P x Hx. apply in_lane_list in Hx; [|exact Ov]. destruct Hx as (i & Hi & ->). apply (lane_true v l p i); auto.
Qed.
Lemma lanes_any v l p : okw 128 v -> 8 <= v -> reg_logical 128 v l p ->
  (exists x, In x (lane_list 128 v l) /\ x <> 0) <-> (exists i, 0 <= i < 128 / v /\ p i = true).
Proof.
  intros Ov Hv L. split.
  - intros (x & Hx & N). apply in_lane_list in Hx; [|exact Ov]. destruct Hx as (i & Hi & ->). exists i. split; [exact Hi|].
    apply (lane_true v l p i); assumption.
  - intros (i & Hi & P). exists (lane v i l). split; [apply in_lane_list; [exact Ov|exists i; auto]|]. apply (lane_true v l p i); assumption.
Qed.
Lemma lanes_nonneg v l x : okw 128 v -> In x (lane_list 128 v l) -> 0 <= x.
Proof. intros Ov Hx. apply in_lane_list in Hx; [|exact Ov]. destruct Hx as (i & Hi & ->). apply lane_range. destruct Ov; lia. Qed.
Lemma negb_eqb x : negb (x =? 0) = true <-> x <> 0.
Proof. lia. Qed.
Lemma minv_ok v l p : okw 128 v -> 8 <= v -> reg_logical 128 v l p -> 0 < 128 / v ->
  negb (v_minv_u v l =? 0) = true <-> (forall i, 0 <= i < 128 / v -> p i = true).
Proof.
  intros Ov Hv L Hp. rewrite negb_eqb, <- (lanes_all v l p) by assumption. unfold v_minv_u.
  destruct (lane_list 128 v l) as [|x m] eqn:E.
  - exfalso. assert (In (lane v 0 l) (lane_list 128 v l)) as I by (apply in_lane_list; [exact Ov|exists 0; split; [lia|reflexivity]]).
    rewrite E in I. destruct I.
  - apply fold_min_nz. intros y Hy. rewrite <- E in Hy. apply (lanes_nonneg v l); assumption.
Qed.
Lemma maxv_ok v l p : okw 128 v -> 8 <= v -> reg_logical 128 v l p ->
  negb (v_maxv_u v l =? 0) = true <-> (exists i, 0 <= i < 128 / v /\ p i = true).
Proof.
  intros Ov Hv L. rewrite negb_eqb, <- (lanes_any v l p) by assumption. unfold v_maxv_u.
  apply fold_max_nz. intros y Hy. apply (lanes_nonneg v l); assumption.
Qed.
Lemma ptest_zero l : pred_logical n w l (fun _ => false) -> l = 0.
Proof.
  intros [R L]. destruct (okw_pred n w Ow Ww) as [O' E']. apply (reg_ext (n / 8) (w / 8)); [assumption..|apply in_reg_0; destruct O'; lia|].
  intros i Hi. rewrite E' in Hi. rewrite L by exact Hi. symmetry. apply lane_0; [pose proof (w8_pos w Ww)|]; lia.
Qed.
Lemma ptest_any_ok l p : pred_logical n w l p -> sv_ptest_any (svtrue e t) l = true <-> (exists i, 0 <= i < n / w /\ p i = true).
Proof.
  intros L. unfold sv_ptest_any. rewrite negb_eqb.
  assert (pred_logical n w (Z.land (svtrue e t) l) (fun i => true && p i)) as L'.
  { apply (pred_land (svtrue e t) (fun _ => true)); [apply svtrue_ok|auto|]. intros i Hi _. apply bit0_lane; assumption. }
  split.
  - intros N. destruct (existsb (fun i => p (Z.of_nat i)) (seq 0 (nlanes n w))) eqn:X.
    + apply existsb_exists in X. destruct X as (i & Hi & Pi). apply in_seq in Hi. exists (Z.of_nat i). split; [|exact Pi].
      rewrite <- nlanes_z by auto. lia.
    + exfalso. apply N, ptest_zero. destruct L' as [R L']. split; [exact R|]. intros i Hi. rewrite L' by exact Hi.
      destruct (p i) eqn:Pi; [|reflexivity]. exfalso. rewrite <- not_true_iff_false in X. apply X. apply existsb_exists.
      exists (Z.to_nat i). rewrite Z2Nat.id by lia. split; [|exact Pi]. apply in_seq. pose proof (nlanes_z n w Ow). lia.
  - intros (i & Hi & Pi) E. destruct L' as [_ L']. specialize (L' i Hi). rewrite E, Pi in L'. cbn [andb] in L'.
    rewrite lane_0 in L' by (pose proof (w8_pos w Ww); lia). discriminate.
Qed.
Lemma neon_logical l p : is_neon e = true -> alogical e t l p -> reg_logical 128 w l p.
Proof. intros E L. rewrite alogical_reg in L by (destruct e; try discriminate; reflexivity). rewrite (an_neon e E) in L. exact L. Qed.
Lemma ok64 : okw 128 64 /\ okw 128 32.
Proof. unfold okw; cbn; lia. Qed.
Lemma half_all (p : Z -> bool) : (forall i, 0 <= i < 128 / 32 -> p (i / 2) = true) <-> (forall i, 0 <= i < 128 / 64 -> p i = true).
Proof.
  change (128 / 32) with 4. change (128 / 64) with 2. split; intros P i Hi.
  - specialize (P (2 * i) ltac:(lia)). rewrite Z.mul_comm, Z.div_mul in P by lia. exact P.
  - apply P. Z.to_euclidean_division_equations; lia.
Qed.
Lemma half_any (p : Z -> bool) : (exists i, 0 <= i < 128 / 32 /\ p (i / 2) = true) <-> (exists i, 0 <= i < 128 / 64 /\ p i = true).
Proof.
  change (128 / 32) with 4. change (128 / 64) with 2. split; intros (i & Hi & P).
  - exists (i / 2). split; [Z.to_euclidean_division_equations; lia|exact P].
  - exists (2 * i). split; [lia|]. rewrite Z.mul_comm, Z.div_mul by lia. exact P.
Qed.
Lemma a_all_ok l p : alogical e t l p -> a_all u e t l = true <-> (forall i, 0 <= i < n / w -> p i = true).
Proof.
  intros L. pose proof wpos as Hw. pose proof n_pos as Np. destruct e as [| |b vq] eqn:Ee; unfold a_all.
  - pose proof (neon_logical l p) as R. rewrite Ee in R. specialize (R eq_refl L).
    rewrite <- (lanes_all w l p) by (auto using okw_128; lia). rewrite forallb_forall. setoid_rewrite negb_eqb. reflexivity.
  - pose proof (neon_logical l p) as R. rewrite Ee in R. specialize (R eq_refl L). destruct (Z.eqb_spec w 64) as [E64|N64].
    + rewrite E64 in *. rewrite (minv_ok 32 l (fun j => p (j / 2))); [apply half_all|apply ok64|lia|apply half_logical; exact R|cbn; lia].
    + apply minv_ok; [apply okw_128; assumption|lia|exact R|exact Np].
  - rewrite <- Ee in *. assert (is_neon e = false) as Nn by (rewrite Ee; reflexivity). pose proof (to_pred_ok l p Nn L) as P.
    rewrite negb_true_iff, <- not_true_iff_false.
    assert (pred_logical n w (sv_not_z (svtrue e t) (to_pred u e t l)) (fun i => true && negb (p i))) as P'.
    { unfold sv_not_z. apply (pred_land (svtrue e t) (fun _ => true)); [apply svtrue_ok|auto|]. intros i Hi _.
      pose proof (w8_pos w Ww). rewrite testbit_lane by lia. replace (0 <? w / 8) with true by lia. cbn [andb].
      rewrite Z.lnot_spec by nia. f_equal. rewrite <- (bit0_lane _ p i P Hi). rewrite testbit_lane by lia.
      replace (0 <? w / 8) with true by lia. reflexivity. }
    rewrite (ptest_any_ok _ _ P'). split.
    + intros N i Hi. destruct (p i) eqn:Pi; [reflexivity|]. exfalso. apply N. exists i. rewrite Pi. auto.
    + intros A (i & Hi & Pi). rewrite A in Pi by exact Hi. discriminate.
Qed.
Lemma a_any_ok l p : alogical e t l p -> a_any u e t l = true <-> (exists i, 0 <= i < n / w /\ p i = true).
Proof.
  intros L. pose proof wpos as Hw. pose proof n_pos as Np. destruct e as [| |b vq] eqn:Ee; unfold a_any.
  - pose proof (neon_logical l p) as R. rewrite Ee in R. specialize (R eq_refl L).
    rewrite <- (lanes_any w l p) by (auto using okw_128; lia). rewrite existsb_exists. setoid_rewrite negb_eqb. reflexivity.
  - pose proof (neon_logical l p) as R. rewrite Ee in R. specialize (R eq_refl L). destruct (Z.eqb_spec w 64) as [E64|N64].
    + rewrite E64 in *. rewrite (maxv_ok 32 l (fun j => p (j / 2))); [apply half_any|apply ok64|lia|apply half_logical; exact R].
    + apply maxv_ok; [apply okw_128; assumption|lia|exact R].
  - rewrite <- Ee in *. assert (is_neon e = false) as Nn by (rewrite Ee; reflexivity). apply ptest_any_ok. apply to_pred_ok; assumption.
Qed.

(** counting *)
Lemma lsum_app l m : lsum (l ++ m) = lsum l + lsum m.
Proof. unfold lsum. induction l as [|x l IH]; cbn [app fold_right]; lia. Qed.
Lemma lsum_count k (f : Z -> Z) c (p : Z -> bool) : (forall i, 0 <= i < Z.of_nat k -> f i = if p i then c else 0) ->
  lsum (map (fun i => f (Z.of_nat i)) (seq 0 k)) = c * count_true (Z.of_nat k) p.
Proof.
  induction k as [|k IH]; intros F; [cbn; lia|].
  rewrite seq_S, map_app, lsum_app, IH by (intros; apply F; lia). cbn [Nat.add map]. unfold lsum at 1. cbn [fold_right].
  rewrite (F (Z.of_nat k)) by lia. replace (Z.of_nat (S k)) with (Z.of_nat k + 1) by lia. rewrite count_true_S by lia.
  destruct (p (Z.of_nat k)); cbn [Z.b2z]; lia.
Qed.
Lemma count_range k p : 0 <= k -> 0 <= count_true k p <= k.
Proof.
  intros Hk. unfold count_true. split; [lia|]. rewrite <- (Z2Nat.id k Hk) at 2. apply inj_le.
  rewrite <- (seq_length (Z.to_nat k) 0) at 2. generalize (seq 0 (Z.to_nat k)). intros l.
  induction l as [|x l IH]; cbn [filter length]; [lia|]. destruct (p (Z.of_nat x)); cbn [length]; lia.
Qed.
Lemma to_s_ones v : 0 < v -> to_s v (2 ^ v - 1) = -1.
Proof.
  intros Hv. rewrite <- m1_mod by lia. rewrite to_s_mod by lia. apply to_s_id; [lia|]. pose proof (pow2_pos (v - 1) ltac:(lia)). unfold in_s. lia.
Qed.
Lemma neon_sum v l p : okw 128 v -> 8 <= v -> reg_logical 128 v l p ->
  lsum (map (to_s v) (lane_list 128 v l)) = - count_true (128 / v) p.
Proof.
  intros Ov Hv [_ L]. unfold lane_list. rewrite map_map. rewrite (lsum_count _ (fun i => to_s v (lane v i l)) (-1) p).
  - rewrite nlanes_z by exact Ov. lia.
  - intros i Hi. rewrite nlanes_z in Hi by exact Ov. rewrite L by exact Hi. destruct (p i); [apply to_s_ones; lia|].
    apply to_s_id; [lia|]. pose proof (pow2_pos (v - 1) ltac:(lia)). unfold in_s. lia.
Qed.
Lemma cast_i32_small z : - 2 ^ 31 <= z < 2 ^ 31 -> cast i32 z = z.
Proof. intros Hz. unfold cast. cbn [is_signed bits i32]. apply to_s_id; [lia|]. unfold in_s. exact Hz. Qed.
Lemma lanes_16 : 128 / w <= 16.
Proof. destruct Ww as [->|[->|[->| ->]]]; cbn; lia. Qed.
Lemma addv_small v c : 8 <= v -> 0 <= c <= 16 -> to_s v (- c) = - c.
Proof.
  intros Hv Hc. apply to_s_id; [lia|]. assert (2 ^ 7 <= 2 ^ (v - 1)) by (apply Z.pow_le_mono_r; lia). change (2 ^ 7) with 128 in *. unfold in_s. lia.
Qed.
Lemma cntp_ok l p : pred_logical n w l p -> sv_cntp n w (svtrue e t) l = count_true (n / w) p.
Proof.
  intros L. unfold sv_cntp.
  rewrite (lsum_count _ (fun i => if active w (svtrue e t) i && active w l i then 1 else 0) 1 p).
  - rewrite nlanes_z by auto. lia.
  - intros i Hi. rewrite nlanes_z in Hi by auto. rewrite active_true by auto. rewrite (active_logical l p) by auto. reflexivity.
Qed.
Lemma lanes_le : n / w <= n.
Proof. apply Z.div_le_upper_bound; [pose proof wpos; lia|]. pose proof (an_pos e). pose proof wpos. nia. Qed.
Lemma a_nbtrue_ok l p : architectural e -> alogical e t l p -> a_nbtrue u e t l = count_true (n / w) p.
Proof.
  intros A L. pose proof wpos as Hw. pose proof n_pos as Np. pose proof lanes_le as Nl. pose proof (count_range (n / w) p ltac:(lia)) as C. pose proof lanes_16 as L16.
  destruct e as [| |b vq] eqn:Ee; unfold a_nbtrue.
  - pose proof (neon_logical l p) as R. rewrite Ee in R. specialize (R eq_refl L). cbn [an] in *.
    rewrite (neon_sum w l p) by (auto using okw_128; lia). rewrite cast_i32_small by (cbn; lia). lia.
  - pose proof (neon_logical l p) as R. rewrite Ee in R. specialize (R eq_refl L). cbn [an] in *. unfold v_addv_s.
    destruct (Z.eqb_spec w 64) as [E64|N64].
    + rewrite E64 in *. rewrite (neon_sum 32 l (fun j => p (j / 2))); [|apply ok64|lia|apply half_logical; exact R].
      change (128 / 32) with (2 * (128 / 64)). rewrite count_true_double by (cbn; lia). change (128 / 64) with 2 in *.
      rewrite addv_small by lia. rewrite Z.shiftr_div_pow2 by lia. change (2 ^ 1) with 2.
      replace (- (2 * count_true 2 p)) with (- count_true 2 p * 2) by lia. rewrite Z.div_mul by lia. lia.
    + rewrite (neon_sum w l p) by (auto using okw_128; lia). rewrite addv_small by lia. rewrite cast_i32_small by (cbn; lia). lia.
  - rewrite <- Ee in *. assert (is_neon e = false) as Nn by (rewrite Ee; reflexivity). rewrite (cntp_ok _ p) by (apply to_pred_ok; assumption).
    unfold architectural in A. apply cast_i32_small. cbn; lia.
Qed.
Lemma a_len_ok : architectural e -> a_len e t = n / w.
Proof.
  intros A. pose proof n_pos. pose proof lanes_le. unfold architectural in A. destruct e as [| |b vq] eqn:Ee; unfold a_len; [reflexivity..|].
  rewrite <- Ee in *. rewrite (cntp_ok _ (fun _ => true)) by apply svtrue_ok.
  assert (forall k, count_true (Z.of_nat k) (fun _ => true) = Z.of_nat k) as K.
  { induction k as [|k IH]; [reflexivity|]. replace (Z.of_nat (S k)) with (Z.of_nat k + 1) by lia. rewrite count_true_S, IH by lia. reflexivity. }
  rewrite <- (Z2Nat.id (n / w)) by lia. rewrite K, Z2Nat.id by lia. apply cast_i32_small. cbn; lia.
Qed.
Lemma mask_elt x i l (p : Z -> bool) : lane w i x = (if p i then 2 ^ w - 1 else 0) -> l = x -> elt t l i = if p i then cast t (-1) else 0.
Proof.
  intros E ->. rewrite elt_lane, E. pose proof wpos. destruct (p i).
  - rewrite <- m1_mod by lia. apply cast_mod_pow. exact H.
  - apply cast_s; [exact H|apply one_in; exact H].
Qed.
Lemma a_to_mask_ok l p : alogical e t l p -> avector e t (a_to_mask e t l) (fun i v => v = if p i then cast t (-1) else 0).
Proof.
  intros L. destruct (is_pred e) eqn:P.
  - rewrite alogical_pred in L by exact P.
    assert (a_to_mask e t l = sv_sel n w l (sv_dup n w (-1)) (sv_dup n w 0)) as -> by (destruct e as [| |[] vq]; try discriminate; reflexivity).
    destruct (sel_ok l p (sv_dup n w (-1)) (sv_dup n w 0) L) as [R S]. split; [exact R|]. intros i Hi. eapply mask_elt; [|reflexivity].
    rewrite S by exact Hi. rewrite !lane_svdup by auto. pose proof wpos. rewrite m1_mod, Z.mod_0_l by (lia || apply pow_bits_nz; exact H). reflexivity.
  - rewrite alogical_reg in L by exact P. assert (a_to_mask e t l = l) as -> by (destruct e as [| |[] vq]; try discriminate; reflexivity).
    destruct L as [R L]. split; [exact R|]. intros i Hi. eapply mask_elt; [|reflexivity]. apply L. exact Hi.
Qed.
Lemma a_to_logical_ok a : alogical e t (a_to_logical u e t a) (fun i => negb (elt t a i =? 0)).
Proof.
  unfold a_to_logical. eapply alogical_ext; [apply a_ne_ok|]. intros i Hi. cbn beta. do 2 f_equal.
  destruct (a_set1_ok 0) as [_ S]; [apply one_in; exact H|]. apply S. exact Hi.
Qed.
Lemma a_iota_lane i : 0 <= i < n / w -> lane w i (a_iota e t) = i mod 2 ^ w.
Proof. intros Hi. unfold a_iota. apply lane_buildn; auto. Qed.
Lemma a_iota_reg : in_reg n (a_iota e t).
Proof. apply in_reg_build. auto. Qed.
Lemma a_iota_ok : avector e t (a_iota e t) (fun i v => wraps_to t i v).
Proof.
  split; [apply a_iota_reg|]. intros i Hi. rewrite elt_lane, a_iota_lane, cast_mod_pow by auto. apply cast_wraps. exact H.
Qed.
End WithT.

(** *** mask_for_loop_tail *)
Lemma a_tail_char u e t i k : In t int_types -> architectural e -> native_logicals e -> in_ty i32 (k - i) -> i < k -> k - i < an e / bits t ->
  exists l, a_mask_for_loop_tail u e t i k = Some l /\ alogical e t l (fun j => cast t j <? cast t (k - i)).
Proof.
  intros H A N D Lt Ll. unfold a_mask_for_loop_tail. replace (k <=? i) with false by lia.
  rewrite carith_fits by (assumption || (unfold int_types; cbn; tauto)). cbn [bind]. rewrite (a_len_ok e t H A).
  replace (k - i <? an e / bits t) with true by lia. eexists. split; [reflexivity|].
  eapply alogical_ext; [apply a_cmp_ok; exact H|]. intros j Hj. cbn beta.
  rewrite elt_lane, a_iota_lane, cast_mod_pow by assumption. f_equal.
  destruct (a_set1_ok e t H (cast t (k - i))) as [_ S]; [apply cast_in_ty; exact H|]. apply S. exact Hj.
Qed.
Lemma a_tail_ok u e t i k : In t int_types -> architectural e -> native_logicals e -> (k <= i \/ in_ty i32 (k - i)) ->
  (t = i8 -> an e <= 1024) ->
  exists l, a_mask_for_loop_tail u e t i k = Some l /\ alogical e t l (fun j => i + j <? k).
Proof.
  intros H A N D T8. destruct (Z_le_dec k i) as [Le|Gt].
  - unfold a_mask_for_loop_tail. replace (k <=? i) with true by lia. eexists. split; [reflexivity|].
    eapply alogical_ext; [apply a_set1l_ok; assumption|]. intros j Hj. cbn beta. cbn. lia.
  - destruct D as [D|D]; [lia|]. destruct (Z_lt_dec (k - i) (an e / bits t)) as [L|G].
    + destruct (a_tail_char u e t i k H A N D ltac:(lia) L) as (l & E & C). exists l. split; [exact E|].
      eapply alogical_ext; [exact C|]. intros j Hj. cbn beta.
      assert (an e / bits t <= ty_max t + 1) as M.
      { unfold architectural in A. pose proof (an_pos e). destruct (okw_ant e t H) as (O1 & O2 & O3).
        ty_cases H; cbn [bits ty_max is_signed i8 u8 i16 u16 i32 u32 i64 u64] in *; cbn; try (specialize (T8 eq_refl)); nia. }
      assert (ty_min t <= 0) as M0 by (ty_cases H; cbn; lia).
      rewrite !cast_s by (assumption || (unfold in_ty; lia)). lia.
    + unfold a_mask_for_loop_tail. replace (k <=? i) with false by lia.
      rewrite carith_fits by (assumption || (unfold int_types; cbn; tauto)). cbn [bind]. rewrite (a_len_ok e t H A).
      replace (k - i <? an e / bits t) with false by lia. eexists. split; [reflexivity|].
      eapply alogical_ext; [apply a_set1l_ok; assumption|]. intros j Hj. cbn beta. cbn [negb Z.eqb]. lia.
Qed.
