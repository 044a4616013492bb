(** Fused operators, saturated operators, bitwise operators and shifts of the ARM back ends. *)
From Coq Require Import ZArith Lia List Bool ZifyBool.
From Verif Require Import CInt BitLemmas ScalarOps ScalarSpec ScalarProofs CpuSimd X86Deg234 X86Arith
  X86ArithSpec X86LaneLemmas X86ArithProofs X86EmulProofs X86LogicProofs X86SelectProofs X86RedProofs X86FmaProofs
  Arm ArmSpec ArmProofs ArmProofs2.
Import ListNotations.
Open Scope Z_scope.

(** *** Fused operators *)
Definition fma_base (neg : bool) : Z -> aext -> ity -> Z -> Z -> Z -> option Z := if neg then a_fnma else a_fma.
Definition s_base (neg : bool) : ity -> Z -> Z -> Z -> option Z := if neg then s_fnma else s_fma.
Definition base_value (neg : bool) (x y z : Z) : Z := (if neg then - x else x) * y + z.
Definition base_steps (neg : bool) (x y z : Z) : list Z :=
  let x' := if neg then - x else x in [x'; x' * y; x' * y + z].

Lemma s_base_value neg t x y z r : In t int_types -> s_base neg t x y z = Some r -> wraps_to t (base_value neg x y z) r.
Proof.
  intros H E. destruct neg; unfold s_base, base_value in *.
  - replace (- x * y + z) with (- (x * y) + z) by ring. apply s_fnma_value; assumption.
  - apply s_fma_value; assumption.
Qed.
Lemma carith_fits' t z : In t int_types -> wide t = true -> in_ty t z -> carith (promote t) z = Some z.
Proof. intros H W I. apply carith_promote_fits; assumption. Qed.
Lemma s_base_some neg t x y z : In t int_types -> wide t = true ->
  (is_signed t = true -> Forall (in_ty t) (base_steps neg x y z)) -> exists r, s_base neg t x y z = Some r.
Proof.
  intros H W D. destruct (is_signed t) eqn:S.
  - specialize (D eq_refl). unfold base_steps in D. inversion D as [|? ? D1 D']; subst. inversion D' as [|? ? D2 D'']; subst.
    inversion D'' as [|? ? D3 _]; subst. destruct neg; unfold s_base, s_fnma, s_fma.
    + rewrite (carith_fits' t (- x)) by assumption. cbn [bind]. rewrite carith_fits' by assumption. cbn [bind].
      rewrite carith_fits' by assumption. cbn. eexists; reflexivity.
    + rewrite carith_fits' by assumption. cbn [bind]. rewrite carith_fits' by assumption. cbn. eexists; reflexivity.
  - assert (forall v, exists r, carith (promote t) v = Some r) as C by (intros v; apply carith_some; [assumption..|congruence]).
    destruct neg; unfold s_base, s_fnma, s_fma.
    + destruct (C (- x)) as (v1 & ->). cbn [bind]. destruct (C (v1 * y)) as (v2 & ->). cbn [bind].
      destruct (C (v2 + z)) as (v3 & ->). cbn. eexists; reflexivity.
    + destruct (C (x * y)) as (v2 & ->). cbn [bind]. destruct (C (v2 + z)) as (v3 & ->). cbn. eexists; reflexivity.
Qed.
Lemma in_ty_dec t z : {in_ty t z} + {~ in_ty t z}.
Proof. unfold in_ty. destruct (Z_le_dec (ty_min t) z); [|right; lia]. destruct (Z_le_dec z (ty_max t)); [left|right]; lia. Qed.
Lemma s_base_none neg t x y z : In t int_types -> wide t = true -> is_signed t = true -> in_ty t x ->
  ~ Forall (in_ty t) (base_steps neg x y z) -> s_base neg t x y z = None.
Proof.
  intros H W S Ix N. destruct neg; unfold s_base, s_fnma, s_fma, base_steps in *.
  - destruct (in_ty_dec t (- x)) as [I1|N1].
    2:{ rewrite carith_none by assumption. reflexivity. }
    rewrite carith_fits' by assumption. cbn [bind]. destruct (in_ty_dec t (- x * y)) as [I2|N2].
    2:{ rewrite carith_none by assumption. reflexivity. }
    rewrite carith_fits' by assumption. cbn [bind]. rewrite carith_none; [reflexivity|assumption..|]. intros I3. apply N. repeat (apply Forall_cons; [assumption|]). apply Forall_nil.
  - destruct (in_ty_dec t (x * y)) as [I2|N2].
    2:{ rewrite carith_none by assumption. reflexivity. }
    rewrite carith_fits' by assumption. cbn [bind]. rewrite carith_none; [reflexivity|assumption..|]. intros I3. apply N. repeat (apply Forall_cons; [assumption|]). apply Forall_nil.
Qed.
Lemma a_base_ok u neg e t a b c : In t int_types -> in_reg (an e) a -> in_reg (an e) b -> in_reg (an e) c ->
  (arm_mul_emulated e t = true -> is_signed t = true -> forall i, 0 <= i < an e / bits t ->
     Forall (in_ty t) (base_steps neg (elt t a i) (elt t b i) (elt t c i))) ->
  exists r, fma_base neg u e t a b c = Some r /\
    avector e t r (fun i v => wraps_to t (base_value neg (elt t a i) (elt t b i) (elt t c i)) v).
Proof.
  intros H Ha Hb Hc D.
  assert (fma_base neg u e t a b c = if arm_mul_emulated e t then emulate_op3 t (s_base neg t) a b c
          else Some (both3 u e t (if neg then l_mls else l_mla) c b a)) as -> by (destruct neg; reflexivity).
  destruct (arm_mul_emulated e t) eqn:E.
  - unfold arm_mul_emulated in E. apply andb_prop in E. destruct E as [En E64]. apply Z.eqb_eq in E64. specialize (D eq_refl).
    destruct (emulate_op3_ok t (s_base neg t) a b c (fun i v => wraps_to t (base_value neg (elt t a i) (elt t b i) (elt t c i)) v) H)
      as (r & Er & Ar).
    { intros i Hi. destruct (s_base_some neg t (elt t a i) (elt t b i) (elt t c i) H (wide64 t H E64)) as (v & Ev).
      - intros S. apply D; [assumption|]. rewrite (an_neon e En). exact Hi.
      - exists v. split; [exact Ev|]. pose proof (s_base_value neg t _ _ _ v H Ev) as W. rewrite cast_s by (assumption || apply W). exact W. }
    exists r. split; [exact Er|]. apply av_neon; assumption.
  - eexists. split; [reflexivity|]. pose proof (okw_ant e t H) as O. split.
    + apply (both3_lane u e t _ c b a 0 H). destruct O as (O1 & O2 & O3). split; [lia|].
      pose proof (an_pos e). nia.
    + intros i Hi. destruct (both3_lane u e t (if neg then l_mls else l_mla) c b a i H Hi) as [_ L].
      rewrite !elt_lane, L, cast_mod_pow by assumption. unfold base_value.
      set (x := lane (bits t) i a). set (y := lane (bits t) i b). set (z := lane (bits t) i c).
      assert (cast t ((if neg then l_mls else l_mla) z y x) = cast t ((if neg then - cast t x else cast t x) * cast t y + cast t z)) as ->;
        [|apply cast_wraps; assumption].
      destruct (cast_ex t x H) as (k1 & ->). destruct (cast_ex t y H) as (k2 & ->). destruct (cast_ex t z H) as (k3 & ->).
      set (M := 2 ^ bits t). apply cast_congr. pose proof (pow_bits_nz t H) as NZ. fold M in NZ |- *.
      destruct neg; unfold l_mls, l_mla.
      * replace (- (x + k1 * M) * (y + k2 * M) + (z + k3 * M))
          with (z - y * x + (k3 - k1 * y - x * k2 - k1 * k2 * M) * M) by ring. rewrite Z.mod_add by exact NZ. reflexivity.
      * replace ((x + k1 * M) * (y + k2 * M) + (z + k3 * M))
          with (z + y * x + (k3 + k1 * y + x * k2 + k1 * k2 * M) * M) by ring. rewrite Z.mod_add by exact NZ. reflexivity.
Qed.
Lemma a_base_none u neg e t a b c i : In t int_types -> arm_mul_emulated e t = true -> is_signed t = true -> 0 <= i < an e / bits t ->
  ~ Forall (in_ty t) (base_steps neg (elt t a i) (elt t b i) (elt t c i)) -> fma_base neg u e t a b c = None.
Proof.
  intros H E S Hi N.
  assert (fma_base neg u e t a b c = if arm_mul_emulated e t then emulate_op3 t (s_base neg t) a b c
          else Some (both3 u e t (if neg then l_mls else l_mla) c b a)) as -> by (destruct neg; reflexivity).
  rewrite E. unfold arm_mul_emulated in E. apply andb_prop in E. destruct E as [En E64]. apply Z.eqb_eq in E64.
  apply (emulate_op3_none t _ a b c i); [assumption|rewrite <- (an_neon e En); assumption|].
  apply s_base_none; auto using wide64, elt_range.
Qed.
Lemma fma_family_base neg sub u e t a b c : fma_family neg sub u e t a b c =
  if sub then bind (fma_base (xorb neg sub) u e t a b c) (a_neg u e t) else fma_base (xorb neg sub) u e t a b c.
Proof. destruct neg, sub; reflexivity. Qed.
Lemma steps_app neg sub e x y z : fma_steps neg sub e x y z =
  base_steps (xorb neg sub) x y z ++ (if sub && is_neon128 e then [- base_value (xorb neg sub) x y z] else []).
Proof. unfold fma_steps, base_steps, base_value. destruct neg, sub, (is_neon128 e); reflexivity. Qed.
Lemma neg_emul_mul e t : arm_neg_emulated e t = true -> arm_mul_emulated e t = true /\ is_neon128 e = true.
Proof. unfold arm_neg_emulated, arm_mul_emulated. destruct e; cbn [is_neon128 is_neon andb]; intros; try discriminate; auto. Qed.
Lemma a_fma_family_ok u neg sub e t a b c : In t int_types -> in_reg (an e) a -> in_reg (an e) b -> in_reg (an e) c ->
  (arm_mul_emulated e t = true -> is_signed t = true -> forall i, 0 <= i < an e / bits t ->
     Forall (in_ty t) (fma_steps neg sub e (elt t a i) (elt t b i) (elt t c i))) ->
  exists r, fma_family neg sub u e t a b c = Some r /\
    avector e t r (fun i v => wraps_to t (fma_value neg sub (elt t a i) (elt t b i) (elt t c i)) v).
Proof.
  intros H Ha Hb Hc D. rewrite fma_family_base.
  destruct (a_base_ok u (xorb neg sub) e t a b c H Ha Hb Hc) as (r & E & A).
  { intros Em S i Hi. specialize (D Em S i Hi). rewrite steps_app in D. apply Forall_app in D. apply D. }
  rewrite E. cbn [bind]. destruct sub.
  2:{ exists r. split; [reflexivity|]. eapply av_weaken; [exact A|]. cbn beta. intros i v _ W. unfold base_value in W. unfold fma_value.
      rewrite Bool.xorb_false_r in W. exact W. }
  destruct (a_neg_ok u e t r H) as (r' & E' & A'); [apply A| |].
  { intros Em S i Hi. destruct (neg_emul_mul e t Em) as [Em' Ne]. specialize (D Em' S i Hi). rewrite steps_app, Ne in D.
    cbn [andb] in D. apply Forall_app in D. destruct D as [D1 D2]. inversion D2 as [|? ? D3 _]; subst.
    unfold base_steps in D1. inversion D1 as [|? ? _ D1']; subst. inversion D1' as [|? ? _ D1'']; subst. inversion D1'' as [|? ? Iv _]; subst.
    destruct A as [_ A]. specialize (A i Hi). apply wraps_exact in A; [|assumption|exact Iv]. rewrite A. exact D3. }
  exists r'. split; [exact E'|]. destruct A' as [R' A']. split; [exact R'|]. intros i Hi. specialize (A' i Hi).
  destruct A as [_ A]. specialize (A i Hi). destruct A as [_ [k1 K1]]. destruct A' as [I' [k2 K2]]. split; [exact I'|].
  exists (- k1 + k2). unfold base_value, fma_value in *. destruct neg; cbn [xorb negb] in *; nia.
Qed.
Lemma a_fma_family_none u neg sub e t a b c i : In t int_types -> in_reg (an e) a -> in_reg (an e) b -> in_reg (an e) c ->
  arm_mul_emulated e t = true -> is_signed t = true -> 0 <= i < an e / bits t ->
  ~ Forall (in_ty t) (fma_steps neg sub e (elt t a i) (elt t b i) (elt t c i)) -> fma_family neg sub u e t a b c = None.
Proof.
  intros H Ha Hb Hc E S Hi N. rewrite fma_family_base. set (ng := xorb neg sub) in *.
  destruct (Forall_dec (in_ty t) (in_ty_dec t) (base_steps ng (elt t a i) (elt t b i) (elt t c i))) as [Y|Nb].
  2:{ rewrite (a_base_none u ng e t a b c i) by assumption. destruct sub; reflexivity. }
  rewrite steps_app in N. fold ng in N. destruct (sub && is_neon128 e) eqn:B.
  2:{ exfalso. apply N. rewrite app_nil_r. exact Y. }
  apply andb_prop in B. destruct B as [-> Bn]. destruct (fma_base ng u e t a b c) as [r|] eqn:Er; [|reflexivity]. cbn [bind].
  assert (arm_neg_emulated e t = true) as En.
  { unfold arm_neg_emulated, arm_mul_emulated in *. destruct e; cbn in *; congruence. }
  apply (a_neg_none u e t r i); [assumption..|]. intros I. apply N. apply Forall_app. split; [exact Y|]. constructor; [|constructor].
  assert (elt t r i = base_value ng (elt t a i) (elt t b i) (elt t c i)) as <-; [|exact I].

  pose proof Er as Er'. assert (fma_base ng u e t a b c = emulate_op3 t (s_base ng t) a b c) as Eb.
  { unfold fma_base. unfold arm_mul_emulated in E. destruct ng; unfold a_fnma, a_fma; rewrite E; reflexivity. }
  clear Er'. destruct (neg_emul_neon e t En) as [-> E64].
  assert (exists v, s_base ng t (elt t a i) (elt t b i) (elt t c i) = Some v) as (v & Ev).
  { apply s_base_some; [assumption|apply wide64; assumption|auto]. }
  pose proof (s_base_value _ _ _ _ _ _ H Ev) as W.
  assert (in_ty t (base_value ng (elt t a i) (elt t b i) (elt t c i))) as Iv.
  { unfold base_steps in Y. inversion Y as [|? ? _ Y']; subst. inversion Y' as [|? ? _ Y'']; subst. inversion Y'' as [|? ? Y3 _]; subst. exact Y3. }
  apply wraps_exact in W; [|assumption..].
  destruct (emulate_op3_ok t (s_base ng t) a b c (fun j v' => s_base ng t (elt t a j) (elt t b j) (elt t c j) = Some v') H) as (r1 & E1 & A1).
  { intros j Hj. destruct (s_base ng t (elt t a j) (elt t b j) (elt t c j)) as [vj|] eqn:Evj.
    - exists vj. split; [reflexivity|]. rewrite cast_s; [reflexivity|assumption|apply (s_base_value _ _ _ _ _ _ H Evj)].
    - exfalso. rewrite (emulate_op3_none t (s_base ng t) a b c j) in Eb by assumption. congruence. }
  rewrite Eb, E1 in Er. injection Er as <-. destruct A1 as [_ A1]. specialize (A1 i Hi). cbn beta in A1. congruence.
Qed.

(** *** Saturated operators *)
Lemma a_adds_ok e t a b : In t int_types -> in_reg (an e) a -> in_reg (an e) b ->
  avector e t (a_adds e t a b) (fun i v => v = clamp t (elt t a i + elt t b i)).
Proof.
  intros H Ha Hb. assert (a_adds e t a b = lanewise2 (an e) (bits t) (l_qadd t) a b) as -> by (destruct e; reflexivity).
  apply lanewise2_av; [assumption..|]. intros i. unfold l_qadd. rewrite saturate_clamp by (apply min_le_max; assumption).
  rewrite !elt_lane. apply cast_s; [assumption|apply clamp_in; assumption].
Qed.
Lemma a_subs_ok e t a b : In t int_types -> in_reg (an e) a -> in_reg (an e) b ->
  avector e t (a_subs e t a b) (fun i v => v = clamp t (elt t a i - elt t b i)).
Proof.
  intros H Ha Hb. assert (a_subs e t a b = lanewise2 (an e) (bits t) (l_qsub t) a b) as -> by (destruct e; reflexivity).
  apply lanewise2_av; [assumption..|]. intros i. unfold l_qsub. rewrite saturate_clamp by (apply min_le_max; assumption).
  rewrite !elt_lane. apply cast_s; [assumption|apply clamp_in; assumption].
Qed.

(** *** Bitwise operators *)
Lemma testbit_buildn n w f k : okw n w -> 0 <= k < n -> Z.testbit (build w (nlanes n w) f) k = Z.testbit (f (k / w)) (k mod w).
Proof. intros O Hk. apply testbit_build; [destruct O; lia|]. rewrite nlanes_z by exact O. destruct O as (_ & _ & <-). exact Hk. Qed.
Lemma lane_bit n w a k : okw n w -> 0 <= k < n -> 0 <= k / w < n / w /\ 0 <= k mod w < w /\ Z.testbit (lane w (k / w) a) (k mod w) = Z.testbit a k.
Proof.
  intros (O1 & O2 & O3) Hk. pose proof (Z.mod_pos_bound k w O1). pose proof (Z.div_mod k w ltac:(lia)) as E.
  assert (0 <= k / w) by (apply Z.div_pos; lia). split; [split; [assumption|apply Z.div_lt_upper_bound; lia]|]. split; [assumption|].
  rewrite testbit_lane by lia. replace (k mod w <? w) with true by lia. cbn [andb]. f_equal. lia.
Qed.
Lemma both2_bit u e t f g a b k : In t int_types -> 0 <= k < an e ->
  (forall x y j, 0 <= j -> Z.testbit (f x y) j = g (Z.testbit x j) (Z.testbit y j)) ->
  Z.testbit (both2 u e t f a b) k = g (Z.testbit a k) (Z.testbit b k).
Proof.
  intros H Hk F. pose proof (okw_ant e t H) as O. destruct (lane_bit (an e) (bits t) a k O Hk) as (Hi & Hj & Ea).
  destruct (lane_bit (an e) (bits t) b k O Hk) as (_ & _ & Eb).
  destruct e as [| |q vq]; unfold both2, v_2, lanewise2, sv_2_x.
  1,2: change 128 with (an Neon128) at 1; rewrite testbit_buildn by assumption; rewrite F by lia; congruence.
  rewrite testbit_buildn by assumption. rewrite active_true by assumption. rewrite F by lia. congruence.
Qed.
Lemma both2_reg u e t f a b : In t int_types -> in_reg (an e) (both2 u e t f a b).
Proof. intros H. pose proof (okw_ant e t H) as O. destruct e as [| |q vq]; unfold both2, v_2, lanewise2, sv_2_x; apply in_reg_build; exact O. Qed.
Lemma both1_reg u e t f a : In t int_types -> in_reg (an e) (both1 u e t f a).
Proof. intros H. pose proof (okw_ant e t H) as O. destruct e as [| |q vq]; unfold both1, v_1, lanewise1, sv_1_x; apply in_reg_build; exact O. Qed.
Lemma both1_bit u e t f g a k : In t int_types -> 0 <= k < an e ->
  (forall x j, 0 <= j -> Z.testbit (f x) j = g (Z.testbit x j)) ->
  Z.testbit (both1 u e t f a) k = g (Z.testbit a k).
Proof.
  intros H Hk F. pose proof (okw_ant e t H) as O. destruct (lane_bit (an e) (bits t) a k O Hk) as (Hi & Hj & Ea).
  destruct e as [| |q vq]; unfold both1, v_1, lanewise1, sv_1_x.
  1,2: change 128 with (an Neon128) at 1; rewrite testbit_buildn by assumption; rewrite F by lia; congruence.
  rewrite testbit_buildn by assumption. rewrite active_true by assumption. rewrite F by lia. congruence.
Qed.
Lemma v1_lnot_bit w a k : okw 128 w -> 0 <= k < 128 -> Z.testbit (v_1 w Z.lnot a) k = negb (Z.testbit a k).
Proof.
  intros O Hk. destruct (lane_bit 128 w a k O Hk) as (_ & Hj & Ea). unfold v_1, lanewise1. rewrite testbit_buildn by assumption.
  rewrite Z.lnot_spec by lia. congruence.
Qed.
Lemma not_w t : In t int_types -> okw 128 (if bits t =? 64 then 32 else bits t).
Proof. intros H. destruct (bits t =? 64); [unfold okw; cbn; lia|apply okw_128; assumption]. Qed.
Lemma a_bit_ok u e t a b k : In t int_types -> 0 <= k < an e ->
  Z.testbit (a_andb u e t a b) k = Z.testbit a k && Z.testbit b k /\
  Z.testbit (a_orb u e t a b) k = Z.testbit a k || Z.testbit b k /\
  Z.testbit (a_xorb u e t a b) k = xorb (Z.testbit a k) (Z.testbit b k) /\
  Z.testbit (a_andnotb u e t a b) k = Z.testbit a k && negb (Z.testbit b k) /\
  Z.testbit (a_notb u e t a) k = negb (Z.testbit a k).
Proof.
  intros H Hk. unfold a_andb, a_orb, a_xorb, a_andnotb, a_notb, v_and, v_orr, v_eor, v_bic.
  destruct (is_neon e) eqn:En.
  - rewrite Z.land_spec, Z.lor_spec, Z.lxor_spec, Z.land_spec, Z.lnot_spec by lia. repeat (split; [reflexivity|]).
    apply v1_lnot_bit; [apply not_w; assumption|]. rewrite (an_neon e En) in Hk. exact Hk.
  - repeat split; [apply (both2_bit u e t Z.land andb); [assumption..|]|apply (both2_bit u e t Z.lor orb); [assumption..|]
      |apply (both2_bit u e t Z.lxor xorb); [assumption..|]|apply (both2_bit u e t _ (fun x y => x && negb y)); [assumption..|]
      |apply (both1_bit u e t Z.lnot negb); [assumption..|]]; intros.
    + apply Z.land_spec. + apply Z.lor_spec. + apply Z.lxor_spec. + rewrite Z.land_spec, Z.lnot_spec by lia. reflexivity.
    + apply Z.lnot_spec. lia.
Qed.
Lemma a_bit_reg u e t a b : In t int_types -> in_reg (an e) a -> in_reg (an e) b ->
  in_reg (an e) (a_andb u e t a b) /\ in_reg (an e) (a_orb u e t a b) /\ in_reg (an e) (a_xorb u e t a b) /\
  in_reg (an e) (a_andnotb u e t a b) /\ in_reg (an e) (a_notb u e t a).
Proof.
  intros H Ha Hb. unfold a_andb, a_orb, a_xorb, a_andnotb, a_notb, v_and, v_orr, v_eor, v_bic.
  pose proof (an_pos e). destruct (is_neon e) eqn:En; [|repeat (split; [apply both2_reg; assumption|]); apply both1_reg; assumption].
  split; [apply in_reg_land; (lia || assumption)|]. split; [apply in_reg_lor; (lia || assumption)|].
  split; [apply in_reg_lxor; (lia || assumption)|]. split; [rewrite Z.land_comm; apply in_reg_andnot; (lia || assumption)|].
  rewrite (an_neon e En). unfold v_1, lanewise1. apply in_reg_build. apply not_w. assumption.
Qed.

(** *** Shifts *)
Lemma to_s_mod w m z : 0 < m <= w -> to_s m (z mod 2 ^ w) = to_s m z.
Proof. intros Hm. unfold to_s, to_u. rewrite mod_mod_pow by lia. reflexivity. Qed.
Lemma to_s_small m z : 0 < m -> - 2 ^ (m - 1) <= z < 2 ^ (m - 1) -> to_s m z = z.
Proof. intros Hm Hz. apply to_s_id; [lia|]. unfold in_s. lia. Qed.
Lemma lane_vdup w x i : okw 128 w -> 0 <= i < 128 / w -> lane w i (v_dup w x) = x mod 2 ^ w.
Proof. intros O Hi. unfold v_dup. apply lane_buildn; assumption. Qed.
Lemma lane_svdup n w x i : okw n w -> 0 <= i < n / w -> lane w i (sv_dup n w x) = x mod 2 ^ w.
Proof. intros O Hi. unfold sv_dup. apply lane_buildn; assumption. Qed.
Lemma count_lane t c : In t int_types -> - bits t < c < bits t -> to_s 8 (to_s (bits t) c mod 2 ^ bits t) = c.
Proof.
  intros H Hc. pose proof (bits_pos t H). rewrite to_s_mod by lia.
  rewrite (to_s_small (bits t) c); [apply to_s_small; [lia|]; cbn; lia|lia|].
  assert (64 <= 2 ^ (bits t - 1)) by (apply Z.le_trans with (2 ^ 7); [cbn; lia|apply Z.pow_le_mono_r; lia]). lia.
Qed.
Lemma neon_shift_av e t f a c (P : Z -> Z -> Prop) : In t int_types -> is_neon e = true -> in_reg (an e) a ->
  (forall i, 0 <= i < an e / bits t -> P i (cast t (f (lane (bits t) i a) (c mod 2 ^ bits t)))) ->
  avector e t (v_2 (bits t) f a (v_dup (bits t) c)) P.
Proof.
  intros H En Ha HP. pose proof (okw_128 t H) as O. unfold avector. rewrite (an_neon e En) in *. unfold v_2, lanewise2.
  split; [apply in_reg_build; exact O|]. intros i Hi. rewrite elt_lane, lane_buildn, lane_vdup by assumption.
  rewrite cast_mod_pow by assumption. apply HP. exact Hi.
Qed.
Lemma sve_shift_av u e t f a c (P : Z -> Z -> Prop) : In t int_types -> in_reg (an e) a ->
  (forall i, 0 <= i < an e / bits t -> P i (cast t (f (lane (bits t) i a) (c mod 2 ^ bits t)))) ->
  avector e t (both2 u e t f a (sv_dup (an e) (bits t) c)) P.
Proof.
  intros H Ha HP. pose proof (okw_ant e t H) as O. split; [apply both2_reg; assumption|]. intros i Hi.
  destruct (both2_lw u e t f (fun x y => f x y mod 2 ^ bits t) H (fun _ _ _ _ => eq_refl) a (sv_dup (an e) (bits t) c) Ha) as [_ L].
  { apply in_reg_build. exact O. }
  rewrite elt_lane, L, lane_svdup, cast_mod_pow by assumption. apply HP. exact Hi.
Qed.
Lemma to_u_count t c : In t int_types -> 0 <= c < bits t -> to_u (bits t) c mod 2 ^ bits t = c /\ to_u (bits t) c = c.
Proof.
  intros H Hc. pose proof (bits_pos t H). assert (c < 2 ^ bits t) by (apply Z.lt_trans with (bits t); [lia|apply Z.pow_gt_lin_r; lia]).
  unfold to_u. rewrite Z.mod_mod by (apply Z.pow_nonzero; lia). rewrite Z.mod_small by lia. auto.
Qed.
Lemma a_shl_ok u e t a c : In t int_types -> in_reg (an e) a -> 0 <= c < bits t ->
  exists r, a_shl u e t a c = Some r /\ avector e t r (fun i v => wraps_to t (elt t a i * 2 ^ c) v).
Proof.
  intros H Ha Hc. unfold a_shl.
  assert (forall i, wraps_to t (elt t a i * 2 ^ c) (cast t (lane (bits t) i a * 2 ^ c))) as K.
  { intros i. rewrite elt_lane. set (x := lane (bits t) i a).
    rewrite (cast_congr t (x * 2 ^ c) (cast t x * 2 ^ c)); [apply cast_wraps; assumption|].
    rewrite <- Z.mul_mod_idemp_l, <- (cast_mod t x H), Z.mul_mod_idemp_l by (apply pow_bits_nz; assumption). reflexivity. }
  destruct (is_neon e) eqn:En; (eexists; split; [reflexivity|]).
  - apply neon_shift_av; [assumption..|]. intros i Hi. unfold l_shl_u. rewrite count_lane by (assumption || lia).
    replace (0 <=? c) with true by lia. replace (c <? bits t) with true by lia. apply K.
  - apply sve_shift_av; [assumption..|]. intros i Hi. unfold l_lsl. destruct (to_u_count t c H Hc) as [-> _].
    replace (c <? bits t) with true by lia. apply K.
Qed.
Lemma shr_elt t a c i : In t int_types -> wraps_to t ((elt t a i mod 2 ^ bits t) / 2 ^ c) (cast t (lane (bits t) i a / 2 ^ c)).
Proof. intros H. rewrite elt_congr by assumption. apply cast_wraps. assumption. Qed.
Lemma a_shr_ok u e t a c : In t int_types -> in_reg (an e) a -> 0 <= c < bits t ->
  exists r, a_shr u e t a c = Some r /\ avector e t r (fun i v => wraps_to t ((elt t a i mod 2 ^ bits t) / 2 ^ c) v).
Proof.
  intros H Ha Hc. pose proof (bits_pos t H). unfold a_shr. destruct (is_neon e) eqn:En.
  - rewrite carith_i32 by (cbn; lia). cbn [bind]. eexists; split; [reflexivity|].
    apply neon_shift_av; [assumption..|]. intros i Hi. unfold l_shl_u. rewrite count_lane by (assumption || lia).
    destruct (Z.eq_dec c 0) as [->|Nc].
    + cbn [Z.opp]. replace (0 <? bits t) with true by lia. cbn [Z.leb Z.compare].
      replace (lane (bits t) i a * 2 ^ 0) with (lane (bits t) i a / 2 ^ 0) by (rewrite Z.pow_0_r, Z.div_1_r; lia). apply shr_elt. assumption.
    + replace (0 <=? - c) with false by lia. rewrite Z.opp_involutive. replace (c <? bits t) with true by lia. apply shr_elt. assumption.
  - eexists; split; [reflexivity|]. apply sve_shift_av; [assumption..|]. intros i Hi. unfold l_lsr.
    destruct (to_u_count t c H Hc) as [-> _]. replace (c <? bits t) with true by lia. apply shr_elt. assumption.
Qed.
Lemma sra_in t x c : In t int_types -> is_signed t = true -> 0 <= c -> in_ty t (to_s (bits t) x / 2 ^ c).
Proof.
  intros H S Hc. pose proof (bits_pos t H). pose proof (to_s_div_mod (bits t) x c ltac:(lia) Hc) as I.
  unfold in_ty, ty_min, ty_max, in_s in *. rewrite S. lia.
Qed.
Lemma a_shra_ok u e t a c : In t int_types -> in_reg (an e) a -> 0 <= c < bits t ->
  exists r, a_shra u e t a c = Some r /\ avector e t r (fun i v => v = elt t a i / 2 ^ c).
Proof.
  intros H Ha Hc. pose proof (bits_pos t H). unfold a_shra. destruct (is_signed t) eqn:S; cbn [negb].
  - assert (forall x, cast t (to_s (bits t) x / 2 ^ c) = cast t x / 2 ^ c) as K.
    { intros x. rewrite cast_s by (try apply sra_in; assumption || lia). unfold cast. rewrite S. reflexivity. }
    destruct (is_neon e) eqn:En.
    + rewrite carith_i32 by (cbn; lia). cbn [bind]. eexists; split; [reflexivity|].
      apply neon_shift_av; [assumption..|]. intros i Hi. unfold l_shl_s. rewrite count_lane by (assumption || lia).
      destruct (Z.eq_dec c 0) as [->|Nc].
      * cbn [Z.opp]. replace (0 <? bits t) with true by lia. cbn [Z.leb Z.compare]. rewrite elt_lane, Z.pow_0_r, Z.div_1_r. f_equal. lia.
      * replace (0 <=? - c) with false by lia. rewrite Z.opp_involutive, K, elt_lane. reflexivity.
    + eexists; split; [reflexivity|]. apply both1_av; [assumption..|]. intros i. unfold l_asr.
      destruct (to_u_count t c H Hc) as [_ ->]. rewrite K, elt_lane. reflexivity.
  - destruct (a_shr_ok u e t a c H Ha Hc) as (r & E & A). exists r. split; [exact E|]. eapply av_weaken; [exact A|].
    cbn beta. intros i v _ W. pose proof (elt_range t a i H) as R. unfold in_ty, ty_min, ty_max in R. rewrite S in R.
    assert (2 ^ bits t > 0) by (pose proof (pow2_pos (bits t)); lia).
    rewrite Z.mod_small in W by lia. apply wraps_exact in W; [exact W|assumption|]. unfold in_ty, ty_min, ty_max. rewrite S.
    pose proof (pow2_pos c ltac:(lia)). split; [apply Z.div_pos; lia|]. apply Z.le_trans with (elt t a i); [apply Z.div_le_upper_bound; nia|lia].
Qed.
