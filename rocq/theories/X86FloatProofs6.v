(** f16: reinterpret, reinterpretl, iota and mask_for_loop_tail. *)
From Coq Require Import ZArith List Bool Lia ZifyBool.
From Verif Require Import CInt BitLemmas FloatSpec FloatProofs Fp16Spec Fp16 Fp16Proofs ScalarOps ScalarSpec ScalarProofs RoundEven RoundEvenProofs
  X86Deg234 X86Arith X86ArithSpec X86LaneLemmas X86ArithProofs X86EmulProofs X86LogicProofs X86SelectProofs X86RedProofs
  X86Mem X86MemSpec X86MemProofs X86MemProofs2 X86Cvt X86CvtSpec X86CvtProofs X86CvtProofs2 X86Float X86FloatSpec
  X86FloatProofs X86FloatProofs2 X86FloatProofs3 X86FloatProofs4 X86FloatProofs5.
Open Scope Z_scope.

Lemma okw16 e : okw (nb e) 16.
Proof. destruct e; okw. Qed.

Lemma x_reinterpret_to16_ok e a : in_reg (nb e) a ->
  exists r, x_reinterpret_to16 e a = Some r /\
    vector16 e r (fun i x => half_as_single (lane 16 i a) x).
Proof.
  intros Ha. unfold x_reinterpret_to16.
  destruct (load_loop_ok (fun _ => true) (fun i => u16_to_f32 (lane 16 i a)) (Z.to_nat (le16 e)) (fun _ => 0)) as (b & E & A & _).
  { intros i Hi _. destruct (u16_to_f32_exact_l (lane 16 i a) (lane_range 16 i a ltac:(lia))) as (u & Eu & _). rewrite Eu. discriminate. }
  rewrite nat16 in A. rewrite E. cbn [bind]. eexists. split; [reflexivity|].
  assert (Q : forall i, 0 <= i < nb e / 16 -> 0 <= b i < 2 ^ 32 /\ half_as_single (lane 16 i a) (b i)).
  { intros i Hi. specialize (A i Hi). cbv beta iota in A. destruct (u16_to_f32_exact_l (lane 16 i a) (lane_range 16 i a ltac:(lia))) as (u & Eu & Ru & Du).
    rewrite Eu in A. injection A as <-. split; [exact Ru|]. split; assumption. }
  destruct (regs16_ok e b) as [R P]. { intros i Hi. apply Q. exact Hi. }
  split; [exact R|]. intros i Hi. rewrite P by exact Hi. apply Q. exact Hi.
Qed.
Lemma x_reinterpret_from16_ok e v : in_reg16 e v ->
  in_reg (nb e) (x_reinterpret_from16 e v) /\
  forall i, 0 <= i < nb e / 16 -> lane 16 i (x_reinterpret_from16 e v) = f32_to_u16 (pattern16 e v i).
Proof.
  intros Hv. unfold x_reinterpret_from16. split; [apply in_reg_build; apply okw16|]. intros i Hi.
  rewrite lane_buildn by (apply okw16 || exact Hi). apply stored16_val; assumption.
Qed.

(** ** reinterpretl *)
Lemma reg_bits n w l p : okw n w -> reg_logical n w l p -> forall k, 0 <= k < n -> Z.testbit l k = p (k / w).
Proof.
  intros (Hw & Hn & En) [R L] k Hk. assert (0 <= k / w < n / w) as Hi by (split; [apply Z.div_pos; lia|apply Z.div_lt_upper_bound; nia]).
  specialize (L _ Hi). pose proof (Z.mod_pos_bound k w ltac:(lia)) as Hm. pose proof (Z.div_mod k w ltac:(lia)) as D.
  replace (Z.testbit l k) with (Z.testbit (lane w (k / w) l) (k mod w)).
  - rewrite L. destruct (p (k / w)); [|apply Z.bits_0]. rewrite testbit_ones by lia. lia.
  - rewrite testbit_lane by lia. replace (k mod w <? w) with true by lia. cbn [andb]. f_equal. lia.
Qed.
Lemma bits_reg n w l p : okw n w -> in_reg n l -> (forall k, 0 <= k < n -> Z.testbit l k = p (k / w)) -> reg_logical n w l p.
Proof.
  intros (Hw & Hn & En) R B. split; [exact R|]. intros i Hi. apply Z.bits_inj'. intros k Hk. rewrite testbit_lane by lia.
  destruct (Z.ltb_spec k w) as [C|C]; cbn [andb].
  - rewrite B by nia. replace ((w * i + k) / w) with i by (rewrite Z.mul_comm, Z.div_add_l, Z.div_small; lia).
    destruct (p i); [|symmetry; apply Z.bits_0]. rewrite testbit_ones by lia. lia.
  - destruct (p i); [|symmetry; apply Z.bits_0]. rewrite testbit_ones by lia. lia.
Qed.
Lemma unpack_log h l p : (h = 0 \/ h = 1) -> reg_logical 128 16 l p -> reg_logical 128 32 (mm_unpack 16 h l l) (fun i => p (4 * h + i)).
Proof.
  intros Hh L. assert (O16 : okw 128 16) by okw. assert (O32 : okw 128 32) by okw.
  apply bits_reg; [exact O32|apply in_reg_build; exact O16|]. intros k Hk. unfold mm_unpack.
  rewrite testbit_build by (change (Z.of_nat (nlanes 128 16)) with 8; lia). cbv beta zeta. change (128 / 16 / 2) with 4.
  pose proof (Z.div_pos k 16 ltac:(lia) ltac:(lia)). pose proof (Z.mod_pos_bound k 16 ltac:(lia)).
  assert (k / 16 / 2 = k / 32) as D2 by (rewrite Z.div_div by lia; reflexivity).
  assert (0 <= k / 32 < 4) by (split; [apply Z.div_pos; lia|apply Z.div_lt_upper_bound; lia]).
  replace (if k / 16 mod 2 =? 0 then lane 16 (h * 4 + k / 16 / 2) l else lane 16 (h * 4 + k / 16 / 2) l) with (lane 16 (h * 4 + k / 16 / 2) l) by (destruct (k / 16 mod 2 =? 0); reflexivity).
  rewrite D2, testbit_lane by lia. replace (k mod 16 <? 16) with true by lia. cbn [andb].
  rewrite (reg_bits 128 16 l p O16 L) by lia. f_equal.
  rewrite (Z.mul_comm 16), Z.div_add_l, (Z.div_small (k mod 16) 16) by lia. lia.
Qed.
Lemma setr_log m w x y p q : okw m w -> reg_logical m w x p -> reg_logical m w y q ->
  reg_logical (2 * m) w (mm_setr (2 * m) x y) (fun i => if i <? m / w then p i else q (i - m / w)).
Proof.
  intros O [Rx Lx] [Ry Ly]. destruct (okw_double m w O) as [O2 D2]. split; [apply in_reg_setr; [destruct O as (?&?&?); lia|exact Rx|exact Ry]|].
  intros i Hi. rewrite lane_setr by (assumption || lia). destruct (Z.ltb_spec i (m / w)); [apply Lx; lia|apply Ly; lia].
Qed.
Lemma reg_log_ext n w l p q : reg_logical n w l p -> (forall i, 0 <= i < n / w -> p i = q i) -> reg_logical n w l q.
Proof. intros [R L] E. split; [exact R|]. intros i Hi. rewrite L, E by exact Hi. reflexivity. Qed.
Lemma cvtepi_log l p : reg_logical 128 16 l p -> reg_logical 256 32 (mm_cvtepi16_epi32 8 l) p.
Proof.
  intros [R L]. assert (O : okw 256 32) by okw. split; [exact (in_reg_build 256 32 _ O)|]. intros i Hi.
  unfold mm_cvtepi16_epi32. change 8%nat with (nlanes 256 32). rewrite lane_buildn by assumption. rewrite L by (change (128 / 16) with 8; change (256 / 32) with 8 in Hi; exact Hi).
  destruct (p i); reflexivity.
Qed.
Lemma in_u16ty : In u16 int_types. Proof. cbn; tauto. Qed.
Lemma in_u32ty : In u32 int_types. Proof. cbn; tauto. Qed.

Lemma x_reinterpretl_to16_ok e l p : logical e u16 l p -> logical16 e (x_reinterpretl_to16 e l) p.
Proof.
  intros L. destruct (is512 e) eqn:E5.
  - apply (logical_mask e u16 _ _ E5) in L. rewrite (n512 e E5) in L. change (512 / bits u16) with 32 in L. destruct L as [R T].
    replace (x_reinterpretl_to16 e l) with (Z.land l 0xFFFF, Z.land (Z.shiftr l 16) 0xFFFF) by (destruct e; try discriminate E5; reflexivity).
    apply cut_mask; assumption.
  - apply (logical_reg e u16 _ _ E5) in L. change (bits u16) with 16 in L.
    unfold logical16. rewrite !(logical_reg e u32 _ _ E5). change (bits u32) with 32.
    assert (O : okw 128 16) by okw. assert (O32 : okw 128 32) by okw.
    assert (S : forall l p, reg_logical 128 16 l p ->
      reg_logical 128 32 (fst (x_reinterpretl_to16_sse l)) p /\ reg_logical 128 32 (snd (x_reinterpretl_to16_sse l)) (fun i => p (i + 4))).
    { intros l' p' L'. unfold x_reinterpretl_to16_sse. cbn [fst snd]. split; (eapply reg_log_ext; [apply unpack_log; [auto|exact L']|]); intros i Hi; cbv beta; f_equal; lia. }
    destruct e; try discriminate E5; cbn [x_reinterpretl_to16 nb] in *; change (128 / 32) with 4; change (256 / 32) with 8.
    + apply S. exact L.
    + apply S. exact L.
    + pose proof (reg_logical_lo 16 l p O L) as L0. pose proof (reg_logical_hi 16 l p O L) as L1. cbn [fst snd].
      destruct (S _ _ L0) as [A0 A1]. destruct (S _ _ L1) as [B0 B1]. change (128 / 16) with 8 in *.
      pose proof (setr_log 128 32 _ _ _ _ O32 A0 A1) as C0. pose proof (setr_log 128 32 _ _ _ _ O32 B0 B1) as C1.
      change (2 * 128) with 256 in *. change (128 / 32) with 4 in *.
      split; [refine (reg_log_ext _ _ _ _ _ C0 _)|refine (reg_log_ext _ _ _ _ _ C1 _)]; intros i Hi; cbv beta; destruct (i <? 4); f_equal; lia.
    + pose proof (reg_logical_lo 16 l p O L) as L0. pose proof (reg_logical_hi 16 l p O L) as L1. cbn [fst snd]. change (128 / 16) with 8 in *.
      split; [exact (cvtepi_log _ _ L0)|]. eapply reg_log_ext; [exact (cvtepi_log _ _ L1)|]. intros i Hi. cbv beta. f_equal. lia.
Qed.
Lemma x_reinterpretl_from16_ok e l p : logical16 e l p -> logical e u16 (x_reinterpretl_from16 e l) p.
Proof.
  intros L. unfold x_reinterpretl_from16. destruct (is512 e) eqn:E5.
  - destruct L as [L0 L1]. apply (logical_mask e u32 _ _ E5) in L0. apply (logical_mask e u32 _ _ E5) in L1. apply logical_mask; [exact E5|].
    rewrite (n512 e E5) in *. change (512 / bits u32) with 16 in *. change (512 / 32) with 16 in *. change (512 / bits u16) with 32.
    destruct L0 as [R0 T0]. destruct L1 as [R1 T1]. rewrite Z.shiftl_mul_pow2 by lia. split.
    + rewrite Z.lor_comm, lor_disjoint by lia. lia.
    + intros i Hi. rewrite tb_lor_shift by lia. destruct (Z.ltb_spec i 16); [apply T0; lia|]. rewrite T1 by lia. f_equal. lia.
  - apply (logical_reg e u16 _ _ E5). change (bits u16) with 16. split; [apply in_reg_build; apply okw16|].
    intros i Hi. rewrite lane_buildn by (apply okw16 || exact Hi). rewrite buf16_eq.
    assert (X : pattern16 e l i = if p i then 2 ^ 32 - 1 else 0).
    { destruct L as [L0 L1]. apply (logical_reg e u32 _ _ E5) in L0. apply (logical_reg e u32 _ _ E5) in L1. destruct L0 as [_ L0]. destruct L1 as [_ L1].
      change (bits u32) with 32 in *. clear E5. revert i Hi. apply half_cases; intros i Hi; [rewrite pattern16_lo by exact Hi; apply L0; exact Hi|rewrite pattern16_hi by exact Hi; apply L1; exact Hi]. }
    rewrite X. destruct (p i); vm_compute; reflexivity.
Qed.

(** ** iota and the loop tail *)
Lemma x_iota16_ok e : in_reg16 e (x_iota16 e) /\
  forall i, 0 <= i < nb e / 16 -> pattern16 e (x_iota16 e) i = float_of_int binary32 i.
Proof.
  apply regs16_ok. intros i Hi. assert (nb e / 16 <= 32) by (destruct e; cbn; lia).
  exact (proj2 (float_of_int_ok MF32 i eq_refl ltac:(lia))).
Qed.
Lemma tail16_ok e i n : in_ty i32 (n - i) ->
  exists l, x_mask_for_loop_tail16 e i n = Some l /\ logical16 e l (fun k => i + k <? n).
Proof.
  intros R. destruct (le16_half e) as (H2 & H3 & H4). pose proof (halves e) as HH. unfold x_mask_for_loop_tail16.
  assert (P0 : 0 < nb e / 32 <= 16) by (destruct e; cbn; lia).
  assert (Lx : forall x, logical16 e (x_set1l16 e x) (fun _ => negb (x =? 0))) by (intros x; split; exact (x_set1lf_ok e MF32 x eq_refl)).
  assert (EXT : forall l p q, logical16 e l p -> (forall k, 0 <= k < nb e / 16 -> p k = q k) -> logical16 e l q).
  { intros l p q [A B] C. split; (eapply logical_ext; [eassumption|]); intros k Hk; change (bits u32) with 32 in Hk; cbv beta; apply C; lia. }
  destruct (Z.leb_spec n i).
  - eexists. split; [reflexivity|]. eapply EXT; [apply Lx|]. intros k Hk. cbv beta. change (negb (0 =? 0)) with false. lia.
  - unfold carith. cbn [is_signed i32]. rewrite (proj2 (andb_true_iff _ _)) by (unfold in_ty in R; lia). cbn [bind].
    rewrite H4. destruct (Z.ltb_spec (n - i) (nb e / 16)).
    + eexists. split; [reflexivity|]. cbv zeta. destruct (x_iota16_ok e) as [Ri Li].
      destruct (float_of_int_ok MF32 (n - i) eq_refl ltac:(lia)) as [_ Rd]. destruct (x_set1f_ok e MF32 _ eq_refl Rd) as [Rs Ls].
      set (s := x_set1f e MF32 (float_of_int (mfmt MF32) (n - i))) in *.
      assert (Is : in_reg16 e (s, s)) by (split; exact Rs).
      pose proof (cmp16 e (x_ltf e MF32) (fun x y => is (compare x y) Less) _ _ (fun a b => x_ltf_ok e MF32 a b eq_refl) Ri Is) as L.
      eapply EXT; [exact L|]. intros k Hk. cbv beta. unfold value16. rewrite Li by exact Hk.
      assert (Ps : pattern16 e (s, s) k = float_of_int (mfmt MF32) (n - i)).
      { clear Li L EXT. revert k Hk. apply half_cases; intros k Hk; [rewrite pattern16_lo by exact Hk|rewrite pattern16_hi by exact Hk]; apply Ls; exact Hk. }
      rewrite Ps. pose proof (compare_ints MF32 k (n - i) eq_refl ltac:(lia) ltac:(lia)) as CI. cbn [mfmt] in CI |- *. rewrite CI. lia.
    + eexists. split; [reflexivity|]. eapply EXT; [apply Lx|]. intros k Hk. cbv beta. change (negb (1 =? 0)) with true. lia.
Qed.
