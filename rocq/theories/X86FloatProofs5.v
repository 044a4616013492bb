(** Logicals of f16 vectors: in memory and reinterpreted. *)
From Coq Require Import ZArith List Bool Lia ZifyBool.
From Verif Require Import CInt BitLemmas FloatSpec FloatProofs Fp16Spec Fp16 Fp16Proofs ScalarOps ScalarSpec ScalarProofs RoundEven RoundEvenProofs
  X86Deg234 X86Arith X86ArithSpec X86LaneLemmas X86ArithProofs X86EmulProofs X86LogicProofs X86SelectProofs X86RedProofs
  X86Mem X86MemSpec X86MemProofs X86MemProofs2 X86Cvt X86CvtSpec X86CvtProofs X86CvtProofs2 X86Float X86FloatSpec
  X86FloatProofs X86FloatProofs2 X86FloatProofs3 X86FloatProofs4 PropX86Mem.
Open Scope Z_scope.

Lemma n512 e : is512 e = true -> nb e = 512.
Proof. destruct e; intros E; try discriminate E; reflexivity. Qed.

(** a 32-bit mask cut into two *)
Lemma cut_mask e l p : is512 e = true -> 0 <= l < 2 ^ 32 -> (forall i, 0 <= i < 32 -> Z.testbit l i = p i) ->
  logical16 e (Z.land l 0xFFFF, Z.land (Z.shiftr l 16) 0xFFFF) p.
Proof.
  intros E R T. pose proof (n512 e E) as N. change 0xFFFF with (Z.ones 16).
  assert (B : forall x, 0 <= Z.land x (Z.ones 16) < 2 ^ 16) by (intros; rewrite Z.land_ones by lia; apply Z.mod_pos_bound; lia).
  split; cbn [fst snd]; apply logical_mask; try exact E; rewrite N; change (512 / bits u32) with 16; (split; [apply B|]); intros i Hi;
    rewrite Z.land_spec, Z.ones_spec_low, andb_true_r by lia.
  - apply T. lia.
  - rewrite Z.shiftr_spec by lia. change (512 / 32) with 16. apply T. lia.
Qed.

Lemma nonzero_widen v : is (compare (widen v) (FFin false 0)) Equal = is (compare v (FFin false 0)) Equal.
Proof.
  destruct v as [|s|s m]; [reflexivity|reflexivity|]. cbn [widen compare]. unfold half_unit_in_single_units, sval.
  pose proof (pow2_pos 125 ltac:(lia)) as P. set (k := 2 ^ 125) in *. clearbody k.
  destruct s; repeat match goal with |- context [?a ?= ?b] => destruct (Z.compare_spec a b) end; try reflexivity; exfalso; nia.
Qed.
Lemma set16_0 e : x_set16 e (f32_to_u16 (float_of_int binary32 0)) = Some (x_set1f e MF32 0, x_set1f e MF32 0).
Proof. unfold x_set16. replace (u16_to_f32 (f32_to_u16 (float_of_int binary32 0))) with (Some 0) by (vm_compute; reflexivity). reflexivity. Qed.
Lemma set16_1 e : x_set16 e (f32_to_u16 (float_of_int binary32 1)) = Some (x_set1f e MF32 0x3F800000, x_set1f e MF32 0x3F800000).
Proof. unfold x_set16. replace (u16_to_f32 (f32_to_u16 (float_of_int binary32 1))) with (Some 0x3F800000) by (vm_compute; reflexivity). reflexivity. Qed.

Lemma x_set16_ok e h : in_u 16 h ->
  exists r, x_set16 e h = Some r /\ vector16 e r (fun _ x => half_as_single h x).
Proof.
  intros Hh. destruct (u16_to_f32_exact_l h Hh) as (u & Eu & Hu & D). unfold x_set16. rewrite Eu. cbn [bind]. eexists. split; [reflexivity|].
  assert (V : vectorf e MF32 (x_set1f e MF32 u) (fun _ x => half_as_single h x)).
  { destruct (x_set1f_ok e MF32 u eq_refl Hu) as [R L]. split; [exact R|]. intros i Hi. rewrite pattern_lane, L by exact Hi. split; assumption. }
  apply vec16_of; exact V.
Qed.

Lemma notl16_ok e l p : logical16 e l p -> logical16 e (on_halves1 (x_notlf e MF32) l) (fun i => negb (p i)).
Proof.
  intros [L0 L1]. assert (H : In u32 int_types) by (cbn; tauto).
  split; cbn [on_halves1 fst snd].
  - apply (x_notl_ok e u32 _ _ H L0).
  - apply (x_notl_ok e u32 _ _ H L1).
Qed.

Lemma choose_halves (k : Z) (P : Z -> Z -> Prop) : 0 <= k -> (forall i, 0 <= i < k -> exists h, P i h) ->
  exists x, forall i, 0 <= i < k -> P i (x i).
Proof.
  intros Hk. pattern k. apply natlike_ind; [|intros n Hn IH|exact Hk].
  - intros _. exists (fun _ => 0). intros; lia.
  - intros A. destruct IH as [x Hx]; [intros; apply A; lia|]. destruct (A n ltac:(lia)) as [h Hh].
    exists (fun i => if i =? n then h else x i). intros i Hi. destruct (Z.eqb_spec i n) as [->|]; [exact Hh|apply Hx; lia].
Qed.

Lemma x_loadl16_ok e m a : (forall i, 0 <= i < nb e / 16 -> mapped 16 m (a + i * 2)) ->
  exists l h, x_loadl16 e m a = Some l /\
    (forall i, 0 <= i < nb e / 16 -> holds 16 m (a + i * 2) (h i)) /\
    logical16 e l (fun i => half_true e (h i)).
Proof.
  intros Mp. unfold x_loadl16, half_true. destruct (is512 e) eqn:E5.
  - assert (H : In u16 int_types) by (cbn; tauto).
    destruct (x_load_ok e (MI u16) m a) as (v & E & R & A).
    { exact H. } { intros i Hi. exact (Mp i Hi). }
    change (mw (MI u16)) with 16 in *. rewrite E. cbn [bind]. eexists. exists (fun i => lane 16 i v). split; [reflexivity|]. split; [exact A|].
    pose proof (x_loadl_ok e u16 v H R) as L. apply (logical_mask e u16 _ _ E5) in L. rewrite (n512 e E5) in L. change (512 / bits u16) with 32 in L.
    destruct L as [LR LT]. apply cut_mask; [exact E5|exact LR|]. intros i Hi. rewrite LT by exact Hi. rewrite elt_zero_lane by exact H. reflexivity.
  - destruct (C58_load_f16 e m a Mp) as (v & E & R & A). rewrite E. cbn [bind]. rewrite set16_0. cbn [bind].
    destruct (choose_halves (nb e / 16) _ ltac:(destruct e; cbn; lia) A) as [h Hh].
    eexists. exists h. split; [reflexivity|]. split; [intros i Hi; apply Hh; exact Hi|].
    destruct (x_set1f_ok e MF32 0 eq_refl ltac:(cbn; lia)) as [Rz Lz].
    assert (RZ : in_reg16 e (x_set1f e MF32 0, x_set1f e MF32 0)) by (split; exact Rz).
    pose proof (notl16_ok _ _ _ (cmp16 e (x_eqf e MF32) (fun x y => is (compare x y) Equal) _ _ (fun a b => x_eqf_ok e MF32 a b eq_refl) R RZ)) as L.
    assert (X : forall i, 0 <= i < nb e / 16 -> negb (is (compare (value16 e v i) (value16 e (x_set1f e MF32 0, x_set1f e MF32 0) i)) Equal) = nonzero binary16 (h i)).
    { intros i Hi. unfold nonzero. f_equal. destruct (Hh i Hi) as [_ [_ D]]. unfold value16 at 1. rewrite D. rewrite <- nonzero_widen. f_equal. f_equal.
      unfold value16. rewrite <- (decode_0 MF32). f_equal. clear D. revert i Hi. apply half_cases; intros i Hi.
      + rewrite pattern16_lo by exact Hi. apply Lz. exact Hi.
      + rewrite pattern16_hi by exact Hi. apply Lz. exact Hi. }
    pose proof (halves e) as HH. destruct L as [L0 L1]. split; (eapply logical_ext; [eassumption|]); intros i Hi; change (bits u32) with 32 in Hi; cbv beta; apply X; lia.
Qed.

Lemma if_else16_ok e l p a b : logical16 e l p -> in_reg16 e a -> in_reg16 e b ->
  vector16 e (x_if_else16 e l a b) (fun i x => x = if p i then pattern16 e a i else pattern16 e b i).
Proof.
  intros [L0 L1] [A0 A1] [B0 B1]. unfold x_if_else16.
  destruct (x_if_else1f_ok e MF32 _ _ _ _ eq_refl A0 B0 L0) as [R0 S0]. destruct (x_if_else1f_ok e MF32 _ _ _ _ eq_refl A1 B1 L1) as [R1 S1].
  split; [split; assumption|]. apply half_cases; intros i Hi.
  - rewrite !pattern16_lo by exact Hi. apply S0. exact Hi.
  - rewrite !pattern16_hi by exact Hi. apply S1. exact Hi.
Qed.

Lemma x_storel16_ok e m a l p : logical16 e l p -> (forall i, 0 <= i < nb e / 16 -> mapped 16 m (a + i * 2)) ->
  exists m', x_storel16 e m a l = Some m' /\
    (forall i, 0 <= i < nb e / 16 -> holds 16 m' (a + i * 2) (if p i then 0x3C00 else 0)) /\
    (forall k, k < a \/ a + nb e / 16 * 2 <= k -> m' k = m k).
Proof.
  intros L Mp. unfold x_storel16. destruct (is512 e) eqn:E5.
  - pose proof (n512 e E5) as N. assert (O8 : ok8 16) by (split; reflexivity).
    destruct L as [L0 L1]. apply (logical_mask e u32 _ _ E5) in L0. apply (logical_mask e u32 _ _ E5) in L1.
    rewrite N in *. change (512 / bits u32) with 16 in *. change (512 / 32) with 16 in *. change (512 / 16) with 32 in *.
    destruct L0 as [_ T0]. destruct L1 as [_ T1].
    set (v0 := fun i => if Z.land (Z.shiftr (fst l) i) 1 =? 0 then 0 else 0x3C00).
    set (v1 := fun i => if Z.land (Z.shiftr (snd l) i) 1 =? 0 then 0 else 0x3C00).
    destruct (store_loop_stored 16 (fun _ => true) (fun _ => true) a v0 16%nat m O8) as (m1 & E1 & S1).
    { reflexivity. } { intros i Hi _. apply Mp. lia. }
    destruct (store_loop_stored 16 (fun _ => true) (fun _ => true) (a + 16 * 2) v1 16%nat m1 O8) as (m2 & E2 & S2).
    { reflexivity. } { intros i Hi _. intros k Hk. destruct S1 as (_ & _ & K). apply K. replace (a + 16 * 2 + i * (16 / 8)) with (a + (i + 16) * 2) by (change (16 / 8) with 2; ring). apply Mp; [lia|exact Hk]. }
    change (16 / 8) with 2 in *. rewrite E1. cbn [bind].
    assert (LE : store_loop 16 (fun _ => true) (fun i => Some (a + (i + 16) * 2)) v1 16 m1 = store_loop 16 (fun _ => true) (fun i => Some (a + 16 * 2 + i * 2)) v1 16 m1).
    { cbn [store_loop]. repeat (f_equal; [|]); repeat match goal with |- context [a + (?i + 16) * 2] => replace (a + (i + 16) * 2) with (a + 16 * 2 + i * 2) by ring end; reflexivity. }
    exists m2. split; [rewrite LE; exact E2|].
    assert (S : stored 16 (16 + 16) (fun _ => true) a (fun i => if p i then 0x3C00 else 0) m m2).
    { apply (stored_app 16 16 16 (fun _ => true) a v0 v1 _ m m1 m2 O8); try lia; try assumption.
      - intros i Hi. unfold v0. rewrite land1_shiftr, T0 by lia. destruct (p i); reflexivity.
      - intros i Hi. unfold v1. rewrite land1_shiftr, T1 by lia. cbv beta. rewrite (Z.add_comm i). destruct (p (16 + i)); reflexivity. }
    destruct S as (S & U & _). split.
    + intros i Hi. specialize (S i Hi eq_refl). cbv beta in S. rewrite Z.mod_small in S by (destruct (p i); lia). exact S.
    + intros k Hk. apply U. intros i Hi _. unfold outside. change (16 / 8) with 2. lia.
  - rewrite set16_1, set16_0. cbn [bind].
    destruct (x_set1f_ok e MF32 0x3F800000 eq_refl ltac:(cbn; lia)) as [R1 L1]. destruct (x_set1f_ok e MF32 0 eq_refl ltac:(cbn; lia)) as [R0 L0].
    set (o := (x_set1f e MF32 0x3F800000, x_set1f e MF32 0x3F800000)). set (z := (x_set1f e MF32 0, x_set1f e MF32 0)).
    assert (Io : in_reg16 e o) by (split; assumption). assert (Iz : in_reg16 e z) by (split; assumption).
    destruct (if_else16_ok e l p o z L Io Iz) as [Rv Lv]. destruct (C58_store_f16 e m a _ Rv Mp) as (m' & E & A & U).
    exists m'. split; [exact E|]. split; [|exact U]. intros i Hi.
    replace (if p i then 15360 else 0) with (f32_to_u16 (pattern16 e (x_if_else16 e l o z) i)); [apply A; exact Hi|].
    rewrite Lv by exact Hi. clear Lv A.
    assert (Po : pattern16 e o i = 0x3F800000 /\ pattern16 e z i = 0).
    { revert i Hi. apply half_cases; intros i Hi; [rewrite !pattern16_lo by exact Hi|rewrite !pattern16_hi by exact Hi]; cbn [o z fst snd]; (split; [apply L1|apply L0]; exact Hi). }
    destruct Po as [-> ->]. destruct (p i); vm_compute; reflexivity.
Qed.
