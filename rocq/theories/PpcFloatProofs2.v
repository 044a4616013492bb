(** Proofs about the POWER operators on floating-point vectors: memory, f16, bitwise operators, min, max, rounding, addv. *)
From Coq Require Import ZArith Lia List Bool ZifyBool Permutation.
From Verif Require Import PpcMemProofs PpcMemProofs2 PpcMemProofs3 PpcMemProofs4.
From Verif Require Import CInt BitLemmas FloatSpec FloatProofs Fp16Spec Fp16 Fp16Proofs ScalarOps ScalarSpec ScalarProofs RoundEven RoundEvenProofs
  X86Deg234 X86Arith X86ArithSpec X86LaneLemmas X86RedProofs X86SelectProofs X86Mem X86MemSpec X86MemProofs X86Cvt X86CvtSpec X86CvtProofs2 X86CvtProofs4 X86Float X86FloatSpec
  X86FloatProofs X86FloatProofs2 X86FloatProofs3 X86FloatProofs5 X86FloatProofs7 Arm ArmSpec ArmProofs ArmProofs4 ArmPermSpec ArmPermProofs ArmMem ArmMemSpec PropArmMem
  ArmFloat ArmFloatSpec ArmFloatProofs ArmFloatProofs2 ArmFloatProofs3 FloatArith FloatArithSpec ScalarFloat X86FloatArith
  Ppc PpcSpec PpcProofs PpcProofs2 PpcProofs3 PpcMem PpcMemSpec PpcFloat PpcFloatSpec PpcFloatProofs.
Import ListNotations.
Open Scope Z_scope.

(** ** loadl and storel *)
Lemma fm_pelems t : pelems (fm t) = 128 / fw t. Proof. unfold pelems. rewrite fm_mw. reflexivity. Qed.
Lemma p_loadlf_ok al e t m a : vector_address (fm t) a -> (forall i, 0 <= i < 128 / fw t -> mapped (fw t) m (a + i * (fw t / 8))) ->
  exists l x, p_loadlf al e t m a = Some l /\ (forall i, 0 <= i < 128 / fw t -> holds (fw t) m (a + i * (fw t / 8)) (x i)) /\
    plogical (fu t) l (fun i => nonzero (ff t) (x i)).
Proof.
  intros V M. destruct (p_load_ok al e (fm t) m a (fm_type t) V) as (r & E & R & A); [rewrite fm_pelems, fm_mw; exact M|]. rewrite fm_pelems, fm_mw in A.
  unfold p_loadlf. rewrite E. cbn [bind]. eexists. exists (fpat t r). split; [reflexivity|]. split.
  - intros i Hi. rewrite <- fm_pattern. apply A, Hi.
  - eapply plogical_ext; [apply p_notl_ok; [apply fu_in|apply p_eqf_ok]|]. intros i Hi. rewrite fu_bits in Hi. cbv beta. unfold nonzero, frel, fvalue.
    destruct (p_set1f_ok e t 0 ltac:(pose proof (pow2_pos (fw t)); pose proof (fw_pos t); lia)) as [_ S]. rewrite S by exact Hi. rewrite dec0. reflexivity.
Qed.
Lemma p_storelf_ok al e t m a l p : vector_address (fm t) a -> plogical (fu t) l p -> (forall i, 0 <= i < 128 / fw t -> mapped (fw t) m (a + i * (fw t / 8))) ->
  exists m' x, p_storelf al e t m a l = Some m' /\
    (forall i, 0 <= i < 128 / fw t -> holds (fw t) m' (a + i * (fw t / 8)) (x i) /\ decode (ff t) (x i) = FFin false (if p i then one (ff t) else 0)) /\
    (forall k, k < a \/ a + 16 <= k -> m' k = m k).
Proof.
  intros V L M. destruct (small_float t 1 ltac:(lia)) as [D1 R1]. destruct (p_set1f_ok e t _ R1) as [S1 V1].
  destruct (p_set1f_ok e t 0) as [S0 V0]; [pose proof (pow2_pos (fw t)); pose proof (fw_pos t); lia|].
  destruct (p_if_else1f_ok e t l p _ _ S1 S0 L) as [R S].
  destruct (p_store_ok al e (fm t) m a _ (fm_type t) V R) as (m' & E & A & U); [rewrite fm_pelems, fm_mw; exact M|]. rewrite fm_pelems, fm_mw in A.
  exists m'. eexists. split; [exact E|]. split; [|exact U]. intros i Hi. split; [apply A, Hi|]. rewrite fm_pattern, S by exact Hi.
  rewrite V1, V0 by exact Hi. destruct (p i); [rewrite D1; f_equal; lia|]. apply dec0.
Qed.

(** ** f16: two registers of singles *)
Lemma pv16 v1 v2 (P : Z -> Z -> Prop) : pfvector F32 v1 P -> pfvector F32 v2 (fun i => P (i + 4)) -> fvector16 (v1, v2) P.
Proof. exact (ArmFloatProofs3.vec16_of Neon128 v1 v2 P eq_refl). Qed.
Lemma pl16 l1 l2 (p p1 p2 : Z -> bool) : plogical u32 l1 p1 -> plogical u32 l2 p2 -> (forall i, 0 <= i < 4 -> p1 i = p i) -> (forall i, 0 <= i < 4 -> p2 i = p (i + 4)) -> plogical16 (l1, l2) p.
Proof. exact (log16_of Neon128 l1 l2 p p1 p2 eq_refl). Qed.
Lemma pl16_all l (p q : Z -> bool) : plogical16 l p -> (forall i, 0 <= i < 8 -> p i = q i) -> plogical16 l q.
Proof. intros [A B] E. split; (eapply plogical_ext; [eassumption|]); intros i Hi; change (128 / bits u32) with 4 in Hi; cbv beta; apply E; lia. Qed.
Lemma lop16_ok f (g : bool -> bool -> bool) e a b p q : (forall a b p q, plogical u32 a p -> plogical u32 b q -> plogical u32 (f e F32 a b) (fun i => g (p i) (q i))) ->
  plogical16 a p -> plogical16 b q -> plogical16 (p_lop16 f e a b) (fun i => g (p i) (q i)).
Proof. intros F [A1 A2] [B1 B2]. split; [exact (F _ _ _ _ A1 B1)|exact (F _ _ _ _ A2 B2)]. Qed.
Lemma p_notl16_ok e l p : plogical16 l p -> plogical16 (p_notl16 e l) (fun i => negb (p i)).
Proof. intros [A B]. split; (apply (p_notl_ok e u32); [exact (fu_in F32)|assumption]). Qed.
Lemma p_if_else16_ok e l p a b : in_regs16 a -> in_regs16 b -> plogical16 l p -> fvector16 (p_if_else16 e l a b) (fun i x => x = if p i then apattern16 a i else apattern16 b i).
Proof.
  intros [A1 A2] [B1 B2] [LA LB]. destruct (p_if_else1f_ok e F32 _ _ _ _ A1 B1 LA) as [R1 S1]. destruct (p_if_else1f_ok e F32 _ _ _ _ A2 B2 LB) as [R2 S2].
  apply pv16; [split; [exact R1|]|split; [exact R2|]]; intros i Hi; change (128 / fw F32) with 4 in *; [rewrite S1 by exact Hi|rewrite S2 by exact Hi];
    [rewrite !apat_lo by lia|rewrite !apat_hi by lia]; reflexivity.
Qed.
Lemma p_all16_ok e l p : plogical16 l p -> p_all16 e l = true <-> (forall i, 0 <= i < 8 -> p i = true).
Proof.
  intros [A B]. unfold p_all16, p_allf. rewrite andb_true_iff. change (fu F32) with u32. rewrite (p_all_ok e u32 _ _ (fu_in F32) A), (p_all_ok e u32 _ _ (fu_in F32) B). change (128 / bits u32) with 4. split.
  - intros [H1 H2] i Hi. destruct (Z.ltb_spec i 4); [apply H1; lia|]. replace i with (i - 4 + 4) by lia. apply H2. lia.
  - intros H. split; intros i Hi; apply H; lia.
Qed.
Lemma p_any16_ok e l p : plogical16 l p -> p_any16 e l = true <-> (exists i, 0 <= i < 8 /\ p i = true).
Proof.
  intros [A B]. unfold p_any16, p_anyf. rewrite orb_true_iff. change (fu F32) with u32. rewrite (p_any_ok e u32 _ _ (fu_in F32) A), (p_any_ok e u32 _ _ (fu_in F32) B). change (128 / bits u32) with 4. split.
  - intros [(i & Hi & P)|(i & Hi & P)]; [exists i|exists (i + 4)]; split; (lia || exact P).
  - intros (i & Hi & P). destruct (Z.ltb_spec i 4); [left; exists i|right; exists (i - 4); replace (i - 4 + 4) with i by lia]; split; (lia || exact P).
Qed.
Lemma p_nbtrue16_ok e l p : plogical16 l p -> p_nbtrue16 e l = Some (count_true 8 p).
Proof.
  intros [A B]. unfold p_nbtrue16, p_nbtruef. change (fu F32) with u32. rewrite (p_nbtrue_ok e u32 _ _ (fu_in F32) A), (p_nbtrue_ok e u32 _ _ (fu_in F32) B). change (128 / bits u32) with 4.
  cbn [bind]. change 8 with (4 + 4). rewrite count_true_app by lia. reflexivity.
Qed.
Lemma p_to_mask16_ok l p : plogical16 l p -> fvector16 (p_to_mask16 l) (fun i x => x = if p i then 2 ^ 32 - 1 else 0).
Proof. intros [A B]. apply pv16; [exact (p_to_maskf_ok Vsx F32 _ _ A)|exact (p_to_maskf_ok Vsx F32 _ _ B)]. Qed.
Lemma p_to_logical16_ok e v : plogical16 (p_to_logical16 e v) (fun i => negb (apattern16 v i =? 0)).
Proof. eapply pl16; [apply (p_to_logicalf_ok e F32)|apply (p_to_logicalf_ok e F32)|..]; intros i Hi; cbv beta; [rewrite apat_lo by lia|rewrite apat_hi by lia]; reflexivity. Qed.
Lemma splat_pair x : 0 <= x < 2 ^ 32 -> fvector16 (vec_splats 32 x, vec_splats 32 x) (fun _ y => y = x).
Proof. intros X. apply pv16; exact (p_set1f_ok Vsx F32 x X). Qed.
Lemma p_set16_ok h : in_u 16 h -> exists r, p_set16 h = Some r /\ fvector16 r (fun _ x => half_as_single h x).
Proof.
  intros Hh. destruct (u16_to_f32_exact_l h Hh) as (x & Ex & Rx & D). unfold p_set16. rewrite Ex. cbn [bind]. eexists. split; [reflexivity|].
  destruct (splat_pair x Rx) as [R V]. split; [exact R|]. intros i Hi. rewrite V by exact Hi. split; [exact Ex|exact D].
Qed.
Lemma p_set1l16_ok x : plogical16 (p_set1l16 x) (fun _ => negb (x =? 0)).
Proof.
  unfold p_set1l16. replace (if x =? 0 then 0 else -1) with (if negb (x =? 0) then -1 else 0) by (destruct (x =? 0); reflexivity).
  split; exact (splats_logical u32 (negb (x =? 0)) (fu_in F32)).
Qed.
Lemma p_set16_0 : p_set16 (f32_to_u16 0) = Some (vec_splats 32 0, vec_splats 32 0). Proof. reflexivity. Qed.
Lemma p_set16_1 : p_set16 (f32_to_u16 (float_of_int binary32 1)) = Some (vec_splats 32 0x3F800000, vec_splats 32 0x3F800000). Proof. reflexivity. Qed.
Lemma p_loadl16_ok e m a : (forall i, 0 <= i < 8 -> mapped 16 m (a + i * 2)) ->
  exists l h, p_loadl16 e m a = Some l /\ (forall i, 0 <= i < 8 -> holds 16 m (a + i * 2) (h i)) /\ plogical16 l (fun i => nonzero binary16 (h i)).
Proof.
  intros M. destruct (p_load16_ok m a M) as (v & Ev & R & A). unfold p_loadl16. rewrite Ev. cbn [bind]. rewrite p_set16_0. cbn [bind].
  destruct (choose_halves 8 _ ltac:(lia) A) as [h Hh]. eexists. exists h. split; [reflexivity|]. split; [intros i Hi; apply Hh, Hi|].
  destruct (splat_pair 0 ltac:(lia)) as [_ Z0].
  pose proof (p_notl16_ok e _ _ (p_cmp16_ok p_eqf (fun r => is r Equal) e v (vec_splats 32 0, vec_splats 32 0) (fun a b => p_eqf_ok e F32 a b))) as L.
  eapply pl16_all; [exact L|]. intros i Hi. cbv beta. unfold frel16, fvalue16. rewrite Z0 by exact Hi. destruct (Hh i Hi) as [_ [_ D]]. rewrite D. change (decode binary32 0) with (FFin false 0).
  unfold nonzero. rewrite nonzero_widen. reflexivity.
Qed.
Lemma p_storel16_ok e m a l p : plogical16 l p -> (forall i, 0 <= i < 8 -> mapped 16 m (a + i * 2)) ->
  exists m', p_storel16 e m a l = Some m' /\ (forall i, 0 <= i < 8 -> holds 16 m' (a + i * 2) (if p i then 0x3C00 else 0)) /\ (forall k, k < a \/ a + 16 <= k -> m' k = m k).
Proof.
  intros L M. unfold p_storel16. rewrite p_set16_1, p_set16_0. cbn [bind]. destruct (splat_pair 0 ltac:(lia)) as [R0 Z0]. destruct (splat_pair 0x3F800000 ltac:(lia)) as [R1 Z1].
  destruct (p_if_else16_ok e l p _ _ R1 R0 L) as [R S]. destruct (C78_store_f16 m a _ R M) as (m' & Em & A & U). exists m'. split; [exact Em|]. split; [|exact U].
  intros i Hi. specialize (A i Hi). rewrite S, Z0, Z1 in A by exact Hi. destruct (p i); exact A.
Qed.
Lemma p_iota16_ok : fvector16 p_iota16 (fun i x => x = float_of_int binary32 i).
Proof.
  split; [split; vm_compute; split; congruence|]. intros i Hi. assert (C : i = 0 \/ i = 1 \/ i = 2 \/ i = 3 \/ i = 4 \/ i = 5 \/ i = 6 \/ i = 7) by lia.
  destruct C as [->|[->|[->|[->|[->|[->|[->| ->]]]]]]]; vm_compute; reflexivity.
Qed.
Lemma const16_pair : forallb (fun d => match p_set16 (f32_to_u16 (float_of_int binary32 d)) with
  | Some (x, y) => (x =? vec_splats 32 (float_of_int binary32 d)) && (y =? x) | None => false end) (map Z.of_nat (seq 0 8)) = true.
Proof. vm_compute. reflexivity. Qed.
Lemma p_tail16_ok e i k : k <= i \/ in_ty i32 (k - i) -> exists l, p_mask_for_loop_tail16 e i k = Some l /\ plogical16 l (fun j => i + j <? k).
Proof.
  intros B. unfold p_mask_for_loop_tail16. destruct (Z.leb_spec k i) as [Hk|Hk].
  - eexists. split; [reflexivity|]. eapply pl16_all; [apply p_set1l16_ok|]. intros j Hj. cbn beta. destruct (Z.ltb_spec (i + j) k); [lia|reflexivity].
  - assert (I : in_ty i32 (k - i)) by (destruct B; [lia|assumption]). rewrite carith_fits by (assumption || (unfold int_types; cbn; tauto)). cbn [bind].
    destruct (Z.ltb_spec (k - i) 8) as [Hd|Hd].
    + assert (C : exists v, p_set16 (f32_to_u16 (float_of_int binary32 (k - i))) = Some v /\ fvector16 v (fun _ x => x = float_of_int binary32 (k - i))).
      { pose proof const16_pair as C. rewrite forallb_forall in C. specialize (C (k - i)).
        assert (In (k - i) (map Z.of_nat (seq 0 8))) as Hin by (apply in_map_iff; exists (Z.to_nat (k - i)); split; [lia|apply in_seq; lia]). specialize (C Hin).
        destruct (p_set16 _) as [[x y]|]; [|discriminate C]. apply andb_true_iff in C. destruct C as [C1 C2]. apply Z.eqb_eq in C1, C2. subst.
        eexists. split; [reflexivity|]. apply splat_pair. apply (small_float F32). lia. }
      destruct C as (v & Ev & _ & Vv). rewrite Ev. cbn [bind]. eexists. split; [reflexivity|].
      eapply pl16_all; [apply (p_cmp16_ok p_ltf (fun r => is r Less)); intros; apply p_ltf_ok|]. intros j Hj. cbv beta. unfold frel16, fvalue16.
      destruct p_iota16_ok as [_ I2]. rewrite I2, Vv by exact Hj. rewrite (compare_small F32) by lia. destruct (Z.ltb_spec j (k - i)), (Z.ltb_spec (i + j) k); reflexivity || lia.
    + eexists. split; [reflexivity|]. eapply pl16_all; [apply p_set1l16_ok|]. intros j Hj. cbn beta. destruct (Z.ltb_spec (i + j) k); [reflexivity|lia].
Qed.

(** ** Bitwise operators *)
Lemma lane_bits w i a k : 0 < w -> 0 <= i -> 0 <= k < w -> Z.testbit (lane w i a) k = Z.testbit a (k + w * i).
Proof. intros W Hi K. unfold lane. rewrite Z.mod_pow2_bits_low by lia. apply Z.div_pow2_bits; nia. Qed.
Lemma lane_bits_high w i a k : 0 < w -> w <= k -> Z.testbit (lane w i a) k = false.
Proof. intros W K. unfold lane. apply Z.mod_pow2_bits_high. lia. Qed.
Lemma bits_reg r : (forall k, 128 <= k -> Z.testbit r k = false) -> 0 <= r -> in_reg 128 r.
Proof.
  intros H P. split; [exact P|]. destruct (Z.eq_dec r 0) as [->|N]; [lia|]. apply Z.log2_lt_pow2; [lia|]. destruct (Z.ltb_spec (Z.log2 r) 128) as [L|L]; [exact L|].
  specialize (H _ L). rewrite Z.bit_log2 in H by lia. discriminate H.
Qed.
Lemma reg_high r k : in_reg 128 r -> 128 <= k -> Z.testbit r k = false.
Proof. intros [P L] K. apply Z.bits_above_log2; [exact P|]. destruct (Z.eq_dec r 0) as [->|N]; [cbn; lia|]. apply Z.log2_lt_pow2 in L; lia. Qed.
Lemma bitf_ok (s v : Z -> Z -> Z) (g : bool -> bool -> bool) e t a b : (forall x y k, 0 <= k -> Z.testbit (s x y) k = g (Z.testbit x k) (Z.testbit y k)) ->
  (forall k, 0 <= k < 128 -> Z.testbit (v a b) k = g (Z.testbit a k) (Z.testbit b k)) -> in_reg 128 (v a b) ->
  pfvector t (p_bitf s v e t a b) (fun i x => forall k, 0 <= k < fw t -> Z.testbit x k = g (Z.testbit (fpat t a i) k) (Z.testbit (fpat t b i) k)).
Proof.
  intros S V R. pose proof (fw_pos t) as W. unfold p_bitf. destruct (pair64f e t) eqn:P.
  - apply pair_inv in P as [_ ->]. destruct (each64_ok (fun i => s (lane 64 i a) (lane 64 i b))) as [R' L]. split; [exact R'|]. intros i Hi k Hk. rewrite !fpat_lane.
    change (fw F64) with 64 in *. rewrite L by exact Hi. rewrite Z.mod_pow2_bits_low by lia. apply S. lia.
  - split; [exact R|]. intros i Hi k Hk. rewrite !fpat_lane. rewrite !lane_bits by lia. apply V. split; [nia|]. assert (fw t * (128 / fw t) = 128) by (destruct t; reflexivity). nia.
Qed.
Lemma p_bits_ok e t a b : in_reg 128 a -> in_reg 128 b ->
  let each g := fun i x => forall k, 0 <= k < fw t -> Z.testbit x k = g (Z.testbit (fpat t a i) k) (Z.testbit (fpat t b i) k) in
  pfvector t (p_andbf e t a b) (each andb) /\ pfvector t (p_orbf e t a b) (each orb) /\ pfvector t (p_xorbf e t a b) (each xorb) /\
  pfvector t (p_andnotbf e t a b) (each (fun x y => x && negb y)) /\ pfvector t (p_notbf e t a) (each (fun x _ => negb x)).
Proof.
  intros A B each. pose proof (fun k => reg_high a k A) as HA. pose proof (fun k => reg_high b k B) as HB. destruct A as [A1 A2]. destruct B as [B1 B2].
  assert (N : forall x k, 0 <= k < 128 -> Z.testbit (vec_nor x x) k = negb (Z.testbit x k)).
  { intros x k K. unfold vec_nor. rewrite Z.mod_pow2_bits_low by lia. rewrite Z.lor_diag. apply Z.lnot_spec. lia. }
  split; [|split; [|split; [|split]]].
  - apply bitf_ok; [intros; apply Z.land_spec|intros; apply Z.land_spec|]. apply bits_reg; [intros k K; unfold vec_and; rewrite Z.land_spec, HA by exact K; reflexivity|apply Z.land_nonneg; left; exact A1].
  - apply bitf_ok; [intros; apply Z.lor_spec|intros; apply Z.lor_spec|]. apply bits_reg; [intros k K; unfold vec_or; rewrite Z.lor_spec, HA, HB by exact K; reflexivity|apply Z.lor_nonneg; split; assumption].
  - apply bitf_ok; [intros; apply Z.lxor_spec|intros; apply Z.lxor_spec|]. apply bits_reg; [intros k K; unfold vec_xor; rewrite Z.lxor_spec, HA, HB by exact K; reflexivity|apply Z.lxor_nonneg; split; intros _; assumption].
  - apply (bitf_ok _ _ (fun x y => x && negb y)); [intros x y k K; rewrite Z.land_spec, Z.lnot_spec by exact K; reflexivity|intros k K; unfold vec_andc; rewrite Z.land_spec, Z.lnot_spec by lia; reflexivity|].
    apply bits_reg; [intros k K; unfold vec_andc; rewrite Z.land_spec, HA by exact K; reflexivity|apply Z.land_nonneg; left; exact A1].
  - exact (bitf_ok (fun x _ => Z.lnot x) (fun x _ => vec_nor x x) (fun x _ => negb x) e t a b (fun x _ k K => Z.lnot_spec x k K) (fun k K => N a k K) (Z.mod_pos_bound _ _ (pow2_pos 128 ltac:(lia)))).
Qed.

(** ** neg, abs, min, max *)
Lemma fopp_rng t x : 0 <= x < 2 ^ fw t -> 0 <= fopp (ff t) x < 2 ^ fw t.
Proof. intros X. rewrite <- ff_width in *. apply fopp_opp; [apply ff_good|exact X]. Qed.
Lemma p_negf_ok e t a : mapsf Neon128 t (fopp (ff t)) a (p_negf e t a).
Proof. apply (p_1_same e t fopp). apply fopp_rng. Qed.
Lemma p_absf_ok e t a : pair64f e t = false -> mapsf Neon128 t (hw_abs t) a (p_absf e t a).
Proof. intros P. pose proof (p_1_maps e t (s_absf MF64) (hw_abs t) a) as M. rewrite P in M. apply M. intros x X. apply hw_abs_ok. exact X. Qed.
Lemma p_absf_64 a : mapsf Neon128 F64 (s_absf MF64) a (p_absf Vmx F64 a).
Proof. apply (p_1_maps Vmx F64). exact s_abs64_range. Qed.
Lemma snan_is f x : good_fmt f -> snan f x = signaling f x.
Proof.
  intros G. unfold snan, signaling. destruct (decode f x); try reflexivity. rewrite Z.testbit_eqb by (destruct G as [->|[->| ->]]; cbn; lia).
  assert (0 <= (x / 2 ^ (mbits f - 1)) mod 2 < 2) by (apply Z.mod_pos_bound; lia). destruct (Z.eqb_spec ((x / 2 ^ (mbits f - 1)) mod 2) 1), (Z.eqb_spec ((x / 2 ^ (mbits f - 1)) mod 2) 0); reflexivity || lia.
Qed.
Lemma num_min_ok f x y : good_fmt f -> 0 <= x < 2 ^ width f -> 0 <= y < 2 ^ width f -> decode f (num_min f x y) = least_number f x y /\ 0 <= num_min f x y < 2 ^ width f.
Proof.
  intros G X Y. assert (NR : 0 <= nan_bits f < 2 ^ width f) by (destruct G as [->|[->| ->]]; vm_compute; split; congruence). pose proof (decode_nan f G) as N.
  destruct (hw_min_ok f x y G X Y) as [M1 M2]. unfold num_min, least_number. rewrite !snan_is by exact G. destruct (signaling f x || signaling f y); [split; assumption|].
  destruct (decode f x) eqn:Dx, (decode f y) eqn:Dy; split; assumption.
Qed.
Lemma num_max_ok f x y : good_fmt f -> 0 <= x < 2 ^ width f -> 0 <= y < 2 ^ width f -> decode f (num_max f x y) = greatest_number f x y /\ 0 <= num_max f x y < 2 ^ width f.
Proof.
  intros G X Y. assert (NR : 0 <= nan_bits f < 2 ^ width f) by (destruct G as [->|[->| ->]]; vm_compute; split; congruence). pose proof (decode_nan f G) as N.
  destruct (hw_max_ok f x y G X Y) as [M1 M2]. unfold num_max, greatest_number. rewrite !snan_is by exact G. destruct (signaling f x || signaling f y); [split; assumption|].
  destruct (decode f x) eqn:Dx, (decode f y) eqn:Dy; split; assumption.
Qed.
Lemma p_minf_vmx t a b : t <> F64 -> maps2f Neon128 t (hw_min (ff t)) a b (p_minf Vmx t a b).
Proof.
  intros T. assert (P : pair64f Vmx t = false) by (destruct t; tauto || reflexivity). pose proof (p_2_maps Vmx t (s_minf MF64) (hw_min (ff t)) a b) as M. rewrite P in M. apply M.
  intros x y X Y. rewrite <- ff_width in *. apply hw_min_ok; [apply ff_good|assumption..].
Qed.
Lemma p_maxf_vmx t a b : t <> F64 -> maps2f Neon128 t (hw_max (ff t)) a b (p_maxf Vmx t a b).
Proof.
  intros T. assert (P : pair64f Vmx t = false) by (destruct t; tauto || reflexivity). pose proof (p_2_maps Vmx t (s_maxf MF64) (hw_max (ff t)) a b) as M. rewrite P in M. apply M.
  intros x y X Y. rewrite <- ff_width in *. apply hw_max_ok; [apply ff_good|assumption..].
Qed.
Lemma p_minf_vsx t a b : maps2f Neon128 t (num_min (ff t)) a b (p_minf Vsx t a b).
Proof. apply (p_2_maps Vsx t (s_minf MF64)). intros x y X Y. cbn [pair64f]. rewrite <- ff_width in *. apply num_min_ok; [apply ff_good|assumption..]. Qed.
Lemma p_maxf_vsx t a b : maps2f Neon128 t (num_max (ff t)) a b (p_maxf Vsx t a b).
Proof. apply (p_2_maps Vsx t (s_maxf MF64)). intros x y X Y. cbn [pair64f]. rewrite <- ff_width in *. apply num_max_ok; [apply ff_good|assumption..]. Qed.
Lemma p_minf_64 a b : maps2f Neon128 F64 (s_minf MF64) a b (p_minf Vmx F64 a b).
Proof. apply (p_2_maps Vmx F64). intros x y X Y. cbn [pair64f]. unfold s_minf. destruct (flt _ _); assumption. Qed.
Lemma p_maxf_64 a b : maps2f Neon128 F64 (s_maxf MF64) a b (p_maxf Vmx F64 a b).
Proof. apply (p_2_maps Vmx F64). intros x y X Y. cbn [pair64f]. unfold s_maxf. destruct (flt _ _); assumption. Qed.

(** ** Rounding *)
Lemma p_1_fits e t (g h : fmt -> Z -> Z) (P : fmt -> Z -> Z -> Prop) a :
  (forall f b, good_fmt f -> 0 <= b < 2 ^ width f -> X86FloatProofs2.fits f b (P f) (g f b)) -> (forall f b, good_fmt f -> 0 <= b < 2 ^ width f -> X86FloatProofs2.fits f b (P f) (h f b)) ->
  fits_allf Neon128 t P a (p_1 e t (g binary64) (h (ff t)) a).
Proof.
  intros G H. assert (K : forall b, 0 <= b < 2 ^ width (ff t) -> X86FloatProofs2.fits (ff t) b (P (ff t)) ((if pair64f e t then g binary64 else h (ff t)) b)).
  { intros b B. destruct (pair64f e t) eqn:E; [apply pair_inv in E as [_ ->]; apply (G binary64)|apply H]; try exact B; [right; left; reflexivity|apply ff_good]. }
  apply (mapsf_fits Neon128 t (if pair64f e t then g binary64 else h (ff t)) P); [exact K|]. apply p_1_maps. intros x X. rewrite <- ff_width in *. apply K. exact X.
Qed.
Lemma p_floorf_ok e t a : fits_allf Neon128 t down a (p_floorf e t a).
Proof. apply p_1_fits; intros f b G Hb; apply floor_fits; assumption. Qed.
Lemma p_ceilf_ok e t a : fits_allf Neon128 t up a (p_ceilf e t a).
Proof. apply p_1_fits; intros f b G Hb; apply ceil_fits; assumption. Qed.
Lemma p_truncf_ok new e t a : fits_allf Neon128 t toward_zero a (p_truncf new e t a).
Proof.
  unfold p_truncf. replace (if new then hw_trunc binary64 else ftrunc binary64) with ((if new then hw_trunc else ftrunc) binary64) by (destruct new; reflexivity).
  apply p_1_fits; intros f b G Hb; [destruct new; [apply hw_trunc_fits|apply trunc_fits]|apply hw_trunc_fits]; assumption.
Qed.
Lemma p_round_to_evenf_ok e t a : fits_allf Neon128 t nearest a (p_round_to_evenf e t a).
Proof.
  apply (mapsf_fits Neon128 t (round_to_even (ff t)) nearest); [intros b B; apply even_fits; [apply ff_good|exact B]|]. unfold p_round_to_evenf. cbv zeta.
  destruct (filled_ok e t (fun i => round_to_even (ff t) (lane (fw t) i a))) as [R L]. split; [exact R|]. intros i Hi. rewrite L by exact Hi. apply Z.mod_small.
  destruct (even_fits (ff t) (ff_good t) (lane (fw t) i a) (pat_range t a i)) as [_ K]. rewrite ff_width in K. exact K.
Qed.
Lemma p_round16_ok (P : fmt -> Z -> Z -> Prop) (g : pext -> fty -> Z -> Z) e v : (forall a, fits_allf Neon128 F32 P a (g e F32 a)) ->
  fvector16 (p_round16 g e v) (fun i x => rounded binary32 (P binary32) (fvalue16 v i) (decode binary32 x)).
Proof. intros F. exact (ArmFloatProofs3.round16_ok P (fun _ => g e) Neon128 v eq_refl F). Qed.

(** ** addv *)
Lemma p_addvf_order t a : t <> F16 -> p_addvf t a = sum (fadd (ff t)) (left_to_right t) (fpat t a).
Proof. intros T. destruct t; [contradiction|reflexivity|reflexivity]. Qed.
Lemma left_once t : t <> F16 -> each_once (128 / fw t) (left_to_right t).
Proof. intros T. destruct t; [contradiction|apply Permutation_refl|apply Permutation_refl]. Qed.
Lemma p_addvf_exact t a j n : t <> F16 -> small_sum (ff t) (128 / fw t) (fvalue t a) j n -> exists s m, decode (ff t) (p_addvf t a) = FFin s m /\ sval s m = total (128 / fw t) n * 2 ^ j.
Proof.
  intros T S. rewrite p_addvf_order by exact T. pose proof (fcount t). apply (once_exact (ff t) (128 / fw t) (left_to_right t) (fpat t a) j n (ff_good t)); [lia|apply left_once; exact T|exact S].
Qed.
Lemma p_addv16_order v : p_addv16 v = f32_to_u16 (sum (fadd binary32) left_to_right16 (apattern16 v)).
Proof.
  change left_to_right16 with (Node (Node (Node (Node (Leaf 0) (Leaf 1)) (Leaf 2)) (Leaf 3)) (Node (Node (Node (Leaf 4) (Leaf 5)) (Leaf 6)) (Leaf 7))). cbn [sum].
  unfold p_addv16, p_addvf. rewrite !apat_lo by lia. change 4 with (0 + 4) at 1. change 5 with (1 + 4). change 6 with (2 + 4). change 7 with (3 + 4). rewrite !apat_hi by lia.
  rewrite !fpat_lane. reflexivity.
Qed.
Lemma left16_once : each_once 8 left_to_right16. Proof. apply Permutation_refl. Qed.
Lemma p_addv16_exact v j n : small_sum binary32 8 (fvalue16 v) j n -> exists b s m, p_addv16 v = f32_to_u16 b /\ decode binary32 b = FFin s m /\ sval s m = total 8 n * 2 ^ j.
Proof.
  intros S. destruct (once_exact binary32 8 left_to_right16 (apattern16 v) j n (or_introl eq_refl) ltac:(lia) left16_once S) as (s & m & D & V).
  eexists. exists s, m. split; [apply p_addv16_order|]. split; assumption.
Qed.
