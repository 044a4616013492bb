(** Proofs for ArmFloat.v: loads and stores of logicals, addv, and f16 kept in two registers of singles. *)
From Coq Require Import ZArith List Bool Lia ZifyBool Permutation.
From Verif Require Import CInt BitLemmas FloatSpec FloatProofs Fp16 Fp16Spec Fp16Proofs ScalarOps ScalarSpec ScalarProofs CpuSimd RoundEven RoundEvenProofs X86Deg234 X86Arith X86ArithSpec X86LaneLemmas
  X86ArithProofs X86EmulProofs X86LogicProofs X86SelectProofs X86RedProofs X86FmaProofs X86Mem X86MemSpec X86MemProofs X86MemProofs2 X86Cvt X86CvtSpec X86CvtProofs2 X86CvtProofs4 X86Float X86FloatSpec
  X86FloatProofs X86FloatProofs2 X86FloatProofs3 X86FloatProofs5 X86FloatProofs7 Arm ArmSpec ArmProofs ArmProofs2 ArmProofs3 ArmProofs4 ArmPerm ArmPermSpec ArmPermProofs ArmMem ArmMemSpec ArmMemProofs ArmMemProofs2 ArmMemProofs3
  ArmFloat ArmFloatSpec ArmFloatProofs ArmFloatProofs2 PropArmMem.
Import ListNotations.
Open Scope Z_scope.

(** ** loadl and storel *)

Lemma fm_type t : mem_type (fm t). Proof. destruct t; cbn; tauto. Qed.
Lemma fm_pattern t r i : pattern (fm t) r i = fpat t r i. Proof. destruct t; reflexivity. Qed.
Lemma fm_elems e t : aelems e (fm t) = felems e t. Proof. destruct t; reflexivity. Qed.
Lemma fw_ok8 t : ok8 (fw t). Proof. rewrite <- fm_mw. apply ok8_mw, fm_type. Qed.
Lemma dec0 t : decode (ff t) 0 = FFin false 0. Proof. destruct t; reflexivity. Qed.
Lemma const0 t : float_const t 0 = 0. Proof. destruct t; reflexivity. Qed.
Lemma const1 t : decode (ff t) (float_const t 1) = FFin false (one (ff t)) /\ 0 <= float_const t 1 < 2 ^ fw t.
Proof. rewrite float_const_eq by lia. destruct (small_float t 1 ltac:(lia)) as [D R]. rewrite Z.mul_1_l in D. split; assumption. Qed.
Lemma a_loadlf_ok u e t m a : (forall i, 0 <= i < felems e t -> mapped (fw t) m (a + i * (fw t / 8))) ->
  exists l x, a_loadlf u e t m a = Some l /\
    (forall i, 0 <= i < felems e t -> holds (fw t) m (a + i * (fw t / 8)) (x i)) /\
    alogical e (fu t) l (fun i => nonzero (ff t) (x i)).
Proof.
  intros M. destruct (a_load_ok e (fm t) m a (fm_type t)) as (r & E & R & A); [rewrite fm_elems, fm_mw; exact M|]. rewrite fm_elems, fm_mw in A.
  unfold a_loadlf. rewrite E. cbn [bind]. eexists. exists (fpat t r). split; [reflexivity|]. split.
  - intros i Hi. rewrite <- fm_pattern. apply A, Hi.
  - rewrite const0. eapply alogical_ext; [apply a_notlf_ok, a_eqf_ok|]. intros i Hi. rewrite fu_bits in Hi. cbv beta. unfold nonzero, frel, fvalue.
    destruct (a_set1f_ok e t 0 ltac:(pose proof (pow2_pos (fw t)); pose proof (fw_pos t); lia)) as [_ S]. rewrite S by exact Hi. rewrite dec0. reflexivity.
Qed.
Lemma a_storelf_ok u e t m a l p : alogical e (fu t) l p -> (forall i, 0 <= i < felems e t -> mapped (fw t) m (a + i * (fw t / 8))) ->
  exists m' x, a_storelf u e t m a l = Some m' /\
    (forall i, 0 <= i < felems e t -> holds (fw t) m' (a + i * (fw t / 8)) (x i) /\ decode (ff t) (x i) = FFin false (if p i then one (ff t) else 0)) /\
    (forall k, k < a \/ a + felems e t * (fw t / 8) <= k -> m' k = m k).
Proof.
  intros L M. destruct (const1 t) as [D1 R1]. destruct (a_set1f_ok e t _ R1) as [S1 V1].
  destruct (a_set1f_ok e t (float_const t 0)) as [S0 V0]; [rewrite const0; pose proof (pow2_pos (fw t)); pose proof (fw_pos t); lia|].
  destruct (a_if_else1f_ok u e t l p _ _ S1 S0 L) as [R S].
  destruct (a_store_ok e (fm t) m a _ (fm_type t) R) as (m' & E & A & U & _); [rewrite fm_elems, fm_mw; exact M|]. rewrite fm_elems, fm_mw in A, U.
  exists m'. eexists. split; [exact E|]. split; [|exact U]. intros i Hi. split; [apply A, Hi|]. rewrite fm_pattern, fpat_lane, S by exact Hi.
  rewrite <- !fpat_lane. rewrite V1, V0 by exact Hi. destruct (p i); [exact D1|]. rewrite const0. apply dec0.
Qed.

(** ** addv *)

Lemma d_add_lane t a b i : 0 <= i < 64 / fw t -> lane (fw t) i (d_add t a b) = fadd (ff t) (lane (fw t) i a) (lane (fw t) i b).
Proof.
  intros Hi. unfold d_add, lanewise2. rewrite lane_buildn; [|destruct t; repeat split; cbn; lia|exact Hi].
  apply Z.mod_small. rewrite <- ff_width. apply fadd_range, ff_good.
Qed.
Lemma get_low_lane w a i : 0 < w -> 0 <= i -> w * (i + 1) <= 64 -> lane w i (get_low a) = lane w i a.
Proof.
  intros Hw Hi H. unfold get_low, lane. apply Z.bits_inj'. intros k Hk. destruct (Z.ltb_spec k w).
  - rewrite !Z.mod_pow2_bits_low, !Z.div_pow2_bits by nia. apply Z.mod_pow2_bits_low. nia.
  - rewrite !Z.mod_pow2_bits_high by lia. reflexivity.
Qed.
Lemma get_high_lane w a i : 0 < w -> 0 <= i -> lane w i (get_high a) = (a / 2 ^ (64 + w * i)) mod 2 ^ w.
Proof. intros Hw Hi. unfold get_high, lane. rewrite Z.div_div by (apply pow2_pos || apply Z.pow_nonzero; nia). rewrite <- Z.pow_add_r by nia. reflexivity. Qed.
Lemma d_ext_lane w a b k i : okw 64 w -> 0 <= i < 64 / w -> lane w i (d_ext w a b k) = (if i + k <? 64 / w then lane w (i + k) a else lane w (i + k - 64 / w) b).
Proof. intros O Hi. unfold d_ext. rewrite lane_buildn by assumption. destruct (_ <? _); apply lane_mod; destruct O; lia. Qed.
Lemma okw_6432 : okw 64 32. Proof. repeat split; cbn; lia. Qed.
Lemma neon_addv32_eq a : neon_addv32 a = fadd binary32 (fadd binary32 (lane 32 0 a) (lane 32 2 a)) (fadd binary32 (lane 32 1 a) (lane 32 3 a)).
Proof.
  unfold neon_addv32. pose proof (d_add_lane F32) as D. change (fw F32) with 32 in D. change (ff F32) with binary32 in D. change (64 / 32) with 2 in D.
  rewrite D by lia. rewrite d_ext_lane by (exact okw_6432 || (cbn; lia)). change (0 + 1 <? 64 / 32) with true. cbv iota. change (0 + 1) with 1. rewrite !D by lia.
  rewrite !get_low_lane, !get_high_lane by lia. reflexivity.
Qed.
Lemma reduce_sum f d o x : reduce f d o x = sum (fadd f) (by_halves d o) x.
Proof. revert o. induction d as [|d IH]; intros o; cbn [reduce by_halves sum]; [reflexivity|]. rewrite !IH. reflexivity. Qed.
Lemma by_halves_leaves d o : leaves (by_halves d o) = map (fun i => o + Z.of_nat i) (seq 0 (2 ^ d)).
Proof.
  revert o. induction d as [|d IH]; intros o; cbn [by_halves leaves].
  - change (2 ^ 0)%nat with 1%nat. cbn. rewrite Z.add_0_r. reflexivity.
  - rewrite !IH. replace (2 ^ S d)%nat with (2 ^ d + 2 ^ d)%nat by (cbn [Nat.pow]; lia). rewrite seq_app, map_app. f_equal.
    rewrite (Nat.add_0_l (2 ^ d)). assert (G : forall n, map (fun i => o + 2 ^ Z.of_nat d + Z.of_nat i) (seq n (2 ^ d)) = map (fun i => o + Z.of_nat i) (seq (n + 2 ^ d) (2 ^ d))).
    { generalize (2 ^ d)%nat at 1 3 as k. intros k. assert (E : 2 ^ Z.of_nat d = Z.of_nat (2 ^ d)) by (rewrite Nat2Z.inj_pow; reflexivity). rewrite E.
      induction k as [|k IHk]; intros n; [reflexivity|]. cbn [seq map]. f_equal; [lia|]. apply (IHk (S n)). }
    exact (G 0%nat).
Qed.
Lemma a_addvf_order e t a : (is_neon e = true -> t <> F16) -> a_addvf e t a = sum (fadd (ff t)) (farm_order e t) (extended e t a).
Proof.
  intros N. assert (X : is_neon e = true -> forall i, 0 <= i < felems e t -> extended e t a i = lane (fw t) i a).
  { intros _ i Hi. unfold extended. destruct (Z.ltb_spec i (felems e t)); [apply fpat_lane|lia]. }
  destruct e as [| |b vq].
  - destruct t; [destruct (N eq_refl eq_refl)| |]; cbn [a_addvf farm_order sum]; rewrite !X by (reflexivity || (cbn; lia)); [apply neon_addv32_eq|reflexivity].
  - destruct t; [destruct (N eq_refl eq_refl)| |]; cbn [a_addvf farm_order sum]; rewrite !X by (reflexivity || (cbn; lia)); reflexivity.
  - unfold a_addvf, sv_addvf, farm_order. set (e := Sve b vq) in *. rewrite reduce_sum. fold (felems e t). apply sum_ext. intros i Hi.
    rewrite by_halves_leaves in Hi. apply in_map_iff in Hi. destruct Hi as (k & Ek & _). unfold extended. destruct (Z.ltb_spec i (felems e t)) as [Hl|]; [|reflexivity].
    cbn [andb]. rewrite <- (fu_bits t) at 1. rewrite active_true by (apply fu_in || (rewrite fu_bits; fold (felems e t); lia)). rewrite fpat_lane. reflexivity.
Qed.
Local Notation lsum := X86FloatProofs7.lsum.
Lemma lsum_zero l x : (forall i, In i l -> x i = 0) -> lsum l x = 0.
Proof. intros Z0. induction l as [|i l IH]; [reflexivity|]. change (x i + lsum l x = 0). rewrite Z0 by (left; reflexivity). rewrite IH by (intros j Hj; apply Z0; right; exact Hj). reflexivity. Qed.
Lemma lsum_ext l x y : (forall i, In i l -> x i = y i) -> lsum l x = lsum l y.
Proof. intros E. induction l as [|i l IH]; [reflexivity|]. change (x i + lsum l x = y i + lsum l y). rewrite E by (left; reflexivity). rewrite IH by (intros j Hj; apply E; right; exact Hj). reflexivity. Qed.
Lemma total_padded k k' (n : Z -> Z) : 0 <= k <= k' -> total k' (fun i => if i <? k then n i else 0) = total k n.
Proof.
  intros H. rewrite !total_lsum. replace (Z.to_nat k') with (Z.to_nat k + Z.to_nat (k' - k))%nat by lia. rewrite seq_app, map_app, X86FloatProofs7.lsum_app.
  rewrite (lsum_zero (map Z.of_nat (seq (0 + Z.to_nat k) _))).
  - rewrite Z.add_0_r. apply lsum_ext. intros i Hi. apply in_map_iff in Hi. destruct Hi as (j & <- & Hj). apply in_seq in Hj. destruct (Z.ltb_spec (Z.of_nat j) k); [reflexivity|lia].
  - intros i Hi. apply in_map_iff in Hi. destruct Hi as (j & <- & Hj). apply in_seq in Hj. destruct (Z.ltb_spec (Z.of_nat j) k); [lia|reflexivity].
Qed.
Lemma total_ext k x y : (forall i, 0 <= i < k -> x i = y i) -> total k x = total k y.
Proof. intros E. rewrite !total_lsum. apply lsum_ext. intros i Hi. apply in_map_iff in Hi. destruct Hi as (j & <- & Hj). apply in_seq in Hj. apply E. lia. Qed.
Lemma log2_up_le n : 0 < n -> n <= 2 ^ Z.log2_up n.
Proof. intros H. destruct (Z.eq_dec n 1) as [->|]; [cbn; lia|]. apply Z.log2_up_spec. lia. Qed.
Lemma felems_pos e t : 0 < felems e t.
Proof. unfold felems. pose proof (okw_fa e t) as (O1 & O2 & O3). pose proof (an_pos e). nia. Qed.
(** every element is added once, with zeros up to a power of two on SVE *)
Definition padded (e : aext) (t : fty) : Z := match e with Sve _ _ => 2 ^ Z.log2_up (felems e t) | _ => felems e t end.
Lemma farm_order_once e t : (is_neon e = true -> t <> F16) -> felems e t <= padded e t /\ each_once (padded e t) (farm_order e t).
Proof.
  intros N. destruct e as [| |b vq].
  - split; [reflexivity|]. destruct t; [destruct (N eq_refl eq_refl)| |]; unfold each_once; cbn [farm_order leaves app]; [|reflexivity].
    change (map Z.of_nat (seq 0 (Z.to_nat (padded Neon128 F32)))) with [0; 1; 2; 3]. apply perm_skip, perm_swap.
  - split; [reflexivity|]. destruct t; [destruct (N eq_refl eq_refl)| |]; apply Permutation_refl.
  - split; [apply log2_up_le, felems_pos|]. unfold each_once, padded, farm_order. set (e := Sve b vq). rewrite by_halves_leaves.
    replace (Z.to_nat (2 ^ Z.log2_up (felems e t))) with (2 ^ Z.to_nat (Z.log2_up (felems e t)))%nat.
    + erewrite map_ext; [reflexivity|]. intros k. cbn beta. lia.
    + apply Nat2Z.inj. rewrite Nat2Z.inj_pow, !Z2Nat.id by (apply Z.log2_up_nonneg || apply Z.pow_nonneg; lia). reflexivity.
Qed.
Lemma a_addvf_exact e t a j n : (is_neon e = true -> t <> F16) -> small_sum (ff t) (felems e t) (fvalue t a) j n ->
  exists s m, decode (ff t) (a_addvf e t a) = FFin s m /\ sval s m = total (felems e t) n * 2 ^ j.
Proof.
  intros N (J & S & B). rewrite a_addvf_order by exact N. destruct (farm_order_once e t N) as [K O]. pose proof (felems_pos e t) as P.
  rewrite <- (total_padded (felems e t) (padded e t)) by lia. apply (once_exact (ff t) (padded e t)); [apply ff_good|lia|exact O|]. split; [exact J|]. split.
  - intros i Hi. unfold extended. destruct (Z.ltb_spec i (felems e t)) as [Hl|]; [apply S; lia|]. exists false, 0. rewrite dec0. split; reflexivity.
  - rewrite (total_ext _ _ (fun i => if i <? felems e t then Z.abs (n i) else 0)) by (intros i _; destruct (_ <? _); reflexivity). rewrite total_padded by lia. exact B.
Qed.

(** ** f16 in two registers *)

Lemma apat_lo v i : i < 4 -> apattern16 v i = fpat F32 (fst v) i.
Proof. intros H. unfold apattern16. destruct (Z.ltb_spec i 4); [reflexivity|lia]. Qed.
Lemma apat_hi v i : 0 <= i -> apattern16 v (i + 4) = fpat F32 (snd v) i.
Proof. intros H. unfold apattern16. destruct (Z.ltb_spec (i + 4) 4); [lia|]. replace (i + 4 - 4) with i by lia. reflexivity. Qed.
Lemma neon_alog e t l p : is_neon e = true -> alogical e t l p <-> alogical Neon128 t l p.
Proof. intros E. destruct e; try discriminate; reflexivity. Qed.
Lemma neon_felems e : is_neon e = true -> felems e F32 = 4. Proof. intros E. destruct e; try discriminate; reflexivity. Qed.
Lemma log16_of e l1 l2 (p p1 p2 : Z -> bool) : is_neon e = true -> alogical e u32 l1 p1 -> alogical e u32 l2 p2 ->
  (forall i, 0 <= i < 4 -> p1 i = p i) -> (forall i, 0 <= i < 4 -> p2 i = p (i + 4)) -> alogical16 (l1, l2) p.
Proof.
  intros E A B P1 P2. rewrite neon_alog in A, B by exact E. split; cbn [fst snd]; (eapply alogical_ext; [eassumption|]); intros i Hi; change (an Neon128 / bits u32) with 4 in Hi.
  - apply P1, Hi. - apply P2, Hi.
Qed.
Lemma log16_parts e l p : is_neon e = true -> alogical16 l p -> alogical e u32 (fst l) p /\ alogical e u32 (snd l) (fun i => p (i + 4)).
Proof. intros E [A B]. split; apply neon_alog; assumption. Qed.
Lemma vec16_of e v1 v2 (P : Z -> Z -> Prop) : is_neon e = true -> fvector e F32 v1 P -> fvector e F32 v2 (fun i => P (i + 4)) -> fvector16 (v1, v2) P.
Proof.
  intros E [R1 A1] [R2 A2]. rewrite neon_felems in A1, A2 by exact E. rewrite an_neon in R1, R2 by exact E. split; [split; assumption|]. intros i Hi.
  destruct (Z.ltb_spec i 4).
  - rewrite apat_lo by lia. apply A1. lia.
  - replace i with (i - 4 + 4) by lia. rewrite apat_hi by lia. apply A2. lia.
Qed.
Lemma cmp16_ok (f : aext -> fty -> Z -> Z -> Z) (g : relation -> bool) e a b : is_neon e = true ->
  (forall a b, alogical e (fu F32) (f e F32 a b) (fun i => g (frel F32 a b i))) -> alogical16 (a_cmp16 f e a b) (fun i => g (frel16 a b i)).
Proof.
  intros E F. eapply (log16_of e); [exact E|apply F|apply F|..]; intros i Hi; cbv beta; unfold frel16, fvalue16, frel, fvalue; [rewrite !apat_lo by lia|rewrite !apat_hi by lia]; reflexivity.
Qed.
Lemma notl16_okA u e l p : is_neon e = true -> alogical16 l p -> alogical16 (a_notl16 u e l) (fun i => negb (p i)).
Proof. intros E L. destruct (log16_parts e l p E L) as [A B]. eapply (log16_of e); [exact E|apply (a_notlf_ok u e F32), A|apply (a_notlf_ok u e F32), B|..]; reflexivity. Qed.
Lemma if_else16_okA u e l p a b : is_neon e = true -> in_regs16 a -> in_regs16 b -> alogical16 l p ->
  fvector16 (a_if_else16 u e l a b) (fun i x => x = if p i then apattern16 a i else apattern16 b i).
Proof.
  intros E [A1 A2] [B1 B2] L. rewrite <- (an_neon e E) in A1, A2, B1, B2. destruct (log16_parts e l p E L) as [LA LB].
  destruct (a_if_else1f_ok u e F32 _ _ _ _ A1 B1 LA) as [R1 S1]. destruct (a_if_else1f_ok u e F32 _ _ _ _ A2 B2 LB) as [R2 S2].
  apply (vec16_of e); [exact E|split; [exact R1|]|split; [exact R2|]]; intros i Hi; rewrite fpat_lane; [rewrite S1 by exact Hi|rewrite S2 by exact Hi];
    rewrite neon_felems in Hi by exact E; [rewrite !apat_lo by lia|rewrite !apat_hi by lia]; rewrite !fpat_lane; reflexivity.
Qed.
Lemma all16_okA u e l p : is_neon e = true -> alogical16 l p -> a_all16 u e l = true <-> (forall i, 0 <= i < 8 -> p i = true).
Proof.
  intros E L. destruct (log16_parts e l p E L) as [A B]. unfold a_all16. rewrite andb_true_iff, (a_allf_ok u e F32 _ _ A), (a_allf_ok u e F32 _ _ B), neon_felems by exact E. split.
  - intros [H1 H2] i Hi. destruct (Z.ltb_spec i 4); [apply H1; lia|]. replace i with (i - 4 + 4) by lia. apply H2. lia.
  - intros H. split; intros i Hi; apply H; lia.
Qed.
Lemma any16_okA u e l p : is_neon e = true -> alogical16 l p -> a_any16 u e l = true <-> (exists i, 0 <= i < 8 /\ p i = true).
Proof.
  intros E L. destruct (log16_parts e l p E L) as [A B]. unfold a_any16. rewrite orb_true_iff, (a_anyf_ok u e F32 _ _ A), (a_anyf_ok u e F32 _ _ B), neon_felems by exact E. split.
  - intros [(i & Hi & P)|(i & Hi & P)]; [exists i|exists (i + 4)]; split; (lia || exact P).
  - intros (i & Hi & P). destruct (Z.ltb_spec i 4); [left; exists i|right; exists (i - 4); replace (i - 4 + 4) with i by lia]; split; (lia || exact P).
Qed.
Lemma neon_arch e : is_neon e = true -> architectural e. Proof. intros E. unfold architectural. rewrite an_neon by exact E. lia. Qed.
Lemma nbtrue16_okA u e l p : is_neon e = true -> alogical16 l p -> a_nbtrue16 u e l = count_true 8 p.
Proof.
  intros E L. destruct (log16_parts e l p E L) as [A B]. unfold a_nbtrue16. pose proof (neon_arch e E) as Ar.
  rewrite (a_nbtruef_ok u e F32 _ _ Ar A), (a_nbtruef_ok u e F32 _ _ Ar B), neon_felems by exact E. change 8 with (4 + 4). rewrite count_true_app by lia. f_equal.
Qed.
Lemma to_mask16_okA e l p : is_neon e = true -> alogical16 l p -> fvector16 (a_to_mask16 e l) (fun i x => x = if p i then 2 ^ 32 - 1 else 0).
Proof. intros E L. destruct (log16_parts e l p E L) as [A B]. apply (vec16_of e); [exact E|exact (a_to_maskf_ok e F32 _ _ A)|exact (a_to_maskf_ok e F32 _ _ B)]. Qed.
Lemma to_logical16_okA u e v : is_neon e = true -> alogical16 (a_to_logical16 u e v) (fun i => negb (apattern16 v i =? 0)).
Proof.
  intros E. eapply (log16_of e); [exact E|apply (a_to_logicalf_ok u e F32)|apply (a_to_logicalf_ok u e F32)|..]; intros i Hi; cbv beta; [rewrite apat_lo by lia|rewrite apat_hi by lia]; reflexivity.
Qed.
Lemma set1f_pair e x : is_neon e = true -> 0 <= x < 2 ^ 32 -> fvector16 (a_set1f e F32 x, a_set1f e F32 x) (fun _ y => y = x).
Proof. intros E Hx. apply (vec16_of e); [exact E|exact (a_set1f_ok e F32 x Hx)..]. Qed.
Lemma set16_okA e h : is_neon e = true -> in_u 16 h -> exists r, a_set16 e h = Some r /\ fvector16 r (fun _ x => half_as_single h x).
Proof.
  intros E Hh. destruct (u16_to_f32_exact_l h Hh) as (x & Ex & Rx & D). unfold a_set16. rewrite Ex. cbn [bind]. eexists. split; [reflexivity|].
  destruct (set1f_pair e x E Rx) as [R V]. split; [exact R|]. intros i Hi. rewrite V by exact Hi. split; [exact Ex|exact D].
Qed.
Lemma set1l16_okA e x : is_neon e = true -> native_logicals e -> alogical16 (a_set1l16 e x) (fun _ => negb (x =? 0)).
Proof. intros E N. eapply (log16_of e); [exact E|exact (a_set1lf_ok e F32 x N)|exact (a_set1lf_ok e F32 x N)|..]; reflexivity. Qed.
Lemma set16_0A e : a_set16 e (float_const F16 0) = Some (a_set1f e F32 0, a_set1f e F32 0). Proof. reflexivity. Qed.
Lemma set16_1A e : a_set16 e (float_const F16 1) = Some (a_set1f e F32 0x3F800000, a_set1f e F32 0x3F800000). Proof. reflexivity. Qed.
Lemma loadl16_okA u e m a : is_neon e = true -> (forall i, 0 <= i < 8 -> mapped 16 m (a + i * 2)) ->
  exists l h, a_loadl16 u e m a = Some l /\ (forall i, 0 <= i < 8 -> holds 16 m (a + i * 2) (h i)) /\ alogical16 l (fun i => nonzero binary16 (h i)).
Proof.
  intros E M. destruct (C78_load_f16 m a M) as (v & Ev & R & A). unfold a_loadl16. rewrite Ev. cbn [bind]. rewrite set16_0A. cbn [bind].
  destruct (choose_halves 8 _ ltac:(lia) A) as [h Hh]. eexists. exists h. split; [reflexivity|]. split; [intros i Hi; apply Hh, Hi|].
  destruct (set1f_pair e 0 E ltac:(lia)) as [_ Z0].
  pose proof (notl16_okA u e _ _ E (cmp16_ok (a_eqf u) (fun r => is r Equal) e v (a_set1f e F32 0, a_set1f e F32 0) E (fun a b => a_eqf_ok u e F32 a b))) as L.
  assert (X : forall i, 0 <= i < 8 -> negb (is (frel16 v (a_set1f e F32 0, a_set1f e F32 0) i) Equal) = nonzero binary16 (h i)).
  { intros i Hi. unfold frel16, fvalue16. rewrite Z0 by exact Hi. destruct (Hh i Hi) as [_ [_ D]]. rewrite D. change (decode binary32 0) with (FFin false 0).
    unfold nonzero. rewrite nonzero_widen. reflexivity. }
  destruct L as [L0 L1]. split; (eapply alogical_ext; [eassumption|]); intros i Hi; change (an Neon128 / bits u32) with 4 in Hi; cbv beta; apply X; lia.
Qed.
Lemma storel16_okA u e m a l p : is_neon e = true -> alogical16 l p -> (forall i, 0 <= i < 8 -> mapped 16 m (a + i * 2)) ->
  exists m', a_storel16 u e m a l = Some m' /\ (forall i, 0 <= i < 8 -> holds 16 m' (a + i * 2) (if p i then 0x3C00 else 0)) /\
    (forall k, k < a \/ a + 16 <= k -> m' k = m k).
Proof.
  intros E L M. unfold a_storel16. rewrite set16_1A, set16_0A. cbn [bind]. destruct (set1f_pair e 0 E ltac:(lia)) as [R0 Z0]. destruct (set1f_pair e 0x3F800000 E ltac:(lia)) as [R1 Z1].
  destruct (if_else16_okA u e l p _ _ E R1 R0 L) as [R S]. destruct (C78_store_f16 m a _ R M) as (m' & Em & A & U). exists m'. split; [exact Em|]. split; [|exact U].
  intros i Hi. specialize (A i Hi). rewrite S, Z0, Z1 in A by exact Hi. destruct (p i); exact A.
Qed.
Lemma iota16_ok : fvector16 a_iota16 (fun i x => x = float_of_int binary32 i).
Proof.
  destruct (regs16_ok Sse2 (fun i => float_of_int binary32 i)) as [R P].
  { intros i Hi. change (nb Sse2 / 16) with 8 in Hi. destruct (small_float F32 i ltac:(lia)) as [_ X]. exact X. }
  split; [exact R|]. intros i Hi. exact (P i Hi).
Qed.
Lemma const16_wide : forallb (fun d => match a_set16 Neon128 (float_const F16 d) with Some (x, y) => (x =? a_set1f Neon128 F32 (float_of_int binary32 d)) && (y =? x) | None => false end) (map Z.of_nat (seq 0 8)) = true.
Proof. vm_compute. reflexivity. Qed.
Lemma tail16_okA u e i k : is_neon e = true -> native_logicals e -> k <= i \/ in_ty i32 (k - i) ->
  exists l, a_mask_for_loop_tail16 u e i k = Some l /\ alogical16 l (fun j => i + j <? k).
Proof.
  intros E N B. unfold a_mask_for_loop_tail16. assert (X : forall l (p q : Z -> bool), alogical16 l p -> (forall j, 0 <= j < 8 -> p j = q j) -> alogical16 l q).
  { intros l p q [L0 L1] PQ. split; (eapply alogical_ext; [eassumption|]); intros j Hj; change (an Neon128 / bits u32) with 4 in Hj; cbv beta; apply PQ; lia. }
  destruct (Z.leb_spec k i) as [Hk|Hk].
  - eexists. split; [reflexivity|]. eapply X; [apply set1l16_okA; assumption|]. intros j Hj. cbn beta. destruct (Z.ltb_spec (i + j) k); [lia|reflexivity].
  - assert (I : in_ty i32 (k - i)) by (destruct B; [lia|assumption]). rewrite carith_fits by (assumption || (unfold int_types; cbn; tauto)). cbn [bind].
    destruct (Z.ltb_spec (k - i) 8) as [Hd|Hd].
    + assert (C : exists v, a_set16 e (float_const F16 (k - i)) = Some v /\ fvector16 v (fun _ x => x = float_of_int binary32 (k - i))).
      { pose proof const16_wide as C. rewrite forallb_forall in C. specialize (C (k - i)).
        assert (In (k - i) (map Z.of_nat (seq 0 8))) as Hin by (apply in_map_iff; exists (Z.to_nat (k - i)); split; [lia|apply in_seq; lia]). specialize (C Hin).
        assert (Es : a_set16 e = a_set16 Neon128) by (destruct e; try discriminate; reflexivity). rewrite Es.
        destruct (a_set16 Neon128 (float_const F16 (k - i))) as [[x y]|]; [|discriminate C]. apply andb_true_iff in C. destruct C as [C1 C2]. apply Z.eqb_eq in C1, C2. subst.
        eexists. split; [reflexivity|]. apply (set1f_pair Neon128); [reflexivity|]. apply (small_float F32). lia. }
      destruct C as (v & Ev & _ & Vv). rewrite Ev. cbn [bind]. eexists. split; [reflexivity|].
      eapply X; [apply (cmp16_ok (a_ltf u) (fun r => is r Less)); [exact E|intros; apply a_ltf_ok]|]. intros j Hj. cbv beta. unfold frel16, fvalue16.
      destruct iota16_ok as [_ I2]. rewrite I2, Vv by exact Hj. rewrite (compare_small F32) by lia. destruct (Z.ltb_spec j (k - i)), (Z.ltb_spec (i + j) k); reflexivity || lia.
    + eexists. split; [reflexivity|]. eapply X; [apply set1l16_okA; assumption|]. intros j Hj. cbn beta. destruct (Z.ltb_spec (i + j) k); [reflexivity|lia].
Qed.
Lemma map16_ok (f : Z -> Z) (g : Z -> Z) e v : is_neon e = true -> (forall a, mapsf e F32 f a (g a)) -> fvector16 (on_halves1 g v) (fun i x => x = f (apattern16 v i)).
Proof.
  intros E M. apply (vec16_of e); [exact E|..]; (split; [apply M|]); intros i Hi; rewrite fpat_lane; rewrite (proj2 (M _)) by exact Hi; rewrite neon_felems in Hi by exact E;
    [rewrite apat_lo by lia|rewrite apat_hi by lia]; rewrite fpat_lane; reflexivity.
Qed.
Lemma map2_16_ok (f : Z -> Z -> Z) (g : Z -> Z -> Z) e v w : is_neon e = true -> (forall a b, maps2f e F32 f a b (g a b)) ->
  fvector16 (on_halves2 g v w) (fun i x => x = f (apattern16 v i) (apattern16 w i)).
Proof.
  intros E M. apply (vec16_of e); [exact E|..]; (split; [apply M|]); intros i Hi; rewrite fpat_lane; rewrite (proj2 (M _ _)) by exact Hi; rewrite neon_felems in Hi by exact E;
    [rewrite !apat_lo by lia|rewrite !apat_hi by lia]; rewrite !fpat_lane; reflexivity.
Qed.
Lemma round16_ok (P : fmt -> Z -> Z -> Prop) (g : aext -> fty -> Z -> Z) e v : is_neon e = true -> (forall a, fits_allf e F32 P a (g e F32 a)) ->
  in_regs16 (a_round16 g e v) /\ forall i, 0 <= i < 8 -> rounded binary32 (P binary32) (fvalue16 v i) (fvalue16 (a_round16 g e v) i).
Proof.
  intros E M. split.
  - split; cbn [fst snd a_round16 on_halves1]; rewrite <- (an_neon e E); apply M.
  - intros i Hi. unfold fvalue16. destruct (Z.ltb_spec i 4).
    + rewrite !apat_lo by lia. apply (proj2 (M (fst v))). rewrite neon_felems by exact E. lia.
    + replace i with (i - 4 + 4) by lia. rewrite !apat_hi by lia. apply (proj2 (M (snd v))). rewrite neon_felems by exact E. lia.
Qed.
Lemma a_addv16_order v : a_addv16 v = f32_to_u16 (sum (fadd binary32) farm_order16 (apattern16 v)).
Proof. unfold a_addv16. rewrite !neon_addv32_eq. reflexivity. Qed.
Lemma farm_order16_once : each_once 8 farm_order16.
Proof.
  unfold each_once. change (map Z.of_nat (seq 0 (Z.to_nat 8))) with [0; 1; 2; 3; 4; 5; 6; 7]. change (leaves farm_order16) with ([0; 2; 1; 3] ++ [4; 6; 5; 7]).
  change [0; 1; 2; 3; 4; 5; 6; 7] with ([0; 1; 2; 3] ++ [4; 5; 6; 7]). apply Permutation_app; apply perm_skip, perm_swap.
Qed.
Lemma a_addv16_exact v j n : small_sum binary32 8 (fvalue16 v) j n ->
  exists b s m, a_addv16 v = f32_to_u16 b /\ decode binary32 b = FFin s m /\ sval s m = total 8 n * 2 ^ j.
Proof.
  intros S. destruct (once_exact binary32 8 farm_order16 (apattern16 v) j n (or_introl eq_refl) ltac:(lia) farm_order16_once S) as (s & m & D & V).
  eexists. exists s, m. split; [apply a_addv16_order|]. split; assumption.
Qed.
