(** C102 to C105: permutations, loads, stores, gathers and scatters on the POWER extensions. *)
From Coq Require Import ZArith Lia List Bool ZifyBool.
From Verif Require Import CInt BitLemmas FloatSpec Fp16 Fp16Spec ScalarOps ScalarSpec X86Deg234 X86Arith X86ArithSpec X86LaneLemmas X86Mem X86MemSpec X86MemProofs
  X86MemProofs2 Arm ArmSpec ArmProofs ArmProofs4 ArmPerm ArmPermSpec ArmPermProofs PropArmPerm ArmMem ArmMemSpec PropArmMem
  Ppc PpcSpec PpcProofs PpcProofs3 PropPpc PpcMem PpcMemSpec PpcMemProofs PpcMemProofs2 PpcMemProofs3 PpcMemProofs4.
Import ListNotations.
Open Scope Z_scope.

(** *** C102: reverse, zip and unzip; [hi = false] is ziplo, unziplo, [hi = true] ziphi, unziphi *)
Theorem C102_reverse e t a : mem_type t -> in_reg 128 (p_reverse e t a) /\
  forall i, 0 <= i < pelems t -> pattern t (p_reverse e t a) i = pattern t a (pelems t - 1 - i).
Proof. exact (p_reverse_ok e t a). Qed.
Theorem C102_reverse_twice e t a : mem_type t -> in_reg 128 a -> p_reverse e t (p_reverse e t a) = a.
Proof.
  intros H Ha. destruct (p_reverse_ok e t a H) as [R L]. destruct (p_reverse_ok e t (p_reverse e t a) H) as [R2 L2].
  apply (reg_ext 128 (mw t)); [exact (okw_amw Neon128 t H)|assumption..|]. unfold pelems in *. intros i Hi.
  rewrite L2, L by lia. f_equal. lia.
Qed.
Theorem C102_zip hi e t a b : mem_type t -> in_reg 128 (p_zip_half hi e t a b) /\
  forall i, 0 <= i < pelems t / 2 ->
    pattern t (p_zip_half hi e t a b) (2 * i) = pattern t a ((if hi then pelems t / 2 else 0) + i) /\
    pattern t (p_zip_half hi e t a b) (2 * i + 1) = pattern t b ((if hi then pelems t / 2 else 0) + i).
Proof. intros H. rewrite p_zip_half_eq. exact (C77_zip hi Neon128 t a b H). Qed.
Theorem C102_unzip hi e t a b : mem_type t -> in_reg 128 (p_unzip_half hi e t a b) /\
  forall i, 0 <= i < pelems t / 2 ->
    pattern t (p_unzip_half hi e t a b) i = pattern t a (2 * i + (if hi then 1 else 0)) /\
    pattern t (p_unzip_half hi e t a b) (pelems t / 2 + i) = pattern t b (2 * i + (if hi then 1 else 0)).
Proof. intros H. rewrite p_unzip_half_eq by exact H. exact (C77_unzip hi Neon128 t a b H). Qed.
(** zip and unzip give both halves at once *)
Theorem C102_both e t a b : p_zip e t a b = (p_zip_half false e t a b, p_zip_half true e t a b) /\
  p_unzip e t a b = (p_unzip_half false e t a b, p_unzip_half true e t a b).
Proof. split; reflexivity. Qed.
(** they are inverse of each other *)
Theorem C102_inverse e t a b : mem_type t -> in_reg 128 a -> in_reg 128 b ->
  p_unzip e t (fst (p_zip e t a b)) (snd (p_zip e t a b)) = (a, b) /\
  p_zip e t (fst (p_unzip e t a b)) (snd (p_unzip e t a b)) = (a, b).
Proof.
  intros H Ha Hb. rewrite !p_unzip_eq, !p_zip_eq by exact H. exact (C77_inverse Neon128 t a b H Ha Hb).
Qed.
(** f16 as pairs of f32 vectors *)
Theorem C102_zip_f16 hi v w : in_regs16 (p_zip_half16 hi v w) /\
  forall i, 0 <= i < 4 ->
    apattern16 (p_zip_half16 hi v w) (2 * i) = apattern16 v ((if hi then 4 else 0) + i) /\
    apattern16 (p_zip_half16 hi v w) (2 * i + 1) = apattern16 w ((if hi then 4 else 0) + i).
Proof. rewrite p_zip_half16_eq. exact (C77_zip_f16 hi v w). Qed.
Theorem C102_unzip_f16 hi e v w : in_regs16 (p_unzip_half16 hi e v w) /\
  forall i, 0 <= i < 4 ->
    apattern16 (p_unzip_half16 hi e v w) i = apattern16 v (2 * i + (if hi then 1 else 0)) /\
    apattern16 (p_unzip_half16 hi e v w) (4 + i) = apattern16 w (2 * i + (if hi then 1 else 0)).
Proof. rewrite p_unzip_half16_eq. exact (C77_unzip_f16 hi v w). Qed.
Theorem C102_inverse_f16 e v w : in_regs16 v -> in_regs16 w ->
  p_unzip16 e (fst (p_zip16 v w)) (snd (p_zip16 v w)) = (v, w) /\
  p_zip16 (fst (p_unzip16 e v w)) (snd (p_unzip16 e v w)) = (v, w).
Proof.
  intros Hv Hw. unfold p_unzip16, p_zip16. cbn [fst snd]. rewrite !p_unzip_half16_eq, !p_zip_half16_eq.
  exact (C77_inverse_f16 v w Hv Hw).
Qed.
(** the two vectors of singles are reversed, but not exchanged *)
Theorem C102_reverse_f16 e v : in_regs16 (p_reverse16 e v) /\
  forall i, 0 <= i < 8 -> apattern16 (p_reverse16 e v) i = apattern16 v (if i <? 4 then 3 - i else 11 - i).
Proof.
  assert (H : mem_type MF32) by (cbn; auto).
  destruct (p_reverse_ok e MF32 (fst v) H) as [R1 L1]. destruct (p_reverse_ok e MF32 (snd v) H) as [R2 L2].
  split; [split; assumption|]. intros i Hi. unfold apattern16, p_reverse16. cbn [fst snd].
  change (pelems MF32) with 4 in L1, L2. change (mw MF32) with 32 in L1, L2. unfold lane in L1, L2.
  destruct (i <? 4) eqn:E.
  - specialize (L1 i ltac:(lia)). destruct (3 - i <? 4) eqn:E2; [|lia]. replace (4 - 1 - i) with (3 - i) in L1 by lia. exact L1.
  - specialize (L2 (i - 4) ltac:(lia)). destruct (11 - i <? 4) eqn:E2; [lia|].
    replace (4 - 1 - (i - 4)) with (11 - i - 4) in L2 by lia. exact L2.
Qed.
(** so it is not the reverse of the API *)
Theorem C102_reverse_f16_refuted : forall e, ~ (forall v, in_regs16 v -> forall i, 0 <= i < 8 -> apattern16 (p_reverse16 e v) i = apattern16 v (7 - i)).
Proof.
  intros e H. specialize (H (1, 0)). specialize (H ltac:(split; split; cbn [fst snd]; lia) 3 ltac:(lia)).
  destruct (C102_reverse_f16 e (1, 0)) as [_ L]. rewrite L in H by lia. vm_compute in H. discriminate.
Qed.
Example C102_ex : pelts i16 (p_reverse Vmx (MI i16) (pvec i16 [1; 2; 3; 4; 5; 6; 7; 8])) = [8; 7; 6; 5; 4; 3; 2; 1] /\
  pelts i64 (p_reverse Vsx MF64 (pvec i64 [1; 2])) = [2; 1] /\
  pelts i32 (p_zip_half true Vmx MF32 (pvec i32 [1; 2; 3; 4]) (pvec i32 [5; 6; 7; 8])) = [3; 7; 4; 8] /\
  pelts i32 (p_unzip_half true Vsx MF32 (pvec i32 [1; 2; 3; 4]) (pvec i32 [5; 6; 7; 8])) = [2; 4; 6; 8] /\
  pelts i64 (p_unzip_half false Vmx (MI i64) (pvec i64 [1; 2]) (pvec i64 [5; 6])) = [1; 5] /\
  in_reg 128 (pvec i32 [1; 2; 3; 4]).
Proof. vm_compute. repeat split; reflexivity || discriminate. Qed.
Print Assumptions C102_reverse. Print Assumptions C102_reverse_twice. Print Assumptions C102_zip. Print Assumptions C102_unzip.
Print Assumptions C102_both. Print Assumptions C102_inverse. Print Assumptions C102_zip_f16. Print Assumptions C102_unzip_f16.
Print Assumptions C102_inverse_f16. Print Assumptions C102_reverse_f16. Print Assumptions C102_reverse_f16_refuted.

(** *** C103: loads and stores of degrees 1 to 4; [al] tells loada, storea from loadu, storeu *)
Theorem C103_load al e t m a : mem_type t -> vector_address t a ->
  (forall i, 0 <= i < pelems t -> mapped (mw t) m (a + i * (mw t / 8))) ->
  exists r, p_load al e t m a = Some r /\ in_reg 128 r /\
    forall i, 0 <= i < pelems t -> holds (mw t) m (a + i * (mw t / 8)) (pattern t r i).
Proof. exact (p_load_ok al e t m a). Qed.
Theorem C103_store al e t m a v : mem_type t -> vector_address t a -> in_reg 128 v ->
  (forall i, 0 <= i < pelems t -> mapped (mw t) m (a + i * (mw t / 8))) ->
  exists m', p_store al e t m a v = Some m' /\
    (forall i, 0 <= i < pelems t -> holds (mw t) m' (a + i * (mw t / 8)) (pattern t v i)) /\
    (forall x, x < a \/ a + 16 <= x -> m' x = m x).
Proof. exact (p_store_ok al e t m a v). Qed.
(** element [i] of vector [j] is element [i * deg + j] of memory *)
Theorem C103_load_deg deg al e t m a : mem_type t -> deg234 deg -> vector_address t a ->
  (forall i j, 0 <= i < pelems t -> 0 <= j < deg -> mapped (mw t) m (a + (i * deg + j) * (mw t / 8))) ->
  exists rs, p_load_deg deg al e t m a = Some rs /\ Z.of_nat (length rs) = deg /\
    forall j, 0 <= j < deg -> in_reg 128 (nthz 0 rs j) /\
      forall i, 0 <= i < pelems t -> holds (mw t) m (a + (i * deg + j) * (mw t / 8)) (pattern t (nthz 0 rs j) i).
Proof. exact (p_load_deg_ok deg al e t m a). Qed.
Theorem C103_store_deg deg al e t m a rs : mem_type t -> deg234 deg -> vector_address t a ->
  (forall i j, 0 <= i < pelems t -> 0 <= j < deg -> mapped (mw t) m (a + (i * deg + j) * (mw t / 8))) ->
  exists m', p_store_deg deg al e t m a rs = Some m' /\
    (forall i j, 0 <= i < pelems t -> 0 <= j < deg -> holds (mw t) m' (a + (i * deg + j) * (mw t / 8)) (pattern t (nthz 0 rs j) i)) /\
    (forall x, x < a \/ a + deg * 16 <= x -> m' x = m x).
Proof. exact (p_store_deg_ok deg al e t m a rs). Qed.
(** loading what has been stored gives back the vectors, whatever the two alignments announced *)
Theorem C103_round_trip deg al al' e t m a rs : mem_type t -> deg234 deg -> vector_address t a -> Z.of_nat (length rs) = deg ->
  (forall j, 0 <= j < deg -> in_reg 128 (nthz 0 rs j)) ->
  (forall i j, 0 <= i < pelems t -> 0 <= j < deg -> mapped (mw t) m (a + (i * deg + j) * (mw t / 8))) ->
  exists m', p_store_deg deg al e t m a rs = Some m' /\ p_load_deg deg al' e t m' a = Some rs.
Proof.
  intros H Hd V Ll R M. destruct (p_store_deg_ok deg al e t m a rs H Hd V M) as (m' & E & A & U). exists m'. split; [exact E|].
  destruct (p_load_deg_ok deg al' e t m' a H Hd V) as (rs' & E' & Ll' & A').
  { intros i j Hi Hj. eapply holds_mapped. apply (A i j Hi Hj). }
  rewrite E'. f_equal. apply (nth_ext _ _ 0 0); [lia|]. intros k Hk.
  destruct (A' (Z.of_nat k) ltac:(lia)) as [R' L']. specialize (R (Z.of_nat k) ltac:(lia)).
  specialize (fun i Hi => A i (Z.of_nat k) Hi ltac:(lia)). unfold nthz in *. rewrite Nat2Z.id in *.
  apply (reg_ext 128 (mw t)); [exact (okw_amw Neon128 t H)|exact R'|exact R|]. intros i Hi.
  eapply (holds_unique (mw t) m'); [apply ok8_mw, H|apply (L' i Hi)|]. apply (A i Hi).
Qed.
(** f16 kept in two vectors of singles: read and written element by element, at any address *)
Theorem C103_load_f16 m a : (forall i, 0 <= i < 8 -> mapped 16 m (a + i * 2)) ->
  exists v, p_load16 m a = Some v /\ in_regs16 v /\
    forall i, 0 <= i < 8 -> exists h, holds 16 m (a + i * 2) h /\ half_as_single h (apattern16 v i).
Proof. exact (p_load16_ok m a). Qed.
Theorem C103_store_f16 m a v : in_regs16 v -> (forall i, 0 <= i < 8 -> mapped 16 m (a + i * 2)) ->
  exists m', p_store16 m a v = Some m' /\
    (forall i, 0 <= i < 8 -> holds 16 m' (a + i * 2) (f32_to_u16 (apattern16 v i))) /\
    (forall x, x < a \/ a + 16 <= x -> m' x = m x).
Proof. exact (C78_store_f16 m a v). Qed.
Theorem C103_load_deg_f16 deg m a : 0 <= deg ->
  (forall i j, 0 <= i < 8 -> 0 <= j < deg -> mapped 16 m (a + (i * deg + j) * 2)) ->
  exists vs, p_load_deg16 deg m a = Some vs /\ Z.of_nat (length vs) = deg /\
    forall j, 0 <= j < deg -> in_regs16 (nthz (0, 0) vs j) /\
      forall i, 0 <= i < 8 -> exists h, holds 16 m (a + (i * deg + j) * 2) h /\ half_as_single h (apattern16 (nthz (0, 0) vs j) i).
Proof. exact (p_load_deg16_ok deg m a). Qed.
Theorem C103_store_deg_f16 deg m a vs : 0 < deg -> (forall j, 0 <= j < deg -> in_regs16 (nthz (0, 0) vs j)) ->
  (forall i j, 0 <= i < 8 -> 0 <= j < deg -> mapped 16 m (a + (i * deg + j) * 2)) ->
  exists m', p_store_deg16 deg m a vs = Some m' /\
    (forall i j, 0 <= i < 8 -> 0 <= j < deg -> holds 16 m' (a + (i * deg + j) * 2) (f32_to_u16 (apattern16 (nthz (0, 0) vs j) i))) /\
    (forall x, x < a \/ a + deg * 16 <= x -> m' x = m x).
Proof. exact (p_store_deg16_ok deg m a vs). Qed.
(** loadu and storeu dereference a pointer to a vector: the C standard gives them no meaning at other addresses *)
Theorem C103_unaligned e t m a v : mem_type t -> ~ vector_address t a ->
  p_load false e t m a = None /\ p_store false e t m a v = None.
Proof. intros H V. split; [exact (p_load_unaligned e t m a H V)|exact (p_store_unaligned e t m a v H V)]. Qed.
Theorem C103_loadu_refuted : forall e t, mem_type t -> mw t <> 64 ->
  ~ (forall m a, (forall i, 0 <= i < pelems t -> mapped (mw t) m (a + i * (mw t / 8))) -> p_load false e t m a <> None).
Proof.
  intros e t H W F. apply (F (fun _ => Some 0) 1).
  - intros i Hi k Hk. discriminate.
  - apply (p_load_unaligned e t (fun _ => Some 0) 1 H). intros [V|[k V]]; [apply W; exact V|lia].
Qed.
Example C103_ex : option_map (map (fun r => map (pattern (MI u16) r) [0; 1; 7])) (p_load_deg 3 true Vmx (MI u16) (counting 48) 0) =
    Some [[0x0100; 0x0706; 0x2b2a]; [0x0302; 0x0908; 0x2d2c]; [0x0504; 0x0b0a; 0x2f2e]] /\
  p_load_deg 3 true Vmx (MI u16) (counting 47) 0 = None /\
  option_map (map (fun r => map (pattern MF64 r) [0; 1])) (p_load_deg 2 false Vsx MF64 (counting 33) 1) =
    Some [[0x0807060504030201; 0x1817161514131211]; [0x100f0e0d0c0b0a09; 0x201f1e1d1c1b1a19]] /\
  option_map (fun r => map (pattern MF32 r) [0; 3]) (p_load false Vsx MF32 (counting 32) 16) = Some [0x13121110; 0x1f1e1d1c].
Proof. vm_compute. auto. Qed.
Example C103_ex2 : vector_address (MI u16) 32 /\ vector_address MF64 1.
Proof. split; [right; exists 2; reflexivity|left; reflexivity]. Qed.
Print Assumptions C103_load. Print Assumptions C103_store. Print Assumptions C103_load_deg. Print Assumptions C103_store_deg.
Print Assumptions C103_round_trip. Print Assumptions C103_load_f16. Print Assumptions C103_store_f16.
Print Assumptions C103_load_deg_f16. Print Assumptions C103_store_deg_f16. Print Assumptions C103_unaligned. Print Assumptions C103_loadu_refuted.

(** *** C104: masked loads and stores, logicals in memory *)
(** only the elements whose lane is true need to exist *)
Theorem C104_masko_load e t l m a other p : mem_type t -> plogical (uty t) l p ->
  (forall i, 0 <= i < pelems t -> p i = true -> mapped (mw t) m (a + i * (mw t / 8))) ->
  exists r, p_masko_load e t l m a other = Some r /\ in_reg 128 r /\
    forall i, 0 <= i < pelems t ->
      if p i then holds (mw t) m (a + i * (mw t / 8)) (pattern t r i) else pattern t r i = pattern t other i.
Proof.
  intros H Hl M. apply (p_maskoz_load_ok e t l m a (fun i => lane (mw t) i other) p H Hl); [|exact M].
  intros i Hi. apply Z.mod_pos_bound. apply Z.pow_pos_nonneg; [lia|]. destruct (size_lanes t H) as (A & _ & _). 
  destruct (Z.eq_dec (mw t / 8) 0); [lia|]. pose proof (Z.mul_div_le (mw t) 8). lia.
Qed.
Theorem C104_maskz_load e t l m a p : mem_type t -> plogical (uty t) l p ->
  (forall i, 0 <= i < pelems t -> p i = true -> mapped (mw t) m (a + i * (mw t / 8))) ->
  exists r, p_maskz_load e t l m a = Some r /\ in_reg 128 r /\
    forall i, 0 <= i < pelems t ->
      if p i then holds (mw t) m (a + i * (mw t / 8)) (pattern t r i) else pattern t r i = 0.
Proof.
  intros H Hl M. apply (p_maskoz_load_ok e t l m a (fun _ => 0) p H Hl); [|exact M].
  intros i Hi. split; [lia|]. apply Z.pow_pos_nonneg; [lia|]. destruct (size_lanes t H) as (A & _ & _).
  pose proof (Z.mul_div_le (mw t) 8). lia.
Qed.
Theorem C104_mask_store e t l m a v p : mem_type t -> plogical (uty t) l p ->
  (forall i, 0 <= i < pelems t -> p i = true -> mapped (mw t) m (a + i * (mw t / 8))) ->
  exists m', p_mask_store e t l m a v = Some m' /\
    (forall i, 0 <= i < pelems t -> p i = true -> holds (mw t) m' (a + i * (mw t / 8)) (pattern t v i)) /\
    (forall x, (forall i, 0 <= i < pelems t -> p i = true -> outside (mw t) (a + i * (mw t / 8)) x) -> m' x = m x).
Proof. exact (p_mask_store_ok e t l m a v p). Qed.
Theorem C104_masko_load_f16 l m a other p : plogical16 l p -> in_regs16 other ->
  (forall i, 0 <= i < 8 -> p i = true -> mapped 16 m (a + i * 2)) ->
  exists v, p_masko_load16 l m a other = Some v /\ in_regs16 v /\
    forall i, 0 <= i < 8 ->
      if p i then exists h, holds 16 m (a + i * 2) h /\ half_as_single h (apattern16 v i) else apattern16 v i = apattern16 other i.
Proof.
  intros Hl Ho M. apply (p_maskoz_load16_ok l m a (elt16 other) p Hl); [|exact M].
  intros i Hi. rewrite elt16_pattern. unfold apattern16. destruct (i <? 4); apply Z.mod_pos_bound; reflexivity.
Qed.
Theorem C104_maskz_load_f16 l m a p : plogical16 l p -> (forall i, 0 <= i < 8 -> p i = true -> mapped 16 m (a + i * 2)) ->
  exists v, p_maskz_load16 l m a = Some v /\ in_regs16 v /\
    forall i, 0 <= i < 8 ->
      if p i then exists h, holds 16 m (a + i * 2) h /\ half_as_single h (apattern16 v i) else apattern16 v i = 0.
Proof. intros Hl M. apply (p_maskoz_load16_ok l m a (fun _ => 0) p Hl); [|exact M]. intros; lia. Qed.
Theorem C104_mask_store_f16 l m a v p : plogical16 l p -> in_regs16 v ->
  (forall i, 0 <= i < 8 -> p i = true -> mapped 16 m (a + i * 2)) ->
  exists m', p_mask_store16 l m a v = Some m' /\
    (forall i, 0 <= i < 8 -> p i = true -> holds 16 m' (a + i * 2) (f32_to_u16 (apattern16 v i))) /\
    (forall x, (forall i, 0 <= i < 8 -> p i = true -> outside 16 (a + i * 2) x) -> m' x = m x).
Proof. exact (C79_mask_store_f16 l m a v p). Qed.
(** integers: a logical is read from, and written as, elements that are zero or not *)
Theorem C104_loadl al e t m a (v : Z -> Z) : In t int_types -> vector_address (MI t) a ->
  (forall i, 0 <= i < 128 / bits t -> holds (bits t) m (a + i * (bits t / 8)) (v i)) ->
  exists l, p_loadl al e t m a = Some l /\ plogical t l (fun i => negb (v i =? 0)).
Proof. exact (p_loadl_ok al e t m a v). Qed.
Theorem C104_storel al e t m a l p : In t int_types -> vector_address (MI t) a -> plogical t l p ->
  (forall i, 0 <= i < 128 / bits t -> mapped (bits t) m (a + i * (bits t / 8))) ->
  exists m', p_storel al e t m a l = Some m' /\
    (forall i, 0 <= i < 128 / bits t -> holds (bits t) m' (a + i * (bits t / 8)) (if p i then 1 else 0)) /\
    (forall x, x < a \/ a + 16 <= x -> m' x = m x).
Proof. exact (p_storel_ok al e t m a l p). Qed.
(** lanes 0 and 2 of four; the memory ends after element 2 *)
Example C104_ex : option_map (fun r => map (pattern (MI i32) r) [0; 1; 2; 3])
    (p_masko_load Vmx (MI i32) (pvec i32 [-1; 0; -1; 0]) (counting 12) 0 (pvec i32 [5; 6; 7; 8])) = Some [0x03020100; 6; 0x0b0a0908; 8] /\
  option_map (fun r => map (pattern MF32 r) [0; 1; 2; 3])
    (p_maskz_load Vsx MF32 (pvec i32 [-1; 0; -1; 0]) (counting 12) 0) = Some [0x03020100; 0; 0x0b0a0908; 0] /\
  option_map (fun m : bmem => map m [0; 1; 2; 3; 4; 5; 8; 9; 12])
    (p_mask_store Vsx MF32 (pvec i32 [-1; 0; -1; 0]) (counting 12) 0 (pvec u32 [100; 101; 102; 103])) =
    Some [Some 100; Some 0; Some 0; Some 0; Some 4; Some 5; Some 102; Some 0; None].
Proof. vm_compute. auto. Qed.
Example C104_ex2 : plogical (uty MF32) (pvec i32 [-1; 0; -1; 0]) Z.even /\
  p_loadl true Vmx i32 (fun x => if (0 <=? x) && (x <? 16) then Some (if x <? 8 then 0 else x) else None) 0 = Some (pvec i32 [0; 0; -1; -1]).
Proof.
  split; [|vm_compute; reflexivity]. split; [split; vm_compute; [discriminate|reflexivity]|]. intros i Hi. change (128 / bits (uty MF32)) with 4 in Hi.
  assert (D : i = 0 \/ i = 1 \/ i = 2 \/ i = 3) by lia. destruct D as [->|[->|[->| ->]]]; vm_compute; reflexivity.
Qed.
Print Assumptions C104_masko_load. Print Assumptions C104_maskz_load. Print Assumptions C104_mask_store.
Print Assumptions C104_masko_load_f16. Print Assumptions C104_maskz_load_f16. Print Assumptions C104_mask_store_f16.
Print Assumptions C104_loadl. Print Assumptions C104_storel.

(** *** C105: gathers and scatters *)
Theorem C105_gather e t m a idx : mem_type t ->
  (forall i, 0 <= i < pelems t -> mapped (mw t) m (a + index (mw t) idx i * (mw t / 8))) ->
  exists r, p_gather e t m a idx = Some r /\ in_reg 128 r /\
    forall i, 0 <= i < pelems t -> holds (mw t) m (a + index (mw t) idx i * (mw t / 8)) (pattern t r i).
Proof. exact (p_gather_ok e t m a idx). Qed.
Theorem C105_gather_linear e t m a step : mem_type t ->
  (forall i, 0 <= i < pelems t -> in_ty i32 (i * step)) ->
  (forall i, 0 <= i < pelems t -> mapped (mw t) m (a + i * step * (mw t / 8))) ->
  exists r, p_gather_linear e t m a step = Some r /\ in_reg 128 r /\
    forall i, 0 <= i < pelems t -> holds (mw t) m (a + i * step * (mw t / 8)) (pattern t r i).
Proof. exact (p_gather_linear_ok e t m a step). Qed.
(** the highest of several lanes with the same index wins *)
Theorem C105_scatter e t m a idx v : mem_type t ->
  (forall i, 0 <= i < pelems t -> mapped (mw t) m (a + index (mw t) idx i * (mw t / 8))) ->
  exists m', p_scatter e t m a idx v = Some m' /\
    (forall i, 0 <= i < pelems t -> (forall j, i < j < pelems t -> index (mw t) idx j <> index (mw t) idx i) ->
       holds (mw t) m' (a + index (mw t) idx i * (mw t / 8)) (pattern t v i)) /\
    (forall x, (forall i, 0 <= i < pelems t -> outside (mw t) (a + index (mw t) idx i * (mw t / 8)) x) -> m' x = m x).
Proof. exact (p_scatter_ok e t m a idx v). Qed.
Theorem C105_scatter_linear e t m a step v : mem_type t ->
  (forall i, 0 <= i < pelems t -> in_ty i32 (i * step)) ->
  (forall i, 0 <= i < pelems t -> mapped (mw t) m (a + i * step * (mw t / 8))) ->
  exists m', p_scatter_linear e t m a step v = Some m' /\
    (step <> 0 -> forall i, 0 <= i < pelems t -> holds (mw t) m' (a + i * step * (mw t / 8)) (pattern t v i)) /\
    (step = 0 -> holds (mw t) m' a (pattern t v (pelems t - 1))) /\
    (forall x, (forall i, 0 <= i < pelems t -> outside (mw t) (a + i * step * (mw t / 8)) x) -> m' x = m x).
Proof. exact (p_scatter_linear_ok e t m a step v). Qed.
Theorem C105_gather_linear_f16 m a step : (forall i, 0 <= i < 8 -> in_ty i32 (i * step)) ->
  (forall i, 0 <= i < 8 -> mapped 16 m (a + i * step * 2)) ->
  exists v, p_gather_linear16 m a step = Some v /\ in_regs16 v /\
    forall i, 0 <= i < 8 -> exists h, holds 16 m (a + i * step * 2) h /\ half_as_single h (apattern16 v i).
Proof. exact (p_gather_linear16_ok m a step). Qed.
Theorem C105_scatter_f16 m a idx v : in_regs16 v -> (forall i, 0 <= i < 8 -> mapped 16 m (a + index 16 idx i * 2)) ->
  exists m', p_scatter16 m a idx v = Some m' /\
    (forall i, 0 <= i < 8 -> (forall j, i < j < 8 -> index 16 idx j <> index 16 idx i) ->
       holds 16 m' (a + index 16 idx i * 2) (f32_to_u16 (apattern16 v i))) /\
    (forall x, (forall i, 0 <= i < 8 -> outside 16 (a + index 16 idx i * 2) x) -> m' x = m x).
Proof. exact (C80_scatter_f16 m a idx v). Qed.
Theorem C105_scatter_linear_f16 m a step v : in_regs16 v -> step <> 0 -> (forall i, 0 <= i < 8 -> in_ty i32 (i * step)) ->
  (forall i, 0 <= i < 8 -> mapped 16 m (a + i * step * 2)) ->
  exists m', p_scatter_linear16 m a step v = Some m' /\
    (forall i, 0 <= i < 8 -> holds 16 m' (a + i * step * 2) (f32_to_u16 (apattern16 v i))) /\
    (forall x, (forall i, 0 <= i < 8 -> outside 16 (a + i * step * 2) x) -> m' x = m x).
Proof. exact (C80_scatter_linear_f16 m a step v). Qed.
(** every element of a gather of f16 is the one the first index designates *)
Theorem C105_gather_f16 m a idx : mapped 16 m (a + index 16 idx 0 * 2) ->
  exists v, p_gather16 m a idx = Some v /\ in_regs16 v /\
    forall i, 0 <= i < 8 -> exists h, holds 16 m (a + index 16 idx 0 * 2) h /\ half_as_single h (apattern16 v i).
Proof. exact (p_gather16_ok m a idx). Qed.
(** so it is not the gather of the API: 0 at index 0, one at index 1, and the indices 0, 1, 0, 0, 0, 0, 0, 0 *)
Definition zero_one : bmem := fun x => if x =? 3 then Some 0x3c else if (0 <=? x) && (x <? 4) then Some 0 else None.
Theorem C105_gather_f16_refuted : ~ (forall m a idx, (forall i, 0 <= i < 8 -> mapped 16 m (a + index 16 idx i * 2)) ->
  exists v, p_gather16 m a idx = Some v /\
    forall i, 0 <= i < 8 -> exists h, holds 16 m (a + index 16 idx i * 2) h /\ half_as_single h (apattern16 v i)).
Proof.
  intros F. destruct (F zero_one 0 (pvec i16 [0; 1; 0; 0; 0; 0; 0; 0])) as (v & E & A).
  - intros i Hi. assert (D : i = 0 \/ i = 1 \/ i = 2 \/ i = 3 \/ i = 4 \/ i = 5 \/ i = 6 \/ i = 7) by lia.
    assert (M0 : mapped 16 zero_one 0 /\ mapped 16 zero_one 2).
    { split; intros k Hk; change (16 / 8) with 2 in Hk; assert (Dk : k = 0 \/ k = 1) by lia; destruct Dk as [->| ->]; vm_compute; discriminate. }
    destruct M0 as [M0 M1].
    destruct D as [->|[->|[->|[->|[->|[->|[->| ->]]]]]]]; first [exact M0|exact M1].
  - assert (Ev : p_gather16 zero_one 0 (pvec i16 [0; 1; 0; 0; 0; 0; 0; 0]) = Some (0, 0)) by (vm_compute; reflexivity).
    rewrite Ev in E. injection E as <-. destruct (A 1 ltac:(lia)) as (h & Hh & S).
    assert (H1 : holds 16 zero_one 2 0x3c00).
    { split; [lia|]. intros k Hk. change (16 / 8) with 2 in Hk. assert (Dk : k = 0 \/ k = 1) by lia.
      destruct Dk as [->| ->]; [exists 0|exists 0x3c]; vm_compute; auto. }
    assert (Eh : h = 0x3c00) by (apply (holds_unique 16 zero_one 2); [apply (ok8_mw (MI i16)); cbn; auto|exact Hh|exact H1]).
    subst h. destruct S as [S _]. vm_compute in S. discriminate.
Qed.
(** indices 3, -1, 0, 3: the highest lane wins *)
Example C105_ex : let m := (fun x => if (0 <=? x) && (x <? 64) then Some 0 else None) in
  option_map (fun m' : bmem => map m' [0; 4; 8; 12; 16]) (p_scatter Vmx (MI i32) m 4 (pvec i32 [3; -1; 0; 3]) (pvec i32 [1; 2; 3; 4]))
    = Some [Some 2; Some 3; Some 0; Some 0; Some 4].
Proof. vm_compute. reflexivity. Qed.
Example C105_ex2 : option_map (fun r => map (pattern (MI i16) r) [0; 1; 7]) (p_gather_linear Vmx (MI i16) (counting 64) 2 3) =
    Some [2 + 256 * 3; 8 + 256 * 9; 44 + 256 * 45] /\
  option_map (fun r => map (pattern MF64 r) [0; 1]) (p_gather_linear Vsx MF64 (counting 64) 56 (-1)) = Some [0x3f3e3d3c3b3a3938; 0x3736353433323130] /\
  option_map (fun r => map (pattern MF64 r) [0; 1]) (p_gather Vsx MF64 (counting 64) 56 (pvec i64 [-7; 0])) = Some [0x0706050403020100; 0x3f3e3d3c3b3a3938].
Proof. vm_compute. auto. Qed.
Print Assumptions C105_gather. Print Assumptions C105_gather_linear. Print Assumptions C105_scatter. Print Assumptions C105_scatter_linear.
Print Assumptions C105_gather_linear_f16. Print Assumptions C105_scatter_f16. Print Assumptions C105_scatter_linear_f16.
Print Assumptions C105_gather_f16. Print Assumptions C105_gather_f16_refuted.
