(** C78 to C80: loads, stores, gathers and scatters on the ARM extensions. *)
From Coq Require Import ZArith Lia List Bool ZifyBool.
From Verif Require Import CInt BitLemmas FloatSpec Fp16 Fp16Spec ScalarOps ScalarSpec X86Deg234 X86Arith X86ArithSpec X86LaneLemmas X86Mem X86MemSpec X86MemProofs
  X86MemProofs2 PropX86Mem Arm ArmSpec ArmProofs ArmProofs4 ArmPerm ArmPermSpec ArmPermProofs PropArm ArmMem ArmMemSpec ArmMemProofs ArmMemProofs2 ArmMemProofs3.
Import ListNotations.
Open Scope Z_scope.

(** *** C78: loads and stores of degrees 1 to 4 *)
Theorem C78_load e t m a : mem_type t ->
  (forall i, 0 <= i < aelems e t -> mapped (mw t) m (a + i * (mw t / 8))) ->
  exists r, a_load e t m a = Some r /\ in_reg (an e) r /\
    forall i, 0 <= i < aelems e t -> holds (mw t) m (a + i * (mw t / 8)) (pattern t r i).
Proof. exact (a_load_ok e t m a). Qed.
Theorem C78_store e t m a v : mem_type t -> in_reg (an e) v ->
  (forall i, 0 <= i < aelems e t -> mapped (mw t) m (a + i * (mw t / 8))) ->
  exists m', a_store e t m a v = Some m' /\
    (forall i, 0 <= i < aelems e t -> holds (mw t) m' (a + i * (mw t / 8)) (pattern t v i)) /\
    (forall x, x < a \/ a + aelems e t * (mw t / 8) <= x -> m' x = m x).
Proof.
  intros H Hv M. destruct (a_store_ok e t m a v H Hv M) as (m' & E & A & U & _). exists m'. split; [exact E|]. split; [exact A|exact U].
Qed.
(** element [i] of register [j] is element [i * deg + j] of memory *)
Theorem C78_load_deg deg e t m a : mem_type t -> 0 <= deg ->
  (forall i j, 0 <= i < aelems e t -> 0 <= j < deg -> mapped (mw t) m (a + (i * deg + j) * (mw t / 8))) ->
  exists rs, a_load_deg deg e t m a = Some rs /\ Z.of_nat (length rs) = deg /\
    forall j, 0 <= j < deg -> in_reg (an e) (nthz 0 rs j) /\
      forall i, 0 <= i < aelems e t -> holds (mw t) m (a + (i * deg + j) * (mw t / 8)) (pattern t (nthz 0 rs j) i).
Proof. exact (a_load_deg_ok deg e t m a). Qed.
Theorem C78_store_deg deg e t m a rs : mem_type t -> 0 < deg ->
  (forall i j, 0 <= i < aelems e t -> 0 <= j < deg -> mapped (mw t) m (a + (i * deg + j) * (mw t / 8))) ->
  exists m', a_store_deg deg e t m a rs = Some m' /\
    (forall i j, 0 <= i < aelems e t -> 0 <= j < deg -> holds (mw t) m' (a + (i * deg + j) * (mw t / 8)) (pattern t (nthz 0 rs j) i)) /\
    (forall x, x < a \/ a + deg * aelems e t * (mw t / 8) <= x -> m' x = m x).
Proof.
  intros H Hd M. destruct (a_store_deg_ok deg e t m a rs H Hd M) as (m' & E & A & U & _). exists m'. split; [exact E|]. split; [exact A|exact U].
Qed.
(** loading what has been stored gives back the registers *)
Theorem C78_round_trip deg e t m a rs : mem_type t -> 0 < deg -> Z.of_nat (length rs) = deg -> (forall j, 0 <= j < deg -> in_reg (an e) (nthz 0 rs j)) ->
  (forall i j, 0 <= i < aelems e t -> 0 <= j < deg -> mapped (mw t) m (a + (i * deg + j) * (mw t / 8))) ->
  exists m', a_store_deg deg e t m a rs = Some m' /\ a_load_deg deg e t m' a = Some rs.
Proof.
  intros H Hd Ll R M. destruct (a_store_deg_ok deg e t m a rs H Hd M) as (m' & E & A & U & D). exists m'. split; [exact E|].
  destruct (a_load_deg_ok deg e t m' a H ltac:(lia)) as (rs' & E' & Ll' & A').
  { intros i j Hi Hj. eapply holds_mapped. apply (A i j Hi Hj). }
  rewrite E'. f_equal. apply (nth_ext _ _ 0 0); [lia|]. intros k Hk.
  destruct (A' (Z.of_nat k) ltac:(lia)) as [R' L']. specialize (R (Z.of_nat k) ltac:(lia)).
  specialize (fun i Hi => A i (Z.of_nat k) Hi ltac:(lia)). unfold nthz in *. rewrite Nat2Z.id in *.
  apply (reg_ext (an e) (mw t)); [apply okw_amw, H|exact R'|exact R|]. intros i Hi.
  eapply (holds_unique (mw t) m'); [apply ok8_mw, H|apply (L' i Hi)|]. apply (A i Hi).
Qed.
(** f16 kept in two registers of singles *)
Theorem C78_load_f16 m a : (forall i, 0 <= i < 8 -> mapped 16 m (a + i * 2)) ->
  exists v, a_load16 m a = Some v /\ in_regs16 v /\
    forall i, 0 <= i < 8 -> exists h, holds 16 m (a + i * 2) h /\ half_as_single h (apattern16 v i).
Proof. exact (C58_load_f16 Sse2 m a). Qed.
Theorem C78_store_f16 m a v : in_regs16 v -> (forall i, 0 <= i < 8 -> mapped 16 m (a + i * 2)) ->
  exists m', a_store16 m a v = Some m' /\
    (forall i, 0 <= i < 8 -> holds 16 m' (a + i * 2) (f32_to_u16 (apattern16 v i))) /\
    (forall x, x < a \/ a + 16 <= x -> m' x = m x).
Proof. exact (C58_store_f16 Sse2 m a v). Qed.
Theorem C78_load_deg_f16 deg m a : 0 <= deg ->
  (forall i j, 0 <= i < 8 -> 0 <= j < deg -> mapped 16 m (a + (i * deg + j) * 2)) ->
  exists vs, a_load_deg16 deg m a = Some vs /\ Z.of_nat (length vs) = deg /\
    forall j, 0 <= j < deg -> in_regs16 (nthz (0, 0) vs j) /\
      forall i, 0 <= i < 8 -> exists h, holds 16 m (a + (i * deg + j) * 2) h /\ half_as_single h (apattern16 (nthz (0, 0) vs j) i).
Proof. exact (a_load_deg16_ok deg m a). Qed.
Theorem C78_store_deg_f16 deg m a vs : 0 < deg -> Z.of_nat (length vs) = deg -> (forall j, 0 <= j < deg -> in_regs16 (nthz (0, 0) vs j)) ->
  (forall i j, 0 <= i < 8 -> 0 <= j < deg -> mapped 16 m (a + (i * deg + j) * 2)) ->
  exists m', a_store_deg16 deg m a vs = Some m' /\
    (forall i j, 0 <= i < 8 -> 0 <= j < deg -> holds 16 m' (a + (i * deg + j) * 2) (f32_to_u16 (apattern16 (nthz (0, 0) vs j) i))) /\
    (forall x, x < a \/ a + deg * 8 * 2 <= x -> m' x = m x).
Proof. exact (a_store_deg16_ok deg m a vs). Qed.
Definition counting (n : Z) : bmem := fun x => if (0 <=? x) && (x <? n) then Some x else None.
Example C78_ex : option_map (map (fun r => map (pattern (MI u16) r) [0; 1; 7])) (a_load_deg 3 Aarch64 (MI u16) (counting 48) 0) =
    Some [[0x0100; 0x0706; 0x2b2a]; [0x0302; 0x0908; 0x2d2c]; [0x0504; 0x0b0a; 0x2f2e]] /\
  a_load_deg 3 Aarch64 (MI u16) (counting 47) 0 = None /\
  option_map (map (fun r => map (pattern MF64 r) [0; 1])) (a_load_deg 2 Neon128 MF64 (counting 32) 0) =
    Some [[0x0706050403020100; 0x1716151413121110]; [0x0f0e0d0c0b0a0908; 0x1f1e1d1c1b1a1918]] /\
  option_map (map (fun r => map (pattern MF32 r) [0; 3])) (a_load_deg 1 sve128 MF32 (counting 16) 0) = Some [[0x03020100; 0x0f0e0d0c]].
Proof. vm_compute. auto. Qed.
Print Assumptions C78_load. Print Assumptions C78_store. Print Assumptions C78_load_deg. Print Assumptions C78_store_deg.
Print Assumptions C78_round_trip. Print Assumptions C78_load_f16. Print Assumptions C78_store_f16.
Print Assumptions C78_load_deg_f16. Print Assumptions C78_store_deg_f16.

(** *** C79: masked loads and stores, logicals in memory *)
(** only the elements whose lane is true need to exist *)
Theorem C79_masko_load e t l m a other p : mem_type t -> native_logicals e -> alogical e (uty t) l p ->
  (forall i, 0 <= i < aelems e t -> p i = true -> mapped (mw t) m (a + i * (mw t / 8))) ->
  exists r, a_masko_load e t l m a other = Some r /\ in_reg (an e) r /\
    forall i, 0 <= i < aelems e t ->
      if p i then holds (mw t) m (a + i * (mw t / 8)) (pattern t r i) else pattern t r i = pattern t other i.
Proof. exact (a_maskoz_load_ok e t l m a other p). Qed.
Theorem C79_maskz_load e t l m a p : mem_type t -> native_logicals e -> alogical e (uty t) l p ->
  (forall i, 0 <= i < aelems e t -> p i = true -> mapped (mw t) m (a + i * (mw t / 8))) ->
  exists r, a_maskz_load e t l m a = Some r /\ in_reg (an e) r /\
    forall i, 0 <= i < aelems e t ->
      if p i then holds (mw t) m (a + i * (mw t / 8)) (pattern t r i) else pattern t r i = 0.
Proof. exact (a_maskz_load_ok e t l m a p). Qed.
Theorem C79_mask_store e t l m a v p : mem_type t -> native_logicals e -> alogical e (uty t) l p ->
  (forall i, 0 <= i < aelems e t -> p i = true -> mapped (mw t) m (a + i * (mw t / 8))) ->
  exists m', a_mask_store e t l m a v = Some m' /\
    (forall i, 0 <= i < aelems e t -> p i = true -> holds (mw t) m' (a + i * (mw t / 8)) (pattern t v i)) /\
    (forall x, (forall i, 0 <= i < aelems e t -> p i = true -> outside (mw t) (a + i * (mw t / 8)) x) -> m' x = m x).
Proof. exact (a_mask_store_ok e t l m a v p). Qed.
Theorem C79_masko_load_f16 l m a other p : alogical16 l p -> in_regs16 other ->
  (forall i, 0 <= i < 8 -> p i = true -> mapped 16 m (a + i * 2)) ->
  exists v, a_masko_load16 l m a other = Some v /\ in_regs16 v /\
    forall i, 0 <= i < 8 ->
      if p i then exists h, holds 16 m (a + i * 2) h /\ half_as_single h (apattern16 v i) else apattern16 v i = apattern16 other i.
Proof. exact (C58_masko_load_f16 Sse2 l m a other p). Qed.
Theorem C79_maskz_load_f16 l m a p : alogical16 l p -> (forall i, 0 <= i < 8 -> p i = true -> mapped 16 m (a + i * 2)) ->
  exists v, a_maskz_load16 l m a = Some v /\ in_regs16 v /\
    forall i, 0 <= i < 8 ->
      if p i then exists h, holds 16 m (a + i * 2) h /\ half_as_single h (apattern16 v i) else apattern16 v i = 0.
Proof. exact (C58_maskz_load_f16 Sse2 l m a p). Qed.
Theorem C79_mask_store_f16 l m a v p : alogical16 l p -> in_regs16 v ->
  (forall i, 0 <= i < 8 -> p i = true -> mapped 16 m (a + i * 2)) ->
  exists m', a_mask_store16 l m a v = Some m' /\
    (forall i, 0 <= i < 8 -> p i = true -> holds 16 m' (a + i * 2) (f32_to_u16 (apattern16 v i))) /\
    (forall x, (forall i, 0 <= i < 8 -> p i = true -> outside 16 (a + i * 2) x) -> m' x = m x).
Proof. exact (C58_mask_store_f16 Sse2 l m a v p). Qed.
(** integers: a logical is read from, and written as, elements that are zero or not *)
Theorem C79_loadl u e t m a (v : Z -> Z) : In t int_types ->
  (forall i, 0 <= i < an e / bits t -> holds (bits t) m (a + i * (bits t / 8)) (v i)) ->
  exists l, a_loadl u e t m a = Some l /\ alogical e t l (fun i => negb (v i =? 0)).
Proof. exact (a_loadl_ok u e t m a v). Qed.
Theorem C79_storel u e t m a l p : In t int_types -> alogical e t l p ->
  (forall i, 0 <= i < an e / bits t -> mapped (bits t) m (a + i * (bits t / 8))) ->
  exists m', a_storel u e t m a l = Some m' /\
    (forall i, 0 <= i < an e / bits t -> holds (bits t) m' (a + i * (bits t / 8)) (if p i then 1 else 0)) /\
    (forall x, x < a \/ a + an e / bits t * (bits t / 8) <= x -> m' x = m x).
Proof. exact (a_storel_ok u e t m a l p). Qed.
(** lanes 0 and 2 of four; the memory ends after element 2 *)
Example C79_ex : option_map (fun r => map (pattern (MI i32) r) [0; 1; 2; 3])
    (a_masko_load Neon128 (MI i32) (avec i32 [-1; 0; -1; 0]) (counting 12) 0 (avec i32 [5; 6; 7; 8])) = Some [0x03020100; 6; 0x0b0a0908; 8] /\
  option_map (fun r => map (pattern MF32 r) [0; 1; 2; 3])
    (a_maskz_load sve128 MF32 (2 ^ 0 + 2 ^ 8) (counting 12) 0) = Some [0x03020100; 0; 0x0b0a0908; 0] /\
  alogical sve128 (uty MF32) (2 ^ 0 + 2 ^ 8) (fun i => Z.even i) /\
  option_map (fun m : bmem => map m [0; 1; 2; 3; 4; 5; 8; 9; 12])
    (a_mask_store sve128 MF32 (2 ^ 0 + 2 ^ 8) (counting 12) 0 (avec u32 [100; 101; 102; 103])) =
    Some [Some 100; Some 0; Some 0; Some 0; Some 4; Some 5; Some 102; Some 0; None].
Proof.
  split; [vm_compute; reflexivity|]. split; [vm_compute; reflexivity|]. split; [|vm_compute; reflexivity].
  split; [cbn; lia|]. intros i Hi. change (an sve128 / bits (uty MF32)) with 4 in Hi.
  assert (i = 0 \/ i = 1 \/ i = 2 \/ i = 3) as [->|[->|[->| ->]]] by lia; reflexivity.
Qed.
Example C79_ex2 : a_loadl 0 Neon128 i32 (fun x => if (0 <=? x) && (x <? 16) then Some (if x <? 8 then 0 else x) else None) 0 = Some (avec i32 [0; 0; -1; -1]).
Proof. vm_compute. reflexivity. Qed.
Print Assumptions C79_masko_load. Print Assumptions C79_maskz_load. Print Assumptions C79_mask_store.
Print Assumptions C79_masko_load_f16. Print Assumptions C79_maskz_load_f16. Print Assumptions C79_mask_store_f16.
Print Assumptions C79_loadl. Print Assumptions C79_storel.

(** *** C80: gathers and scatters *)
Theorem C80_gather e t m a idx : mem_type t -> architectural e ->
  (forall i, 0 <= i < aelems e t -> mapped (mw t) m (a + index (mw t) idx i * (mw t / 8))) ->
  exists r, a_gather e t m a idx = Some r /\ in_reg (an e) r /\
    forall i, 0 <= i < aelems e t -> holds (mw t) m (a + index (mw t) idx i * (mw t / 8)) (pattern t r i).
Proof. exact (a_gather_ok e t m a idx). Qed.
Theorem C80_gather_linear e t m a step : mem_type t -> architectural e ->
  (forall i, 0 <= i < aelems e t -> in_ty i32 (i * step)) ->
  (forall i, 0 <= i < aelems e t -> mapped (mw t) m (a + i * step * (mw t / 8))) ->
  exists r, a_gather_linear e t m a step = Some r /\ in_reg (an e) r /\
    forall i, 0 <= i < aelems e t -> holds (mw t) m (a + i * step * (mw t / 8)) (pattern t r i).
Proof. exact (a_gather_linear_ok e t m a step). Qed.
(** where the lanes are written in order the highest of several lanes with the same index wins; otherwise an element
    is determined only if no other lane has its index *)
Theorem C80_scatter ord e t m a idx v : mem_type t -> architectural e -> lane_order (aelems e t) ord ->
  (forall i, 0 <= i < aelems e t -> mapped (mw t) m (a + index (mw t) idx i * (mw t / 8))) ->
  exists m', a_scatter ord e t m a idx v = Some m' /\
    (forall i, 0 <= i < aelems e t ->
       (forall j, 0 <= j < aelems e t -> j <> i -> index (mw t) idx j = index (mw t) idx i -> in_order e t /\ j < i) ->
       holds (mw t) m' (a + index (mw t) idx i * (mw t / 8)) (pattern t v i)) /\
    (forall x, (forall i, 0 <= i < aelems e t -> outside (mw t) (a + index (mw t) idx i * (mw t / 8)) x) -> m' x = m x).
Proof. exact (a_scatter_ok ord e t m a idx v). Qed.
Theorem C80_scatter_linear ord e t m a step v : mem_type t -> architectural e -> lane_order (aelems e t) ord ->
  (forall i, 0 <= i < aelems e t -> in_ty i32 (i * step)) ->
  (forall i, 0 <= i < aelems e t -> mapped (mw t) m (a + i * step * (mw t / 8))) ->
  exists m', a_scatter_linear ord e t m a step v = Some m' /\
    (step <> 0 -> forall i, 0 <= i < aelems e t -> holds (mw t) m' (a + i * step * (mw t / 8)) (pattern t v i)) /\
    (step = 0 -> in_order e t -> holds (mw t) m' a (pattern t v (aelems e t - 1))) /\
    (forall x, (forall i, 0 <= i < aelems e t -> outside (mw t) (a + i * step * (mw t / 8)) x) -> m' x = m x).
Proof. exact (a_scatter_linear_ok ord e t m a step v). Qed.
Theorem C80_gather_f16 m a idx : (forall i, 0 <= i < 8 -> mapped 16 m (a + index 16 idx i * 2)) ->
  exists v, a_gather16 m a idx = Some v /\ in_regs16 v /\
    forall i, 0 <= i < 8 -> exists h, holds 16 m (a + index 16 idx i * 2) h /\ half_as_single h (apattern16 v i).
Proof. exact (C60_gather_f16 Sse2 m a idx). Qed.
Theorem C80_gather_linear_f16 m a step : (forall i, 0 <= i < 8 -> in_ty i32 (i * step)) ->
  (forall i, 0 <= i < 8 -> mapped 16 m (a + i * step * 2)) ->
  exists v, a_gather_linear16 m a step = Some v /\ in_regs16 v /\
    forall i, 0 <= i < 8 -> exists h, holds 16 m (a + i * step * 2) h /\ half_as_single h (apattern16 v i).
Proof. exact (C60_gather_linear_f16 Sse2 m a step). Qed.
Theorem C80_scatter_f16 m a idx v : in_regs16 v -> (forall i, 0 <= i < 8 -> mapped 16 m (a + index 16 idx i * 2)) ->
  exists m', a_scatter16 m a idx v = Some m' /\
    (forall i, 0 <= i < 8 -> (forall j, i < j < 8 -> index 16 idx j <> index 16 idx i) ->
       holds 16 m' (a + index 16 idx i * 2) (f32_to_u16 (apattern16 v i))) /\
    (forall x, (forall i, 0 <= i < 8 -> outside 16 (a + index 16 idx i * 2) x) -> m' x = m x).
Proof. exact (C60_scatter_f16 Sse2 m a idx v). Qed.
Theorem C80_scatter_linear_f16 m a step v : in_regs16 v -> step <> 0 -> (forall i, 0 <= i < 8 -> in_ty i32 (i * step)) ->
  (forall i, 0 <= i < 8 -> mapped 16 m (a + i * step * 2)) ->
  exists m', a_scatter_linear16 m a step v = Some m' /\
    (forall i, 0 <= i < 8 -> holds 16 m' (a + i * step * 2) (f32_to_u16 (apattern16 v i))) /\
    (forall x, (forall i, 0 <= i < 8 -> outside 16 (a + i * step * 2) x) -> m' x = m x).
Proof. exact (C60_scatter_linear_f16 Sse2 m a step v). Qed.
(** indices 3, -1, 0, 3: the highest lane wins on NEON; on SVE with the lanes written from the highest to the lowest,
    lane 0 does *)
Example C80_ex : let m := (fun x => if (0 <=? x) && (x <? 64) then Some 0 else None) in
  option_map (fun m' : bmem => map m' [0; 4; 8; 12; 16]) (a_scatter (fun i => i) Neon128 (MI i32) m 4 (avec i32 [3; -1; 0; 3]) (avec i32 [1; 2; 3; 4]))
    = Some [Some 2; Some 3; Some 0; Some 0; Some 4] /\
  option_map (fun m' : bmem => map m' [0; 4; 8; 12; 16]) (a_scatter (fun i => 3 - i) sve128 (MI i32) m 4 (avec i32 [3; -1; 0; 3]) (avec i32 [1; 2; 3; 4]))
    = Some [Some 2; Some 3; Some 0; Some 0; Some 1] /\
  lane_order (aelems sve128 (MI i32)) (fun i => 3 - i).
Proof.
  cbv zeta. split; [vm_compute; reflexivity|]. split; [vm_compute; reflexivity|]. change (aelems sve128 (MI i32)) with 4.
  split; [intros; lia|]. split; [intros; lia|]. intros i Hi. exists (3 - i). lia.
Qed.
Example C80_ex2 : option_map (fun r => map (pattern (MI i16) r) [0; 1; 7]) (a_gather_linear sve128 (MI i16) (counting 64) 2 3) =
    Some [2 + 256 * 3; 8 + 256 * 9; 44 + 256 * 45] /\
  option_map (fun r => map (pattern MF64 r) [0; 1]) (a_gather_linear sve128 MF64 (counting 64) 56 (-1)) = Some [0x3f3e3d3c3b3a3938; 0x3736353433323130] /\
  option_map (fun r => map (pattern MF64 r) [0; 1]) (a_gather Neon128 MF64 (counting 64) 56 (avec i64 [-7; 0])) = Some [0x0706050403020100; 0x3f3e3d3c3b3a3938].
Proof. vm_compute. auto. Qed.
Print Assumptions C80_gather. Print Assumptions C80_gather_linear. Print Assumptions C80_scatter. Print Assumptions C80_scatter_linear.
Print Assumptions C80_gather_f16. Print Assumptions C80_gather_linear_f16. Print Assumptions C80_scatter_f16. Print Assumptions C80_scatter_linear_f16.
