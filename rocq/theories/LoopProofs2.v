(** Proofs about Loop.v: x86, ARM and POWER. *)
From Coq Require Import ZArith Lia List Bool ZifyBool.
From Verif Require Import CInt BitLemmas ScalarOps ScalarSpec ScalarProofs X86Deg234 X86Arith X86ArithSpec X86Mem X86MemSpec X86MemProofs
  Arm ArmSpec ArmMem ArmPermSpec Ppc PpcSpec PpcMem PpcMemSpec PropX86Arith PropX86Mem PropArm PropArmMem PropPpc PropPpcMem
  Portable PortableSpec PortableProofs PortableProofs2 PortableProofs3 PortableProofs4 PropPortable Loop LoopSpec LoopProofs.
Open Scope Z_scope.

Section Reg.
Variables (N : Z) (t : ity).
Hypothesis Ht : In t int_types.
Let w := bits t.
Let sz := w / 8.
Notation lanes := (all_lanes (N / w)).
Lemma bytes : ok8 w /\ 0 < sz /\ 8 * sz = w.
Proof. unfold ok8, w, sz. cbn in Ht. decompose [or] Ht; subst; try tauto; cbn; lia. Qed.
Lemma value_local m m' a v : (forall x, a <= x < a + sz -> m' x = m x) -> holds_value t m a v -> holds_value t m' a v.
Proof. intros E (I & H). split; [exact I|]. apply (holds_keep w m m' a _); [|exact H]. intros x O. apply E. unfold outside in O. fold sz in O. lia. Qed.
Lemma value_mapped m a v : holds_value t m a v -> forall x, a <= x < a + sz -> m x <> None.
Proof. intros (I & H) x Hx. pose proof (holds_mapped _ _ _ _ H (x - a) ltac:(fold w sz; lia)) as M. replace (a + (x - a)) with x in M by lia. exact M. Qed.
Lemma mapped_of m a : (forall x, a <= x < a + sz -> m x <> None) -> mapped w m a.
Proof. intros M k Hk. apply M. fold sz in Hk. lia. Qed.
Lemma pattern_value r i v m a : 0 <= i -> in_ty t v -> holds w m a (v mod 2 ^ w) -> holds w m a (pattern (MI t) r i) -> elt t r i = v.
Proof.
  intros Hi I H H'. pose proof (holds_unique w m a _ _ (proj1 bytes) H H') as E. unfold pattern, mw in E. cbn [X86Mem.uty] in E. fold w in E. unfold elt. fold w. rewrite <- E. rewrite <- (cast_id t v Ht I) at 2.
  apply cast_congr. apply Z.mod_mod. fold w. pose proof (bits_pos t Ht). fold w in H0. apply Z.pow_nonzero; lia.
Qed.
Lemma elt_pattern r i : elt t r i mod 2 ^ w = pattern (MI t) r i.
Proof.
  unfold elt, pattern, mw. cbn [X86Mem.uty]. unfold w. rewrite cast_mod by exact Ht. apply Z.mod_mod. pose proof (bits_pos t Ht). apply Z.pow_nonzero; lia.
Qed.
Lemma reg_load ld m a f : ((forall i, 0 <= i < N / w -> mapped w m (a + i * sz)) ->
    exists r, ld = Some r /\ in_reg N r /\ forall i, 0 <= i < N / w -> holds w m (a + i * sz) (pattern (MI t) r i)) ->
  lanes (fun i => holds_value t m (a + i * sz) (f i)) -> exists r, ld = Some r /\ rep N t r f.
Proof.
  intros S H. destruct S as (r & R & I & P). { intros i Hi. exact (holds_mapped _ _ _ _ (proj2 (H i Hi))). }
  exists r. split; [exact R|]. split; [exact I|]. intros i Hi. destruct (H i Hi) as (J & V). apply (pattern_value r i (f i) m (a + i * sz) ltac:(lia) J V (P i Hi)).
Qed.
Lemma reg_maskz ld m a f p : ((forall i, 0 <= i < N / w -> p i = true -> mapped w m (a + i * sz)) ->
    exists r, ld = Some r /\ in_reg N r /\ forall i, 0 <= i < N / w -> if p i then holds w m (a + i * sz) (pattern (MI t) r i) else pattern (MI t) r i = 0) ->
  lanes (fun i => p i = true -> holds_value t m (a + i * sz) (f i)) -> exists r, ld = Some r /\ rep N t r (fun i => if p i then f i else 0).
Proof.
  intros S H. destruct S as (r & R & I & P). { intros i Hi Q. exact (holds_mapped _ _ _ _ (proj2 (H i Hi Q))). }
  exists r. split; [exact R|]. split; [exact I|]. intros i Hi. specialize (P i Hi). specialize (H i Hi). cbv beta in H. destruct (p i).
  - destruct (H eq_refl) as (J & V). apply (pattern_value r i (f i) m (a + i * sz) ltac:(lia) J V P).
  - unfold pattern, mw in P. cbn [X86Mem.uty] in P. unfold elt. rewrite P. apply cast_id; [exact Ht|]. apply in_ty_cast_0, Ht.
Qed.
Lemma reg_store_value r f m a i : rep N t r f -> 0 <= i < N / w -> holds w m a (pattern (MI t) r i) -> holds_value t m a (f i).
Proof.
  intros (I & F) Hi H. rewrite <- (F i Hi). split; [apply elt_in, Ht|]. fold w. rewrite elt_pattern. exact H.
Qed.
Lemma eval_rep (run : (nat -> Z) -> vexp -> option Z) : (forall env ex, (forall k, in_reg N (env k)) ->
    (forall i, 0 <= i < N / w -> element t (fun k => elt t (env k) i) i ex <> None) ->
    exists r, run env ex = Some r /\ in_reg N r /\ forall i, 0 <= i < N / w -> element t (fun k => elt t (env k) i) i ex = Some (elt t r i)) ->
  forall env args ex, (forall k, rep N t (env k) (args k)) -> lanes (fun i => element t (fun k => args k i) i ex <> None) ->
  exists r, run env ex = Some r /\ rep N t r (fun i => val (element t (fun k => args k i) i ex)).
Proof.
  intros C env args ex E D.
  assert (forall i, 0 <= i < N / w -> element t (fun k => elt t (env k) i) i ex = element t (fun k => args k i) i ex) as X.
  { intros i Hi. apply element_ext. intros k. apply (proj2 (E k)). exact Hi. }
  destruct (C env ex (fun k => proj1 (E k))) as (r & R & I & F). { intros i Hi. rewrite X by exact Hi. exact (D i Hi). }
  exists r. split; [exact R|]. split; [exact I|]. intros i Hi. fold w in Hi. rewrite <- (X i Hi), (F i Hi). reflexivity.
Qed.
End Reg.

Lemma i32_fits z : - 2 ^ 31 <= z < 2 ^ 31 -> in_ty i32 z. Proof. unfold in_ty. change (ty_min i32) with (- 2 ^ 31). change (ty_max i32) with (2 ^ 31 - 1). lia. Qed.

Lemma x86_loop e t undef d body srcs dst n v m : In t int_types -> in_reg (nb e) undef -> loop_data t (nb e / bits t) body srcs dst n v m ->
  exists m', simd_loop (x86_m e t undef) d body srcs dst n m = Some m' /\ loop_result t (nb e / bits t) body dst n v m m'.
Proof.
  intros Ht Hu (Hn & Hi & Ho & Hs & Hd & Ha & He & Hz).
  refine (vector_loop_ok _ (mb_mem (x86_m e t undef)) _ (fun env i => element t env i body) d srcs (rep (nb e) t) (logical e t) (holds_value t) (fun _ => True) (x_lanes e t undef Ht Hu) (proj1 (proj2 (bytes t Ht)))
    (eval_vars (x86_m e t undef) t (rep (nb e) t) d body srcs _ _ _ Ho) (value_local t) (value_mapped t) _ _ _ _ _ dst n v m Hn Hi Hs Hd Ha (fun _ _ _ => I) (fun _ => I) He Hz).
  - exists (x_set1 e t 0), (fun _ => 0). exact (C49_set1 e t 0 Ht (in_ty_cast_0 t Ht)).
  - exact (rep_ext (nb e) t).
  - apply (eval_rep (nb e) t (veval (x86 e t undef))). intros env ex. exact (C124_x86 e t undef env ex Ht Hu).
  - intros m1 a f _ H. apply (reg_load (nb e) t Ht _ m1 a f); [|exact H]. exact (C58_load e (MI t) m1 a Ht).
  - intros m1 a r f _ R M. destruct (C58_store e (MI t) m1 a r Ht (proj1 R)) as (m' & S & A & F). { intros i Hi'. apply mapped_of. exact (M i Hi'). }
    exists m'. split; [exact S|]. split; [|exact F]. intros i Hi'. exact (reg_store_value (nb e) t Ht r f m' _ i R Hi' (A i Hi')).
  - intros i k Hik _ Hk. apply C59_mask_for_loop_tail; [exact Ht|apply i32_fits; pose proof (x_lanes e t undef Ht Hu); cbn [mo_len mb_mem x86_m] in Hk; lia..].
  - intros l p m1 a f L H. apply (reg_maskz (nb e) t Ht _ m1 a f p); [|exact H]. exact (C58_maskz_load e (MI t) l m1 a p Ht L).
  - intros l p m1 a r f L R M. destruct (C58_mask_store e (MI t) l m1 a r p Ht L (proj1 R)) as (m' & S & A & F). { intros i Hi' P. apply mapped_of. exact (M i Hi' P). }
    exists m'. split; [exact S|]. split.
    + intros i Hi' P. exact (reg_store_value (nb e) t Ht r f m' _ i R Hi' (A i Hi' P)).
    + intros x Hx. apply F. intros i Hi' P. destruct (Hx i Hi' P) as [Q|Q]; [left|right]; exact Q.
Qed.
Lemma arm_loop u e t d body srcs dst n v m : In t int_types -> architectural e -> native_logicals e -> (t = i8 -> an e <= 1024) -> loop_data t (an e / bits t) body srcs dst n v m ->
  exists m', simd_loop (arm_m u e t) d body srcs dst n m = Some m' /\ loop_result t (an e / bits t) body dst n v m m'.
Proof.
  intros Ht Har Hl H8 (Hn & Hi & Ho & Hs & Hd & Ha & He & Hz).
  refine (vector_loop_ok _ (mb_mem (arm_m u e t)) _ (fun env i => element t env i body) d srcs (rep (an e) t) (alogical e t) (holds_value t) (fun _ => True) (a_lanes e t Ht Har Hl) (proj1 (proj2 (bytes t Ht)))
    (eval_vars (arm_m u e t) t (rep (an e) t) d body srcs _ _ _ Ho) (value_local t) (value_mapped t) _ _ _ _ _ dst n v m Hn Hi Hs Hd Ha (fun _ _ _ => I) (fun _ => I) He Hz).
  - exists (a_set1 e t 0), (fun _ => 0). exact (proj1 (C70_set1_len e t 0 Ht (in_ty_cast_0 t Ht))).
  - exact (rep_ext (an e) t).
  - apply (eval_rep (an e) t (veval (arm u e t))). intros env ex. exact (C124_arm u e t env ex Ht Har Hl).
  - intros m1 a f _ H. apply (reg_load (an e) t Ht _ m1 a f); [|exact H]. exact (C78_load e (MI t) m1 a Ht).
  - intros m1 a r f _ R M. destruct (C78_store e (MI t) m1 a r Ht (proj1 R)) as (m' & S & A & F). { intros i Hi'. apply mapped_of. exact (M i Hi'). }
    exists m'. split; [exact S|]. split; [|exact F]. intros i Hi'. exact (reg_store_value (an e) t Ht r f m' _ i R Hi' (A i Hi')).
  - intros i k Hik _ Hk. apply C75_mask_for_loop_tail; try assumption. right. apply i32_fits. pose proof (a_lanes e t Ht Har Hl). cbn [mo_len mb_mem arm_m] in Hk. lia.
  - intros l p m1 a f L H. apply (reg_maskz (an e) t Ht _ m1 a f p); [|exact H]. exact (C79_maskz_load e (MI t) l m1 a p Ht Hl L).
  - intros l p m1 a r f L R M. destruct (C79_mask_store e (MI t) l m1 a r p Ht Hl L) as (m' & S & A & F). { intros i Hi' P. apply mapped_of. exact (M i Hi' P). }
    exists m'. split; [exact S|]. split.
    + intros i Hi' P. exact (reg_store_value (an e) t Ht r f m' _ i R Hi' (A i Hi' P)).
    + intros x Hx. apply F. intros i Hi' P. destruct (Hx i Hi' P) as [Q|Q]; [left|right]; exact Q.
Qed.
Lemma power_loop al e t d body srcs dst n v m : In t int_types -> vector_address (MI t) dst -> (forall k, (k < length srcs)%nat -> vector_address (MI t) (nth k srcs 0)) ->
  loop_data t (128 / bits t) body srcs dst n v m ->
  exists m', simd_loop (power_m al e t) d body srcs dst n m = Some m' /\ loop_result t (128 / bits t) body dst n v m m'.
Proof.
  intros Ht Vd Vs (Hn & Hi & Ho & Hs & Hd & Ha & He & Hz).
  assert (forall a q, vector_address (MI t) a -> vector_address (MI t) (a + q * (128 / bits t) * (bits t / 8))) as K.
  { intros a q [W|W]; [left; exact W|right]. apply Z.divide_add_r; [exact W|]. exists q. rewrite <- Z.mul_assoc. f_equal. cbn in Ht. decompose [or] Ht; subst; try tauto; reflexivity. }
  refine (vector_loop_ok _ (mb_mem (power_m al e t)) _ (fun env i => element t env i body) d srcs (rep 128 t) (plogical t) (holds_value t) (vector_address (MI t)) (p_lanes t Ht) (proj1 (proj2 (bytes t Ht)))
    (eval_vars (power_m al e t) t (rep 128 t) d body srcs _ _ _ Ho) (value_local t) (value_mapped t) _ _ _ _ _ dst n v m Hn Hi Hs Hd Ha (fun k q Hk => K _ q (Vs k Hk)) (fun q => K _ q Vd) He Hz).
  - exists (p_set1 e t 0), (fun _ => 0). exact (C99_set1 e t 0 Ht (in_ty_cast_0 t Ht)).
  - exact (rep_ext 128 t).
  - apply (eval_rep 128 t (veval (power e t))). intros env ex. exact (C124_power e t env ex Ht).
  - intros m1 a f V H. apply (reg_load 128 t Ht _ m1 a f); [|exact H]. exact (C103_load al e (MI t) m1 a Ht V).
  - intros m1 a r f V R M. destruct (C103_store al e (MI t) m1 a r Ht V (proj1 R)) as (m' & S & A & F). { intros i Hi'. apply mapped_of. exact (M i Hi'). }
    exists m'. split; [exact S|]. split.
    + intros i Hi'. exact (reg_store_value 128 t Ht r f m' _ i R Hi' (A i Hi')).
    + intros x Hx. apply F. cbn [mo_len mo_size mb_mem power_m] in Hx. replace (128 / bits t * (bits t / 8)) with 16 in Hx; [exact Hx|]. cbn in Ht. decompose [or] Ht; subst; try tauto; reflexivity.
  - intros i k Hik _ Hk. apply C101_mask_for_loop_tail; [exact Ht|]. right. apply i32_fits. pose proof (p_lanes t Ht). cbn [mo_len mb_mem power_m] in Hk. lia.
  - intros l p m1 a f L H. apply (reg_maskz 128 t Ht _ m1 a f p); [|exact H]. exact (C104_maskz_load e (MI t) l m1 a p Ht L).
  - intros l p m1 a r f L R M. destruct (C104_mask_store e (MI t) l m1 a r p Ht L) as (m' & S & A & F). { intros i Hi' P. apply mapped_of. exact (M i Hi' P). }
    exists m'. split; [exact S|]. split.
    + intros i Hi' P. exact (reg_store_value 128 t Ht r f m' _ i R Hi' (A i Hi' P)).
    + intros x Hx. apply F. intros i Hi' P. destruct (Hx i Hi' P) as [Q|Q]; [left|right]; exact Q.
Qed.
