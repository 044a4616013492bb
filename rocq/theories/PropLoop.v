(** C125: the loop of the tutorial, with any integer expression as its body, on every back end. *)
From Coq Require Import ZArith Lia List Bool ZifyBool.
From Verif Require Import CInt ScalarOps ScalarSpec ScalarProofs CpuSimd X86Deg234 X86Arith X86ArithSpec X86Mem X86MemSpec
  Arm ArmSpec ArmMem ArmPermSpec PropArm PropArmMem Ppc PpcSpec PpcMem PpcMemSpec Portable PortableSpec PortableProofs PortableProofs2 PropPortable Loop LoopSpec LoopProofs LoopProofs2 LoopProofs3.
Open Scope Z_scope.

Theorem C125_x86 e t undef d body srcs dst n v m : In t int_types -> in_reg (nb e) undef -> loop_data t (nb e / bits t) body srcs dst n v m ->
  exists m', simd_loop (x86_m e t undef) d body srcs dst n m = Some m' /\ loop_result t (nb e / bits t) body dst n v m m'.
Proof. exact (x86_loop e t undef d body srcs dst n v m). Qed.
Print Assumptions C125_x86.
(** On SVE with vectors of more than 1024 bits mask_for_loop_tail is wrong on i8 (C75). *)
Theorem C125_arm u e t d body srcs dst n v m : In t int_types -> architectural e -> native_logicals e -> (t = i8 -> an e <= 1024) ->
  loop_data t (an e / bits t) body srcs dst n v m ->
  exists m', simd_loop (arm_m u e t) d body srcs dst n m = Some m' /\ loop_result t (an e / bits t) body dst n v m m'.
Proof. exact (arm_loop u e t d body srcs dst n v m). Qed.
Print Assumptions C125_arm.
(** On POWER, loads and stores of types of less than 64 bits need aligned addresses (C103), even loadu and storeu. *)
Theorem C125_power al e t d body srcs dst n v m : In t int_types -> vector_address (MI t) dst -> (forall k, (k < length srcs)%nat -> vector_address (MI t) (nth k srcs 0)) ->
  loop_data t (128 / bits t) body srcs dst n v m ->
  exists m', simd_loop (power_m al e t) d body srcs dst n m = Some m' /\ loop_result t (128 / bits t) body dst n v m m'.
Proof. exact (power_loop al e t d body srcs dst n v m). Qed.
Print Assumptions C125_power.
(** The memory of the CPU model holds elements, not bytes. *)
Theorem C125_cpu t len d body srcs dst n v (m : Z -> option Z) : In t int_types -> (0 < len)%nat ->
  0 <= n -> n + Z.of_nat len < 2 ^ 31 -> (forall k, occurs k body = true -> (k < length srcs)%nat) ->
  (forall k j, (k < length srcs)%nat -> 0 <= j < n -> m (nth k srcs 0 + j) = Some (v k j) /\ in_ty t (v k j)) ->
  (forall x, dst <= x < dst + n -> m x <> None) ->
  (forall k, (k < length srcs)%nat -> same_or_apart 1 n (nth k srcs 0) dst) ->
  (forall j, 0 <= j < n -> element t (fun k => v k j) (j mod Z.of_nat len) body <> None) ->
  (forall j, 0 <= j < Z.of_nat len -> n mod Z.of_nat len <= j -> element t (fun _ => 0) j body <> None) ->
  exists m', simd_loop (cpu_m t len) d body srcs dst n m = Some m' /\
    (forall j, 0 <= j < n -> exists r, element t (fun k => v k j) (j mod Z.of_nat len) body = Some r /\ m' (dst + j) = Some r /\ in_ty t r) /\
    (forall x, x < dst \/ dst + n <= x -> m' x = m x).
Proof. exact (cpu_loop t len d body srcs dst n v m). Qed.
Print Assumptions C125_cpu.

(** ** The length of the vectors does not matter *)
Lemma element_position t env i j : forall ex, uses_position ex = false -> element t env i ex = element t env j ex.
Proof.
  apply (vexp_mut (fun ex => uses_position ex = false -> element t env i ex = element t env j ex)
    (fun l => uses_positionl l = false -> logical_element t env i l = logical_element t env j l));
  cbn [element logical_element uses_position uses_positionl]; intros;
  repeat match goal with H : (_ || _) = false |- _ => apply orb_false_elim in H; destruct H end;
  repeat match goal with H : ?P -> _ = _ |- _ => rewrite H by assumption; clear H end; try reflexivity; discriminate.
Qed.
(** A loop whose body does not use iota writes the same values on every back end, whatever the lengths of the vectors. *)
Theorem C125_agreement e undef u a al p t dx da dp body srcs dst n v m :
  In t int_types -> in_reg (nb e) undef -> architectural a -> native_logicals a -> (t = i8 -> an a <= 1024) ->
  vector_address (MI t) dst -> (forall k, (k < length srcs)%nat -> vector_address (MI t) (nth k srcs 0)) ->
  uses_position body = false ->
  0 <= n < 2 ^ 31 - 256 -> (forall k, occurs k body = true -> (k < length srcs)%nat) ->
  (forall k j, (k < length srcs)%nat -> 0 <= j < n -> holds_value t m (nth k srcs 0 + j * (bits t / 8)) (v k j)) ->
  (forall x, dst <= x < dst + n * (bits t / 8) -> m x <> None) ->
  (forall k, (k < length srcs)%nat -> same_or_apart (bits t / 8) n (nth k srcs 0) dst) ->
  (forall j, 0 <= j < n -> element t (fun k => v k j) 0 body <> None) -> element t (fun _ => 0) 0 body <> None ->
  exists mx ma mp, simd_loop (x86_m e t undef) dx body srcs dst n m = Some mx /\ simd_loop (arm_m u a t) da body srcs dst n m = Some ma /\
    simd_loop (power_m al p t) dp body srcs dst n m = Some mp /\
    (forall j, 0 <= j < n -> exists r, element t (fun k => v k j) 0 body = Some r /\
      holds_value t mx (dst + j * (bits t / 8)) r /\ holds_value t ma (dst + j * (bits t / 8)) r /\ holds_value t mp (dst + j * (bits t / 8)) r) /\
    (forall x, x < dst \/ dst + n * (bits t / 8) <= x -> mx x = m x /\ ma x = m x /\ mp x = m x).
Proof.
  intros Ht Hu Ha Hl H8 Vd Vs Hp Hn Ho Hs Hd Hal He Hz.
  assert (forall len, 0 < len <= 256 -> loop_data t len body srcs dst n v m) as D.
  { intros len L. repeat (split; [first [assumption|lia]|]). split.
    - intros j Hj. rewrite (element_position t _ _ 0 body Hp). exact (He j Hj).
    - intros j Hj _. rewrite (element_position t _ _ 0 body Hp). exact Hz. }
  assert (forall N, 128 <= N <= 2048 -> 0 < N / bits t <= 256) as B.
  { intros N R. assert (8 <= bits t <= 64) by (cbn in Ht; decompose [or] Ht; subst; try tauto; cbn; lia). split.
    - apply Z.div_str_pos. lia.
    - apply Z.div_le_upper_bound; lia. }
  destruct (x86_loop e t undef dx body srcs dst n v m Ht Hu) as (mx & X & Rx & Fx). { apply D, B. destruct e; cbn; lia. }
  destruct (arm_loop u a t da body srcs dst n v m Ht Ha Hl H8) as (ma & A & Ra & Fa). { apply D, B. unfold architectural in Ha. split; [|exact Ha]. destruct a; cbn [an]; lia. }
  destruct (power_loop al p t dp body srcs dst n v m Ht Vd Vs) as (mp & P & Rp & Fp). { apply D, B. lia. }
  exists mx, ma, mp. repeat (split; [assumption|]). split.
  - intros j Hj. destruct (Rx j Hj) as (r & E & H). destruct (Ra j Hj) as (r1 & E1 & H1). destruct (Rp j Hj) as (r2 & E2 & H2).
    rewrite (element_position t _ _ 0 body Hp) in E. rewrite (element_position t _ _ 0 body Hp) in E1. rewrite (element_position t _ _ 0 body Hp) in E2. exists r. assert (r1 = r) by congruence. assert (r2 = r) by congruence. subst. auto.
  - intros x Hx. auto.
Qed.
Print Assumptions C125_agreement.

(** ** The tutorial *)
Lemma uppercase_element t env i : In t int_types -> in_ty t (env O) -> room t (env O) ->
  exists r, element t env i (uppercase_body t) = Some r /\ uppercase1 t (env O) = Some r.
Proof.
  intros Ht I R. unfold uppercase_body. cbn [element logical_element scalar_rel scalar_lop scalar2]. set (x := env O) in *. clearbody x.
  assert (cast t 97 = 97 /\ cast t 122 = 122) as (E1 & E2) by (cbn in Ht; decompose [or] Ht; subst; try tauto; split; reflexivity). rewrite E1, E2.
  assert (forall y, in_ty t y -> ((ty_min t <=? y) && (y <=? ty_max t)) = true) as S by (unfold in_ty; intros; lia).
  rewrite (S 97), (S 122), (S (cast t (65 - 97))) by (first [apply cast_in_ty; exact Ht | rewrite <- E1; apply cast_in_ty; exact Ht | rewrite <- E2; apply cast_in_ty; exact Ht]).
  assert (exists y, s_add t x (cast t (65 - 97)) = Some y) as (y & Y).
  { unfold s_add, carith. unfold in_ty in I. unfold room in R. cbn in Ht. decompose [or] Ht; subst; try tauto;
    match goal with |- context [promote ?t] => let p := eval vm_compute in (promote t) in change (promote t) with p end;
    match goal with |- context [cast ?t (65 - 97)] => let p := eval vm_compute in (cast t (65 - 97)) in change (cast t (65 - 97)) with p end;
    match goal with |- context [is_signed ?t] => let p := eval vm_compute in (is_signed t) in change (is_signed t) with p end; cbv iota;
    try (cbn [casted bind]; eexists; reflexivity);
    match goal with |- context [ty_min ?t <=? ?z] => replace ((ty_min t <=? z) && (z <=? ty_max t)) with true; [eexists; reflexivity|] end;
    first [ specialize (R eq_refl ltac:(cbn; lia)) | clear R ]; symmetry; apply andb_true_intro; unfold ty_min, ty_max in *; cbn [is_signed bits] in *; split; apply Z.leb_le; cbn in *; lia. }
  rewrite Y. eexists. split; [reflexivity|]. unfold uppercase1, s_ge, s_le. destruct ((97 <=? x) && (x <=? 122)) eqn:C; [|reflexivity].
  apply s_add_value in Y; [|exact Ht]. apply wraps_cast in Y; [|exact Ht]. symmetry in Y.
  assert (cast t (x + (65 - 97)) = y) as W.
  { rewrite <- Y. apply cast_congr. rewrite (Z.add_mod x (cast t (65 - 97))), cast_mod by (first [exact Ht | apply Z.pow_nonzero; pose proof (bits_pos t Ht); lia]).
    rewrite <- Z.add_mod by (apply Z.pow_nonzero; pose proof (bits_pos t Ht); lia). reflexivity. }
  assert (carith (promote t) (x + (65 - 97)) = Some (x + (65 - 97))) as K.
  { unfold carith, to_u. clear Y W S E1 E2 I R. cbn in Ht. decompose [or] Ht; subst; try tauto;
    match goal with |- context [promote ?t] => let p := eval vm_compute in (promote t) in change (promote t) with p end;
    match goal with |- context [is_signed ?t] => let p := eval vm_compute in (is_signed t) in change (is_signed t) with p end; cbv iota;
    try (rewrite Z.mod_small by (cbn; lia); reflexivity);
    match goal with |- context [ty_min ?t <=? ?z] => replace ((ty_min t <=? z) && (z <=? ty_max t)) with true; [reflexivity|] end;
    symmetry; apply andb_true_intro; split; apply Z.leb_le; cbn; lia. }
  rewrite K. cbn [casted bind]. rewrite W. reflexivity.
Qed.

Lemma text_data t len dst src n x m : In t int_types -> text t len dst src n x m -> loop_data t len (uppercase_body t) (src :: nil) dst n (fun _ => x) m.
Proof.
  intros Ht (Hn & Hi & Hs & Hd & Ha). split; [exact Hn|]. split; [exact Hi|]. split; [intros k; destruct k; cbn; [lia|discriminate]|].
  split. { intros k j Hk Hj. destruct k; [|cbn in Hk; lia]. exact (proj1 (Hs j Hj)). } split; [exact Hd|].
  split. { intros k Hk. destruct k; [|cbn in Hk; lia]. exact Ha. } split.
  - intros j Hj. destruct (Hs j Hj) as ((I & _) & R). destruct (uppercase_element t (fun _ => x j) (j mod len) Ht I R) as (r & E & _). rewrite E. discriminate.
  - intros j Hj _. destruct (uppercase_element t (fun _ => 0) j Ht (in_ty_cast_0 t Ht)) as (r & E & _).
    + intros S W. cbn in Ht. decompose [or] Ht; subst; try tauto; cbn in *; lia.
    + rewrite E. discriminate.
Qed.
Lemma text_result t len dst src n x m m' : In t int_types -> text t len dst src n x m -> loop_result t len (uppercase_body t) dst n (fun _ => x) m m' -> uppercased t dst n x m m'.
Proof.
  intros Ht (_ & _ & Hs & _) (R & F). split; [|exact F]. intros j Hj. destruct (R j Hj) as (r & E & H). destruct (Hs j Hj) as ((I & _) & W).
  destruct (uppercase_element t (fun _ => x j) (j mod len) Ht I W) as (r' & E' & U). exists r. split; [|exact H]. rewrite E in E'. injection E' as ->. exact U.
Qed.
Theorem C125_tutorial_x86 e t undef d dst src n x m : In t int_types -> in_reg (nb e) undef -> text t (nb e / bits t) dst src n x m ->
  exists m', uppercase_simd (x86_m e t undef) d t dst src n m = Some m' /\ uppercased t dst n x m m'.
Proof.
  intros Ht Hu D. destruct (C125_x86 e t undef d (uppercase_body t) (src :: nil) dst n (fun _ => x) m Ht Hu (text_data _ _ _ _ _ _ _ Ht D)) as (m' & E & R).
  exists m'. split; [exact E|exact (text_result _ _ _ _ _ _ _ _ Ht D R)].
Qed.
Print Assumptions C125_tutorial_x86.
Theorem C125_tutorial_arm u e t d dst src n x m : In t int_types -> architectural e -> native_logicals e -> (t = i8 -> an e <= 1024) -> text t (an e / bits t) dst src n x m ->
  exists m', uppercase_simd (arm_m u e t) d t dst src n m = Some m' /\ uppercased t dst n x m m'.
Proof.
  intros Ht A N H8 D. destruct (C125_arm u e t d (uppercase_body t) (src :: nil) dst n (fun _ => x) m Ht A N H8 (text_data _ _ _ _ _ _ _ Ht D)) as (m' & E & R).
  exists m'. split; [exact E|exact (text_result _ _ _ _ _ _ _ _ Ht D R)].
Qed.
Print Assumptions C125_tutorial_arm.
Theorem C125_tutorial_power al e t d dst src n x m : In t int_types -> vector_address (MI t) dst -> vector_address (MI t) src -> text t (128 / bits t) dst src n x m ->
  exists m', uppercase_simd (power_m al e t) d t dst src n m = Some m' /\ uppercased t dst n x m m'.
Proof.
  intros Ht Vd Vs D. destruct (C125_power al e t d (uppercase_body t) (src :: nil) dst n (fun _ => x) m Ht Vd) as (m' & E & R).
  { intros k Hk. destruct k; [exact Vs|cbn in Hk; lia]. } { exact (text_data _ _ _ _ _ _ _ Ht D). }
  exists m'. split; [exact E|exact (text_result _ _ _ _ _ _ _ _ Ht D R)].
Qed.
Print Assumptions C125_tutorial_power.
Theorem C125_tutorial_cpu t len d dst src n x (m : Z -> option Z) : In t int_types -> (0 < len)%nat -> 0 <= n -> n + Z.of_nat len < 2 ^ 31 ->
  (forall j, 0 <= j < n -> m (src + j) = Some (x j) /\ in_ty t (x j) /\ room t (x j)) -> (forall a, dst <= a < dst + n -> m a <> None) -> same_or_apart 1 n src dst ->
  exists m', uppercase_simd (cpu_m t len) d t dst src n m = Some m' /\ (forall j, 0 <= j < n -> exists r, uppercase1 t (x j) = Some r /\ m' (dst + j) = Some r) /\
    (forall a, a < dst \/ dst + n <= a -> m' a = m a).
Proof.
  intros Ht Hl Hn Hi Hs Hd Ha. destruct (C125_cpu t len d (uppercase_body t) (src :: nil) dst n (fun _ => x) m Ht Hl Hn Hi) as (m' & E & R & F).
  - intros k. destruct k; cbn; [lia|discriminate].
  - intros k j Hk Hj. destruct k; [|cbn in Hk; lia]. destruct (Hs j Hj) as (H & I & _). split; assumption.
  - exact Hd.
  - intros k Hk. destruct k; [|cbn in Hk; lia]. exact Ha.
  - intros j Hj. destruct (Hs j Hj) as (_ & I & R). destruct (uppercase_element t (fun _ => x j) (j mod Z.of_nat len) Ht I R) as (r & E & _). rewrite E. discriminate.
  - intros j Hj _. destruct (uppercase_element t (fun _ => 0) j Ht (in_ty_cast_0 t Ht)) as (r & E & _).
    + intros S W. cbn in Ht. decompose [or] Ht; subst; try tauto; cbn in *; lia.
    + rewrite E. discriminate.
  - exists m'. split; [exact E|]. split; [|exact F]. intros j Hj. destruct (R j Hj) as (r & E1 & H & _). destruct (Hs j Hj) as (_ & I & W).
    destruct (uppercase_element t (fun _ => x j) (j mod Z.of_nat len) Ht I W) as (r' & E' & U). exists r. split; [|exact H]. rewrite E1 in E'. injection E' as ->. exact U.
Qed.
Print Assumptions C125_tutorial_cpu.

(** ** The hypotheses are needed *)
(** [room]: the vector version computes [text + ('A' - 'a')] in every lane, the scalar one only where it is used.  On i32 the
    CPU back end overflows on an element that the scalar loop copies. *)
Theorem C125_overflow_refuted : exists x, in_ty i32 x /\ uppercase1 i32 x = Some x /\
  forall d, uppercase_simd (cpu_m i32 4) d i32 0 0 1 (fun a => if a =? 0 then Some x else None) = None.
Proof. exists (- 2 ^ 31). split; [split; vm_compute; discriminate|]. split; [reflexivity|]. intros d. vm_compute. reflexivity. Qed.
Print Assumptions C125_overflow_refuted.
(** [n + len < 2^31]: the condition [i + l <= n] overflows [int] on the last iteration, whatever the body and the arrays. *)
Theorem C125_near_int_max_refuted : forall B d body srcs dst n m, mo_len (mb_mem B) = 16 -> 2 ^ 31 - 16 <= n < 2 ^ 31 -> simd_loop B d body srcs dst n m = None.
Proof.
  intros B d body srcs dst n m L Hn. unfold simd_loop, vector_loop.
  enough (forall fuel i m, 0 <= i <= n -> i mod 16 = 0 -> full_vectors fuel (mb_mem B) (fun env => veval B env body) d srcs dst n i m = None) as H by (rewrite H by (try reflexivity; lia); reflexivity).
  induction fuel as [|fuel IH]; intros i m1 Hi Hm; [reflexivity|]. cbn [full_vectors]. rewrite L. unfold carith. change (is_signed i32) with true. cbv iota.
  change (ty_min i32) with (- 2 ^ 31). change (ty_max i32) with (2 ^ 31 - 1). destruct ((- 2 ^ 31 <=? i + 16) && (i + 16 <=? 2 ^ 31 - 1)) eqn:E; [|reflexivity]. cbn [bind].
  pose proof (Z.div_mod i 16 ltac:(lia)). destruct (Z.leb_spec (i + 16) n); [|lia]. destruct (load_all _ srcs); [|reflexivity]. cbn [bind]. destruct (veval B _ body); [|reflexivity]. cbn [bind].
  destruct (mo_store (mb_mem B) m1 _ _); [|reflexivity]. cbn [bind]. apply IH; [lia|]. rewrite <- Hm. replace (i + 16) with (i + 1 * 16) by lia. apply Z.mod_add. lia.
Qed.
Print Assumptions C125_near_int_max_refuted.
(** The body must be defined on zeros: 1 / x on an array of ones divides by zero in the lanes after the end of the array. *)
Theorem C125_tail_refuted : element i32 (fun _ => 1) 0 (Op2 Div (Splat 1) (Arg 0)) = Some 1 /\
  forall d, simd_loop (x86_m Sse42 i32 0) d (Op2 Div (Splat 1) (Arg 0)) (0 :: nil) 0 1 (fun a => if (0 <=? a) && (a <? 4) then Some (if a =? 0 then 1 else 0) else None) = None.
Proof. split; [reflexivity|]. intros d. vm_compute. reflexivity. Qed.
Print Assumptions C125_tail_refuted.
(** On SVE with vectors of more than 1024 bits, a text of at least 128 elements of i8 that fills no vector: its first element is
    not converted, whatever it is (C75). *)
Theorem C125_sve_i8_refuted u vq d dst src n m : 8 < Zpos vq <= 16 -> 128 <= n < 16 * Zpos vq ->
  (forall i, 0 <= i < 16 * Zpos vq -> m (src + i) <> None /\ m (dst + i) <> None) ->
  exists m', uppercase_simd (arm_m u (Sve false vq) i8) d i8 dst src n m = Some m' /\ m' dst = m dst.
Proof.
  intros Hv Hn Hm. assert (In i8 int_types) as Ht by (cbn; tauto). assert (native_logicals (Sve false vq)) as Hl by (intros vq0 E; discriminate E). assert (architectural (Sve false vq)) as Har by (unfold architectural; cbn [an]; lia).
  assert (an (Sve false vq) / bits i8 = 16 * Zpos vq) as En. { cbn [an]. change (bits i8) with 8. replace (128 * Z.pos vq) with (16 * Z.pos vq * 8) by lia. apply Z.div_mul. lia. }
  unfold uppercase_simd, simd_loop, vector_loop. rewrite Nat.add_1_r. cbn [full_vectors]. cbn [mb_mem arm_m mo_len mo_size]. rewrite En.
  unfold carith. change (is_signed i32) with true. cbv iota. change (ty_min i32) with (- 2 ^ 31). change (ty_max i32) with (2 ^ 31 - 1).
  replace ((- 2 ^ 31 <=? 0 + 16 * Z.pos vq) && (0 + 16 * Z.pos vq <=? 2 ^ 31 - 1)) with true by lia. cbn [bind]. destruct (Z.leb_spec (0 + 16 * Z.pos vq) n); [lia|]. cbn [bind fst snd].
  destruct (C75_mask_for_loop_tail_refuted u vq 0 n Hv ltac:(lia)) as (l & T & p & L & P0 & _). unfold last_vector. cbn [mb_mem arm_m mo_tail mo_maskz_load mo_mask_store mo_size]. rewrite T. cbn [bind load_all].
  change (bits i8 / 8) with 1. rewrite Z.mul_1_r, !Z.add_0_r.
  assert (forall a, (forall i, 0 <= i < 16 * Z.pos vq -> m (a + i) <> None) -> forall i, 0 <= i < aelems (Sve false vq) (MI i8) -> p i = true -> mapped (mw (MI i8)) m (a + i * (mw (MI i8) / 8))) as Mp.
  { intros a Ma i Hi _ k Hk. change (aelems (Sve false vq) (MI i8)) with (an (Sve false vq) / bits i8) in Hi. rewrite En in Hi. change (mw (MI i8) / 8) with 1 in *. replace (a + i * 1 + k) with (a + i) by lia. apply Ma. exact Hi. }
  destruct (C79_maskz_load (Sve false vq) (MI i8) l m src p Ht Hl L (Mp src (fun i Hi => proj1 (Hm i Hi)))) as (r & R & I & _). rewrite R. cbn [bind].
  destruct (C124_arm u (Sve false vq) i8 (fun k => variables r (r :: nil) k) (uppercase_body i8) Ht Har Hl) as (v & V & Iv & _).
  { intros k. unfold variables. destruct k as [|[|k]]; exact I. }
  { intros i Hi. destruct (uppercase_element i8 (fun k => elt i8 (variables r (r :: nil) k) i) i Ht) as (z & E & _); [apply elt_in, Ht| |rewrite E; discriminate]. intros _ W. cbn in W. lia. }
  assert (veval (arm u (Sve false vq) i8) (variables d (r :: nil)) (uppercase_body i8) = Some v) as V'.
  { rewrite <- V. apply (veval_occurs (arm u (Sve false vq) i8)). intros k K. destruct k as [|k]; [reflexivity|]. cbn in K. discriminate K. }
  match goal with |- context [veval ?B ?E ?b] => replace (veval B E b) with (Some v) by (symmetry; exact V') end. cbn [bind].
  destruct (C79_mask_store (Sve false vq) (MI i8) l m dst v p Ht Hl L (Mp dst (fun i Hi => proj2 (Hm i Hi)))) as (m' & S & _ & F).
  exists m'. split; [exact S|]. apply F. intros i Hi Pi. left. change (mw (MI i8) / 8) with 1. assert (i <> 0) by (intros ->; congruence). lia.
Qed.
Print Assumptions C125_sve_i8_refuted.
(** On POWER loadu dereferences a pointer to a vector: the tutorial is undefined on an unaligned text. *)
Theorem C125_power_unaligned_refuted : forall e d, uppercase_simd (power_m false e i8) d i8 32 1 16 (fun a => if (0 <=? a) && (a <? 64) then Some a else None) = None.
Proof. intros e d. destruct e; vm_compute; reflexivity. Qed.
Print Assumptions C125_power_unaligned_refuted.

(** ** Examples *)
(** "nSimd, 1 loop of the Tutorial" as bytes: one full vector and a tail on SSE *)
Definition sample (a : Z) : option Z := if (0 <=? a) && (a <? 20) then Some (nth (Z.to_nat a) (110 :: 83 :: 105 :: 109 :: 100 :: 44 :: 32 :: 49 :: 32 :: 108 :: 111 :: 111 :: 112 :: 32 :: 111 :: 102 :: 32 :: 97 :: 123 :: 96 :: nil) 0)
  else if (100 <=? a) && (a <? 121) then Some 7 else None.
Example tutorial_sse : option_map (fun m' => map m' (100 :: 101 :: 107 :: 115 :: 117 :: 118 :: 119 :: 120 :: 0 :: nil)) (uppercase_simd (x86_m Sse42 i8 0) 0 i8 100 0 20 sample)
  = Some (Some 78 :: Some 83 :: Some 49 :: Some 70 :: Some 65 :: Some 123 :: Some 96 :: Some 7 :: Some 110 :: nil).
Proof. vm_compute. reflexivity. Qed.
Example tutorial_cpu : option_map (fun m' => map m' (100 :: 101 :: 107 :: 115 :: 117 :: 118 :: 119 :: 120 :: 0 :: nil)) (uppercase_simd (cpu_m i8 16) nil i8 100 0 20 sample)
  = Some (Some 78 :: Some 83 :: Some 49 :: Some 70 :: Some 65 :: Some 123 :: Some 96 :: Some 7 :: Some 110 :: nil).
Proof. vm_compute. reflexivity. Qed.
(** The sample meets the hypotheses of the theorems. *)
Example sample_text : text i8 (nb Sse42 / bits i8) 100 0 20 (fun j => match sample j with Some x => x | None => 0 end) sample.
Proof.
  split; [lia|]. split; [reflexivity|]. split; [|split; [|right; left; vm_compute; discriminate]].
  - intros j Hj. split; [|intros _ W; cbn in W; lia]. rewrite Z.mul_1_r, Z.add_0_l.
    assert (In j (0 :: 1 :: 2 :: 3 :: 4 :: 5 :: 6 :: 7 :: 8 :: 9 :: 10 :: 11 :: 12 :: 13 :: 14 :: 15 :: 16 :: 17 :: 18 :: 19 :: nil)) as X by (cbn [In]; lia).
    clear Hj. cbn [In] in X. decompose [or] X; subst; try tauto; (split; [split; vm_compute; discriminate|]); (split; [split; [vm_compute; discriminate|reflexivity]|]); intros k Hk; change (bits i8 / 8) with 1 in Hk; replace k with 0 by lia; eexists; (split; [reflexivity|]); reflexivity.
  - intros a Ha. change (bits i8 / 8) with 1 in Ha. unfold sample. replace ((0 <=? a) && (a <? 20)) with false by lia. replace ((100 <=? a) && (a <? 121)) with true by lia. discriminate.
Qed.
