(** addv: the order of the additions, and exact sums. *)
From Coq Require Import ZArith List Bool Lia ZifyBool Permutation.
From Verif Require Import CInt BitLemmas FloatSpec FloatProofs Fp16Spec Fp16 Fp16Proofs ScalarOps ScalarSpec ScalarProofs RoundEven RoundEvenProofs
  X86Deg234 X86Arith X86ArithSpec X86LaneLemmas X86ArithProofs X86EmulProofs X86LogicProofs X86SelectProofs X86RedProofs
  X86Mem X86MemSpec X86MemProofs X86MemProofs2 X86Cvt X86CvtSpec X86CvtProofs X86CvtProofs2 X86CvtProofs4 X86Float X86FloatSpec
  X86FloatProofs X86FloatProofs2 X86FloatProofs3 X86FloatProofs4.
Import ListNotations.
Open Scope Z_scope.

Lemma fadd_range f a b : good_fmt f -> 0 <= fadd f a b < 2 ^ width f.
Proof.
  intros G. unfold fadd.
  assert (S : 0 <= nan_bits f < 2 ^ width f /\ (forall s, 0 <= sign_bit f s + inf_bits f < 2 ^ width f) /\ (forall s, 0 <= sign_bit f s < 2 ^ width f)).
  { destruct G as [->|[->| ->]]; (split; [vm_compute; split; congruence|split; intros []; vm_compute; split; congruence]). }
  destruct S as (S1 & S2 & S3).
  destruct (decode f a) as [|s|s m], (decode f b) as [|s'|s' m']; try exact S1; try apply S2.
  - destruct (Bool.eqb s s'); [apply S2|exact S1].
  - cbv zeta. destruct (Z.eqb_spec (sval s m + sval s' m') 0); [apply S3|].
    apply X86CvtProofs2.encode_range; [exact G|lia|lia].
Qed.

Lemma addf_lane n t a b i : is_float t = true -> okw n (mw t) -> 0 <= i < n / mw t ->
  lane (mw t) i (mm_addf n t a b) = fadd (mfmt t) (lane (mw t) i a) (lane (mw t) i b).
Proof.
  intros F O Hi. unfold mm_addf, lanewise2. rewrite lane_buildn by assumption.
  apply Z.mod_small. rewrite <- (mfmt_width t F). apply fadd_range. apply mfmt_good.
Qed.
Lemma addf32 n a b i : okw n 32 -> 0 <= i < n / 32 -> lane 32 i (mm_addf n MF32 a b) = fadd binary32 (lane 32 i a) (lane 32 i b).
Proof. exact (addf_lane n MF32 a b i eq_refl). Qed.
Lemma addf64 n a b i : okw n 64 -> 0 <= i < n / 64 -> lane 64 i (mm_addf n MF64 a b) = fadd binary64 (lane 64 i a) (lane 64 i b).
Proof. exact (addf_lane n MF64 a b i eq_refl). Qed.
Lemma shuffle_lane a b imm i : 0 <= i < 4 -> lane 32 i (mm_shuffle_ps a b imm) = lane 32 (lane 2 i imm) (if i <? 2 then a else b).
Proof.
  intros Hi. unfold mm_shuffle_ps. rewrite lane_build by (cbn; lia). apply Z.mod_small. apply lane_range. lia.
Qed.
Ltac wok := first [okw | cbn; lia].
Lemma finish32_eq r : finish32 r = fadd binary32 (fadd binary32 (lane 32 0 r) (lane 32 1 r)) (fadd binary32 (lane 32 2 r) (lane 32 3 r)).
Proof.
  unfold finish32. cbv zeta. rewrite addf32 by wok. rewrite shuffle_lane by lia. change (lane 2 0 78) with 2. cbn [Z.ltb Z.compare].
  rewrite !addf32 by wok. rewrite !shuffle_lane by lia.
  change (lane 2 0 177) with 1. change (lane 2 2 177) with 3. cbn [Z.ltb Z.compare Pos.compare Pos.compare_cont]. reflexivity.
Qed.
Lemma finish64_eq r : finish64 r = fadd binary64 (lane 64 0 r) (lane 64 1 r).
Proof.
  unfold finish64. rewrite addf64 by wok. f_equal. unfold mm_shuffle_pd. rewrite lane_build by (cbn; lia).
  rewrite Z.mod_small; [reflexivity|]. cbv beta. destruct (0 =? 0); apply lane_range; lia.
Qed.
Lemma lane4 i j a : 0 <= i -> 0 <= j < 4 -> lane 32 j (lane 128 i a) = lane 32 (4 * i + j) a.
Proof. intros Hi Hj. symmetry. apply (lane_lane 32 4); lia. Qed.

Ltac lanes32 := rewrite ?addf32 by wok; rewrite ?(lane_hi 128 32), ?(lane_lo 128 32) by wok; rewrite ?lane4 by lia.
Ltac lanes64 := rewrite ?addf64 by wok; rewrite ?(lane_hi 128 64), ?(lane_lo 128 64) by wok; rewrite ?addf64 by wok; rewrite ?(lane_hi 256 64), ?(lane_lo 256 64) by wok.

Lemma x_addvf_order e t a : is_float t = true -> x_addvf e t a = sum (fadd (format t)) (addv_order e t) (pattern t a).
Proof.
  intros F. fcase t F; cbn [x_addvf format].
  - unfold x_addv32, addv_order. destruct e; cbv zeta; rewrite finish32_eq; cbn [sum]; rewrite ?pattern_lane; change (mw MF32) with 32;
      try change 256 with (2 * 128); lanes32; reflexivity.
  - unfold x_addv64, addv_order. destruct e; cbv zeta; rewrite finish64_eq; cbn [sum]; rewrite ?pattern_lane; change (mw MF64) with 64;
      try change 512 with (2 * 256); try change (mm_hi 256) with (mm_hi (2 * 128)); try change (mm_lo 256) with (mm_lo (2 * 128)); lanes64; reflexivity.
Qed.
Lemma addv_order_once e t : is_float t = true -> each_once (elems e t) (addv_order e t).
Proof.
  intros F. unfold each_once.
  assert (D : forall l l' : list Z, NoDup l -> NoDup l' -> (forall x, In x l -> In x l') -> (forall x, In x l' -> In x l) -> Permutation l l').
  { intros l l' N N' A B. apply NoDup_Permutation; [exact N|exact N'|]. intros x; split; auto. }
  destruct e; fcase t F; vm_compute; apply D;
    try (repeat (apply NoDup_cons; [cbn; intuition discriminate|]); apply NoDup_nil);
    intros x Hx; cbn in Hx; repeat (destruct Hx as [<-|Hx]; [cbn; tauto|]); destruct Hx.
Qed.

(** ** exact sums *)
Lemma fadd_exact f a b s m s' m' j n n' : good_fmt f -> 0 <= j < 2 ^ ebits f - 3 ->
  decode f a = FFin s m -> decode f b = FFin s' m' -> sval s m = n * 2 ^ j -> sval s' m' = n' * 2 ^ j ->
  Z.abs (n + n') <= 2 ^ (mbits f + 1) ->
  exists s2 m2, decode f (fadd f a b) = FFin s2 m2 /\ sval s2 m2 = (n + n') * 2 ^ j.
Proof.
  intros G Hj Da Db Va Vb B. unfold fadd. rewrite Da, Db, Va, Vb. cbv zeta. replace (n * 2 ^ j + n' * 2 ^ j) with ((n + n') * 2 ^ j) by ring.
  pose proof (pow2_pos j ltac:(lia)) as P. set (q := n + n') in *. clearbody q.
  destruct (Z.eqb_spec (q * 2 ^ j) 0) as [E|E].
  - exists (s && s'), 0. split; [|rewrite E; destruct (s && s'); reflexivity].
    destruct G as [->|[->| ->]]; destruct (s && s'); vm_compute; reflexivity.
  - replace (Z.abs (q * 2 ^ j)) with (Z.abs q * 2 ^ j) by (rewrite Z.abs_mul, (Z.abs_eq (2 ^ j)); lia).
    exists (q * 2 ^ j <? 0), (Z.abs q * 2 ^ j). split.
    + destruct (Z.eq_dec (Z.abs q) (2 ^ (mbits f + 1))) as [Q|Q].
      * rewrite Q. replace (2 ^ (mbits f + 1) * 2 ^ j) with (2 ^ mbits f * 2 ^ (j + 1)).
        -- apply (encode_exact f _ (2 ^ mbits f) (j + 1) G); [|lia]. destruct (good_sizes f G) as (M & _). rewrite Z.pow_add_r by lia. pose proof (pow2_pos (mbits f) ltac:(lia)). lia.
        -- destruct (good_sizes f G) as (M & _). rewrite !Z.pow_add_r by lia. ring.
      * apply (encode_exact f _ (Z.abs q) j G); lia.
    + unfold sval. destruct (Z.ltb_spec (q * 2 ^ j) 0); nia.
Qed.
Definition lsum (l : list Z) (x : Z -> Z) : Z := fold_right (fun i s => x i + s) 0 l.
Lemma lsum_app l l' x : lsum (l ++ l') x = lsum l x + lsum l' x.
Proof. induction l as [|i l IH]; [reflexivity|]. unfold lsum in *. cbn [app fold_right]. lia. Qed.
Lemma lsum_perm l l' x : Permutation l l' -> lsum l x = lsum l' x.
Proof. induction 1; cbn [lsum fold_right] in *; unfold lsum in *; try lia. Qed.
Lemma lsum_abs l x : Z.abs (lsum l x) <= lsum l (fun i => Z.abs (x i)).
Proof. induction l as [|i l IH]; [cbn; lia|]. cbn [lsum fold_right]. unfold lsum in IH. lia. Qed.
Lemma lsum_nonneg l x : 0 <= lsum l (fun i => Z.abs (x i)).
Proof. pose proof (lsum_abs l x). lia. Qed.
Lemma total_lsum k x : total k x = lsum (map Z.of_nat (seq 0 (Z.to_nat k))) x.
Proof. unfold total, lsum. induction (seq 0 (Z.to_nat k)) as [|i l IH]; [reflexivity|]. cbn [fold_right map]. rewrite IH. reflexivity. Qed.

Lemma sum_exact f t p j n : good_fmt f -> 0 <= j < 2 ^ ebits f - 3 ->
  (forall i, In i (leaves t) -> exists s m, decode f (p i) = FFin s m /\ sval s m = n i * 2 ^ j) ->
  lsum (leaves t) (fun i => Z.abs (n i)) <= 2 ^ (mbits f + 1) ->
  exists s m, decode f (sum (fadd f) t p) = FFin s m /\ sval s m = lsum (leaves t) n * 2 ^ j.
Proof.
  intros G Hj. induction t as [i|t1 IH1 t2 IH2]; intros V B.
  - destruct (V i (or_introl eq_refl)) as (s & m & D & E). exists s, m. split; [exact D|]. cbn [leaves lsum fold_right]. rewrite E. ring.
  - cbn [leaves] in *. rewrite lsum_app in B. pose proof (lsum_nonneg (leaves t1) n). pose proof (lsum_nonneg (leaves t2) n).
    destruct IH1 as (s1 & m1 & D1 & E1); [intros i Hi; apply V; apply in_or_app; left; exact Hi|lia|].
    destruct IH2 as (s2 & m2 & D2 & E2); [intros i Hi; apply V; apply in_or_app; right; exact Hi|lia|].
    cbn [sum]. rewrite lsum_app. apply (fadd_exact f _ _ s1 m1 s2 m2 j _ _ G Hj D1 D2 E1 E2).
    pose proof (lsum_abs (leaves t1) n). pose proof (lsum_abs (leaves t2) n). lia.
Qed.

Lemma once_exact f k t p j n : good_fmt f -> 0 <= k -> each_once k t -> small_sum f k (fun i => decode f (p i)) j n ->
  exists s m, decode f (sum (fadd f) t p) = FFin s m /\ sval s m = total k n * 2 ^ j.
Proof.
  intros G Hk O (Hj & V & B). rewrite total_lsum in *. rewrite <- (lsum_perm _ _ (fun i => Z.abs (n i)) O) in B. rewrite <- (lsum_perm _ _ n O).
  apply (sum_exact f t p j n G Hj); [|exact B]. intros i Hi. apply V.
  apply (Permutation_in _ O) in Hi. apply in_map_iff in Hi. destruct Hi as (q & <- & Hq). apply in_seq in Hq. lia.
Qed.

Lemma x_addvf_exact e t a j n : is_float t = true -> small_sum (format t) (elems e t) (value t a) j n ->
  exists s m, decode (format t) (x_addvf e t a) = FFin s m /\ sval s m = total (elems e t) n * 2 ^ j.
Proof.
  intros F S. rewrite x_addvf_order by exact F. apply once_exact; [exact (mfmt_good t)|destruct e; fcase t F; cbn; lia|apply addv_order_once; exact F|exact S].
Qed.

(** ** f16: the two halves are added in single precision *)
Lemma sum_ext add t x y : (forall i, In i (leaves t) -> x i = y i) -> sum add t x = sum add t y.
Proof.
  induction t as [i|t1 IH1 t2 IH2]; intros E; cbn [sum leaves] in *; [apply E; left; reflexivity|].
  rewrite IH1, IH2; [reflexivity| |]; intros i Hi; apply E; apply in_or_app; auto.
Qed.
Lemma sum_shift add k t x : sum add (shift k t) x = sum add t (fun i => x (i + k)).
Proof. induction t as [i|t1 IH1 t2 IH2]; cbn [sum shift]; [reflexivity|]. rewrite IH1, IH2. reflexivity. Qed.
Lemma order_leaf e i : In i (leaves (addv_order e MF32)) -> 0 <= i < nb e / 32.
Proof.
  intros H. apply (Permutation_in _ (addv_order_once e MF32 eq_refl)) in H. apply in_map_iff in H. destruct H as (q & <- & Hq). apply in_seq in Hq.
  unfold elems in Hq. change (mw MF32) with 32 in Hq. lia.
Qed.
Lemma x_addv16_order e v : x_addv16 e v = f32_to_u16 (sum (fadd binary32) (addv_order16 e) (pattern16 e v)).
Proof.
  unfold x_addv16. f_equal. pose proof (x_addvf_order e MF32 (fst v) eq_refl) as A. pose proof (x_addvf_order e MF32 (snd v) eq_refl) as B.
  cbn [x_addvf format] in A, B. rewrite A, B. unfold addv_order16. cbn [sum]. rewrite sum_shift. f_equal; apply sum_ext; intros i Hi; apply order_leaf in Hi; rewrite pattern_lane.
  - rewrite pattern16_lo by exact Hi. reflexivity.
  - rewrite pattern16_hi by exact Hi. reflexivity.
Qed.
Lemma leaves_shift k t : leaves (shift k t) = map (fun i => i + k) (leaves t).
Proof. induction t as [i|t1 IH1 t2 IH2]; cbn [leaves shift]; [reflexivity|]. rewrite IH1, IH2, map_app. reflexivity. Qed.
Lemma addv_order16_once e : each_once (nb e / 16) (addv_order16 e).
Proof.
  unfold each_once, addv_order16. cbn [leaves]. rewrite leaves_shift. pose proof (addv_order_once e MF32 eq_refl) as P. unfold each_once in P.
  eapply Permutation_trans; [apply Permutation_app; [exact P|apply Permutation_map; exact P]|].
  destruct e; vm_compute; apply Permutation_refl.
Qed.
Lemma x_addv16_exact e v j n : small_sum binary32 (nb e / 16) (value16 e v) j n ->
  exists b s m, x_addv16 e v = f32_to_u16 b /\ decode binary32 b = FFin s m /\ sval s m = total (nb e / 16) n * 2 ^ j.
Proof.
  intros S. destruct (once_exact binary32 (nb e / 16) (addv_order16 e) (pattern16 e v) j n) as (s & m & D & E).
  - left. reflexivity.
  - destruct e; cbn; lia.
  - apply addv_order16_once.
  - exact S.
  - exists (sum (fadd binary32) (addv_order16 e) (pattern16 e v)), s, m. split; [apply x_addv16_order|]. split; assumption.
Qed.
