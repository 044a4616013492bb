(** Lane access, lane by lane emulation, multiplication, division, arithmetic shift. *)
From Coq Require Import ZArith Lia List Bool ZifyBool.
From Verif Require Import CInt BitLemmas ScalarOps ScalarSpec ScalarProofs X86Deg234 X86Arith X86ArithSpec
  X86LaneLemmas X86ArithProofs.
Import ListNotations.
Open Scope Z_scope.

Lemma lane_insert n w a x i j : okw n w -> 0 <= j < n / w ->
  lane w j (mm_insert n w a x i) = if j =? i then x mod 2 ^ w else lane w j a.
Proof.
  intros H Hj. unfold mm_insert. rewrite lane_buildn by assumption.
  destruct (j =? i); [reflexivity|]. apply Z.mod_small. apply lane_range. destruct H; lia.
Qed.
Lemma in_reg_insert n w a x i : okw n w -> in_reg n (mm_insert n w a x i).
Proof. intros. apply in_reg_build. assumption. Qed.

Lemma get_lane_ok e t a i : In t int_types -> in_reg (nb e) a -> 0 <= i < nb e / bits t ->
  get_lane e t a i = elt t a i.
Proof.
  intros H Ha Hi. unfold get_lane, elt. cbv zeta. f_equal.
  fold (lane (bits t) i a).
  destruct e; try reflexivity.
  - assert (S : forall w k, 0 < w -> 0 <= k -> lane w 0 (mm_srli_si128 a (w * k / 8)) = (a / 2 ^ (8 * (w * k / 8))) mod 2 ^ w).
    { intros. rewrite lane_small by lia. reflexivity. }
    ty_cases H; cbn [bits Z.eqb Pos.eqb i8 u8 i16 u16 i32 u32 i64 u64] in *; try reflexivity.
    1,2: change 255 with (2 ^ 8 - 1); rewrite land_mask, lane_small by lia;
         rewrite mod_mod_pow by lia; unfold mm_srli_si128, lane; reflexivity.
    all: rewrite lane_small by lia; unfold mm_srli_si128, lane; do 3 f_equal.
    1,2: replace (i * 32) with (i * 4 * 8) by lia; rewrite Z.div_mul by lia; lia.
    1,2: replace (i * 64) with (i * 8 * 8) by lia; rewrite Z.div_mul by lia; lia.
  - ty_cases H; cbn [wide bits Z.leb Z.compare Pos.compare Pos.compare_cont i8 u8 i16 u16 i32 u32 i64 u64] in *;
      try reflexivity; unfold mm_extract; cbn [nb] in *.
    1,2: change (256 / 2 / 8) with 16; change (256 / 8) with 32 in *; destruct (Z.ltb_spec i 16);
         [apply (lane_lo 128 8); [okw|cbn; lia]|rewrite (lane_hi 128 8) by (okw || lia); f_equal; change (128 / 8) with 16; lia].
    1,2: change (256 / 2 / 16) with 8; change (256 / 16) with 16 in *; destruct (Z.ltb_spec i 8);
         [apply (lane_lo 128 16); [okw|cbn; lia]|rewrite (lane_hi 128 16) by (okw || lia); f_equal; change (128 / 16) with 8; lia].
  - cbn [nb] in *. assert (O : okw 256 (bits t)) by (ty_cases H; okw).
    assert (E : 512 / 2 / bits t = 256 / bits t) by (ty_cases H; reflexivity). rewrite E. unfold mm_extract.
    destruct (Z.ltb_spec i (256 / bits t)).
    + apply (lane_lo 256); [assumption|lia].
    + rewrite (lane_hi 256) by (assumption || lia). f_equal. lia.
  - cbn [nb] in *. assert (O : okw 256 (bits t)) by (ty_cases H; okw).
    assert (E : 512 / 2 / bits t = 256 / bits t) by (ty_cases H; reflexivity). rewrite E. unfold mm_extract.
    destruct (Z.ltb_spec i (256 / bits t)).
    + apply (lane_lo 256); [assumption|lia].
    + rewrite (lane_hi 256) by (assumption || lia). f_equal. lia.
Qed.

(** writing one lane changes this lane only *)
Definition sets_lane n w (v v' x i : Z) : Prop :=
  in_reg n v' /\ forall j, 0 <= j < n / w -> lane w j v' = if j =? i then x mod 2 ^ w else lane w j v.

Lemma sets_insert n w v x i : okw n w -> sets_lane n w v (mm_insert n w v (to_u w x) i) x i.
Proof.
  intros H. split; [apply in_reg_insert; assumption|]. intros j Hj. rewrite lane_insert by assumption.
  destruct (j =? i); [|reflexivity]. unfold to_u. apply Z.mod_mod. apply Z.pow_nonzero; [lia|destruct H; lia].
Qed.

Lemma sets_half w v x i : okw 256 w -> in_reg 512 v -> 0 <= i < 512 / w ->
  sets_lane 512 w v
    (if i <? 256 / w then mm_setr 512 (mm_insert 256 w (mm_lo 512 v) (to_u w x) i) (mm_hi 512 v)
     else mm_setr 512 (mm_lo 512 v) (mm_insert 256 w (mm_hi 512 v) (to_u w x) (i - 256 / w))) x i.
Proof.
  intros H Hv Hi. destruct (okw_double 256 w H) as [H2 E]. change (2 * 256) with 512 in *.
  pose proof (in_reg_lo 256 v ltac:(lia)) as Rl. pose proof (in_reg_hi 256 v ltac:(lia) Hv) as Rh.
  change (2 * 256) with 512 in *.
  destruct (Z.ltb_spec i (256 / w)) as [L|L]; (split; [apply (in_reg_setr 256); (lia || assumption || (apply in_reg_insert; assumption))|]);
    intros j Hj; rewrite (lane_setr 256) by (try apply in_reg_insert; assumption || lia);
    destruct (Z.ltb_spec j (256 / w)) as [Lj|Lj].
  - destruct (sets_insert 256 w (mm_lo 512 v) x i H) as [_ S]. rewrite S by lia.
    destruct (j =? i); [reflexivity|]. apply (lane_lo 256); [assumption|lia].
  - rewrite (lane_hi 256) by (assumption || lia). decb. f_equal. lia.
  - rewrite (lane_lo 256) by (assumption || lia). decb. reflexivity.
  - destruct (sets_insert 256 w (mm_hi 512 v) x (i - 256 / w) H) as [_ S]. rewrite S by lia.
    destruct (Z.eqb_spec j i).
    + subst. decb. reflexivity.
    + decb. rewrite (lane_hi 256) by (assumption || lia). f_equal. lia.
Qed.

Lemma sse2_set8_even z u : ulane 16 z -> ulane 8 u ->
  lane 8 0 (Z.lor (Z.land z 65280) u mod 2 ^ 16) = u /\
  lane 8 1 (Z.lor (Z.land z 65280) u mod 2 ^ 16) = lane 8 1 z.
Proof.
  intros Hz Hu. change 65280 with ((2 ^ 8 - 1) * 2 ^ 8).
  split; apply Z.bits_inj'; intros q Hq; bitspec.
  - destruct (Z.ltb_spec q 8); decb.
    + rewrite andb_false_r. reflexivity.
    + symmetry. apply (testbit_ulane 8); assumption || lia.
  - destruct (Z.ltb_spec q 8); decb; [|reflexivity].
    rewrite (testbit_ulane 8 u) by (assumption || lia). tbclose.
Qed.
Lemma sse2_set8_odd z u : ulane 16 z -> ulane 8 u ->
  lane 8 0 (Z.lor (Z.land z 255) (u * 2 ^ 8) mod 2 ^ 16) = lane 8 0 z /\
  lane 8 1 (Z.lor (Z.land z 255) (u * 2 ^ 8) mod 2 ^ 16) = u.
Proof.
  intros Hz Hu. change 255 with (2 ^ 8 - 1).
  split; apply Z.bits_inj'; intros q Hq; bitspec.
  - destruct (Z.ltb_spec q 8); decb; tbclose.
  - destruct (Z.ltb_spec q 8); decb.
    + rewrite andb_false_r. cbn [orb]. f_equal; lia.
    + symmetry. apply (testbit_ulane 8); assumption || lia.
Qed.

Lemma ulane_to_u w x : 0 <= w -> ulane w (to_u w x).
Proof. intros. apply to_u_range. assumption. Qed.

Lemma sse2_set8 v x i t : bits t = 8 -> in_reg 128 v -> 0 <= i < 16 -> sets_lane 128 8 v (set_lane Sse2 t v x i) x i.
Proof.
  intros Ht Hv Hi. unfold set_lane. rewrite Ht. cbv zeta. cbn [Z.eqb Pos.eqb].
  pose proof (ulane_to_u 8 x ltac:(lia)) as Hu.
  assert (O : okw 128 16) by okw.
  pose proof (Z.div_mod i 2 ltac:(lia)) as Di. pose proof (Z.mod_pos_bound i 2 ltac:(lia)) as Mi.
  assert (Q : forall j, 0 <= j < 16 -> 0 <= j / 2 < 8).
  { intros. split; [apply Z.div_pos; lia|apply Z.div_lt_upper_bound; lia]. }
  destruct (Z.eqb_spec (i mod 2) 0) as [E|E]; (split; [apply in_reg_insert; assumption|]);
    intros j Hj; cbn in Hj;
    pose proof (Z.div_mod j 2 ltac:(lia)) as Dj; pose proof (Z.mod_pos_bound j 2 ltac:(lia)) as Mj;
    rewrite Dj at 1; rewrite lane_lane by (pose proof (Q j); lia); change (2 * 8) with 16;
    rewrite lane_insert by (assumption || (cbn; apply Q; lia)).
  - destruct (sse2_set8_even (mm_extract 16 v (i / 2)) (to_u 8 x) (lane_range 16 _ _ ltac:(lia)) Hu) as [S0 S1].
    destruct (Z.eqb_spec (j / 2) (i / 2)) as [E2|E2].
    + assert (j mod 2 = 0 \/ j mod 2 = 1) as [Ej|Ej] by lia; rewrite Ej.
      * rewrite S0. decb. reflexivity.
      * rewrite S1. decb. unfold mm_extract. change 16 with (2 * 8). rewrite <- lane_lane by (pose proof (Q i); lia).
        f_equal. lia.
    + decb. change 16 with (2 * 8). rewrite <- lane_lane by (pose proof (Q j); lia). f_equal. lia.
  - destruct (sse2_set8_odd (mm_extract 16 v (i / 2)) (to_u 8 x) (lane_range 16 _ _ ltac:(lia)) Hu) as [S0 S1].
    destruct (Z.eqb_spec (j / 2) (i / 2)) as [E2|E2].
    + assert (j mod 2 = 0 \/ j mod 2 = 1) as [Ej|Ej] by lia; rewrite Ej.
      * rewrite S0. decb. unfold mm_extract. change 16 with (2 * 8). rewrite <- lane_lane by (pose proof (Q i); lia).
        f_equal. lia.
      * rewrite S1. decb. reflexivity.
    + decb. change 16 with (2 * 8). rewrite <- lane_lane by (pose proof (Q j); lia). f_equal. lia.
Qed.

Lemma sse2_set32 v x i t : bits t = 32 -> in_reg 128 v -> 0 <= i < 4 -> sets_lane 128 32 v (set_lane Sse2 t v x i) x i.
Proof.
  intros Ht Hv Hi. unfold set_lane. rewrite Ht. cbv zeta. cbn [Z.eqb Pos.eqb].
  assert (O : okw 128 16) by okw.
  split; [apply in_reg_insert; assumption|].
  intros j Hj. change (128 / 32) with 4 in Hj. change 32 with (2 * 16) at 1.
  rewrite lane_join by lia. rewrite !lane_insert by (assumption || (change (128 / 16) with 8; lia)).
  change (2 ^ 32) with (2 ^ 16 * 2 ^ 16).
  destruct (Z.eqb_spec j i).
  - subst. decb. change 65535 with (2 ^ 16 - 1). rewrite land_mask by lia.
    unfold to_u. rewrite Z.mod_mod by lia. change (2 ^ 32) with (2 ^ 16 * 2 ^ 16).
    rewrite (Z.rem_mul_r x) by lia.
    pose proof (Z.mod_pos_bound x (2 ^ 16) ltac:(lia)) as B0.
    pose proof (Z.mod_pos_bound (x / 2 ^ 16) (2 ^ 16) ltac:(lia)) as B1.
    replace (x mod 2 ^ 16 + 2 ^ 16 * ((x / 2 ^ 16) mod 2 ^ 16)) with
      (x mod 2 ^ 16 + ((x / 2 ^ 16) mod 2 ^ 16) * 2 ^ 16) by ring.
    rewrite Z.div_add, Z.mod_add, (Z.mod_small (x mod _)), (Z.div_small (x mod _)) by lia.
    rewrite Z.add_0_l, Z.mod_mod by lia. reflexivity.
  - decb. rewrite <- lane_join by lia. reflexivity.
Qed.

Lemma sse2_set64 v x i t : bits t = 64 -> in_reg 128 v -> 0 <= i < 2 -> sets_lane 128 64 v (set_lane Sse2 t v x i) x i.
Proof.
  intros Ht Hv Hi. unfold set_lane. rewrite Ht. cbv zeta. cbn [Z.eqb Pos.eqb].
  assert (O : okw 128 64) by okw.
  pose proof (ulane_to_u 64 x ltac:(lia)) as Hu.
  assert (Hs : lane 64 1 (mm_slli_si128 (to_u 64 x) 8) = to_u 64 x).
  { unfold mm_slli_si128. change (8 * 8) with 64. apply Z.bits_inj'. intros q Hq. bitspec.
    destruct (Z.ltb_spec q 64); decb; [f_equal; lia|]. symmetry. apply (testbit_ulane 64); assumption || lia. }
  assert (Hl : forall k, lane 64 k v mod 2 ^ 64 = lane 64 k v).
  { intros. apply Z.mod_small. apply lane_range. lia. }
  assert (Hm : to_u 64 x mod 2 ^ 64 = x mod 2 ^ 64) by (unfold to_u; apply Z.mod_mod; lia).
  assert (i = 0 \/ i = 1) as [-> | ->] by lia; decb; unfold mm_unpackhi_epi64, mm_unpacklo_epi64.
  - split; [apply (in_reg_build 128 64); assumption|]. intros j Hj. change (128 / 64) with 2 in Hj.
    change 2%nat with (nlanes 128 64). rewrite lane_buildn by (assumption || exact Hj).
    assert (j = 0 \/ j = 1) as [-> | ->] by lia; decb.
    + rewrite Hs. exact Hm.
    + apply Hl.
  - split; [apply (in_reg_build 128 64); assumption|]. intros j Hj. change (128 / 64) with 2 in Hj.
    change 2%nat with (nlanes 128 64). rewrite lane_buildn by (assumption || exact Hj).
    assert (j = 0 \/ j = 1) as [-> | ->] by lia; decb.
    + apply Hl.
    + rewrite lane_id by exact Hu. exact Hm.
Qed.

Lemma set_lane_ok e t v x i : In t int_types -> in_reg (nb e) v -> 0 <= i < nb e / bits t ->
  sets_lane (nb e) (bits t) v (set_lane e t v x i) x i.
Proof.
  intros H Hv Hi. pose proof (okw_nb e t H) as O.
  destruct e; cbn [nb] in *; try (unfold set_lane; apply sets_insert; assumption).
  - ty_cases H; cbn [bits i8 u8 i16 u16 i32 u32 i64 u64] in *;
      first [ apply sse2_set8; [reflexivity|assumption|exact Hi] | apply sse2_set32; [reflexivity|assumption|exact Hi]
            | apply sse2_set64; [reflexivity|assumption|exact Hi] | exact (sets_insert 128 16 v x i O) ].
  - assert (O2 : okw 256 (bits t)) by (ty_cases H; okw).
    assert (E : 512 / 2 / bits t = 256 / bits t) by (ty_cases H; reflexivity).
    unfold set_lane. rewrite E. apply sets_half; assumption.
  - assert (O2 : okw 256 (bits t)) by (ty_cases H; okw).
    assert (E : 512 / 2 / bits t = 256 / bits t) by (ty_cases H; reflexivity).
    unfold set_lane. rewrite E. apply sets_half; assumption.
Qed.

(** ** Emulation *)

Lemma emul2_upto_ok e t f a b k ret : In t int_types -> in_reg (nb e) a -> in_reg (nb e) b -> in_reg (nb e) ret ->
  Z.of_nat k <= nb e / bits t ->
  (forall i, 0 <= i < Z.of_nat k -> f (elt t a i) (elt t b i) <> None) ->
  exists r, emul2_upto e t f a b k ret = Some r /\ in_reg (nb e) r /\
    forall i, 0 <= i < Z.of_nat k -> exists x, f (elt t a i) (elt t b i) = Some x /\ lane (bits t) i r = x mod 2 ^ bits t.
Proof.
  intros H Ha Hb Hr. induction k as [|k IH]; intros Hk Hd.
  - exists ret. repeat split; try apply Hr. intros; lia.
  - destruct IH as (r & E & R & L); [lia|intros; apply Hd; lia|].
    cbn [emul2_upto]. rewrite E. cbn [bind]. rewrite !get_lane_ok by (assumption || lia).
    destruct (f (elt t a (Z.of_nat k)) (elt t b (Z.of_nat k))) as [x|] eqn:F; [|exfalso; apply (Hd (Z.of_nat k)); [lia|exact F]].
    cbn [bind]. destruct (set_lane_ok e t r x (Z.of_nat k) H R ltac:(lia)) as [R2 S].
    eexists; split; [reflexivity|]. split; [exact R2|].
    intros i Hi. rewrite S by lia. destruct (Z.eqb_spec i (Z.of_nat k)).
    + subst. exists x. split; [assumption|reflexivity].
    + apply L. lia.
Qed.
Lemma emul1_upto_ok e t f a k ret : In t int_types -> in_reg (nb e) a -> in_reg (nb e) ret ->
  Z.of_nat k <= nb e / bits t ->
  (forall i, 0 <= i < Z.of_nat k -> f (elt t a i) <> None) ->
  exists r, emul1_upto e t f a k ret = Some r /\ in_reg (nb e) r /\
    forall i, 0 <= i < Z.of_nat k -> exists x, f (elt t a i) = Some x /\ lane (bits t) i r = x mod 2 ^ bits t.
Proof.
  intros H Ha Hr. induction k as [|k IH]; intros Hk Hd.
  - exists ret. repeat split; try apply Hr. intros; lia.
  - destruct IH as (r & E & R & L); [lia|intros; apply Hd; lia|].
    cbn [emul1_upto]. rewrite E. cbn [bind]. rewrite !get_lane_ok by (assumption || lia).
    destruct (f (elt t a (Z.of_nat k))) as [x|] eqn:F; [|exfalso; apply (Hd (Z.of_nat k)); [lia|exact F]].
    cbn [bind]. destruct (set_lane_ok e t r x (Z.of_nat k) H R ltac:(lia)) as [R2 S].
    eexists; split; [reflexivity|]. split; [exact R2|].
    intros i Hi. rewrite S by lia. destruct (Z.eqb_spec i (Z.of_nat k)).
    + subst. exists x. split; [assumption|reflexivity].
    + apply L. lia.
Qed.

Lemma le_z e t : In t int_types -> Z.of_nat (Z.to_nat (le e t)) = nb e / bits t.
Proof. intros H. ext_cases e H; reflexivity. Qed.

(** result lanes of a lane by lane emulation, when the scalar result is a value of the type *)
Lemma emul2_ok e t f undef a b : In t int_types -> in_reg (nb e) undef -> in_reg (nb e) a -> in_reg (nb e) b ->
  (forall x y r, f x y = Some r -> in_ty t r) ->
  (forall i, 0 <= i < nb e / bits t -> f (elt t a i) (elt t b i) <> None) ->
  exists r, emul2 e t f undef a b = Some r /\ in_reg (nb e) r /\
    forall i, 0 <= i < nb e / bits t -> f (elt t a i) (elt t b i) = Some (elt t r i).
Proof.
  intros H Hu Ha Hb Hf Hd. pose proof (le_z e t H) as E.
  destruct (emul2_upto_ok e t f a b (Z.to_nat (le e t)) undef H Ha Hb Hu) as (r & Er & R & L); [lia|rewrite E; exact Hd|].
  rewrite E in L. exists r. repeat split; [exact Er|apply R|apply R|].
  intros i Hi. destruct (L i Hi) as (x & Fx & Lx). rewrite Fx. f_equal.
  unfold elt. fold (lane (bits t) i r). rewrite Lx.
  symmetry. rewrite (cast_congr t _ x).
  - apply cast_id; [assumption|]. eapply Hf; eauto.
  - apply Z.mod_mod. apply Z.pow_nonzero; [lia|]. pose proof (bits_pos t H). lia.
Qed.
Lemma emul1_ok e t f undef a : In t int_types -> in_reg (nb e) undef -> in_reg (nb e) a ->
  (forall x r, f x = Some r -> in_ty t r) ->
  (forall i, 0 <= i < nb e / bits t -> f (elt t a i) <> None) ->
  exists r, emul1 e t f undef a = Some r /\ in_reg (nb e) r /\
    forall i, 0 <= i < nb e / bits t -> f (elt t a i) = Some (elt t r i).
Proof.
  intros H Hu Ha Hf Hd. pose proof (le_z e t H) as E.
  destruct (emul1_upto_ok e t f a (Z.to_nat (le e t)) undef H Ha Hu) as (r & Er & R & L); [lia|rewrite E; exact Hd|].
  rewrite E in L. exists r. repeat split; [exact Er|apply R|apply R|].
  intros i Hi. destruct (L i Hi) as (x & Fx & Lx). rewrite Fx. f_equal.
  unfold elt. fold (lane (bits t) i r). rewrite Lx.
  symmetry. rewrite (cast_congr t _ x).
  - apply cast_id; [assumption|]. eapply Hf; eauto.
  - apply Z.mod_mod. apply Z.pow_nonzero; [lia|]. pose proof (bits_pos t H). lia.
Qed.

(** ** From lanes to elements *)

Lemma elt_range t a i : In t int_types -> in_ty t (elt t a i).
Proof. intros. apply cast_in_ty. assumption. Qed.
Lemma elt_congr t a i : In t int_types -> (elt t a i) mod 2 ^ bits t = lane (bits t) i a.
Proof.
  intros H. unfold elt. rewrite cast_mod by assumption. apply Z.mod_small. apply lane_range. pose proof (bits_pos t H); lia.
Qed.

Lemma elt_of_lane t r i z : In t int_types -> lane (bits t) i r = z mod 2 ^ bits t -> elt t r i = cast t z.
Proof.
  intros H E. unfold elt. fold (lane (bits t) i r). rewrite E. apply cast_congr.
  apply Z.mod_mod. apply Z.pow_nonzero; [lia|]. pose proof (bits_pos t H). lia.
Qed.
Lemma pow_bits_nz t : In t int_types -> 2 ^ bits t <> 0.
Proof. intros H. apply Z.pow_nonzero; [lia|]. pose proof (bits_pos t H). lia. Qed.

Lemma mul_cast t x y : In t int_types -> (cast t x * cast t y) mod 2 ^ bits t = (x * y) mod 2 ^ bits t.
Proof.
  intros H. pose proof (pow_bits_nz t H). rewrite Z.mul_mod, !cast_mod by assumption.
  rewrite <- Z.mul_mod by assumption. reflexivity.
Qed.
Lemma add_cast t x y : In t int_types -> (cast t x + cast t y) mod 2 ^ bits t = (x + y) mod 2 ^ bits t.
Proof.
  intros H. pose proof (pow_bits_nz t H). rewrite Z.add_mod, !cast_mod by assumption.
  rewrite <- Z.add_mod by assumption. reflexivity.
Qed.
Lemma sub_cast t x y : In t int_types -> (cast t x - cast t y) mod 2 ^ bits t = (x - y) mod 2 ^ bits t.
Proof.
  intros H. pose proof (pow_bits_nz t H). rewrite Zminus_mod, !cast_mod by assumption.
  rewrite <- Zminus_mod. reflexivity.
Qed.

(** ** Multiplication *)

Lemma mul_swap n w a b : mm_mullo n w b a = mm_mullo n w a b.
Proof.
  unfold mm_mullo, lanewise2. generalize (nlanes n w). intros k. induction k as [|k IH]; [reflexivity|].
  cbn [build]. rewrite IH, (Z.mul_comm (lane w (Z.of_nat k) b)). reflexivity.
Qed.

Lemma x_mul_native e t undef : In t int_types -> mul_emulated e t = false ->
  exists f, (forall a b, x_mul e t undef a b = Some (f a b)) /\
            lw2 (nb e) (bits t) f (fun x y => (x * y) mod 2 ^ bits t).
Proof.
  intros H He. ext_cases e H; try discriminate He; cbn [nb bits i8 u8 i16 u16 i32 u32 i64 u64];
  unfold x_mul; cbn [bits i8 u8 i16 u16 i32 u32 i64 u64 Z.eqb Pos.eqb];
  first
  [ solve [eexists; split; [intros; reflexivity|apply lw_mullo; okw]]
  | solve [eexists; split; [intros; reflexivity|apply mul8_lw; okw]]
  | solve [eexists; split; [intros; reflexivity|apply (split2_lw 128); [okw|apply lw_mullo; okw]]]
  | solve [eexists; split; [intros; reflexivity|apply (split2_lw 128); [okw|apply mul8_lw; okw]]]
  | solve [eexists; split; [intros; reflexivity|apply (split2_lw 256); [okw|apply lw_mullo; okw]]]
  | solve [eexists; split; [intros; reflexivity|apply (split2_lw 256); [okw|apply mul8_lw; okw]]]
  | solve [eexists; split; [intros; rewrite mul_swap; reflexivity|apply lw_mullo; okw]] ].
Qed.

Lemma s_mul_in_ty t a b r : In t int_types -> s_mul t a b = Some r -> in_ty t r.
Proof. intros H E. apply (s_mul_value t a b r H E). Qed.

Lemma x_mul_ok e t undef a b : In t int_types -> in_reg (nb e) undef -> in_reg (nb e) a -> in_reg (nb e) b ->
  (mul_emulated e t = true -> forall i, 0 <= i < nb e / bits t -> s_mul t (elt t a i) (elt t b i) <> None) ->
  exists r, x_mul e t undef a b = Some r /\ vector e t r (fun i v => wraps_to t (elt t a i * elt t b i) v).
Proof.
  intros H Hu Ha Hb Hd. destruct (mul_emulated e t) eqn:He.
  - assert (E : x_mul e t undef a b = emul2 e t (s_mul t) undef a b).
    { ext_cases e H; try discriminate He; reflexivity. }
    destruct (emul2_ok e t (s_mul t) undef a b H Hu Ha Hb) as (r & Er & R & L).
    + intros x y z. apply s_mul_in_ty. assumption.
    + apply Hd. reflexivity.
    + exists r. split; [rewrite E; exact Er|]. split; [exact R|]. intros i Hi.
      apply s_mul_value; [assumption|]. apply L. assumption.
  - destruct (x_mul_native e t undef H He) as (f & Ef & L). rewrite Ef. eexists; split; [reflexivity|].
    destruct (L a b Ha Hb) as [R LL]. split; [exact R|]. intros i Hi. specialize (LL i Hi). cbv beta in LL.
    rewrite (elt_of_lane t _ _ _ H LL). unfold elt. fold (lane (bits t) i a) (lane (bits t) i b).
    rewrite (cast_congr t (lane (bits t) i a * lane (bits t) i b) (cast t (lane (bits t) i a) * cast t (lane (bits t) i b))).
    + apply cast_wraps. assumption.
    + symmetry. apply mul_cast. assumption.
Qed.

(** ** Arithmetic shift *)

Lemma to_s_div_mod w x s : 0 < w -> 0 <= s -> in_s w (to_s w x / 2 ^ s).
Proof.
  intros Hw Hs. pose proof (to_s_range w x Hw) as [L U]. pose proof (pow2_pos s Hs). pose proof (pow2_pos (w - 1) ltac:(lia)).
  split.
  - apply Z.div_le_lower_bound; [lia|]. nia.
  - apply Z.div_lt_upper_bound; [lia|]. nia.
Qed.

Definition shra_emulated (e : ext) (t : ity) : bool :=
  is_signed t && (bits t =? 64) && negb (is512 e).

Lemma x_shra_native e t undef s : In t int_types -> shra_emulated e t = false -> 0 <= s < bits t ->
  exists f, (forall a, x_shra e t undef a s = Some (f a)) /\
            lw1 (nb e) (bits t) f (fun x => (cast t x / 2 ^ s) mod 2 ^ bits t).
Proof.
  intros H He Hs. destruct (is_signed t) eqn:Sg.
  - ext_cases e H; try discriminate He; try discriminate Sg;
    cbn [nb bits i8 u8 i16 u16 i32 u32 i64 u64] in *;
    unfold x_shra; cbn [bits is_signed negb i8 u8 i16 u16 i32 u32 i64 u64 Z.eqb Pos.eqb];
    first
    [ match goal with |- context [split1 256] =>
        eexists; split; [intros; reflexivity|];
        apply (split1_lw 128); [okw|first [apply (shra8_lw _ s); [okw|lia] | apply (sra_lw _ _ s); [okw|lia|lia]]] end
    | match goal with |- context [split1 512] =>
        eexists; split; [intros; reflexivity|];
        apply (split1_lw 256); [okw|first [apply (shra8_lw _ s); [okw|lia] | apply (sra_lw _ _ s); [okw|lia|lia]]] end
    | match goal with |- context [shra8] =>
        eexists; split; [intros; reflexivity|]; apply (shra8_lw _ s); [okw|lia] end
    | eexists; split; [intros; reflexivity|]; apply (sra_lw _ _ s); [okw|lia|lia] ].
  - unfold x_shra. rewrite Sg. cbn [negb]. eexists; split; [intros; reflexivity|].
    apply (lw1_ext _ _ _ (fun x => x / 2 ^ s)); [pose proof (bits_pos t H); lia|apply x_shr_lw; assumption|].
    intros x [Hx0 Hx1]. unfold cast. rewrite Sg. unfold to_u. rewrite (Z.mod_small x) by lia.
    symmetry. apply Z.mod_small. pose proof (pow2_pos s ltac:(lia)).
    split; [apply Z.div_pos; lia|apply Z.div_lt_upper_bound; nia].
Qed.

Lemma x_shra_ok e t undef a s : In t int_types -> in_reg (nb e) undef -> in_reg (nb e) a -> 0 <= s < bits t ->
  exists r, x_shra e t undef a s = Some r /\ vector e t r (fun i v => v = elt t a i / 2 ^ s).
Proof.
  intros H Hu Ha Hs. destruct (shra_emulated e t) eqn:He.
  - assert (E : x_shra e t undef a s = emul1 e t (fun x => s_shra t x s) undef a).
    { ext_cases e H; try discriminate He; reflexivity. }
    assert (V : forall x, in_ty t x -> s_shra t x s = Some (x / 2 ^ s) /\ in_ty t (x / 2 ^ s)).
    { intros x Hx. split; [apply s_shra_ok; assumption|].
      unfold in_ty in *. pose proof (pow2_pos s ltac:(lia)). 
      assert (T : ty_min t <= 0 <= ty_max t) by (ty_cases H; unfold ty_min, ty_max; cbn; lia).
      split.
      - apply Z.div_le_lower_bound; [lia|]. nia.
      - destruct (Z.le_gt_cases 0 x).
        + apply Z.div_le_upper_bound; [lia|]. nia.
        + assert (x / 2 ^ s < 0) by (apply Z.div_lt_upper_bound; lia). lia. }
    rewrite E.
    pose proof (le_z e t H) as EL.
    destruct (emul1_upto_ok e t (fun x => s_shra t x s) a (Z.to_nat (le e t)) undef H Ha Hu) as (r & Er & R & L); [lia| |].
    + intros i Hi. destruct (V (elt t a i) (elt_range t a i H)) as [V1 _]. rewrite V1. discriminate.
    + rewrite EL in L. exists r. split; [exact Er|]. split; [exact R|]. intros i Hi.
      destruct (L i Hi) as (x & Fx & Lx). destruct (V (elt t a i) (elt_range t a i H)) as [V1 V2].
      rewrite V1 in Fx. injection Fx as <-. rewrite (elt_of_lane t _ _ _ H Lx). apply cast_id; assumption.
  - destruct (x_shra_native e t undef s H He Hs) as (f & Ef & L). rewrite Ef. eexists; split; [reflexivity|].
    destruct (L a Ha) as [R LL]. split; [exact R|]. intros i Hi. specialize (LL i Hi). cbv beta in LL.
    rewrite (elt_of_lane t _ _ _ H LL). fold (elt t a i).
    change (cast t (lane (bits t) i a)) with (elt t a i).
    apply cast_id; [assumption|]. pose proof (elt_range t a i H) as Hx. unfold in_ty in *. pose proof (pow2_pos s ltac:(lia)).
    assert (T : ty_min t <= 0 <= ty_max t) by (ty_cases H; unfold ty_min, ty_max; cbn; lia).
    split.
    + apply Z.div_le_lower_bound; [lia|]. nia.
    + destruct (Z.le_gt_cases 0 (elt t a i)).
      * apply Z.div_le_upper_bound; [lia|]. nia.
      * assert (elt t a i / 2 ^ s < 0) by (apply Z.div_lt_upper_bound; lia). lia.
Qed.
