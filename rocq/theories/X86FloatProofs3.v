(** Proofs for X86Float.v: the rounding operators on vectors, iota and mask_for_loop_tail. *)
From Coq Require Import ZArith List Bool Lia ZifyBool.
From Verif Require Import CInt BitLemmas FloatSpec FloatProofs Fp16 ScalarOps ScalarSpec ScalarProofs RoundEven RoundEvenProofs X86Deg234 X86Arith X86ArithSpec X86LaneLemmas
  X86ArithProofs X86EmulProofs X86LogicProofs X86SelectProofs X86RedProofs X86Mem X86MemSpec X86MemProofs X86MemProofs2 X86Cvt X86CvtSpec X86CvtProofs
  X86CvtProofs2 X86Float X86FloatSpec X86FloatProofs X86FloatProofs2.
Open Scope Z_scope.

(** every lane of [r] is [f] of the lane of [a] *)
Definition maps (e : ext) (t : mty) (f : Z -> Z) (a r : Z) : Prop :=
  in_reg (nb e) r /\ forall i, 0 <= i < nb e / mw t -> lane (mw t) i r = f (lane (mw t) i a).

Lemma sty_in t : is_float t = true -> In (sty t) int_types /\ bits (sty t) = mw t.
Proof. intros F. fcase t F; (split; [cbn; tauto|reflexivity]). Qed.

Lemma emul1f_ok e t f undef a : is_float t = true -> in_reg (nb e) undef -> in_reg (nb e) a ->
  (forall x, 0 <= x < 2 ^ mw t -> 0 <= f x < 2 ^ mw t) ->
  exists r, emul1f e t f undef a = Some r /\ maps e t f a r.
Proof.
  intros F Hu Ha Hf. destruct (sty_in t F) as [H E]. pose proof (okw_f e t F) as O. pose proof O as (Hw & _).
  destruct (emul1_ok e (sty t) (fun x => Some (cast (sty t) (f (x mod 2 ^ mw t)))) undef a H Hu Ha) as (r & Er & R & L).
  - intros x r Hr. injection Hr as <-. apply cast_in_ty, H.
  - discriminate.
  - exists r. split; [exact Er|]. split; [exact R|]. rewrite E in L. intros i Hi. specialize (L i Hi). injection L as L.
    pose proof (elt_congr (sty t) r i H) as C. rewrite E in C. rewrite <- L in C. rewrite <- E in C at 1. rewrite cast_mod in C by exact H. rewrite E in C.
    pose proof (elt_congr (sty t) a i H) as Ca. rewrite E in Ca. rewrite Ca in C. rewrite <- C. apply Z.mod_small, Hf, lane_range. lia.
Qed.
Lemma roundf_ok e t f a : is_float t = true -> (forall x, 0 <= x < 2 ^ mw t -> 0 <= f (mfmt t) x < 2 ^ mw t) -> maps e t (f (mfmt t)) a (mm_roundf (nb e) t f a).
Proof.
  intros F Hf. pose proof (okw_f e t F) as O. unfold mm_roundf, lanewise1. split; [apply in_reg_build; assumption|]. intros i Hi. rewrite lane_buildn by assumption.
  apply Z.mod_small, Hf, lane_range. destruct O; lia.
Qed.

Definition fits_all (e : ext) (t : mty) (P : fmt -> Z -> Z -> Prop) (a r : Z) : Prop :=
  vectorf e t r (fun i b => rounded (format t) (P (format t)) (value t a i) (decode (format t) b)).

Lemma maps_fits e t f (P : fmt -> Z -> Z -> Prop) a r : is_float t = true ->
  (forall b, 0 <= b < 2 ^ width (mfmt t) -> fits (mfmt t) b (P (mfmt t)) (f b)) ->
  maps e t f a r -> fits_all e t P a r.
Proof.
  intros F H [R L]. split; [exact R|]. intros i Hi. rewrite pattern_lane, L by exact Hi. rewrite value_lane. change (format t) with (mfmt t).
  apply H. apply lane_pat, F.
Qed.
Lemma fits_range t f (P : Z -> Z -> Prop) : is_float t = true -> (forall b, 0 <= b < 2 ^ width (mfmt t) -> fits (mfmt t) b P (f b)) -> forall x, 0 <= x < 2 ^ mw t -> 0 <= f x < 2 ^ mw t.
Proof. intros F H x Hx. rewrite <- mfmt_width in * by exact F. apply H, Hx. Qed.

Lemma x_floorf_maps e t undef a : is_float t = true -> in_reg (nb e) undef -> in_reg (nb e) a ->
  exists r, x_floorf e t undef a = Some r /\ maps e t (ffloor (mfmt t)) a r.
Proof.
  intros F Hu Ha. pose proof (fits_range t (ffloor (mfmt t)) _ F (fun b => floor_fits (mfmt t) (mfmt_good t) b)) as R.
  destruct e; cbn [x_floorf]; try (eexists; split; [reflexivity|]; apply (roundf_ok _ _ ffloor); assumption). apply emul1f_ok; assumption.
Qed.
Lemma x_ceilf_maps e t undef a : is_float t = true -> in_reg (nb e) undef -> in_reg (nb e) a ->
  exists r, x_ceilf e t undef a = Some r /\ maps e t (fceil (mfmt t)) a r.
Proof.
  intros F Hu Ha. pose proof (fits_range t (fceil (mfmt t)) _ F (fun b => ceil_fits (mfmt t) (mfmt_good t) b)) as R.
  destruct e; cbn [x_ceilf]; try (eexists; split; [reflexivity|]; apply (roundf_ok _ _ fceil); assumption). apply emul1f_ok; assumption.
Qed.
Lemma x_floorf_ok e t undef a : is_float t = true -> in_reg (nb e) undef -> in_reg (nb e) a ->
  exists r, x_floorf e t undef a = Some r /\ fits_all e t down a r.
Proof.
  intros F Hu Ha. destruct (x_floorf_maps e t undef a F Hu Ha) as (r & E & M). exists r. split; [exact E|].
  apply (maps_fits e t (ffloor (mfmt t))); [exact F| |exact M]. intros b. apply floor_fits, mfmt_good.
Qed.
Lemma x_ceilf_ok e t undef a : is_float t = true -> in_reg (nb e) undef -> in_reg (nb e) a ->
  exists r, x_ceilf e t undef a = Some r /\ fits_all e t up a r.
Proof.
  intros F Hu Ha. destruct (x_ceilf_maps e t undef a F Hu Ha) as (r & E & M). exists r. split; [exact E|].
  apply (maps_fits e t (fceil (mfmt t))); [exact F| |exact M]. intros b. apply ceil_fits, mfmt_good.
Qed.
Lemma x_round_to_evenf_ok e t undef a : is_float t = true -> in_reg (nb e) undef -> in_reg (nb e) a ->
  exists r, x_round_to_evenf e t undef a = Some r /\ fits_all e t nearest a r.
Proof.
  intros F Hu Ha.
  pose proof (fun b => even_fits (mfmt t) (mfmt_good t) b) as F1. pose proof (fun b => hw_nearest_fits (mfmt t) (mfmt_good t) b) as F2.
  pose proof (fits_range t _ _ F F1) as R1. pose proof (fits_range t _ _ F F2) as R2.
  destruct e; cbn [x_round_to_evenf];
    try (eexists; split; [reflexivity|]; apply (maps_fits _ t (hw_nearest (mfmt t))); [exact F|exact F2|apply (roundf_ok _ _ hw_nearest); assumption]).
  destruct (emul1f_ok Sse2 t (round_to_even (mfmt t)) undef a F Hu Ha R1) as (r & E & M). exists r. split; [exact E|].
  apply (maps_fits _ t (round_to_even (mfmt t))); assumption.
Qed.

Lemma lane_0 w i : lane w i 0 = 0.
Proof. unfold lane. rewrite Zdiv_0_l. apply Zmod_0_l. Qed.
Lemma decode_0 t : decode (mfmt t) 0 = FFin false 0. Proof. destruct t; reflexivity. Qed.
Lemma in_reg_zero e : in_reg (nb e) 0. Proof. destruct e; split; vm_compute; congruence. Qed.

Lemma x_truncf_ok e t undef a : is_float t = true -> in_reg (nb e) undef -> in_reg (nb e) a ->
  exists r, x_truncf e t undef a = Some r /\ fits_all e t toward_zero a r.
Proof.
  intros F Hu Ha.
  pose proof (fun b => trunc_fits (mfmt t) (mfmt_good t) b) as F1. pose proof (fun b => hw_trunc_fits (mfmt t) (mfmt_good t) b) as F2.
  pose proof (fits_range t _ _ F F1) as R1. pose proof (fits_range t _ _ F F2) as R2.
  assert (X : is512 e = true -> exists r, bind (x_floorf e t undef a) (fun fl => bind (x_ceilf e t undef a) (fun ce =>
         Some (x_if_else1f e t (x_gtf e t a mm_zero) fl ce))) = Some r /\ fits_all e t toward_zero a r).
  { intros _. destruct (x_floorf_maps e t undef a F Hu Ha) as (fl & Efl & [Rfl Lfl]). destruct (x_ceilf_maps e t undef a F Hu Ha) as (ce & Ece & [Rce Lce]).
    rewrite Efl, Ece. eexists. split; [reflexivity|].
    pose proof (x_gtf_ok e t a mm_zero F Ha (in_reg_zero e)) as L.
    destruct (x_if_else1f_ok e t _ _ fl ce F Rfl Rce L) as [R S]. split; [exact R|]. intros i Hi. rewrite pattern_lane, S, value_lane by exact Hi.
    unfold rel. rewrite !value_lane. unfold mm_zero. rewrite lane_0, decode_0. rewrite Lfl, Lce by exact Hi. change (format t) with (mfmt t).
    pose proof (lane_pat t a i F) as Hb. set (b := lane (mw t) i a) in *. destruct (is _ _) eqn:Is.
    - apply (down_zero (mfmt t) (mfmt_good t) b (ffloor (mfmt t) b)); [|apply floor_fits; [apply mfmt_good|exact Hb]]. intros s m D. rewrite D in Is.
      cbn [compare] in Is. change (sval false 0) with 0 in Is. destruct (Z.compare_spec (sval s m) 0); cbn [is] in Is; try discriminate. lia.
    - apply (up_zero (mfmt t) (mfmt_good t) b (fceil (mfmt t) b)); [|apply ceil_fits; [apply mfmt_good|exact Hb]]. intros s m D. rewrite D in Is.
      cbn [compare] in Is. change (sval false 0) with 0 in Is. destruct (Z.compare_spec (sval s m) 0); cbn [is] in Is; try discriminate; lia. }
  destruct e; cbn [x_truncf]; try (apply X; reflexivity);
    try (eexists; split; [reflexivity|]; apply (maps_fits _ t (hw_trunc (mfmt t))); [exact F|exact F2|apply (roundf_ok _ _ hw_trunc); assumption]).
  destruct (emul1f_ok Sse2 t (ftrunc (mfmt t)) undef a F Hu Ha R1) as (r & E & M). exists r. split; [exact E|].
  apply (maps_fits _ t (ftrunc (mfmt t))); assumption.
Qed.

(** f16: each half *)
Lemma round16_ok e (op : ext -> mty -> Z -> Z -> option Z) P undef v :
  (forall a, in_reg (nb e) a -> exists r, op e MF32 undef a = Some r /\ fits_all e MF32 P a r) -> in_reg16 e v ->
  exists r, round16 op e undef v = Some r /\
    vector16 e r (fun i b => rounded binary32 (P binary32) (value16 e v i) (decode binary32 b)).
Proof.
  intros H [V0 V1]. destruct (H _ V0) as (r0 & E0 & R0 & L0). destruct (H _ V1) as (r1 & E1 & R1 & L1). unfold round16. rewrite E0, E1. exists (r0, r1).
  split; [reflexivity|]. split; [split; assumption|]. apply half_cases; intros i Hi; unfold value16.
  - rewrite !pattern16_lo by exact Hi. apply L0. exact Hi.
  - rewrite !pattern16_hi by exact Hi. apply L1. exact Hi.
Qed.

(** the results are determined, so that every extension returns the same patterns *)
Lemma rounded_unique f (P : Z -> Z -> Prop) v r r' : good_fmt f -> (forall x k k', P x k -> P x k' -> k = k') -> rounded f P v r -> rounded f P v r' -> r = r'.
Proof.
  intros G U. unfold rounded. destruct v as [|s|s m]; try congruence. intros (m1 & k1 & -> & E1 & P1) (m2 & k2 & -> & E2 & P2).
  rewrite (U _ _ _ P1 P2) in E1. f_equal. destruct s; cbn [sval] in *; lia.
Qed.
Lemma decode_inj f b b' s m : good_fmt f -> 0 <= b < 2 ^ width f -> 0 <= b' < 2 ^ width f -> decode f b = FFin s m -> decode f b' = FFin s m -> b = b'.
Proof.
  intros G Hb Hb' D D'. destruct (good_gen f G) as (HM & HE & HW).
  destruct (finite_pattern f HM HE b s m Hb D) as (p & Hp & E & Eb & _). destruct (finite_pattern f HM HE b' s m Hb' D') as (p' & Hp' & E' & Eb' & _).
  rewrite Eb, Eb'. f_equal. apply (vmag_inj f); lia.
Qed.
Lemma down_unique f : good_fmt f -> forall x k k', down f x k -> down f x k' -> k = k'.
Proof. intros G x k k'. pose proof (one_pos f G). unfold down. intros. assert (k < k' + 1) by nia. assert (k' < k + 1) by nia. lia. Qed.
Lemma up_unique f : good_fmt f -> forall x k k', up f x k -> up f x k' -> k = k'.
Proof. intros G x k k'. pose proof (one_pos f G). unfold up. intros. assert (k - 1 < k') by nia. assert (k' - 1 < k) by nia. lia. Qed.
Lemma zero_unique f : good_fmt f -> forall x k k', toward_zero f x k -> toward_zero f x k' -> k = k'.
Proof.
  intros G x k k'. pose proof (one_pos f G). unfold toward_zero. intros [A B] [A' B']. assert (Z.abs k < Z.abs k' + 1) by nia. assert (Z.abs k' < Z.abs k + 1) by nia.
  assert (E : Z.abs k = Z.abs k') by lia. destruct (Z.eq_dec k 0) as [->|N]; [lia|]. assert (x <> 0) by nia.
  destruct (Z_lt_ge_dec x 0); [assert (k <= 0) by nia; assert (k' <= 0) by nia|assert (0 <= k) by nia; assert (0 <= k') by nia]; lia.
Qed.
Lemma nearest_unique f : good_fmt f -> forall x k k', nearest f x k -> nearest f x k' -> k = k'.
Proof.
  intros G x k k'. pose proof (one_pos f G). unfold nearest. intros [A B] [A' B']. destruct (Z.eq_dec k k') as [|N]; [assumption|exfalso].
  assert (D : Z.abs (k - k') * one f <= one f).
  { rewrite <- (Z.abs_eq (one f)) at 1 by lia. rewrite <- Z.abs_mul. replace ((k - k') * one f) with ((k * one f - x) - (k' * one f - x)) by ring. lia. }
  assert (Z.abs (k - k') = 1) by nia.
  assert (2 * Z.abs (k * one f - x) = one f /\ 2 * Z.abs (k' * one f - x) = one f) as [H1 H2].
  { assert (k = k' + 1 \/ k' = k + 1) as [->| ->] by lia; lia. }
  specialize (B H1). specialize (B' H2). assert (k = k' + 1 \/ k' = k + 1) as [->| ->] by lia.
  - rewrite Z.add_1_r, Z.even_succ, <- Z.negb_even, B' in B. discriminate.
  - rewrite Z.add_1_r, Z.even_succ, <- Z.negb_even, B in B'. discriminate.
Qed.

(** ** iota and mask_for_loop_tail *)

Lemma float_of_int_ok t z : is_float t = true -> Z.abs z < 2 ^ 23 -> decode (mfmt t) (float_of_int (mfmt t) z) = FFin (z <? 0) (Z.abs z * one (mfmt t)) /\ 0 <= float_of_int (mfmt t) z < 2 ^ mw t.
Proof.
  intros F Hz. unfold float_of_int. rewrite <- (mfmt_width t F).
  apply encode_exact; [apply mfmt_good| |].
  - assert (2 ^ 23 <= 2 ^ (mbits (mfmt t) + 1)) by (destruct t; vm_compute; discriminate). lia.
  - destruct t; vm_compute; split; discriminate.
Qed.
Lemma elems_small e t : is_float t = true -> 0 < nb e / mw t <= 16.
Proof. intros F. fcase t F; destruct e; vm_compute; split; congruence || reflexivity. Qed.

Lemma x_iotaf_ok e t : is_float t = true -> in_reg (nb e) (x_iotaf e t) /\ forall i, 0 <= i < nb e / mw t -> lane (mw t) i (x_iotaf e t) = float_of_int (mfmt t) i.
Proof.
  intros F. pose proof (okw_f e t F) as O. pose proof (elems_small e t F) as S. unfold x_iotaf. split; [apply in_reg_build; assumption|]. intros i Hi.
  rewrite lane_buildn by assumption. apply Z.mod_small, float_of_int_ok; [exact F|lia].
Qed.
Lemma x_set1f_ok e t x : is_float t = true -> 0 <= x < 2 ^ mw t -> in_reg (nb e) (x_set1f e t x) /\ forall i, 0 <= i < nb e / mw t -> lane (mw t) i (x_set1f e t x) = x.
Proof.
  intros F Hx. pose proof (okw_f e t F) as O. unfold x_set1f. split; [apply in_reg_build; assumption|]. intros i Hi. rewrite lane_set1 by assumption. apply Z.mod_small, Hx.
Qed.
Lemma compare_ints t i d : is_float t = true -> 0 <= i < 2 ^ 23 -> 0 <= d < 2 ^ 23 ->
  is (compare (decode (mfmt t) (float_of_int (mfmt t) i)) (decode (mfmt t) (float_of_int (mfmt t) d))) Less = (i <? d).
Proof.
  intros F Hi Hd. destruct (float_of_int_ok t i F) as [-> _]; [lia|]. destruct (float_of_int_ok t d F) as [-> _]; [lia|].
  rewrite (proj2 (Z.ltb_ge i 0)), (proj2 (Z.ltb_ge d 0)) by lia. pose proof (one_pos (mfmt t) (mfmt_good t)).
  cbn [compare sval]. destruct (Z.compare_spec (Z.abs i * one (mfmt t)) (Z.abs d * one (mfmt t))); cbn [is]; destruct (Z.ltb_spec i d); try reflexivity; nia.
Qed.

Lemma x_set1lf_ok e t x : is_float t = true -> logical e (uty t) (x_set1lf e t x) (fun _ => negb (x =? 0)).
Proof. intros F. destruct (float_in t F) as (H & _). apply x_set1l_ok, H. Qed.

Lemma tailf_ok e t i n : is_float t = true -> in_ty i32 (n - i) ->
  exists l, x_mask_for_loop_tailf e t i n = Some l /\ logical e (uty t) l (fun k => i + k <? n).
Proof.
  intros F R. destruct (float_in t F) as (H & E & _). pose proof (elems_small e t F) as S. unfold x_mask_for_loop_tailf. destruct (Z.leb_spec n i).
  - eexists. split; [reflexivity|]. eapply logical_ext; [apply x_set1lf_ok, F|]. intros k Hk. cbn [Z.eqb negb]. lia.
  - unfold carith. cbn [is_signed i32]. rewrite (proj2 (andb_true_iff _ _)) by (unfold in_ty in R; lia).
    cbn [bind]. destruct (Z.ltb_spec (n - i) (nb e / mw t)).
    + eexists. split; [reflexivity|]. destruct (x_iotaf_ok e t F) as [R1 L1].
      destruct (x_set1f_ok e t (float_of_int (mfmt t) (n - i)) F) as [R2 L2]; [apply float_of_int_ok; [exact F|lia]|].
      eapply logical_ext; [apply x_ltf_ok; assumption|]. intros k Hk. rewrite E in Hk. cbv beta. unfold rel. rewrite !value_lane, L1, L2 by exact Hk.
      rewrite compare_ints by (exact F || lia). lia.
    + eexists. split; [reflexivity|]. eapply logical_ext; [apply x_set1lf_ok, F|]. intros k Hk. rewrite E in Hk. cbn [Z.eqb negb]. lia.
Qed.
