(** Integer arithmetic, bitwise operators and shifts of the POWER back ends. *)
From Coq Require Import ZArith Lia List Bool ZifyBool.
From Verif Require Import CInt BitLemmas ScalarOps ScalarSpec ScalarProofs CpuSimd X86Deg234 X86Arith
  X86ArithSpec X86LaneLemmas X86ArithProofs X86EmulProofs X86LogicProofs X86SelectProofs X86RedProofs X86FmaProofs
  Arm ArmSpec ArmProofs ArmProofs2 ArmProofs3 Ppc PpcSpec.
Import ListNotations.
Open Scope Z_scope.

Lemma ok64 : okw 128 64.
Proof. unfold okw; cbn; lia. Qed.
Lemma pok t : In t int_types -> okw 128 (bits t).
Proof. exact (okw_128 t). Qed.
Lemma emulated_inv e t : emulated64 e t = true -> e = Vmx /\ bits t = 64.
Proof. unfold emulated64. destruct e; [|discriminate]. intros E. apply Z.eqb_eq in E. auto. Qed.
Lemma signed64 t : In t int_types -> bits t = 64 -> is_signed t = true -> t = i64.
Proof. intros H. ty_cases H; cbn; intros; (discriminate || reflexivity). Qed.
Lemma pv_weaken t r (P Q : Z -> Z -> Prop) : pvector t r P -> (forall i v, 0 <= i < 128 / bits t -> P i v -> Q i v) -> pvector t r Q.
Proof. intros [R H] W. split; [exact R|]. intros i Hi. apply W; [exact Hi|]. apply H. exact Hi. Qed.

(** *** The two-element structures *)
Lemma lane_pair64 x y i : 0 <= i < 2 -> lane 64 i (pair64 x y) = (if i =? 0 then x else y) mod 2 ^ 64.
Proof. intros Hi. unfold pair64. apply lane_build; lia. Qed.
Lemma in_reg_pair64 x y : in_reg 128 (pair64 x y).
Proof. exact (in_reg_build 128 64 _ ok64). Qed.
Lemma emu64_ok t f (P : Z -> Z -> Prop) : In t int_types -> bits t = 64 ->
  (forall i, 0 <= i < 2 -> exists v, f i = Some v /\ P i (cast t v)) -> exists r, emu64 f = Some r /\ pvector t r P.
Proof.
  intros H B D. destruct (D 0 ltac:(lia)) as (x & Ex & Px). destruct (D 1 ltac:(lia)) as (y & Ey & Py).
  exists (pair64 x y). unfold emu64. rewrite Ex. cbn [bind]. rewrite Ey. cbn [bind]. split; [reflexivity|].
  split; [apply in_reg_pair64|]. rewrite B. change (128 / 64) with 2. intros i Hi. rewrite elt_lane, B, lane_pair64 by exact Hi.
  rewrite <- B, cast_mod_pow by exact H. destruct (Z.eqb_spec i 0) as [->|]; [exact Px|]. replace i with 1 by lia. exact Py.
Qed.
Lemma emu64_none f i : 0 <= i < 2 -> f i = None -> emu64 f = None.
Proof.
  intros Hi E. unfold emu64. assert (i = 0 \/ i = 1) as [->| ->] by lia; [rewrite E; reflexivity|].
  destruct (f 0); [|reflexivity]. cbn [bind]. rewrite E. reflexivity.
Qed.
Lemma elt64 t a i : bits t = 64 -> cast t (lane 64 i a) = elt t a i.
Proof. intros B. rewrite elt_lane, B. reflexivity. Qed.

(** *** Built-ins working element by element *)
Lemma vec_1_pv t f a (P : Z -> Z -> Prop) : In t int_types -> in_reg 128 a ->
  (forall i, 0 <= i < 128 / bits t -> P i (cast t (f (lane (bits t) i a)))) -> pvector t (vec_1 (bits t) f a) P.
Proof.
  intros H Ha D. split; [exact (in_reg_build 128 (bits t) _ (pok t H))|]. intros i Hi. unfold vec_1, lanewise1.
  rewrite elt_lane, lane_buildn, cast_mod_pow by (exact H || exact (pok t H) || exact Hi). apply D. exact Hi.
Qed.
Lemma vec_2_pv t f a b (P : Z -> Z -> Prop) : In t int_types ->
  (forall i, 0 <= i < 128 / bits t -> P i (cast t (f (lane (bits t) i a) (lane (bits t) i b)))) -> pvector t (vec_2 (bits t) f a b) P.
Proof.
  intros H D. split; [exact (in_reg_build 128 (bits t) _ (pok t H))|]. intros i Hi. unfold vec_2, lanewise2.
  rewrite elt_lane, lane_buildn, cast_mod_pow by (exact H || exact (pok t H) || exact Hi). apply D. exact Hi.
Qed.
Lemma lane_splats w x i : okw 128 w -> 0 <= i < 128 / w -> lane w i (vec_splats w x) = x mod 2 ^ w.
Proof. intros O Hi. unfold vec_splats. apply lane_buildn; assumption. Qed.
Lemma in_reg_splats w x : okw 128 w -> in_reg 128 (vec_splats w x).
Proof. intros O. exact (in_reg_build 128 w _ O). Qed.
Lemma lane_vinsert w x a i j : okw 128 w -> 0 <= j < 128 / w ->
  lane w j (vec_insert w x a i) = if j =? i then x mod 2 ^ w else lane w j a.
Proof.
  intros O Hj. unfold vec_insert. rewrite lane_buildn by assumption. destruct (j =? i); [reflexivity|].
  apply Z.mod_small. apply lane_range. destruct O; lia.
Qed.
Lemma insert_from_ok w f : okw 128 w -> forall k i r, in_reg 128 r -> 0 <= i ->
  (forall j, i <= j < i + Z.of_nat k -> exists v, f j = Some v) ->
  exists s, insert_from w f i k r = Some s /\ in_reg 128 s /\
    (forall j v, 0 <= j < 128 / w -> i <= j < i + Z.of_nat k -> f j = Some v -> lane w j s = v mod 2 ^ w) /\
    (forall j, 0 <= j < 128 / w -> ~ i <= j < i + Z.of_nat k -> lane w j s = lane w j r).
Proof.
  intros O. induction k as [|k IH]; intros i r R Hi D.
  - exists r. split; [reflexivity|]. split; [exact R|]. split; [lia|reflexivity].
  - cbn [insert_from]. destruct (D i ltac:(lia)) as (x & Ex). rewrite Ex. cbn [bind].
    destruct (IH (i + 1) (vec_insert w x r i)) as (s & Es & Rs & Ls & Ks).
    + exact (in_reg_build 128 w _ O).
    + lia.
    + intros j Hj. apply D. lia.
    + exists s. split; [exact Es|]. split; [exact Rs|]. split.
      * intros j v Hj Hij Ev. destruct (Z.eq_dec j i) as [->|N].
        -- rewrite Ks by lia. rewrite lane_vinsert by assumption. rewrite Z.eqb_refl. congruence.
        -- apply Ls; [assumption|lia|assumption].
      * intros j Hj Hij. rewrite Ks by lia. rewrite lane_vinsert by assumption. replace (j =? i) with false by lia. reflexivity.
Qed.
Lemma insert_from_none w f : forall k i r j, i <= j < i + Z.of_nat k -> f j = None -> insert_from w f i k r = None.
Proof.
  induction k as [|k IH]; intros i r j Hj E; [lia|]. cbn [insert_from]. destruct (Z.eq_dec j i) as [->|N].
  - rewrite E. reflexivity.
  - destruct (f i); [|reflexivity]. cbn [bind]. apply (IH (i + 1) _ j); [lia|exact E].
Qed.
Lemma nlanes_pos w : okw 128 w -> w <= 128 -> 0 < 128 / w.
Proof. intros (A & B & C) W. apply Z.div_str_pos. lia. Qed.
Lemma lanes_pos t : In t int_types -> 0 < 128 / bits t.
Proof. intros H. apply nlanes_pos; [apply pok; exact H|]. pose proof (bits_pos t H). lia. Qed.
Lemma splat_insert_ok t f (P : Z -> Z -> Prop) : In t int_types ->
  (forall i, 0 <= i < 128 / bits t -> exists v, f i = Some v /\ P i (cast t v)) ->
  exists r, splat_insert (bits t) f = Some r /\ pvector t r P.
Proof.
  intros H D. pose proof (pok t H) as O. pose proof (lanes_pos t H) as L. pose proof (nlanes_z 128 (bits t) O) as N.
  unfold splat_insert. destruct (D 0 ltac:(lia)) as (x & Ex & Px). rewrite Ex. cbn [bind].
  destruct (insert_from_ok (bits t) f O (nlanes 128 (bits t) - 1) 1 (vec_splats (bits t) x)) as (s & Es & Rs & Ls & Ks).
  - apply in_reg_splats. exact O.
  - lia.
  - intros j Hj. destruct (D j) as (v & Ev & _); [lia|]. exists v. exact Ev.
  - exists s. split; [exact Es|]. split; [exact Rs|]. intros i Hi. destruct (D i Hi) as (v & Ev & Pv).
    destruct (Z.eq_dec i 0) as [->|Nz].
    + rewrite elt_lane, Ks, lane_splats, cast_mod_pow by (assumption || lia). replace x with v by congruence. exact Pv.
    + rewrite elt_lane, (Ls i v), cast_mod_pow by (assumption || lia). exact Pv.
Qed.
Lemma splat_insert_none t f i : In t int_types -> 0 <= i < 128 / bits t -> f i = None -> splat_insert (bits t) f = None.
Proof.
  intros H Hi E. pose proof (nlanes_z 128 (bits t) (pok t H)) as N. unfold splat_insert. destruct (Z.eq_dec i 0) as [->|Nz].
  - rewrite E. reflexivity.
  - destruct (f 0); [|reflexivity]. cbn [bind]. apply (insert_from_none (bits t) f _ 1 _ i); [lia|exact E].
Qed.

(** *** C arithmetic on the 64-bit types *)
Lemma c64_some t z : In t int_types -> bits t = 64 -> (t = i64 -> in_ty i64 z) ->
  exists v, casted t (carith (promote t) z) = Some v /\ wraps_to t z v.
Proof.
  intros H B D. destruct (carith_some t z H (wide64 t H B)) as (v & Ev).
  - intros S. rewrite (signed64 t H B S) in *. auto.
  - exists (cast t v). unfold casted. rewrite Ev. split; [reflexivity|].
    apply (casted_value t (Some v)); [exact H|reflexivity|]. intros y [= <-]. apply carith_congr; assumption.
Qed.
Lemma c64_none z : ~ in_ty i64 z -> casted i64 (carith (promote i64) z) = None.
Proof. intros N. rewrite carith_none; [reflexivity|cbn; tauto|reflexivity|reflexivity|exact N]. Qed.

Section Arith.
Variable (e : pext) (t : ity).
Hypothesis H : In t int_types.

Lemma wide_case (A : Z) : (e = Vmx -> t = i64 -> forall i, 0 <= i < 2 -> in_ty i64 A) ->
  emulated64 e t = true -> t = i64 -> in_ty i64 A.
Proof. intros D E T. apply (D (proj1 (emulated_inv e t E)) T 0). lia. Qed.

(** an operator that is a C expression [z] on the 64-bit types of vmx and a built-in otherwise *)
Lemma arith_ok (z : Z -> Z) (s : Z -> option Z) (v : Z) :
  (e = Vmx -> t = i64 -> forall i, 0 <= i < 2 -> in_ty i64 (z i)) ->
  (forall i, bits t = 64 -> s i = casted t (carith (promote t) (z i))) ->
  pvector t v (fun i x => wraps_to t (z i) x) ->
  exists r, (if emulated64 e t then emu64 s else Some v) = Some r /\ pvector t r (fun i x => wraps_to t (z i) x).
Proof.
  intros D Es V. destruct (emulated64 e t) eqn:E; [|exists v; auto].
  destruct (emulated_inv e t E) as [-> B]. apply emu64_ok; [assumption..|]. intros i Hi.
  destruct (c64_some t (z i) H B) as (x & Ex & W); [auto|]. exists x. rewrite Es by exact B. split; [exact Ex|].
  rewrite cast_s by (assumption || apply W). exact W.
Qed.

Lemma p_add_ok a b : (e = Vmx -> t = i64 -> forall i, 0 <= i < 2 -> in_ty i64 (elt t a i + elt t b i)) ->
  exists r, p_add e t a b = Some r /\ pvector t r (fun i v => wraps_to t (elt t a i + elt t b i) v).
Proof.
  intros D. apply arith_ok; [exact D| |].
  - intros i B. cbn beta. rewrite !elt64 by exact B. reflexivity.
  - apply vec_2_pv; [exact H|]. intros i Hi. rewrite !elt_lane. rewrite cast_add by exact H. apply cast_wraps. exact H.
Qed.
Lemma p_sub_ok a b : (e = Vmx -> t = i64 -> forall i, 0 <= i < 2 -> in_ty i64 (elt t a i - elt t b i)) ->
  exists r, p_sub e t a b = Some r /\ pvector t r (fun i v => wraps_to t (elt t a i - elt t b i) v).
Proof.
  intros D. apply arith_ok; [exact D| |].
  - intros i B. cbn beta. rewrite !elt64 by exact B. reflexivity.
  - apply vec_2_pv; [exact H|]. intros i Hi. rewrite !elt_lane. rewrite cast_sub by exact H. apply cast_wraps. exact H.
Qed.
Lemma p_mul_ok a b : (e = Vmx -> t = i64 -> forall i, 0 <= i < 2 -> in_ty i64 (elt t a i * elt t b i)) ->
  exists r, p_mul e t a b = Some r /\ pvector t r (fun i v => wraps_to t (elt t a i * elt t b i) v).
Proof.
  intros D. apply arith_ok; [exact D| |].
  - intros i B. cbn beta. rewrite !elt64 by exact B. reflexivity.
  - apply vec_2_pv; [exact H|]. intros i Hi. rewrite !elt_lane. rewrite cast_mul by exact H. apply cast_wraps. exact H.
Qed.
Lemma vec_neg_pv a : in_reg 128 a ->
  pvector t (if is_signed t then vec_neg (bits t) a else vec_sub (bits t) (vec_splats (bits t) 0) a)
            (fun i v => wraps_to t (- elt t a i) v).
Proof.
  intros Ha. destruct (is_signed t).
  - apply vec_1_pv; [exact H|exact Ha|]. intros i Hi. rewrite !elt_lane. rewrite cast_neg by exact H. apply cast_wraps. exact H.
  - apply vec_2_pv; [exact H|]. intros i Hi. rewrite lane_splats by (exact Hi || exact (pok t H)).
    rewrite Zmod_0_l. cbn beta. change (0 - lane (bits t) i a) with (- lane (bits t) i a). rewrite (elt_lane t a i). rewrite cast_neg by exact H. apply cast_wraps. exact H.
Qed.
Lemma p_neg_ok a : in_reg 128 a -> (e = Vmx -> t = i64 -> forall i, 0 <= i < 2 -> in_ty i64 (- elt t a i)) ->
  exists r, p_neg e t a = Some r /\ pvector t r (fun i v => wraps_to t (- elt t a i) v).
Proof.
  intros Ha D.
  assert (p_neg e t a = if emulated64 e t then emu64_1 t (s_neg t) a
          else Some (if is_signed t then vec_neg (bits t) a else vec_sub (bits t) (vec_splats (bits t) 0) a)) as ->
    by (unfold p_neg; destruct (is_signed t); reflexivity).
  apply arith_ok; [exact D| |apply vec_neg_pv; exact Ha].
  intros i B. cbn beta. rewrite !elt64 by exact B. reflexivity.
Qed.
Lemma p_abs_ok a : in_reg 128 a -> (e = Vmx -> t = i64 -> forall i, 0 <= i < 2 -> in_ty i64 (- elt t a i)) ->
  exists r, p_abs e t a = Some r /\ pvector t r (fun i v => wraps_to t (Z.abs (elt t a i)) v).
Proof.
  intros Ha D. unfold p_abs. destruct (is_signed t) eqn:S; cbn [negb].
  - destruct (emulated64 e t) eqn:E.
    + destruct (emulated_inv e t E) as [Ev B]. apply emu64_ok; [assumption..|]. intros i Hi. rewrite elt64 by exact B.
      specialize (D Ev (signed64 t H B S) i Hi). rewrite (signed64 t H B S) in D |- *.
      exists (Z.abs (elt i64 a i)). pose proof (elt_range i64 a i ltac:(cbn; tauto)) as R. unfold in_ty in D, R.
      change (ty_min i64) with (- 2 ^ 63) in *. change (ty_max i64) with (2 ^ 63 - 1) in *.
      split.
      * apply s_abs_ok; [cbn; tauto|exact R|]. left. change (ty_min i64) with (- 2 ^ 63). lia.
      * apply cast_wraps. cbn; tauto.
    + eexists. split; [reflexivity|]. apply vec_1_pv; [exact H|exact Ha|]. intros i Hi. rewrite elt_lane.
      replace (to_s (bits t) (lane (bits t) i a)) with (cast t (lane (bits t) i a)) by (unfold cast; rewrite S; reflexivity).
      apply cast_wraps. exact H.
  - eexists. split; [reflexivity|]. split; [exact Ha|]. intros i Hi. pose proof (elt_range t a i H) as R. rewrite Z.abs_eq.
    + split; [exact R|]. replace (elt t a i - elt t a i) with 0 by ring. apply Z.divide_0_r.
    + unfold in_ty, ty_min in R. rewrite S in R. lia.
Qed.
Lemma minmax_ok (s g : Z -> Z -> Z) a b : (forall x y, s x y = g x y) ->
  (forall x y, in_ty t x -> in_ty t y -> in_ty t (g x y)) ->
  exists r, (if emulated64 e t then emu64_2 t (fun x y => Some (s x y)) a b
             else Some (vec_2 (bits t) (fun x y => g (cast t x) (cast t y)) a b)) = Some r /\
    pvector t r (fun i v => v = g (elt t a i) (elt t b i)).
Proof.
  intros Es G. destruct (emulated64 e t) eqn:E.
  - destruct (emulated_inv e t E) as [_ B]. apply emu64_ok; [assumption..|]. intros i Hi. eexists. split; [reflexivity|].
    rewrite Es, !elt64 by exact B. apply cast_s; [exact H|]. apply G; apply elt_range; exact H.
  - eexists. split; [reflexivity|]. apply vec_2_pv; [exact H|]. intros i Hi. rewrite !elt_lane. apply cast_s; [exact H|].
    apply G; apply cast_in_ty; exact H.
Qed.
Lemma p_min_ok a b : exists r, p_min e t a b = Some r /\ pvector t r (fun i v => v = Z.min (elt t a i) (elt t b i)).
Proof. apply (minmax_ok s_min Z.min); [apply s_min_ok|]. unfold in_ty. lia. Qed.
Lemma p_max_ok a b : exists r, p_max e t a b = Some r /\ pvector t r (fun i v => v = Z.max (elt t a i) (elt t b i)).
Proof. apply (minmax_ok s_max Z.max); [apply s_max_ok|]. unfold in_ty. lia. Qed.

Lemma p_sat_ok s v g a b :
  (forall i, 0 <= i < 128 / bits t -> bits t = 64 -> s t (elt t a i) (elt t b i) = Some (clamp t (g (elt t a i) (elt t b i)))) ->
  v t a b = vec_2 (bits t) (fun x y => saturate t (g (cast t x) (cast t y))) a b ->
  exists r, p_sat s v e t a b = Some r /\ pvector t r (fun i x => x = clamp t (g (elt t a i) (elt t b i))).
Proof.
  intros D V. unfold p_sat. destruct (emulated64 e t) eqn:E.
  - destruct (emulated_inv e t E) as [_ B]. apply emu64_ok; [assumption..|]. intros i Hi. eexists. split.
    + rewrite !elt64 by exact B. apply D; [rewrite B; exact Hi|exact B].
    + apply cast_s; [exact H|]. apply clamp_in. exact H.
  - destruct (Z.eqb_spec (bits t) 64) as [B|B].
    + rewrite <- B. apply splat_insert_ok; [exact H|]. intros i Hi. eexists. split.
      * unfold vec_extract. rewrite <- !elt_lane. apply D; assumption.
      * apply cast_s; [exact H|]. apply clamp_in. exact H.
    + rewrite V. eexists. split; [reflexivity|]. apply vec_2_pv; [exact H|]. intros i Hi.
      rewrite saturate_clamp by (apply min_le_max; exact H). rewrite !elt_lane. apply cast_s; [exact H|]. apply clamp_in. exact H.
Qed.
Lemma p_adds_ok a b : exists r, p_adds e t a b = Some r /\ pvector t r (fun i x => x = clamp t (elt t a i + elt t b i)).
Proof.
  apply (p_sat_ok s_adds vec_adds Z.add); [|reflexivity]. intros i Hi B. apply s_adds_ok; [exact H|apply elt_range; exact H..].
Qed.
Lemma p_subs_ok a b : (t = i64 -> forall i, 0 <= i < 2 -> elt t b i <> - 2 ^ 63) ->
  exists r, p_subs e t a b = Some r /\ pvector t r (fun i x => x = clamp t (elt t a i - elt t b i)).
Proof.
  intros D. apply (p_sat_ok s_subs vec_subs Z.sub); [|reflexivity]. intros i Hi B.
  apply s_subs_ok; [exact H|apply elt_range; exact H..|]. intros S. rewrite B in Hi.
  pose proof (signed64 t H B S) as T. specialize (D T i Hi). rewrite T in D |- *. exact D.
Qed.
Lemma p_div_ok a b : (forall i, 0 <= i < 128 / bits t -> ~ bad_div t (elt t a i) (elt t b i)) ->
  exists r, p_div e t a b = Some r /\ pvector t r (fun i v => wraps_to t (Z.quot (elt t a i) (elt t b i)) v).
Proof.
  intros D.
  assert (forall i, 0 <= i < 128 / bits t -> exists v, s_div t (elt t a i) (elt t b i) = Some v /\
            wraps_to t (Z.quot (elt t a i) (elt t b i)) (cast t v)) as S.
  { intros i Hi. destruct (s_div_ok t (elt t a i) (elt t b i) H (elt_range t a i H) (elt_range t b i H) (D i Hi)) as (v & Ev & W).
    exists v. split; [exact Ev|]. rewrite cast_s by (assumption || apply W). exact W. }
  unfold p_div. destruct (emulated64 e t) eqn:E.
  - destruct (emulated_inv e t E) as [_ B]. apply emu64_ok; [assumption..|]. intros i Hi. rewrite !elt64 by exact B.
    apply S. rewrite B. exact Hi.
  - pose proof (pok t H) as O. pose proof (lanes_pos t H) as L. pose proof (nlanes_z 128 (bits t) O) as N. cbv zeta.
    unfold vec_extract at 1 2. rewrite <- !elt_lane. destruct (S 0 ltac:(lia)) as (x & Ex & _). rewrite Ex. cbn [bind].
    destruct (insert_from_ok (bits t) (fun i => s_div t (vec_extract t a i) (vec_extract t b i)) O (nlanes 128 (bits t)) 0 (vec_splats (bits t) x))
      as (s & Es & Rs & Ls & _).
    + apply in_reg_splats. exact O.
    + lia.
    + intros j Hj. destruct (S j) as (v & Ev & _); [lia|]. exists v. unfold vec_extract. rewrite <- !elt_lane. exact Ev.
    + exists s. split; [exact Es|]. split; [exact Rs|]. intros i Hi. destruct (S i Hi) as (v & Ev & Wv).
      rewrite (elt_lane t s), (Ls i v), cast_mod_pow by (assumption || lia || (unfold vec_extract; rewrite <- !elt_lane; exact Ev)). exact Wv.
Qed.
Lemma p_div_none a b i : 0 <= i < 128 / bits t -> bad_div t (elt t a i) (elt t b i) -> p_div e t a b = None.
Proof.
  intros Hi Bd. assert (s_div t (elt t a i) (elt t b i) = None) as N by (apply s_div_bad; auto using elt_range).
  unfold p_div. destruct (emulated64 e t) eqn:E.
  - destruct (emulated_inv e t E) as [_ B]. rewrite B in Hi. apply (emu64_none _ i Hi). rewrite !elt64 by exact B. exact N.
  - cbv zeta. destruct (s_div t (vec_extract t a 0) (vec_extract t b 0)); [|reflexivity]. cbn [bind].
    pose proof (nlanes_z 128 (bits t) (pok t H)).
    apply (insert_from_none (bits t) _ _ 0 _ i); [lia|]. unfold vec_extract. rewrite <- !elt_lane. exact N.
Qed.
End Arith.
