(** Proofs for PropDevice.v: integer operators and operators on bits. *)
From Coq Require Import ZArith Bool List Lia ZifyBool.
From Verif Require Import CInt BitLemmas FloatSpec ScalarOps ScalarSpec ScalarProofs ArmFloat ScalarBits Device ScalarFloat X86FloatSpec FloatArithSpec FloatVecSpec DeviceSpec.
Import ListNotations.
Local Open Scope Z_scope.

Lemma promote_in t : In t int_types -> In (promote t) int_types.
Proof. intros H. ty_cases H; cbn; tauto. Qed.

Lemma carith_result t z : In t int_types -> int_result t z (casted t (carith (promote t) z)).
Proof.
  intros H. destruct (casted t (carith (promote t) z)) as [r|] eqn:E; unfold int_result.
  - split.
    + apply (casted_value _ _ _ z H E). intros y Hy. exact (carith_congr t z y H Hy).
    + unfold casted, carith, bind in E. destruct (is_signed (promote t)); [right|left; reflexivity].
      unfold in_ty. destruct (_ && _) eqn:B; [lia|discriminate].
  - unfold casted, carith, bind in E. destruct (is_signed (promote t)); [|discriminate]. split; [reflexivity|]. unfold in_ty. destruct (_ && _) eqn:B; [discriminate|lia].
Qed.

Lemma g_add_is d t a b : g_add d t a b = s_add t a b. Proof. destruct d; reflexivity. Qed.
Lemma g_sub_is d t a b : g_sub d t a b = s_sub t a b. Proof. destruct d; reflexivity. Qed.
Lemma g_mul_is d t a b : g_mul d t a b = s_mul t a b. Proof. destruct d; reflexivity. Qed.
Lemma g_div_is d t a b : g_div d t a b = s_div t a b. Proof. destruct d; reflexivity. Qed.
Lemma g_neg_is d t a : g_neg d t a = s_neg t a. Proof. destruct d; reflexivity. Qed.
Lemma g_shl_is d t a s : g_shl d t a s = s_shl t a s. Proof. destruct d; reflexivity. Qed.
Lemma g_shr_is d t a s : g_shr d t a s = s_shr t a s. Proof. destruct d; reflexivity. Qed.
Lemma g_shra_is d t a s : g_shra d t a s = s_shra t a s. Proof. destruct d; reflexivity. Qed.
Lemma sycl_clamp t z : In t int_types -> sycl_sat t z = clamp t z.
Proof. intros H. assert (ty_min t <= ty_max t) by (ty_cases H; vm_compute; discriminate). unfold sycl_sat, clamp. destruct (Z.ltb_spec z (ty_min t)); [lia|]. destruct (Z.ltb_spec (ty_max t) z); lia. Qed.
Lemma g_adds_ok d t a b : In t int_types -> in_ty t a -> in_ty t b -> g_adds d t a b = Some (clamp t (a + b)).
Proof. intros H Ha Hb. destruct d; unfold g_adds; [apply s_adds_ok..|rewrite sycl_clamp]; auto. Qed.
Lemma g_subs_is d t a b : d <> Oneapi -> g_subs d t a b = s_subs t a b.
Proof. intros N. destruct d; [unfold g_subs, s_subs, s_neg, g_adds; destruct (is_signed t); reflexivity..|contradiction]. Qed.
Lemma g_abs_ok d t a : In t int_types -> in_ty t a -> a <> ty_min t \/ is_signed t = false -> g_abs d t a = Some (Z.abs a).
Proof.
  intros H Ha N. assert (C : d <> Oneapi -> g_abs d t a = Some (Z.abs a)).
  { intros D. transitivity (if 0 <? a then Some (cast t a) else casted t (carith (promote t) (- a))); [destruct d; [reflexivity..|contradiction]|].
    destruct (Z.ltb_spec 0 a) as [L|L].
    - rewrite cast_id, Z.abs_eq by (assumption || lia). reflexivity.
    - assert (in_ty t (- a)) as I. { unfold in_ty, ty_min, ty_max in *. destruct (is_signed t); [|lia]. pose proof (bits_pos t H). destruct N; [lia|discriminate]. }
      rewrite carith_promote_fits by assumption. unfold casted, bind. rewrite cast_id, Z.abs_neq by (assumption || lia). reflexivity. }
  destruct d; [apply C; discriminate..|]. unfold g_abs. destruct (is_signed t) eqn:S.
  - rewrite cast_id; [reflexivity|assumption|]. unfold in_ty, ty_min, ty_max in *. rewrite S in *. destruct N; [lia|discriminate].
  - apply s_abs_ok; auto.
Qed.
Lemma g_abs_min d t : In t int_types -> is_signed t = true -> g_abs d t (ty_min t) = match d with Oneapi => Some (ty_min t) | _ => if bits t <? 32 then Some (ty_min t) else None end.
Proof. intros H S. destruct d; ty_cases H; try discriminate; reflexivity. Qed.

Lemma carith_def t z : match carith t z with Some y => (is_signed t = true -> y = z) /\ (is_signed t = false \/ in_ty t z) | None => is_signed t = true /\ ~ in_ty t z end.
Proof.
  unfold carith, in_ty. destruct (is_signed t) eqn:S.
  - destruct (_ && _) eqn:B; [split; [reflexivity|right; lia]|split; [reflexivity|lia]].
  - split; [discriminate|left; reflexivity].
Qed.
Lemma s_muladd_ok o t a b c : In t int_types -> muladd_result o t a b c (g_imuladd o Oneapi t a b c).
Proof.
  intros H. destruct (g_imuladd o Oneapi t a b c) as [r|] eqn:E; unfold muladd_result.
  - split.
    + destruct o; cbn [g_imuladd g_fma g_fms g_fnma g_fnms exact_muladd] in *; [apply s_fma_value|apply s_fms_value|apply s_fnma_value|apply s_fnms_value]; assumption.
    + unfold steps_fit. destruct (is_signed (promote t)) eqn:S; [right|left; reflexivity].
      destruct o; cbn [g_imuladd g_fma g_fms g_fnma g_fnms exact_muladd] in *; unfold s_fma, s_fms, s_fnma, s_fnms, casted, bind in E.
      * pose proof (carith_def (promote t) (a * b)) as D. destruct (carith (promote t) (a * b)) as [p|]; [|discriminate].
        pose proof (carith_def (promote t) (p + c)) as D'. destruct (carith (promote t) (p + c)) as [q|]; [|discriminate].
        destruct D as [D1 D2], D' as [D3 D4]. specialize (D1 S). subst p. split; [exact I|]. destruct D2, D4; try congruence. auto.
      * pose proof (carith_def (promote t) (a * b)) as D. destruct (carith (promote t) (a * b)) as [p|]; [|discriminate].
        pose proof (carith_def (promote t) (p - c)) as D'. destruct (carith (promote t) (p - c)) as [q|]; [|discriminate].
        destruct D as [D1 D2], D' as [D3 D4]. specialize (D1 S). subst p. split; [exact I|]. destruct D2, D4; try congruence. auto.
      * pose proof (carith_def (promote t) (- a)) as D0. destruct (carith (promote t) (- a)) as [n|]; [|discriminate]. destruct D0 as [N1 N2]. specialize (N1 S). subst n.
        pose proof (carith_def (promote t) (- a * b)) as D. destruct (carith (promote t) (- a * b)) as [p|]; [|discriminate].
        pose proof (carith_def (promote t) (p + c)) as D'. destruct (carith (promote t) (p + c)) as [q|]; [|discriminate].
        destruct D as [D1 D2], D' as [D3 D4]. specialize (D1 S). subst p. rewrite Z.mul_opp_l in *. destruct N2, D2, D4; try congruence. auto.
      * pose proof (carith_def (promote t) (- a)) as D0. destruct (carith (promote t) (- a)) as [n|]; [|discriminate]. destruct D0 as [N1 N2]. specialize (N1 S). subst n.
        pose proof (carith_def (promote t) (- a * b)) as D. destruct (carith (promote t) (- a * b)) as [p|]; [|discriminate].
        pose proof (carith_def (promote t) (p - c)) as D'. destruct (carith (promote t) (p - c)) as [q|]; [|discriminate].
        destruct D as [D1 D2], D' as [D3 D4]. specialize (D1 S). subst p. rewrite Z.mul_opp_l in *. destruct N2, D2, D4; try congruence. auto.
  - intros F. assert (Q : forall z, is_signed (promote t) = false -> carith (promote t) z <> None) by (intros z K; unfold carith; rewrite K; discriminate).
    assert (R : forall z, in_ty (promote t) z -> carith (promote t) z = Some z) by (intros; apply carith_fits; [apply promote_in; exact H|assumption]).
    destruct F as [F|(F1 & F2 & F3)].
    + destruct o; cbn [g_imuladd g_fma g_fms g_fnma g_fnms] in E; unfold s_fma, s_fms, s_fnma, s_fnms, casted, bind, carith in E; rewrite F in E; discriminate.
    + destruct o; cbn [g_imuladd g_fma g_fms g_fnma g_fnms exact_muladd] in *; unfold s_fma, s_fms, s_fnma, s_fnms, casted in E.
      * rewrite (R _ F2) in E. cbn [bind] in E. rewrite (R _ F3) in E. discriminate.
      * rewrite (R _ F2) in E. cbn [bind] in E. rewrite (R _ F3) in E. discriminate.
      * rewrite (R _ F1) in E. cbn [bind] in E. rewrite Z.mul_opp_l, (R _ F2) in E. cbn [bind] in E. rewrite (R _ F3) in E. discriminate.
      * rewrite (R _ F1) in E. cbn [bind] in E. rewrite Z.mul_opp_l, (R _ F2) in E. cbn [bind] in E. rewrite (R _ F3) in E. discriminate.
Qed.

(** ** Bits *)
Lemma sw_pos t : element_type t -> 8 <= sw t.
Proof. destruct t as [t|t]; cbn [element_type sw]; [intros H; apply bits_pos in H; lia|destruct t; cbn; lia]. Qed.
Lemma value_rep t x : element_type t -> valid t x -> has_bits t (value_of t (rep t x)) (fun i => Z.testbit x i) /\ value_of t (rep t x) = x.
Proof.
  destruct t as [t|t]; cbn [element_type valid rep value_of]; intros H V.
  - assert (E : cast t (cast (uty t) x) = x). { transitivity (cast t x); [apply cast_congr; apply (cast_mod (uty t)); apply uty_in; exact H|apply cast_id; assumption]. }
    rewrite E. split; [|reflexivity]. split; [exact V|]. reflexivity.
  - split; [|reflexivity]. split; [exact V|reflexivity].
Qed.
Lemma value_bits t y : element_type t -> has_bits t (value_of t (y mod 2 ^ sw t)) (fun i => Z.testbit y i).
Proof.
  intros H. pose proof (sw_pos t H) as W. destruct t as [t|t]; cbn [element_type valid value_of sw] in *.
  - split; [apply cast_in_ty; exact H|]. intros i Hi. cbn [sw] in Hi. rewrite testbit_cast by assumption. apply testbit_mod. lia.
  - split; [apply Z.mod_pos_bound; apply Z.pow_pos_nonneg; lia|]. intros i Hi. apply testbit_mod. exact Hi.
Qed.
Lemma rep_bits t x i : element_type t -> 0 <= i < sw t -> Z.testbit (rep t x) i = Z.testbit x i.
Proof. intros H Hi. destruct t as [t|t]; cbn [rep]; [|reflexivity]. apply (testbit_cast (uty t)); [apply uty_in; exact H|exact Hi]. Qed.
Lemma rep_range t x : element_type t -> valid t x -> 0 <= rep t x < 2 ^ sw t.
Proof.
  intros H V. destruct t as [t|t]; cbn [rep sw]; [|exact V]. rewrite cast_uty by exact H. apply Z.mod_pos_bound. apply Z.pow_pos_nonneg; [lia|]. apply bits_pos in H. lia.
Qed.
Lemma has_bits_ext t r f g : has_bits t r f -> (forall i, 0 <= i < sw t -> f i = g i) -> has_bits t r g.
Proof. intros [V B] E. split; [exact V|]. intros i Hi. rewrite B by exact Hi. apply E, Hi. Qed.
Lemma g_opbit_ok t (op : Z -> Z -> Z) (g : bool -> bool -> bool) a b : element_type t -> (forall x y i, 0 <= i -> Z.testbit (op x y) i = g (Z.testbit x i) (Z.testbit y i)) ->
  has_bits t (g_opbit op t a b) (fun i => g (Z.testbit a i) (Z.testbit b i)).
Proof.
  intros H E. unfold g_opbit. eapply has_bits_ext; [apply value_bits; exact H|]. intros i Hi. cbn beta. rewrite E by lia. rewrite !rep_bits by assumption. reflexivity.
Qed.
Lemma sf_opbit_ok t (op : Z -> Z -> Z) (g : bool -> bool -> bool) a b : (forall x y i, 0 <= i -> Z.testbit (op x y) i = g (Z.testbit x i) (Z.testbit y i)) ->
  has_bits (SF t) (sf_opbit op t a b) (fun i => g (Z.testbit a i) (Z.testbit b i)).
Proof.
  intros E. assert (K : sf_opbit op t a b = g_opbit op (SF t) a b). { unfold sf_opbit, g_opbit. cbn [rep value_of sw]. destruct t; reflexivity. }
  rewrite K. apply g_opbit_ok; [exact I|exact E].
Qed.
Lemma truth_c b (P : Prop) : (b = true <-> P) -> truth (c_int b) P.
Proof. intros E. destruct b; [left|right]; split; try reflexivity; [tauto|]. intros K. apply E in K. discriminate. Qed.
Lemma c_true_ne x : c_true x = true <-> x <> 0.
Proof. unfold c_true. rewrite negb_true_iff. apply Z.eqb_neq. Qed.
Lemma to_mask_ok d t l : element_type t -> has_bits t (g_to_mask d t l) (fun _ => c_true l).
Proof.
  intros H. unfold g_to_mask. eapply has_bits_ext; [apply value_bits; exact H|]. intros i Hi. cbn beta. destruct (c_true l); [apply Z.bits_m1; lia|apply Z.bits_0].
Qed.
Lemma some_bit z n : 0 <= z < 2 ^ n -> 0 <= n -> (z <> 0 <-> exists i, 0 <= i < n /\ Z.testbit z i = true).
Proof.
  intros Hz Hn. split.
  - intros N. exists (Z.log2 z). split; [|apply Z.bit_log2; lia]. split; [apply Z.log2_nonneg|]. apply Z.log2_lt_pow2; lia.
  - intros (i & Hi & B) ->. rewrite Z.bits_0 in B. discriminate.
Qed.
Lemma to_logical_ok d t a : element_type t -> valid t a -> truth (g_to_logical d t a) (exists i, 0 <= i < sw t /\ Z.testbit a i = true).
Proof.
  intros H V. pose proof (sw_pos t H). unfold g_to_logical. apply truth_c. rewrite negb_true_iff, Z.eqb_neq. rewrite (some_bit _ (sw t)); [|apply rep_range; assumption|lia].
  split; intros (i & Hi & B); exists i; (split; [exact Hi|]); rewrite rep_bits in * by assumption; exact B.
Qed.
Lemma reinterpret_ok from to x : element_type from -> element_type to -> sw from = sw to -> valid from x ->
  has_bits to (value_of to (rep from x)) (fun i => Z.testbit x i) /\ value_of from (rep to (value_of to (rep from x))) = x.
Proof.
  intros Hf Ht W V. pose proof (rep_range from x Hf V) as R. assert (E : rep from x mod 2 ^ sw to = rep from x) by (rewrite <- W; apply Z.mod_small; exact R).
  assert (B : has_bits to (value_of to (rep from x)) (fun i => Z.testbit x i)).
  { rewrite <- E. eapply has_bits_ext; [apply value_bits; exact Ht|]. intros i Hi. cbn beta. apply rep_bits; [exact Hf|rewrite W; exact Hi]. }
  split; [exact B|]. replace (rep to (value_of to (rep from x))) with (rep from x); [apply value_rep; assumption|].
  symmetry. destruct to as [t|t]; cbn [rep value_of]; [|reflexivity]. cbn [sw] in W, E. rewrite <- E at 2.
  transitivity (cast (uty t) (rep from x)); [apply cast_congr; apply (cast_mod t); exact Ht|apply cast_uty; exact Ht].
Qed.
