(** Basic facts about the helpers of SleefBase.v. *)
Require Import ZArith List Bool Lia.
Require Import Verif.FloatSpec Verif.FloatArith Verif.FloatArithSpec Verif.RoundEven Verif.X86Cvt Verif.SleefBase Verif.SleefSpec Verif.FloatArithProofs7 Verif.FloatArithProofs8.
Import ListNotations.
Local Open Scope Z_scope.

Lemma pat_split x : pattern x -> exists s p, x = sign_bit binary32 s + p /\ 0 <= p < 2 ^ 31 /\ sign_of binary32 x = s.
Proof.
  intros [A B]. unfold sign_of, sign_bit. cbn [ebits mbits binary32].
  change (2 ^ (8 + 23)) with (2 ^ 31).
  destruct (Z_lt_dec x (2 ^ 31)) as [L | L].
  - exists false, x. rewrite Z.div_small by lia. repeat split; lia.
  - exists true, (x - 2 ^ 31).
    assert (x / 2 ^ 31 = 1) as ->. { symmetry. apply Z.div_unique with (x - 2 ^ 31); lia. }
    repeat split; lia.
Qed.

Lemma sign_split s p : 0 <= p < 2 ^ 31 -> sign_of binary32 (sign_bit binary32 s + p) = s.
Proof.
  intros P. unfold sign_of, sign_bit. cbn [ebits mbits binary32]. change (2 ^ (8 + 23)) with (2 ^ 31).
  destruct s.
  - assert ((2 ^ 31 + p) / 2 ^ 31 = 1) as ->; [| reflexivity]. symmetry. apply Z.div_unique with p; lia.
  - rewrite Z.div_small by lia. reflexivity.
Qed.

Lemma val_split s p : 0 <= p < 2 ^ 31 ->
  val (sign_bit binary32 s + p) = if s then negated (val p) else val p.
Proof.
  intros P. destruct s; [| reflexivity].
  unfold val, decode.
  rewrite sign_split by assumption.
  replace (sign_of binary32 p) with false by (symmetry; apply (sign_split false p P)).
  assert (exp_of binary32 (sign_bit binary32 true + p) = exp_of binary32 p) as ->.
  { unfold exp_of, sign_bit. cbn [ebits mbits binary32]. change (2 ^ (8 + 23)) with (256 * 2 ^ 23).
    rewrite (Z.add_comm (256 * 2 ^ 23) p), Z.div_add by lia.
    change (2 ^ 8) with 256. replace (p / 2 ^ 23 + 256) with (p / 2 ^ 23 + 1 * 256) by lia. apply Z.mod_add. lia. }
  assert (man_of binary32 (sign_bit binary32 true + p) = man_of binary32 p) as ->.
  { unfold man_of, sign_bit. cbn [ebits mbits binary32]. change (2 ^ (8 + 23)) with (256 * 2 ^ 23).
    rewrite (Z.add_comm (256 * 2 ^ 23) p). apply Z.mod_add. lia. }
  destruct (_ =? _); [destruct (_ =? 0) |]; reflexivity.
Qed.

Lemma bit31 p : 0 <= p < 2 ^ 31 -> Z.testbit p 31 = false.
Proof. intros P. apply Z.testbit_false; [lia |]. rewrite Z.div_small by lia. reflexivity. Qed.
Lemma land_low p : 0 <= p < 2 ^ 31 -> Z.land p (2 ^ 31) = 0.
Proof.
  intros P. apply Z.bits_inj'. intros n N. rewrite Z.land_spec, Z.bits_0.
  destruct (Z.eq_dec n 31) as [-> | D].
  - now rewrite bit31.
  - rewrite (Z.pow2_bits_false 31 n) by lia. apply andb_false_r.
Qed.
Lemma lxor_high p : 0 <= p < 2 ^ 31 -> Z.lxor p (2 ^ 31) = 2 ^ 31 + p.
Proof. intros P. rewrite <- Z.add_nocarry_lxor by (apply land_low, P). lia. Qed.
Lemma lxor_high2 p : 0 <= p < 2 ^ 31 -> Z.lxor (2 ^ 31 + p) (2 ^ 31) = p.
Proof. intros P. rewrite <- (lxor_high p P), Z.lxor_assoc, Z.lxor_nilpotent. apply Z.lxor_0_r. Qed.

Lemma land_sign s p : 0 <= p < 2 ^ 31 -> Z.land (sign_bit binary32 s + p) (2 ^ 31) = sign_bit binary32 s.
Proof.
  intros P. destruct s; unfold sign_bit; cbn [ebits mbits binary32]; change (2 ^ (8 + 23)) with (2 ^ 31).
  - rewrite <- (lxor_high p P). apply Z.bits_inj'. intros n N. rewrite Z.land_spec, Z.lxor_spec.
    destruct (Z.eq_dec n 31) as [-> | D].
    + rewrite bit31 by assumption. reflexivity.
    + rewrite (Z.pow2_bits_false 31 n) by lia. apply andb_false_r.
  - rewrite Z.add_0_l. apply land_low, P.
Qed.

Lemma land_ones31 x : Z.land 0x7fffffff x = x mod 2 ^ 31.
Proof. rewrite Z.land_comm. change 0x7fffffff with (Z.ones 31). apply Z.land_ones. lia. Qed.

Lemma fabs_split s p : 0 <= p < 2 ^ 31 -> fabsfk (sign_bit binary32 s + p) = p.
Proof.
  intros P. unfold fabsfk. rewrite land_ones31. unfold sign_bit. destruct s; cbn [ebits mbits binary32].
  - change (2 ^ (8 + 23)) with (1 * 2 ^ 31). rewrite Z.add_comm, Z.mod_add by lia. apply Z.mod_small. lia.
  - rewrite Z.add_0_l. apply Z.mod_small. lia.
Qed.

Lemma mulsign_split s p s' p' : 0 <= p < 2 ^ 31 -> 0 <= p' < 2 ^ 31 ->
  mulsignf (sign_bit binary32 s + p) (sign_bit binary32 s' + p') = sign_bit binary32 (xorb s s') + p.
Proof.
  intros P P'. unfold mulsignf. rewrite land_sign by assumption. unfold sign_bit.
  destruct s, s'; cbn [ebits mbits binary32 xorb]; change (2 ^ (8 + 23)) with (2 ^ 31);
    rewrite ?Z.add_0_l, ?Z.lxor_0_r; try reflexivity; [apply lxor_high2 | apply lxor_high]; assumption.
Qed.

Lemma opp_split s p : 0 <= p < 2 ^ 31 -> negf (sign_bit binary32 s + p) = sign_bit binary32 (negb s) + p.
Proof.
  intros P. unfold negf, fopp. rewrite sign_split by assumption. unfold sign_bit.
  destruct s; cbn [ebits mbits binary32 negb]; lia.
Qed.

Lemma opposite_neg x : opposite x = negf x.
Proof. reflexivity. Qed.

Lemma split_pat s p : 0 <= p < 2 ^ 31 -> pattern (sign_bit binary32 s + p).
Proof. intros P. unfold pattern, sign_bit. destruct s; cbn [ebits mbits binary32]; change (2 ^ (8 + 23)) with (2 ^ 31); lia. Qed.

Ltac split_p x := let s := fresh "s" in let p := fresh "p" in let E := fresh "E" in let P := fresh "P" in let S := fresh "S" in
  match goal with H : pattern x |- _ => destruct (pat_split x H) as (s & p & E & P & S); clear S; subst x end.

(** values *)
Lemma val_fabs x : pattern x -> val (fabsfk x) = match val x with FNaN => FNaN | FInf _ => FInf false | FFin _ m => FFin false m end.
Proof.
  intros H. destruct (pat_split x H) as (s & p & -> & P & _). rewrite fabs_split, val_split by assumption.
  assert (forall v, val p = v -> match v with FInf t | FFin t _ => t = false | FNaN => True end) as K.
  { intros v <-. unfold val, decode. change (sign_of binary32 p) with (sign_of binary32 (sign_bit binary32 false + p)). rewrite sign_split by assumption.
    destruct (_ =? _); [destruct (_ =? 0) |]; auto. }
  specialize (K _ eq_refl). destruct (val p); destruct s; cbn [negated]; subst; reflexivity.
Qed.
Lemma val_neg x : pattern x -> val (negf x) = negated (val x).
Proof.
  intros H. split_p x. rewrite opp_split, !val_split by assumption.
  destruct s; cbn [negb]; [| reflexivity]. destruct (val p); cbn; rewrite ?negb_involutive; reflexivity.
Qed.
Lemma neg_pat x : pattern x -> pattern (negf x).
Proof. intros H. split_p x. rewrite opp_split by assumption. now apply split_pat. Qed.
Lemma fabs_pat x : pattern (fabsfk x).
Proof. unfold pattern, fabsfk. rewrite land_ones31. pose proof (Z.mod_pos_bound x (2 ^ 31)). lia. Qed.
Lemma fabs_neg x : pattern x -> fabsfk (negf x) = fabsfk x.
Proof. intros H. split_p x. rewrite opp_split, !fabs_split by assumption. reflexivity. Qed.
Lemma negated2 v : negated (negated v) = v.
Proof. destruct v; cbn; rewrite ?negb_involutive; reflexivity. Qed.
Lemma val_mulsign x y : pattern x -> pattern y ->
  val (mulsignf x y) = if sign_of binary32 y then negated (val x) else val x.
Proof.
  intros H K. split_p x. split_p y. rewrite mulsign_split, sign_split, !val_split by assumption.
  destruct s, s0; cbn [xorb]; rewrite ?negated2; reflexivity.
Qed.
Lemma mulsign_pat x y : pattern x -> pattern y -> pattern (mulsignf x y).
Proof. intros H K. split_p x. split_p y. rewrite mulsign_split by assumption. now apply split_pat. Qed.
Lemma sign_neg x : pattern x -> sign_of binary32 (negf x) = negb (sign_of binary32 x).
Proof. intros H. split_p x. rewrite opp_split, !sign_split by assumption. reflexivity. Qed.
Lemma val_sign x : pattern x -> match val x with FInf t | FFin t _ => t = sign_of binary32 x | FNaN => True end.
Proof. intros _. unfold val, decode. destruct (_ =? _); [destruct (_ =? 0) |]; auto. Qed.
Lemma mulsign_neg x y : pattern x -> pattern y -> val (mulsignf x (negf y)) = negated (val (mulsignf x y)).
Proof.
  intros H K. rewrite !val_mulsign by (try apply neg_pat; assumption). rewrite sign_neg by assumption.
  destruct (sign_of binary32 y); cbn [negb]; rewrite ?negated2; reflexivity.
Qed.
Lemma absolute_fabs x : pattern x -> absolute x = fabsfk x.
Proof.
  intros H. split_p x. unfold absolute. rewrite sign_split, fabs_split by assumption.
  unfold sign_bit. destruct s; cbn [ebits mbits binary32]; change (2 ^ (8 + 23)) with (2 ^ 31); lia.
Qed.

(** comparisons *)
Lemma flt_irrefl v : flt v v = false.
Proof. destruct v as [| [] | s m]; cbn; try reflexivity. now rewrite Z.leb_refl. Qed.
Lemma flt_trans a b c : flt a b = true -> flt b c = true -> flt a c = true.
Proof.
  destruct a as [| [] | s m], b as [| [] | s' m'], c as [| [] | s'' m'']; cbn; try discriminate; try reflexivity.
  rewrite !negb_true_iff, !Z.leb_gt. lia.
Qed.
Lemma flt_asym a b : flt a b = true -> flt b a = false.
Proof. intros H. destruct (flt b a) eqn:E; [| reflexivity]. pose proof (flt_trans _ _ _ H E) as K. now rewrite flt_irrefl in K. Qed.
Lemma feqb_flt a b : flt a b = true -> feqb a b = false.
Proof.
  unfold feqb. destruct a as [| [] | s m], b as [| [] | s' m']; cbn; try discriminate; try reflexivity.
  rewrite negb_true_iff. intros ->. apply andb_false_r.
Qed.
Lemma feqb_sym a b : feqb a b = feqb b a.
Proof. unfold feqb. apply andb_comm. Qed.
Lemma feqb_refl a : feqb a a = match a with FNaN => false | _ => true end.
Proof. unfold feqb. destruct a as [| [] | s m]; cbn; try reflexivity. now rewrite Z.leb_refl. Qed.
Lemma isnan_iff x : xisnanf x = match val x with FNaN => true | _ => false end.
Proof. unfold xisnanf, eqf. change (decode binary32 x) with (val x). rewrite feqb_refl. now destruct (val x). Qed.
Lemma isinf_iff x : xisinff x = match val x with FInf _ => true | _ => false end.
Proof.
  unfold xisinff, eqf, feqb. change (decode binary32 x) with (val x).
  change (decode binary32 SLEEF_INFINITYf) with (FInf false). change (decode binary32 (negf SLEEF_INFINITYf)) with (FInf true).
  destruct (val x) as [| [] | s m]; reflexivity.
Qed.
Lemma negzero_iff x : pattern x -> xisnegzerof x = match val x with FFin true m => m =? 0 | _ => false end.
Proof.
  intros H. unfold xisnegzerof. change c_negzero with (2 ^ 31).
  destruct (Z.eqb_spec x (2 ^ 31)) as [-> | N]; [reflexivity |].
  destruct (val x) as [| t | [] m] eqn:E; try reflexivity.
  destruct (Z.eqb_spec m 0) as [-> | M]; [| reflexivity]. exfalso. apply N.
  destruct (decode_eq binary32 x (2 ^ 31) good32) as [K | [K _]]; [exact H | cbn; lia | exact E | exact K |].
  unfold is_nan in K. unfold val in E. rewrite K in E. discriminate.
Qed.
