(** Patterns, NaNs and comparisons through the operators of SleefBase.v. *)
Require Import ZArith List Bool Lia.
Require Import Verif.FloatSpec Verif.FloatArith Verif.FloatArithSpec Verif.RoundEven Verif.X86Cvt Verif.SleefBase Verif.SleefSpec Verif.SleefProofs.
Import ListNotations.
Local Open Scope Z_scope.

Lemma val_nonneg x s m : val x = FFin s m -> 0 <= m.
Proof.
  unfold val, decode. destruct (_ =? _); [destruct (_ =? 0); discriminate |]. intros [= _ <-].
  unfold magnitude, man_of. cbn [ebits mbits binary32]. pose proof (Z.mod_pos_bound x (2 ^ 23)).
  destruct (_ =? 0); [lia |]. assert (0 <= 2 ^ (exp_of binary32 x - 1)) by (apply Z.pow_nonneg; lia). nia.
Qed.

Lemma rne_nonneg x k : 0 <= x -> 0 <= rne x k.
Proof.
  intros X. unfold rne. assert (0 <= x / 2 ^ k).
  { destruct (Z_lt_dec k 0) as [L | L]. { rewrite Z.pow_neg_r by lia. rewrite Zdiv_0_r. lia. }
    apply Z.div_pos; [lia |]. apply Z.pow_pos_nonneg; lia. }
  destruct (_ <? _); [lia |]. destruct (_ <? _); [lia |]. destruct (Z.even _); lia.
Qed.
Lemma encode_pat s x d : 0 <= x -> pattern (encode binary32 s x d).
Proof.
  intros X. unfold encode.
  assert (0 <= Z.min (round_mag binary32 x d) (inf_bits binary32) <= inf_bits binary32).
  { split; [| apply Z.le_min_r]. apply Z.min_glb; [| discriminate]. unfold round_mag.
    pose proof (rne_nonneg x (Z.max d (Z.log2 x - mbits binary32)) X). assert (0 < 2 ^ mbits binary32) by reflexivity. nia. }
  assert (inf_bits binary32 < 2 ^ 31) by reflexivity. apply split_pat. lia.
Qed.
Lemma inf_pat s : pattern (sign_bit binary32 s + inf_bits binary32).
Proof. destruct s; split; [discriminate | reflexivity | discriminate | reflexivity]. Qed.
Lemma zero_pat s : pattern (sign_bit binary32 s).
Proof. destruct s; split; [discriminate | reflexivity | discriminate | reflexivity]. Qed.
Lemma nan_pat : pattern (nan_bits binary32).
Proof. split; [discriminate | reflexivity]. Qed.

Lemma sticky_nonneg n d : 0 <= n -> 0 <= d -> 0 <= sticky_quotient n d.
Proof.
  intros N D. unfold sticky_quotient. assert (0 <= 2 * n / d).
  { destruct (Z.eq_dec d 0) as [-> |]; [rewrite Zdiv_0_r; lia |]. apply Z.div_pos; lia. }
  destruct (_ =? 0); lia.
Qed.

Lemma addf_pat a b : pattern (addf a b).
Proof.
  unfold addf, fadd. destruct (decode binary32 a) as [| s | s m], (decode binary32 b) as [| s' | s' m'];
    try apply nan_pat; try apply inf_pat.
  - destruct (Bool.eqb s s'); [apply inf_pat | apply nan_pat].
  - destruct (_ =? 0); [apply zero_pat |]. apply encode_pat. lia.
Qed.
Lemma subf_pat a b : pattern (subf a b).
Proof. apply addf_pat. Qed.
Lemma mulf_pat a b : pattern (mulf a b).
Proof.
  unfold mulf, fmul. destruct (decode binary32 a) as [| s | s m] eqn:A, (decode binary32 b) as [| s' | s' m'] eqn:B;
    try apply nan_pat; try apply inf_pat; try (destruct (_ =? 0); [apply nan_pat | apply inf_pat]).
  apply encode_pat. apply Z.mul_nonneg_nonneg; [exact (val_nonneg _ _ _ A) | exact (val_nonneg _ _ _ B)].
Qed.
Lemma divf_pat a b : pattern (divf a b).
Proof.
  unfold divf, fdiv. destruct (decode binary32 a) as [| s | s m] eqn:A, (decode binary32 b) as [| s' | s' m'] eqn:B;
    try apply nan_pat; try apply inf_pat; try apply zero_pat.
  destruct (_ =? 0); [destruct (_ =? 0); [apply nan_pat | apply inf_pat] |].
  apply encode_pat. apply sticky_nonneg; [| exact (val_nonneg _ _ _ B)].
  apply Z.mul_nonneg_nonneg; [exact (val_nonneg _ _ _ A) | discriminate].
Qed.
Lemma fint_pat n : pattern (fint n).
Proof. apply encode_pat. apply Z.mul_nonneg_nonneg; [lia | discriminate]. Qed.
Lemma dec_pat m k : 0 <= m -> pattern (fdec m k).
Proof.
  intros M. apply encode_pat. apply sticky_nonneg; [apply Z.mul_nonneg_nonneg; [exact M | discriminate] | apply Z.pow_nonneg; lia].
Qed.
Lemma inff_pat : pattern SLEEF_INFINITYf.
Proof. exact (inf_pat false). Qed.
Lemma nanf_pat : pattern SLEEF_NANf.
Proof. exact nan_pat. Qed.
Lemma if_pat (b : bool) x y : pattern x -> pattern y -> pattern (if b then x else y).
Proof. now destruct b. Qed.
#[export] Hint Resolve addf_pat subf_pat mulf_pat divf_pat fint_pat inff_pat nanf_pat fabs_pat neg_pat mulsign_pat if_pat : pat.
Ltac pat := auto 20 with pat.

(** a NaN operand gives a NaN *)
Lemma nan_addl a b : nan a -> nan (addf a b).
Proof. unfold nan, val, addf, fadd. intros ->. destruct (decode binary32 b); reflexivity. Qed.
Lemma nan_addr a b : nan b -> nan (addf a b).
Proof. unfold nan, val, addf, fadd. intros ->. destruct (decode binary32 a); reflexivity. Qed.
Lemma nan_mull a b : nan a -> nan (mulf a b).
Proof. unfold nan, val, mulf, fmul. intros ->. destruct (decode binary32 b); reflexivity. Qed.
Lemma nan_mulr a b : nan b -> nan (mulf a b).
Proof. unfold nan, val, mulf, fmul. intros ->. destruct (decode binary32 a); reflexivity. Qed.
Lemma nan_divl a b : nan a -> nan (divf a b).
Proof. unfold nan, val, divf, fdiv. intros ->. destruct (decode binary32 b); reflexivity. Qed.
Lemma nan_divr a b : nan b -> nan (divf a b).
Proof. unfold nan, val, divf, fdiv. intros ->. destruct (decode binary32 a); reflexivity. Qed.
Lemma nan_sqrt a : nan a -> nan (SQRTF a).
Proof. unfold nan, val, SQRTF, fsqrt. now intros ->. Qed.
(** the sign does not matter, and is read modulo nothing: any integer will do *)
Lemma nan_neg a : nan a -> nan (negf a).
Proof.
  unfold nan, val. intros H. unfold negf, fopp. cbn [ebits mbits binary32]. change (2 ^ (8 + 23)) with (256 * 2 ^ 23).
  revert H. unfold decode.
  assert (forall y, exp_of binary32 (a + y * 256 * 2 ^ 23) = exp_of binary32 a /\ man_of binary32 (a + y * 256 * 2 ^ 23) = man_of binary32 a) as K.
  { intros y. unfold exp_of, man_of. cbn [ebits mbits binary32]. rewrite Z.mod_add, Z.div_add by lia.
    change (2 ^ 8) with 256. rewrite Z.mod_add by lia. now split. }
  destruct (sign_of binary32 a).
  - destruct (K (-1)) as [K1 K2]. replace (a - 256 * 2 ^ 23) with (a + -1 * 256 * 2 ^ 23) by lia. rewrite K1, K2.
    destruct (_ =? _); [destruct (_ =? 0) |]; [discriminate | reflexivity | discriminate].
  - destruct (K 1) as [K1 K2]. replace (a + 256 * 2 ^ 23) with (a + 1 * 256 * 2 ^ 23) by lia. rewrite K1, K2.
    destruct (_ =? _); [destruct (_ =? 0) |]; [discriminate | reflexivity | discriminate].
Qed.
Lemma nan_subl a b : nan a -> nan (subf a b).
Proof. apply nan_addl. Qed.
Lemma nan_subr a b : nan b -> nan (subf a b).
Proof. intros H. apply nan_addr, (nan_neg _ H). Qed.
Lemma nan_mla1 a b c : nan a -> nan (mlaf a b c).
Proof. intros H. apply nan_addl, nan_mull, H. Qed.
Lemma nan_mla2 a b c : nan b -> nan (mlaf a b c).
Proof. intros H. apply nan_addl, nan_mulr, H. Qed.
Lemma nan_mla3 a b c : nan c -> nan (mlaf a b c).
Proof. intros H. apply nan_addr, H. Qed.
Lemma nan_ldexp2 a q : nan a -> nan (ldexp2kf a q).
Proof. intros H. apply nan_mull, nan_mull, H. Qed.
Lemma nan_ldexp a q : nan a -> nan (ldexpkf a q).
Proof. intros H. apply nan_mull, nan_mull, nan_mull, nan_mull, nan_mull, H. Qed.
Lemma nan_fabs x : pattern x -> nan x -> nan (fabsfk x).
Proof. intros P H. unfold nan. rewrite val_fabs, H by assumption. reflexivity. Qed.
Lemma nan_mulsign x y : pattern x -> pattern y -> nan x -> nan (mulsignf x y).
Proof. intros P Q H. unfold nan. rewrite val_mulsign, H by assumption. now destruct (sign_of binary32 y). Qed.
Lemma nan_const : nan SLEEF_NANf.
Proof. reflexivity. Qed.
Lemma nan_if (b : bool) x y : nan x -> nan y -> nan (if b then x else y).
Proof. now destruct b. Qed.

(** comparisons with a NaN *)
Lemma ltf_nanl a b : nan a -> ltf a b = false.
Proof. unfold nan, val, ltf. now intros ->. Qed.
Lemma ltf_nanr a b : nan b -> ltf a b = false.
Proof. unfold nan, val, ltf. intros ->. now destruct (decode binary32 a) as [| [] |]. Qed.
Lemma lef_nanl a b : nan a -> lef a b = false.
Proof. unfold nan, val, lef. now intros ->. Qed.
Lemma lef_nanr a b : nan b -> lef a b = false.
Proof. unfold nan, val, lef. intros ->. now destruct (decode binary32 a) as [| [] |]. Qed.
Lemma eqf_nanl a b : nan a -> eqf a b = false.
Proof. unfold nan, val, eqf, feqb. now intros ->. Qed.
Lemma eqf_nanr a b : nan b -> eqf a b = false.
Proof. unfold nan, val, eqf, feqb. intros ->. now destruct (decode binary32 a) as [| [] |]. Qed.

(** comparisons of x with a constant c whose value is v *)
Lemma ltf_val a b : ltf a b = flt (val a) (val b).
Proof. reflexivity. Qed.
Lemma eqf_val a b : eqf a b = feqb (val a) (val b).
Proof. reflexivity. Qed.
Lemma lef_val a b : lef a b = fle (val a) (val b).
Proof. reflexivity. Qed.

(** x above n, n at least the constant *)
Lemma above_gt n x c : above n x -> (flt (val c) (whole n) = true \/ val c = whole n) -> ltf c x = true.
Proof. intros A [C | C]; rewrite ltf_val; [exact (flt_trans _ _ _ C A) | rewrite C; exact A]. Qed.
Lemma below_lt n x c : below n x -> (flt (whole n) (val c) = true \/ val c = whole n) -> ltf x c = true.
Proof. intros A [C | C]; rewrite ltf_val; [exact (flt_trans _ _ _ A C) | rewrite C; exact A]. Qed.
Lemma gt_not_lt a b : ltf a b = true -> ltf b a = false.
Proof. rewrite !ltf_val. apply flt_asym. Qed.
Lemma gt_not_eq a b : ltf a b = true -> eqf a b = false /\ eqf b a = false.
Proof. rewrite ltf_val, !eqf_val. intros H. split; [| rewrite feqb_sym]; now apply feqb_flt. Qed.
Lemma lt_not_nan a b : ltf a b = true -> ~ nan a /\ ~ nan b.
Proof. intros H. split; intros N; [rewrite ltf_nanl in H | rewrite ltf_nanr in H]; assumption || discriminate. Qed.

(** zeros *)
Lemma zero_eq x : pattern x -> a_zero x -> x = 0 \/ x = 2 ^ 31.
Proof.
  intros P [s E]. destruct (FloatArithProofs8.decode_eq binary32 x (sign_bit binary32 s) FloatArithProofs7.good32) as [K | [K _]];
    [exact P | apply zero_pat | rewrite (E : decode binary32 x = _); now destruct s | destruct s; [right | left]; exact K |].
  unfold is_nan in K. unfold val in E. rewrite K in E. discriminate.
Qed.
Lemma plus_zero_eq x : pattern x -> plus_zero x -> x = 0.
Proof. intros P E. destruct (zero_eq x P) as [-> | ->]; [now exists false | reflexivity | discriminate E]. Qed.
Lemma minus_zero_eq x : pattern x -> minus_zero x -> x = 2 ^ 31.
Proof. intros P E. destruct (zero_eq x P) as [-> | ->]; [now exists true | discriminate E | reflexivity]. Qed.
Lemma val_eq x c : pattern x -> pattern c -> val x = val c -> val c <> FNaN -> x = c.
Proof.
  intros P Q E N. destruct (FloatArithProofs8.decode_eq binary32 x c FloatArithProofs7.good32) as [K | [_ K]]; [exact P | exact Q | exact E | exact K |].
  now elim N.
Qed.

#[export] Hint Resolve nan_addl nan_addr nan_mull nan_mulr nan_divl nan_divr nan_sqrt nan_neg nan_subl nan_subr nan_mla1 nan_mla2 nan_mla3 nan_ldexp2
  nan_ldexp nan_const nan_if : nan.
Ltac nanp := eauto 30 with nan.
Ltac valc := vm_compute; reflexivity.
(** x above n settles [ltf c x] *)
Ltac gt_n H n := match type of H with above _ ?x =>
  match goal with |- context [ltf ?c x] => let A := fresh "G" in
    assert (ltf c x = true) as A by (apply (above_gt n x c H); first [left; valc | right; valc]); rewrite A; clear A end end.
Ltac lt_n H n := match type of H with below _ ?x =>
  match goal with |- context [ltf x ?c] => let A := fresh "G" in
    assert (ltf x c = true) as A by (apply (below_lt n x c H); first [left; valc | right; valc]); rewrite A; clear A end end.
