(** The scalar operators, continued: multiply and add, opposite, absolute
    value, minimum and maximum, comparison, rounding to integers, 1 / sqrt. *)
From Coq Require Import ZArith Bool Lia ZifyBool List.
From Verif Require Import CInt FloatSpec Fp16 Fp16Spec Fp16Proofs ScalarOps RoundEven X86Cvt X86CvtSpec FloatProofs X86CvtProofs2 X86CvtProofs4 X86Float X86FloatSpec X86FloatProofs2 ArmFloat.
From Verif Require Import FloatArith FloatArithSpec FloatArithProofs FloatArithProofs2 FloatArithProofs3 FloatArithProofs4 FloatArithProofs5 FloatArithProofs6 ScalarFloat FloatArithProofs7 FloatArithProofs8.
Local Open Scope Z_scope.

Notation number16 := (number binary16).
Notation widened16 := (widened binary16 binary32).

Lemma narrowed_half y r : narrowed binary16 binary32 y r -> as_half y r.
Proof.
  intros N. unfold as_half. destruct (decode binary32 y) as [|s|s m] eqn:D.
  - eapply narrow_nan; [|exact N]. exact D.
  - eapply narrow_inf; [exact wider16| |exact N]. exact D.
  - destruct N as (_ & N). rewrite D in N. apply N; reflexivity.
Qed.
Lemma middle_between p0 M j y m : middle binary16 binary32 p0 M j -> size binary32 (decode binary32 y) = Some m -> m = M * 2 ^ j -> between_halves y.
Proof.
  intros (Hp & _ & _ & E & _) Sz ->. rewrite ratio16 in E.
  destruct (pattern_size binary16 false p0 good16 ltac:(lia)) as (S1 & _ & R1). destruct (pattern_size binary16 false (p0 + 1) good16 ltac:(lia)) as (S2 & _ & R2).
  exists (sign_bit binary16 false + p0), (sign_bit binary16 false + (p0 + 1)), (vmag binary16 p0), (vmag binary16 (p0 + 1)), (M * 2 ^ j).
  split; [exact R1|]. split; [exact R2|]. split; [exact S1|]. split; [exact S2|]. assert (M1 : 1 <= mbits binary16) by (cbn; lia).
  split; [apply vmag_strict; [exact M1|lia|lia]|]. split; [|split; [exact Sz|symmetry; exact E]].
  intros c k Rc Sc. destruct (size_pattern binary16 c k good16 Rc Sc) as (s & q & _ & Hq & -> & _).
  destruct (Z_le_gt_dec q p0); [left|right]; apply vmag_mono; assumption || lia.
Qed.
Lemma via_fused v w x y r : number16 v -> number16 w -> number16 x -> fused_is binary32 (widened16 v) (widened16 w) (widened16 x) y -> narrowed binary16 binary32 y r -> ~ between_halves y ->
  fused_is binary16 v w x r.
Proof.
  intros Nv Nw Nx S N B. pose proof (via_pos _ _ wider16) as Pk.
  assert (Nan : is_nan binary32 y -> is_nan binary16 r) by (intros; eapply narrow_nan; eassumption).
  assert (Inf : forall s, infinite binary32 s y -> infinite binary16 s r) by (intros; eapply narrow_inf; eauto using wider16).
  assert (Zer : forall s, zero binary32 s y -> zero binary16 s r) by (intros; eapply narrow_zero; eauto using wider16).
  assert (InfS : forall s, sum_is binary32 (FInf s) (widened16 x) y -> sum_is binary16 (FInf s) x r).
  { intros s. destruct x as [|s''|s'' m'']; cbn [sum_is widened]; auto. destruct (Bool.eqb s s''); auto. }
  assert (Zs : forall m, (m * 2 ^ ratio binary16 binary32 =? 0) = (m =? 0)) by (intros; rewrite ratio16; lia).
  destruct v as [|s|s m], w as [|s'|s' m']; cbn [fused_is widened] in *; rewrite ?Zs in S; auto.
  1,2: destruct (_ =? 0); auto. destruct x as [|s''|s'' m'']; cbn [widened] in *; auto. cbv zeta in *.
  assert (E : one binary32 = one binary16 * 2 ^ ratio binary16 binary32) by reflexivity. set (k := 2 ^ ratio binary16 binary32) in *.
  set (z := sval (xorb s s') (m * m') + sval s'' (m'' * one binary16)) in *.
  replace (sval (xorb s s') (m * k * (m' * k)) + sval s'' (m'' * k * one binary32)) with (z * (k * k)) in S
    by (unfold z; rewrite E, Z.mul_add_distr_r, <- !sval_mul; f_equal; f_equal; ring).
  assert (Pkk : 0 < k * k) by nia. replace (z * (k * k) =? 0) with (z =? 0) in S by nia. replace (z * (k * k) <? 0) with (z <? 0) in S by nia.
  destruct (z =? 0); auto. rewrite Z.abs_mul, (Z.abs_eq (k * k)) in S by lia. pose proof N as (_ & N').
  apply (rounded_iff binary32 (z <? 0)) in S; [|exact good32]. destruct S as (py & Ey & Ry). destruct (pattern_size binary32 (z <? 0) py good32 (proj1 Ry)) as (Sz & Sg & _). rewrite <- Ey in Sz, Sg.
  specialize (N' _ _ Sg Sz). apply (rounded_iff binary16 (z <? 0)) in N'; [|exact good16]. destruct N' as (p & Er & Rp).
  eapply (rounded_ext binary16); [|exact good16|apply rounded_iff; [exact good16|exists p; split; [exact Er|]; eapply (double_rounding binary16 binary32 _ py p wider16); [|exact Ry|exact Rp|]]].
  - intros n _. unfold twice_ratio. fold k. rewrite E. replace (2 * (Z.abs z * (k * k))) with (2 * Z.abs z * (k * k)) by ring. replace (n * k * (one binary16 * k)) with (n * one binary16 * (k * k)) by ring.
    rewrite <- Zmult_compare_compat_r by lia. reflexivity.
  - apply comparing_ratio. apply one_pos. exact good32.
  - intros p0 M j Mi Em _. exfalso. apply B. eapply middle_between; eassumption.
Qed.

(** the f16 operator: f32 operator on the singles, converted *)
Lemma fma16_is c99 x y z v w u : number16 v -> number16 w -> number16 u -> 0 <= x < 2 ^ 32 -> 0 <= y < 2 ^ 32 -> 0 <= z < 2 ^ 32 ->
  decode binary32 x = widened16 v -> decode binary32 y = widened16 w -> decode binary32 z = widened16 u ->
  let r0 := fma_std c99 binary32 x y z in
  0 <= r0 < 2 ^ 32 /\ fused_is binary32 (widened16 v) (widened16 w) (widened16 u) r0 /\ as_half r0 (f32_to_u16 r0) /\
  (~ between_halves r0 -> fused_is binary16 v w u (f32_to_u16 r0)).
Proof.
  intros Nv Nw Nu Rx Ry Rz Dx Dy Dz r0. pose proof (fma_std_rng c99 binary32 x y z good32) as R. fold r0 in R. split; [exact R|].
  assert (F : fused_is binary32 (widened16 v) (widened16 w) (widened16 u) r0).
  { replace r0 with (ffma binary32 x y z); [rewrite <- Dx, <- Dy, <- Dz; apply ffma_is; exact good32|]. unfold r0, fma_std. destruct c99; [reflexivity|].
    destruct Nv as (a & Ha & Da), Nw as (b & Hb & Db), Nu as (c & Hc & Dc). symmetry. apply (fma_halves x y z a b c); congruence || assumption. }
  split; [exact F|]. pose proof (narrow16 r0 R) as N. split; [apply narrowed_half; exact N|]. intros B. eapply via_fused; eassumption.
Qed.

Lemma half_number a : 0 <= a < 2 ^ 16 -> number16 (decode binary16 a).
Proof. intros H. exists a. auto. Qed.
Lemma minus_wide x v : 0 <= x < 2 ^ 32 -> decode binary32 x = widened16 v -> decode binary32 (fopp binary32 x) = widened16 (minus v) /\ 0 <= fopp binary32 x < 2 ^ 32.
Proof. intros R D. destruct (fopp_minus binary32 x good32 R) as (E & R'). split; [rewrite E, D; symmetry; apply minus_widened|exact R']. Qed.

(** ** opposite *)
Lemma widen_eq v : Fp16Spec.widen v = widened16 v.
Proof. destruct v; reflexivity. Qed.
Lemma narrow_same16 y b : 0 <= y < 2 ^ 32 -> 0 <= b < 2 ^ 16 -> decode binary32 y = widened16 (decode binary16 b) -> same_number binary16 (f32_to_u16 y) b.
Proof.
  intros Ry Rb D. destruct (decode binary16 b) as [|s|s m] eqn:Db.
  - right. split; [apply f32_to_u16_nan_l; [exact Ry|exact D]|exact Db].
  - left. eapply (narrow_same binary16 binary32 y _ b s); [exact wider16|exact Rb|apply narrow16; exact Ry|rewrite Db; exact D|rewrite Db; reflexivity].
  - left. eapply (narrow_same binary16 binary32 y _ b s); [exact wider16|exact Rb|apply narrow16; exact Ry|rewrite Db; exact D|rewrite Db; reflexivity].
Qed.
Lemma same_decode f r b : same_number f r b -> decode f r = decode f b.
Proof. intros [->|(A & B)]; [reflexivity|]. unfold is_nan in *. congruence. Qed.

(** ** rounding to integers *)
Lemma rounded_widened f g (P : fmt -> Z -> Z -> Prop) v r w : wider f g -> (forall x k k', P f x k -> P g (x * 2 ^ ratio f g) k' -> k = k') ->
  rounded f (P f) v r -> rounded g (P g) (widened f g v) w -> w = widened f g r.
Proof.
  intros W U. destruct (wider_sizes f g W) as (Gf & Gg & _). pose proof (via_pos f g W) as Pk. destruct v as [|s|s m]; cbn [rounded widened]; [intros -> ->; reflexivity|intros -> ->; reflexivity|].
  intros (m1 & k1 & -> & E1 & H1) (m2 & k2 & -> & E2 & H2). cbn [widened]. f_equal. rewrite sval_mul in H2. pose proof (U _ _ _ H1 H2) as <-.
  assert (E : one g = one f * 2 ^ ratio f g) by (destruct W as [[-> ->]|[-> ->]]; reflexivity). rewrite E in E2. unfold sval in E1, E2. destruct s; nia.
Qed.
Lemma one_wide f g : wider f g -> one g = one f * 2 ^ ratio f g /\ 0 < one f /\ 0 < 2 ^ ratio f g.
Proof. intros W. destruct (wider_sizes f g W) as (Gf & _). split; [destruct W as [[-> ->]|[-> ->]]; reflexivity|]. split; [apply one_pos; exact Gf|apply via_pos; exact W]. Qed.
Lemma down_one f g x k k' : wider f g -> down f x k -> down g (x * 2 ^ ratio f g) k' -> k = k'.
Proof. intros W. destruct (one_wide f g W) as (E & P & K). unfold down. rewrite E. intros. set (q := 2 ^ ratio f g) in *. apply Z.le_antisymm; apply Z.lt_succ_r; apply (Z.mul_lt_mono_pos_r (one f * q)); nia. Qed.
Lemma up_one f g x k k' : wider f g -> up f x k -> up g (x * 2 ^ ratio f g) k' -> k = k'.
Proof. intros W. destruct (one_wide f g W) as (E & P & K). unfold up. rewrite E. intros. set (q := 2 ^ ratio f g) in *. apply Z.le_antisymm; apply Z.lt_succ_r; apply (Z.mul_lt_mono_pos_r (one f * q)); nia. Qed.
Lemma zero_one f g x k k' : wider f g -> toward_zero f x k -> toward_zero g (x * 2 ^ ratio f g) k' -> k = k'.
Proof.
  intros W. destruct (one_wide f g W) as (E & P & K). unfold toward_zero. rewrite E. intros ((A & B) & C) ((A' & B') & C'). rewrite Z.abs_mul, (Z.abs_eq (2 ^ ratio f g)) in A', B' by lia.
  set (q := 2 ^ ratio f g) in *.
  assert (Z.abs k = Z.abs k') by (apply Z.le_antisymm; apply Z.lt_succ_r; apply (Z.mul_lt_mono_pos_r (one f * q)); nia). destruct (Z.eq_dec k k'); [assumption|exfalso]. assert (k' = - k) by lia. subst k'. assert (k <> 0) by lia. assert (x <> 0) by nia. assert (x * k = 0) by nia. nia.
Qed.

Lemma survive f g y r b : wider f g -> 0 <= b < 2 ^ width f -> narrowed f g y r -> decode g y = widened f g (decode f b) -> decode f r = decode f b.
Proof.
  intros W R N D. destruct (decode f b) as [|s|s m] eqn:Db.
  - eapply narrow_nan; [|exact N]. exact D.
  - rewrite <- Db. f_equal. eapply (narrow_same f g y r b s); [exact W|exact R|exact N|rewrite Db; exact D|rewrite Db; reflexivity].
  - rewrite <- Db. f_equal. eapply (narrow_same f g y r b s); [exact W|exact R|exact N|rewrite Db; exact D|rewrite Db; reflexivity].
Qed.
Section RoundOp.
Variables (op : fmt -> Z -> Z) (P : fmt -> Z -> Z -> Prop).
Hypothesis Hop : forall f b, good_fmt f -> 0 <= b < 2 ^ width f -> fits f b (P f) (op f b).
Hypothesis HP : forall f g x k k', wider f g -> P f x k -> P g (x * 2 ^ ratio f g) k' -> k = k'.

Lemma round32_is c99 x : 0 <= x < 2 ^ 32 -> 0 <= libm1_f32 c99 op x < 2 ^ 32 /\ decode binary32 (libm1_f32 c99 op x) = decode binary32 (op binary32 x).
Proof.
  intros R. destruct (Hop binary32 x good32 R) as (F & R32). unfold libm1_f32. destruct c99; [split; [exact R32|reflexivity]|].
  destruct (wide32 x) as (D & R64). destruct (Hop binary64 _ good64 R64) as (F' & R'). split; [apply single_of_double_ok; exact R'|].
  eapply (survive binary32 binary64 _ _ (op binary32 x) wider32 R32); [apply narrow32; exact R'|]. rewrite D in F'.
  eapply (rounded_widened binary32 binary64 P); [exact wider32|intros; eapply HP; eauto using wider32|exact F|exact F'].
Qed.
Lemma round16_is x a y : 0 <= a < 2 ^ 16 -> 0 <= x < 2 ^ 32 -> 0 <= y < 2 ^ 32 -> decode binary32 x = widened16 (decode binary16 a) -> rounded binary32 (P binary32) (decode binary32 x) (decode binary32 y) ->
  decode binary16 (f32_to_u16 y) = decode binary16 (op binary16 a).
Proof.
  intros Ra Rx Ry Dx F'. destruct (Hop binary16 a good16 Ra) as (F & R16).
  eapply (survive binary16 binary32 _ _ (op binary16 a) wider16 R16); [apply narrow16; exact Ry|]. rewrite Dx in F'.
  eapply (rounded_widened binary16 binary32 P); [exact wider16|intros; eapply HP; eauto using wider16|exact F|exact F'].
Qed.
Lemma round_is_16 a x y : 0 <= a < 2 ^ 16 -> 0 <= x < 2 ^ 32 -> 0 <= y < 2 ^ 32 -> decode binary32 x = widened16 (decode binary16 a) -> rounded binary32 (P binary32) (decode binary32 x) (decode binary32 y) ->
  0 <= f32_to_u16 y < 2 ^ 16 /\ rounded binary16 (P binary16) (decode binary16 a) (decode binary16 (f32_to_u16 y)).
Proof.
  intros R Rx Ry Dx F. split; [apply f32_to_u16_range_l; exact Ry|]. rewrite (round16_is x a _ R Rx Ry Dx F). apply (Hop binary16 a good16 R).
Qed.
Lemma round_is c99 t a : 0 <= a < 2 ^ fw t -> exists r, libm1 c99 op t a = Some r /\ 0 <= r < 2 ^ fw t /\ rounded (ff t) (P (ff t)) (decode (ff t) a) (decode (ff t) r).
Proof.
  intros R. destruct t; cbn [libm1 fw ff] in *.
  - destruct (wide16 a R) as (x & Ex & Rx & Dx). rewrite Ex. cbn [bind]. eexists; split; [reflexivity|]. destruct (round32_is c99 x Rx) as (Ry & Dy).
    split; [apply f32_to_u16_range_l; exact Ry|]. rewrite (round16_is x a _ R Rx Ry Dx); [|rewrite Dy; apply (Hop binary32 x good32 Rx)]. apply (Hop binary16 a good16 R).
  - eexists; split; [reflexivity|]. destruct (round32_is c99 a R) as (Ry & Dy). split; [exact Ry|]. rewrite Dy. apply (Hop binary32 a good32 R).
  - eexists; split; [reflexivity|]. destruct (Hop binary64 a good64 R) as (F & R'). split; [exact R'|exact F].
Qed.
End RoundOp.

Lemma down_one' f g x k k' : wider f g -> down f x k -> down g (x * 2 ^ ratio f g) k' -> k = k'.
Proof. apply down_one. Qed.
Lemma up_one' f g x k k' : wider f g -> up f x k -> up g (x * 2 ^ ratio f g) k' -> k = k'.
Proof. apply up_one. Qed.
Lemma zero_one' f g x k k' : wider f g -> toward_zero f x k -> toward_zero g (x * 2 ^ ratio f g) k' -> k = k'.
Proof. apply zero_one. Qed.
Lemma fty_is_16 t : t = F16 \/ t <> F16.
Proof. destruct t; [left; reflexivity|right|right]; discriminate. Qed.
Definition floor_is := round_is ffloor down (fun f b G R => floor_fits f G b R) down_one'.
Definition ceil_is := round_is fceil up (fun f b G R => ceil_fits f G b R) up_one'.

Lemma fle_zero f v : decode f 0 = FFin false 0 -> fle (decode f 0) v = match v with FNaN => false | FInf s => negb s | FFin s m => 0 <=? sval s m end.
Proof. intros ->. destruct v as [|s|s m]; cbn; try reflexivity. Qed.
Lemma decode_0 f : good_fmt f -> decode f 0 = FFin false 0.
Proof. intros G. pose proof (dec_zero f false G) as H. cbn [sign_bit] in H. exact H. Qed.
Lemma trunc89_is c99 t a : t <> F16 -> 0 <= a < 2 ^ fw t -> exists r, trunc_c89 c99 t a = Some r /\ 0 <= r < 2 ^ fw t /\ rounded (ff t) (toward_zero (ff t)) (decode (ff t) a) (decode (ff t) r).
Proof.
  intros T R. unfold trunc_c89, sf_floor, sf_ceil. rewrite fle_zero by (apply decode_0, ff_good').
  assert (R' : 0 <= a < 2 ^ width (ff t)) by (rewrite ff_w; exact R).
  set (cnd := match decode (ff t) a with FNaN => false | FInf s => negb s | FFin s m => 0 <=? sval s m end). destruct cnd eqn:C; unfold cnd in C.
  - destruct (floor_is c99 t a R) as (r & -> & Rr & F). exists r. split; [reflexivity|]. split; [exact Rr|].
    refine (proj1 (down_zero (ff t) (ff_good' t) a r _ (conj F _))); [|rewrite ff_w; exact Rr]. intros s m E. rewrite E in C. lia.
  - destruct (ceil_is c99 t a R) as (r & -> & Rr & F). exists r. split; [reflexivity|]. split; [exact Rr|].
    refine (proj1 (up_zero (ff t) (ff_good' t) a r _ (conj F _))); [|rewrite ff_w; exact Rr]. intros s m E. rewrite E in C. lia.
Qed.
Lemma trunc_is new c99 t a : 0 <= a < 2 ^ fw t -> exists r, sf_trunc new c99 t a = Some r /\ 0 <= r < 2 ^ fw t /\ rounded (ff t) (toward_zero (ff t)) (decode (ff t) a) (decode (ff t) r).
Proof.
  intros R. destruct (fty_is_16 t) as [->|N].
  - cbn [sf_trunc fw ff] in *. destruct (wide16 a R) as (x & Ex & Rx & Dx). rewrite Ex. cbn [bind].
    assert (K : forall y, 0 <= y < 2 ^ 32 -> rounded binary32 (toward_zero binary32) (decode binary32 x) (decode binary32 y) -> exists r, Some (f32_to_u16 y) = Some r /\ 0 <= r < 2 ^ 16 /\ rounded binary16 (toward_zero binary16) (decode binary16 a) (decode binary16 r)).
    { intros y Ry F. eexists; split; [reflexivity|]. exact (round_is_16 hw_trunc toward_zero (fun f b G R => hw_trunc_fits f G b R) zero_one' a x y R Rx Ry Dx F). }
    destruct new.
    + destruct (hw_trunc_fits binary32 good32 x Rx) as (F & R'). apply (K _ R' F).
    + destruct (trunc89_is c99 F32 x ltac:(discriminate) Rx) as (y & -> & Ry & F). cbn [bind]. apply (K _ Ry F).
  - assert (Hd : sf_trunc new c99 t a = if new then Some (hw_trunc (ff t) a) else trunc_c89 c99 t a) by (destruct t; congruence || reflexivity).
    rewrite Hd. destruct new; [|apply trunc89_is; assumption]. eexists; split; [reflexivity|].
    rewrite <- ff_w in *. destruct (hw_trunc_fits (ff t) (ff_good' t) a R) as (F & R'). split; [exact R'|exact F].
Qed.

(** ** opposite, absolute value *)
Lemma wide_same v b x : 0 <= b < 2 ^ 16 -> 0 <= x < 2 ^ 32 -> decode binary16 b = v -> decode binary32 x = widened16 v -> decode binary16 (f32_to_u16 x) = v.
Proof. intros R Rx <- D. eapply (survive binary16 binary32); [exact wider16|exact R|apply narrow16; exact Rx|exact D]. Qed.
Lemma neg_is t a : 0 <= a < 2 ^ fw t -> exists r, sf_neg t a = Some r /\ 0 <= r < 2 ^ fw t /\ decode (ff t) r = opposite (decode (ff t) a).
Proof.
  intros R. assert (O : forall v, minus v = opposite v) by (intros []; reflexivity). destruct t; cbn [sf_neg opnum1 fw ff] in *.
  - destruct (wide16 a R) as (x & Ex & Rx & Dx). unfold sf_neg, opnum1. rewrite Ex. cbn [bind]. eexists; split; [reflexivity|].
    destruct (minus_wide x _ Rx Dx) as (D & R'). split; [apply f32_to_u16_range_l; exact R'|]. destruct (fopp_minus binary16 a good16 R) as (D' & R''). rewrite <- O.
    eapply wide_same; [exact R''|exact R'|exact D'|exact D].
  - unfold sf_neg, opnum1. eexists; split; [reflexivity|]. destruct (fopp_minus binary32 a good32 R) as (D & R'). rewrite <- O. auto.
  - unfold sf_neg, opnum1. eexists; split; [reflexivity|]. destruct (fopp_minus binary64 a good64 R) as (D & R'). rewrite <- O. auto.
Qed.
(** absolute value, zeros kept *)
Definition abs_kept (v : fval) : fval := match v with FFin s 0 => FFin s 0 | _ => absolute v end.
Lemma abs_gen f x : good_fmt f -> 0 <= x < 2 ^ width f ->
  let r := if fle (decode f 0) (decode f x) then x else fopp f x in 0 <= r < 2 ^ width f /\ decode f r = abs_kept (decode f x).
Proof.
  intros G R r. destruct (fopp_minus f x G R) as (D & R'). unfold r. rewrite fle_zero by (apply decode_0; exact G).
  destruct (decode f x) as [|s|s m] eqn:E; cbn [abs_kept absolute]; cbn [minus] in D.
  - split; [exact R'|exact D].
  - destruct s; cbn [negb] in *; split; assumption || congruence.
  - pose proof (dec_nonneg f x s m G R E) as P. unfold sval. destruct s; cbn [negb] in *.
    + destruct m as [|m|m]; [cbn; split; assumption| |lia]. replace (0 <=? - Z.pos m) with false by lia. cbn [absolute]. split; assumption.
    + replace (0 <=? m) with true by lia. destruct m; split; try exact R; exact E.
Qed.
Lemma abs_is t a : 0 <= a < 2 ^ fw t -> exists r, sf_abs t a = Some r /\ 0 <= r < 2 ^ fw t /\ decode (ff t) r = abs_kept (decode (ff t) a).
Proof.
  intros R. unfold sf_abs. destruct t; cbn [opnum1 fw ff] in *.
  - destruct (wide16 a R) as (x & Ex & Rx & Dx). rewrite Ex. cbn [bind]. eexists; split; [reflexivity|].
    destruct (abs_gen binary32 x good32 Rx) as (R' & D). split; [apply f32_to_u16_range_l; exact R'|]. destruct (abs_gen binary16 a good16 R) as (R'' & D').
    eapply wide_same; [exact R''|exact R'|exact D'|]. rewrite D, Dx. destruct (decode binary16 a) as [|s|s m]; try reflexivity. destruct m; reflexivity.
  - eexists; split; [reflexivity|]. apply (abs_gen binary32 a good32 R).
  - eexists; split; [reflexivity|]. apply (abs_gen binary64 a good64 R).
Qed.

(** ** comparison, minimum, maximum *)
Lemma compare_wide v w : compare (widened16 v) (widened16 w) = compare v w.
Proof.
  destruct v as [|s|s m], w as [|s'|s' m']; try reflexivity. cbn [widened compare]. rewrite !sval_mul, <- Zmult_compare_compat_r; [reflexivity|]. pose proof (via_pos _ _ wider16). lia.
Qed.
Lemma cmp_is p q t a b : (forall v w, p v w = q (compare v w)) -> 0 <= a < 2 ^ fw t -> 0 <= b < 2 ^ fw t -> cmpnum p t a b = Some (q (compare (decode (ff t) a) (decode (ff t) b))).
Proof.
  intros H Ra Rb. destruct t; cbn [cmpnum fw ff] in *; [|rewrite H; reflexivity|rewrite H; reflexivity].
  destruct (wide16 a Ra) as (x & Ex & Rx & Dx). destruct (wide16 b Rb) as (y & Ey & Ry & Dy). rewrite Ex, Ey. cbn [bind]. rewrite H, Dx, Dy, compare_wide. reflexivity.
Qed.
Lemma pick_is q t a b (op := fun f x y => if q (decode f x) (decode f y) : bool then x else y) k : (forall v w, q v w = k (compare v w)) -> 0 <= a < 2 ^ fw t -> 0 <= b < 2 ^ fw t ->
  exists r, opnum2 op t a b = Some r /\ 0 <= r < 2 ^ fw t /\ same_number (ff t) r (if k (compare (decode (ff t) a) (decode (ff t) b)) : bool then a else b).
Proof.
  intros H Ra Rb. destruct t; cbn [opnum2 fw ff] in *.
  - destruct (wide16 a Ra) as (x & Ex & Rx & Dx). destruct (wide16 b Rb) as (y & Ey & Ry & Dy). rewrite Ex, Ey. cbn [bind]. eexists; split; [reflexivity|].
    unfold op. rewrite H, Dx, Dy, compare_wide. destruct (k _); (split; [apply f32_to_u16_range_l; assumption|apply narrow_same16; assumption]).
  - eexists; split; [reflexivity|]. unfold op. rewrite H. destruct (k _); (split; [assumption|left; reflexivity]).
  - eexists; split; [reflexivity|]. unfold op. rewrite H. destruct (k _); (split; [assumption|left; reflexivity]).
Qed.

(** ** multiply and add *)
Definition sgn (s : bool) (f : fmt) (x : Z) : Z := if s then fopp f x else x.
Definition minus_if (s : bool) (v : fval) : fval := if s then minus v else v.
Definition sfm (s0 s2 c99 : bool) := opnum3 (fun f a b c => fma_std c99 f (sgn s0 f a) b (sgn s2 f c)).
Lemma sgn_ok s f x : good_fmt f -> 0 <= x < 2 ^ width f -> decode f (sgn s f x) = minus_if s (decode f x) /\ 0 <= sgn s f x < 2 ^ width f.
Proof. intros G R. destruct s; [apply fopp_minus; assumption|split; [reflexivity|exact R]]. Qed.
Lemma widened_minus_if s v : widened16 (minus_if s v) = minus_if s (widened16 v).
Proof. destruct s; [|reflexivity]. destruct v; reflexivity. Qed.
Lemma minus_number s a : 0 <= a < 2 ^ 16 -> number16 (minus_if s (decode binary16 a)).
Proof. intros R. destruct (sgn_ok s binary16 a good16 R) as (D & R'). exists (sgn s binary16 a). split; [exact R'|exact D]. Qed.

Lemma sfm16_is s0 s2 c99 a b c : 0 <= a < 2 ^ 16 -> 0 <= b < 2 ^ 16 -> 0 <= c < 2 ^ 16 ->
  let v := minus_if s0 (decode binary16 a) in let w := decode binary16 b in let u := minus_if s2 (decode binary16 c) in
  exists r y, sfm s0 s2 c99 F16 a b c = Some r /\ 0 <= r < 2 ^ 16 /\ 0 <= y < 2 ^ 32 /\ fused_is binary32 (widened16 v) (widened16 w) (widened16 u) y /\ as_half y r /\
    (~ between_halves y -> fused_is binary16 v w u r).
Proof.
  intros Ra Rb Rc v w u. unfold sfm, opnum3. destruct (wide16 a Ra) as (x & Ex & Rx & Dx). destruct (wide16 b Rb) as (y & Ey & Ry & Dy). destruct (wide16 c Rc) as (z & Ez & Rz & Dz).
  rewrite Ex, Ey, Ez. cbn [bind]. destruct (sgn_ok s0 binary32 x good32 Rx) as (Dx' & Rx'). destruct (sgn_ok s2 binary32 z good32 Rz) as (Dz' & Rz'). rewrite Dx, <- widened_minus_if in Dx'. rewrite Dz, <- widened_minus_if in Dz'.
  destruct (fma16_is c99 _ y _ v w u (minus_number s0 a Ra) (half_number b Rb) (minus_number s2 c Rc) Rx' Ry Rz' Dx' Dy Dz') as (R & F & H & B).
  exists (f32_to_u16 (fma_std c99 binary32 (sgn s0 binary32 x) y (sgn s2 binary32 z))), (fma_std c99 binary32 (sgn s0 binary32 x) y (sgn s2 binary32 z)). split; [reflexivity|]. split; [apply f32_to_u16_range_l; exact R|]. auto.
Qed.
Lemma sfm_c99_is s0 s2 t a b c : t <> F16 -> 0 <= a < 2 ^ fw t -> 0 <= b < 2 ^ fw t -> 0 <= c < 2 ^ fw t ->
  exists r, sfm s0 s2 true t a b c = Some r /\ 0 <= r < 2 ^ fw t /\ fused_is (ff t) (minus_if s0 (decode (ff t) a)) (decode (ff t) b) (minus_if s2 (decode (ff t) c)) r.
Proof.
  intros T Ra Rb Rc. exists (ffma (ff t) (sgn s0 (ff t) a) b (sgn s2 (ff t) c)). split; [destruct t; congruence || reflexivity|]. split; [rewrite <- ff_w; apply ffma_rng, ff_good'|].
  rewrite <- ff_w in *. rewrite <- (proj1 (sgn_ok s0 _ a (ff_good' t) Ra)), <- (proj1 (sgn_ok s2 _ c (ff_good' t) Rc)). apply ffma_is. apply ff_good'.
Qed.
Lemma sfm_c89_is s0 s2 t a b c : t <> F16 -> 0 <= a < 2 ^ fw t -> 0 <= b < 2 ^ fw t -> 0 <= c < 2 ^ fw t ->
  exists r p, sfm s0 s2 false t a b c = Some r /\ 0 <= r < 2 ^ fw t /\ 0 <= p < 2 ^ fw t /\ product_is (ff t) (minus_if s0 (decode (ff t) a)) (decode (ff t) b) p /\ sum_is (ff t) (decode (ff t) p) (minus_if s2 (decode (ff t) c)) r.
Proof.
  intros T Ra Rb Rc. exists (fadd (ff t) (fmul (ff t) (sgn s0 (ff t) a) b) (sgn s2 (ff t) c)), (fmul (ff t) (sgn s0 (ff t) a) b). split; [destruct t; congruence || reflexivity|].
  rewrite <- ff_w in *. destruct (sgn_ok s0 _ a (ff_good' t) Ra) as (Da & Ra'). destruct (sgn_ok s2 _ c (ff_good' t) Rc) as (Dc & Rc').
  pose proof (fmul_rng _ _ b (ff_good' t) Ra' Rb) as Rp. split; [apply fadd_rng, ff_good'|]. split; [exact Rp|]. rewrite <- Da, <- Dc. split; [apply fmul_is|apply fadd_is]; try assumption; apply ff_good'.
Qed.
Lemma sfm16_standards s0 s2 a b c : 0 <= a < 2 ^ 16 -> 0 <= b < 2 ^ 16 -> 0 <= c < 2 ^ 16 -> sfm s0 s2 false F16 a b c = sfm s0 s2 true F16 a b c.
Proof.
  intros Ra Rb Rc. unfold sfm, opnum3. destruct (wide16 a Ra) as (x & Ex & Rx & Dx). destruct (wide16 b Rb) as (y & Ey & Ry & Dy). destruct (wide16 c Rc) as (z & Ez & Rz & Dz).
  rewrite Ex, Ey, Ez. cbn [bind]. do 2 f_equal. unfold fma_std.
  destruct (sgn_ok s0 binary32 x good32 Rx) as (Dx' & Rx'). destruct (sgn_ok s2 binary32 z good32 Rz) as (Dz' & Rz'). rewrite Dx, <- widened_minus_if in Dx'. rewrite Dz, <- widened_minus_if in Dz'.
  destruct (sgn_ok s0 binary16 a good16 Ra) as (Da & Ra'). destruct (sgn_ok s2 binary16 c good16 Rc) as (Dc & Rc').
  apply (fma_halves _ y _ (sgn s0 binary16 a) b (sgn s2 binary16 c)); try assumption; congruence.
Qed.

(** ** 1 / sqrt *)
Lemma sqrt_std_is c99 f x : f = binary32 \/ f = binary64 -> 0 <= x < 2 ^ width f -> root_is f (decode f x) (sqrt_std c99 f x) /\ 0 <= sqrt_std c99 f x < 2 ^ width f.
Proof.
  intros [->| ->] R.
  - change (sqrt_std c99 binary32 x) with (libm1_f32 c99 fsqrt x). apply sqrt32_is. exact R.
  - change (sqrt_std c99 binary64 x) with (fsqrt binary64 x). split; [apply fsqrt_is; [exact good64|exact R]|apply fsqrt_rng; exact good64].
Qed.
Lemma rsqrt_gen c99 f x : f = binary32 \/ f = binary64 -> 0 <= x < 2 ^ width f ->
  0 <= fdiv f (fone f) (sqrt_std c99 f x) < 2 ^ width f /\ exists q, 0 <= q < 2 ^ width f /\ root_is f (decode f x) q /\ quotient_is f (FFin false (one f)) (decode f q) (fdiv f (fone f) (sqrt_std c99 f x)).
Proof.
  intros F R. assert (G : good_fmt f) by (destruct F as [->| ->]; [exact good32|exact good64]). destruct (sqrt_std_is c99 f x F R) as (Q & Rq).
  split; [apply fdiv_rng; [exact G|apply fone_rng; exact G|exact Rq]|]. exists (sqrt_std c99 f x). split; [exact Rq|]. split; [exact Q|]. rewrite <- (fone_is f G). apply fdiv_is; [exact G|apply fone_rng; exact G|exact Rq].
Qed.
Lemma rsqrt_is c99 t a : t <> F16 -> 0 <= a < 2 ^ fw t -> exists r q, sf_rsqrt c99 t a = Some r /\ 0 <= r < 2 ^ fw t /\ 0 <= q < 2 ^ fw t /\ root_is (ff t) (decode (ff t) a) q /\ quotient_is (ff t) (FFin false (one (ff t))) (decode (ff t) q) r.
Proof.
  intros T R. destruct t; [congruence| |]; unfold sf_rsqrt, opnum1; cbn [ff fw] in *.
  - destruct (rsqrt_gen c99 binary32 a (or_introl eq_refl) R) as (Rr & q & Rq & Q & D). eexists _, q. split; [reflexivity|]. auto.
  - destruct (rsqrt_gen c99 binary64 a (or_intror eq_refl) R) as (Rr & q & Rq & Q & D). eexists _, q. split; [reflexivity|]. auto.
Qed.
Lemma rsqrt16_is c99 a : 0 <= a < 2 ^ 16 -> exists r q y, sf_rsqrt c99 F16 a = Some r /\ 0 <= r < 2 ^ 16 /\ 0 <= q < 2 ^ 32 /\ 0 <= y < 2 ^ 32 /\ root_is binary32 (widened16 (decode binary16 a)) q /\ quotient_is binary32 (FFin false (one binary32)) (decode binary32 q) y /\ as_half y r.
Proof.
  intros R. unfold sf_rsqrt, opnum1. destruct (wide16 a R) as (x & Ex & Rx & Dx). rewrite Ex. cbn [bind]. destruct (rsqrt_gen c99 binary32 x (or_introl eq_refl) Rx) as (Rr & q & Rq & Q & D). rewrite Dx in Q.
  eexists _, q, _. split; [reflexivity|]. split; [apply f32_to_u16_range_l; exact Rr|]. split; [exact Rq|]. split; [exact Rr|]. split; [exact Q|]. split; [exact D|]. apply narrowed_half, narrow16. exact Rr.
Qed.
