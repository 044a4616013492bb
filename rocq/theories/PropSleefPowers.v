(** C137: exp2, log2, exp10 and log10 are exact at the powers of two and of ten (src/sleefsp.c). *)
Require Import ZArith List Bool Lia.
Require Import Verif.FloatSpec Verif.SleefBase Verif.Sleef Verif.SleefSpec Verif.SleefProofs2.
Import ListNotations. Local Open Scope Z_scope.

(** the number 2^k, from the smallest subnormal 2^-149 to 2^127 *)
Definition power_of_two (k : Z) : fval := FFin false (2 ^ (149 + k)).

(** the integers from a on, n of them *)
Local Definition from (a : Z) (n : nat) : list Z := map (fun i => a + Z.of_nat i) (seq 0 n).
Local Lemma in_from a n k : a <= k < a + Z.of_nat n -> In k (from a n).
Proof. intros H. apply in_map_iff. exists (Z.to_nat (k - a)). split; [lia | apply in_seq; lia]. Qed.
(** the pattern of 2^k *)
Local Definition p2 (k : Z) : Z := if k <? -126 then 2 ^ (k + 149) else (k + 127) * 2 ^ 23.
Local Definition fval_eqb (a b : fval) : bool :=
  match a, b with FFin s m, FFin t n => Bool.eqb s t && (m =? n) | _, _ => false end.
Local Lemma fval_eqb_ok a b : fval_eqb a b = true -> a = b /\ a <> FNaN.
Proof. destruct a, b; cbn; try discriminate. intros H. apply andb_prop in H as (A & B). apply eqb_prop in A. apply Z.eqb_eq in B. split; [congruence | discriminate]. Qed.
Local Lemma at_points (f g : Z -> Z) (i o : Z -> fval) a n :
  forallb (fun k => (0 <=? g k) && (g k <? 2 ^ 32) && fval_eqb (val (g k)) (i k) && fval_eqb (val (f (g k))) (o k)) (from a n) = true ->
  forall k x, a <= k < a + Z.of_nat n -> pattern x -> is (i k) x -> is (o k) (f x).
Proof.
  intros H k x K P X. rewrite forallb_forall in H. specialize (H k (in_from a n k K)). apply andb_prop in H as (H & H4). apply andb_prop in H as (H & H3). apply andb_prop in H as (H1 & H2).
  apply fval_eqb_ok in H3 as (H3 & N3). apply fval_eqb_ok in H4 as (H4 & _). assert (x = g k) as ->; [| exact H4]. apply val_eq; [exact P | split; lia | unfold is in X; congruence | exact N3].
Qed.

(** the polynomial and the scaling of the two versions of exp2 *)
Local Definition e2 (s : Z) : Z :=
  let u := DF_1535920892_13 in
  let u := (mlaf u s DF_1339262701_12) in
  let u := (mlaf u s DF_9618384764_12) in
  let u := (mlaf u s DF_5550347269_11) in
  let u := (mlaf u s DF_2402264476_10) in
  mlaf u s DF_6931471825_10.
Local Definition e2a (s : Z) : Z := fx (dfnormalize_f2_f2 (dfadd_f2_f_f2 I_1 (dfmul_f2_f_f (e2 s) s))).
Local Definition e2b (s : Z) : Z := mlaf (e2 s) s DF_1_0.
Local Definition e2post (u q d : Z) : Z :=
  let u := ldexp2kf u q in
  let u := if (lef I_128 d) then SLEEF_INFINITYf else u in
  if (ltf d I_m150) then I_0 else u.
Local Lemma exp2_eq U d : xexp2f U d = let q := toint U (rintfk U d) in e2post (e2a (subf d (fint q))) q d.
Proof. unfold xexp2f, xexp2f_u35, e2post, e2a, e2b, e2. cbv beta zeta. lazymatch goal with |- ?a = ?b => constr_eq a b end. reflexivity. Qed.
Local Lemma exp2_u35_eq U d : xexp2f_u35 U d = let q := toint U (rintfk U d) in e2post (e2b (subf d (fint q))) q d.
Proof. unfold xexp2f, xexp2f_u35, e2post, e2a, e2b, e2. cbv beta zeta. lazymatch goal with |- ?a = ?b => constr_eq a b end. reflexivity. Qed.
Local Lemma e2_pre U : forallb (fun k => (toint U (rintfk U (fint k)) =? k) && (subf (fint k) (fint k) =? I_0)) (from (-149) 277) = true.
Proof. vm_compute. reflexivity. Qed.
Local Lemma e2_post : forallb (fun k => (0 <=? fint k) && (fint k <? 2 ^ 32) && fval_eqb (val (fint k)) (whole k) && fval_eqb (val (e2post I_1 k (fint k))) (power_of_two k)) (from (-149) 277) = true.
Proof. vm_compute. reflexivity. Qed.
Local Lemma e2_one : e2a I_0 = I_1 /\ e2b I_0 = I_1.
Proof. split; vm_compute; reflexivity. Qed.

(** 2 to the k, for every integer k for which it is a float, subnormals included; both precisions *)
Theorem C137_exp2 U k x : -149 <= k <= 127 -> pattern x -> is (whole k) x -> is (power_of_two k) (xexp2f U x) /\ is (power_of_two k) (xexp2f_u35 U x).
Proof.
  intros K P H. pose proof (e2_pre U) as Q. rewrite forallb_forall in Q. specialize (Q k (in_from (-149) 277 k ltac:(lia))).
  pose proof e2_post as R. rewrite forallb_forall in R. specialize (R k (in_from (-149) 277 k ltac:(lia))).
  cbv beta zeta in Q, R. repeat match goal with Q : _ && _ = true |- _ => apply andb_prop in Q; destruct Q end.
  repeat match goal with Q : fval_eqb _ _ = true |- _ => apply fval_eqb_ok in Q; destruct Q | Q : (_ =? _) = true |- _ => apply Z.eqb_eq in Q end.
  assert (x = fint k) as -> by (apply val_eq; [exact P | unfold pattern; lia | unfold is in H; congruence | assumption]).
  destruct e2_one as (E1 & E2). rewrite exp2_eq, exp2_u35_eq. cbv zeta. unfold is.
  repeat match goal with Q : ?a = ?b |- _ => lazymatch a with toint _ _ => rewrite Q | subf _ _ => rewrite Q end; clear Q end.
  rewrite E1, E2. split; assumption.
Qed.
Print Assumptions C137_exp2.
Example C137_exp2_nontrivial : pattern 3272343552 /\ is (whole (-140)) 3272343552 /\ is (power_of_two (-140)) (xexp2f (fun _ => 0) 3272343552) /\ power_of_two (-140) = FFin false 512.
Proof. unfold pattern. repeat split; vm_compute; (reflexivity || congruence). Qed.

(** the parts of the two versions of log2: the argument scaled when it is subnormal, its exponent, its mantissa, the series, the special cases *)
Local Definition l2d (d : Z) : Z := if ltf d FLT_MIN then mulf d (mulf (fint (Z.shiftl 1 32)) (fint (Z.shiftl 1 32))) else d.
Local Definition l2e (d : Z) : Z := ilogb2kf (mulf d (divf F_1_0 F_75_2)).
Local Definition l2k (o : bool) (e : Z) : Z := if o then e - 64 else e.
Local Definition l2xa (m : Z) := dfdiv_f2_f2_f2 (dfadd2_f2_f_f I_m1 m) (dfadd2_f2_f_f I_1 m).
Local Definition l2ma (m : Z) := dfmul_f2_f2_f2 (l2xa m) (F2 DF_28853900432586669922_19 DF_32734474483568488616_27).
Local Definition l2ta (m : Z) : Z :=
  let x := l2xa m in let x2 := mulf (fx x) (fx x) in
  let t := F_4374550283_10 in
  let t := (mlaf t x2 F_5764790177_10) in
  let t := (mlaf t x2 F_961801290512_12) in
  mulf (mulf x2 (fx x)) t.
Local Definition l2sa (k : Z) (c : f2) (t : Z) : Z := let s := dfadd2_f2_f2_f (dfadd2_f2_f_f2 (fint k) c) t in addf (fx s) (fy s).
Local Definition l2xb (m : Z) : Z := divf (subf m I_1) (addf m I_1).
Local Definition l2cb (x : Z) : Z := mulf (mulf x x) x.
Local Definition l2tb (x : Z) : Z :=
  let x2 := mulf x x in
  let t := DF_4374088347_10 in
  let t := (mlaf t x2 DF_5764843822_10) in
  mlaf t x2 DF_961802423_9.
Local Definition l2sb (k x c t : Z) : Z := mlaf c t (mlaf x DF_2885390043_9 (fint k)).
Local Definition l2post (r d : Z) : Z :=
  let r := if (xisinff d) then SLEEF_INFINITYf else r in
  let r := if ((ltf d I_0) || (xisnanf d)) then SLEEF_NANf else r in
  if (eqf d I_0) then (negf SLEEF_INFINITYf) else r.
Local Lemma log2_eq d : xlog2f d = let d' := l2d d in let e := l2e d' in let m := ldexp3kf d' (- e) in l2post (l2sa (l2k (ltf d FLT_MIN) e) (l2ma m) (l2ta m)) d'.
Proof. unfold xlog2f, l2post, l2sa, l2k, l2ma, l2ta, l2xa, l2e, l2d. cbv beta zeta. lazymatch goal with |- ?a = ?b => constr_eq a b end. reflexivity. Qed.
Local Lemma log2_u35_eq d : xlog2f_u35 d = let d' := l2d d in let e := l2e d' in let m := ldexp3kf d' (- e) in let x := l2xb m in l2post (l2sb (l2k (ltf d FLT_MIN) e) x (l2cb x) (l2tb x)) d'.
Proof. unfold xlog2f_u35, l2post, l2sb, l2cb, l2tb, l2xb, l2k, l2e, l2d. cbv beta zeta. lazymatch goal with |- ?a = ?b => constr_eq a b end. reflexivity. Qed.
Local Lemma l2_pre : forallb (fun k => let d := p2 k in let d' := l2d d in let e := l2e d' in
  (0 <=? d) && (d <? 2 ^ 32) && fval_eqb (val d) (power_of_two k) && (ldexp3kf d' (- e) =? I_1) && (l2k (ltf d FLT_MIN) e =? k)
  && negb (xisinff d') && negb ((ltf d' I_0) || (xisnanf d')) && negb (eqf d' I_0)) (from (-149) 277) = true.
Proof. vm_compute. reflexivity. Qed.
Local Lemma l2_series : forallb (fun k => fval_eqb (val (l2sa k (F2 0 0) 0)) (whole k) && fval_eqb (val (l2sb k 0 0 1064712367)) (whole k)) (from (-149) 277) = true.
Proof. vm_compute. reflexivity. Qed.
Local Lemma l2_one : l2ma I_1 = F2 0 0 /\ l2ta I_1 = 0 /\ l2xb I_1 = 0 /\ l2cb 0 = 0 /\ l2tb 0 = 1064712367.
Proof. repeat split; vm_compute; reflexivity. Qed.

(** the logarithm of 2^k is k, for every power of two that is a float, subnormals included; both precisions *)
Theorem C137_log2 k x : -149 <= k <= 127 -> pattern x -> is (power_of_two k) x -> is (whole k) (xlog2f x) /\ is (whole k) (xlog2f_u35 x).
Proof.
  intros K P H. pose proof l2_pre as Q. rewrite forallb_forall in Q. specialize (Q k (in_from (-149) 277 k ltac:(lia))).
  pose proof l2_series as R. rewrite forallb_forall in R. specialize (R k (in_from (-149) 277 k ltac:(lia))).
  cbv beta zeta in Q, R. repeat match goal with Q : _ && _ = true |- _ => apply andb_prop in Q; destruct Q end.
  repeat match goal with Q : fval_eqb _ _ = true |- _ => apply fval_eqb_ok in Q; destruct Q | Q : negb _ = true |- _ => apply negb_true_iff in Q | Q : (_ =? _) = true |- _ => apply Z.eqb_eq in Q end.
  assert (x = p2 k) as -> by (apply val_eq; [exact P | unfold pattern; lia | unfold is in H; congruence | assumption]).
  destruct l2_one as (E1 & E2 & E3 & E4 & E5).
  rewrite log2_eq, log2_u35_eq. cbv zeta. unfold is, l2post.
  repeat match goal with Q : ?a = ?b |- _ => lazymatch a with ldexp3kf _ _ => rewrite Q | l2k _ _ => rewrite Q | xisinff _ => rewrite Q | orb _ _ => rewrite Q | eqf _ _ => rewrite Q end; clear Q end.
  rewrite E1, E2, E3, E4, E5. split; assumption.
Qed.
Print Assumptions C137_log2.
Example C137_log2_nontrivial : is (power_of_two (-149)) 1 /\ is (whole (-149)) (xlog2f 1).
Proof. vm_compute. split; reflexivity. Qed.

(** log10, in the same way *)
Local Definition l10t (m : Z) : Z :=
  let x := l2xa m in let x2 := mulf (fx x) (fx x) in
  let t := DF_1314289868_10 in
  let t := (mlaf t x2 DF_1735493541_10) in
  let t := (mlaf t x2 DF_2895309627_10) in
  mulf (mulf x2 (fx x)) t.
Local Definition l10m (m : Z) : f2 := dfmul_f2_f2_f2 (l2xa m) (F2 DF_868588984_9 (d2f (negd D_2170757285_17))).
Local Definition l10c : f2 := F2 DF_30103001_8 (d2f (negd D_1432098889_17)).
Local Definition l10s (l : f2) (k : Z) (c : f2) (t : Z) : Z :=
  let s := dfmul_f2_f2_f l (fint k) in
  let s := dfadd_f2_f2_f (dfadd_f2_f2_f2 s c) t in addf (fx s) (fy s).
Local Lemma log10_eq d : xlog10f d = let d' := l2d d in let e := l2e d' in let m := ldexp3kf d' (- e) in l2post (l10s l10c (l2k (ltf d FLT_MIN) e) (l10m m) (l10t m)) d'.
Proof. unfold xlog10f, l2post, l10s, l10c, l2k, l10m, l10t, l2xa, l2e, l2d. cbv beta zeta. lazymatch goal with |- ?a = ?b => constr_eq a b end. reflexivity. Qed.
(** v is a number within 2^-18 of k times 0.3010299957, the decimal logarithm of 2 *)
Definition near_log10 (k : Z) (v : fval) : Prop :=
  match v with FFin s m => Z.abs (sval s m * 10 ^ 10 - k * 3010299957 * 2 ^ 149) <= 2 ^ (149 - 18) * 10 ^ 10 | _ => False end.
Local Definition near_log10b (k : Z) (v : fval) : bool :=
  match v with FFin s m => Z.abs (sval s m * 10 ^ 10 - k * 3010299957 * 2 ^ 149) <=? 2 ^ (149 - 18) * 10 ^ 10 | _ => false end.
Local Lemma near_ok k v : near_log10b k v = true -> near_log10 k v.
Proof. destruct v; cbn [near_log10 near_log10b]; try discriminate. apply Z.leb_le. Qed.
Local Lemma l10_series : forallb (fun k => near_log10b k (val (l10s (F2 1050288283 2994079840) k (F2 0 0) 0))) (from (-149) 23) = true.
Proof. vm_compute. reflexivity. Qed.
Local Lemma l10_one : l10m I_1 = F2 0 0 /\ l10t I_1 = 0 /\ l10c = F2 1050288283 2994079840.
Proof. repeat split; vm_compute; reflexivity. Qed.
(** the decimal logarithm of every power of two that is a subnormal float is right up to 2^-18 *)
Theorem C137_log10_subnormal k x : -149 <= k <= -127 -> pattern x -> is (power_of_two k) x -> near_log10 k (val (xlog10f x)).
Proof.
  intros K P H. pose proof l2_pre as Q. rewrite forallb_forall in Q. specialize (Q k (in_from (-149) 277 k ltac:(lia))).
  pose proof l10_series as R. rewrite forallb_forall in R. specialize (R k (in_from (-149) 23 k ltac:(lia))).
  cbv beta zeta in Q, R. repeat match goal with Q : _ && _ = true |- _ => apply andb_prop in Q; destruct Q end.
  repeat match goal with Q : fval_eqb _ _ = true |- _ => apply fval_eqb_ok in Q; destruct Q | Q : negb _ = true |- _ => apply negb_true_iff in Q | Q : (_ =? _) = true |- _ => apply Z.eqb_eq in Q end.
  assert (x = p2 k) as -> by (apply val_eq; [exact P | unfold pattern; lia | unfold is in H; congruence | assumption]).
  destruct l10_one as (E1 & E2 & E3). rewrite log10_eq. cbv zeta. unfold l2post.
  repeat match goal with Q : ?a = ?b |- _ => lazymatch a with ldexp3kf _ _ => rewrite Q | l2k _ _ => rewrite Q | xisinff _ => rewrite Q | orb _ _ => rewrite Q | eqf _ _ => rewrite Q end; clear Q end.
  rewrite E1, E2, E3. apply near_ok. exact R.
Qed.
Print Assumptions C137_log10_subnormal.
(** the smallest subnormal *)
Example C137_log10_subnormal_nontrivial : is (power_of_two (-149)) 1 /\ near_log10 (-149) (val (xlog10f 1)) /\ ~ near_log10 (-149) (whole (-44)).
Proof. split; [vm_compute; reflexivity | split; [| vm_compute; congruence]]. apply (C137_log10_subnormal (-149) 1); [lia | unfold pattern; lia | vm_compute; reflexivity]. Qed.

(** 10 to the k and the decimal logarithm, for every power of ten that is a float and an integer *)
Theorem C137_ten U k x : 0 <= k <= 10 -> pattern x ->
  (is (whole k) x -> is (whole (10 ^ k)) (xexp10f U x) /\ is (whole (10 ^ k)) (xexp10f_u35 U x)) /\
  (is (whole (10 ^ k)) x -> is (whole k) (xlog10f x)).
Proof.
  intros K P. split; [intros H; split |  intros H].
  - apply (at_points (xexp10f U) fint whole (fun k => whole (10 ^ k)) 0 11 ltac:(vm_compute; reflexivity) k x ltac:(lia) P H).
  - apply (at_points (xexp10f_u35 U) fint whole (fun k => whole (10 ^ k)) 0 11 ltac:(vm_compute; reflexivity) k x ltac:(lia) P H).
  - apply (at_points xlog10f (fun k => fint (10 ^ k)) (fun k => whole (10 ^ k)) whole 0 11 ltac:(vm_compute; reflexivity) k x ltac:(lia) P H).
Qed.
Print Assumptions C137_ten.
Example C137_ten_nontrivial : is (whole (10 ^ 3)) 1148846080 /\ is (whole 3) (xlog10f 1148846080).
Proof. vm_compute. split; reflexivity. Qed.
