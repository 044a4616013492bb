(** Bounds: the numbers of magnitude at most 2^(K-149). *)
Require Import ZArith List Bool Lia.
Require Import Verif.FloatSpec Verif.FloatProofs Verif.FloatArith Verif.FloatArithSpec Verif.FloatArithProofs2 Verif.RoundEven Verif.X86Cvt Verif.X86CvtSpec Verif.X86CvtProofs2 Verif.X86CvtProofs4
  Verif.FixedPointConv Verif.SleefBase Verif.Sleef Verif.SleefSpec Verif.SleefProofs Verif.SleefProofs2 Verif.SleefProofs4 Verif.SleefProofs5 Verif.SleefProofs6 Verif.SleefProofs7 Verif.SleefProofs8.
Local Open Scope Z_scope.

Definition bd (K x : Z) : Prop := pattern x /\ exists s m, val x = FFin s m /\ m <= 2 ^ K.

Lemma pow2_mag K : 0 <= K <= 276 -> exists p, 0 <= p < inf_bits binary32 /\ vmag binary32 p = 2 ^ K.
Proof.
  intros R. destruct (Z_lt_le_dec K 23) as [L | L].
  - exists (2 ^ K). assert (0 < 2 ^ K < 2 ^ 23) by (split; [apply Z.pow_pos_nonneg; lia | apply Z.pow_lt_mono_r; lia]).
    change (inf_bits binary32) with (255 * 2 ^ 23). split; [lia |]. apply vmag_sub; [exact m32 | change (mbits binary32) with 23; lia].
  - destruct (Z_lt_le_dec K 253) as [L' | L'].
    + destruct (scaled_mag 1 K ltac:(lia) ltac:(lia)) as (p & P & E). exists p. split; [exact P | rewrite E; lia].
    + destruct (scaled_mag (2 ^ 23) (K - 23) ltac:(lia) ltac:(lia)) as (p & P & E). exists p. split; [exact P |]. rewrite E, <- Z.pow_add_r by lia. f_equal. lia.
Qed.
Lemma encode_bd s x d K : 0 <= K <= 276 -> 0 <= d -> 0 <= x <= 2 ^ K * 2 ^ d -> bd K (encode binary32 s x d).
Proof.
  intros R D X. destruct (pow2_mag K R) as (p & P & E). rewrite <- E in X. destruct (encode_finite s x d p D P X) as (m & V & M). split; [apply encode_pat; lia |]. exists s, m. split; [exact V | lia].
Qed.
Lemma bd_finite K x : bd K x -> finite x.
Proof. intros (_ & s & m & V & _). exists s, m. exact V. Qed.
Lemma bd_pat K x : bd K x -> pattern x.
Proof. intros (P & _). exact P. Qed.
Lemma bd_weaken K L x : bd K x -> K <= L -> bd L x.
Proof.
  intros (P & s & m & V & M) H. split; [exact P |]. exists s, m. split; [exact V |]. destruct (Z_lt_le_dec K 0) as [N | N].
  - rewrite Z.pow_neg_r in M by exact N. assert (0 <= 2 ^ L) by (apply Z.pow_nonneg; lia). lia.
  - assert (2 ^ K <= 2 ^ L) by (apply Z.pow_le_mono_r; lia). lia.
Qed.
Lemma bd_nonneg K x : bd K x -> exists s m, val x = FFin s m /\ 0 <= m <= 2 ^ K.
Proof. intros (P & s & m & V & M). exists s, m. pose proof (val_nonneg _ _ _ V). split; [exact V | lia]. Qed.

Lemma zero_bd K s : 0 <= K -> bd K (sign_bit binary32 s).
Proof. intros H. split; [apply zero_pat |]. exists s, 0. split; [destruct s; reflexivity | apply Z.pow_nonneg; lia]. Qed.
Lemma sum_bd (v : Z) K A B : 0 <= A -> 0 <= B -> K = Z.max A B + 1 -> Z.abs v <= 2 ^ A + 2 ^ B -> Z.abs v <= 2 ^ K * 2 ^ 0.
Proof.
  intros HA HB -> H. assert (2 ^ A <= 2 ^ Z.max A B) by (apply Z.pow_le_mono_r; lia). assert (2 ^ B <= 2 ^ Z.max A B) by (apply Z.pow_le_mono_r; lia).
  rewrite Z.pow_add_r by lia. change (2 ^ 1) with 2. change (2 ^ 0) with 1. lia.
Qed.
Lemma bd_add A B K x y : bd A x -> bd B y -> 0 <= A -> 0 <= B -> K = Z.max A B + 1 -> K <= 276 -> bd K (addf x y).
Proof.
  intros HX HY HA HB E R. destruct (bd_nonneg _ _ HX) as (s & m & V & M). destruct (bd_nonneg _ _ HY) as (t & n & V' & N).
  unfold addf, fadd. fold (val x). fold (val y). rewrite V, V'. cbv zeta.
  destruct (_ =? 0); [apply zero_bd; lia |]. apply encode_bd; [lia | lia |]. split; [lia |]. apply (sum_bd _ K A B HA HB E). destruct s, t; cbn [sval]; lia.
Qed.
Lemma bd_neg K x : bd K x -> bd K (negf x).
Proof. intros (P & s & m & V & M). split; [apply neg_pat, P |]. exists (negb s), m. rewrite val_neg, V by exact P. split; [reflexivity | exact M]. Qed.
Lemma bd_sub A B K x y : bd A x -> bd B y -> 0 <= A -> 0 <= B -> K = Z.max A B + 1 -> K <= 276 -> bd K (subf x y).
Proof. intros HX HY. change (subf x y) with (addf x (negf y)). apply bd_add; [exact HX | apply bd_neg, HY]. Qed.
Lemma bd_mul A B K x y : bd A x -> bd B y -> 0 <= A -> 0 <= B -> K = Z.max 0 (A + B - 149) -> K <= 276 -> bd K (mulf x y).
Proof.
  intros HX HY HA HB E R. destruct (bd_nonneg _ _ HX) as (s & m & V & M). destruct (bd_nonneg _ _ HY) as (t & n & V' & N).
  rewrite (mul_val _ _ _ _ V V'). apply encode_bd; [lia | lia |]. split; [nia |].
  assert (m * n <= 2 ^ A * 2 ^ B) by nia. rewrite <- !Z.pow_add_r in * by lia. assert (2 ^ (A + B) <= 2 ^ (K + 149)) by (apply Z.pow_le_mono_r; lia). lia.
Qed.
Lemma bd_fabs K x : bd K x -> bd K (fabsfk x).
Proof. intros (P & s & m & V & M). split; [apply fabs_pat |]. exists false, m. rewrite val_fabs, V by exact P. split; [reflexivity | exact M]. Qed.
Lemma bd_mulsign K x y : pattern y -> bd K x -> bd K (mulsignf x y).
Proof. intros Q (P & s & m & V & M). split; [apply mulsign_pat; assumption |]. rewrite val_mulsign, V by assumption. destruct (sign_of binary32 y); eexists; eexists; (split; [reflexivity | exact M]). Qed.
Lemma bd_if (b : bool) K x y : bd K x -> bd K y -> bd K (if b then x else y).
Proof. destruct b; auto. Qed.
Lemma bd_fint n j : Z.abs n <= 2 ^ j -> 0 <= j <= 127 -> bd (149 + j) (fint n).
Proof.
  intros N J. unfold fint, of_int. change (scale binary32) with 149. apply encode_bd; [lia | lia |]. split; [lia |]. rewrite Z.pow_add_r by lia. change (2 ^ 0) with 1. assert (0 < 2 ^ 149) by reflexivity. nia.
Qed.
(** a constant *)
Definition mag_ok (K c : Z) : bool := (0 <=? c) && (c <? 2 ^ 32) && match decode binary32 c with FFin _ m => m <=? 2 ^ K | _ => false end.
Lemma bd_const K c : mag_ok K c = true -> bd K c.
Proof.
  unfold mag_ok. rewrite !andb_true_iff, Z.leb_le, Z.ltb_lt. intros (P & M). split; [exact P |]. unfold val. destruct (decode binary32 c) as [| | s m]; try discriminate. exists s, m. split; [reflexivity | lia].
Qed.

(** the conversion to int of a number below 2^31 *)
Lemma toint_bd K x U : bd K x -> K <= 179 -> toint U x = toint (fun _ => 0) x /\ Z.abs (toint U x) <= 2 ^ Z.max 0 (K - 149).
Proof.
  intros HX R. destruct (bd_nonneg _ _ HX) as (s & m & V & M). unfold toint, to_int. fold (val x). rewrite V. change (scale binary32) with 149. cbv zeta.
  assert (0 <= m / 2 ^ 149 <= 2 ^ Z.max 0 (K - 149)) as D.
  { split; [apply Z.div_pos; [lia | reflexivity] |]. destruct (Z_lt_le_dec K 149) as [L | L].
    - rewrite Z.max_l by lia. assert (2 ^ K <= 2 ^ 149) by (apply Z.pow_le_mono_r; lia). apply Z.div_le_upper_bound; [reflexivity |]. change (2 ^ 0) with 1. lia.
    - rewrite Z.max_r by lia. apply Z.div_le_upper_bound; [reflexivity |]. rewrite <- Z.pow_add_r by lia. replace (149 + (K - 149)) with K by lia. lia. }
  assert (2 ^ Z.max 0 (K - 149) <= 2 ^ 30) by (apply Z.pow_le_mono_r; lia).
  assert ((- 2 ^ 31 <=? sval s (m / 2 ^ 149)) && (sval s (m / 2 ^ 149) <? 2 ^ 31) = true) as -> by (destruct s; cbn [sval]; lia).
  split; [reflexivity |]. destruct s; cbn [sval]; lia.
Qed.

(** the leading bits *)
Lemma bd_upper K y : bd K y -> bd K (upperf y).
Proof.
  intros (P & s & m & V & L). destruct (dec_mag binary32 y s m g32 P V) as (p & E & Hp & M).
  assert (upperf y = y - y mod 2 ^ 12) as ->.
  { unfold upperf. assert (Z.land y 4294963200 = Z.ldiff y (Z.ones 12)) as ->.
    { apply Z.bits_inj'. intros i I. rewrite Z.land_spec, Z.ldiff_spec. unfold pattern in P.
      destruct (Z_lt_le_dec i 32) as [J | J].
      - f_equal. assert (forallb (fun i => Bool.eqb (Z.testbit 4294963200 i) (negb (Z.testbit (Z.ones 12) i))) (map Z.of_nat (seq 0 32)) = true) as F by (vm_compute; reflexivity).
        rewrite forallb_forall in F. apply Bool.eqb_prop. apply F. apply in_map_iff. exists (Z.to_nat i). split; [lia |]. apply in_seq. lia.
      - rewrite (Z.bits_above_log2 y i); [reflexivity | lia |]. destruct (Z.eq_dec y 0) as [-> | N]; [cbn; lia |].
        apply Z.log2_lt_pow2; [lia |]. eapply Z.lt_le_trans; [apply P |]. apply Z.pow_le_mono_r; lia. }
    rewrite Z.ldiff_ones_r, Z.shiftl_mul_pow2, Z.shiftr_div_pow2 by lia. pose proof (Z.div_mod y (2 ^ 12) ltac:(discriminate)). lia. }
  assert (y - y mod 2 ^ 12 = sign_bit binary32 s + (p - p mod 2 ^ 12)) as ->.
  { rewrite E. assert ((sign_bit binary32 s + p) mod 2 ^ 12 = p mod 2 ^ 12) as ->; [| lia].
    destruct s; [| reflexivity]. change (sign_bit binary32 true) with (2 ^ 19 * 2 ^ 12). rewrite Z.add_comm. apply Z_mod_plus_full. }
  pose proof (Z.mod_pos_bound p (2 ^ 12) ltac:(reflexivity)) as MB. pose proof (Z.mod_le p (2 ^ 12) ltac:(lia) ltac:(reflexivity)).
  assert (inf_bits binary32 < 2 ^ 31) by reflexivity. split; [apply split_pat; lia |]. exists s, (vmag binary32 (p - p mod 2 ^ 12)). split.
  - rewrite val_mag by lia. unfold of_mag. destruct (Z.eqb_spec (p - p mod 2 ^ 12) (inf_bits binary32)); [lia | reflexivity].
  - assert (vmag binary32 (p - p mod 2 ^ 12) <= vmag binary32 p) by (apply vmag_mono; [exact m32 | lia | lia]). lia.
Qed.

(** the remainder of the division by 1024 *)
Definition rem_1024 (U : Z -> Z) (x : Z) : Z := subf x (mulf (fint (Z.shiftl 1 10)) (fint (toint U (mulf x (divf F_1_0 (fint (Z.shiftl 1 10))))))).
Lemma rem1024 K x U : bd K x -> K <= 182 -> bd 159 (rem_1024 U x) /\ rem_1024 U x = rem_1024 (fun _ => 0) x.
Proof.
  intros HX R. destruct (bd_nonneg _ _ HX) as (s & m & V & M). pose proof (bd_pat _ _ HX) as P. unfold rem_1024.
  assert (divf F_1_0 (fint (Z.shiftl 1 10)) = 981467136) as -> by (vm_compute; reflexivity).
  assert (val 981467136 = FFin false (2 ^ 139)) as Vc by (vm_compute; reflexivity).
  assert (bd 139 981467136) as Bc by (apply bd_const; vm_compute; reflexivity).
  assert (bd 172 (mulf x 981467136)) as By.
  { eapply bd_mul; [apply (bd_weaken K 182); [exact HX | exact R] | exact Bc | lia | lia | reflexivity | lia]. }
  split; [| destruct (toint_bd _ _ U By ltac:(lia)) as [-> _]; reflexivity].
  set (T := m / 2 ^ 159). pose proof (Z.div_mod m (2 ^ 159) ltac:(discriminate)) as D. fold T in D. pose proof (Z.mod_pos_bound m (2 ^ 159) ltac:(reflexivity)) as D'.
  assert (0 <= T <= 2 ^ 23) as HT.
  { split; [apply Z.div_pos; [lia | reflexivity] |]. apply Z.div_le_upper_bound; [reflexivity |]. change (2 ^ 159 * 2 ^ 23) with (2 ^ 182).
    assert (2 ^ K <= 2 ^ 182) by (destruct (Z_lt_le_dec K 0); [rewrite Z.pow_neg_r by assumption; discriminate | apply Z.pow_le_mono_r; lia]). lia. }
  assert (exists y, val (mulf x 981467136) = FFin s y /\ T * 2 ^ 149 <= y <= (T + 1) * 2 ^ 149) as (y & Vy & Hy).
  { rewrite (mul_val _ _ _ _ V Vc). rewrite xorb_false_r.
    destruct (scaled_mag (T + 1) 149 ltac:(lia) ltac:(lia)) as (p2 & P2 & E2).
    assert (0 <= m * 2 ^ 139 <= vmag binary32 p2 * 2 ^ 149) as U2.
    { rewrite E2. replace ((T + 1) * 2 ^ 149 * 2 ^ 149) with ((T + 1) * 2 ^ 159 * 2 ^ 139) by (rewrite <- !Z.mul_assoc; reflexivity). assert (0 < 2 ^ 139) by reflexivity. nia. }
    rewrite val_encode by lia. pose proof (round_le p2 (m * 2 ^ 139) 149 ltac:(lia) ltac:(lia) ltac:(lia) ltac:(lia)) as RL. rewrite Z.min_l by lia.
    pose proof (round_nonneg (m * 2 ^ 139) 149 ltac:(lia) ltac:(lia)) as RN.
    unfold of_mag. destruct (Z.eqb_spec (round_mag binary32 (m * 2 ^ 139) 149) (inf_bits binary32)); [lia |]. eexists. split; [reflexivity |]. split.
    - destruct (Z.eq_dec T 0) as [-> | NT]; [apply vmag_nonneg; [exact m32 | lia] |]. destruct (scaled_mag T 149 ltac:(lia) ltac:(lia)) as (p1 & P1 & E1). rewrite <- E1. apply vmag_mono; [exact m32 | lia |].
      apply round_ge; [lia | lia |]. rewrite E1. replace (T * 2 ^ 149 * 2 ^ 149) with (T * 2 ^ 159 * 2 ^ 139) by (rewrite <- !Z.mul_assoc; reflexivity). assert (0 < 2 ^ 139) by reflexivity. nia.
    - rewrite <- E2. apply vmag_mono; [exact m32 | lia | exact RL]. }
  assert (exists t, toint U (mulf x 981467136) = sval s t /\ T <= t <= T + 1) as (t & Ht & Rt).
  { unfold toint, to_int. fold (val (mulf x 981467136)). rewrite Vy. change (scale binary32) with 149. cbv zeta.
    assert (T <= y / 2 ^ 149 <= T + 1) as Q.
    { split; [apply Z.div_le_lower_bound; [reflexivity | lia] | apply Z.div_le_upper_bound; [reflexivity | lia]]. }
    exists (y / 2 ^ 149). split; [| exact Q].
    assert ((- 2 ^ 31 <=? sval s (y / 2 ^ 149)) && (sval s (y / 2 ^ 149) <? 2 ^ 31) = true) as -> by (destruct s; cbn [sval]; lia). reflexivity. }
  rewrite Ht. assert (Z.abs (sval s t) = t) as At by (destruct s; cbn [sval]; lia).
  assert (val (fint (sval s t)) = FFin (sval s t <? 0) (t * 2 ^ 149)) as Vt by (rewrite fint_small by lia; unfold whole; rewrite At; reflexivity).
  assert (val (fint (Z.shiftl 1 10)) = FFin false (2 ^ 159)) as Vk by (vm_compute; reflexivity).
  assert (val (mulf (fint (Z.shiftl 1 10)) (fint (sval s t))) = FFin (sval s t <? 0) (t * 2 ^ 159)) as Vp.
  { rewrite (mul_val _ _ _ _ Vk Vt). rewrite xorb_false_l. replace (2 ^ 159 * (t * 2 ^ 149)) with (t * 2 ^ 159 * 2 ^ 149) by ring. apply encode_exact; lia. }
  unfold subf, fsub. change (fopp binary32 (mulf (fint (Z.shiftl 1 10)) (fint (sval s t)))) with (negf (mulf (fint (Z.shiftl 1 10)) (fint (sval s t)))).
  unfold fadd. fold (val x). fold (val (negf (mulf (fint (Z.shiftl 1 10)) (fint (sval s t))))). rewrite val_neg, V, Vp by apply mulf_pat. cbn [negated]. cbv zeta.
  destruct (_ =? 0); [apply zero_bd; lia |]. apply encode_bd; [lia | lia |]. split; [lia |]. change (2 ^ 0) with 1. rewrite Z.mul_1_r.
  assert (sval (negb (sval s t <? 0)) (t * 2 ^ 159) = - sval s (t * 2 ^ 159)) as ->.
  { destruct s; cbn [sval]; [destruct (Z.ltb_spec (- t) 0) | destruct (Z.ltb_spec t 0)]; cbn [negb sval]; try lia; assert (t = 0) by lia; subst t; reflexivity. }
  assert (0 < 2 ^ 159) by reflexivity. destruct s; cbn [sval]; nia.
Qed.

(** pairs *)
Definition bd2 (A B : Z) (p : f2) : Prop := bd A (fx p) /\ bd B (fy p).
Ltac num := lazymatch goal with
  | |- ?K = ?e => let v := eval vm_compute in e in (first [unify K v | idtac]); vm_compute; reflexivity
  | |- _ <= _ => vm_compute; discriminate
  | |- mag_ok _ _ = true => vm_compute; reflexivity
  end.
Ltac bds := first [ eassumption | lazymatch goal with
  | |- bd _ (addf _ _) => eapply bd_add; [bds | bds | num | num | num | num]
  | |- bd _ (subf _ _) => eapply bd_sub; [bds | bds | num | num | num | num]
  | |- bd _ (mulf _ _) => eapply bd_mul; [bds | bds | num | num | num | num]
  | |- bd _ (mlaf _ _ _) => unfold mlaf; bds
  | |- bd _ (negf _) => apply bd_neg; bds
  | |- bd _ (upperf _) => apply bd_upper; bds
  | |- bd _ (fabsfk _) => apply bd_fabs; bds
  end ].
Lemma bd_add_le K x y : bd K x -> bd K y -> 0 <= K <= 275 -> bd (K + 1) (addf x y).
Proof. intros X Y R. apply (bd_add K K); (assumption || lia). Qed.
Lemma bd_sub_le K x y : bd K x -> bd K y -> 0 <= K <= 275 -> bd (K + 1) (subf x y).
Proof. intros X Y R. apply (bd_sub K K); (assumption || lia). Qed.
Lemma bd_mul_le A B K x y : bd A x -> bd B y -> 0 <= A -> 0 <= B -> A + B - 149 <= K -> 0 <= K <= 276 -> bd K (mulf x y).
Proof. intros X Y HA HB H R. apply (bd_weaken (Z.max 0 (A + B - 149))); [| lia]. apply (bd_mul A B); (assumption || lia). Qed.
Lemma b_mulff A B K x y : bd A x -> bd B y -> 0 <= A <= 275 -> 0 <= B <= 275 -> A + B - 149 <= K -> 0 <= K <= 270 -> bd2 K (K + 6) (dfmul_f2_f_f x y).
Proof.
  intros X Y HA HB H R. unfold dfmul_f2_f_f. pose proof (bd_upper _ _ X) as XH. pose proof (bd_upper _ _ Y) as YH.
  pose proof (bd_sub_le A _ _ X XH ltac:(lia)) as XL. pose proof (bd_sub_le B _ _ Y YH ltac:(lia)) as YL. split; cbn [fx fy].
  - apply (bd_mul_le A B); (assumption || lia).
  - replace (K + 6) with (K + 2 + 1 + 1 + 1 + 1) by lia.
    apply bd_add_le; [| apply (bd_weaken (K + 2)); [apply (bd_mul_le (A + 1) (B + 1)); (assumption || lia) | lia] | lia].
    apply bd_add_le; [| apply (bd_weaken (K + 2)); [apply (bd_mul_le A (B + 1)); (assumption || lia) | lia] | lia].
    apply bd_add_le; [| apply (bd_weaken (K + 2)); [apply (bd_mul_le (A + 1) B); (assumption || lia) | lia] | lia].
    apply bd_sub_le; [apply (bd_mul_le A B); (assumption || lia) | apply (bd_mul_le A B); (assumption || lia) | lia].
Qed.
Lemma b_mul2f A A' B K p y : bd2 A A' p -> bd B y -> 0 <= A <= 275 -> 0 <= A' <= 275 -> 0 <= B <= 275 -> A + B - 149 <= K -> A' + B - 149 <= K -> 0 <= K <= 268 -> bd2 K (K + 7) (dfmul_f2_f2_f p y).
Proof.
  intros (X & X') Y HA HA' HB H H' R. destruct (b_mulff A B K (fx p) y X Y HA HB H ltac:(lia)) as (R1 & R2). unfold dfmul_f2_f_f in R1, R2. cbn [fx fy] in R1, R2.
  unfold dfmul_f2_f2_f. split; cbn [fx fy]; [exact R1 |]. replace (K + 7) with (K + 6 + 1) by lia. apply bd_add_le; [exact R2 | apply (bd_mul_le A' B); (assumption || lia) | lia].
Qed.

(** the table of 2 / pi *)
Definition amp (ex : Z) : Z := ex + 175 - (if 65 <? ex then 64 else 0).
Lemma table_ok : forallb (fun i => let ex := Z.of_nat i in let t j := nth (Z.to_nat (4 * ex + j)) Sleef_rempitabsp 0 in
  mag_ok (322 - amp ex) (t 0) && mag_ok (300 - amp ex) (t 1) && mag_ok (300 - amp ex) (t 2) && mag_ok (300 - amp ex) (t 3)) (seq 0 103) = true.
Proof. vm_compute. reflexivity. Qed.
Lemma table_bd W ex : 0 <= ex <= 102 ->
  bd (322 - amp ex) (rempitab W (ex * 4)) /\ bd (300 - amp ex) (rempitab W (ex * 4 + 1)) /\ bd (300 - amp ex) (rempitab W (ex * 4 + 2)) /\ bd (300 - amp ex) (rempitab W (ex * 4 + 3)) /\
  forall j, 0 <= j <= 3 -> rempitab W (ex * 4 + j) = rempitab (fun _ => 0) (ex * 4 + j).
Proof.
  intros R. assert (forall j, 0 <= j <= 3 -> rempitab W (ex * 4 + j) = nth (Z.to_nat (4 * ex + j)) Sleef_rempitabsp 0) as T.
  { intros j J. unfold rempitab. change (Z.of_nat (length Sleef_rempitabsp)) with 412. assert ((0 <=? ex * 4 + j) && (ex * 4 + j <? 412) = true) as -> by lia. f_equal. f_equal. lia. }
  pose proof table_ok as F. rewrite forallb_forall in F. specialize (F (Z.to_nat ex) ltac:(apply in_seq; lia)). cbv zeta beta in F. rewrite Z2Nat.id in F by lia. rewrite !andb_true_iff in F. destruct F as (((F0 & F1) & F2) & F3).
  split; [replace (ex * 4) with (ex * 4 + 0) by lia; rewrite T by lia; apply bd_const, F0 |].
  split; [rewrite T by lia; apply bd_const, F1 |]. split; [rewrite T by lia; apply bd_const, F2 |]. split; [rewrite T by lia; apply bd_const, F3 |].
  intros j J. rewrite T by assumption. unfold rempitab. change (Z.of_nat (length Sleef_rempitabsp)) with 412. assert ((0 <=? ex * 4 + j) && (ex * 4 + j <? 412) = true) as -> by lia. f_equal. f_equal. lia.
Qed.
Lemma amp_range ex : 0 <= ex <= 102 -> 175 <= amp ex + 0 <= 240.
Proof. unfold amp. destruct (Z.ltb_spec 65 ex); lia. Qed.

(** the exponent and the scaled argument *)
Lemma exponent_of a s m : pattern a -> val a = FFin s m ->
  let e := ilogb2kf a - 25 in let q := if 90 - 25 <? e then - 64 else 0 in
  let ex := if e <? 0 then 0 else e in 0 <= ex <= 102 /\ bd (amp ex) (ldexp3kf a q).
Proof.
  intros P V. destruct (dec_mag binary32 a s m g32 P V) as (p & E & Hp & M). change (inf_bits binary32) with (255 * 2 ^ 23) in Hp. subst a.
  assert (ilogb2kf (sign_bit binary32 s + p) = p / 2 ^ 23 - 127) as L.
  { unfold ilogb2kf. f_equal. rewrite Z.shiftr_div_pow2 by lia. change 255 with (Z.ones 8) at 1. rewrite Z.land_ones by lia.
    assert (0 <= p / 2 ^ 23 < 255) by (split; [apply Z.div_pos; lia | apply Z.div_lt_upper_bound; lia]).
    destruct s; [change (sign_bit binary32 true) with (256 * 2 ^ 23); rewrite Z.add_comm, Z.div_add by discriminate; change 256 with (1 * 2 ^ 8); rewrite Z_mod_plus_full | change (sign_bit binary32 false) with 0; rewrite Z.add_0_l]; apply Z.mod_small; change (2 ^ 8) with 256; lia. }
  cbv zeta. rewrite L. set (E := p / 2 ^ 23). assert (0 <= E <= 254) as RE by (unfold E; split; [apply Z.div_pos; lia | assert (p / 2 ^ 23 < 255) by (apply Z.div_lt_upper_bound; lia); lia]).
  assert (E * 2 ^ 23 <= p < (E + 1) * 2 ^ 23) as RP by (pose proof (Z.div_mod p (2 ^ 23) ltac:(discriminate)); pose proof (Z.mod_pos_bound p (2 ^ 23) ltac:(reflexivity)); unfold E; lia).
  assert (forall F r, 0 <= F <= 253 -> 0 <= r < (F + 1) * 2 ^ 23 -> bd (F + 23) (sign_bit binary32 s + r)) as B.
  { intros F r RF RR. assert (r < 2 ^ 31) by lia. split; [apply split_pat; lia |]. exists s, (vmag binary32 r). split.
    - rewrite val_mag by (change (inf_bits binary32) with (255 * 2 ^ 23); lia). unfold of_mag. change (inf_bits binary32) with (255 * 2 ^ 23). destruct (Z.eqb_spec r (255 * 2 ^ 23)); [lia | reflexivity].
    - replace (2 ^ (F + 23)) with (vmag binary32 (2 ^ 23 + F * 2 ^ mbits binary32)).
      + apply vmag_mono; [exact m32 | lia | change (mbits binary32) with 23; lia].
      + rewrite vmag_scaled; [| discriminate | lia | left; reflexivity | discriminate]. rewrite <- Z.pow_add_r by lia. f_equal. lia. }
  destruct (Z.ltb_spec (90 - 25) (E - 127 - 25)).
  - destruct (Z.ltb_spec (E - 127 - 25) 0); [lia |]. split; [lia |]. unfold ldexp3kf, bits32. rewrite Z.shiftl_mul_pow2 by lia.
    assert (0 <= p - 64 * 2 ^ 23 < (E - 64 + 1) * 2 ^ 23) as RQ by lia.
    replace (sign_bit binary32 s + p + -64 * 2 ^ 23) with (sign_bit binary32 s + (p - 64 * 2 ^ 23)) by lia. rewrite Z.mod_small by (apply split_pat; lia).
    replace (amp (E - 127 - 25)) with (E - 64 + 23); [apply B; lia |]. unfold amp. destruct (Z.ltb_spec 65 (E - 127 - 25)); lia.
  - unfold ldexp3kf, bits32. rewrite Z.shiftl_0_l, Z.add_0_r. rewrite Z.mod_small by (apply split_pat; lia).
    destruct (Z.ltb_spec (E - 127 - 25) 0).
    + split; [lia |]. apply (bd_weaken (E + 23)); [apply B; lia |]. change (amp 0) with 175. lia.
    + split; [lia |]. replace (amp (E - 127 - 25)) with (E + 23); [apply B; lia |]. unfold amp. destruct (Z.ltb_spec 65 (E - 127 - 25)); lia.
Qed.

(** the reduction of one term *)
Lemma rempisub_bd K x U : bd K x -> K <= 182 -> rempisubf U x = rempisubf (fun _ => 0) x /\ bd 162 (fid (rempisubf (fun _ => 0) x)).
Proof.
  intros HX R. destruct (rem1024 K x U HX R) as (_ & ER). destruct (rem1024 K x (fun _ => 0) HX R) as (BR & _). pose proof (bd_pat _ _ HX) as P.
  unfold rempisubf. fold (rem_1024 U x). fold (rem_1024 (fun _ => 0) x). rewrite ER. generalize dependent (rem_1024 (fun _ => 0) x). intros r _ BR. cbv zeta.
  assert (bd 152 I_8) as B8 by (apply bd_const; vm_compute; reflexivity). assert (bd 151 I_4) as B4 by (apply bd_const; vm_compute; reflexivity).
  assert (bd 148 F_5_1) as B5 by (apply bd_const; vm_compute; reflexivity). assert (bd 147 F_25_2) as B25 by (apply bd_const; vm_compute; reflexivity).
  pose proof (bd_mulsign 148 F_5_1 x P B5) as Bs.
  assert (bd 162 (mulf r I_8)) as T1 by bds. assert (bd 162 (addf (mulf r I_4) (mulsignf F_5_1 x))) as T2 by bds.
  destruct (toint_bd _ _ U T1 ltac:(lia)) as [-> _]. destruct (toint_bd _ _ U T2 ltac:(lia)) as [E2 _]. rewrite E2. destruct (toint_bd _ _ (fun _ => 0) T2 ltac:(lia)) as [_ I2].
  change (2 ^ Z.max 0 (162 - 149)) with (2 ^ 13) in I2. pose proof (bd_fint _ 13 I2 ltac:(lia)) as BF. change (149 + 13) with 162 in BF.
  set (n := fint _) in *. assert (bd 161 (subf r (mulf F_25_2 n))) as T3 by bds. set (w := subf r (mulf F_25_2 n)) in *.
  assert (bd 162 (if ltf F_125_3 (fabsfk w) then subf w (mulsignf F_5_1 x) else w)) as T4.
  { apply bd_if; [bds | apply (bd_weaken 161); [exact T3 | lia]]. }
  set (v := if ltf F_125_3 (fabsfk w) then subf w (mulsignf F_5_1 x) else w) in *.
  destruct (eqf (fabsfk x) F_12499999254941940308_20) eqn:Q.
  - split; [reflexivity |]. cbn [fid]. apply (bd_weaken 146); [| lia]. split; [exact P |]. destruct HX as (_ & s & m & V & _). exists s, m. split; [exact V |].
    rewrite eqf_val, val_fabs, V in Q by exact P. assert (val F_12499999254941940308_20 = FFin false (16777215 * 2 ^ 122)) as Vk by (vm_compute; reflexivity). assert (16777215 * 2 ^ 122 <= 2 ^ 146) as Lk by discriminate.
    rewrite Vk in Q. unfold feqb in Q. cbn [fle sval] in Q. apply andb_true_iff in Q. rewrite !Z.leb_le in Q. lia.
  - split; [reflexivity |]. cbn [fid]. apply bd_if; [apply bd_const; vm_compute; reflexivity | exact T4].
Qed.

(** the whole reduction *)
Definition reduce (U : Z -> Z) (a t0 t1 t2 t3 : Z) : dfi :=
  let x := dfmul_f2_f_f a t0 in
  let di := rempisubf U (fx x) in
  let x2 := dfadd2_f2_f2_f2 (dfnormalize_f2_f2 (F2 (fid di) (fy x))) (dfmul_f2_f_f a t1) in
  let di2 := rempisubf U (fx x2) in
  let x3 := dfnormalize_f2_f2 (dfadd2_f2_f2_f2 (dfnormalize_f2_f2 (F2 (fid di2) (fy x2))) (dfmul_f2_f2_f (F2 t2 t3) a)) in
  let x4 := dfmul_f2_f2_f2 x3 (F2 (mulf F_31415927410125732422_19 I_2) (mulf (negf F_87422776573475857731_27) I_2)) in
  DFI (if ltf (fabsfk a) F_7_1 then F2 a I_0 else x4) (fii di + fii di2).
Lemma rempif_reduce U W a : rempif U W a =
  let e := ilogb2kf a - 25 in let q := if 90 - 25 <? e then - 64 else 0 in let ex := (if e <? 0 then 0 else e) * 4 in
  reduce U (ldexp3kf a q) (rempitab W ex) (rempitab W (ex + 1)) (rempitab W (ex + 2)) (rempitab W (ex + 3)).
Proof. unfold rempif. cbv zeta. destruct (_ <? 0); reflexivity. Qed.

Lemma b_norm A B p : bd2 A B p -> 0 <= A -> 0 <= B -> Z.max A B + 3 <= 276 -> bd2 (Z.max A B + 1) (Z.max A B + 3) (dfnormalize_f2_f2 p).
Proof.
  intros (X & Y) HA HB R. unfold dfnormalize_f2_f2. pose proof (bd_add A B (Z.max A B + 1) _ _ X Y HA HB eq_refl ltac:(lia)) as S. split; cbn [fx fy]; [exact S |].
  pose proof (bd_sub _ _ (Z.max A B + 2) _ _ X S ltac:(lia) ltac:(lia) ltac:(lia) ltac:(lia)) as D. apply (bd_add _ _ (Z.max A B + 3) _ _ D Y); lia.
Qed.
Lemma b_add22 A B C D p q : bd2 A B p -> bd2 C D q -> 0 <= A -> 0 <= B -> 0 <= C -> 0 <= D -> Z.max (Z.max A B) (Z.max C D) + 6 <= 276 -> bd2 (Z.max A C + 1) (Z.max (Z.max A B) (Z.max C D) + 6) (dfadd2_f2_f2_f2 p q).
Proof.
  intros (X & X') (Y & Y') HA HB HC HD R. pose proof (bd_add A C (Z.max A C + 1) _ _ X Y HA HC eq_refl ltac:(lia)) as S0. set (M := Z.max (Z.max A B) (Z.max C D)) in *. unfold dfadd2_f2_f2_f2. cbv zeta.
  apply (bd_weaken A M) in X; [| lia]. apply (bd_weaken B M) in X'; [| lia]. apply (bd_weaken C M) in Y; [| lia]. apply (bd_weaken D M) in Y'; [| lia].
  pose proof (bd_add_le M _ _ X Y ltac:(lia)) as S. split; cbn [fx fy]; [exact S0 |].
  pose proof (bd_sub _ _ (M + 2) _ _ S X ltac:(lia) ltac:(lia) ltac:(lia) ltac:(lia)) as V.
  pose proof (bd_sub _ _ (M + 3) _ _ S V ltac:(lia) ltac:(lia) ltac:(lia) ltac:(lia)) as V1.
  pose proof (bd_sub _ _ (M + 4) _ _ X V1 ltac:(lia) ltac:(lia) ltac:(lia) ltac:(lia)) as V2.
  pose proof (bd_sub _ _ (M + 3) _ _ Y V ltac:(lia) ltac:(lia) ltac:(lia) ltac:(lia)) as V3.
  pose proof (bd_add _ _ (M + 5) _ _ V2 V3 ltac:(lia) ltac:(lia) ltac:(lia) ltac:(lia)) as V4.
  pose proof (bd_add_le M _ _ X' Y' ltac:(lia)) as V5.
  apply (bd_add _ _ (M + 6) _ _ V4 V5); lia.
Qed.

Lemma second_step A a t1 d y : 175 <= A <= 240 -> bd 162 d -> bd 179 y -> bd A a -> bd (300 - A) t1 -> bd 181 (fx (dfadd2_f2_f2_f2 (dfnormalize_f2_f2 (F2 d y)) (dfmul_f2_f_f a t1))).
Proof.
  intros RA D Y HA H1.
  pose proof (b_mulff A (300 - A) 151 a t1 HA H1 ltac:(lia) ltac:(lia) ltac:(lia) ltac:(lia)) as P.
  assert (bd2 162 179 (F2 d y)) as N by exact (conj D Y).
  pose proof (b_norm _ _ _ N ltac:(lia) ltac:(lia) ltac:(lia)) as N1.
  exact (proj1 (b_add22 _ _ _ _ _ _ N1 P ltac:(lia) ltac:(lia) ltac:(lia) ltac:(lia) ltac:(lia))).
Qed.

Lemma reduce_ok U A a t0 t1 t2 t3 : 175 <= A <= 240 -> bd A a -> bd (322 - A) t0 -> bd (300 - A) t1 -> reduce U a t0 t1 t2 t3 = reduce (fun _ => 0) a t0 t1 t2 t3.
Proof.
  intros RA HA H0 H1. unfold reduce.
  pose proof (b_mulff A (322 - A) 173 a t0 HA H0 ltac:(lia) ltac:(lia) ltac:(lia) ltac:(lia)) as (X & X').
  destruct (rempisub_bd 173 _ U X ltac:(lia)) as (E1 & B1). rewrite E1. clear E1.
  pose proof (second_step A a t1 _ _ RA B1 X' HA H1) as X2.
  destruct (rempisub_bd 181 _ U X2 ltac:(lia)) as (E2 & _). cbv zeta. rewrite E2. reflexivity.
Qed.

Lemma rempif_ok U W a : pattern a -> finite a -> rempif U W a = rempif (fun _ => 0) (fun _ => 0) a.
Proof.
  intros P (s & m & V). rewrite (rempif_reduce U W), (rempif_reduce (fun _ => 0) (fun _ => 0)). destruct (exponent_of a s m P V) as (R & B). cbv zeta. revert R B.
  generalize (if ilogb2kf a - 25 <? 0 then 0 else ilogb2kf a - 25). generalize (ldexp3kf a (if 90 - 25 <? ilogb2kf a - 25 then - 64 else 0)). intros d ex R B.
  destruct (table_bd W ex R) as (T0 & T1 & _ & _ & E). pose proof (amp_range ex R) as RA.
  rewrite (reduce_ok U (amp ex)); [| lia | assumption | assumption | assumption].
  rewrite <- (E 1), <- (E 2), <- (E 3) by lia. pose proof (E 0 ltac:(lia)) as E0. rewrite Z.add_0_r in E0. rewrite <- E0. reflexivity.
Qed.

(** arguments below a constant, and their rounding *)
Lemma bd_less K c x : pattern x -> mag_ok K c = true -> ltf (fabsfk x) c = true -> bd K x.
Proof.
  intros P C L. destruct (bd_const K c C) as (_ & s & m & VC & M). split; [exact P |].
  rewrite ltf_val, val_fabs, VC in L by exact P. destruct (val x) as [| s' | s' n] eqn:E; [discriminate L | destruct s; discriminate L |].
  exists s', n. split; [reflexivity |]. pose proof (val_nonneg _ _ _ E) as N. pose proof (val_nonneg _ _ _ VC) as N'. cbn [flt fle sval] in L.
  destruct s; cbn [flt fle sval] in L; apply negb_true_iff, Z.leb_gt in L; lia.
Qed.
Lemma half_bd : bd 148 c_half.
Proof. apply bd_const. vm_compute. reflexivity. Qed.
Lemma rint_bd K x U : bd K x -> 148 <= K <= 176 -> rintfk U x = rintfk (fun _ => 0) x /\ bd (K + 2) (rintfk U x) /\ toint U (rintfk U x) = toint (fun _ => 0) (rintfk (fun _ => 0) x).
Proof.
  intros X R. pose proof (bd_add K 148 (K + 1) _ _ X half_bd ltac:(lia) ltac:(lia) ltac:(lia) ltac:(lia)) as A.
  pose proof (bd_sub K 148 (K + 1) _ _ X half_bd ltac:(lia) ltac:(lia) ltac:(lia) ltac:(lia)) as S.
  destruct (toint_bd _ _ U A ltac:(lia)) as (EA & BA). destruct (toint_bd _ _ U S ltac:(lia)) as (ES & BS).
  assert (rintfk U x = rintfk (fun _ => 0) x) as E by (unfold rintfk; rewrite EA, ES; reflexivity).
  assert (forall n, Z.abs n <= 2 ^ Z.max 0 (K + 1 - 149) -> bd (K + 2) (fint n)) as F.
  { intros n H. apply (bd_weaken (149 + Z.max 0 (K + 1 - 149))); [| lia]. apply bd_fint; [exact H | lia]. }
  assert (bd (K + 2) (rintfk U x)) as B by (unfold rintfk; destruct (ltf x c_zero); apply F; assumption).
  split; [exact E |]. split; [exact B |]. rewrite <- E. exact (proj1 (toint_bd _ _ U B ltac:(lia))).
Qed.
