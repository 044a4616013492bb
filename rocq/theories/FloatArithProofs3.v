(** Rounding to a wide format and then to a narrow one: harmless when only an
    exact value can come out as the middle of two narrow numbers. *)
Require Import ZArith Bool Lia ZifyBool List.
Require Import Verif.FloatSpec Verif.RoundEven Verif.X86Cvt Verif.X86CvtSpec Verif.FloatProofs Verif.X86CvtProofs2 Verif.X86CvtProofs4.
Require Import Verif.CInt Verif.FloatArith Verif.FloatArithSpec Verif.FloatArithProofs Verif.FloatArithProofs2.
Local Open Scope Z_scope.

(** [c] compares some real with integers *)
Definition comparing (c : Z -> comparison) : Prop := forall n n', 0 <= n < n' -> c n <> Gt -> c n' = Lt.
Lemma comparing_gt c n n' : comparing c -> 0 <= n < n' -> c n' <> Lt -> c n = Gt.
Proof. intros C H N. destruct (c n) eqn:E; [exfalso; apply N, (C n); [lia|congruence]|exfalso; apply N, (C n); [lia|congruence]|reflexivity]. Qed.
Lemma comparing_le c n n' : comparing c -> 0 <= n <= n' -> c n = Lt -> c n' = Lt.
Proof. intros C H N. destruct (Z.eq_dec n n') as [<-|]; [exact N|]. apply (C n); [lia|congruence]. Qed.
Lemma comparing_ge c n n' : comparing c -> 0 <= n <= n' -> c n' = Gt -> c n = Gt.
Proof. intros C H N. destruct (Z.eq_dec n n') as [<-|]; [exact N|]. apply (comparing_gt c n n'); [exact C|lia|congruence]. Qed.
Lemma comparing_ratio num den : 0 < den -> comparing (twice_ratio num den).
Proof. intros D n n' H. unfold twice_ratio. change (2 * num <= n * den -> (2 * num ?= n' * den) = Lt). rewrite Z.compare_lt_iff. nia. Qed.
Lemma comparing_root v : comparing (twice_root v).
Proof. intros n n' H. unfold twice_root. change (4 * v <= n * n -> (4 * v ?= n' * n') = Lt). rewrite Z.compare_lt_iff. nia. Qed.
Lemma comparing_scaled c k : 0 < k -> comparing c -> comparing (fun n => c (n * k)).
Proof. intros K C n n' H. apply C. nia. Qed.

(** ** there is only one correctly rounded result *)
Lemma rounds_unique f c p q : good_fmt f -> comparing c -> rounds_at f c p -> rounds_at f c q -> p = q.
Proof.
  intros G C. assert (H : forall p q, p < q -> rounds_at f c p -> rounds_at f c q -> False).
  { clear p q. intros p q L (Hp & Rp) (Hq & Rq). destruct (good_sizes f G) as (M & _).
    destruct (Rp q Hq) as (A & _). destruct (Rq p Hp) as (_ & B). specialize (A L). specialize (B ltac:(lia)). rewrite (Z.add_comm (vmag f q)) in B.
    destruct A as [A|(A & Ep)], B as [B|(B & Eq)]; try congruence.
    assert (p + 1 < q).
    { destruct (Z.eq_dec (p + 1) q) as [E|]; [|lia]. subst q. rewrite Z.even_add in Eq. rewrite Ep in Eq. discriminate Eq. }
    destruct (Rp (p + 1) ltac:(lia)) as (A' & _). specialize (A' ltac:(lia)).
    pose proof (vmag_strict f M (p + 1) q ltac:(lia) ltac:(lia)). pose proof (vmag_nonneg f p ltac:(lia) ltac:(lia)). pose proof (vmag_nonneg f (p + 1) ltac:(lia) ltac:(lia)).
    rewrite (comparing_gt c (vmag f p + vmag f (p + 1)) (vmag f p + vmag f q) C ltac:(lia) ltac:(congruence)) in A'. destruct A' as [?|[? _]]; discriminate. }
  intros Rp Rq. destruct (Z.lt_trichotomy p q) as [L|[E|L]]; [exfalso; eapply H; eassumption|exact E|exfalso; eapply H; [exact L|exact Rq|exact Rp]].
Qed.
Lemma rounded_unique f s c r r' : good_fmt f -> comparing c -> correctly_rounded f s c r -> correctly_rounded f s c r' -> r = r'.
Proof.
  intros G C H H'. apply (rounded_iff f s) in H; [|exact G]. apply (rounded_iff f s) in H'; [|exact G]. destruct H as (p & -> & R), H' as (q & -> & R').
  f_equal. eapply rounds_unique; eassumption.
Qed.

(** ** digits of a pattern, and of the middle of two successive numbers *)
Lemma digits f p : 1 <= mbits f -> 0 <= p -> exists q j, p = q + j * 2 ^ mbits f /\ 0 <= j /\ 0 <= q < 2 ^ (mbits f + 1) /\ (2 ^ mbits f <= q \/ j = 0)
  /\ vmag f p = q * 2 ^ j /\ vmag f (p + 1) = (q + 1) * 2 ^ j.
Proof.
  intros M Hp. pose proof (pow2_pos (mbits f) ltac:(lia)) as PM. pose proof (Z.div_mod p (2 ^ mbits f) ltac:(lia)) as D. pose proof (Z.mod_pos_bound p (2 ^ mbits f) PM) as B.
  pose proof (Z.div_pos p (2 ^ mbits f) Hp PM) as D0. assert (E2 : 2 ^ (mbits f + 1) = 2 * 2 ^ mbits f) by (rewrite Z.pow_add_r by lia; ring).
  set (j := Z.max 0 (p / 2 ^ mbits f - 1)). exists (p - j * 2 ^ mbits f), j.
  assert (0 <= p - j * 2 ^ mbits f < 2 ^ (mbits f + 1) /\ (2 ^ mbits f <= p - j * 2 ^ mbits f \/ j = 0)) as (R & S).
  { destruct (Z_lt_le_dec (p / 2 ^ mbits f) 1).
    - replace j with 0 by lia. assert (p / 2 ^ mbits f = 0) as E0 by lia. rewrite E0 in D. split; [nia|right; reflexivity].
    - replace j with (p / 2 ^ mbits f - 1) by lia. split; [nia|left; nia]. }
  split; [lia|]. split; [lia|]. split; [exact R|]. split; [exact S|]. split.
  - replace (vmag f p) with (vmag f (p - j * 2 ^ mbits f + j * 2 ^ mbits f)) by (f_equal; lia). apply vmag_scaled; lia.
  - replace (vmag f (p + 1)) with (vmag f (p - j * 2 ^ mbits f + 1 + j * 2 ^ mbits f)) by (f_equal; lia). apply vmag_scaled; lia.
Qed.

(** every number of [f] is one of [g], whose unit is [2^k] times smaller,
    with room for the digits of a square *)
Definition wider (f g : fmt) : Prop := (f = binary16 /\ g = binary32) \/ (f = binary32 /\ g = binary64).
Definition ratio (f g : fmt) : Z := scale g - scale f.
Definition extra (f g : fmt) : Z := mbits g - mbits f.
Lemma wider_sizes f g : wider f g ->
  good_fmt f /\ good_fmt g /\ mbits f + 3 <= extra f g /\ mbits g + 3 <= ratio f g /\ beyond f * 2 ^ ratio f g * 4 <= beyond g /\ 1 <= mbits f.
Proof. unfold good_fmt. intros [[-> ->]|[-> ->]]; (split; [tauto|]); (split; [tauto|]); repeat split; vm_compute; discriminate. Qed.

Lemma middle_digits f g p : wider f g -> 0 <= p < inf_bits f -> exists M j,
  2 ^ (mbits f + 1) <= M < 2 ^ (mbits f + 2) /\ extra f g <= j /\
  (vmag f p + vmag f (p + 1)) * 2 ^ ratio f g = 2 * (M * 2 ^ j) /\ 2 * 2 ^ j <= (vmag f (p + 1) - vmag f p) * 2 ^ ratio f g.
Proof.
  intros W Hp. destruct (wider_sizes f g W) as (_ & _ & X & K & _ & M1). destruct (digits f p M1 ltac:(lia)) as (q & i & _ & Hi & Hq & Q & -> & ->).
  set (k := ratio f g) in *. assert (E1 : 2 ^ (mbits f + 1) = 2 * 2 ^ mbits f) by (rewrite Z.pow_add_r by lia; ring).
  assert (E2 : 2 ^ (mbits f + 2) = 4 * 2 ^ mbits f) by (rewrite Z.pow_add_r by lia; change (2 ^ 2) with 4; ring). pose proof (pow2_pos (mbits f) ltac:(lia)).
  assert (mbits g = mbits f + extra f g) by (unfold extra; lia).
  destruct (Z_lt_le_dec q (2 ^ mbits f)) as [L|L].
  - destruct Q as [Q| ->]; [lia|]. set (l := Z.log2 (2 * q + 1)).
    pose proof (Z.log2_spec (2 * q + 1) ltac:(lia)) as (A & B). fold l in A, B. pose proof (Z.log2_nonneg (2 * q + 1)) as L0. fold l in L0.
    assert (l < mbits f + 1) by (apply (Z.pow_lt_mono_r_iff 2); lia).
    exists ((2 * q + 1) * 2 ^ (mbits f + 1 - l)), (k - 1 - (mbits f + 1 - l)). rewrite Z.pow_succ_r in B by lia.
    assert (E : 2 ^ (mbits f + 1) = 2 ^ l * 2 ^ (mbits f + 1 - l)) by (rewrite <- Z.pow_add_r by lia; f_equal; lia). pose proof (pow2_pos (mbits f + 1 - l) ltac:(lia)).
    assert (Ek : 2 ^ k = 2 * 2 ^ (k - 1)) by (replace k with (1 + (k - 1)) at 1 by lia; rewrite Z.pow_add_r by lia; ring).
    assert (E4 : 2 ^ (k - 1) = 2 ^ (mbits f + 1 - l) * 2 ^ (k - 1 - (mbits f + 1 - l))) by (rewrite <- Z.pow_add_r by lia; f_equal; lia).
    pose proof (pow2_pos (k - 1 - (mbits f + 1 - l)) ltac:(lia)). change (2 ^ 0) with 1.
    split; [nia|]. split; [lia|]. split; [rewrite Ek, E4; ring|]. rewrite Ek, E4. nia.
  - exists (2 * q + 1), (k + i - 1). split; [nia|]. split; [lia|].
    assert (E : 2 * 2 ^ (k + i - 1) = 2 ^ i * 2 ^ k) by (rewrite <- Z.pow_add_r by lia; rewrite <- Z.pow_succ_r by lia; f_equal; lia).
    split; [|rewrite E; lia]. replace (2 * ((2 * q + 1) * 2 ^ (k + i - 1))) with ((2 * q + 1) * (2 * 2 ^ (k + i - 1))) by ring. rewrite E. ring.
Qed.

(** the middle, seen in the wide format: the number itself, the one above,
    the one below *)
Lemma wide_middle f g M j : wider f g -> 2 ^ (mbits f + 1) <= M < 2 ^ (mbits f + 2) -> extra f g <= j -> M * 2 ^ j < beyond f * 2 ^ ratio f g ->
  exists u, 0 < u < inf_bits g /\ vmag g u = M * 2 ^ j /\ vmag g (u + 1) = M * 2 ^ j + 2 ^ (j - extra f g + 1) /\ M * 2 ^ j - 2 ^ (j - extra f g + 1) <= vmag g (u - 1).
Proof.
  intros W HM Hj HB. destruct (wider_sizes f g W) as (Gf & Gg & X & K & BB & M1). set (x := extra f g) in *.
  assert (mbits g = mbits f + x) as Mg by (unfold x, extra; lia). destruct (good_sizes g Gg) as (Mg1 & _).
  set (i := j - x + 1). exists (M * 2 ^ (x - 1) + i * 2 ^ mbits g).
  assert (Ej : 2 ^ j = 2 ^ (x - 1) * 2 ^ i) by (rewrite <- Z.pow_add_r by lia; f_equal; lia).
  pose proof (pow2_pos (x - 1) ltac:(lia)) as P1. pose proof (pow2_pos i ltac:(lia)) as P2. pose proof (pow2_pos (mbits g) ltac:(lia)) as P3.
  assert (E1 : 2 ^ mbits g = 2 ^ (mbits f + 1) * 2 ^ (x - 1)) by (rewrite <- Z.pow_add_r by lia; f_equal; lia).
  assert (E2 : 2 ^ (mbits g + 1) = 2 ^ (mbits f + 2) * 2 ^ (x - 1)) by (rewrite <- Z.pow_add_r by lia; f_equal; lia).
  assert (E3 : 2 ^ (mbits g + 1) = 2 * 2 ^ mbits g) by (rewrite Z.pow_add_r by lia; ring).
  assert (V : vmag g (M * 2 ^ (x - 1) + i * 2 ^ mbits g) = M * 2 ^ j) by (rewrite vmag_scaled by (try lia; nia); rewrite Ej; ring).
  assert (0 <= M * 2 ^ (x - 1) + i * 2 ^ mbits g) by nia.
  assert (M * 2 ^ (x - 1) + i * 2 ^ mbits g < inf_bits g).
  { apply (mono_lt g); [exact Gg|lia|pose proof (inf_bits_pos g Gg); lia|]. rewrite V, vmag_inf by exact Gg. unfold beyond in *. pose proof (pow2_pos j ltac:(lia)). nia. }
  split; [nia|]. split; [exact V|]. split.
  - replace (M * 2 ^ (x - 1) + i * 2 ^ mbits g + 1) with (M * 2 ^ (x - 1) + 1 + i * 2 ^ mbits g) by ring. rewrite vmag_scaled by (try lia; nia). rewrite Ej. ring.
  - destruct (Z_lt_le_dec (2 ^ (mbits f + 1)) M) as [L|L].
    + replace (M * 2 ^ (x - 1) + i * 2 ^ mbits g - 1) with (M * 2 ^ (x - 1) - 1 + i * 2 ^ mbits g) by ring. rewrite vmag_scaled by (try lia; nia). rewrite Ej. nia.
    + assert (M = 2 ^ (mbits f + 1)) by lia. replace (M * 2 ^ (x - 1) + i * 2 ^ mbits g - 1) with (2 ^ (mbits g + 1) - 1 + (i - 1) * 2 ^ mbits g) by nia.
      rewrite vmag_scaled by lia. assert (2 ^ i = 2 * 2 ^ (i - 1)) as Ei by (rewrite <- Z.pow_succ_r by lia; f_equal; lia).
      rewrite Ej, Ei. nia.
Qed.
