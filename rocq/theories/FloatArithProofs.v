(** Rounding to nearest even, against the specification of FloatArithSpec.v. *)
Require Import ZArith Bool Lia ZifyBool List.
Require Import Verif.FloatSpec Verif.RoundEven Verif.X86Cvt Verif.X86CvtSpec Verif.FloatProofs Verif.X86CvtProofs2 Verif.X86CvtProofs4.
Require Import Verif.CInt Verif.FloatArith Verif.FloatArithSpec.
Local Open Scope Z_scope.

Lemma inf_bits_pos f : good_fmt f -> 0 < inf_bits f < 2 ^ (ebits f + mbits f).
Proof. intros [->|[->| ->]]; vm_compute; auto. Qed.
Lemma width_split f : good_fmt f -> 2 ^ width f = 2 * 2 ^ (ebits f + mbits f).
Proof. intros [->|[->| ->]]; reflexivity. Qed.
Lemma even_pattern f s p : good_fmt f -> Z.even (sign_bit f s + p) = Z.even p.
Proof. intros G. rewrite Z.even_add. replace (Z.even (sign_bit f s)) with true by (destruct G as [->|[->| ->]]; destruct s; reflexivity). destruct (Z.even p); reflexivity. Qed.
Lemma vmag_inf f : good_fmt f -> vmag f (inf_bits f) = beyond f.
Proof. intros [->|[->| ->]]; vm_compute; reflexivity. Qed.

Lemma pattern_size f s p : good_fmt f -> 0 <= p <= inf_bits f ->
  size f (decode f (sign_bit f s + p)) = Some (vmag f p) /\ signed (decode f (sign_bit f s + p)) s /\ 0 <= sign_bit f s + p < 2 ^ width f.
Proof.
  intros G Hp. destruct (Z.eq_dec p (inf_bits f)) as [->|N].
  - rewrite decode_inf by assumption. cbn. rewrite vmag_inf by assumption. split; [reflexivity|]. split; [reflexivity|].
    pose proof (inf_bits_pos f G). rewrite width_split by assumption. unfold sign_bit. destruct s; lia.
  - destruct (encode_pattern f s p G ltac:(lia)) as (E & R). rewrite E. cbn. auto.
Qed.
Lemma size_pattern f b m : good_fmt f -> 0 <= b < 2 ^ width f -> size f (decode f b) = Some m ->
  exists s p, b = sign_bit f s + p /\ 0 <= p <= inf_bits f /\ m = vmag f p /\ signed (decode f b) s.
Proof.
  intros G Hb S. destruct (good_sizes f G) as (M & E & _). destruct (decode_split f b ltac:(lia) E Hb) as (s & p & Hp & Eb & Es & _).
  destruct (Z_lt_le_dec (inf_bits f) p) as [L|L].
  - exfalso. subst b. rewrite decode_pattern in S by lia. pose proof (pow2_pos (mbits f) ltac:(lia)) as PM. unfold inf_bits in L.
    rewrite Z.pow_add_r in Hp by lia.
    assert (p / 2 ^ mbits f = 2 ^ ebits f - 1) as D by (apply Z.le_antisymm; [apply Z.lt_succ_r, Z.div_lt_upper_bound; nia | apply Z.div_le_lower_bound; lia]).
    rewrite D, Z.eqb_refl in S. pose proof (Z.div_mod p (2 ^ mbits f) ltac:(lia)). destruct (Z.eqb_spec (p mod 2 ^ mbits f) 0); [nia|discriminate].
  - exists s, p. destruct (pattern_size f s p G ltac:(lia)) as (S' & G' & _). subst b. rewrite S in S'. injection S' as ->. split; [reflexivity|]. split; [lia|]. split; [reflexivity|exact G'].
Qed.

(** ** correct rounding in terms of magnitude patterns *)
Definition rounds_at (f : fmt) (c : Z -> comparison) (p : Z) : Prop :=
  0 <= p <= inf_bits f /\
  forall q, 0 <= q <= inf_bits f ->
    (p < q -> c (vmag f p + vmag f q) = Lt \/ (c (vmag f p + vmag f q) = Eq /\ Z.even p = true)) /\
    (q < p -> c (vmag f p + vmag f q) = Gt \/ (c (vmag f p + vmag f q) = Eq /\ Z.even p = true)).

Lemma mono_lt f p q : good_fmt f -> 0 <= p -> 0 <= q -> (vmag f p < vmag f q <-> p < q).
Proof.
  intros G Hp Hq. destruct (good_sizes f G) as (M & _). split; intros H.
  - destruct (Z_lt_le_dec p q) as [|L]; [assumption|]. pose proof (vmag_mono f M q p Hq L). lia.
  - apply vmag_strict; assumption.
Qed.

Lemma rounded_iff f s c r : good_fmt f -> correctly_rounded f s c r <-> exists p, r = sign_bit f s + p /\ rounds_at f c p.
Proof.
  intros G. split.
  - intros (R & S & m & Sz & H). destruct (size_pattern f r m G R Sz) as (s' & p & Er & Hp & Em & S').
    assert (s' = s) as -> by (destruct (decode f r); cbn in *; [contradiction|congruence|congruence]).
    exists p. split; [exact Er|]. split; [exact Hp|]. intros q Hq. destruct (pattern_size f false q G Hq) as (Sq & _ & Rq).
    destruct (H _ _ Rq Sq) as (H1 & H2). rewrite Er, even_pattern in H1, H2 by assumption. subst m.
    pose proof (mono_lt f p q G ltac:(lia) ltac:(lia)). pose proof (mono_lt f q p G ltac:(lia) ltac:(lia)). tauto.
  - intros (p & -> & Hp & H). destruct (pattern_size f s p G Hp) as (Sz & S & R). split; [exact R|]. split; [exact S|].
    exists (vmag f p). split; [exact Sz|]. intros b m' Rb Sb. destruct (size_pattern f b m' G Rb Sb) as (s' & q & _ & Hq & -> & _).
    rewrite even_pattern by assumption. destruct (H q Hq) as (H1 & H2).
    pose proof (mono_lt f p q G ltac:(lia) ltac:(lia)). pose proof (mono_lt f q p G ltac:(lia) ltac:(lia)). tauto.
Qed.

Lemma rounded_ext f s c c' r : (forall n, 0 <= n -> c n = c' n) -> good_fmt f -> correctly_rounded f s c r -> correctly_rounded f s c' r.
Proof.
  intros E G H. apply (rounded_iff f s) in H; [|exact G]. apply rounded_iff; [exact G|]. destruct H as (p & Er & Hp & H). exists p. split; [exact Er|]. split; [exact Hp|].
  intros q Hq. destruct (good_sizes f G) as (M & _). pose proof (vmag_nonneg f p ltac:(lia) ltac:(lia)). pose proof (vmag_nonneg f q ltac:(lia) ltac:(lia)).
  rewrite <- E by lia. apply H. exact Hq.
Qed.

(** ** the encoding of x / 2^d is correctly rounded *)
Lemma encode_rounded f s x d : good_fmt f -> 0 <= x -> 0 <= d -> correctly_rounded f s (twice_ratio x (2 ^ d)) (encode f s x d).
Proof.
  intros G Hx Hd. destruct (good_sizes f G) as (M & E & _). apply rounded_iff; [exact G|].
  destruct (round_mag_scale f M x d Hd Hx) as (_ & _ & _ & R0). pose proof (inf_bits_pos f G) as I. pose proof (pow2_pos d Hd) as PD.
  unfold encode. set (P := round_mag f x d) in *. exists (Z.min P (inf_bits f)). split; [reflexivity|]. split; [lia|].
  intros q Hq. unfold twice_ratio. rewrite !Z.compare_lt_iff, !Z.compare_eq_iff, !Z.compare_gt_iff.
  pose proof (round_mag_nearest f M x d q Hd Hx ltac:(lia)) as N. pose proof (round_mag_tie f M x d q Hd Hx ltac:(lia)) as T.
  fold P in N, T. destruct (Z_le_gt_dec P (inf_bits f)) as [L|L].
  - rewrite Z.min_l by lia. split; intros O.
    + apply (vmag_strict f M) in O; [|lia]. set (a := vmag f P) in *. set (b := vmag f q) in *.
      assert (a * 2 ^ d < b * 2 ^ d) by nia. destruct (Z_lt_le_dec (2 * x) ((a + b) * 2 ^ d)); [left; assumption|right].
      assert (2 * x = (a + b) * 2 ^ d) by lia. split; [assumption|]. apply T; lia.
    + apply (vmag_strict f M) in O; [|lia]. set (a := vmag f P) in *. set (b := vmag f q) in *.
      assert (b * 2 ^ d < a * 2 ^ d) by nia. destruct (Z_lt_le_dec ((a + b) * 2 ^ d) (2 * x)); [left; assumption|right].
      assert (2 * x = (a + b) * 2 ^ d) by lia. split; [assumption|]. apply T; lia.
  - rewrite Z.min_r by lia. split; intros O; [lia|left].
    pose proof (round_mag_nearest f M x d (inf_bits f) Hd Hx ltac:(lia)) as N'. fold P in N'.
    pose proof (vmag_strict f M (inf_bits f) P ltac:(lia) ltac:(lia)) as O1. apply (vmag_strict f M) in O; [|lia].
    set (a := vmag f P) in *. set (b := vmag f q) in *. set (i := vmag f (inf_bits f)) in *.
    assert (i * 2 ^ d < a * 2 ^ d) by nia. assert (b * 2 ^ d < i * 2 ^ d) by nia. lia.
Qed.

(** ** cutting digits does not change a comparison with an integer *)
Lemma sticky_quotient_ratio n d k : 0 <= n -> 0 < d -> twice_ratio (sticky_quotient n d) (2 ^ 2) k = twice_ratio n d k.
Proof.
  intros Hn Hd. unfold twice_ratio, sticky_quotient. change (2 ^ 2) with 4.
  pose proof (Z.div_mod (2 * n) d ltac:(lia)) as D. pose proof (Z.mod_pos_bound (2 * n) d Hd) as B.
  set (q := 2 * n / d) in *. set (r := (2 * n) mod d) in *.
  destruct (Z.eqb_spec r 0) as [E|E].
  - destruct (Z.compare_spec (2 * n) (k * d)) as [H|H|H]; [apply Z.compare_eq_iff|apply Z.compare_lt_iff|apply Z.compare_gt_iff]; nia.
  - destruct (Z.compare_spec (2 * n) (k * d)) as [H|H|H]; [apply Z.compare_eq_iff|apply Z.compare_lt_iff|apply Z.compare_gt_iff]; try nia.
    all: exfalso + idtac. all: try nia.
Qed.
Lemma sticky_quotient_nonneg n d : 0 <= n -> 0 < d -> 0 <= sticky_quotient n d.
Proof. intros. unfold sticky_quotient. pose proof (Z.div_pos (2 * n) d ltac:(lia) ltac:(lia)). destruct (_ =? _); lia. Qed.
Lemma sticky_root_ratio n k : 0 <= n -> 0 <= k -> twice_ratio (sticky_root n) (2 ^ 2) k = twice_root n k.
Proof.
  intros Hn Hk. unfold twice_ratio, twice_root, sticky_root. change (2 ^ 2) with 4.
  pose proof (Z.sqrt_spec (4 * n) ltac:(lia)) as (A & B). pose proof (Z.sqrt_nonneg (4 * n)) as P. set (q := Z.sqrt (4 * n)) in *.
  destruct (Z.eqb_spec (q * q) (4 * n)) as [E|E];
    destruct (Z.compare_spec (4 * n) (k * k)) as [H|H|H]; [apply Z.compare_eq_iff|apply Z.compare_lt_iff|apply Z.compare_gt_iff|apply Z.compare_eq_iff|apply Z.compare_lt_iff|apply Z.compare_gt_iff]; try nia.
Qed.
Lemma sticky_root_nonneg n : 0 <= sticky_root n.
Proof. unfold sticky_root. pose proof (Z.sqrt_nonneg (4 * n)). destruct (_ =? _); lia. Qed.
