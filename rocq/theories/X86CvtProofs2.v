(** More proofs about the conversions: downcvt, values of floats, f16. *)
From Coq Require Import ZArith Lia List Bool.
From Verif Require Import CInt BitLemmas FloatSpec FloatProofs Fp16 ScalarOps ScalarSpec ScalarProofs X86Deg234 X86Arith X86ArithSpec X86LaneLemmas X86ArithProofs X86EmulProofs X86SelectProofs
  X86Mem X86MemSpec X86MemProofs X86MemProofs2 X86Cvt X86CvtSpec X86CvtProofs.
Import ListNotations.
Open Scope Z_scope.

(** ** Lanes of downcvt *)

Lemma dw_half e from to : double_width from to -> exists m, nb e = 2 * m /\ okw m (mw from) /\ m / mw from = nb e / (2 * mw from) /\
  m = mw from * (nb e / (2 * mw from)).
Proof.
  intros D. destruct (okw_dw e from to D) as ((P1 & _ & E1) & (P2 & _ & E2) & E). exists (mw from * (nb e / (2 * mw from))). split; [lia|].
  rewrite (Z.mul_comm (mw from)), Z.div_mul by lia. split; [|split; [reflexivity|ring]]. split; [lia|]. assert (0 <= nb e / (2 * mw from)) by (apply Z.div_pos; [destruct e; cbn; lia|lia]).
  split; [nia|]. rewrite Z.div_mul by lia. ring.
Qed.
Lemma downcvt_instr_lanes e from to a b : double_width to from ->
  lanes_to e (mw to) (fun i => Some (hw_cast from to (pick (nb e / mw from) (fun i => lane (mw from) i a) (fun i => lane (mw from) i b) i))) (downcvt_instr e from to a b).
Proof.
  intros D. destruct (dw_half e _ _ D) as (m & En & Om & Ed & Em). pose proof D as (H2 & H1 & W). rewrite <- W in Ed, Em.
  assert (K0 : 0 <= nb e / mw from) by (apply Z.div_pos; [destruct e; cbn; lia|destruct (ok8_mw from H1); lia]).
  pose proof (fun x => mm_cvt_reg (nb e / mw from) from to x m H2 K0 Em) as R. unfold downcvt_instr. split.
  - rewrite En at 1. rewrite En at 1. apply in_reg_setr; try apply R. destruct Om as (?&?&?); assumption.
  - intros i Hi. eexists. split; [reflexivity|]. rewrite En at 1. rewrite lane_setr by (try apply R; assumption || lia). rewrite Ed. unfold pick.
    assert (Ei : nb e / mw to = 2 * (nb e / mw from)) by (destruct (okw_dw e _ _ D) as (_ & _ & ->); rewrite W; reflexivity).
    destruct (Z.ltb_spec i (nb e / mw from)); apply mm_cvt_lane; try assumption; lia.
Qed.
Lemma downcvt_emulated_lanes e from to a b : double_width to from ->
  (forall i, 0 <= i < nb e / mw to -> c_cast from to (pick (nb e / mw from) (fun i => lane (mw from) i a) (fun i => lane (mw from) i b) i) <> None) ->
  exists r, downcvt_emulated e from to a b = Some r /\
    lanes_to e (mw to) (fun i => c_cast from to (pick (nb e / mw from) (fun i => lane (mw from) i a) (fun i => lane (mw from) i b) i)) r.
Proof. intros D. apply build_o_lanes. apply okw_mw. apply D. Qed.

(** movelh_ps of two conversions *)
Lemma lane_unpacklo64 a b i : 0 <= i < 4 -> lane 32 i (mm_unpacklo_epi64 a b) = if i <? 2 then lane 32 i a else lane 32 (i - 2) b.
Proof.
  intros Hi. unfold mm_unpacklo_epi64. replace i with (2 * (i / 2) + i mod 2) at 1 by (symmetry; apply Z.div_mod; lia).
  pose proof (Z.mod_pos_bound i 2 ltac:(lia)). assert (0 <= i / 2 < 2) by (split; [apply Z.div_pos; lia|apply Z.div_lt_upper_bound; lia]).
  rewrite lane_lane by lia. change (2 * 32) with 64. rewrite lane_build by lia. pose proof (Z.div_mod i 2 ltac:(lia)) as DM.
  destruct (Z.eqb_spec (i / 2) 0) as [E|E]; destruct (Z.ltb_spec i 2); try lia; rewrite (Z.mod_small (lane 64 _ _)) by (apply (lane_range 64); lia);
    change 64 with (2 * 32); rewrite <- lane_lane by lia; f_equal; lia.
Qed.
Lemma downcvt_f64_f32 e a b : exists r, x_downcvt e MF64 MF32 a b = Some r /\
  lanes_to e 32 (fun i => Some (single_of_double (pick (nb e / 64) (fun i => lane 64 i a) (fun i => lane 64 i b) i))) r.
Proof.
  assert (D : double_width MF32 MF64) by (repeat split). pose proof (fun e => downcvt_instr_lanes e MF64 MF32 a b D) as I.
  destruct e; cbn [x_downcvt]; try (eexists; split; [reflexivity|]; match goal with |- lanes_to ?e _ _ _ => exact (I e) end).
  all: eexists; split; [reflexivity|]; split; [apply (in_reg_build 128 64); repeat split; lia|]; cbn [nb]; change (128 / 32) with 4; change (128 / 64) with 2;
    intros i Hi; eexists; split; [reflexivity|]; rewrite lane_unpacklo64 by exact Hi; unfold pick; destruct (Z.ltb_spec i 2);
    apply (mm_cvt_lane 2 MF64 MF32); try exact Logic.I; lia.
Qed.

(** ** Float values *)

Definition good_fmt (f : fmt) : Prop := f = binary32 \/ f = binary64 \/ f = binary16.
Lemma scale_one f : 2 ^ scale f = one f.
Proof. reflexivity. Qed.
Lemma good_sizes f : good_fmt f -> 1 <= mbits f /\ 0 <= ebits f /\ 0 < scale f /\ 3 <= 2 ^ ebits f /\ scale f + 4 <= 2 ^ ebits f.
Proof. intros [->|[->| ->]]; cbn; repeat split; try lia; vm_compute; discriminate. Qed.

Lemma encode_pattern f s p : good_fmt f -> 0 <= p < inf_bits f -> decode f (sign_bit f s + p) = FFin s (vmag f p) /\ 0 <= sign_bit f s + p < 2 ^ width f.
Proof.
  intros G Hp. destruct (good_sizes f G) as (M & E & _ & E3 & _). pose proof (pow2_pos (mbits f) ltac:(lia)). pose proof (pow2_pos (ebits f) ltac:(lia)).
  assert (Hp2 : 0 <= p < 2 ^ (ebits f + mbits f)) by (unfold inf_bits in Hp; rewrite Z.pow_add_r by lia; nia).
  rewrite decode_pattern by lia.
  assert (Q : p / 2 ^ mbits f < 2 ^ ebits f - 1) by (apply Z.div_lt_upper_bound; unfold inf_bits in Hp; nia).
  destruct (Z.eqb_spec (p / 2 ^ mbits f) (2 ^ ebits f - 1)); [lia|]. split; [reflexivity|].
  unfold width. replace (1 + ebits f + mbits f) with (1 + (ebits f + mbits f)) by ring. rewrite (Z.pow_add_r 2 1) by lia. unfold sign_bit. destruct s; lia.
Qed.

(** a product with few significant digits is encoded exactly *)
Lemma encode_exact f s q j : good_fmt f -> 0 <= q < 2 ^ (mbits f + 1) -> 0 <= j <= 2 ^ ebits f - 3 ->
  decode f (encode f s (q * 2 ^ j) 0) = FFin s (q * 2 ^ j) /\ 0 <= encode f s (q * 2 ^ j) 0 < 2 ^ width f.
Proof.
  intros G Hq Hj. destruct (good_sizes f G) as (M & E & _ & E3 & _). pose proof (pow2_pos (mbits f) ltac:(lia)) as PM. pose proof (pow2_pos j ltac:(lia)) as Pj.
  assert (H2 : 2 ^ (mbits f + 1) = 2 * 2 ^ mbits f) by (rewrite Z.pow_add_r by lia; change (2 ^ 1) with 2; ring).
  assert (X : exists p, 0 <= p < inf_bits f /\ vmag f p = q * 2 ^ j).
  { destruct (Z.eq_dec q 0) as [->|Nq].
    - exists 0. split; [unfold inf_bits; nia|]. rewrite vmag_sub; lia.
    - pose proof (Z.log2_spec q ltac:(lia)) as L. pose proof (Z.log2_nonneg q) as L0.
      assert (Lm : Z.log2 q <= mbits f) by (assert (Z.log2 q < mbits f + 1) by (apply Z.log2_lt_pow2; lia); lia).
      set (d := Z.min j (mbits f - Z.log2 q)). assert (Hd : 0 <= d) by lia.
      assert (U : q * 2 ^ d < 2 ^ (mbits f + 1)).
      { assert (q * 2 ^ d < 2 ^ (Z.log2 q + 1) * 2 ^ d) by (pose proof (pow2_pos d Hd); unfold Z.succ in L; nia). rewrite <- Z.pow_add_r in H by lia.
        assert (2 ^ (Z.log2 q + 1 + d) <= 2 ^ (mbits f + 1)) by (apply Z.pow_le_mono_r; lia). lia. }
      exists (q * 2 ^ d + (j - d) * 2 ^ mbits f). split.
      + unfold inf_bits. pose proof (pow2_pos d Hd). split; [nia|]. assert ((j - d) * 2 ^ mbits f <= (2 ^ ebits f - 3) * 2 ^ mbits f) by (apply Z.mul_le_mono_nonneg_r; lia). lia.
      + rewrite vmag_scaled; [|lia|lia| |lia].
        * rewrite <- Z.mul_assoc, <- Z.pow_add_r by lia. f_equal. f_equal. lia.
        * destruct (Z.eq_dec d j) as [Ed|Nd]; [right; split; [lia|pose proof (pow2_pos d Hd); nia]|left].
          assert (2 ^ Z.log2 q * 2 ^ d <= q * 2 ^ d) by (apply Z.mul_le_mono_nonneg_r; [pose proof (pow2_pos d Hd)|]; lia). rewrite <- Z.pow_add_r in H by lia.
          replace (Z.log2 q + d) with (mbits f) in H by lia. exact H. }
  destruct X as (p & Hp & V). unfold encode. pose proof (round_mag_exact f M p 0 ltac:(lia) ltac:(lia)) as R. rewrite V in R. change (2 ^ 0) with 1 in R. rewrite Z.mul_1_r in R. rewrite R.
  rewrite Z.min_l by lia. rewrite <- V. apply encode_pattern; assumption.
Qed.

(** encoding never leaves the format *)
Lemma encode_range f s x d : good_fmt f -> 0 <= x -> 0 <= d -> 0 <= encode f s x d < 2 ^ width f.
Proof.
  intros G Hx Hd. destruct (good_sizes f G) as (M & E & _ & E3 & _). unfold encode.
  destruct (round_mag_scale f M x d Hd Hx) as (_ & _ & _ & R0).
  pose proof (pow2_pos (mbits f) ltac:(lia)) as PM. unfold width. replace (1 + ebits f + mbits f) with (1 + (ebits f + mbits f)) by ring. rewrite (Z.pow_add_r 2 1) by lia.
  assert (inf_bits f < 2 ^ (ebits f + mbits f)) by (unfold inf_bits; rewrite Z.pow_add_r by lia; nia).
  assert (0 <= inf_bits f) by (unfold inf_bits; nia). unfold sign_bit. destruct s; lia.
Qed.

Lemma nearest_float_eq f z : float_of_int f z = nearest_float f z.
Proof. reflexivity. Qed.
Lemma nearest_float_range f z : good_fmt f -> 0 <= nearest_float f z < 2 ^ width f.
Proof. intros G. apply encode_range; [exact G| |lia]. pose proof (pow2_pos (scale f) ltac:(destruct (good_sizes f G); lia)). rewrite scale_one in H. nia. Qed.

Lemma nearest_float_exact f z : good_fmt f -> Z.abs z <= 2 ^ (mbits f + 1) -> decode f (nearest_float f z) = FFin (z <? 0) (Z.abs z * one f).
Proof.
  intros G Hz. destruct (good_sizes f G) as (M & E & S & E3 & S64). unfold nearest_float. rewrite <- scale_one.
  destruct (Z.eq_dec (Z.abs z) (2 ^ (mbits f + 1))) as [Ez|Nz].
  - rewrite Ez. replace (2 ^ (mbits f + 1) * 2 ^ scale f) with (2 ^ mbits f * 2 ^ (scale f + 1)) by (rewrite !Z.pow_add_r by lia; ring).
    apply encode_exact; [exact G| |lia]. rewrite Z.pow_add_r by lia. pose proof (pow2_pos (mbits f) ltac:(lia)). lia.
  - apply encode_exact; [exact G|lia|lia].
Qed.

(** no finite float is closer to the integer *)
Lemma nearest_float_nearest f z : good_fmt f -> f <> binary16 -> Z.abs z < 2 ^ 64 ->
  exists m, decode f (nearest_float f z) = FFin (z <? 0) m /\
    forall b s' m', 0 <= b < 2 ^ width f -> decode f b = FFin s' m' -> Z.abs (m - Z.abs z * one f) <= Z.abs (m' - Z.abs z * one f).
Proof.
  intros G N16 Hz. destruct (good_sizes f G) as (M & E & S & E3 & S64). pose proof (pow2_pos (scale f) ltac:(lia)) as PS. rewrite scale_one in PS.
  set (x := Z.abs z * one f). assert (Hx : 0 <= x) by (unfold x; nia).
  destruct (round_mag_scale f M x 0 ltac:(lia) Hx) as (_ & _ & _ & R0).
  assert (Rinf : round_mag f x 0 < inf_bits f).
  { (* below 2^64 *)
    assert (Hlt : x <= vmag f (inf_bits f - 2 ^ mbits f)).
    { pose proof (pow2_pos (mbits f) ltac:(lia)) as PM. unfold inf_bits. replace ((2 ^ ebits f - 1) * 2 ^ mbits f - 2 ^ mbits f) with (2 ^ mbits f + (2 ^ ebits f - 3) * 2 ^ mbits f) by ring.
      rewrite vmag_scaled; [|lia|lia|left; lia|rewrite Z.pow_add_r by lia; lia]. unfold x. rewrite <- scale_one, <- Z.pow_add_r by lia.
      assert (2 ^ 64 * 2 ^ scale f <= 2 ^ (mbits f + (2 ^ ebits f - 3))) by (rewrite <- Z.pow_add_r by lia; apply Z.pow_le_mono_r; destruct G as [->|[->| ->]]; (congruence || (cbn; lia))). nia. }
    pose proof (round_mag_mono f M x (vmag f (inf_bits f - 2 ^ mbits f)) 0 ltac:(lia) Hx Hlt) as MO.
    pose proof (pow2_pos (mbits f) ltac:(lia)) as PM. assert (P0 : 0 <= inf_bits f - 2 ^ mbits f) by (unfold inf_bits; nia).
    pose proof (round_mag_exact f M (inf_bits f - 2 ^ mbits f) 0 ltac:(lia) P0) as RE. change (2 ^ 0) with 1 in RE. rewrite Z.mul_1_r in RE. lia. }
  unfold nearest_float, encode. fold x. rewrite Z.min_l by lia. destruct (encode_pattern f (z <? 0) (round_mag f x 0) G ltac:(lia)) as [-> _].
  eexists. split; [reflexivity|]. intros b s' m' Hb D. destruct (decode_split f b ltac:(lia) E Hb) as (s & p & Hp & Eb & _). rewrite Eb, decode_pattern in D by lia.
  destruct (_ =? _); [destruct (_ =? _); discriminate|]. injection D as _ <-. pose proof (round_mag_nearest f M x 0 p ltac:(lia) Hx ltac:(lia)) as N. change (2 ^ 0) with 1 in N. rewrite !Z.mul_1_r in N. exact N.
Qed.

(** ** Float to integer *)

Lemma rne_rounds f b s m : good_fmt f -> decode f b = FFin s m -> rounds f b (sval s (rne m (scale f))).
Proof.
  intros G D. destruct (good_sizes f G) as (M & E & S & _). exists s, m. split; [exact D|]. rewrite <- scale_one.
  pose proof (rne_bounds m (scale f) ltac:(lia)) as B. pose proof (rne_tie_even m (scale f) S) as T.
  assert (A : Z.abs (sval s (rne m (scale f)) * 2 ^ scale f - sval s m) = Z.abs (rne m (scale f) * 2 ^ scale f - m)) by (unfold sval; destruct s; lia).
  rewrite A. split; [exact B|]. intros Q. specialize (T Q). unfold sval. destruct s; [rewrite Z.even_opp|]; exact T.
Qed.
Lemma rounds_unique f b z z' : good_fmt f -> rounds f b z -> rounds f b z' -> z = z'.
Proof.
  intros G (s & m & D & B & T) (s' & m' & D' & B' & T'). rewrite D in D'. injection D' as <- <-.
  destruct (good_sizes f G) as (_ & _ & S & _). pose proof (pow2_pos (scale f) ltac:(lia)) as P. rewrite scale_one in P. set (o := one f) in *. set (v := sval s m) in *.
  destruct (Z.eq_dec z z') as [|N]; [assumption|]. exfalso.
  assert (A : o <= Z.abs (z * o - z' * o)) by (replace (z * o - z' * o) with ((z - z') * o) by ring; rewrite Z.abs_mul; nia).
  assert (Z.even z = true) as Ev by (apply T; lia). assert (Z.even z' = true) as Ev' by (apply T'; lia).
  assert (D1 : z = z' + 1 \/ z' = z + 1) by (assert (Z.abs (z * o - z' * o) <= o) by lia; replace (z * o - z' * o) with ((z - z') * o) in H by ring; rewrite Z.abs_mul in H; nia).
  destruct D1 as [-> | ->]; rewrite Z.even_add in *; [rewrite Ev' in Ev|rewrite Ev in Ev']; discriminate.
Qed.
Lemma in_range_dec t z : in_ty t z -> (ty_min t <=? z) && (z <=? ty_max t) = true.
Proof. intros [? ?]. apply andb_true_iff. split; apply Z.leb_le; assumption. Qed.
Lemma hw_rounds t f b z : good_fmt f -> rounds f b z -> in_ty t z -> hw_int_of_float t f b = z.
Proof.
  intros G R I. pose proof R as (s & m & D & _). unfold hw_int_of_float. rewrite D. rewrite (rounds_unique f b _ z G (rne_rounds f b s m G D) R).
  rewrite in_range_dec by exact I. reflexivity.
Qed.
Lemma c_truncates t f b z : truncates f b z -> in_ty t z -> int_of_float t f b = Some z.
Proof. intros (s & m & D & ->) I. unfold int_of_float. rewrite D, scale_one, in_range_dec by exact I. reflexivity. Qed.

Lemma format_mfmt t : format t = mfmt t. Proof. reflexivity. Qed.
Lemma good_format t : good_fmt (format t).
Proof. destruct t; [left|left|right; left]; reflexivity. Qed.

(** cvt between a float type and an integer type of the same width, on one lane *)
Definition float_int (f : mty) (t : ity) : Prop := is_float f = true /\ In t int_types /\ bits t = mw f.
Lemma float_int_same f t : float_int f t -> same_width f (MI t) /\ same_width (MI t) f.
Proof. intros (F & H & W). assert (mem_type f) by (destruct f; [discriminate|exact I|exact I]). repeat split; assumption || (symmetry; exact W). Qed.
Lemma cvt1_to_int e f t x z : float_int f t -> to_int e t (format f) x z -> in_ty t z -> cvt1 e f (MI t) x = Some z.
Proof.
  intros (F & H & W) T I. unfold to_int, cvt_rounds in T. destruct f as [|  |]; [discriminate| |]; cbn [mw uty bits] in W; rewrite W in T.
  - change (bits u32 =? 64) with false in T. cbv iota in T. unfold cvt1, hw_cast, c_cast. destruct (is_signed t); cbn [orb] in T; [f_equal; apply hw_rounds; try assumption; left; reflexivity|].
    destruct (is512 e); [f_equal; apply hw_rounds; try assumption; left; reflexivity|]. apply c_truncates; assumption.
  - change (bits u64 =? 64) with true in T. cbv iota in T. unfold cvt1, hw_cast, c_cast. destruct e; cbn [skylake] in *; try (apply c_truncates; assumption).
    f_equal; apply hw_rounds; try assumption; right; left; reflexivity.
Qed.
Lemma cvt1_of_int e f t x : float_int f t -> cvt1 e (MI t) f x = Some (nearest_float (format f) (cast t x)).
Proof.
  intros (F & H & W). destruct f as [|  |]; [discriminate| |]; unfold cvt1, hw_cast, c_cast.
  - destruct (is_signed t); [reflexivity|]. destruct (is512 e); reflexivity.
  - destruct (skylake e); reflexivity.
Qed.
Lemma width_mw f : is_float f = true -> width (format f) = mw f.
Proof. destruct f; try discriminate; reflexivity. Qed.
Lemma nearest_float_mod f z : is_float f = true -> nearest_float (format f) z mod 2 ^ mw f = nearest_float (format f) z.
Proof. intros F. rewrite <- width_mw by exact F. apply Z.mod_small, nearest_float_range, good_format. Qed.

Lemma cvt_of_int_ok e f t a : float_int f t -> in_reg (nb e) a ->
  exists r, x_cvt e (MI t) f a = Some r /\ in_reg (nb e) r /\ forall i, 0 <= i < nb e / mw f -> lane (mw f) i r = nearest_float (format f) (cast t (lane (bits t) i a)).
Proof.
  intros FI Ha. destruct (float_int_same f t FI) as [_ S]. destruct (x_cvt_lanes e (MI t) f a S Ha) as (r & E & R & L).
  { intros i Hi. rewrite cvt1_of_int by exact FI. discriminate. }
  exists r. split; [exact E|]. split; [exact R|]. intros i Hi. destruct (L i Hi) as (y & Ey & ->). rewrite cvt1_of_int in Ey by exact FI. injection Ey as <-.
  apply nearest_float_mod. apply FI.
Qed.
Lemma cvt_to_int_ok e f t a z : float_int f t -> in_reg (nb e) a ->
  (forall i, 0 <= i < nb e / bits t -> to_int e t (format f) (lane (mw f) i a) (z i) /\ in_ty t (z i)) ->
  exists r, x_cvt e f (MI t) a = Some r /\ in_reg (nb e) r /\ forall i, 0 <= i < nb e / bits t -> lane (bits t) i r = z i mod 2 ^ bits t.
Proof.
  intros FI Ha Z. destruct (float_int_same f t FI) as [S _]. destruct (x_cvt_lanes e f (MI t) a S Ha) as (r & E & R & L).
  { intros i Hi. destruct (Z i Hi) as [Z1 Z2]. rewrite (cvt1_to_int e f t _ _ FI Z1 Z2). discriminate. }
  exists r. split; [exact E|]. split; [exact R|]. intros i Hi. destruct (L i Hi) as (y & Ey & Ly). destruct (Z i Hi) as [Z1 Z2]. rewrite (cvt1_to_int e f t _ _ FI Z1 Z2) in Ey. injection Ey as <-.
  exact Ly.
Qed.

(** ** upcvt with floats *)
Lemma resized_int t w : In t int_types -> In w [8; 16; 32; 64] -> In (resized t w) int_types /\ bits (resized t w) = w.
Proof. intros H W. split; [|reflexivity]. ty_cases H; cbn in W; decompose [or] W; subst; try tauto; cbn; tauto. Qed.
Lemma cast_wider t u x : In t int_types -> In u int_types -> is_signed t = is_signed u -> bits t <= bits u -> cast u (cast t x mod 2 ^ bits u) = cast t x.
Proof.
  intros H H2 S B. rewrite cast_mod_pow by exact H2. apply cast_id; [exact H2|]. pose proof (cast_in_ty t x H) as [L U]. revert L U. generalize (cast t x).
  ty_cases H; ty_cases H2; cbn in S, B; try discriminate; try lia; unfold in_ty; cbn; intros; lia.
Qed.
