(** The operations of FloatArith.v are the correctly rounded ones; a number
    rounded first to a wide format and then to a narrow one. *)
Require Import ZArith Bool Lia ZifyBool List.
Require Import Verif.FloatSpec Verif.RoundEven Verif.X86Cvt Verif.X86CvtSpec Verif.FloatProofs Verif.X86CvtProofs2 Verif.X86CvtProofs4.
Require Import Verif.X86FloatSpec Verif.X86FloatProofs2.
Require Import Verif.CInt Verif.FloatArith Verif.FloatArithSpec Verif.FloatArithProofs.
Local Open Scope Z_scope.

Lemma dec_zero f s : good_fmt f -> zero f s (sign_bit f s).
Proof. intros [->|[->| ->]]; destruct s; reflexivity. Qed.
Lemma dec_inf f s : good_fmt f -> infinite f s (sign_bit f s + inf_bits f).
Proof. apply decode_inf. Qed.
Lemma dec_nan f : good_fmt f -> is_nan f (nan_bits f).
Proof. apply decode_nan. Qed.
Lemma dec_mag f b s m : good_fmt f -> 0 <= b < 2 ^ width f -> decode f b = FFin s m -> exists p, b = sign_bit f s + p /\ 0 <= p < inf_bits f /\ m = vmag f p.
Proof.
  intros G Hb D. destruct (size_pattern f b m G Hb ltac:(rewrite D; reflexivity)) as (s' & p & Eb & Hp & Em & S). rewrite D in S. cbn in S. subst s'.
  exists p. split; [exact Eb|]. split; [|exact Em]. destruct (Z.eq_dec p (inf_bits f)) as [->|N]; [|lia]. rewrite Eb, decode_inf in D by assumption. discriminate.
Qed.
Lemma dec_nonneg f b s m : good_fmt f -> 0 <= b < 2 ^ width f -> decode f b = FFin s m -> 0 <= m.
Proof. intros G Hb D. destruct (dec_mag f b s m G Hb D) as (p & _ & Hp & ->). destruct (good_sizes f G) as (M & _). apply vmag_nonneg; lia. Qed.
Lemma one_pos f : good_fmt f -> 0 < one f.
Proof. intros G. rewrite <- scale_one. destruct (good_sizes f G) as (_ & _ & S & _). apply pow2_pos. lia. Qed.

Ltac specials := try (apply dec_nan; assumption); try (apply dec_inf; assumption); try (apply dec_zero; assumption).

Lemma fadd_is f a b : good_fmt f -> sum_is f (decode f a) (decode f b) (fadd f a b).
Proof.
  intros G. unfold sum_is, fadd. destruct (decode f a) as [|s|s m], (decode f b) as [|s'|s' m']; specials.
  - destruct (Bool.eqb s s'); specials.
  - cbv zeta. destruct (_ =? 0); specials. exact (encode_rounded f _ _ 0 G (Z.abs_nonneg _) (Z.le_refl 0)).
Qed.
Lemma fopp_minus f b : good_fmt f -> 0 <= b < 2 ^ width f -> decode f (fopp f b) = minus (decode f b) /\ 0 <= fopp f b < 2 ^ width f.
Proof.
  intros G Hb. destruct (split_pat f b G Hb) as (s & p & Hp & -> & Es). unfold fopp. rewrite Es.
  replace (if s then sign_bit f s + p - 2 ^ (ebits f + mbits f) else sign_bit f s + p + 2 ^ (ebits f + mbits f)) with (sign_bit f (negb s) + p) by (unfold sign_bit; destruct s; cbn [negb]; lia).
  split; [apply opposite_pat; assumption|]. rewrite width_split in * by assumption. unfold sign_bit in *. destruct s; cbn [negb]; lia.
Qed.
Lemma fsub_is f a b : good_fmt f -> 0 <= b < 2 ^ width f -> difference_is f (decode f a) (decode f b) (fsub f a b).
Proof. intros G Hb. unfold difference_is, fsub. rewrite <- (proj1 (fopp_minus f b G Hb)). apply fadd_is. exact G. Qed.
Lemma fmul_is f a b : good_fmt f -> 0 <= a < 2 ^ width f -> 0 <= b < 2 ^ width f -> product_is f (decode f a) (decode f b) (fmul f a b).
Proof.
  intros G Ha Hb. unfold product_is, fmul. destruct (decode f a) as [|s|s m] eqn:Da, (decode f b) as [|s'|s' m'] eqn:Db; specials.
  - destruct (m' =? 0); specials.
  - rewrite (xorb_comm s' s). destruct (m =? 0); specials.
  - destruct (good_sizes f G) as (_ & _ & S & _). pose proof (dec_nonneg f _ _ _ G Ha Da). pose proof (dec_nonneg f _ _ _ G Hb Db).
    rewrite <- scale_one. apply encode_rounded; [assumption|nia|lia].
Qed.
Lemma fdiv_is f a b : good_fmt f -> 0 <= a < 2 ^ width f -> 0 <= b < 2 ^ width f -> quotient_is f (decode f a) (decode f b) (fdiv f a b).
Proof.
  intros G Ha Hb. unfold quotient_is, fdiv. destruct (decode f a) as [|s|s m] eqn:Da, (decode f b) as [|s'|s' m'] eqn:Db; specials.
  pose proof (dec_nonneg f _ _ _ G Ha Da). pose proof (dec_nonneg f _ _ _ G Hb Db). pose proof (one_pos f G).
  destruct (Z.eqb_spec m' 0). { destruct (m =? 0); specials. }
  rewrite scale_one. assert (0 <= m * one f) by nia.
  eapply rounded_ext; [|exact G|apply encode_rounded; [exact G|apply sticky_quotient_nonneg; lia|lia]].
  intros k _. apply sticky_quotient_ratio; lia.
Qed.
Lemma fsqrt_is f a : good_fmt f -> 0 <= a < 2 ^ width f -> root_is f (decode f a) (fsqrt f a).
Proof.
  intros G Ha. unfold root_is, fsqrt. destruct (decode f a) as [|s|s m] eqn:Da; specials.
  - destruct s; specials.
  - destruct (m =? 0); specials. destruct s; specials. pose proof (dec_nonneg f _ _ _ G Ha Da). pose proof (one_pos f G). rewrite scale_one. assert (0 <= m * one f) by nia.
    eapply rounded_ext; [|exact G|apply encode_rounded; [exact G|apply sticky_root_nonneg|lia]].
    intros k Hk. apply sticky_root_ratio; lia.
Qed.
Lemma ffma_is f a b c : good_fmt f -> fused_is f (decode f a) (decode f b) (decode f c) (ffma f a b c).
Proof.
  intros G. unfold fused_is, sum_is, ffma. destruct (decode f a) as [|s|s m], (decode f b) as [|s'|s' m'], (decode f c) as [|s''|s'' m'']; cbv zeta; cbn [orb]; specials;
    rewrite <- ?(scale_one f); rewrite ?orb_false_r; rewrite ?(xorb_comm s' s); repeat match goal with |- context [if ?x =? 0 then _ else _] => destruct (x =? 0); specials end;
    try (replace (Bool.eqb s'' (xorb s s')) with (Bool.eqb (xorb s s') s'') by (destruct s, s', s''; reflexivity); destruct (Bool.eqb (xorb s s') s'') eqn:E; specials; apply eqb_prop in E; rewrite E; specials).
  destruct (good_sizes f G) as (_ & _ & S & _). apply encode_rounded; [assumption|lia|lia].
Qed.
