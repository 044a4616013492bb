(** The rearrangements made by the loads and stores of degrees 2, 3 and 4. *)
From Coq Require Import ZArith List Bool Lia ZifyBool.
From Verif Require Import CInt ScalarOps ScalarSpec X86Deg234 X86Arith X86ArithSpec X86LaneLemmas X86EmulProofs X86SelectProofs X86Mem X86MemSpec X86MemProofs
  Arm ArmSpec ArmProofs ArmProofs4 ArmPerm ArmPermSpec ArmPermProofs ArmMemSpec Ppc PpcSpec PpcProofs PpcMem PpcMemSpec PpcMemProofs.
Import ListNotations.
Open Scope Z_scope.

Definition small_width (w : Z) : Prop := w = 8 \/ w = 16 \/ w = 32.
Lemma small_width_ok w : small_width w -> width w.
Proof. intros [-> | [-> | ->]]; [left|right; left|right; right; left]; reflexivity. Qed.
Ltac wd := first [left; reflexivity | right; left; reflexivity | right; right; left; reflexivity | right; right; right; reflexivity].
Ltac rep :=
  lazymatch goal with
  | |- reps _ _ (vec_perm _ _ (permute_mask _ _)) _ => eapply reps_perm; [wd|reflexivity|rep|rep]
  | |- reps _ _ (vec_merge _ _ _ _) _ => eapply reps_merge; [wd|rep|rep]
  | |- reps _ _ (vec_of _ _) _ => apply reps_base; [wd|lia]
  end.
Ltac pick := unfold nthz; change (Z.to_nat 0) with 0%nat; change (Z.to_nat 1) with 1%nat; change (Z.to_nat 2) with 2%nat; change (Z.to_nat 3) with 3%nat; cbn [nth].
Ltac check g := match goal with |- forall i, 0 <= i < 128 / ?w -> lane ?w i ?r = flat ?w ?v _ =>
    eapply (reps_lane (flat w v) w r _ g); [wd|rep|vm_compute; reflexivity] end.

Definition rearranged (w : Z) (v rs : list Z) (deg : Z) (g : Z -> Z -> Z) : Prop :=
  Z.of_nat (length rs) = deg /\
  forall j, 0 <= j < deg -> in_reg 128 (nthz 0 rs j) /\ forall i, 0 <= i < 128 / w -> lane w i (nthz 0 rs j) = flat w v (g j i).

Lemma deinterleave3_ok w v : small_width w -> rearranged w v (deinterleave3 w (vec_of v 0) (vec_of v 1) (vec_of v 2)) 3 (fun j i => i * 3 + j).
Proof.
  intros W. split; [unfold deinterleave3; destruct (w =? 32); [reflexivity|]; destruct (w =? 16); reflexivity|].
  intros j Hj. assert (j = 0 \/ j = 1 \/ j = 2) as J by lia.
  destruct W as [-> | [-> | ->]]; unfold deinterleave3; cbn [Z.eqb Pos.eqb]; cbv zeta; destruct J as [-> | [-> | ->]]; pick; (split; [apply in_reg_perm|]).
  all: match goal with |- forall i, _ -> _ = flat _ _ (i * 3 + ?j) => check (fun i => i * 3 + j) end.
Qed.
Lemma interleave3_ok w v : small_width w -> rearranged w v (interleave3 w (vec_of v 0) (vec_of v 1) (vec_of v 2)) 3
  (fun q i => (q * (128 / w) + i) mod 3 * (128 / w) + (q * (128 / w) + i) / 3).
Proof.
  intros W. split; [unfold interleave3; destruct (w =? 32); [reflexivity|]; destruct (w =? 16); reflexivity|].
  intros q Hq. assert (q = 0 \/ q = 1 \/ q = 2) as J by lia.
  destruct W as [-> | [-> | ->]]; unfold interleave3; cbn [Z.eqb Pos.eqb]; cbv zeta; destruct J as [-> | [-> | ->]]; pick; (split; [apply in_reg_perm|]).
  all: match goal with |- forall i, 0 <= i < _ / ?w -> _ = flat _ _ ((?q * _ + i) mod 3 * _ + _) =>
    check (fun i => (q * (128 / w) + i) mod 3 * (128 / w) + (q * (128 / w) + i) / 3) end.
Qed.
Lemma deinterleave4_ok w v : small_width w -> rearranged w v (deinterleave4 w (vec_of v 0) (vec_of v 1) (vec_of v 2) (vec_of v 3)) 4 (fun j i => i * 4 + j).
Proof.
  intros W. split.
  { unfold deinterleave4, level4, merge4, list4. destruct (w =? 32); [reflexivity|]; destruct (w =? 16); reflexivity. }
  intros j Hj. assert (j = 0 \/ j = 1 \/ j = 2 \/ j = 3) as J by lia.
  destruct W as [-> | [-> | ->]]; unfold deinterleave4, vec_mergeh, vec_mergel; cbn [Z.eqb Pos.eqb]; cbv zeta; unfold merge4; cbn [level4 merge4 list4];
    destruct J as [-> | [-> | [-> | ->]]]; pick; unfold vec_mergeh, vec_mergel; (split; [apply in_reg_merge; wd|]).
  all: match goal with |- forall i, _ -> _ = flat _ _ (i * 4 + ?j) => check (fun i => i * 4 + j) end.
Qed.
Lemma interleave4_ok w v : small_width w -> rearranged w v (interleave4 w (vec_of v 0) (vec_of v 1) (vec_of v 2) (vec_of v 3)) 4
  (fun q i => (q * (128 / w) + i) mod 4 * (128 / w) + (q * (128 / w) + i) / 4).
Proof.
  intros W. split; [reflexivity|]. intros q Hq. assert (q = 0 \/ q = 1 \/ q = 2 \/ q = 3) as J by lia.
  destruct W as [-> | [-> | ->]]; unfold interleave4, vec_mergeh, vec_mergel; cbv zeta; destruct J as [-> | [-> | [-> | ->]]]; pick;
    (split; [apply in_reg_merge; wd|]).
  all: match goal with |- forall i, 0 <= i < _ / ?w -> _ = flat _ _ ((?q * _ + i) mod 4 * _ + _) =>
    check (fun i => (q * (128 / w) + i) mod 4 * (128 / w) + (q * (128 / w) + i) / 4) end.
Qed.

Lemma mw_small t : mem_type t -> mw t <> 64 -> small_width (mw t).
Proof. intros H N. destruct (width_mw t H) as [W | [W | [W | W]]]; rewrite W; unfold small_width; auto. congruence. Qed.

Lemma deinterleave_ok deg e t v : mem_type t -> mw t <> 64 -> deg234 deg ->
  rearranged (mw t) v (deinterleave deg e t v) deg (fun j i => i * deg + j).
Proof.
  intros H N D. pose proof (mw_small t H N) as W. unfold deinterleave.
  destruct D as [-> | [-> | ->]]; [|exact (deinterleave3_ok _ v W)|exact (deinterleave4_ok _ v W)].
  unfold p_unzip. cbn [Z.eqb Pos.eqb]. split; [reflexivity|]. intros j Hj.
  assert (E : nthz 0 [p_unzip_half false e t (vec_of v 0) (vec_of v 1); p_unzip_half true e t (vec_of v 0) (vec_of v 1)] j =
              p_unzip_half (negb (j =? 0)) e t (vec_of v 0) (vec_of v 1)) by (assert (j = 0 \/ j = 1) as [-> | ->] by lia; reflexivity).
  rewrite E. clear E. rewrite p_unzip_half_eq by exact H. rewrite a_unzip_half_eq. change (an Neon128) with 128.
  pose proof (width_okw _ (small_width_ok _ W)) as O. split; [apply in_reg_build, O|]. intros i Hi. unfold i_uzp. rewrite (lane_buildn 128 _ _ i O Hi).
  assert (N2 : 128 / mw t = 2 * (128 / mw t / 2)) by (destruct W as [-> | [-> | ->]]; reflexivity).
  replace (if negb (j =? 0) then 1 else 0) with j by (assert (j = 0 \/ j = 1) as [-> | ->] by lia; reflexivity).
  unfold flat. destruct (Z.ltb_spec i (128 / mw t / 2)); rewrite lane_modw by (destruct O; lia).
  - rewrite (Z.mod_small (i * 2 + j)), (Z.div_small (i * 2 + j)) by lia. f_equal. lia.
  - replace (i * 2 + j) with (2 * (i - 128 / mw t / 2) + j + 1 * (128 / mw t)) by lia. rewrite Z_mod_plus_full, Z_div_plus by lia.
    rewrite Z.mod_small, (Z.div_small (2 * (i - 128 / mw t / 2) + j)) by lia. reflexivity.
Qed.
Lemma interleave_ok deg t v : mem_type t -> mw t <> 64 -> deg234 deg ->
  rearranged (mw t) v (interleave deg t v) deg (fun q i => (q * (128 / mw t) + i) mod deg * (128 / mw t) + (q * (128 / mw t) + i) / deg).
Proof.
  intros H N D. pose proof (mw_small t H N) as W. unfold interleave. set (w := mw t) in *. clearbody w.
  destruct D as [-> | [-> | ->]]; [|exact (interleave3_ok _ v W)|exact (interleave4_ok _ v W)].
  cbn [Z.eqb Pos.eqb]. split; [reflexivity|]. intros q Hq. unfold vec_mergeh, vec_mergel.
  assert (q = 0 \/ q = 1) as J by lia. destruct W as [-> | [-> | ->]]; destruct J as [-> | ->]; pick; (split; [apply in_reg_merge; wd|]).
  all: match goal with |- forall i, 0 <= i < _ / ?w -> _ = flat _ _ ((?q * _ + i) mod 2 * _ + _) =>
    check (fun i => (q * (128 / w) + i) mod 2 * (128 / w) + (q * (128 / w) + i) / 2) end.
Qed.
