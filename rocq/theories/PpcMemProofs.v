(** The permutations of the POWER back ends, and the rearrangements made by the loads and stores of degrees 2 to 4. *)
From Coq Require Import ZArith List Bool Lia ZifyBool.
From Verif Require Import CInt ScalarOps ScalarSpec X86Deg234 X86Arith X86ArithSpec X86LaneLemmas X86EmulProofs X86SelectProofs X86Mem X86MemSpec X86MemProofs
  Arm ArmSpec ArmProofs ArmProofs4 ArmPerm ArmPermSpec ArmPermProofs ArmMemSpec Ppc PpcSpec PpcProofs PpcMem PpcMemSpec.
Import ListNotations.
Open Scope Z_scope.

Definition width (w : Z) : Prop := w = 8 \/ w = 16 \/ w = 32 \/ w = 64.
Lemma width_mw t : mem_type t -> width (mw t). Proof. exact (mw_cases t). Qed.
Lemma width_okw w : width w -> okw 128 w.
Proof. intros [-> | [-> | [-> | ->]]]; (split; [lia|]); (split; [lia|reflexivity]). Qed.
Lemma width_ok8 w : width w -> ok8 w.
Proof. intros [-> | [-> | [-> | ->]]]; split; reflexivity. Qed.
Lemma width_size w : width w -> 0 < w / 8 /\ w / 8 * (128 / w) = 16 /\ 0 < 128 / w.
Proof. intros [-> | [-> | [-> | ->]]]; (split; [reflexivity|]); split; reflexivity. Qed.

(** ** Permutations of bytes that move whole elements *)

Definition block (w k : Z) : list Z := map (fun j => w / 8 * k + Z.of_nat j) (seq 0 (Z.to_nat (w / 8))).
Lemma nth_block w k j : 0 <= j < w / 8 -> nth (Z.to_nat j) (block w k) 0 = w / 8 * k + j.
Proof.
  intros H. unfold block. rewrite (nth_indep _ _ (w / 8 * k + Z.of_nat 0)) by (rewrite map_length, seq_length; lia).
  rewrite (map_nth (fun j => w / 8 * k + Z.of_nat j)). rewrite seq_nth by lia. lia.
Qed.
Lemma nth_flat_block w (g : Z -> Z) : 0 < w / 8 -> forall ks i j, 0 <= i < Z.of_nat (length ks) -> 0 <= j < w / 8 ->
  nth (Z.to_nat (w / 8 * i + j)) (flat_map (fun k => block w (g k)) ks) 0 = w / 8 * g (nth (Z.to_nat i) ks 0) + j.
Proof.
  intros Hw. assert (Lb : forall k, length (block w k) = Z.to_nat (w / 8)) by (intro k; unfold block; rewrite map_length, seq_length; reflexivity).
  induction ks as [|k ks IH]; intros i j Hi Hj; cbn [length] in Hi; [lia|]. cbn [flat_map].
  destruct (Z.eq_dec i 0) as [-> | N].
  - rewrite app_nth1 by (rewrite Lb; nia). rewrite Z.mul_0_r, Z.add_0_l. change (Z.to_nat 0) with 0%nat. cbn [nth]. apply nth_block, Hj.
  - rewrite app_nth2 by (rewrite Lb; nia). rewrite Lb. replace (Z.to_nat (w / 8 * i + j) - Z.to_nat (w / 8))%nat with (Z.to_nat (w / 8 * (i - 1) + j)) by nia.
    rewrite IH by lia. f_equal. f_equal. f_equal. replace (Z.to_nat i) with (S (Z.to_nat (i - 1))) by lia. reflexivity.
Qed.
Lemma permute_mask_flat w ks : permute_mask w ks = flat_map (fun k => block w k) ks.
Proof. reflexivity. Qed.

Lemma lane_bytes w x y : ok8 w -> 0 <= x < 2 ^ w -> 0 <= y < 2 ^ w ->
  (forall j, 0 <= j < w / 8 -> (x / 2 ^ (8 * j)) mod 256 = (y / 2 ^ (8 * j)) mod 256) -> x = y.
Proof.
  intros [H0 H8] Hx Hy E. apply (bytes_eq (Z.to_nat (w / 8))); rewrite Z2Nat.id by lia; rewrite <- ?H8; assumption.
Qed.
Lemma lane8_byte i v : lane 8 i v = (v / 2 ^ (8 * i)) mod 256. Proof. reflexivity. Qed.

(** A mask made of whole elements *)
Definition moves (w : Z) (mask ks : list Z) : Prop :=
  Z.of_nat (length ks) = 128 / w /\
  (forall i, 0 <= i < 128 / w -> 0 <= nth (Z.to_nat i) ks 0 < 2 * (128 / w)) /\
  forall i j, 0 <= i < 128 / w -> 0 <= j < w / 8 -> nth (Z.to_nat (w / 8 * i + j)) mask 0 = w / 8 * nth (Z.to_nat i) ks 0 + j.
Lemma vec_perm_ok w a b mask ks : width w -> moves w mask ks ->
  in_reg 128 (vec_perm a b mask) /\
  forall i, 0 <= i < 128 / w ->
    lane w i (vec_perm a b mask) = let k := nth (Z.to_nat i) ks 0 in if k <? 128 / w then lane w k a else lane w (k - 128 / w) b.
Proof.
  intros Hw (Lk & Rk & Mk). pose proof (width_ok8 w Hw) as O8. destruct (width_size w Hw) as (S1 & S2 & S3). split.
  { apply (in_reg_build 128 8). apply (width_okw 8). left; reflexivity. }
  intros i Hi. cbv zeta. specialize (Rk i Hi). specialize (fun j => Mk i j Hi). set (k := nth (Z.to_nat i) ks 0) in *.
  assert (W : 0 <= w) by (destruct O8; lia).
  apply (lane_bytes w); [exact O8|apply lane_range, W|destruct (k <? 128 / w); apply lane_range, W|].
  intros j Hj. rewrite byte_of_lane by (try assumption; lia). rewrite <- lane8_byte. unfold vec_perm.
  rewrite lane_build by (change (Z.of_nat 16) with 16; nia). cbv zeta.
  replace (i * (w / 8) + j) with (w / 8 * i + j) by lia. rewrite (Mk j Hj). rewrite (Z.mod_small _ 32) by nia.
  rewrite Z.mod_small by (destruct (_ <? 16); apply lane_range; lia).
  destruct (Z.ltb_spec k (128 / w)) as [L|G].
  - replace (w / 8 * k + j <? 16) with true by nia. rewrite lane8_byte. rewrite byte_of_lane by (try assumption; lia).
    f_equal. f_equal. f_equal. lia.
  - replace (w / 8 * k + j <? 16) with false by nia. rewrite lane8_byte. rewrite byte_of_lane by (try assumption; lia).
    f_equal. f_equal. f_equal. nia.
Qed.
Lemma moves_mask w ks : width w -> Z.of_nat (length ks) = 128 / w -> (forall i, 0 <= i < 128 / w -> 0 <= nth (Z.to_nat i) ks 0 < 2 * (128 / w)) ->
  moves w (permute_mask w ks) ks.
Proof.
  intros Hw L R. destruct (width_size w Hw) as (S1 & S2 & S3). split; [exact L|]. split; [exact R|]. intros i j Hi Hj.
  rewrite permute_mask_flat. apply (nth_flat_block w (fun k => k)); [exact S1|lia|exact Hj].
Qed.

(** ** Rearrangements, checked on lists of element numbers *)

Definition iota_z (n : nat) : list Z := map Z.of_nat (seq 0 n).
Lemma nth_iota n i : 0 <= i < Z.of_nat n -> nth (Z.to_nat i) (iota_z n) 0 = i.
Proof.
  intros H. unfold iota_z. rewrite (nth_indep _ 0 (Z.of_nat 0)) by (rewrite map_length, seq_length; lia).
  rewrite (map_nth Z.of_nat). rewrite seq_nth by lia. lia.
Qed.
Lemma nth_map_z {A} (f : A -> Z) l d i : 0 <= i < Z.of_nat (length l) -> nth (Z.to_nat i) (map f l) 0 = f (nth (Z.to_nat i) l d).
Proof. intros H. rewrite (nth_indep _ 0 (f d)) by (rewrite map_length; lia). apply map_nth. Qed.
Lemma length_iota n : length (iota_z n) = n. Proof. unfold iota_z. rewrite map_length. apply seq_length. Qed.
Lemma every (P : Z -> bool) n : forallb P (iota_z n) = true -> forall i, 0 <= i < Z.of_nat n -> P i = true.
Proof.
  intros H i Hi. rewrite forallb_forall in H. apply H. rewrite <- (nth_iota n i Hi). apply nth_In. rewrite length_iota. lia.
Qed.

Definition good (w : Z) (ks : list Z) : bool :=
  (Z.of_nat (length ks) =? 128 / w) && forallb (fun k => (0 <=? k) && (k <? 2 * (128 / w))) ks.
Lemma good_moves w ks : width w -> good w ks = true -> moves w (permute_mask w ks) ks.
Proof.
  intros Hw G. apply andb_prop in G. destruct G as [L F]. apply Z.eqb_eq in L. apply moves_mask; [exact Hw|exact L|].
  intros i Hi. rewrite forallb_forall in F. specialize (F (nth (Z.to_nat i) ks 0) (nth_In ks 0 (n := Z.to_nat i) ltac:(lia))). lia.
Qed.

Section reps.
Variables (src : Z -> Z) (w : Z).
Hypothesis Hw : width w.
(** element [i] of [r] is the element number [s i] *)
Definition reps (r : Z) (s : list Z) : Prop :=
  Z.of_nat (length s) = 128 / w /\ forall i, 0 <= i < 128 / w -> lane w i r = src (nth (Z.to_nat i) s 0).
Definition sperm (ks s s' : list Z) : list Z := map (fun k => nth (Z.to_nat k) (s ++ s') 0) ks.
Definition smerge (lo : bool) (s s' : list Z) : list Z :=
  map (fun i => nth (Z.to_nat ((if lo then 128 / w / 2 else 0) + i / 2)) (if Z.even i then s else s') 0) (iota_z (nlanes 128 w)).
Lemma reps_perm ks a b s s' : good w ks = true -> reps a s -> reps b s' -> reps (vec_perm a b (permute_mask w ks)) (sperm ks s s').
Proof.
  intros G [La A] [Lb B]. pose proof (good_moves w ks Hw G) as M. destruct (vec_perm_ok w a b _ ks Hw M) as [_ E].
  destruct M as (Lk & Rk & _). split; [unfold sperm; rewrite map_length; exact Lk|]. intros i Hi. rewrite (E i Hi). cbv zeta.
  unfold sperm. rewrite (nth_map_z _ ks 0) by lia. specialize (Rk i Hi). set (k := nth (Z.to_nat i) ks 0) in *.
  destruct (Z.ltb_spec k (128 / w)).
  - rewrite app_nth1 by lia. apply A. lia.
  - rewrite app_nth2 by lia. rewrite B by lia. f_equal. f_equal. lia.
Qed.
Lemma reps_merge lo a b s s' : reps a s -> reps b s' -> reps (vec_merge lo w a b) (smerge lo s s').
Proof.
  intros [La A] [Lb B]. pose proof (width_okw w Hw) as O. split; [unfold smerge; rewrite map_length, length_iota; apply nlanes_z, O|].
  intros i Hi. unfold vec_merge. rewrite (lane_buildn 128 w _ i O Hi). unfold smerge.
  rewrite (nth_map_z _ _ 0) by (rewrite length_iota, (nlanes_z 128 w O); exact Hi). rewrite nth_iota by (rewrite (nlanes_z 128 w O); exact Hi).
  assert (E2 : 0 <= (if lo then 128 / w / 2 else 0) + i / 2 < 128 / w).
  { assert (128 / w = 2 * (128 / w / 2)) by (destruct Hw as [-> | [-> | [-> | ->]]]; reflexivity).
    assert (0 <= i / 2 < 128 / w / 2) by (split; [apply Z.div_pos; lia|apply Z.div_lt_upper_bound; lia]). destruct lo; lia. }
  destruct (Z.even i); rewrite lane_modw by (destruct O; lia); [apply A, E2|apply B, E2].
Qed.
End reps.

Lemma in_reg_perm a b mask : in_reg 128 (vec_perm a b mask).
Proof. apply (in_reg_build 128 8). apply (width_okw 8). left; reflexivity. Qed.
Lemma in_reg_merge lo w a b : width w -> in_reg 128 (vec_merge lo w a b).
Proof. intros Hw. apply (in_reg_build 128 w), width_okw, Hw. Qed.

(** element [k] of the vectors of [v] one after the other *)
Definition flat (w : Z) (v : list Z) (k : Z) : Z := lane w (k mod (128 / w)) (vec_of v (k / (128 / w))).
Definition numbers (w q : Z) : list Z := map (fun i => q * (128 / w) + i) (iota_z (nlanes 128 w)).
Lemma reps_base w v q : width w -> 0 <= q -> reps (flat w v) w (vec_of v q) (numbers w q).
Proof.
  intros Hw Hq. pose proof (nlanes_z 128 w (width_okw w Hw)) as N. destruct (width_size w Hw) as (_ & _ & P). split; [unfold numbers; rewrite map_length, length_iota; exact N|].
  intros i Hi. unfold numbers. rewrite (nth_map_z _ _ 0) by (rewrite length_iota; lia). rewrite nth_iota by lia.
  unfold flat. rewrite Z.add_comm, Z_mod_plus_full, Z_div_plus by lia. rewrite (Z.mod_small i), (Z.div_small i) by lia. reflexivity.
Qed.
Lemma reps_lane src w r s (g : Z -> Z) : width w -> reps src w r s -> forallb (fun i => nth (Z.to_nat i) s 0 =? g i) (iota_z (nlanes 128 w)) = true ->
  forall i, 0 <= i < 128 / w -> lane w i r = src (g i).
Proof.
  intros Hw [_ A] F i Hi. rewrite (A i Hi). f_equal. apply Z.eqb_eq. apply (every (fun i => nth (Z.to_nat i) s 0 =? g i) _ F).
  rewrite (nlanes_z 128 w (width_okw w Hw)). exact Hi.
Qed.

(** ** reverse, zip, unzip *)

Lemma p_reverse_ok e t a : mem_type t -> in_reg 128 (p_reverse e t a) /\
  forall i, 0 <= i < pelems t -> lane (mw t) i (p_reverse e t a) = lane (mw t) (pelems t - 1 - i) a.
Proof.
  intros H. unfold p_reverse, pelems. pose proof (width_mw t H) as W. split.
  { destruct (pair_of e t); [apply in_reg_pair64|]. repeat (match goal with |- context [if ?c then _ else _] => destruct c end); apply in_reg_perm. }
  assert (B : forall w ks mask, width w -> mask = permute_mask w ks -> good w ks = true ->
    forallb (fun i => nth (Z.to_nat i) (sperm ks (numbers w 0) (numbers w 0)) 0 =? 128 / w - 1 - i) (iota_z (nlanes 128 w)) = true ->
    forall i, 0 <= i < 128 / w -> lane w i (vec_perm a a mask) = lane w (128 / w - 1 - i) a).
  { intros w ks mask Hw -> G F i Hi. destruct (width_size w Hw) as (_ & _ & P).
    rewrite (reps_lane (flat w [a]) w _ _ _ Hw (reps_perm _ w Hw ks a a _ _ G (reps_base w [a] 0 Hw ltac:(lia)) (reps_base w [a] 0 Hw ltac:(lia))) F i Hi).
    unfold flat. rewrite (Z.mod_small (128 / w - 1 - i)), (Z.div_small (128 / w - 1 - i)) by lia. reflexivity. }
  destruct (pair_of e t) eqn:E.
  - destruct e; [|discriminate E]. cbn [pair_of] in E. apply Z.eqb_eq in E. rewrite E. change (128 / 64) with 2. intros i Hi.
    rewrite lane_pair64 by exact Hi. assert (i = 0 \/ i = 1) as [-> | ->] by lia; cbn [Z.eqb]; apply lane_modw; lia.
  - destruct W as [W | [W | [W | W]]]; rewrite W; cbn [Z.eqb Pos.eqb].
    + apply (B 8 [15; 14; 13; 12; 11; 10; 9; 8; 7; 6; 5; 4; 3; 2; 1; 0]); [left; reflexivity|reflexivity..].
    + apply (B 16 [7; 6; 5; 4; 3; 2; 1; 0]); [right; left; reflexivity|reflexivity..].
    + apply (B 32 [3; 2; 1; 0]); [right; right; left; reflexivity|reflexivity..].
    + apply (B 64 [1; 0]); [right; right; right; reflexivity|reflexivity..].
Qed.

Lemma pair_width e t : pair_of e t = true -> mw t = 64.
Proof. destruct e; [apply Z.eqb_eq|discriminate]. Qed.
Lemma two64_pair e x y : two64 e x y = pair64 x y.
Proof.
  destruct e; [reflexivity|]. assert (O : okw 128 64) by (apply width_okw; right; right; right; reflexivity).
  apply (reg_ext 128 64); [exact O|apply in_reg_build, O|apply in_reg_pair64|]. change (128 / 64) with 2. intros i Hi.
  unfold two64. rewrite lane_vinsert by assumption. rewrite lane_splats by assumption. rewrite lane_pair64 by exact Hi.
  assert (i = 0 \/ i = 1) as [-> | ->] by lia; reflexivity.
Qed.
Lemma pair64_half (hi : bool) a b : pair64 (lane 64 (if hi then 1 else 0) a) (lane 64 (if hi then 1 else 0) b) = half64 hi a b.
Proof. reflexivity. Qed.
Lemma p_zip_half_eq hi e t a b : p_zip_half hi e t a b = a_zip_half hi Neon128 t a b.
Proof.
  rewrite a_zip_half_eq. unfold p_zip_half. destruct (pair_of e t) eqn:E; [|reflexivity].
  rewrite (pair_width e t E). change (an Neon128) with 128. rewrite <- half64_zip. exact (pair64_half hi a b).
Qed.
Lemma p_unzip_half_eq hi e t a b : mem_type t -> p_unzip_half hi e t a b = a_unzip_half hi Neon128 t a b.
Proof.
  intros H. rewrite a_unzip_half_eq. unfold p_unzip_half. change (an Neon128) with 128. destruct (mw t =? 64) eqn:E.
  - apply Z.eqb_eq in E. rewrite E. rewrite <- half64_uzp. rewrite <- pair64_half. destruct (pair_of e t); [reflexivity|].
    apply (two64_pair Vsx).
  - pose proof (width_mw t H) as W. set (w := mw t) in *. clearbody w. pose proof (width_okw w W) as O.
    apply (reg_ext 128 w); [exact O|apply in_reg_perm|apply in_reg_build, O|]. intros i Hi.
    set (ks := map (fun i => 2 * i + (if hi then 1 else 0)) (iota_z (nlanes 128 w))).
    assert (M : unzip_mask hi w = permute_mask w ks) by (unfold ks; destruct W as [-> | [-> | [-> | ->]]]; destruct hi; reflexivity).
    rewrite M. assert (G : good w ks = true) by (unfold ks; destruct W as [-> | [-> | [-> | ->]]]; destruct hi; reflexivity).
    destruct (vec_perm_ok w a b _ ks W (good_moves w ks W G)) as [_ L]. rewrite (L i Hi). cbv zeta. unfold i_uzp. rewrite (lane_buildn 128 w _ i O Hi).
    unfold ks. rewrite (nth_map_z _ _ 0) by (rewrite length_iota, (nlanes_z 128 w O); exact Hi). rewrite nth_iota by (rewrite (nlanes_z 128 w O); exact Hi).
    assert (N : 128 / w = 2 * (128 / w / 2)) by (destruct W as [-> | [-> | [-> | ->]]]; reflexivity).
    destruct (Z.ltb_spec i (128 / w / 2)); rewrite lane_modw by (destruct O; lia).
    + replace (2 * i + (if hi then 1 else 0) <? 128 / w) with true by (destruct hi; lia). reflexivity.
    + replace (2 * i + (if hi then 1 else 0) <? 128 / w) with false by (destruct hi; lia). f_equal. lia.
Qed.
Lemma p_zip_eq e t a b : p_zip e t a b = a_zip Neon128 t a b.
Proof. unfold p_zip. rewrite !p_zip_half_eq. symmetry. apply a_zip_eq. Qed.
Lemma p_unzip_eq e t a b : mem_type t -> p_unzip e t a b = a_unzip Neon128 t a b.
Proof. intros H. unfold p_unzip. rewrite !p_unzip_half_eq by exact H. symmetry. apply a_unzip_eq. Qed.

Lemma insert_zip (hi : bool) a b :
  let o := if hi then 2 else 0 in
  vec_insert 32 (lane 32 (o + 1) b) (vec_insert 32 (lane 32 o b) (vec_insert 32 (lane 32 (o + 1) a) (vec_splats 32 (lane 32 o a)) 2) 1) 3 = i_zip hi 128 32 a b.
Proof.
  cbv zeta. assert (O : okw 128 32) by exact okw_32. apply (reg_ext 128 32); [exact O|apply in_reg_build, O..|]. change (128 / 32) with 4. intros i Hi.
  unfold i_zip. rewrite (lane_buildn 128 32 _ i O) by exact Hi. rewrite !lane_vinsert by assumption. rewrite lane_splats by assumption.
  assert (i = 0 \/ i = 1 \/ i = 2 \/ i = 3) as [-> | [-> | [-> | ->]]] by lia; destruct hi; reflexivity.
Qed.
Lemma p_zip_half16_eq hi v w : p_zip_half16 hi v w = a_zip_half16 hi v w.
Proof.
  unfold p_zip_half16, a_zip_half16. cbv zeta. f_equal.
  - exact (insert_zip false (if hi then snd v else fst v) (if hi then snd w else fst w)).
  - exact (insert_zip true (if hi then snd v else fst v) (if hi then snd w else fst w)).
Qed.
Lemma p_unzip_half16_eq hi e v w : p_unzip_half16 hi e v w = a_unzip_half16 hi v w.
Proof.
  unfold p_unzip_half16. rewrite !p_unzip_half_eq by exact I. rewrite !a_unzip_half_eq. reflexivity.
Qed.
