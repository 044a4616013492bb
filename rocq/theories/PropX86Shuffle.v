(** C50: the structure loads and stores of the x86 extensions. *)

From Coq Require Import ZArith String List Arith Lia Permutation.
From Verif Require Import X86Shuffle X86Deg234 X86ShuffleSpec X86ShuffleProofs.
Import ListNotations.

(** load2/3/4 and store2/3/4 on every x86 extension and element type: there is
    one assignment [p] of structures to lanes, depending only on the function,
    the extension and the type, such that lane [i] of register [k] is member
    [k] of structure [p i]: no member is lost, duplicated or put in the wrong
    register, and two members of the same structure are in the same lane.  The
    functions read or write [d] registers of memory and nothing else. *)
Theorem C50_structure_loads_and_stores_transpose :
  forall d e t, 2 <= d <= 4 ->
  exists p, Permutation p (seq 0 (lanes_of e t)) /\
    (forall m, d * reg_bytes e <= length m ->
       exists vs, load234 d e t m = Some vs /\ transposed d e t p m vs) /\
    (forall vs m, registers e d vs -> d * reg_bytes e <= length m ->
       exists m', store234 d e t vs m = Some m' /\
         transposed d e t p m' vs /\
         length m' = length m /\
         skipn (d * reg_bytes e) m' = skipn (d * reg_bytes e) m).
Proof.
  intros d e t Hd. exists (perm d e t). split; [now apply exists_perm|]. split.
  - intros m Hm. eexists. split; [now apply load_expected|].
    now apply expected_transposed.
  - intros vs m Hr Hm.
    set (v := regs_val d (elt_bytes t) (perm d e t) vs).
    pose proof (store_expected d e t v m Hd Hm) as S.
    pose proof (regs_val_eq d e t vs Hd Hr) as E. fold v in E.
    rewrite E in S. eexists. split; [exact S|].
    set (n := d * reg_bytes e) in *.
    set (m1 := map v (seq 0 n)).
    assert (L1 : length m1 = n) by (unfold m1; now rewrite map_length, seq_length).
    assert (L : length (m1 ++ skipn n m) = length m)
      by (rewrite app_length, skipn_length, L1; lia).
    split; [|split; [exact L|]].
    + pose proof (expected_transposed d e t (m1 ++ skipn n m) Hd
        ltac:(fold n; lia)) as T.
      replace (map (denr (at_list (m1 ++ skipn n m))) (expected d e t (perm d e t)))
        with vs in T; [exact T|].
      rewrite <- E at 1. destruct (perm_props d e t Hd) as [Lp [_ B]].
      apply map_ext_in. intros r Hr'. unfold denr. apply map_ext_in.
      intros x Hx. unfold expected in Hr'.
      apply in_map_iff in Hr' as [k [<- Hk]].
      apply in_seq in Hk. apply in_flat_map in Hx as [s [Hs Hx]].
      apply in_map_iff in Hx as [b [<- Hb]]. apply in_seq in Hb. cbn [den].
      apply (In_nth _ _ 0) in Hs as [i [Hi <-]].
      rewrite Lp in Hi. specialize (B i Hi).
      pose proof (elt_bound d e t _ k B ltac:(lia)) as Hbd. fold n in Hbd.
      set (x := (d * nth i (perm d e t) 0 + k) * elt_bytes t + b) in *.
      assert (Hx : x < n) by (unfold x; lia).
      unfold at_list. rewrite app_nth1 by lia. unfold m1.
      rewrite (nth_indep _ 0%Z (v 0)) by (rewrite map_length, seq_length; lia).
      rewrite map_nth, seq_nth by exact Hx. reflexivity.
    + rewrite skipn_app, L1, Nat.sub_diag, skipn_all2 by lia. reflexivity.
Qed.
Print Assumptions C50_structure_loads_and_stores_transpose.

(** A store after a load with the same function writes back exactly the bytes
    which were loaded. *)
Theorem C50_store_after_load_restores_memory :
  forall d e t m m0 vs, 2 <= d <= 4 ->
  d * reg_bytes e <= length m -> d * reg_bytes e <= length m0 ->
  load234 d e t m = Some vs ->
  store234 d e t vs m0 =
  Some (firstn (d * reg_bytes e) m ++ skipn (d * reg_bytes e) m0).
Proof.
  intros d e t m m0 vs Hd Hm Hm0 H.
  rewrite load_expected in H by assumption. inversion H; subst.
  rewrite store_expected by assumption.
  rewrite map_nth_seq by lia. reflexivity.
Qed.
Print Assumptions C50_store_after_load_restores_memory.

(** A load after a store returns the registers which were stored. *)
Theorem C50_load_after_store_returns_registers :
  forall d e t vs m m', 2 <= d <= 4 ->
  registers e d vs -> d * reg_bytes e <= length m ->
  store234 d e t vs m = Some m' ->
  load234 d e t m' = Some vs.
Proof.
  intros d e t vs m m' Hd Hr Hm H.
  destruct (C50_structure_loads_and_stores_transpose d e t Hd)
    as [p [P [Hl Hs]]].
  destruct (Hs vs m Hr Hm) as [m1 [E [T [L _]]]].
  rewrite E in H. inversion H; subst m1.
  destruct (Hl m' ltac:(lia)) as [vs' [E' T']]. rewrite E'. f_equal.
  destruct Hr as [Lv Fv]. destruct T' as [[Lv' Fv'] T'].
  destruct T as [_ T].
  assert (Lp : length p = lanes_of e t)
    by (rewrite (Permutation_length P); apply seq_length).
  apply (nth_ext _ _ [] []); [congruence|]. intros k Hk. rewrite Lv' in Hk.
  rewrite Forall_forall in Fv, Fv'.
  assert (K : length (nth k vs []) = reg_bytes e)
    by (apply Fv, nth_In; lia).
  assert (K' : length (nth k vs' []) = reg_bytes e)
    by (apply Fv', nth_In; lia).
  apply list_eq_nth; [congruence|]. intros j Hj. rewrite K' in Hj.
  pose proof (elt_bytes_pos t) as Hw. set (w := elt_bytes t) in *.
  pose proof (Nat.div_mod j w Hw) as Dj.
  pose proof (Nat.mod_upper_bound j w Hw) as Mj.
  assert (Hi : j / w < lanes_of e t).
  { apply Nat.div_lt_upper_bound; [exact Hw|].
    rewrite Nat.mul_comm. unfold w. now rewrite lanes_bytes. }
  pose proof (T k _ Hk Hi) as A. pose proof (T' k _ Hk Hi) as A'.
  fold w in A, A'. rewrite <- A' in A.
  apply (f_equal (fun l => nth (j mod w) l 0%Z)) in A. unfold elt in A.
  rewrite !nth_firstn_lt, !nth_skipn_add in A by exact Mj.
  replace (j / w * w + j mod w) with j in A by lia. now symmetry.
Qed.
Print Assumptions C50_load_after_store_returns_registers.

(** Memory order.  Lane [i] holds structure [i] for every memory exactly for
    the combinations of the table [in_memory_order]. *)
Theorem C50_lanes_in_memory_order_iff :
  forall d e t, 2 <= d <= 4 ->
  in_memory_order d e t = true <->
  (forall m vs, d * reg_bytes e <= length m ->
     load234 d e t m = Some vs ->
     transposed d e t (seq 0 (lanes_of e t)) m vs).
Proof.
  intros d e t Hd. split.
  - intros H m vs Hm E. rewrite load_expected in E by assumption.
    inversion E; subst. apply in_order_iff in H; [|exact Hd].
    pose proof (expected_transposed d e t m Hd Hm) as T.
    rewrite H in T at 1. exact T.
  - now apply order_forced.
Qed.
Print Assumptions C50_lanes_in_memory_order_iff.

(** So lane [i] is not always structure [i]: on AVX, load2 of float permutes
    the structures. *)
Theorem C50_memory_order_refuted :
  ~ (forall d e t m vs, 2 <= d <= 4 -> d * reg_bytes e <= length m ->
     load234 d e t m = Some vs ->
     transposed d e t (seq 0 (lanes_of e t)) m vs).
Proof.
  intro H.
  assert (E : in_memory_order 2 Avx F32 = true).
  { apply C50_lanes_in_memory_order_iff; [lia|].
    intros m vs Hm Hl. apply H; [lia|assumption|assumption]. }
  discriminate.
Qed.
Print Assumptions C50_memory_order_refuted.

(** The hypotheses are met and the functions move real data.  On AVX the 8
    pairs of floats of a 64-byte memory are loaded in the order
    0 1 4 5 2 3 6 7. *)
Example C50_witness_load2_avx_f32 :
  load234 2 Avx F32 (ramp 64) =
  Some [flat_map (fun s => map (fun b => Z.of_nat (8 * s + b)) (seq 0 4))
          [0; 1; 4; 5; 2; 3; 6; 7];
        flat_map (fun s => map (fun b => Z.of_nat (8 * s + 4 + b)) (seq 0 4))
          [0; 1; 4; 5; 2; 3; 6; 7]].
Proof. vm_compute. reflexivity. Qed.

(** On SSE2, 16 triples of bytes in memory order. *)
Example C50_witness_load3_sse2_i8 :
  load234 3 Sse2 I8 (ramp 48) =
  Some (map (fun k => map (fun i => Z.of_nat (3 * i + k)) (seq 0 16))
          [0; 1; 2]).
Proof. vm_compute. reflexivity. Qed.

(** A load of too small an array is out of bounds. *)
Example C50_witness_out_of_bounds : load234 3 Sse2 I8 (ramp 47) = None.
Proof. vm_compute. reflexivity. Qed.

Example C50_witness_store4_avx512_i16 :
  option_map (fun m => firstn 8 m)
    (store234 4 Avx512Skylake I16
       (map (fun k => map (fun b => Z.of_nat k * 64 + Z.of_nat b)%Z (seq 0 64))
          [0; 1; 2; 3]) (repeat 0%Z 256)) =
  Some [0; 1; 64; 65; 128; 129; 192; 193]%Z.
Proof. vm_compute. reflexivity. Qed.
