From Coq Require Import ZArith Lia Bool List ZifyBool Arith.
From Verif Require Import CInt ScalarOps CpuSimd CpuSimdSpec CpuSimdProofs CpuSimdMem Pack PackSpec PackProofs.
Import ListNotations.
Open Scope Z_scope.

Definition nregs (N : nat) (p : pack) : Prop := length (registers p) = N.

Lemma concat_len {A} (l : list (list A)) N : Forall (fun x => length x = N) l -> length (concat l) = (length l * N)%nat.
Proof. induction 1; [reflexivity|]. cbn. rewrite app_length. lia. Qed.

Lemma to_pack_helper_ok N packx : (1 <= N)%nat -> Forall (nregs N) packx ->
  forall to from which, length (registers from ++ concat (map registers (skipn (S which) packx))) = to -> (which < length packx)%nat ->
  exists r, to_pack_helper to packx which from = Some r /\ registers r = registers from ++ concat (map registers (skipn (S which) packx)).
Proof.
  intros HN F. induction to as [|to IH]; intros from which L W.
  - rewrite app_length in L. destruct from; cbn [registers length] in L; lia.
  - destruct to as [|to].
    + destruct from as [c|c d].
      * assert (concat (map registers (skipn (S which) packx)) = []) as E by (apply length_zero_iff_nil; rewrite app_length in L; cbn [registers length] in L; lia).
        rewrite E. cbn [to_pack_helper]. exists (P1 c). split; reflexivity.
      * rewrite app_length in L. cbn [registers length] in L. destruct d; cbn [registers length] in L; lia.
    + destruct from as [c|c d].
      * change (to_pack_helper (S (S to)) packx which (P1 c)) with (bind (nth_error packx (S which)) (fun next => bind (to_pack_helper (S to) packx (S which) next) (fun d => Some (PN c d)))).
        destruct (nth_error packx (S which)) as [next|] eqn:En.
        2: { apply nth_error_None in En. rewrite skipn_all2 in L by lia. cbn in L. lia. }
        assert (skipn (S which) packx = next :: skipn (S (S which)) packx) as Es.
        { clear - En. revert packx En. induction (S which) as [|k IHk]; intros [|x l] En; cbn in En |- *; try discriminate; [injection En as ->; reflexivity|]. rewrite (IHk _ En). reflexivity. }
        cbn [bind]. rewrite Es in *. cbn [map concat] in *. destruct (IH next (S which)) as (r & Er & Rr).
        { cbn [registers] in L. cbn [length app] in L. lia. }
        { apply nth_error_Some. rewrite En. discriminate. }
        rewrite Er. cbn [bind]. exists (PN c r). split; [reflexivity|]. cbn [registers]. rewrite Rr. reflexivity.
      * change (to_pack_helper (S (S to)) packx which (PN c d)) with (bind (to_pack_helper (S to) packx which d) (fun d => Some (PN c d))).
        destruct (IH d which) as (r & Er & Rr); [cbn [registers app length] in L; lia|exact W|].
        rewrite Er. cbn [bind]. exists (PN c r). split; [reflexivity|]. cbn [registers]. rewrite Rr. reflexivity.
Qed.

Lemma nregs_1 p : nregs 1 p -> exists c, p = P1 c.
Proof. unfold nregs. destruct p as [c|c d]; cbn; intros; [exists c; reflexivity|]. destruct d; cbn in *; lia. Qed.
Lemma nregs_SS N p : nregs (S (S N)) p -> exists c d, p = PN c d /\ nregs (S N) d.
Proof. unfold nregs. destruct p as [c|c d]; cbn; intros; [lia|]. exists c, d. split; [reflexivity|lia]. Qed.

Lemma to_pack_1_ok : forall l, l <> [] -> Forall (nregs 1) l -> exists r, to_pack_1 l = Some r /\ registers r = concat (map registers l).
Proof.
  induction l as [|p l IH]; intros H F; [congruence|]. inversion F as [|? ? Hp Fl]; subst. destruct (nregs_1 p Hp) as (c & ->).
  destruct l as [|q l]; [exists (P1 c); split; reflexivity|]. destruct (IH ltac:(discriminate) Fl) as (r & E & R).
  exists (PN c r). change (to_pack_1 (P1 c :: q :: l)) with (bind (to_pack_1 (q :: l)) (fun d => Some (PN c d))). rewrite E. split; [reflexivity|].
  cbn [registers]. rewrite R. reflexivity.
Qed.

Lemma to_pack_ok N packx : (1 <= N)%nat -> packx <> [] -> Forall (nregs N) packx ->
  exists r, to_pack N packx = Some r /\ registers r = concat (map registers packx).
Proof.
  intros HN Hne F. destruct N as [|[|N]]; [lia|apply to_pack_1_ok; assumption|].
  destruct packx as [|p l]; [congruence|]. pose proof F as F0. inversion F as [|? ? Hp Fl]; subst. destruct (nregs_SS N p Hp) as (c & d & -> & Hd).
  cbn [to_pack]. destruct (to_pack_helper_ok (S (S N)) (PN c d :: l) ltac:(lia) F0 (length (PN c d :: l) * S (S N) - 1) d 0) as (r & E & R).
  - rewrite app_length. unfold nregs in Hd. rewrite Hd. cbn [skipn]. rewrite (concat_len _ (S (S N))); [rewrite map_length; cbn [length]; lia|].
    clear - Fl. induction Fl; constructor; assumption.
  - cbn. lia.
  - rewrite E. exists (PN c r). split; [reflexivity|]. cbn [registers]. rewrite R. reflexivity.
Qed.

Lemma cons_all_regs cs r : registers (cons_all cs r) = cs ++ registers r.
Proof. induction cs as [|c cs IH]; [reflexivity|]. cbn. rewrite IH. reflexivity. Qed.

Lemma to_pack_interleave_ok : forall N packx, (1 <= N)%nat -> packx <> [] -> Forall (nregs N) packx ->
  exists r, to_pack_interleave N packx = Some r /\ length (registers r) = (length packx * N)%nat /\
    forall j k, (j < N)%nat -> (k < length packx)%nat ->
      nth_error (registers r) (j * length packx + k) = nth_error (registers (nth k packx (P1 []))) j.
Proof.
  induction N as [|N IH]; intros packx HN Hne F; [lia|]. destruct N as [|N].
  - destruct (to_pack_1_ok packx Hne F) as (r & E & R). exists r. split; [exact E|]. rewrite R. split.
    { rewrite (concat_len _ 1%nat); [rewrite map_length; reflexivity|]. clear - F. induction F; constructor; assumption. }
    intros j k Hj Hk. replace j with O by lia. rewrite Nat.mul_0_l, Nat.add_0_l.
    clear - F Hk. revert k Hk. induction F as [|p l Hp F IH]; intros k Hk; [cbn in Hk; lia|]. destruct (nregs_1 p Hp) as (c & ->).
    destruct k as [|k]; [reflexivity|]. cbn [map concat registers app nth_error nth]. cbn in Hk. apply IH. lia.
  - assert (exists ds, sequence (map pcdr packx) = Some ds /\ Forall (nregs (S N)) ds /\ length ds = length packx /\
        forall k, (k < length packx)%nat -> nth k packx (P1 []) = PN (nth k (map pcar packx) []) (nth k ds (P1 []))) as (ds & Ed & Fd & Ld & Nd).
    { clear - F. induction F as [|p l Hp F IH]; [exists []; repeat split; [constructor|intros; cbn in *; lia]|]. destruct IH as (ds & E & Fd & Ld & Nd).
      destruct (nregs_SS N p Hp) as (c & d & -> & Hd). exists (d :: ds). cbn [map pcdr sequence]. rewrite E. cbn [bind]. split; [reflexivity|]. split; [constructor; assumption|]. split; [cbn; lia|].
      intros [|k] Hk; [reflexivity|]. cbn [nth map]. apply Nd. cbn in Hk. lia. }
    destruct (IH ds ltac:(lia)) as (r & Er & Lr & Nr); [intros ->; destruct packx; [congruence|cbn in Ld; lia]|exact Fd|].
    change (to_pack_interleave (S (S N)) packx) with (bind (sequence (map pcdr packx)) (fun cdrs => bind (to_pack_interleave (S N) cdrs) (fun d => Some (cons_all (map pcar packx) d)))).
    rewrite Ed. cbn [bind]. rewrite Er. cbn [bind]. eexists. split; [reflexivity|]. rewrite cons_all_regs. split.
    { rewrite app_length, map_length, Lr, Ld. lia. }
    intros j k Hj Hk. rewrite (Nd k Hk). destruct j as [|j].
    + rewrite nth_error_app1 by (rewrite map_length; lia). cbn [registers nth_error]. rewrite Nat.mul_0_l, Nat.add_0_l. apply nth_error_nth'. rewrite map_length. exact Hk.
    + rewrite nth_error_app2 by (rewrite map_length; lia). rewrite map_length. cbn [registers nth_error]. rewrite <- (Nr j k) by lia. rewrite Ld. f_equal. lia.
Qed.
