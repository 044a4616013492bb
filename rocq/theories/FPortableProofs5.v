(** Float programs on the CPU back end. *)
From Coq Require Import ZArith Lia List Bool ZifyBool.
From Verif Require Import CInt FloatSpec Fp16 ScalarOps RoundEven CpuSimd CpuSimdSpec CpuSimdProofs X86Deg234 X86Arith X86ArithSpec X86Cvt X86CvtSpec X86FloatSpec.
From Verif Require X86FloatProofs.
From Verif Require Import ArmFloat ArmFloatSpec.
From Verif Require Import FloatArith FloatArithSpec ScalarFloat PropFloatArith FloatVecSpec FloatVecOps PpcFloatSpec CpuFloatArith CpuFloatSpec PropCpuFloat.
From Verif Require Import Portable PortableSpec PortableProofs PortableProofs5 FPortable FPortableSpec FPortableProofs.
Open Scope Z_scope.

Section CPU.
Variables (c99 new : bool) (t : fty) (n : nat).
Hypothesis T : t <> F16.
Hypothesis Hn : (0 < n)%nat.
Notation lanes := (all_lanes (Z.of_nat n)).
Notation B := (cpuf c99 new t n).
Notation repl := (repl n).
Definition crep (r : list Z) (f : Z -> Z) : Prop :=
  length r = n /\ forall i, 0 <= i < Z.of_nat n -> 0 <= celt r i < 2 ^ fw t /\ 0 <= f i < 2 ^ fw t /\ decode (ff t) (celt r i) = decode (ff t) (f i).
Lemma st : stored t = t. Proof. destruct t; [congruence|reflexivity|reflexivity]. Qed.
Lemma crep_floats r f : crep r f -> cfloats t n r.
Proof.
  intros (L & F). split; [exact L|]. intros i Hi. split; [|exact I]. rewrite st. destruct (F (Z.of_nat i) ltac:(lia)) as (R & _). unfold celt in R. rewrite Nat2Z.id in R. exact R.
Qed.
Lemma crep_lane r f i : crep r f -> 0 <= i < Z.of_nat n -> CpuSimd.lane r (Z.to_nat i) = Some (celt r i).
Proof. intros (L & F) Hi. rewrite nth_lane by lia. reflexivity. Qed.
Lemma cm_vec r (P : nat -> Z -> Prop) : cvector t n r P -> length r = n /\ lanes (fun i => 0 <= celt r i < 2 ^ fw t /\ P (Z.to_nat i) (celt r i)).
Proof. intros (L & F). split; [exact L|]. intros i Hi. pose proof (F (Z.to_nat i) ltac:(lia)) as Q. rewrite st in Q. exact Q. Qed.
Lemma cvalue_celt r i : cvalue t r (Z.to_nat i) = decode (ff t) (celt r i).
Proof. unfold cvalue. rewrite st. reflexivity. Qed.

Lemma cpu_1 o a f g : crep a f -> lanes (fun i => scalar_f1 t o (f i) = Some (g i)) -> exists r, f_op1 B o a = Some r /\ crep r g.
Proof.
  intros A S. assert (K : exists r, f_op1 B o a = Some r /\ cvector t n r (fun i p => spec_f1 t o (cvalue t a i) p)).
  { pose proof (crep_floats a f A) as C. destruct o; cbn [f_op1 cpuf spec_f1].
    - destruct (C96_neg t n a C) as (r & E & V). exists r. split; [exact E|]. rewrite st in V. exact V.
    - destruct (C96_abs t n a C) as (r & E & (L & V)). exists r. split; [exact E|]. split; [exact L|]. intros i Hi. destruct (V i Hi) as (R & Q). split; [exact R|]. intros N. rewrite st in Q. rewrite Q. apply abs_zero; [exact N|].
      intros s m D. unfold cvalue in D. rewrite st in D. refine (nonneg t _ s m _ D). destruct (proj2 C i Hi) as (X & _). rewrite st in X. exact X.
    - destruct (C96_sqrt c99 t n a C) as (r & E & V). exists r. split; [exact E|]. rewrite st in V. exact V.
    - destruct (C96_rec t n a C) as (r & E & V). exists r. split; [exact E|]. rewrite st in V. exact V.
    - destruct (C96_floor c99 t n a C) as (r & E & V). exists r. split; [exact E|]. rewrite st in V. exact V.
    - destruct (C96_ceil c99 t n a C) as (r & E & V). exists r. split; [exact E|]. rewrite st in V. exact V.
    - destruct (C96_trunc new c99 t n a C) as (r & E & V). exists r. split; [exact E|]. rewrite st in V. exact V. }
  destruct K as (r & E & V). exists r. split; [exact E|]. destruct (cm_vec r _ V) as (L & F). split; [exact L|]. intros i Hi. destruct (F i Hi) as (R & Q). split; [exact R|].
  destruct (proj2 A i Hi) as (_ & X & D). destruct (f1_ok t T o _ _ X (S i Hi)) as (G & H & C). split; [exact G|]. rewrite cvalue_celt, D in Q. exact (f1_unique t o _ _ _ X R G C Q H).
Qed.
Lemma cpu_2 o a b f f' g : crep a f -> crep b f' -> lanes (fun i => scalar_f2 t o (f i) (f' i) = Some (g i)) -> exists r, f_op2 B o a b = Some r /\ crep r g.
Proof.
  intros A A' S. assert (K : exists r, f_op2 B o a b = Some r /\ cvector t n r (fun i p => spec_f2 t o (cvalue t a i) (cvalue t b i) p)).
  { pose proof (crep_floats a f A) as C. pose proof (crep_floats b f' A') as C'. destruct o as [o| |]; cbn [f_op2 cpuf spec_f2].
    - destruct (C96_arith o t n a b C C') as (r & E & V). exists r. split; [exact E|]. rewrite st in V. exact V.
    - destruct (C96_min t n a b C C') as (r & E & (L & V)). exists r. split; [exact E|]. split; [exact L|]. intros i Hi. destruct (V i Hi) as (R & Q). split; [exact R|]. intros P. rewrite st in Q. rewrite (same_decode _ _ _ Q), <- (pick_least _ _ P).
      clear Q. unfold cvalue. rewrite st. destruct (is _ Less); reflexivity.
    - destruct (C96_max t n a b C C') as (r & E & (L & V)). exists r. split; [exact E|]. split; [exact L|]. intros i Hi. destruct (V i Hi) as (R & Q). split; [exact R|]. intros P. rewrite st in Q. rewrite (same_decode _ _ _ Q), <- (pick_greatest _ _ P).
      clear Q. unfold cvalue. rewrite st. destruct (is _ Greater); reflexivity. }
  destruct K as (r & E & V). exists r. split; [exact E|]. destruct (cm_vec r _ V) as (L & F). split; [exact L|]. intros i Hi. destruct (F i Hi) as (R & Q). split; [exact R|].
  destruct (proj2 A i Hi) as (_ & X & D). destruct (proj2 A' i Hi) as (_ & X' & D'). destruct (f2_ok t o _ _ _ X X' (S i Hi)) as (G & H & C). split; [exact G|]. rewrite !cvalue_celt, D, D' in Q. exact (f2_unique t o _ _ _ _ X X' R G C Q H).
Qed.
Lemma cpu_3 : c99 = true -> forall o a b c f f' f'' g, crep a f -> crep b f' -> crep c f'' -> lanes (fun i => scalar_f3 t o (f i) (f' i) (f'' i) = Some (g i)) -> exists r, f_op3 B o a b c = Some r /\ crep r g.
Proof.
  intros M o a b c f f' f'' g A A' A'' S. destruct (C96_muladd o c99 t n a b c (crep_floats a f A) (crep_floats b f' A') (crep_floats c f'' A'')) as (r & E & V).
  exists r. split; [exact E|]. destruct (cm_vec r _ V) as (L & F). split; [exact L|]. intros i Hi. destruct (F i Hi) as (R & Q). split; [exact R|]. rewrite M, st in Q.
  destruct (proj2 A i Hi) as (_ & X & D). destruct (proj2 A' i Hi) as (_ & X' & D'). destruct (proj2 A'' i Hi) as (_ & X'' & D''). destruct (f3_ok t T o _ _ _ _ X X' X'' (S i Hi)) as (G & H & C). split; [exact G|].
  rewrite !cvalue_celt, D, D', D'' in Q. exact (f3_unique t o _ _ _ _ _ R G C (fun _ => Q) H).
Qed.
Lemma rel_orders (v w : fval) : feqb v w = is (compare v w) Equal /\ flt v w = is (compare v w) Less /\ fle v w = (is (compare v w) Less || is (compare v w) Equal)
  /\ flt w v = is (compare v w) Greater /\ fle w v = (is (compare v w) Greater || is (compare v w) Equal).
Proof.
  exact (conj (X86FloatProofs.is_equal v w) (conj (X86FloatProofs.is_less v w) (conj (X86FloatProofs.is_le v w) (conj (X86FloatProofs.is_greater v w) (X86FloatProofs.is_ge v w))))).
Qed.
Lemma cpu_cmp o a b f f' p : crep a f -> crep b f' -> lanes (fun i => scalar_frel t o (f i) (f' i) = Some (p i)) -> exists r, f_cmp B o a b = Some r /\ repl r p.
Proof.
  intros A A' S. apply (body_l n Hn). intros i Hi. rewrite (crep_lane a f i A Hi), (crep_lane b f' i A' Hi). cbn [bind2 bind].
  destruct (proj2 A i Hi) as (_ & X & D). destruct (proj2 A' i Hi) as (_ & X' & D'). specialize (S i Hi). cbv beta in S. rewrite (frel_ok t o _ _ X X') in S. injection S as <-. rewrite D, D'.
  destruct (rel_orders (decode (ff t) (f i)) (decode (ff t) (f' i))) as (O1 & O2 & O3 & O4 & O5).
  destruct o; cbn [rel_of]; rewrite ?O1, ?O2, ?O3, ?O4, ?O5; match goal with |- _ = Some (canon ?c) => destruct c; reflexivity end.
Qed.

Lemma cpu_float env args : (forall k, crep (env k) (args k)) -> forall ex, (uses_fma ex = true -> c99 = true) -> lanes (fun i => felement t (fun k => args k i) ex <> None) ->
  exists r, fveval B env ex = Some r /\ crep r (fun i => val (felement t (fun k => args k i) ex)).
Proof.
  intros E. eapply (proj1 (feval_ok B t (Z.of_nat n) (c99 = true) crep repl _ cpu_1 cpu_2 cpu_3 _ _ cpu_cmp _ _ _ _ _ _ env args E)).
  Unshelve.
  - intros x Hx. destruct (body_ok n Hn (fun _ => lane_in (ce t) x) (fun _ => x)) as (r & R & L & F); [intros i Hi; destruct t; [congruence|reflexivity|reflexivity]|]. exists r. split; [exact R|]. split; [exact L|]. intros i Hi. rewrite (F i Hi). auto.
  - intros l p a b f f' L A A'. destruct (body_ok n Hn (fun i => bind (CpuSimd.lane l i) (fun x => if negb (x =? 0) then CpuSimd.lane a i else CpuSimd.lane b i)) (fun i => if p i then celt a i else celt b i)) as (r & R & M & F).
    { intros i Hi. rewrite (repl_lane n Hn l p i L Hi). cbn [bind]. destruct (p i); cbn [canon Z.eqb negb]; [exact (crep_lane a f i A Hi)|exact (crep_lane b f' i A' Hi)]. }
    exists r. split; [|split; [exact M|]]; [|intros i Hi; rewrite (F i Hi); destruct (p i); [exact (proj2 A i Hi)|exact (proj2 A' i Hi)]].
    exact R.
  - intros x. apply (body_l n Hn). intros i Hi. destruct (x =? 0); reflexivity.
  - intros o a b p q A A'. destruct o; apply (body_l n Hn); intros i Hi; rewrite (repl_lane n Hn a p i A Hi), (repl_lane n Hn b q i A' Hi); cbn [bind2 bind scalar_lop]; destruct (p i), (q i); reflexivity.
  - intros a p A. apply (body_l n Hn). intros i Hi. rewrite (repl_lane n Hn a p i A Hi). destruct (p i); reflexivity.
  - intros a f A. apply (body_l n Hn). intros i Hi. rewrite (crep_lane a f i A Hi). cbn [bind]. destruct (proj2 A i Hi) as (X & X' & D). rewrite <- (zero_iff t T _ _ X X' D).
    destruct t; [congruence| |]; cbn [ce pattern_of]; unfold s_to_logical; destruct (celt a i =? 0); reflexivity.
  - intros r f g (L & F) G. split; [exact L|]. intros i Hi. rewrite <- (G i Hi). exact (F i Hi).
  - intros r f g (L & F) G. split; [exact L|]. intros i Hi. rewrite <- (G i Hi). exact (F i Hi).
  - lia.
Qed.
End CPU.
