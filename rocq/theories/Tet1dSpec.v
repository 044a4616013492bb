(** Specification vocabulary for TET1D: the value of an expression at index i is the
    expression applied to the i-th elements of its arrays. *)
From Coq Require Import ZArith Bool List.
From Verif Require Import ScalarOps CpuSimd Tet1d.
Import ListNotations.
Open Scope Z_scope.

(** The input arrays (pointer, size) of an expression. *)
Fixpoint arrays (e : expr) : list (Z * Z) :=
  match e with
  | EScal _ => []
  | EIn data sz => [(data, sz)]
  | EUn _ e | EShift _ e _ => arrays e
  | EBin _ l r => arrays l ++ arrays r
  | ETer _ l r x => arrays l ++ arrays r ++ arrays x
  end.
Fixpoint arraysb (e : bexpr) : list (Z * Z) :=
  match e with
  | BTest _ e => arrays e
  | BCmp _ l r => arrays l ++ arrays r
  | BBin _ l r => arraysb l ++ arraysb r
  | BNot e => arraysb e
  end.

(** Value of an expression whose arrays hold, at the index of interest, [elem data]. *)
Fixpoint value (elem : Z -> option Z) (e : expr) : option Z :=
  match e with
  | EScal v => Some v
  | EIn data _ => elem data
  | EUn g e => bind (value elem e) g
  | EShift g e s => bind (value elem e) (fun x => g x s)
  | EBin g l r => bind (value elem l) (fun a => bind (value elem r) (g a))
  | ETer g l r x => bind (value elem l) (fun a => bind (value elem r) (fun b => bind (value elem x) (g a b)))
  end.
Fixpoint valueb (elem : Z -> option Z) (e : bexpr) : option bool :=
  match e with
  | BTest g e => bind (value elem e) (fun x => Some (g x))
  | BCmp g l r => bind (value elem l) (fun a => bind (value elem r) (fun b => Some (g a b)))
  | BBin o l r => bind (valueb elem l) (fun a => bind (valueb elem r) (fun b =>
      Some match o with Band => a && b | Bor => a || b | Bxor => xorb a b | Bandnot => a && negb b end))
  | BNot e => bind (valueb elem e) (fun a => Some (negb a))
  end.
(** The i-th elements in memory [m]. *)
Definition nth_elem (m : mem) (i : Z) (data : Z) : option Z := m (data + i).

(** Each array is the output itself or shares no element with it (of the first n). *)
Definition no_partial_overlap (dst n : Z) (l : list (Z * Z)) : Prop :=
  Forall (fun a => fst a = dst \/ fst a + n <= dst \/ dst + n <= fst a) l.
(** An array is readable over its declared size. *)
Definition readable (m : mem) (a : Z * Z) : Prop := forall i, 0 <= i < snd a -> m (fst a + i) <> None.
