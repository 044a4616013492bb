(** The meaning of a kernel for one index: ordinary control flow.  This is also what
    the GPU macros expand to (include/nsimd/modules/spmd.hpp:201-276): k_if is if,
    k_while is while, k_break is break, k_set and k_store are assignments, k_load
    is an array access.  No mask appears here. *)
From Coq Require Import ZArith Bool List.
From Verif Require Import Spmd.
Import ListNotations.
Open Scope Z_scope.

(** Local variables, and the element of each array at the index of the thread. *)
Record thread := th { tv : nat -> Z; tb : nat -> bool; ta : nat -> Z }.
Inductive outcome := Normal | Broke | Continued | Returned.

Fixpoint val (t : thread) (e : expr) : Z :=
  match e with
  | EVar x => tv t x
  | EConst v => v
  | ELoad a | EULoad a => ta t a
  | EUn g e => g (val t e)
  | EBin g a b => g (val t a) (val t b)
  | ETer g a b c => g (val t a) (val t b) (val t c)
  end.
Fixpoint valb (t : thread) (e : bexpr) : bool :=
  match e with
  | BVar b => tb t b
  | BConst v => v
  | BTest g e => g (val t e)
  | BCmp g a b => g (val t a) (val t b)
  | BOp g a b => g (valb t a) (valb t b)
  | BNot a => negb (valb t a)
  end.

(** [fuel] bounds the iterations of each loop; [None]: not finished. *)
Fixpoint run (fuel : nat) (p : prog) (t : thread) {struct p} : option (outcome * thread) :=
  match p with
  | Skip => Some (Normal, t)
  | Seq p q => bind (run fuel p t) (fun '(o, t) => match o with Normal => run fuel q t | _ => Some (o, t) end)
  | Set_ x e | USet x e => Some (Normal, th (upd (tv t) x (val t e)) (tb t) (ta t))
  | SetB b e | USetB b e => Some (Normal, th (tv t) (upd (tb t) b (valb t e)) (ta t))
  | Store a e | UStore a e => Some (Normal, th (tv t) (tb t) (upd (ta t) a (val t e)))
  | If c p r => if valb t c then run fuel p t else run_chain fuel r t
  | While c p =>
      (fix loop (k : nat) (t : thread) : option (outcome * thread) :=
        match k with
        | O => None
        | S k =>
            if valb t c
            then bind (run fuel p t) (fun '(o, t) =>
                 match o with Normal | Continued => loop k t | Broke => Some (Normal, t) | Returned => Some (Returned, t) end)
            else Some (Normal, t)
        end) fuel t
  | Break => Some (Broke, t)
  | Continue => Some (Continued, t)
  | Return => Some (Returned, t)
  | Call p => bind (run fuel p t) (fun '(_, t) => Some (Normal, t))
  end
with run_chain (fuel : nat) (r : chain) (t : thread) {struct r} : option (outcome * thread) :=
  match r with
  | EndIf => Some (Normal, t)
  | Else q => run fuel q t
  | ElseIf c q r => if valb t c then run fuel q t else run_chain fuel r t
  end.

(** Kernels the equivalence is about.  [masked p]: no k_unmasked_set, no
    k_unmasked_store, no k_set on k_bool, no k_continue; k_break only inside k_while
    (otherwise the kernel does not compile for GPUs). *)
Fixpoint masked (in_loop : bool) (p : prog) : bool :=
  match p with
  | Skip | Set_ _ _ | Store _ _ | Return => true
  | Seq p q => masked in_loop p && masked in_loop q
  | USet _ _ | SetB _ _ | USetB _ _ | UStore _ _ | Continue => false
  | If _ p r => masked in_loop p && maskedc in_loop r
  | While _ p => masked true p
  | Break => in_loop
  | Call p => masked false p
  end
with maskedc (in_loop : bool) (r : chain) : bool :=
  match r with EndIf => true | Else p => masked in_loop p | ElseIf _ p r => masked in_loop p && maskedc in_loop r end.

(** No k_while anywhere. *)
Fixpoint loop_free (p : prog) : bool :=
  match p with
  | Seq p q => loop_free p && loop_free q
  | If _ p r => loop_free p && loop_freec r
  | While _ _ => false
  | Call p => loop_free p
  | _ => true
  end
with loop_freec (r : chain) : bool :=
  match r with EndIf => true | Else p => loop_free p | ElseIf _ p r => loop_free p && loop_freec r end.

(** The thread of index [i] in a memory, with given initial local variables. *)
Definition thread_of (v0 : nat -> Z -> Z) (b0 : nat -> Z -> bool) (m : mem) (i : Z) : thread :=
  th (fun x => v0 x i) (fun b => b0 b i) (fun a => m a i).

(** The state of lane [l] of a SIMD execution at [spmd_i_ = i], seen as a thread, and
    equality of threads. *)
Definition lane (i : Z) (s : st) (l : nat) : thread :=
  th (fun x => vars s x l) (fun b => bvars s b l) (fun a => arr s a (i + Z.of_nat l)).
Definition teq (a b : thread) : Prop :=
  (forall x, tv a x = tv b x) /\ (forall x, tb a x = tb b x) /\ (forall x, ta a x = ta b x).
(** The lane has not executed k_return, k_break or k_continue. *)
Definition clear (s : st) (l : nat) : Prop := ret s l = false /\ brk s l = false /\ cnt s l = false.

(** When does the SIMD execution of loops terminate?  A k_while goes on as long as its
    condition is true in some lane, whether or not the lane takes part in the loop.
    [val0], [valb0]: value of an expression in a lane that is switched off, where
    k_load reads 0.  [idle p t]: with the thread in state [t] and switched off, every
    loop condition of [p] is false. *)
Fixpoint val0 (t : thread) (e : expr) : Z :=
  match e with
  | EVar x => tv t x
  | EConst v => v
  | ELoad a => 0
  | EULoad a => ta t a
  | EUn g e => g (val0 t e)
  | EBin g a b => g (val0 t a) (val0 t b)
  | ETer g a b c => g (val0 t a) (val0 t b) (val0 t c)
  end.
Fixpoint valb0 (t : thread) (e : bexpr) : bool :=
  match e with
  | BVar b => tb t b
  | BConst v => v
  | BTest g e => g (val0 t e)
  | BCmp g a b => g (val0 t a) (val0 t b)
  | BOp g a b => g (valb0 t a) (valb0 t b)
  | BNot a => negb (valb0 t a)
  end.
Fixpoint idle (p : prog) (t : thread) : bool :=
  match p with
  | Seq p q => idle p t && idle q t
  | If _ p r => idle p t && idlec r t
  | While c p => negb (valb0 t c) && idle p t
  | Call p => idle p t
  | _ => true
  end
with idlec (r : chain) (t : thread) : bool :=
  match r with EndIf => true | Else p => idle p t | ElseIf _ p r => idle p t && idlec r t end.

(** [clean fuel p t]: run alone from [t], the thread finishes (each loop in fewer than
    [fuel] tests), and wherever it is switched off - in the branch it does not take,
    after its k_break or k_return, in a loop it has left - the loop conditions that
    the other lanes may still evaluate are false in its state. *)
Fixpoint clean (fuel : nat) (p : prog) (t : thread) {struct p} : bool :=
  match p with
  | Seq p q => clean fuel p t &&
      match run fuel p t with Some (Normal, t) => clean fuel q t | Some (_, t) => idle q t | None => false end
  | If c p r =>
      if valb t c
      then clean fuel p t && match run fuel p t with Some (_, t) => idlec r t | None => false end
      else idle p t && cleanc fuel r t
  | While c p =>
      (fix loop (k : nat) (t : thread) : bool :=
        match k with
        | O => false
        | S k =>
            if valb t c
            then clean fuel p t &&
                 match run fuel p t with
                 | Some (Normal, t) | Some (Continued, t) => loop k t
                 | Some (_, t) => negb (valb t c) && idle p t && negb (Nat.eqb k 0)
                 | None => false
                 end
            else idle p t
        end) fuel t
  | Call p => clean fuel p t
  | _ => true
  end
with cleanc (fuel : nat) (r : chain) (t : thread) {struct r} : bool :=
  match r with
  | EndIf => true
  | Else p => clean fuel p t
  | ElseIf c p r =>
      if valb t c
      then clean fuel p t && match run fuel p t with Some (_, t) => idlec r t | None => false end
      else idle p t && cleanc fuel r t
  end.

(** Kernels whose loops are not nested in anything and contain no k_break and no
    k_return, and that have no k_return before a loop: [flat]. *)
Fixpoint no_exit (p : prog) : bool :=
  match p with
  | Seq p q => no_exit p && no_exit q
  | If _ p r => no_exit p && no_exitc r
  | While _ p => no_exit p
  | Break | Continue | Return => false
  | _ => true
  end
with no_exitc (r : chain) : bool :=
  match r with EndIf => true | Else p => no_exit p | ElseIf _ p r => no_exit p && no_exitc r end.
Fixpoint flat (p : prog) : bool :=
  match p with
  | Seq p q => flat p && flat q
  | While _ p => loop_free p && no_exit p
  | If _ p r => loop_free p && loop_freec r && no_exit p && no_exitc r
  | Call p => loop_free p
  | Break | Continue | Return => false
  | _ => true
  end.

(** [leaves_true]: alone, the thread leaves the loop by k_break or k_return with the condition still true. *)
Fixpoint leaves_true (fuel : nat) (c : bexpr) (p : prog) (k : nat) (t : thread) : bool :=
  match k with
  | O => false
  | S k => valb t c &&
      match run fuel p t with
      | Some (Normal, t) | Some (Continued, t) => leaves_true fuel c p k t
      | Some (_, t) => valb t c
      | None => false
      end
  end.
