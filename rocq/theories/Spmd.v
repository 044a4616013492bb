(** Model of the SPMD module on CPU (include/nsimd/modules/spmd.hpp:279-714).
    A kernel is a program of the DSL.  [exec] runs it as the CPU macros do: on
    [len] lanes at once, with lane masks; [len] is the vector length times the
    unroll factor.  The kernel type KernelScalar (used for the tail) is the same
    macros with [bool] for masks, that is, one lane, except for k_set on k_bool.
    A register is the function giving its lanes; SIMD operators act lane by lane
    (C16, C24).  Simplifications: values are integers and operators are total;
    nsimd_nat is unbounded; arrays used by a kernel do not overlap partially (two
    array numbers are two disjoint arrays); conditions have no side effect, as in
    the macros they are evaluated more than once. *)
From Coq Require Import ZArith Bool List.
Import ListNotations.
Open Scope Z_scope.

Inductive expr :=
| EVar (x : nat)
| EConst (v : Z)                                   (* literals and kernel arguments *)
| ELoad (a : nat)                                  (* k_load *)
| EULoad (a : nat)                                 (* k_unmasked_load *)
| EUn (g : Z -> Z) (e : expr)
| EBin (g : Z -> Z -> Z) (l r : expr)
| ETer (g : Z -> Z -> Z -> Z) (l r x : expr).
Inductive bexpr :=
| BVar (b : nat)
| BConst (v : bool)
| BTest (g : Z -> bool) (e : expr)
| BCmp (g : Z -> Z -> bool) (l r : expr)
| BOp (g : bool -> bool -> bool) (l r : bexpr)
| BNot (e : bexpr).

Inductive prog :=
| Skip
| Seq (p q : prog)
| Set_ (x : nat) (e : expr)                        (* k_set on k_int, k_uint, k_float *)
| USet (x : nat) (e : expr)                        (* k_unmasked_set *)
| SetB (b : nat) (e : bexpr)                       (* k_set on k_bool *)
| USetB (b : nat) (e : bexpr)
| Store (a : nat) (e : expr)                       (* k_store *)
| UStore (a : nat) (e : expr)                      (* k_unmasked_store *)
| If (c : bexpr) (p : prog) (r : chain)            (* k_if ... k_endif *)
| While (c : bexpr) (p : prog)                     (* k_while ... k_endwhile *)
| Break | Continue | Return
| Call (p : prog)                                  (* call of a spmd_dev_func *)
with chain :=
| EndIf
| Else (p : prog)
| ElseIf (c : bexpr) (p : prog) (r : chain).

Definition lanes (A : Type) := nat -> A.
Definition mem := nat -> Z -> Z.                    (* array number, index *)

(** Registers, memory and the four mask variables in scope (spmd.hpp:318-326 and 637-643). *)
Record st := mk { vars : nat -> lanes Z; bvars : nat -> lanes bool; arr : mem;
                  mask : lanes bool; ret : lanes bool; brk : lanes bool; cnt : lanes bool }.

Definition upd {A} (f : nat -> A) (x : nat) (v : A) : nat -> A := fun y => if Nat.eqb y x then v else f y.
Definition updZ {A} (f : Z -> A) (x : Z) (v : A) : Z -> A := fun y => if Z.eqb y x then v else f y.

Definition with_vars s v := mk v (bvars s) (arr s) (mask s) (ret s) (brk s) (cnt s).
Definition with_bvars s v := mk (vars s) v (arr s) (mask s) (ret s) (brk s) (cnt s).
Definition with_arr s v := mk (vars s) (bvars s) v (mask s) (ret s) (brk s) (cnt s).
Definition with_mask s v := mk (vars s) (bvars s) (arr s) v (ret s) (brk s) (cnt s).
Definition with_ret s v := mk (vars s) (bvars s) (arr s) (mask s) v (brk s) (cnt s).
Definition with_loop s b c := mk (vars s) (bvars s) (arr s) (mask s) (ret s) b c.

Definition bind {A B} (o : option A) (f : A -> option B) : option B := match o with Some x => f x | None => None end.

(** spmd.hpp:566-573 [clear_lanes]: andnotl(mask, lanes). *)
Definition clear_lanes (m lanes_ : lanes bool) : lanes bool := fun l => m l && negb (lanes_ l).

(** spmd.hpp:608-611, 630: [any]. *)
Definition any (len : nat) (m : lanes bool) : bool := existsb m (seq 0 len).

Section Cpu.
Variable simd : bool.        (* KernelSIMD or KernelScalar *)
Variable len : nat.
Variable i : Z.              (* spmd_i_ *)

(** Masked loads read 0 in inactive lanes: spmd.hpp:513-526, 548-559. *)
Fixpoint ev (s : st) (e : expr) : lanes Z :=
  match e with
  | EVar x => vars s x
  | EConst v => fun _ => v
  | ELoad a => fun l => if mask s l then arr s a (i + Z.of_nat l) else 0
  | EULoad a => fun l => arr s a (i + Z.of_nat l)
  | EUn g e => fun l => g (ev s e l)
  | EBin g a b => fun l => g (ev s a l) (ev s b l)
  | ETer g a b c => fun l => g (ev s a l) (ev s b l) (ev s c l)
  end.
Fixpoint evb (s : st) (e : bexpr) : lanes bool :=
  match e with
  | BVar b => bvars s b
  | BConst v => fun _ => v
  | BTest g e => fun l => g (ev s e l)
  | BCmp g a b => fun l => g (ev s a l) (ev s b l)
  | BOp g a b => fun l => g (evb s a l) (evb s b l)
  | BNot a => fun l => negb (evb s a l)
  end.

(** spmd.hpp:496-510, 528-546: mask_storeu writes the active lanes, in lane order. *)
Definition store (m : mem) (a : nat) (msk : lanes bool) (v : lanes Z) : mem :=
  fold_left (fun m l => if msk l then upd m a (updZ (m a) (i + Z.of_nat l) (v l)) else m) (seq 0 len) m.

(** spmd.hpp:576-607 [k_set_]: if_else(mask, value, var) for numbers; mask && value
    for k_bool when SIMD; if (mask) var = value when scalar. *)
Definition kset (msk : lanes bool) (old v : lanes Z) : lanes Z := fun l => if msk l then v l else old l.
Definition ksetb (msk old v : lanes bool) : lanes bool :=
  if simd then fun l => msk l && v l else fun l => if msk l then v l else old l.

(** The three clear_lanes of spmd.hpp:690-692, 703-705, 712-714. *)
Definition clear_off (s : st) : st :=
  with_mask s (clear_lanes (clear_lanes (clear_lanes (mask s) (ret s)) (brk s)) (cnt s)).

Definition none : lanes bool := fun _ => false.

(** [fuel] bounds the number of iterations of each loop; [None]: not finished. *)
Fixpoint exec (fuel : nat) (p : prog) (s : st) {struct p} : option st :=
  match p with
  | Skip => Some s
  | Seq p q => bind (exec fuel p s) (exec fuel q)
  | Set_ x e => Some (with_vars s (upd (vars s) x (kset (mask s) (vars s x) (ev s e))))
  | USet x e => Some (with_vars s (upd (vars s) x (ev s e)))                         (* 614-617 *)
  | SetB b e => Some (with_bvars s (upd (bvars s) b (ksetb (mask s) (bvars s b) (evb s e))))
  | USetB b e => Some (with_bvars s (upd (bvars s) b (evb s e)))
  | Store a e => Some (with_arr s (store (arr s) a (mask s) (ev s e)))
  | UStore a e => Some (with_arr s (store (arr s) a (fun _ => true) (ev s e)))
  | If c p r =>                                                                       (* 678-684 *)
      let cond := evb s c in
      let middle := mask s in
      bind (exec fuel p (with_mask s (fun l => cond l && middle l))) (fun s1 =>
      exec_chain fuel r cond middle (with_mask s1 (mask s)))
  | While c p =>                                                                      (* 637-652, 665-671 *)
      let middle := mask s in
      bind ((fix loop (k : nat) (s : st) : option st :=
        match k with
        | O => None
        | S k =>
            let cond := evb s c in
            if any len cond
            then bind (exec fuel p (with_mask s (clear_lanes (clear_lanes (fun l => cond l && middle l) (brk s)) (ret s))))
                      (fun s1 => loop k (with_mask s1 (mask s)))
            else Some s
        end) fuel (with_loop s none none)) (fun s1 =>
      Some (with_mask (with_loop s1 (brk s) (cnt s)) (clear_lanes (mask s1) (ret s1))))
  | Break => Some (with_mask (with_loop s (fun l => brk s l || mask s l) (cnt s)) none)     (* 655-657 *)
  | Continue => Some (with_mask (with_loop s (brk s) (fun l => cnt s l || mask s l)) none)  (* 660-662 *)
  | Return => Some (with_mask (with_ret s (fun l => ret s l || mask s l)) none)             (* 674-676 *)
  | Call p =>                                    (* 318-326, 345-363: new off-lanes, mask passed by value *)
      bind (exec fuel p (with_ret (with_loop s none none) none)) (fun s1 =>
      Some (with_mask (with_ret (with_loop s1 (brk s) (cnt s)) (ret s)) (mask s)))
  end
with exec_chain (fuel : nat) (r : chain) (cond middle : lanes bool) (s : st) {struct r} : option st :=
  match r with
  | EndIf => Some (clear_off s)                                                       (* 709-714 *)
  | Else q =>                                                                         (* 700-707 *)
      let s := clear_off s in
      let middle := clear_lanes middle cond in
      bind (exec fuel q (with_mask s middle)) (fun s1 => Some (clear_off (with_mask s1 (mask s))))
  | ElseIf c q r =>                                                                   (* 687-697 *)
      let s := clear_off s in
      let middle := clear_lanes middle cond in
      let cond := evb s c in
      bind (exec fuel q (with_mask s (fun l => cond l && middle l))) (fun s1 =>
      exec_chain fuel r cond middle (with_mask s1 (mask s)))
  end.

(** Body of [name(spmd_i_, spmd_mask_, ...)]: spmd.hpp:318-333.  Local variables are
    uninitialised: they hold anything, [v0] and [b0]. *)
Definition kernel (fuel : nat) (p : prog) (v0 : nat -> Z -> Z) (b0 : nat -> Z -> bool) (m : mem) : option mem :=
  bind (exec fuel p (mk (fun x l => v0 x (i + Z.of_nat l)) (fun b l => b0 b (i + Z.of_nat l)) m
                        (fun _ => true) none none none))
       (fun s => Some (arr s)).
End Cpu.

(** spmd.hpp:370-387, 390-407 [spmd_launch_kernel_1d], [spmd_launch_tmpl_kernel_1d]:
    the two loops, for the call [f] with KernelSIMD and [g] with KernelScalar. *)
Section Launch.
Context {S_ : Type}.
Variables (f g : Z -> S_ -> option S_) (len : Z) (n : Z).
Fixpoint simd_loop (k : nat) (i : Z) (s : S_) : option (Z * S_) :=
  match k with
  | O => None
  | S k => if i + len <=? n then bind (f i s) (fun s => simd_loop k (i + len) s) else Some (i, s)
  end.
Fixpoint scalar_loop (k : nat) (i : Z) (s : S_) : option S_ :=
  match k with
  | O => None
  | S k => if i <? n then bind (g i s) (fun s => scalar_loop k (i + 1) s) else Some s
  end.
Definition launch (s : S_) : option S_ :=
  bind (simd_loop (S (Z.to_nat n)) 0 s) (fun '(i, s) => scalar_loop (S (Z.to_nat n)) i s).
End Launch.

(** Launch of kernel [p] over [n] indices with [len] lanes. *)
Definition launch_kernel (len : nat) (n : Z) (fuel : nat) (p : prog) (v0 : nat -> Z -> Z) (b0 : nat -> Z -> bool) (m : mem) : option mem :=
  launch (fun i m => kernel true len i fuel p v0 b0 m) (fun i m => kernel false 1 i fuel p v0 b0 m) (Z.of_nat len) n m.
