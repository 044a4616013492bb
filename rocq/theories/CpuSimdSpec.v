(** What an expression over vectors means for ONE lane: the same operators on
    scalars and booleans.  Independent of the register model. *)
From Coq Require Import ZArith Bool List.
From Verif Require Import CInt FloatSpec Fp16 ScalarOps CpuSimd.
Import ListNotations.
Open Scope Z_scope.

(** A lane whose bits are all equal to [c]: -1 on signed integers. *)
Definition all_ones_or_zero (t : ety) (c : bool) : Z :=
  if c then match t with
            | EI t => if is_signed t then -1 else 2 ^ bits t - 1
            | EF16 | EF32 => 2 ^ 32 - 1
            | EF64 => 2 ^ 64 - 1
            end
  else 0.

(** The u32 encodings of booleans in vectors of logicals. *)
Definition canon (b : bool) : Z := if b then 2 ^ 32 - 1 else 0.
Definition canonical (r : reg) : Prop := Forall (fun z => z = 0 \/ z = 2 ^ 32 - 1) r.
Definition truth (z : Z) : bool := negb (z =? 0).

(** All results of a list are defined. *)
Definition results {A} (l : list (option A)) (r : list A) : Prop := l = map Some r.

(** [ve k] / [le k]: the value of variable [k] in this lane; [i] the lane number. *)
Fixpoint sveval (t : ety) (ve : nat -> Z) (le : nat -> bool) (i : Z) (e : vexpr) : option Z :=
  match e with
  | VVar k => Some (ve k)
  | VSet x => lane_in t x
  | VUn g a => match sveval t ve le i a with Some x => g x | None => None end
  | VBin g a b => match sveval t ve le i a, sveval t ve le i b with Some x, Some y => g x y | _, _ => None end
  | VTer g a b c => match sveval t ve le i a, sveval t ve le i b, sveval t ve le i c with
                    | Some x, Some y, Some z => g x y z | _, _, _ => None end
  | VShift g a s => match sveval t ve le i a with Some x => g x s | None => None end
  | VIf l a b => match sleval t ve le i l, sveval t ve le i a, sveval t ve le i b with
                 | Some c, Some x, Some y => Some (if c then x else y) | _, _, _ => None end
  | VMask l => match sleval t ve le i l with Some c => Some (all_ones_or_zero t c) | None => None end
  end
with sleval (t : ety) (ve : nat -> Z) (le : nat -> bool) (i : Z) (e : lexpr) : option bool :=
  match e with
  | LVar k => Some (le k)
  | LSet x => Some (negb (x =? 0))
  | LCmp op a b => match sveval t ve le i a, sveval t ve le i b with Some x, Some y => Some (op x y) | _, _ => None end
  | LOr a b => match sleval t ve le i a, sleval t ve le i b with Some x, Some y => Some (x || y) | _, _ => None end
  | LAnd a b => match sleval t ve le i a, sleval t ve le i b with Some x, Some y => Some (x && y) | _, _ => None end
  | LXor a b => match sleval t ve le i a, sleval t ve le i b with Some x, Some y => Some (xorb x y) | _, _ => None end
  | LAndnot a b => match sleval t ve le i a, sleval t ve le i b with Some x, Some y => Some (x && negb y) | _, _ => None end
  | LNot a => match sleval t ve le i a with Some x => Some (negb x) | None => None end
  | LReinterpret a => sleval t ve le i a
  | LTo a => match sveval t ve le i a with Some x => Some (negb (pattern_of t x =? 0)) | None => None end
  | LTail j k => if (- 2 ^ 31 <=? j + i) && (j + i <? 2 ^ 31) then Some (j + i <? k) else None
  end.

(** Number of true lanes. *)
Definition count_true (l : list bool) : Z := Z.of_nat (length (filter (fun b => b) l)).
