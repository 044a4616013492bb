(** Specification vocabulary for the operators on floating-point vectors. *)
From Coq Require Import ZArith List Bool Permutation.
From Verif Require Import CInt FloatSpec ScalarOps X86Deg234 X86Arith X86ArithSpec X86Mem X86MemSpec X86CvtSpec.
Import ListNotations.
Open Scope Z_scope.

(** The four ways two floats compare (IEEE 754, 5.11). *)
Inductive relation := Less | Equal | Greater | Unordered.
Definition compare (x y : fval) : relation :=
  match x, y with
  | FNaN, _ | _, FNaN => Unordered
  | FInf s, FInf s' => if Bool.eqb s s' then Equal else if s then Less else Greater
  | FInf s, FFin _ _ => if s then Less else Greater
  | FFin _ _, FInf s => if s then Greater else Less
  | FFin s m, FFin s' m' =>
      match sval s m ?= sval s' m' with Lt => Less | Eq => Equal | Gt => Greater end
  end.
Definition is (r r' : relation) : bool :=
  match r, r' with
  | Less, Less | Equal, Equal | Greater, Greater | Unordered, Unordered => true
  | _, _ => false
  end.
(** Element [i] of a float register, and of an f16 vector (single precision). *)
Definition value (t : mty) (r i : Z) : fval := decode (format t) (pattern t r i).
Definition value16 (e : ext) (v : Z * Z) (i : Z) : fval := decode binary32 (pattern16 e v i).
(** How the elements [i] of two vectors compare. *)
Definition rel (t : mty) (a b : Z) (i : Z) : relation := compare (value t a i) (value t b i).
Definition rel16 (e : ext) (a b : Z * Z) (i : Z) : relation := compare (value16 e a i) (value16 e b i).

(** A float register whose elements' patterns satisfy [P]; an f16 vector likewise. *)
Definition vectorf (e : ext) (t : mty) (r : Z) (P : Z -> Z -> Prop) : Prop :=
  in_reg (nb e) r /\ forall i, 0 <= i < elems e t -> P i (pattern t r i).
Definition vector16 (e : ext) (v : Z * Z) (P : Z -> Z -> Prop) : Prop :=
  in_reg16 e v /\ forall i, 0 <= i < nb e / 16 -> P i (pattern16 e v i).

(** The opposite and the absolute value. *)
Definition opposite (v : fval) : fval :=
  match v with FNaN => FNaN | FInf s => FInf (negb s) | FFin s m => FFin (negb s) m end.
Definition absolute (v : fval) : fval :=
  match v with FNaN => FNaN | FInf _ => FInf false | FFin _ m => FFin false m end.

(** Rounding to an integer in the direction given by [P]: the finite float [x] becomes the float
    of the same sign whose value is an integer [k] with [P x k] ([x] in units, see FloatSpec.v);
    infinities and NaN's stay. *)
Definition rounded (f : fmt) (P : Z -> Z -> Prop) (v r : fval) : Prop :=
  match v with
  | FFin s m => exists m' k, r = FFin s m' /\ sval s m' = k * one f /\ P (sval s m) k
  | _ => r = v
  end.
Definition down (f : fmt) (x k : Z) : Prop := k * one f <= x < (k + 1) * one f.
Definition up (f : fmt) (x k : Z) : Prop := (k - 1) * one f < x <= k * one f.
Definition toward_zero (f : fmt) (x k : Z) : Prop :=
  Z.abs k * one f <= Z.abs x < (Z.abs k + 1) * one f /\ 0 <= x * k.
Definition nearest (f : fmt) (x k : Z) : Prop :=
  2 * Z.abs (k * one f - x) <= one f /\ (2 * Z.abs (k * one f - x) = one f -> Z.even k = true).

(** A way of summing: a binary tree over the elements. *)
Inductive tree := Leaf (i : Z) | Node (l r : tree).
Fixpoint leaves (t : tree) : list Z := match t with Leaf i => [i] | Node l r => leaves l ++ leaves r end.
Fixpoint sum (add : Z -> Z -> Z) (t : tree) (x : Z -> Z) : Z :=
  match t with Leaf i => x i | Node l r => add (sum add l x) (sum add r x) end.
(** Exact sums of the first [k] elements. *)
Definition total (k : Z) (x : Z -> Z) : Z := fold_right (fun i s => x (Z.of_nat i) + s) 0 (seq 0 (Z.to_nat k)).
(** All the elements 0, ..., k - 1 once. *)
Definition each_once (k : Z) (t : tree) : Prop := Permutation (leaves t) (map Z.of_nat (seq 0 (Z.to_nat k))).

(** Neither zero: [x != 0] on floats, true of NaN's. *)
Definition nonzero (f : fmt) (b : Z) : bool := negb (is (compare (decode f b) (FFin false 0)) Equal).
(** What [loadl] makes of the half [h]: AVX-512 looks at the bits, the others at the value. *)
Definition half_true (e : ext) (h : Z) : bool := if is512 e then negb (h =? 0) else nonzero binary16 h.

(** The order in which each extension adds the elements. *)
Definition addv_order (e : ext) (t : mty) : tree :=
  match t with
  | MF64 =>
      match e with
      | Sse2 | Sse42 => Node (Leaf 0) (Leaf 1)
      | Avx | Avx2 => Node (Node (Leaf 2) (Leaf 0)) (Node (Leaf 3) (Leaf 1))
      | _ => Node (Node (Node (Leaf 2) (Leaf 6)) (Node (Leaf 0) (Leaf 4))) (Node (Node (Leaf 3) (Leaf 7)) (Node (Leaf 1) (Leaf 5)))
      end
  | _ =>
      let four f := Node (Node (f 0) (f 1)) (Node (f 2) (f 3)) in
      match e with
      | Sse2 | Sse42 => four Leaf
      | Avx | Avx2 => four (fun i => Node (Leaf (i + 4)) (Leaf i))
      | _ => four (fun i => Node (Node (Leaf i) (Leaf (i + 4))) (Node (Leaf (i + 8)) (Leaf (i + 12))))
      end
  end.
(** f16: the low half, the high half, then both. *)
Fixpoint shift (k : Z) (t : tree) : tree := match t with Leaf i => Leaf (i + k) | Node l r => Node (shift k l) (shift k r) end.
Definition addv_order16 (e : ext) : tree := Node (addv_order e MF32) (shift (nb e / 32) (addv_order e MF32)).
(** From the first element to the last: the order of the emulation. *)
Fixpoint left_to_right (k : nat) : tree := match k with O => Leaf 0 | S k' => Node (left_to_right k') (Leaf (Z.of_nat (S k'))) end.
(** Elements with the values [n i] times the power of two [2 ^ j], whose sums all fit in a significand. *)
Definition small_sum (f : fmt) (k : Z) (v : Z -> fval) (j : Z) (n : Z -> Z) : Prop :=
  0 <= j < 2 ^ ebits f - 3 /\
  (forall i, 0 <= i < k -> exists s m, v i = FFin s m /\ sval s m = n i * 2 ^ j) /\
  total k (fun i => Z.abs (n i)) <= 2 ^ (mbits f + 1).
