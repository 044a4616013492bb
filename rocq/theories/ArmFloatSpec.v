(** Specification vocabulary for the operators of the ARM back ends on floating-point vectors; [compare], [is],
    [opposite], [absolute], [rounded], [tree], [sum], [each_once], [small_sum], [total] and [nonzero] are those of
    X86FloatSpec.v, [fw t] and [ff t] the width and the format of the elements. *)
From Coq Require Import ZArith List Bool.
From Verif Require Import CInt FloatSpec Fp16 ScalarOps X86Deg234 X86Arith X86ArithSpec X86Mem X86MemSpec X86CvtSpec X86FloatSpec Arm ArmSpec ArmPermSpec ArmFloat.
Import ListNotations.
Open Scope Z_scope.

(** The number of elements, the pattern of element [i] and its value. *)
Definition felems (e : aext) (t : fty) : Z := an e / fw t.
Definition fpat (t : fty) (r i : Z) : Z := (r / 2 ^ (fw t * i)) mod 2 ^ fw t.
Definition fvalue (t : fty) (r i : Z) : fval := decode (ff t) (fpat t r i).
(** How the elements [i] of two vectors compare. *)
Definition frel (t : fty) (a b i : Z) : relation := compare (fvalue t a i) (fvalue t b i).
(** A register of floats whose patterns satisfy [P]. *)
Definition fvector (e : aext) (t : fty) (r : Z) (P : Z -> Z -> Prop) : Prop :=
  in_reg (an e) r /\ forall i, 0 <= i < felems e t -> P i (fpat t r i).
(** The same for the eight elements of an f16 vector stored as two registers of singles. *)
Definition fvalue16 (v : Z * Z) (i : Z) : fval := decode binary32 (apattern16 v i).
Definition frel16 (a b : Z * Z) (i : Z) : relation := compare (fvalue16 a i) (fvalue16 b i).
Definition fvector16 (v : Z * Z) (P : Z -> Z -> Prop) : Prop :=
  in_regs16 v /\ forall i, 0 <= i < 8 -> P i (apattern16 v i).

(** The sign of a value. *)
Definition negative (v : fval) : bool := match v with FNaN => false | FInf s => s | FFin s _ => s end.
(** IEEE 754-2019 minimum and maximum: a NaN if one operand is, -0 being less than +0. *)
Definition least (v w : fval) : fval :=
  match compare v w with
  | Unordered => FNaN | Less => v | Greater => w | Equal => if negative v then v else w
  end.
Definition greatest (v w : fval) : fval :=
  match compare v w with
  | Unordered => FNaN | Greater => v | Less => w | Equal => if negative v then w else v
  end.

(** Two ways of summing: halves first, as SVE does, of [2 ^ d] elements from the element [o] on; and the ways
    of NEON. *)
Fixpoint by_halves (d : nat) (o : Z) : tree :=
  match d with O => Leaf o | S d' => Node (by_halves d' o) (by_halves d' (o + 2 ^ Z.of_nat d')) end.
Definition farm_order (e : aext) (t : fty) : tree :=
  match e, t with
  | Sve _ _, _ => by_halves (Z.to_nat (Z.log2_up (felems e t))) 0
  | Neon128, F32 => Node (Node (Leaf 0) (Leaf 2)) (Node (Leaf 1) (Leaf 3))
  | _, F32 => Node (Node (Leaf 0) (Leaf 1)) (Node (Leaf 2) (Leaf 3))
  | _, _ => Node (Leaf 0) (Leaf 1)
  end.
(** The elements followed by zeros. *)
Definition extended (e : aext) (t : fty) (r i : Z) : Z := if i <? felems e t then fpat t r i else 0.
(** f16 as two registers: (a0 + a2) + (a1 + a3) in each, then both. *)
Definition farm_order16 : tree :=
  let h := Node (Node (Leaf 0) (Leaf 2)) (Node (Leaf 1) (Leaf 3)) in Node h (shift 4 h).
