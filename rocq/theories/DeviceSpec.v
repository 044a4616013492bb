(** Specification vocabulary for the operators inside GPU kernels and for the scalar operators on bits. *)
From Coq Require Import ZArith Bool.
From Verif Require Import CInt FloatSpec ScalarOps ScalarSpec ArmFloat ScalarBits Device ScalarFloat X86FloatSpec FloatArithSpec FloatVecSpec.
Open Scope Z_scope.

(** A C expression of type [t] whose exact value is [z], evaluated in int when [t] is narrower than int: the value modulo
    2^bits; undefined when the type of the evaluation is signed and does not hold [z]. *)
Definition int_result (t : ity) (z : Z) (o : option Z) : Prop :=
  match o with
  | Some r => wraps_to t z r /\ (is_signed (promote t) = false \/ in_ty (promote t) z)
  | None => is_signed (promote t) = true /\ ~ in_ty (promote t) z
  end.

(** The int [r] is 1 when [P] holds, 0 otherwise. *)
Definition truth (r : Z) (P : Prop) : Prop := (r = 1 /\ P) \/ (r = 0 /\ ~ P).

(** The element types, and the representations of values of a type: an integer of the type, a pattern. *)
Definition element_type (t : sty) : Prop := match t with SI t => List.In t int_types | SF _ => True end.
Definition valid (t : sty) (x : Z) : Prop := match t with SI t => in_ty t x | SF t => 0 <= x < 2 ^ fw t end.
(** [r] is a value of type [t] whose bit [i] is [bit i]; the bits of a negative integer are those of its two's complement. *)
Definition has_bits (t : sty) (r : Z) (bit : Z -> bool) : Prop := valid t r /\ forall i, 0 <= i < sw t -> Z.testbit r i = bit i.

(** The smaller, the greater of two floats: one of the two, not more (less) than any of them that is a number; so a NaN only
    when both are.  Which zero is the smaller one is left open. *)
Definition at_most (v w : fval) : Prop := w <> FNaN -> compare v w = Less \/ compare v w = Equal.
Definition at_least (v w : fval) : Prop := w <> FNaN -> compare v w = Greater \/ compare v w = Equal.
Definition smaller_of (f : fmt) (a b r : Z) : Prop :=
  (same_number f r a \/ same_number f r b) /\ at_most (decode f r) (decode f a) /\ at_most (decode f r) (decode f b).
Definition greater_of (f : fmt) (a b r : Z) : Prop :=
  (same_number f r a \/ same_number f r b) /\ at_least (decode f r) (decode f a) /\ at_least (decode f r) (decode f b).

(** Halves computed by half-precision instructions: CUDA, from compute capability 5.3 on. *)
Definition half_hardware (d : dev) (arch : bool) (t : fty) : Prop := d = Cuda /\ arch = true /\ t = F16.

(** [o] is a pattern of type [t] satisfying [P]. *)
Definition gives (t : fty) (o : option Z) (P : Z -> Prop) : Prop := exists r, o = Some r /\ 0 <= r < 2 ^ fw t /\ P r.
(** Both are patterns of the same number. *)
Definition same_results (t : fty) (o o' : option Z) : Prop :=
  exists r r', o = Some r /\ o' = Some r' /\ 0 <= r < 2 ^ fw t /\ 0 <= r' < 2 ^ fw t /\ same_number (ff t) r r'.

(** Operators by name. *)
Definition g_arith (o : arith) : dev -> bool -> fty -> Z -> Z -> option Z :=
  match o with Add => g_addf | Sub => g_subf | Mul => g_mulf | Div => g_divf end.
Definition sf_arith (o : arith) : fty -> Z -> Z -> option Z :=
  match o with Add => sf_add | Sub => sf_sub | Mul => sf_mul | Div => sf_div end.
Definition g_muladd (o : muladd) : dev -> bool -> fty -> Z -> Z -> Z -> option Z :=
  match o with Fma => g_fmaf | Fms => g_fmsf | Fnma => g_fnmaf | Fnms => g_fnmsf end.
(** a b + c, a b - c, - a b + c, - a b - c on integers *)
Definition exact_muladd (o : muladd) (a b c : Z) : Z :=
  match o with Fma => a * b + c | Fms => a * b - c | Fnma => - (a * b) + c | Fnms => - (a * b) - c end.
Definition g_imuladd (o : muladd) : dev -> ity -> Z -> Z -> Z -> option Z :=
  match o with Fma => g_fma | Fms => g_fms | Fnma => g_fnma | Fnms => g_fnms end.
(** Every step of the evaluation of (a b + c), (a b - c), ((- a) b + c), ((- a) b - c) is in the range of the type of the
    evaluation; unsigned types hold every step modulo 2^bits. *)
Definition steps_fit (o : muladd) (t : ity) (a b c : Z) : Prop :=
  is_signed (promote t) = false \/
  (match o with Fnma | Fnms => in_ty (promote t) (- a) | _ => True end /\
   in_ty (promote t) (match o with Fnma | Fnms => - (a * b) | _ => a * b end) /\
   in_ty (promote t) (exact_muladd o a b c)).
(** [o] is [z] modulo 2^bits when all the steps fit, undefined otherwise. *)
Definition muladd_result (m : muladd) (t : ity) (a b c : Z) (o : option Z) : Prop :=
  match o with
  | Some r => wraps_to t (exact_muladd m a b c) r /\ steps_fit m t a b c
  | None => ~ steps_fit m t a b c
  end.
(** [o] is the float [x] truncated to an integer of type [u], undefined when that is none. *)
Definition truncation (f : fmt) (u : ity) (x : Z) (o : option Z) : Prop :=
  match o with
  | Some z => X86CvtSpec.truncates f x z /\ in_ty u z
  | None => ~ exists z, X86CvtSpec.truncates f x z /\ in_ty u z
  end.
