(** What a program of Portable.v means for ONE element: the C expression on scalars, evaluated with the operators of
    egg/scalar.py (ScalarOps.v).  [None]: the expression is undefined, or one of its operators gives different results on
    different back ends. *)
From Coq Require Import ZArith List Bool.
From Verif Require Import CInt ScalarOps Portable.
Open Scope Z_scope.

Definition scalar1 (t : ity) (o : op1) (x : Z) : option Z :=
  match o with Neg => s_neg t x | Abs => s_abs t x | Notb => Some (s_notb t x) end.

(** subs of the most negative value is not portable (C10, C49) *)
Definition scalar2 (t : ity) (o : op2) (x y : Z) : option Z :=
  match o with
  | Add => s_add t x y | Sub => s_sub t x y | Mul => s_mul t x y | Div => s_div t x y
  | Min => Some (s_min x y) | Max => Some (s_max x y)
  | Adds => s_adds t x y | Subs => if is_signed t && (y =? ty_min t) then None else s_subs t x y
  | Orb => Some (s_orb t x y) | Andb => Some (s_andb t x y) | Xorb => Some (s_xorb t x y) | Andnotb => Some (s_andnotb t x y)
  end.

(** On signed types of 32 and 64 bits the back ends take opposites at different places: the first factor, the
    product and the result must have an opposite in the type (C49, C74, C98). *)
Definition has_opposite (t : ity) (z : Z) : bool := (- ty_max t <=? z) && (z <=? ty_max t).
Definition scalar3 (t : ity) (o : op3) (x y z : Z) : option Z :=
  match o with
  | Muladd neg sub =>
      let p := if neg then - (x * y) else x * y in
      let r := if sub then p - z else p + z in
      if is_signed t && (32 <=? bits t) && negb (has_opposite t x && has_opposite t p && has_opposite t r) then None
      else (if sub then if neg then s_fnms t x y z else s_fms t x y z else if neg then s_fnma t x y z else s_fma t x y z)
  end.

(** shift counts at least the width of the type are not portable, nor is shra on unsigned types (C99) *)
Definition scalar_shift (t : ity) (o : shift) (x s : Z) : option Z :=
  if (0 <=? s) && (s <? bits t)
  then match o with Shl => s_shl t x s | Shr => s_shr t x s | Shra => if is_signed t then s_shra t x s else None end
  else None.
Definition scalar_rel (r : rel) (x y : Z) : bool :=
  match r with Eq => s_eq x y | Ne => s_ne x y | Lt => s_lt x y | Le => s_le x y | Gt => s_gt x y | Ge => s_ge x y end.
Definition scalar_lop (o : lop) (x y : bool) : bool :=
  match o with Orl => x || y | Andl => x && y | Xorl => xorb x y | Andnotl => x && negb y end.

(** [env k]: the element of argument [k]; [i]: its position *)
Fixpoint element (t : ity) (env : nat -> Z) (i : Z) (e : vexp) : option Z :=
  match e with
  | Arg k => Some (env k)
  | Splat x => if (ty_min t <=? x) && (x <=? ty_max t) then Some x else None
  | Iota => Some (cast t i)
  | Op1 o a => match element t env i a with Some x => scalar1 t o x | None => None end
  | Op2 o a b => match element t env i a, element t env i b with Some x, Some y => scalar2 t o x y | _, _ => None end
  | Op3 o a b c => match element t env i a, element t env i b, element t env i c with Some x, Some y, Some z => scalar3 t o x y z | _, _, _ => None end
  | Shift o a s => match element t env i a with Some x => scalar_shift t o x s | None => None end
  | IfElse l a b => match logical_element t env i l, element t env i a, element t env i b with Some c, Some x, Some y => Some (if c then x else y) | _, _, _ => None end
  | ToMask l => match logical_element t env i l with Some c => Some (s_to_mask t c) | None => None end
  end
with logical_element (t : ity) (env : nat -> Z) (i : Z) (e : lexp) : option bool :=
  match e with
  | Splatl x => Some (negb (x =? 0))
  | Cmp r a b => match element t env i a, element t env i b with Some x, Some y => Some (scalar_rel r x y) | _, _ => None end
  | Logic o a b => match logical_element t env i a, logical_element t env i b with Some x, Some y => Some (scalar_lop o x y) | _, _ => None end
  | Notl a => match logical_element t env i a with Some x => Some (negb x) | None => None end
  | ToLogical a => match element t env i a with Some x => Some (s_to_logical x) | None => None end
  end.
