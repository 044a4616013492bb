(** The scalar operators that work on bits or change the type: egg/scalar.py, logicals, bitwise operators, masks,
    reinterpret and cvt, on the types ScalarOps.v does not cover.

    A value of an integer type is that integer, a value of a float type is its IEEE pattern; [rep] goes to the bits of an
    object and [value_of] back.  nsimd_f16_to_f32 and nsimd_f32_to_f16 are those of Fp16.v.  With NSIMD_ARM_FP16 the
    casts of f16 are those of __fp16, which converts through float with the same results. *)
From Coq Require Import ZArith Bool.
From Verif Require Import CInt FloatSpec Fp16 ScalarOps X86Cvt ArmFloat.
Open Scope Z_scope.

(** The eleven element types. *)
Inductive sty := SI (t : ity) | SF (t : fty).
Definition sw (t : sty) : Z := match t with SI t => bits t | SF t => fw t end.
Definition rep (t : sty) (x : Z) : Z := match t with SI t => cast (uty t) x | SF _ => x end.
Definition value_of (t : sty) (b : Z) : Z := match t with SI t => cast t b | SF _ => b end.

(** ** Logicals: the C type int; egg/scalar.py:466-470 *)
Definition c_true (x : Z) : bool := negb (x =? 0).
Definition c_int (b : bool) : Z := if b then 1 else 0.
Definition sl_and (a b : Z) : Z := c_int (c_true a && c_true b).
Definition sl_or (a b : Z) : Z := c_int (c_true a || c_true b).
Definition sl_xor (a b : Z) : Z := Z.lxor a b.
Definition sl_andnot (a b : Z) : Z := c_int (c_true a && negb (c_true b)).
Definition sl_not (a : Z) : Z := c_int (negb (c_true a)).

(** ** egg/scalar.py:63-74, 449-453 [opbit] on floats: through the unsigned type of the same width *)
Definition sf_opbit (op : Z -> Z -> Z) (t : fty) (a b : Z) : Z := cast (fu t) (op a b).
Definition sf_orb := sf_opbit Z.lor.
Definition sf_andb := sf_opbit Z.land.
Definition sf_andnotb := sf_opbit (fun a b => Z.land a (Z.lnot b)).
Definition sf_xorb := sf_opbit Z.lxor.
Definition sf_notb (t : fty) (a : Z) : Z := sf_opbit (fun a _ => Z.lnot a) t a 0.

(** ** egg/scalar.py:391-403 on floats *)
Definition sf_to_logical (t : fty) (a : Z) : Z := c_int (negb (a =? 0)).
Definition sf_to_mask (t : fty) (l : Z) : Z := cast (fu t) (if c_true l then -1 else 0).

(** ** egg/scalar.py:219-269: same type, union, memcpy and the member u of f16 all keep the bytes *)
Definition sc_reinterpret (from to : sty) (x : Z) : Z := value_of to (rep from x).

(** ** egg/scalar.py:273-288 *)
Definition same_sty (a b : sty) : bool :=
  match a, b with
  | SI t, SI u => Bool.eqb (is_signed t) (is_signed u) && (bits t =? bits u)
  | SF t, SF u => fw t =? fw u
  | _, _ => false
  end.
Definition sc_cvt (from to : sty) (x : Z) : option Z :=
  if same_sty from to then Some x
  else match from, to with
       | SI _, SI u => Some (cast u x)
       | SI _, SF F16 => Some (f32_to_u16 (float_of_int binary32 x))
       | SI _, SF u => Some (float_of_int (ff u) x)
       | SF F16, SI u => bind (u16_to_f32 x) (int_of_float u binary32)
       | SF t, SI u => int_of_float u (ff t) x
       | SF _, SF _ => None (* no such pair of different types of the same width *)
       end.
