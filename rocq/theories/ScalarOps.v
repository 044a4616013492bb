(** Model of the generated scalar operators (egg/scalar.py) on integer types.

    C semantics made explicit: operands of types narrower than [int] are
    promoted to [int] (32 bits); arithmetic on a signed type that leaves its
    range is undefined ([None]); arithmetic on an unsigned type wraps; the final
    cast [(typ)] wraps (two's complement). *)
From Coq Require Import ZArith Bool List.
From Verif Require Import CInt.
Import ListNotations.
Open Scope Z_scope.

(** The eight integer types of nsimd (include/nsimd/nsimd.h, [u8 .. i64]). *)
Record ity := Ity { is_signed : bool; bits : Z }.

Definition i8 := Ity true 8.    Definition u8 := Ity false 8.
Definition i16 := Ity true 16.  Definition u16 := Ity false 16.
Definition i32 := Ity true 32.  Definition u32 := Ity false 32.
Definition i64 := Ity true 64.  Definition u64 := Ity false 64.
Definition int_types := [i8; u8; i16; u16; i32; u32; i64; u64].

Definition ty_min (t : ity) : Z := if is_signed t then - 2 ^ (bits t - 1) else 0.
Definition ty_max (t : ity) : Z := if is_signed t then 2 ^ (bits t - 1) - 1 else 2 ^ bits t - 1.

(** C cast [(typ)z]. *)
Definition cast (t : ity) (z : Z) : Z := if is_signed t then to_s (bits t) z else to_u (bits t) z.

(** Integer promotion ([int] is 32 bits on all targets of nsimd). *)
Definition promote (t : ity) : ity := if bits t <? 32 then i32 else t.

(** Result of an arithmetic operation whose exact result is [z], in type [t]. *)
Definition carith (t : ity) (z : Z) : option Z :=
  if is_signed t then
    if (ty_min t <=? z) && (z <=? ty_max t) then Some z else None
  else Some (to_u (bits t) z).

Definition bind {A B} (o : option A) (f : A -> option B) : option B :=
  match o with None => None | Some x => f x end.

Definition casted (t : ity) (o : option Z) : option Z := bind o (fun z => Some (cast t z)).

(** egg/scalar.py:27-41 [opnum] with '+', '-', '*', '/', unary '-' (454-458). *)
Definition s_add (t : ity) (a b : Z) : option Z := casted t (carith (promote t) (a + b)).
Definition s_sub (t : ity) (a b : Z) : option Z := casted t (carith (promote t) (a - b)).
Definition s_mul (t : ity) (a b : Z) : option Z := casted t (carith (promote t) (a * b)).
Definition s_div (t : ity) (a b : Z) : option Z :=
  if b =? 0 then None else casted t (carith (promote t) (Z.quot a b)).
Definition s_neg (t : ity) (a : Z) : option Z := casted t (carith (promote t) (- a)).

(** egg/scalar.py:371-380 [abs] on integers. *)
Definition s_abs (t : ity) (a : Z) : option Z :=
  if negb (is_signed t) then Some a
  else if 0 <=? a then Some (cast t a) else casted t (carith (promote t) (- a)).

(** egg/scalar.py:381-390 [min]/[max]: [a < b ? a : b], [a > b ? a : b]. *)
Definition s_min (a b : Z) : Z := if a <? b then a else b.
Definition s_max (a b : Z) : Z := if b <? a then a else b.

(** egg/scalar.py:410-412 [(typ)(a * b + c)]. *)
Definition s_fma (t : ity) (a b c : Z) : option Z :=
  casted t (bind (carith (promote t) (a * b)) (fun p => carith (promote t) (p + c))).

(** egg/scalar.py:421-427 [(typ)((neg a) * b op c)] *)
Definition s_fms (t : ity) (a b c : Z) : option Z :=
  casted t (bind (carith (promote t) (a * b)) (fun p => carith (promote t) (p - c))).
Definition s_fnma (t : ity) (a b c : Z) : option Z :=
  casted t (bind (carith (promote t) (- a)) (fun n =>
            bind (carith (promote t) (n * b)) (fun p => carith (promote t) (p + c)))).
Definition s_fnms (t : ity) (a b c : Z) : option Z :=
  casted t (bind (carith (promote t) (- a)) (fun n =>
            bind (carith (promote t) (n * b)) (fun p => carith (promote t) (p - c)))).

(** egg/scalar.py:78-80 [shl]: [(typ)(a << s)].  Defined when the shift amount is
    in the width of the promoted type.  Simplification: shifting a negative or
    overflowing signed operand keeps the low bits, as GCC, Clang and MSVC define
    it (ISO C99 leaves it undefined). *)
Definition s_shl (t : ity) (a s : Z) : option Z :=
  if (0 <=? s) && (s <? bits (promote t)) then Some (cast t (Z.shiftl a s)) else None.

(** Unsigned right shift in the promoted type. *)
Definition u_shr (t : ity) (a s : Z) : option Z :=
  if (0 <=? s) && (s <? bits (promote t)) then Some (cast t (Z.shiftr a s)) else None.

(** The unsigned type of the same width ([common.bitfield_type]). *)
Definition uty (t : ity) : ity := Ity false (bits t).

(** egg/scalar.py:81-89 [shr]. *)
Definition s_shr (t : ity) (a s : Z) : option Z :=
  if negb (is_signed t) then u_shr t a s
  else bind (u_shr (uty t) (cast (uty t) a) s) (fun r => Some (cast t r)).

(** egg/scalar.py:81-82,90-103 [shra]. *)
Definition s_shra (t : ity) (a s : Z) : option Z :=
  if negb (is_signed t) then u_shr t a s
  else if s =? 0 then Some a
  else if 0 <=? a then bind (u_shr (uty t) (cast (uty t) a) s) (fun r => Some (cast t r))
  else
    bind (s_shl (uty t) (cast (uty t) (-1)) (bits t - s)) (fun mask =>
    bind (u_shr (uty t) (cast (uty t) a) s) (fun r =>
      Some (cast t (cast (uty t) (Z.lor mask r))))).

(** egg/scalar.py:63-74,449-453 [opbit]: unsigned types directly, the others
    through the unsigned type of the same width. *)
Definition s_opbit (t : ity) (f : Z -> Z -> Z) (a b : Z) : Z :=
  if negb (is_signed t) then cast t (f a b)
  else cast t (cast (uty t) (f (cast (uty t) a) (cast (uty t) b))).
Definition s_orb t := s_opbit t Z.lor.
Definition s_andb t := s_opbit t Z.land.
Definition s_andnotb t := s_opbit t (fun a b => Z.land a (Z.lnot b)).
Definition s_xorb t := s_opbit t Z.lxor.
Definition s_notb t a := s_opbit t (fun a _ => Z.lnot a) a 0.

(** egg/scalar.py:292-322 [adds].  Unsigned: [tmp = (typ)(a + b)] and the wrap
    test; signed: case analysis on the signs, all evaluations in the promoted
    type. *)
Definition s_adds (t : ity) (a b : Z) : option Z :=
  if negb (is_signed t) then
    bind (s_add t a b) (fun tmp =>
      Some (if (tmp <? a) || (tmp <? b) then cast t (-1) else tmp))
  else if ((0 <=? a) && (b <=? 0)) || ((a <=? 0) && (0 <=? b)) then s_add t a b
  else if 0 <? a then
    bind (carith (promote t) (ty_max t - a)) (fun lim =>
      if lim <? b then Some (ty_max t) else s_add t a b)
  else
    bind (carith (promote t) (ty_min t - a)) (fun lim =>
      if b <? lim then Some (ty_min t) else s_add t a b).

(** egg/scalar.py:326-338 [subs].  Signed: [adds(a, (typ)(-b))]. *)
Definition s_subs (t : ity) (a b : Z) : option Z :=
  if negb (is_signed t) then
    if a <? b then Some 0 else s_sub t a b
  else bind (s_neg t b) (fun nb => s_adds t a nb).

(** include/nsimd/nsimd.h:1141-1177 portable branch of [nsimd_popcnt32_],
    [nsimd_popcnt64_]: [for (i = 0; i < n; i++) ret += (int)((a >> i) & 1);]
    The compiler built-ins of the other branches are assumed to count bits. *)
Fixpoint popcnt_loop (n : nat) (i : Z) (a ret : Z) : Z :=
  match n with
  | O => ret
  | S n' => popcnt_loop n' (i + 1) a (ret + Z.land (Z.shiftr a i) 1)
  end.
Definition popcnt32 (a : Z) : Z := popcnt_loop 32 0 a 0.
Definition popcnt64 (a : Z) : Z := popcnt_loop 64 0 a 0.
(** include/nsimd/nsimd.h:1158-1162 64-bit count from two 32-bit counts. *)
Definition popcnt64_split (a : Z) : Z := popcnt32 (Z.land a 0xFFFFFFFF) + popcnt32 (to_u 32 (Z.shiftr a 32)).

(** egg/scalar.py:45-59,459-464 comparisons. *)
Definition s_lt (a b : Z) : bool := a <? b.
Definition s_le (a b : Z) : bool := a <=? b.
Definition s_gt (a b : Z) : bool := b <? a.
Definition s_ge (a b : Z) : bool := b <=? a.
Definition s_eq (a b : Z) : bool := a =? b.
Definition s_ne (a b : Z) : bool := negb (a =? b).

(** egg/scalar.py:391-403 [to_logical], [to_mask] on integers; 219-269
    [reinterpret] between integer types of the same width; 273-288 [cvt]
    between integer types. *)
Definition s_to_logical (a : Z) : bool := negb (a =? 0).
Definition s_to_mask (t : ity) (b : bool) : Z :=
  if negb (is_signed t) then cast t (if b then -1 else 0)
  else cast t (cast (uty t) (if b then -1 else 0)).
Definition s_reinterpret (from to : ity) (a : Z) : Z := cast to (cast (uty from) a).
Definition s_cvt (to : ity) (a : Z) : Z := cast to a.
