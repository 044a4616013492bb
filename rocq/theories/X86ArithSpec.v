(** Specification vocabulary for the x86 operators: what it means for a register or a mask to hold
    given values or given truth values. *)
From Coq Require Import ZArith List Bool.
From Verif Require Import CInt ScalarOps ScalarSpec X86Deg234 X86Arith.
Open Scope Z_scope.

(** A register of [n] bits. *)
Definition in_reg (n r : Z) : Prop := 0 <= r < 2 ^ n.

(** The value, in type [t], of element [i] of register [r]: the bits [w*i .. w*i+w-1] read as a number of
    type [t] (two's complement when [t] is signed). *)
Definition elt (t : ity) (r i : Z) : Z := cast t ((r / 2 ^ (bits t * i)) mod 2 ^ bits t).

(** [r] is a register of extension [e] whose every element satisfies [P i]. *)
Definition vector (e : ext) (t : ity) (r : Z) (P : Z -> Z -> Prop) : Prop :=
  in_reg (nb e) r /\ forall i, 0 <= i < nb e / bits t -> P i (elt t r i).

(** [l] is a well-formed logical holding the truth value [p i] in lane [i]: on AVX-512 bit [i] of a
    mask, otherwise a lane of a register which is all ones or all zeros. *)
Definition logical (e : ext) (t : ity) (l : Z) (p : Z -> bool) : Prop :=
  if is512 e
  then 0 <= l < 2 ^ (nb e / bits t) /\ forall i, 0 <= i < nb e / bits t -> Z.testbit l i = p i
  else in_reg (nb e) l /\
       forall i, 0 <= i < nb e / bits t ->
         (l / 2 ^ (bits t * i)) mod 2 ^ bits t = if p i then 2 ^ bits t - 1 else 0.

(** Number of indices below [k] on which [p] is true. *)
Definition count_true (k : Z) (p : Z -> bool) : Z :=
  Z.of_nat (length (filter (fun i => p (Z.of_nat i)) (seq 0 (Z.to_nat k)))).

(** ** Partial operators *)

(** The extensions and types for which nsimd computes the product lane by lane with the scalar C operator, on which signed overflow is undefined. *)
Definition mul_emulated (e : ext) (t : ity) : bool :=
  match e with
  | Avx512Skylake => false
  | Sse2 => 32 <=? bits t
  | _ => bits t =? 64
  end.

(** the quotients the scalar division does not define *)
Definition bad_div (t : ity) (x y : Z) : Prop :=
  y = 0 \/ (is_signed t = true /\ 32 <= bits t /\ x = ty_min t /\ y = -1).

(** first factor of the fused operators, an element of the type *)
Definition fma_factor (t : ity) (neg : bool) (x : Z) : Z := if neg then cast t (- x) else x.
Definition fma_value (neg sub : bool) (x y z : Z) : Z := (if neg then - x else x) * y + (if sub then - z else z).

(** the extension whose multiplication the fused operators use *)
Definition fma_ext (e : ext) : ext := match e with Avx => Sse42 | Avx512Knl => Avx2 | _ => e end.
