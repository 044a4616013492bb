(** Specification vocabulary for the ARM operators. *)
From Coq Require Import ZArith List Bool.
From Verif Require Import CInt ScalarOps ScalarSpec X86Deg234 X86Arith X86ArithSpec Arm.
Open Scope Z_scope.

(** [r] is a register of extension [e] whose every element, read in type [t], satisfies [P i]. *)
Definition avector (e : aext) (t : ity) (r : Z) (P : Z -> Z -> Prop) : Prop :=
  in_reg (an e) r /\ forall i, 0 <= i < an e / bits t -> P i (elt t r i).

(** [l] is a well-formed logical holding the truth value [p i] in lane [i]: on SVE a predicate, with one
    bit per byte of a register, in which the first bit of the lane is [p i] and its other bits are clear; otherwise,
    and under the option sve_emulate_bool, a lane of a register which is all ones or all zeros. *)
Definition alogical (e : aext) (t : ity) (l : Z) (p : Z -> bool) : Prop :=
  match e with
  | Sve false _ =>
      0 <= l < 2 ^ (an e / 8) /\
      forall i, 0 <= i < an e / bits t ->
        (l / 2 ^ (bits t / 8 * i)) mod 2 ^ (bits t / 8) = if p i then 1 else 0
  | _ =>
      in_reg (an e) l /\
      forall i, 0 <= i < an e / bits t ->
        (l / 2 ^ (bits t * i)) mod 2 ^ bits t = if p i then 2 ^ bits t - 1 else 0
  end.

(** the vector lengths the architecture allows: at most 2048 bits *)
Definition architectural (e : aext) : Prop := an e <= 2048.

(** the extensions on which every operator on logicals compiles: sve_emulate_bool does not give set1l,
    nor what depends on it, a well-typed body *)
Definition native_logicals (e : aext) : Prop := forall vq, e <> Sve true vq.

(** where nsimd uses the scalar C operator lane by lane *)
Definition arm_mul_emulated (e : aext) (t : ity) : bool := is_neon e && (bits t =? 64).
Definition arm_div_emulated (e : aext) (t : ity) : bool := is_neon e || (bits t <? 32).
Definition arm_neg_emulated (e : aext) (t : ity) : bool := is_neon128 e && (bits t =? 64).

(** the values computed on the way by the scalar C code of the fused operators on elements x, y, z: fms is the
    opposite of fnma, and fnms that of fma *)
Definition fma_steps (neg sub : bool) (e : aext) (x y z : Z) : list Z :=
  let x' := if xorb neg sub then - x else x in
  x' :: x' * y :: x' * y + z :: (if sub && is_neon128 e then - (x' * y + z) :: nil else nil).

(** fma, fnma, fms and fnms: [neg] takes the opposite of the product, [sub] subtracts the addend *)
Definition fma_family (neg sub : bool) : Z -> aext -> ity -> Z -> Z -> Z -> option Z :=
  if sub then (if neg then a_fnms else a_fms) else (if neg then a_fnma else a_fma).
