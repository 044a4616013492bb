(** Specification vocabulary for the x86 memory operators. *)
From Coq Require Import ZArith List Bool.
From Verif Require Import CInt FloatSpec Fp16 Fp16Spec ScalarOps ScalarSpec X86Deg234 X86Arith X86ArithSpec X86Mem.
Open Scope Z_scope.

(** The element types of the operators; f16 is treated apart. *)
Definition mem_type (t : mty) : Prop := match t with MI t => In t int_types | _ => True end.
(** Number of elements of a register. *)
Definition elems (e : ext) (t : mty) : Z := nb e / mw t.

(** The [w] bits at address [a] hold the number [v], least significant byte first. *)
Definition holds (w : Z) (m : bmem) (a v : Z) : Prop :=
  0 <= v < 2 ^ w /\ forall k, 0 <= k < w / 8 -> exists b, m (a + k) = Some b /\ b mod 256 = (v / 2 ^ (8 * k)) mod 256.
(** All the bytes at address [a] exist. *)
Definition mapped (w : Z) (m : bmem) (a : Z) : Prop := forall k, 0 <= k < w / 8 -> m (a + k) <> None.
(** Address [x] is not in the [w] bits at address [a]. *)
Definition outside (w a x : Z) : Prop := x < a \/ a + w / 8 <= x.

(** Element [i] of a register, as a bit pattern. *)
Definition pattern (t : mty) (r i : Z) : Z := (r / 2 ^ (mw t * i)) mod 2 ^ mw t.

(** The index held by lane [i] of a vector of offsets: a signed integer of the width of the elements. *)
Definition index (w idx i : Z) : Z := to_s w ((idx / 2 ^ (w * i)) mod 2 ^ w).

(** Element [i] of an f16 vector: a single-precision pattern, in the first or the second register. *)
Definition pattern16 (e : ext) (v : Z * Z) (i : Z) : Z :=
  let h := nb e / 32 in
  if i <? h then (fst v / 2 ^ (32 * i)) mod 2 ^ 32 else (snd v / 2 ^ (32 * (i - h))) mod 2 ^ 32.
Definition in_reg16 (e : ext) (v : Z * Z) : Prop := in_reg (nb e) (fst v) /\ in_reg (nb e) (snd v).
Definition logical16 (e : ext) (l : Z * Z) (p : Z -> bool) : Prop :=
  logical e u32 (fst l) p /\ logical e u32 (snd l) (fun i => p (i + nb e / 32)).

(** A copy of the half [h] in single precision. *)
Definition half_as_single (h u : Z) : Prop := u16_to_f32 h = Some u /\ decode binary32 u = Fp16Spec.widen (decode binary16 h).
