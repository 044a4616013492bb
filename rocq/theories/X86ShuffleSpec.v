(** Specification vocabulary for the x86 structure loads and stores: array of
    structures <-> registers, at the level of bytes. *)

From Coq Require Import ZArith String List Arith Permutation.
From Verif Require Import X86Shuffle X86Deg234.
Import ListNotations.

(** Bytes in a register, in an element. *)
Definition reg_bytes (e : ext) : nat :=
  match e with
  | Sse2 | Sse42 => 16
  | Avx | Avx2 => 32
  | Avx512Knl | Avx512Skylake => 64
  end.
Definition elt_bytes (t : etyp) : nat :=
  match t with
  | I8 | U8 => 1
  | I16 | U16 => 2
  | I32 | U32 | F32 => 4
  | I64 | U64 | F64 => 8
  end.
Definition lanes_of (e : ext) (t : etyp) : nat := reg_bytes e / elt_bytes t.

(** The [i]-th element of [w] bytes. *)
Definition elt (w i : nat) (l : list Z) : list Z := firstn w (skipn (i * w) l).

(** The functions under their API names: [load234 2] is load2a and load2u,
    returning ret.v0, ret.v1; [store234 2] is store2a and store2u. *)
Definition load_prog (d : nat) : ext -> etyp -> program :=
  match d with 2 => load2 | 3 => load3 | _ => load4 end.
Definition store_prog (d : nat) : ext -> etyp -> program :=
  match d with 2 => store2 | 3 => store3 | _ => store4 end.
Definition load234 (d : nat) (e : ext) (t : etyp) (m : list Z)
  : option (list (list Z)) :=
  load_z (load_prog d e t)
    (firstn d ["ret.v0"; "ret.v1"; "ret.v2"; "ret.v3"]%string) m.
Definition store234 (d : nat) (e : ext) (t : etyp) (vs : list (list Z))
  (m : list Z) : option (list Z) :=
  store_z (store_prog d e t) (firstn d ["a1"; "a2"; "a3"; "a4"]%string) vs m.

(** [vs] are [d] registers of extension [e]. *)
Definition registers (e : ext) (d : nat) (vs : list (list Z)) : Prop :=
  length vs = d /\ Forall (fun v => length v = reg_bytes e) vs.

(** [m] starts with an array of structures of [d] members of type [t], one
    structure per lane: lane [i] of register [k] is member [k] of structure
    number [nth i p 0]. *)
Definition transposed (d : nat) (e : ext) (t : etyp) (p : list nat)
  (m : list Z) (vs : list (list Z)) : Prop :=
  registers e d vs /\
  forall k i, k < d -> i < lanes_of e t ->
    elt (elt_bytes t) i (nth k vs []) =
    elt (elt_bytes t) (d * nth i p 0 + k) m.

(** The combinations for which lane [i] is structure [i]. *)
Definition in_memory_order (d : nat) (e : ext) (t : etyp) : bool :=
  match e, elt_bytes t, d with
  | (Sse2 | Sse42), _, _ => true
  | _, _, 3 => true
  | Avx, 1, 2 => false
  | Avx, 4, _ => false
  | Avx, 8, 2 => false
  | Avx2, 2, _ => false
  | Avx2, 4, _ => false
  | Avx2, 8, 2 => false
  | (Avx512Knl | Avx512Skylake), 2, _ => false
  | (Avx512Knl | Avx512Skylake), 8, 2 => false
  | _, _, _ => true
  end.
