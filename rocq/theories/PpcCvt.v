(** The conversions of the POWER back ends: cvt, upcvt, downcvt, reinterpret and reinterpretl of
    egg/platform_ppc.py.

    Vectors are those of Ppc.v; vectors of f16 are pairs of vectors of singles.  [c_cast] is the C cast of X86Cvt.v,
    undefined when a float is converted to an integer type that cannot hold its truncated value.  Simplification: as in
    Ppc.v the casts between vector types are no-ops and are left out. *)
From Coq Require Import ZArith List Bool.
From Verif Require Import CInt FloatSpec Fp16 ScalarOps X86Deg234 X86Arith X86Mem X86Cvt Ppc PpcMem.
Open Scope Z_scope.

(** ** Built-ins *)

(** one element of vec_cts and vec_ctu with scale 0: truncation toward zero, saturating.  A NaN gives zero, except
    for xvcvdpsxds, doubles to i64, which gives the least integer. *)
Definition vec_ct1 (t : ity) (f : fmt) (b : Z) : Z :=
  match decode f b with
  | FNaN => if is_signed t && (bits t =? 64) then ty_min t else 0
  | FInf s => if s then ty_min t else ty_max t
  | FFin s m => saturate t (sval s (m / 2 ^ scale f))
  end.
(** vec_cts, vec_ctu from the float type [f] to the integer type [t] of the same width *)
Definition vec_ct (t : ity) (f : mty) : Z -> Z := vec_1 (bits t) (vec_ct1 t (mfmt f)).
(** vec_ctf with scale 0, from the integer type [t]: nearest, ties to even *)
Definition vec_ctf (t : ity) (f : mty) : Z -> Z := vec_1 (bits t) (fun x => float_of_int (mfmt f) (cast t x)).
(** vec_unpackh, vec_unpackl: the first and the second half of the signed elements, sign extended *)
Definition vec_unpack (second : bool) (w a : Z) : Z :=
  build (2 * w) (nlanes 128 (2 * w)) (fun i => to_s w (lane w ((if second then 128 / (2 * w) else 0) + i) a)).
(** vec_pack: the low halves of the elements of [a], then of those of [b] *)
Definition vec_pack (w a b : Z) : Z :=
  build (w / 2) (nlanes 128 (w / 2)) (fun i => if i <? 128 / w then lane w i a else lane w (i - 128 / w) b).

(** (to)x as the element of a vector *)
Definition cast_elt (from to : mty) (x : Z) : option Z := option_map (fun y => y mod 2 ^ mw to) (c_cast from to x).
(** a structure on vmx, vec_splats and vec_insert otherwise *)
Definition fill (e : pext) (t : mty) (f : Z -> option Z) : option Z :=
  if pair_of e t then emu64 f else splat_insert (mw t) f.

(** ** :1132-1173 [convert1]; on vmx the `return a0` of equal 64-bit integer types is covered by the loop, the cast to the
    same type being the identity *)
Definition p_cvt (e : pext) (from to : mty) (a : Z) : option Z :=
  if pair_of e to then
    match from, to with
    | MF64, MF64 => Some a
    | _, _ => emu64 (fun i => cast_elt from to (lane 64 i a))
    end
  else match from, to with
       | MF32, MI t | MF64, MI t => Some (vec_ct t from a)
       | MI t, MF32 | MI t, MF64 => Some (vec_ctf t to a)
       | _, _ => Some a
       end.
(** to f16, :1145-1159: the elements of u16 are sign extended and masked *)
Definition p_cvt_to16 (t : ity) (a : Z) : Z * Z :=
  let half second := let x := vec_unpack second 16 a in
                     vec_ctf i32 MF32 (if is_signed t then x else vec_and x (vec_splats 32 0xFFFF)) in
  (half false, half true).
(** from f16, :1135-1144 *)
Definition p_cvt_from16 (t : ity) (v : Z * Z) : Z :=
  vec_pack 32 (vec_ct (resized t 32) MF32 (fst v)) (vec_ct (resized t 32) MF32 (snd v)).

(** ** :1339-1419 [upcvt1] *)

(** integers to integers, :1383-1419 *)
Definition p_upcvt_int (e : pext) (t v : ity) (a : Z) : option (Z * Z) :=
  if bits t =? 32 then
    bind (fill e (MI v) (fun i => cast_elt (MI t) (MI v) (lane 32 i a))) (fun r0 =>
    bind (fill e (MI v) (fun i => cast_elt (MI t) (MI v) (lane 32 (i + 2) a))) (fun r1 => Some (r0, r1)))
  else if is_signed t then Some (vec_unpack false (bits t) a, vec_unpack true (bits t) a)
  else let mask := vec_splats (bits v) (2 ^ bits t - 1) in
       Some (vec_and (vec_unpack false (bits t) a) mask, vec_and (vec_unpack true (bits t) a) mask).
(** :1358-1382 *)
Definition p_upcvt (e : pext) (from to : mty) (a : Z) : option (Z * Z) :=
  match from, to with
  | MI t, MI v => p_upcvt_int e t v a
  | MF32, _ =>
      bind (fill e to (fun i => cast_elt MF32 to (lane 32 i a))) (fun r0 =>
      bind (fill e to (fun i => cast_elt MF32 to (lane 32 (i + 2) a))) (fun r1 => Some (r0, r1)))
  | MI t, _ => let s := resized t (mw to) in bind (p_upcvt_int e t s a) (both (p_cvt e (MI s) to))
  | MF64, _ => None
  end.
(** :1340-1346 *)
Definition p_upcvt_to16 (e : pext) (t : ity) (a : Z) : option ((Z * Z) * (Z * Z)) :=
  bind (p_upcvt_int e t i16 a) (fun tmp => Some (p_cvt_to16 i16 (fst tmp), p_cvt_to16 i16 (snd tmp))).
(** :1347-1357 *)
Definition p_upcvt_from16 (to : mty) (v : Z * Z) : Z * Z :=
  match to with MI t => (vec_ct t MF32 (fst v), vec_ct t MF32 (snd v)) | _ => v end.

(** ** :1424-1465 [downcvt1] *)
Definition p_downcvt (from to : mty) (a b : Z) : option Z :=
  if mw from =? 64 then
    splat_insert 32 (fun i => if i <? 2 then cast_elt from to (lane 64 i a) else cast_elt from to (lane 64 (i - 2) b))
  else match from, to with
       | MI t, MI _ => Some (vec_pack (bits t) a b)
       | MF32, MI v => Some (vec_pack 32 (vec_ct (resized v 32) MF32 a) (vec_ct (resized v 32) MF32 b))
       | _, _ => None
       end.
(** :1445-1449, :1453-1457 *)
Definition p_downcvt_to16 (from : mty) (a b : Z) : Z * Z :=
  match from with MI t => (vec_ctf t MF32 a, vec_ctf t MF32 b) | _ => (a, b) end.
(** :1458-1465 *)
Definition p_downcvt_from16 (v : ity) (x y : Z * Z) : Z :=
  let ct := vec_ct (resized v 32) MF32 in
  vec_pack 16 (vec_pack 32 (ct (fst x)) (ct (snd x))) (vec_pack 32 (ct (fst y)) (ct (snd y))).

(** ** :1177-1272 [reinterpret1]: a no-op but for f16 *)
Definition p_reinterpret_to16 (a : Z) : option (Z * Z) := fill16 (fun i => u16_to_f32 (lane 16 i a)).
Definition p_reinterpret_from16 (v : Z * Z) : option Z := splat_insert 16 (fun i => Some (f32_to_u16 (elt16 v i))).

(** ** :1077-1127 [reinterpretl1]: a no-op but for f16 *)
Definition p_reinterpretl_to16 (l : Z) : option (Z * Z) := fill16 (fun i => Some ((if lane 16 i l =? 0 then 0 else -1) mod 2 ^ 32)).
Definition p_reinterpretl_from16 (l : Z * Z) : option Z := splat_insert 16 (fun i => Some (elt16 l i mod 2 ^ 16)).
