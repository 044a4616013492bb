(** The lane permutations and memory operators of the POWER back ends: egg/platform_ppc.py, [reverse1], [unzip],
    [zip], [zip_unzip_basic], [load1234], [store1234], [maskoz_load], [mask_store], [loadl], [storel], [gather],
    [gather_linear], [scatter], [scatter_linear].

    Vectors are as in Ppc.v: numbers below 2^128, element 0 in the low bits (the little-endian order, in which vec_perm,
    vec_mergeh and vec_mergel number the elements from the lowest address); on vmx the 64-bit types are structures of
    two elements.  A vector of f16 is a pair of vectors of floats (:182-183).  Memory is that of X86Mem.v.

    A vector dereferenced through a pointer that is not a multiple of 16 has no defined value: the type is aligned on
    16 bytes.  vec_ld and vec_st ignore the four low bits of the address.  The conversions of f16 are those of
    fp16.c. *)
From Coq Require Import ZArith List Bool.
From Verif Require Import CInt FloatSpec Fp16 ScalarOps X86Deg234 X86Arith X86Mem Ppc.
Import ListNotations.
Open Scope Z_scope.

(** has_to_be_emulated, every element type but f16 *)
Definition pair_of (e : pext) (t : mty) : bool := match e with Vmx => mw t =? 64 | Vsx => false end.

(** ** Built-ins *)

(** vec_perm(a, b, mask): byte mask[i] of the 32 bytes of a and b *)
Definition vec_perm (a b : Z) (mask : list Z) : Z :=
  build 8 16 (fun i => let k := nth (Z.to_nat i) mask 0 mod 32 in if k <? 16 then lane 8 k a else lane 8 (k - 16) b).
(** vec_mergeh, vec_mergel: the first, the last elements of both arguments alternately *)
Definition vec_merge (lo : bool) (w a b : Z) : Z :=
  let o := if lo then 128 / w / 2 else 0 in
  build w (nlanes 128 w) (fun i => if Z.even i then lane w (o + i / 2) a else lane w (o + i / 2) b).
Definition vec_mergeh := vec_merge false.
Definition vec_mergel := vec_merge true.
(** :280-309 NSIMD_PERMUTE_MASK_8, _16, _32 *)
Definition permute_mask (w : Z) (ks : list Z) : list Z :=
  flat_map (fun k => map (fun j => w / 8 * k + Z.of_nat j) (seq 0 (Z.to_nat (w / 8)))) ks.
(** vec_ld(0, p), vec_st(v, 0, p) *)
Definition vec_ld (m : bmem) (a : Z) : option Z := rdw 128 m (a - a mod 16).
Definition vec_st (m : bmem) (a v : Z) : option bmem := wrw 128 m (a - a mod 16) v.
(** *(__vector T * )p *)
Definition deref (m : bmem) (a : Z) : option Z := if a mod 16 =? 0 then rdw 128 m a else None.
Definition assign (m : bmem) (a v : Z) : option bmem := if a mod 16 =? 0 then wrw 128 m a v else None.

(** ** Permutations *)

(** :1277-1304 [reverse1] *)
Definition p_reverse (e : pext) (t : mty) (a : Z) : Z :=
  if pair_of e t then pair64 (lane 64 1 a) (lane 64 0 a)
  else if mw t =? 8 then vec_perm a a [15; 14; 13; 12; 11; 10; 9; 8; 7; 6; 5; 4; 3; 2; 1; 0]
  else if mw t =? 16 then vec_perm a a [14; 15; 12; 13; 10; 11; 8; 9; 6; 7; 4; 5; 2; 3; 0; 1]
  else if mw t =? 32 then vec_perm a a [12; 13; 14; 15; 8; 9; 10; 11; 4; 5; 6; 7; 0; 1; 2; 3]
  else vec_perm a a [8; 9; 10; 11; 12; 13; 14; 15; 0; 1; 2; 3; 4; 5; 6; 7].
(** :1469-1499 [unzip] *)
Definition unzip_mask (hi : bool) (w : Z) : list Z :=
  let sz := w / 8 in
  flat_map (fun i => map (fun j => 2 * sz * Z.of_nat i + (if hi then sz else 0) + Z.of_nat j) (seq 0 (Z.to_nat sz)))
           (seq 0 (nlanes 128 w)).
Definition p_unzip_half (hi : bool) (e : pext) (t : mty) (a b : Z) : Z :=
  let i := if hi then 1 else 0 in
  if mw t =? 64 then
    if pair_of e t then pair64 (lane 64 i a) (lane 64 i b)
    else vec_insert 64 (lane 64 i b) (vec_splats 64 (lane 64 i a)) 1
  else vec_perm a b (unzip_mask hi (mw t)).
(** :1503-1523 [zip] *)
Definition p_zip_half (hi : bool) (e : pext) (t : mty) (a b : Z) : Z :=
  let i := if hi then 1 else 0 in
  if pair_of e t then pair64 (lane 64 i a) (lane 64 i b) else vec_merge hi (mw t) a b.
(** :1527-1532 [zip_unzip_basic] *)
Definition p_zip (e : pext) (t : mty) (a b : Z) : Z * Z := (p_zip_half false e t a b, p_zip_half true e t a b).
Definition p_unzip (e : pext) (t : mty) (a b : Z) : Z * Z := (p_unzip_half false e t a b, p_unzip_half true e t a b).
(** f16: :1278-1279 [emulate_f16] (:112-122); :1470-1474; :1504-1515 *)
Definition p_reverse16 (e : pext) (v : Z * Z) : Z * Z := (p_reverse e MF32 (fst v), p_reverse e MF32 (snd v)).
Definition p_unzip_half16 (hi : bool) (e : pext) (v w : Z * Z) : Z * Z :=
  (p_unzip_half hi e MF32 (fst v) (snd v), p_unzip_half hi e MF32 (fst w) (snd w)).
Definition p_zip_half16 (hi : bool) (v w : Z * Z) : Z * Z :=
  let a := if hi then snd v else fst v in let b := if hi then snd w else fst w in
  let r0 := vec_insert 32 (lane 32 1 a) (vec_splats 32 (lane 32 0 a)) 2 in
  let r1 := vec_insert 32 (lane 32 3 a) (vec_splats 32 (lane 32 2 a)) 2 in
  (vec_insert 32 (lane 32 1 b) (vec_insert 32 (lane 32 0 b) r0 1) 3, vec_insert 32 (lane 32 3 b) (vec_insert 32 (lane 32 2 b) r1 1) 3).
Definition p_zip16 (v w : Z * Z) : (Z * Z) * (Z * Z) := (p_zip_half16 false v w, p_zip_half16 true v w).
Definition p_unzip16 (e : pext) (v w : Z * Z) : (Z * Z) * (Z * Z) := (p_unzip_half16 false e v w, p_unzip_half16 true e v w).

(** ** Loads and stores *)

(** two elements read one after the other into a vector: a structure on vmx, vec_splats and vec_insert on vsx *)
Definition two64 (e : pext) (x y : Z) : Z := match e with Vmx => pair64 x y | Vsx => vec_insert 64 y (vec_splats 64 x) 1 end.
(** :385-397, :450-455 [load1234], degree 1 *)
Definition p_load (aligned : bool) (e : pext) (t : mty) (m : bmem) (a : Z) : option Z :=
  if mw t =? 64 then bind (rdw 64 m a) (fun x => bind (rdw 64 m (a + 8)) (fun y => Some (two64 e x y)))
  else if aligned then vec_ld m a else deref m a.
(** :624-639, :663-668 [store1234], degree 1 *)
Definition p_store (aligned : bool) (e : pext) (t : mty) (m : bmem) (a v : Z) : option bmem :=
  if mw t =? 64 then bind (wrw 64 m a (lane 64 0 v)) (fun m' => wrw 64 m' (a + 8) (lane 64 1 v))
  else if aligned then vec_st m a v else assign m a v.

Fixpoint p_collect {A} (k : nat) (f : Z -> option A) : option (list A) :=
  match k with
  | O => Some []
  | S k' => bind (p_collect k' f) (fun l => bind (f (Z.of_nat k')) (fun x => Some (l ++ [x])))
  end.
Definition vec_of (l : list Z) (j : Z) : Z := nth (Z.to_nat j) l 0.
(** :477-558: load3 from the three vectors of memory *)
Definition deinterleave3 (w : Z) (in0 in1 in2 : Z) : list Z :=
  let mask := permute_mask w in
  if w =? 32 then
    let perm1 := mask [0; 3; 6; 0] in
    let tmp0 := vec_perm in0 in1 perm1 in let tmp1 := vec_perm in1 in2 perm1 in let tmp2 := vec_perm in2 in0 perm1 in
    [vec_perm tmp0 in2 (mask [0; 1; 2; 5]); vec_perm tmp1 in0 (mask [5; 0; 1; 2]); vec_perm tmp2 in1 (mask [2; 5; 0; 1])]
  else if w =? 16 then
    [vec_perm (vec_perm in0 in1 (mask [0; 3; 6; 9; 12; 15; 0; 0])) in2 (mask [0; 1; 2; 3; 4; 5; 10; 13]);
     vec_perm (vec_perm in0 in1 (mask [1; 4; 7; 10; 13; 0; 0; 0])) in2 (mask [0; 1; 2; 3; 4; 8; 11; 14]);
     vec_perm (vec_perm in0 in1 (mask [2; 5; 8; 11; 14; 0; 0; 0])) in2 (mask [0; 1; 2; 3; 4; 9; 12; 15])]
  else
    [vec_perm (vec_perm in0 in1 (mask [0; 3; 6; 9; 12; 15; 18; 21; 24; 27; 30; 0; 0; 0; 0; 0])) in2
              (mask [0; 1; 2; 3; 4; 5; 6; 7; 8; 9; 10; 17; 20; 23; 26; 29]);
     vec_perm (vec_perm in0 in1 (mask [1; 4; 7; 10; 13; 16; 19; 22; 25; 28; 31; 0; 0; 0; 0; 0])) in2
              (mask [0; 1; 2; 3; 4; 5; 6; 7; 8; 9; 10; 18; 21; 24; 27; 30]);
     vec_perm (vec_perm in0 in1 (mask [2; 5; 8; 11; 14; 17; 20; 23; 26; 29; 0; 0; 0; 0; 0; 0])) in2
              (mask [0; 1; 2; 3; 4; 5; 6; 7; 8; 9; 16; 19; 22; 25; 28; 31])].
(** one level of merges *)
Definition merge4 (w : Z) (in0 in1 in2 in3 : Z) : Z * Z * Z * Z :=
  (vec_mergeh w in0 in2, vec_mergel w in0 in2, vec_mergeh w in1 in3, vec_mergel w in1 in3).
(** the next levels of the loads, :569-617: mergeh(v0, v2), mergel(v0, v2), mergeh(v1, v3), mergel(v1, v3) *)
Definition level4 (w : Z) (v : Z * Z * Z * Z) : Z * Z * Z * Z :=
  let '(v0, v1, v2, v3) := v in merge4 w v0 v1 v2 v3.
Definition list4 (v : Z * Z * Z * Z) : list Z := let '(v0, v1, v2, v3) := v in [v0; v1; v2; v3].
(** :559-619: load4; 32-bit elements go through two levels, 16-bit ones through three, 8-bit ones through four *)
Definition deinterleave4 (w : Z) (in0 in1 in2 in3 : Z) : list Z :=
  let l1 := merge4 w in0 in1 in2 in3 in
  list4 (if w =? 32 then level4 w l1 else if w =? 16 then level4 w (level4 w l1) else level4 w (level4 w (level4 w l1))).
Definition deinterleave (deg : Z) (e : pext) (t : mty) (v : list Z) : list Z :=
  let r := vec_of v in
  if deg =? 2 then let '(x, y) := p_unzip e t (r 0) (r 1) in [x; y]
  else if deg =? 3 then deinterleave3 (mw t) (r 0) (r 1) (r 2)
  else deinterleave4 (mw t) (r 0) (r 1) (r 2) (r 3).
(** :398-418, :457-619: degrees 2, 3 and 4 *)
Definition p_load_deg (deg : Z) (aligned : bool) (e : pext) (t : mty) (m : bmem) (a : Z) : option (list Z) :=
  if mw t =? 64 then
    p_collect (Z.to_nat deg) (fun i => bind (rdw 64 m (a + i * 8)) (fun x => bind (rdw 64 m (a + (i + deg) * 8)) (fun y => Some (two64 e x y))))
  else bind (p_collect (Z.to_nat deg) (fun i => if aligned then vec_ld m (a + i * 16) else deref m (a + i * 16)))
            (fun v => Some (deinterleave deg e t v)).

(** :686-758: store3, the three vectors written to memory *)
Definition interleave3 (w : Z) (a b c : Z) : list Z :=
  let mask := permute_mask w in
  if w =? 32 then
    let perm1 := mask [0; 2; 4; 6] in let perm2 := mask [0; 2; 5; 7] in let perm3 := mask [1; 3; 5; 7] in
    let tmp0 := vec_perm a b perm1 in let tmp1 := vec_perm c a perm2 in let tmp2 := vec_perm b c perm3 in
    [vec_perm tmp0 tmp1 perm1; vec_perm tmp2 tmp0 perm2; vec_perm tmp1 tmp2 perm3]
  else if w =? 16 then
    [vec_perm (vec_perm a b (mask [0; 8; 0; 1; 9; 0; 2; 10])) c (mask [0; 1; 8; 3; 4; 9; 6; 7]);
     vec_perm (vec_perm a b (mask [0; 3; 11; 0; 4; 12; 0; 5])) c (mask [10; 1; 2; 11; 4; 5; 12; 7]);
     vec_perm (vec_perm a b (mask [13; 0; 6; 14; 0; 7; 15; 0])) c (mask [0; 13; 2; 3; 14; 5; 6; 15])]
  else
    [vec_perm (vec_perm a b (mask [0; 16; 0; 1; 17; 0; 2; 18; 0; 3; 19; 0; 4; 20; 0; 5])) c
              (mask [0; 1; 16; 3; 4; 17; 6; 7; 18; 9; 10; 19; 12; 13; 20; 15]);
     vec_perm (vec_perm a b (mask [21; 0; 6; 22; 0; 7; 23; 0; 8; 24; 0; 9; 25; 0; 10; 26])) c
              (mask [0; 21; 2; 3; 22; 5; 6; 23; 8; 9; 24; 11; 12; 25; 14; 15]);
     vec_perm (vec_perm a b (mask [0; 11; 27; 0; 12; 28; 0; 13; 29; 0; 14; 30; 0; 15; 31; 0])) c
              (mask [26; 1; 2; 27; 4; 5; 28; 7; 8; 29; 10; 11; 30; 13; 14; 31])].
(** :759-798: store4, two levels of merges for every width *)
Definition interleave4 (w : Z) (a b c d : Z) : list Z :=
  let tmp0 := vec_mergeh w a c in let tmp1 := vec_mergel w a c in let tmp2 := vec_mergeh w b d in let tmp3 := vec_mergel w b d in
  [vec_mergeh w tmp0 tmp2; vec_mergel w tmp0 tmp2; vec_mergeh w tmp1 tmp3; vec_mergel w tmp1 tmp3].
(** :680-685: store2 *)
Definition interleave (deg : Z) (t : mty) (v : list Z) : list Z :=
  let r := vec_of v in let w := mw t in
  if deg =? 2 then [vec_mergeh w (r 0) (r 1); vec_mergel w (r 0) (r 1)]
  else if deg =? 3 then interleave3 w (r 0) (r 1) (r 2)
  else interleave4 w (r 0) (r 1) (r 2) (r 3).
Fixpoint store_vectors (st : bmem -> Z -> Z -> option bmem) (m : bmem) (a : Z) (l : list Z) : option bmem :=
  match l with
  | [] => Some m
  | v :: l' => bind (st m a v) (fun m' => store_vectors st m' (a + 16) l')
  end.
(** :625-639, :670-798: degrees 2, 3 and 4; the 64-bit elements are written in the order of the addresses *)
Definition p_store_deg (deg : Z) (aligned : bool) (e : pext) (t : mty) (m : bmem) (a : Z) (v : list Z) : option bmem :=
  if mw t =? 64 then
    store_loop 64 (fun _ => true) (fun k => Some (a + k * 8)) (fun k => lane 64 (k / deg) (vec_of v (k mod deg))) (Z.to_nat (2 * deg)) m
  else store_vectors (if aligned then vec_st else assign) m a (interleave deg t v).

(** ** Masked, indexed and strided accesses *)

(** :1745-1766 [maskoz_load]: [f] gives the elements to insert; on vmx the 64-bit types are read field by field *)
Definition p_maskoz_load (e : pext) (t : mty) (l : Z) (m : bmem) (a : Z) (other : Z -> Z) : option Z :=
  let w := mw t in
  let f i := if lane w i l =? 0 then Some (other i) else rdw w m (a + i * (w / 8)) in
  if pair_of e t then emu64 f else insert_from w f 0 (nlanes 128 w) (vec_splats w 0).
Definition p_maskz_load e t l m a := p_maskoz_load e t l m a (fun _ => 0).
Definition p_masko_load e t l m a other := p_maskoz_load e t l m a (fun i => lane (mw t) i other).
(** :1797-1807 [mask_store] *)
Definition p_mask_store (e : pext) (t : mty) (l : Z) (m : bmem) (a v : Z) : option bmem :=
  let w := mw t in
  store_loop w (fun i => negb (lane w i l =? 0)) (fun i => Some (a + i * (w / 8))) (fun i => lane w i v) (nlanes 128 w) m.
(** :1651-1662 [gather]; the offsets are signed integers of the width of the elements *)
Definition p_gather (e : pext) (t : mty) (m : bmem) (a idx : Z) : option Z :=
  let w := mw t in let f i := rdw w m (at_index w a idx i) in
  if pair_of e t then emu64 f else splat_insert w f.
(** :1679-1689 [gather_linear] *)
Definition p_gather_linear (e : pext) (t : mty) (m : bmem) (a step : Z) : option Z :=
  let w := mw t in let f i := if i =? 0 then rdw w m a else bind (at_step w a step i) (rdw w m) in
  if pair_of e t then emu64 f else splat_insert w f.
(** :1623-1628 [scatter] *)
Definition p_scatter (e : pext) (t : mty) (m : bmem) (a idx v : Z) : option bmem :=
  let w := mw t in
  store_loop w (fun _ => true) (fun i => Some (at_index w a idx i)) (fun i => lane w i v) (nlanes 128 w) m.
(** :1705-1709 [scatter_linear] *)
Definition p_scatter_linear (e : pext) (t : mty) (m : bmem) (a step v : Z) : option bmem :=
  let w := mw t in store_loop w (fun _ => true) (at_step w a step) (fun i => lane w i v) (nlanes 128 w) m.
(** :1020-1043 [loadl], [storel], integers *)
Definition p_loadl (aligned : bool) (e : pext) (t : ity) (m : bmem) (a : Z) : option Z :=
  bind (p_load aligned e (MI t) m a) (fun v => Some (p_notl e t (p_eq e t v (p_set1 e t 0)))).
Definition p_storel (aligned : bool) (e : pext) (t : ity) (m : bmem) (a l : Z) : option bmem :=
  p_store aligned e (MI t) m a (p_if_else1 e t l (p_set1 e t 1) (p_set1 e t 0)).

(** ** f16 *)

(** element [i] of the eight, a single *)
Definition elt16 (v : Z * Z) (i : Z) : Z := if i <? 4 then lane 32 i (fst v) else lane 32 (i - 4) (snd v).
(** ret.v0 = vec_splats(f(0)); ret.v0 = vec_insert(f(1), ret.v0, 1); ...; ret.v1 = vec_splats(f(4)); ... *)
Definition fill16 (f : Z -> option Z) : option (Z * Z) :=
  bind (splat_insert 32 f) (fun r0 => bind (splat_insert 32 (fun i => f (i + 4))) (fun r1 => Some (r0, r1))).
(** :419-432; degrees 2 to 4 :433-449 *)
Definition p_load16 (m : bmem) (a : Z) : option (Z * Z) := fill16 (fun i => ld16 m (a + i * 2)).
Definition p_load_deg16 (deg : Z) (m : bmem) (a : Z) : option (list (Z * Z)) :=
  p_collect (Z.to_nat deg) (fun i => fill16 (fun j => ld16 m (a + (i + j / 4 * 4 * deg + j mod 4 * deg) * 2))).
(** :640-652; degrees 2 to 4 :653-662, argument by argument *)
Definition p_store16 (m : bmem) (a : Z) (v : Z * Z) : option bmem :=
  store_loop 16 (fun _ => true) (fun i => Some (a + i * 2)) (fun i => f32_to_u16 (elt16 v i)) 8 m.
Definition p_store_deg16 (deg : Z) (m : bmem) (a : Z) (vs : list (Z * Z)) : option bmem :=
  store_loop 16 (fun _ => true)
    (fun q => Some (a + (q / 8 + q mod 8 / 4 * 4 * deg + q mod 4 * deg) * 2))
    (fun q => f32_to_u16 (elt16 (nth (Z.to_nat (q / 8)) vs (0, 0)) (q mod 8))) (Z.to_nat (8 * deg)) m.
(** :1714-1744: the second vector starts as a copy of the first *)
Definition p_maskoz_load16 (l : Z * Z) (m : bmem) (a : Z) (other : Z -> Z) : option (Z * Z) :=
  let f i := if elt16 l i =? 0 then Some (other i) else ld16 m (a + i * 2) in
  bind (insert_from 32 f 0 4 (vec_splats 32 0)) (fun r0 => bind (insert_from 32 (fun i => f (i + 4)) 0 4 r0) (fun r1 => Some (r0, r1))).
Definition p_maskz_load16 l m a := p_maskoz_load16 l m a (fun _ => 0).
Definition p_masko_load16 l m a other := p_maskoz_load16 l m a (elt16 other).
(** :1771-1796 *)
Definition p_mask_store16 (l : Z * Z) (m : bmem) (a : Z) (v : Z * Z) : option bmem :=
  store_loop 16 (fun i => negb (elt16 l i =? 0)) (fun i => Some (a + i * 2)) (fun i => f32_to_u16 (elt16 v i)) 8 m.
(** :1632-1650: every element is read at the offset vec_extract(in1, 0) *)
Definition p_gather16 (m : bmem) (a idx : Z) : option (Z * Z) := fill16 (fun _ => ld16 m (at_index 16 a idx 0)).
(** :1667-1678 *)
Definition p_gather_linear16 (m : bmem) (a step : Z) : option (Z * Z) :=
  fill16 (fun i => if i =? 0 then ld16 m a else bind (at_step 16 a step i) (ld16 m)).
(** :1603-1622 and :1694-1704 *)
Definition p_scatter16 (m : bmem) (a idx : Z) (v : Z * Z) : option bmem :=
  store_loop 16 (fun _ => true) (fun i => Some (at_index 16 a idx i)) (fun i => f32_to_u16 (elt16 v i)) 8 m.
Definition p_scatter_linear16 (m : bmem) (a step : Z) (v : Z * Z) : option bmem :=
  store_loop 16 (fun _ => true) (at_step 16 a step) (fun i => f32_to_u16 (elt16 v i)) 8 m.
