(** The integer operators of the POWER back ends: egg/platform_ppc.py, extensions vmx and vsx.

    A vector is an integer in [0, 2^128), element 0 being the least significant one, as in X86Arith.v.
    The 64-bit types of vmx, which are structures [{ v0; v1 }], are represented in the same
    way: [v0] is lane 0 and [v1] is lane 1; the vectors of logicals alike.

    The first part transcribes the meaning of the AltiVec and VSX built-ins the generator emits (AltiVec Technology
    Programming Interface Manual, Power Vector Intrinsics Programming Reference); it is part of the trusted
    base.  All of them number elements and, for [vec_perm], bytes in memory order on both
    endiannesses.  The second part transcribes the emitted code function by function.

    Simplifications: reinterpreting casts between vector types are no-ops and are left out. *)
From Coq Require Import ZArith List Bool.
From Verif Require Import CInt ScalarOps X86Deg234 X86Arith.
Import ListNotations.
Open Scope Z_scope.

(** egg/platform_ppc.py:173-174 [get_simd_exts] *)
Inductive pext := Vmx | Vsx.

(** :36-41 [has_to_be_emulated], integers *)
Definition emulated64 (e : pext) (t : ity) : bool := match e with Vmx => bits t =? 64 | Vsx => false end.
(** :82-83 [get_len], :803-804 [len1] *)
Definition p_len (t : ity) : Z := 128 / bits t.

(** ** Built-ins: [w] = element size *)

Definition vec_1 (w : Z) (f : Z -> Z) : Z -> Z := lanewise1 128 w f.
Definition vec_2 (w : Z) (f : Z -> Z -> Z) : Z -> Z -> Z := lanewise2 128 w f.
Definition vec_splats (w x : Z) : Z := build w (nlanes 128 w) (fun _ => x).
Definition vec_extract (t : ity) (a i : Z) : Z := cast t (lane (bits t) i a).
Definition vec_insert (w x a i : Z) : Z := build w (nlanes 128 w) (fun j => if j =? i then x else lane w j a).
Definition vec_add w := vec_2 w Z.add.
Definition vec_sub w := vec_2 w Z.sub.
Definition vec_mul w := vec_2 w Z.mul.
Definition vec_neg w := vec_1 w Z.opp.
Definition vec_abs (w : Z) : Z -> Z := vec_1 w (fun x => Z.abs (to_s w x)).
Definition vec_min (t : ity) := vec_2 (bits t) (fun x y => Z.min (cast t x) (cast t y)).
Definition vec_max (t : ity) := vec_2 (bits t) (fun x y => Z.max (cast t x) (cast t y)).
Definition vec_adds (t : ity) := vec_2 (bits t) (fun x y => saturate t (cast t x + cast t y)).
Definition vec_subs (t : ity) := vec_2 (bits t) (fun x y => saturate t (cast t x - cast t y)).
(** vec_and, vec_or, vec_xor, vec_andc (a & ~b), vec_nor; vec_sel(a, b, c) takes the bits of b where c has ones *)
Definition vec_and (a b : Z) : Z := Z.land a b.
Definition vec_or (a b : Z) : Z := Z.lor a b.
Definition vec_xor (a b : Z) : Z := Z.lxor a b.
Definition vec_andc (a b : Z) : Z := Z.land a (Z.lnot b).
Definition vec_nor (a b : Z) : Z := (Z.lnot (Z.lor a b)) mod 2 ^ 128.
Definition vec_sel (a b c : Z) : Z := Z.lor (Z.land a (Z.lnot c)) (Z.land b c).
(** vec_sl, vec_sr, vec_sra: the count of each lane is taken modulo its width; vec_sra replicates the
    sign bit, in the unsigned types too *)
Definition vec_sl w := vec_2 w (fun x s => x * 2 ^ (s mod w)).
Definition vec_sr w := vec_2 w (fun x s => x / 2 ^ (s mod w)).
Definition vec_sra w := vec_2 w (fun x s => to_s w x / 2 ^ (s mod w)).
(** vec_cmp{eq,lt,le,gt,ge} *)
Definition vec_cmp (p : Z -> Z -> bool) (t : ity) := vec_2 (bits t) (fun x y => if p (cast t x) (cast t y) then -1 else 0).
(** vec_all_ne, vec_any_ne *)
Definition vec_all_ne (w a b : Z) : bool :=
  forallb (fun i => negb (lane w (Z.of_nat i) a =? lane w (Z.of_nat i) b)) (seq 0 (nlanes 128 w)).
Definition vec_any_ne (w a b : Z) : bool :=
  existsb (fun i => negb (lane w (Z.of_nat i) a =? lane w (Z.of_nat i) b)) (seq 0 (nlanes 128 w)).

(** ** Emulations *)

(** the structure { v0; v1 } *)
Definition pair64 (x y : Z) : Z := build 64 2 (fun i => if i =? 0 then x else y).
(** :86-110 [emulate_64] on vectors: ret.v{i} = nsimd_scalar_{op}(a.v{i}, ..); *)
Definition emu64 (f : Z -> option Z) : option Z :=
  bind (f 0) (fun x => bind (f 1) (fun y => Some (pair64 x y))).
Definition emu64_1 (t : ity) (f : Z -> option Z) (a : Z) : option Z := emu64 (fun i => f (cast t (lane 64 i a))).
Definition emu64_2 (t : ity) (f : Z -> Z -> option Z) (a b : Z) : option Z :=
  emu64 (fun i => f (cast t (lane 64 i a)) (cast t (lane 64 i b))).
Definition emu64_3 (t : ity) (f : Z -> Z -> Z -> option Z) (a b c : Z) : option Z :=
  emu64 (fun i => f (cast t (lane 64 i a)) (cast t (lane 64 i b)) (cast t (lane 64 i c))).
(** [emulate_64] with a logical result: ret.v{i} = (u64)(nsimd_scalar_{op}(..) ? -1 : 0); *)
Definition emu64_l (p : Z -> bool) : Z := pair64 (if p 0 then -1 else 0) (if p 1 then -1 else 0).
(** a logical argument: (int)(a.v{i} & ((u64)1)) *)
Definition logical_arg (a i : Z) : Z := cast i32 (Z.land (lane 64 i a) 1).
(** ret = vec_insert(f(i), ret, i); for [k] consecutive indices from [i]; [emulate_with_scalar] :133-165 starts
    with ret = vec_splats(f(0)) and inserts from index 1 *)
Fixpoint insert_from (w : Z) (f : Z -> option Z) (i : Z) (k : nat) (r : Z) : option Z :=
  match k with
  | O => Some r
  | S k' => bind (f i) (fun x => insert_from w f (i + 1) k' (vec_insert w x r i))
  end.
Definition splat_insert (w : Z) (f : Z -> option Z) : option Z :=
  bind (f 0) (fun x => insert_from w f 1 (nlanes 128 w - 1) (vec_splats w x)).

(** ** Operators *)

(** :809-812 [simple_op2] *)
Definition p_add (e : pext) (t : ity) (a b : Z) : option Z :=
  if emulated64 e t then emu64_2 t (s_add t) a b else Some (vec_add (bits t) a b).
Definition p_sub (e : pext) (t : ity) (a b : Z) : option Z :=
  if emulated64 e t then emu64_2 t (s_sub t) a b else Some (vec_sub (bits t) a b).
Definition p_mul (e : pext) (t : ity) (a b : Z) : option Z :=
  if emulated64 e t then emu64_2 t (s_mul t) a b else Some (vec_mul (bits t) a b).
(** :831-846 [div2]: the first lane is computed twice *)
Definition p_div (e : pext) (t : ity) (a b : Z) : option Z :=
  if emulated64 e t then emu64_2 t (s_div t) a b
  else let f i := s_div t (vec_extract t a i) (vec_extract t b i) in
       bind (f 0) (fun x => insert_from (bits t) f 0 (nlanes 128 (bits t)) (vec_splats (bits t) x)).
(** :815-820 [binary_op2], :850-853 [not1] *)
Definition p_bit2 (s : ity -> Z -> Z -> Z) (v : Z -> Z -> Z) (e : pext) (t : ity) (a b : Z) : option Z :=
  if emulated64 e t then emu64_2 t (fun x y => Some (s t x y)) a b else Some (v a b).
Definition p_andb := p_bit2 s_andb vec_and.
Definition p_orb := p_bit2 s_orb vec_or.
Definition p_xorb := p_bit2 s_xorb vec_xor.
Definition p_andnotb := p_bit2 s_andnotb vec_andc.
Definition p_notb (e : pext) (t : ity) (a : Z) : option Z :=
  if emulated64 e t then emu64_1 t (fun x => Some (s_notb t x)) a else Some (vec_nor a a).
(** :871-876 [shift2]: vec_splats((u{w})s) *)
Definition p_shl (e : pext) (t : ity) (a s : Z) : option Z :=
  if emulated64 e t then emu64_1 t (fun x => s_shl t x s) a
  else Some (vec_sl (bits t) a (vec_splats (bits t) (to_u (bits t) s))).
Definition p_shr (e : pext) (t : ity) (a s : Z) : option Z :=
  if emulated64 e t then emu64_1 t (fun x => s_shr t x s) a
  else Some (vec_sr (bits t) a (vec_splats (bits t) (to_u (bits t) s))).
Definition p_shra (e : pext) (t : ity) (a s : Z) : option Z :=
  if emulated64 e t then emu64_1 t (fun x => s_shra t x s) a
  else Some (vec_sra (bits t) a (vec_splats (bits t) (to_u (bits t) s))).
(** :880-893 [set1] *)
Definition p_set1 (e : pext) (t : ity) (x : Z) : Z := if emulated64 e t then pair64 x x else vec_splats (bits t) x.
(** :945-948 [minmax2] *)
Definition p_min (e : pext) (t : ity) (a b : Z) : option Z :=
  if emulated64 e t then emu64_2 t (fun x y => Some (s_min x y)) a b else Some (vec_min t a b).
Definition p_max (e : pext) (t : ity) (a b : Z) : option Z :=
  if emulated64 e t then emu64_2 t (fun x y => Some (s_max x y)) a b else Some (vec_max t a b).
(** :952-957 [abs1] *)
Definition p_abs (e : pext) (t : ity) (a : Z) : option Z :=
  if negb (is_signed t) then Some a
  else if emulated64 e t then emu64_1 t (s_abs t) a else Some (vec_abs (bits t) a).
(** :997-1003 [neg1]: vec_neg on signed types, vec_sub(zeros, a) on unsigned types *)
Definition p_neg (e : pext) (t : ity) (a : Z) : option Z :=
  if emulated64 e t then emu64_1 t (s_neg t) a
  else if is_signed t then Some (vec_neg (bits t) a) else Some (vec_sub (bits t) (vec_splats (bits t) 0) a).
(** :973-993 [fma] *)
Definition p_fma (e : pext) (t : ity) (a b c : Z) : option Z :=
  if emulated64 e t then emu64_3 t (s_fma t) a b c else Some (vec_add (bits t) (vec_mul (bits t) a b) c).
Definition p_fms (e : pext) (t : ity) (a b c : Z) : option Z :=
  if emulated64 e t then emu64_3 t (s_fms t) a b c else Some (vec_sub (bits t) (vec_mul (bits t) a b) c).
Definition p_fnma (e : pext) (t : ity) (a b c : Z) : option Z :=
  if emulated64 e t then emu64_3 t (s_fnma t) a b c else Some (vec_sub (bits t) c (vec_mul (bits t) a b)).
Definition p_fnms (e : pext) (t : ity) (a b c : Z) : option Z :=
  if emulated64 e t then emu64_3 t (s_fnms t) a b c
  else bind (p_neg e t c) (fun c' => Some (vec_sub (bits t) c' (vec_mul (bits t) a b))).
(** :1322-1335 [add_sub_s] *)
Definition p_sat (s : ity -> Z -> Z -> option Z) (v : ity -> Z -> Z -> Z) (e : pext) (t : ity) (a b : Z) : option Z :=
  if emulated64 e t then emu64_2 t (s t) a b
  else if bits t =? 64 then splat_insert 64 (fun i => s t (vec_extract t a i) (vec_extract t b i))
  else Some (v t a b).
Definition p_adds := p_sat s_adds vec_adds.
Definition p_subs := p_sat s_subs vec_subs.

(** ** Comparisons and logicals *)

(** :918-929 [cmp2] *)
Definition p_cmp (s : Z -> Z -> bool) (p : Z -> Z -> bool) (e : pext) (t : ity) (a b : Z) : Z :=
  if emulated64 e t then emu64_l (fun i => s (cast t (lane 64 i a)) (cast t (lane 64 i b))) else vec_cmp p t a b.
Definition p_eq := p_cmp s_eq Z.eqb.
Definition p_lt := p_cmp s_lt Z.ltb.
Definition p_le := p_cmp s_le Z.leb.
Definition p_gt := p_cmp s_gt Z.gtb.
Definition p_ge := p_cmp s_ge Z.geb.
Definition p_ne (e : pext) (t : ity) (a b : Z) : Z :=
  if emulated64 e t then emu64_l (fun i => s_ne (cast t (lane 64 i a)) (cast t (lane 64 i b)))
  else let tmp := vec_cmp Z.eqb t a b in vec_nor tmp tmp.
(** :823-827 [logical_op2], :857-860 [lnot1]; nsimd_scalar_andl is a && b, orl a || b, xorl a ^ b, andnotl a && (!b),
    notl !a (egg/scalar.py:466-470) *)
Definition p_lop2 (s : Z -> Z -> bool) (v : Z -> Z -> Z) (e : pext) (t : ity) (a b : Z) : Z :=
  if emulated64 e t then emu64_l (fun i => s (logical_arg a i) (logical_arg b i)) else v a b.
Definition p_andl := p_lop2 (fun x y => negb (x =? 0) && negb (y =? 0)) vec_and.
Definition p_orl := p_lop2 (fun x y => negb (x =? 0) || negb (y =? 0)) vec_or.
Definition p_xorl := p_lop2 (fun x y => negb (Z.lxor x y =? 0)) vec_xor.
Definition p_andnotl := p_lop2 (fun x y => negb (x =? 0) && (y =? 0)) vec_andc.
Definition p_notl (e : pext) (t : ity) (a : Z) : Z :=
  if emulated64 e t then emu64_l (fun i => logical_arg a i =? 0) else vec_nor a a.
(** :897-914 [lset1] *)
Definition p_set1l (e : pext) (t : ity) (x : Z) : Z :=
  if emulated64 e t then pair64 (if x =? 0 then 0 else -1) (if x =? 0 then 0 else -1)
  else if x =? 0 then vec_splats (bits t) 0 else vec_splats (bits t) (-1).
(** :933-941 [if_else3]: vec_sel(in2, in1, in0) *)
Definition p_if_else1 (e : pext) (t : ity) (l a b : Z) : Z :=
  if emulated64 e t
  then pair64 (if lane 64 0 l =? 0 then lane 64 0 b else lane 64 0 a) (if lane 64 1 l =? 0 then lane 64 1 b else lane 64 1 a)
  else vec_sel b a l.
(** :1047-1057 [allany1] *)
Definition p_all (e : pext) (t : ity) (l : Z) : bool :=
  if emulated64 e t then negb (lane 64 0 l =? 0) && negb (lane 64 1 l =? 0)
  else vec_all_ne (bits t) l (vec_splats (bits t) 0).
Definition p_any (e : pext) (t : ity) (l : Z) : bool :=
  if emulated64 e t then negb (lane 64 0 l =? 0) || negb (lane 64 1 l =? 0)
  else vec_any_ne (bits t) l (vec_splats (bits t) 0).
(** :1061-1073 [nbtrue1] *)
Definition p_nbtrue (e : pext) (t : ity) (l : Z) : option Z :=
  if emulated64 e t
  then bind (carith i64 (to_s 64 (lane 64 0 l) + to_s 64 (lane 64 1 l))) (fun s => carith i32 (- cast i32 s))
  else Some (fold_left (fun s i => s + (if lane (bits t) (Z.of_nat i) l =? 0 then 0 else 1)) (seq 0 (nlanes 128 (bits t))) 0).
(** :1536-1553 [to_mask]: reinterpretations *)
Definition p_to_mask (e : pext) (t : ity) (l : Z) : Z :=
  if emulated64 e t
  then if is_signed t then pair64 (s_reinterpret u64 i64 (lane 64 0 l)) (s_reinterpret u64 i64 (lane 64 1 l))
       else pair64 (lane 64 0 l) (lane 64 1 l)
  else l.
(** :1811-1834 [to_logical], integers *)
Definition p_to_logical (e : pext) (t : ity) (a : Z) : Z :=
  if emulated64 e t then emu64_l (fun i => negb (cast t (lane 64 i a) =? 0))
  else p_ne e t a (vec_splats (bits t) 0).
(** :1557-1578 [iota] *)
Definition p_iota (e : pext) (t : ity) : option Z :=
  if emulated64 e t then Some (pair64 0 1) else splat_insert (bits t) (fun i => Some (cast t i)).
(** :1582-1598 [mask_for_loop_tail], integers *)
Definition p_mask_for_loop_tail (e : pext) (t : ity) (i n : Z) : option Z :=
  if n <=? i then Some (p_set1l e t 0)
  else bind (carith i32 (n - i)) (fun d =>
       if d <? p_len t then bind (p_iota e t) (fun v => Some (p_lt e t v (p_set1 e t (cast t d))))
       else Some (p_set1l e t 1)).
