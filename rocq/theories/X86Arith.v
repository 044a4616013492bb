(** The integer operators of the x86 back ends: egg/platform_x86.py.

    A SIMD register of [n] bits (128, 256 or 512) is the integer in [0, 2^n) whose binary digits are
    the register's bits, lane 0 being the least significant one.  An AVX-512 mask register of [k]
    lanes is the integer in [0, 2^k) whose bit [i] is lane [i].

    The first part transcribes the meaning of the Intel intrinsics the generator emits (Intel
    Intrinsics Guide); it is part of the trusted base.  The second part transcribes, function by
    function and branch by branch, the C code emitted for the six x86 extensions.

    Simplifications: reinterpreting casts between vector types of the same size are no-ops and are
    left out; only the 64-bit mode of [get_emulation_code] (NSIMD_WORD_SIZE == 64) is modelled;
    an uninitialised register is an arbitrary argument called [undef]. *)
From Coq Require Import ZArith List Bool.
From Verif Require Import CInt ScalarOps X86Deg234.
Import ListNotations.
Open Scope Z_scope.

(** ** Registers and lanes *)

(** Lane [i] of width [w] of a register. *)
Definition lane (w i r : Z) : Z := (r / 2 ^ (w * i)) mod 2 ^ w.

(** The register of [k] lanes of width [w] whose lane [i] is [f i] (modulo 2^w). *)
Fixpoint build (w : Z) (k : nat) (f : Z -> Z) : Z :=
  match k with
  | O => 0
  | S k' => build w k' f + (f (Z.of_nat k') mod 2 ^ w) * 2 ^ (w * Z.of_nat k')
  end.

Definition nlanes (n w : Z) : nat := Z.to_nat (n / w).

(** ** Intel intrinsics ([n] = register size, [w] = lane size) *)

Definition lanewise1 (n w : Z) (f : Z -> Z) (a : Z) : Z :=
  build w (nlanes n w) (fun i => f (lane w i a)).
Definition lanewise2 (n w : Z) (f : Z -> Z -> Z) (a b : Z) : Z :=
  build w (nlanes n w) (fun i => f (lane w i a) (lane w i b)).

(** set1_epi{w} *)
Definition mm_set1 (n w x : Z) : Z := build w (nlanes n w) (fun _ => x).
(** setzero_si{n} *)
Definition mm_zero : Z := 0.
(** add_epi{w}, sub_epi{w}, mullo_epi{w} *)
Definition mm_add n w := lanewise2 n w Z.add.
Definition mm_sub n w := lanewise2 n w Z.sub.
Definition mm_mullo n w := lanewise2 n w Z.mul.
(** and_si, or_si, xor_si, andnot_si: andnot(a, b) = ~a & b *)
Definition mm_and (a b : Z) : Z := Z.land a b.
Definition mm_or (a b : Z) : Z := Z.lor a b.
Definition mm_xor (a b : Z) : Z := Z.lxor a b.
Definition mm_andnot (a b : Z) : Z := Z.land (Z.lnot a) b.
(** sll_epi{w}, slli_epi{w}; srl_epi{w}, srli_epi{w}; sra_epi{w}, srai_epi{w}: the count is an
    unsigned 64-bit number *)
Definition mm_sll n w (a c : Z) : Z := lanewise1 n w (fun x => if to_u 64 c <? w then x * 2 ^ to_u 64 c else 0) a.
Definition mm_srl n w (a c : Z) : Z := lanewise1 n w (fun x => if to_u 64 c <? w then x / 2 ^ to_u 64 c else 0) a.
Definition mm_sra n w (a c : Z) : Z :=
  lanewise1 n w (fun x => to_s w x / 2 ^ (if to_u 64 c <? w then to_u 64 c else w - 1)) a.
(** cmpeq_epi{w}, cmpgt_epi{w} (signed) *)
Definition mm_cmpeq n w := lanewise2 n w (fun x y => if x =? y then -1 else 0).
Definition mm_cmpgt n w := lanewise2 n w (fun x y => if to_s w y <? to_s w x then -1 else 0).
(** min_epi, min_epu, max_epi, max_epu, abs_epi, adds_epi, ... *)
Definition mm_min n (t : ity) :=
  lanewise2 n (bits t) (fun x y => Z.min (cast t x) (cast t y)).
Definition mm_max n (t : ity) :=
  lanewise2 n (bits t) (fun x y => Z.max (cast t x) (cast t y)).
Definition mm_abs n w := lanewise1 n w (fun x => Z.abs (to_s w x)).
Definition saturate (t : ity) (z : Z) : Z :=
  if z <? ty_min t then ty_min t else if ty_max t <? z then ty_max t else z.
Definition mm_adds n (t : ity) :=
  lanewise2 n (bits t) (fun x y => saturate t (cast t x + cast t y)).
Definition mm_subs n (t : ity) :=
  lanewise2 n (bits t) (fun x y => saturate t (cast t x - cast t y)).
(** shuffle_epi32(a, imm) on 128 bits *)
Definition mm_shuffle_epi32 (a imm : Z) : Z :=
  build 32 4 (fun i => lane 32 (lane 2 i imm) a).
(** blendv_epi8, blendv_ps, blendv_pd(a, b, m): lane of [b] where the top bit of the lane of [m] is set *)
Definition mm_blendv n w (a b m : Z) : Z :=
  build w (nlanes n w) (fun i => if 2 ^ (w - 1) <=? lane w i m then lane w i b else lane w i a).
(** movemask_epi8, movemask_ps, movemask_pd: the top bits of the lanes *)
Definition mm_movemask n w (a : Z) : Z := build 1 (nlanes n w) (fun i => lane w i a / 2 ^ (w - 1)).
(** the two halves of a register, and a register from two halves:
    castsi256_si128 / extractf128(.., 1) / insertf128(cast(v0), v1, 1) and their 512-bit versions *)
Definition mm_lo n (a : Z) : Z := a mod 2 ^ (n / 2).
Definition mm_hi n (a : Z) : Z := a / 2 ^ (n / 2).
Definition mm_setr n (lo hi : Z) : Z := lo + hi * 2 ^ (n / 2).
(** unpacklo_epi64, unpackhi_epi64 and slli_si128 (bytes) on 128 bits; unpack{lo,hi}_epi16 and
    permute4x64_epi64 on 256 bits *)
Definition mm_unpacklo_epi64 (a b : Z) : Z := build 64 2 (fun i => if i =? 0 then lane 64 0 a else lane 64 0 b).
Definition mm_unpackhi_epi64 (a b : Z) : Z := build 64 2 (fun i => if i =? 0 then lane 64 1 a else lane 64 1 b).
Definition mm_slli_si128 (a by_ : Z) : Z := (a * 2 ^ (8 * by_)) mod 2 ^ 128.
Definition mm_srli_si128 (a by_ : Z) : Z := a / 2 ^ (8 * by_).
Definition mm_unpack_epi16_256 (h : Z) (a b : Z) : Z :=
  build 16 16 (fun i => let j := i / 8 * 8 + h * 4 + (i mod 8) / 2 in
                        if i mod 2 =? 0 then lane 16 j a else lane 16 j b).
Definition mm_permute4x64_epi64 (a imm : Z) : Z := build 64 4 (fun i => lane 64 (lane 2 i imm) a).
(** insert_epi{w}(a, x, i) and extract_epi{w}(a, i) *)
Definition mm_insert n w (a x i : Z) : Z :=
  build w (nlanes n w) (fun j => if j =? i then x else lane w j a).
Definition mm_extract w (a i : Z) : Z := lane w i a.
(** AVX-512: cmp_ep{t}_mask(a, b, predicate), mask_blend(m, a, b), movm_epi{w}, mask_mov *)
Definition mm_cmp_mask n (t : ity) (p : Z -> Z -> bool) (a b : Z) : Z :=
  build 1 (nlanes n (bits t)) (fun i =>
    if p (cast t (lane (bits t) i a)) (cast t (lane (bits t) i b)) then 1 else 0).
Definition mm_mask_blend n w (m a b : Z) : Z :=
  build w (nlanes n w) (fun i => if Z.testbit m i then lane w i b else lane w i a).
Definition mm_movm n w (m : Z) : Z := build w (nlanes n w) (fun i => if Z.testbit m i then -1 else 0).
Definition mm_mask_mov n w (src m a : Z) : Z :=
  build w (nlanes n w) (fun i => if Z.testbit m i then lane w i a else lane w i src).

(** ** Extensions *)

(** egg/platform_x86.py:159-168 [nbits]: register size of an extension *)
Definition nb (e : ext) : Z :=
  match e with Sse2 | Sse42 => 128 | Avx | Avx2 => 256 | Avx512Knl | Avx512Skylake => 512 end.
Definition is512 (e : ext) : bool :=
  match e with Avx512Knl | Avx512Skylake => true | _ => false end.
Definition knl (e : ext) : bool := match e with Avx512Knl => true | _ => false end.
(** number of lanes {le} *)
Definition le (e : ext) (t : ity) : Z := nb e / bits t.
Definition wide (t : ity) : bool := 32 <=? bits t.  (** 32- and 64-bit types *)

(** egg/platform_x86.py:629-650 [split_opn]: apply the operator of the next smaller extension to
    both halves *)
Definition split1 n (f : Z -> Z) (a : Z) : Z := mm_setr n (f (mm_lo n a)) (f (mm_hi n a)).
Definition split2 n (f : Z -> Z -> Z) (a b : Z) : Z :=
  mm_setr n (f (mm_lo n a) (mm_lo n b)) (f (mm_hi n a) (mm_hi n b)).
Definition split1o n (f : Z -> option Z) (a : Z) : option Z :=
  bind (f (mm_lo n a)) (fun x => bind (f (mm_hi n a)) (fun y => Some (mm_setr n x y))).
Definition split2o n (f : Z -> Z -> option Z) (a b : Z) : option Z :=
  bind (f (mm_lo n a) (mm_lo n b)) (fun x =>
  bind (f (mm_hi n a) (mm_hi n b)) (fun y => Some (mm_setr n x y))).
Definition split3o n (f : Z -> Z -> Z -> option Z) (a b c : Z) : option Z :=
  bind (f (mm_lo n a) (mm_lo n b) (mm_lo n c)) (fun x =>
  bind (f (mm_hi n a) (mm_hi n b) (mm_hi n c)) (fun y => Some (mm_setr n x y))).

(** *** Lane access: egg/platform_x86.py:415-556 [set_lane], [get_lane] *)

(** The C value of lane [i]: :500-556.  The final conversion brings the extracted bits to the type. *)
Definition get_lane (e : ext) (t : ity) (a i : Z) : Z :=
  let w := bits t in
  let x :=
    match e with
    | Sse2 =>
        if w =? 8 then Z.land (lane 32 0 (mm_srli_si128 a i)) 255
        else if w =? 16 then mm_extract 16 a i
        else lane w 0 (mm_srli_si128 a (i * w / 8))
    | Sse42 | Avx2 => mm_extract w a i
    | Avx => if wide t then mm_extract w a i
             else let half := 256 / 2 / w in
                  if i <? half then mm_extract w (mm_lo 256 a) i else mm_extract w (mm_hi 256 a) (i - half)
    | Avx512Knl | Avx512Skylake =>
        let half := 512 / 2 / w in
        if i <? half then mm_extract w (mm_lo 512 a) i else mm_extract w (mm_hi 512 a) (i - half)
    end in
  cast t x.

(** :415-498; [x] is the scalar, converted to the unsigned type or to int of the lane's width *)
Definition set_lane (e : ext) (t : ity) (v x i : Z) : Z :=
  let w := bits t in
  let u := to_u w x in
  match e with
  | Sse2 =>
      if w =? 8 then
        if i mod 2 =? 0
        then mm_insert 128 16 v (Z.lor (Z.land (mm_extract 16 v (i / 2)) 65280) u) (i / 2)
        else mm_insert 128 16 v (Z.lor (Z.land (mm_extract 16 v (i / 2)) 255) (u * 2 ^ 8)) (i / 2)
      else if w =? 16 then mm_insert 128 16 v u i
      else if w =? 32 then
        mm_insert 128 16 (mm_insert 128 16 v (Z.land u 65535) (i * 2)) (u / 2 ^ 16) (i * 2 + 1)
      else
        if i =? 0 then mm_unpackhi_epi64 (mm_slli_si128 u 8) v else mm_unpacklo_epi64 v u
  | Sse42 => mm_insert 128 w v u i
  | Avx | Avx2 => mm_insert 256 w v u i
  | Avx512Knl | Avx512Skylake =>
      let half := 512 / 2 / w in
      if i <? half
      then mm_setr 512 (mm_insert 256 w (mm_lo 512 v) u i) (mm_hi 512 v)
      else mm_setr 512 (mm_lo 512 v) (mm_insert 256 w (mm_hi 512 v) u (i - half))
  end.

(** egg/platform_x86.py:570-618 [get_emulation_code], 64-bit mode: for each lane, extract, apply the
    scalar function, insert *)
Fixpoint emul1_upto (e : ext) (t : ity) (f : Z -> option Z) (a : Z) (k : nat) (ret : Z) : option Z :=
  match k with
  | O => Some ret
  | S k' =>
      bind (emul1_upto e t f a k' ret) (fun r =>
      bind (f (get_lane e t a (Z.of_nat k'))) (fun x =>
      Some (set_lane e t r x (Z.of_nat k'))))
  end.
Definition emul1 (e : ext) (t : ity) (f : Z -> option Z) (undef a : Z) : option Z :=
  emul1_upto e t f a (Z.to_nat (le e t)) undef.
Fixpoint emul2_upto (e : ext) (t : ity) (f : Z -> Z -> option Z) (a b : Z) (k : nat) (ret : Z) : option Z :=
  match k with
  | O => Some ret
  | S k' =>
      bind (emul2_upto e t f a b k' ret) (fun r =>
      bind (f (get_lane e t a (Z.of_nat k')) (get_lane e t b (Z.of_nat k'))) (fun x =>
      Some (set_lane e t r x (Z.of_nat k'))))
  end.
Definition emul2 (e : ext) (t : ity) (f : Z -> Z -> option Z) (undef a b : Z) : option Z :=
  emul2_upto e t f a b (Z.to_nat (le e t)) undef.

(** ** Operators *)

(** egg/platform_x86.py:1518-1535 [set1] *)
Definition x_set1 (e : ext) (t : ity) (x : Z) : Z := mm_set1 (nb e) (bits t) x.

(** egg/platform_x86.py:1141-1171 [binop2]: andb, orb, xorb *)
Definition x_andb (e : ext) (t : ity) (a b : Z) : Z := mm_and a b.
Definition x_orb (e : ext) (t : ity) (a b : Z) : Z := mm_or a b.
Definition x_xorb (e : ext) (t : ity) (a b : Z) : Z := mm_xor a b.
(** :1220-1246 [andnot2]: the arguments of the intrinsic are exchanged *)
Definition x_andnotb (e : ext) (t : ity) (a b : Z) : Z := mm_andnot b a.
(** :1267-1283 [not1] *)
Definition x_notb (e : ext) (t : ity) (a : Z) : Z := x_andnotb e t (mm_set1 (nb e) 8 (-1)) a.

(** :1301-1310 [addsub] *)
Definition x_add (e : ext) (t : ity) (a b : Z) : Z :=
  match e with
  | Sse2 | Sse42 => mm_add 128 (bits t) a b
  | Avx2 => mm_add 256 (bits t) a b
  | Avx512Skylake => mm_add 512 (bits t) a b
  | Avx => split2 256 (mm_add 128 (bits t)) a b
  | Avx512Knl => if wide t then mm_add 512 (bits t) a b else split2 512 (mm_add 256 (bits t)) a b
  end.
Definition x_sub (e : ext) (t : ity) (a b : Z) : Z :=
  match e with
  | Sse2 | Sse42 => mm_sub 128 (bits t) a b
  | Avx2 => mm_sub 256 (bits t) a b
  | Avx512Skylake => mm_sub 512 (bits t) a b
  | Avx => split2 256 (mm_sub 128 (bits t)) a b
  | Avx512Knl => if wide t then mm_sub 512 (bits t) a b else split2 512 (mm_sub 256 (bits t)) a b
  end.
(** :2425-2444 [neg1] *)
Definition x_neg (e : ext) (t : ity) (a : Z) : Z := x_sub e t mm_zero a.

(** :1320-1323 [div2] *)
Definition x_div (e : ext) (t : ity) (undef a b : Z) : option Z := emul2 e t (s_div t) undef a b.

(** :1367-1375 [with_epi16] *)
Definition mul8_epi16 n (a b : Z) : Z :=
  let lo := mm_mullo n 16 a b in
  let hi := mm_sll n 16 (mm_mullo n 16 (mm_srl n 16 a 8) (mm_srl n 16 b 8)) 8 in
  mm_or (mm_and lo (mm_set1 n 16 255)) hi.
(** :1328-1384 [mul2].  The AVX version splits to SSE4.2, the KNL version to AVX2. *)
Definition x_mul (e : ext) (t : ity) (undef a b : Z) : option Z :=
  let w := bits t in
  match e with
  | Sse2 => if w =? 8 then Some (mul8_epi16 128 a b)
            else if w =? 16 then Some (mm_mullo 128 16 a b)
            else emul2 Sse2 t (s_mul t) undef a b
  | Sse42 => if w =? 8 then Some (mul8_epi16 128 a b)
             else if w =? 64 then emul2 Sse42 t (s_mul t) undef a b
             else Some (mm_mullo 128 w a b)
  | Avx2 => if w =? 8 then Some (mul8_epi16 256 a b)
            else if w =? 64 then emul2 Avx2 t (s_mul t) undef a b
            else Some (mm_mullo 256 w a b)
  | Avx => if w =? 64 then emul2 Avx t (s_mul t) undef a b
           else if w =? 8 then Some (split2 256 (mul8_epi16 128) a b)
           else Some (split2 256 (mm_mullo 128 w) a b)
  | Avx512Knl => if w =? 8 then Some (split2 512 (mul8_epi16 256) a b)
                 else if w =? 16 then Some (split2 512 (mm_mullo 256 16) a b)
                 else if w =? 32 then Some (mm_mullo 512 32 b a)
                 else emul2 Avx512Knl t (s_mul t) undef a b
  | Avx512Skylake => if w =? 8 then Some (mul8_epi16 512 a b)
                     else if w =? 32 then Some (mm_mullo 512 32 b a)
                     else Some (mm_mullo 512 w a b)
  end.

(** :1406-1418 [with_2n_for_n] for an [m]-bit type *)
Definition shl_2n n m (a s : Z) : Z :=
  let lo := mm_and (mm_sll n (2 * m) a s) (mm_set1 n (2 * m) (2 ^ m - 1)) in
  let hi := mm_sll n (2 * m) (mm_and a (mm_set1 n (2 * m) ((2 ^ m - 1) * 2 ^ m))) s in
  mm_or hi lo.
Definition shr_2n n m (a s : Z) : Z :=
  let lo := mm_and (mm_srl n (2 * m) a s) (mm_set1 n (2 * m) ((2 ^ m - 1) * 2 ^ m)) in
  let hi := mm_srl n (2 * m) (mm_and a (mm_set1 n (2 * m) (2 ^ m - 1))) s in
  mm_or hi lo.
(** :1419-1431 [with_32_for_8] *)
Definition sh_32_for_8 n (op : Z -> Z -> Z) (a s : Z) : Z :=
  let masklo := mm_set1 n 32 0xFF00FF in
  let lo := mm_and (op (mm_and a masklo) s) masklo in
  let maskhi := mm_set1 n 32 0xFF00FF00 in
  let hi := mm_and (op (mm_and a maskhi) s) maskhi in
  mm_or hi lo.
(** :1387-1452 [shl_shr] *)
Definition x_shl (e : ext) (t : ity) (a s : Z) : Z :=
  let w := bits t in
  match e with
  | Sse2 | Sse42 => if w =? 8 then shl_2n 128 8 a s else mm_sll 128 w a s
  | Avx2 => if w =? 8 then shl_2n 256 8 a s else mm_sll 256 w a s
  | Avx => split1 256 (fun v => if w =? 8 then shl_2n 128 8 v s else mm_sll 128 w v s) a
  | Avx512Knl => if w =? 8 then sh_32_for_8 512 (mm_sll 512 32) a s
                 else if w =? 16 then shl_2n 512 16 a s else mm_sll 512 w a s
  | Avx512Skylake => if w =? 8 then shl_2n 512 8 a s else mm_sll 512 w a s
  end.
Definition x_shr (e : ext) (t : ity) (a s : Z) : Z :=
  let w := bits t in
  match e with
  | Sse2 | Sse42 => if w =? 8 then shr_2n 128 8 a s else mm_srl 128 w a s
  | Avx2 => if w =? 8 then shr_2n 256 8 a s else mm_srl 256 w a s
  | Avx => split1 256 (fun v => if w =? 8 then shr_2n 128 8 v s else mm_srl 128 w v s) a
  | Avx512Knl => if w =? 8 then sh_32_for_8 512 (mm_srl 512 32) a s
                 else if w =? 16 then shr_2n 512 16 a s else mm_srl 512 w a s
  | Avx512Skylake => if w =? 8 then shr_2n 512 8 a s else mm_srl 512 w a s
  end.

(** :1478-1486 [trick_for_i8] *)
Definition shra8 n (a c : Z) : Z :=
  let hi := mm_andnot (mm_set1 n 16 255) (mm_sra n 16 a c) in
  let lo := mm_srl n 16 (mm_sra n 16 (mm_sll n 16 a 8) c) 8 in
  mm_or hi lo.
(** :1457-1512 [shra] *)
Definition x_shra (e : ext) (t : ity) (undef a s : Z) : option Z :=
  let w := bits t in
  if negb (is_signed t) then Some (x_shr e t a s)
  else match e with
  | Sse2 | Sse42 => if w =? 8 then Some (shra8 128 a s)
                    else if w =? 64 then emul1 e t (fun x => s_shra t x s) undef a
                    else Some (mm_sra 128 w a s)
  | Avx2 => if w =? 8 then Some (shra8 256 a s)
            else if w =? 64 then emul1 e t (fun x => s_shra t x s) undef a
            else Some (mm_sra 256 w a s)
  | Avx => if w =? 64 then emul1 e t (fun x => s_shra t x s) undef a
           else Some (split1 256 (fun v => if w =? 8 then shra8 128 v s else mm_sra 128 w v s) a)
  | Avx512Knl => if w =? 8 then Some (split1 512 (fun v => shra8 256 v s) a)
                 else if w =? 16 then Some (split1 512 (fun v => mm_sra 256 16 v s) a)
                 else Some (mm_sra 512 w a s)
  | Avx512Skylake => if w =? 8 then Some (shra8 512 a s) else Some (mm_sra 512 w a s)
  end.

(** *** Logicals.  On SSE and AVX a logical is a register; on AVX-512 a mask. *)

(** :1176-1215 [binlop2] *)
Definition x_andl (e : ext) (t : ity) (a b : Z) : Z := Z.land a b.
Definition x_orl (e : ext) (t : ity) (a b : Z) : Z := Z.lor a b.
Definition x_xorl (e : ext) (t : ity) (a b : Z) : Z := Z.lxor a b.
(** :1251-1261 [landnot2] *)
Definition x_andnotl (e : ext) (t : ity) (a b : Z) : Z :=
  if is512 e then Z.land a (Z.lnot b) mod 2 ^ le e t else x_andnotb e t a b.
(** :1288-1298 [lnot1] *)
Definition x_notl (e : ext) (t : ity) (a : Z) : Z :=
  if is512 e then Z.lnot a mod 2 ^ le e t else x_notb e t a.
(** :1536-1559 [set1l] *)
Definition x_set1l (e : ext) (t : ity) (x : Z) : Z :=
  if is512 e then (if x =? 0 then 0 else Z.lnot 0 mod 2 ^ le e t)
  else (if x =? 0 then mm_zero else mm_cmpeq (nb e) 64 mm_zero mm_zero).

(** :656-700 [split_cmp2] for AVX-512 KNL and the 8- and 16-bit types *)
Definition merge_mask (t : ity) (v00 v01 : Z) : Z :=
  if bits t =? 8 then
    Z.lor (mm_movemask 256 8 v00) (mm_movemask 256 8 v01 * 2 ^ 32)
  else
    let v00 := mm_permute4x64_epi64 v00 216 in
    let lo1 := mm_unpack_epi16_256 0 v00 v00 in
    let hi1 := mm_unpack_epi16_256 1 v00 v00 in
    let v01 := mm_permute4x64_epi64 v01 216 in
    let lo2 := mm_unpack_epi16_256 0 v01 v01 in
    let hi2 := mm_unpack_epi16_256 1 v01 v01 in
    Z.lor (Z.lor (Z.lor (mm_movemask 256 32 lo1) (mm_movemask 256 32 hi1 * 2 ^ 8))
                 (mm_movemask 256 32 lo2 * 2 ^ 16)) (mm_movemask 256 32 hi2 * 2 ^ 24).
Definition split_cmp512 (t : ity) (f : Z -> Z -> Z) (a b : Z) : Z :=
  merge_mask t (f (mm_lo 512 a) (mm_lo 512 b)) (f (mm_hi 512 a) (mm_hi 512 b)).

(** :1564-1603 [eq2], SSE and AVX2 part *)
Definition eq64_sse2 (a b : Z) : Z :=
  let t := mm_cmpeq 128 32 a b in mm_and t (mm_shuffle_epi32 t 177).
Definition eq_native (e : ext) (t : ity) (a b : Z) : Z :=
  match e with
  | Sse2 => if bits t =? 64 then eq64_sse2 a b else mm_cmpeq 128 (bits t) a b
  | _ => mm_cmpeq (nb e) (bits t) a b
  end.
Definition x_eq (e : ext) (t : ity) (a b : Z) : Z :=
  match e with
  | Sse2 | Sse42 | Avx2 => eq_native e t a b
  | Avx => split2 256 (eq_native Sse42 t) a b
  | Avx512Knl => if wide t then mm_cmp_mask 512 t Z.eqb a b else split_cmp512 t (eq_native Avx2 t) a b
  | Avx512Skylake => mm_cmp_mask 512 t Z.eqb a b
  end.
(** :1606-1629 [neq2] *)
Definition x_ne (e : ext) (t : ity) (a b : Z) : Z :=
  match e with
  | Avx512Skylake => mm_cmp_mask 512 t (fun x y => negb (x =? y)) a b
  | Avx512Knl => if wide t then mm_cmp_mask 512 t (fun x y => negb (x =? y)) a b
                 else x_notl e t (x_eq e t a b)
  | _ => x_notl e t (x_eq e t a b)
  end.
(** :1634-1684 [gt2] and :716-726 [cmp2_with_add], SSE and AVX2 part *)
Definition gt_signed (e : ext) (w : Z) (a b : Z) : Z :=
  match e with
  | Sse2 => if w =? 64
            then build 64 2 (fun i => - (if to_s 64 (lane 64 i b) <? to_s 64 (lane 64 i a) then 1 else 0))
            else mm_cmpgt 128 w a b
  | _ => mm_cmpgt (nb e) w a b
  end.
Definition gt_native (e : ext) (t : ity) (a b : Z) : Z :=
  if is_signed t then gt_signed e (bits t) a b
  else let cte := x_set1 e t (2 ^ (bits t - 1)) in
       gt_signed e (bits t) (mm_add (nb e) (bits t) a cte) (mm_add (nb e) (bits t) b cte).
Definition x_gt (e : ext) (t : ity) (a b : Z) : Z :=
  match e with
  | Sse2 | Sse42 | Avx2 => gt_native e t a b
  | Avx => split2 256 (gt_native Sse42 t) a b
  | Avx512Knl => if wide t then mm_cmp_mask 512 t (fun x y => negb (x <=? y)) a b
                 else split_cmp512 t (gt_native Avx2 t) a b
  | Avx512Skylake => mm_cmp_mask 512 t (fun x y => negb (x <=? y)) a b
  end.
(** :1689-1691 [lt2] *)
Definition x_lt (e : ext) (t : ity) (a b : Z) : Z := x_gt e t b a.
(** :1696-1722 [geq2] *)
Definition x_ge (e : ext) (t : ity) (a b : Z) : Z :=
  match e with
  | Avx512Skylake => mm_cmp_mask 512 t (fun x y => negb (x <? y)) a b
  | Avx512Knl => if wide t then mm_cmp_mask 512 t (fun x y => negb (x <? y)) a b
                 else x_notl e t (x_lt e t a b)
  | _ => x_notl e t (x_lt e t a b)
  end.
(** :1727-1753 [leq2] *)
Definition x_le (e : ext) (t : ity) (a b : Z) : Z :=
  match e with
  | Avx512Skylake => mm_cmp_mask 512 t Z.leb a b
  | Avx512Knl => if wide t then mm_cmp_mask 512 t Z.leb a b
                 else x_notl e t (x_gt e t a b)
  | _ => x_notl e t (x_gt e t a b)
  end.

(** :1758-1803 [if_else1].  The KNL loop on 8- and 16-bit types keeps lane [i] of [a] when bit [i] of
    the mask is set. *)
Definition x_if_else1 (e : ext) (t : ity) (l a b : Z) : Z :=
  match e with
  | Sse42 => mm_blendv 128 8 b a l
  | Avx2 => mm_blendv 256 8 b a l
  | Sse2 | Avx => x_orb e t (x_andb e t a l) (x_andnotb e t b l)
  | Avx512Skylake => mm_mask_blend 512 (bits t) l b a
  | Avx512Knl =>
      if wide t then mm_mask_blend 512 (bits t) l b a
      else build (bits t) (nlanes 512 (bits t)) (fun i =>
             if Z.land (Z.shiftr l i) 1 =? 0 then lane (bits t) i b else lane (bits t) i a)
  end.

(** :1808-1843 [minmax] *)
Definition max_if_else (e : ext) (t : ity) (a b : Z) : Z := x_if_else1 e t (x_gt e t a b) a b.
Definition min_if_else (e : ext) (t : ity) (a b : Z) : Z := x_if_else1 e t (x_gt e t b a) a b.
Definition minmax (intr : Z -> ity -> Z -> Z -> Z) (ie : ext -> ity -> Z -> Z -> Z)
                  (e : ext) (t : ity) (a b : Z) : Z :=
  let w := bits t in
  match e with
  | Sse2 => if ((w =? 8) && negb (is_signed t)) || ((w =? 16) && is_signed t)
            then intr 128 t a b else ie e t a b
  | Sse42 => if w =? 64 then ie e t a b else intr 128 t a b
  | Avx2 => if w =? 64 then ie e t a b else intr 256 t a b
  | Avx => if w =? 64 then ie e t a b else split2 256 (intr 128 t) a b
  | Avx512Skylake => intr 512 t a b
  | Avx512Knl => if wide t then intr 512 t a b else split2 512 (intr 256 t) a b
  end.
Definition x_max := minmax mm_max max_if_else.
Definition x_min := minmax mm_min min_if_else.

(** :1946-1962 the two bit-twiddling versions and the blending version of abs *)
Definition abs_arith_shift n w (a : Z) : Z :=
  let mask := mm_sra n w a (w - 1) in mm_xor (mm_add n w a mask) mask.
Definition abs_no_arith_shift (e : ext) (t : ity) (a : Z) : Z :=
  let mask := mm_sub (nb e) (bits t) mm_zero (x_shr e t a (bits t - 1)) in
  mm_xor (mm_add (nb e) (bits t) a mask) mask.
Definition abs_blendv (a : Z) : Z := mm_blendv 256 64 a (mm_sub 256 64 mm_zero a) a.
(** :1929-1995 [abs1] *)
Definition abs_sse42 (t : ity) (a : Z) : Z :=
  if bits t =? 64 then abs_no_arith_shift Sse42 t a else mm_abs 128 (bits t) a.
Definition x_abs (e : ext) (t : ity) (a : Z) : Z :=
  let w := bits t in
  if negb (is_signed t) then a
  else match e with
  | Sse2 => if (w =? 16) || (w =? 32) then abs_arith_shift 128 w a else abs_no_arith_shift Sse2 t a
  | Sse42 => abs_sse42 t a
  | Avx2 => if w =? 64 then abs_blendv a else mm_abs 256 w a
  | Avx => split1 256 (abs_sse42 t) a
  | Avx512Skylake => mm_abs 512 w a
  | Avx512Knl => if wide t then mm_abs 512 w a else split1 512 (mm_abs 256 w) a
  end.

(** :1999-2039 [fma_fms]: [op] and [neg] as in the generator.  [emulate] is used on SSE, AVX2 and
    Skylake; AVX splits to SSE4.2 and KNL to AVX2. *)
Definition fma_emulate (neg sub : bool) (e : ext) (t : ity) (undef a b c : Z) : option Z :=
  bind (x_mul e t undef (if neg then x_neg e t a else a) b) (fun p =>
  Some (if sub then x_sub e t p c else x_add e t p c)).
Definition x_fma_fms (neg sub : bool) (e : ext) (t : ity) (undef a b c : Z) : option Z :=
  match e with
  | Avx => split3o 256 (fma_emulate neg sub Sse42 t (undef mod 2 ^ 128)) a b c
  | Avx512Knl => split3o 512 (fma_emulate neg sub Avx2 t (undef mod 2 ^ 256)) a b c
  | _ => fma_emulate neg sub e t undef a b c
  end.

(** :3293-3300 [to_logical1], :3262-3290 [to_mask1] *)
Definition x_to_logical (e : ext) (t : ity) (a : Z) : Z := x_ne e t a mm_zero.
Definition x_to_mask (e : ext) (t : ity) (l : Z) : Z :=
  match e with
  | Avx512Skylake => mm_movm 512 (bits t) l
  | Avx512Knl =>
      if wide t then mm_mask_mov 512 (bits t) mm_zero l (mm_set1 512 32 (-1))
      else build (bits t) (nlanes 512 (bits t)) (fun i => if Z.land (Z.shiftr l i) 1 =? 0 then 0 else -1)
  | _ => l
  end.

(** :3023-3036 8- and 16-bit adds, subs *)
Definition adds_subs_8_16 (intr : Z -> ity -> Z -> Z -> Z) (e : ext) (t : ity) (a b : Z) : Z :=
  match e with
  | Sse2 | Sse42 => intr 128 t a b
  | Avx => split2 256 (intr 128 t) a b
  | Avx2 => intr 256 t a b
  | Avx512Skylake => intr 512 t a b
  | Avx512Knl => split2 512 (intr 256 t) a b
  end.
(** :3045-3083 the last step of the signed 32- and 64-bit adds *)
Definition adds_select (e : ext) (t : ity) (mask ires imaxmin : Z) : Z :=
  match e with
  | Sse42 | Avx | Avx2 => mm_blendv (nb e) (bits t) imaxmin ires mask
  | _ => x_if_else1 e t (x_to_logical e t (x_shr e (uty t) mask (bits t - 1))) ires imaxmin
  end.
(** :3088-3224 [adds] *)
Definition x_adds (e : ext) (t : ity) (a b : Z) : Z :=
  if negb (wide t) then adds_subs_8_16 mm_adds e t a b
  else if negb (is_signed t) then
    let ures := x_add e t a b in
    x_if_else1 e t (x_lt e t ures a) (x_set1 e t (ty_max t)) ures
  else
    let u := uty t in
    let ures := x_add e u a b in
    let xor_ux_uy := x_xorb e u a b in
    let xor_uy_res := x_xorb e u b ures in
    let u_zeros_ones := x_shr e u (x_orb e u a b) (bits t - 1) in
    let u_max_min := x_add e u (x_set1 e u (ty_max t)) u_zeros_ones in
    let mask := x_orb e u xor_ux_uy (x_notb e u xor_uy_res) in
    adds_select e t mask ures u_max_min.
(** :3229-3259 [subs] *)
Definition x_subs (e : ext) (t : ity) (a b : Z) : Z :=
  if negb (wide t) then adds_subs_8_16 mm_subs e t a b
  else if is_signed t then x_adds e t a (x_neg e t b)
  else x_if_else1 e t (x_gt e t b a) (x_set1 e t (ty_min t)) (x_sub e t a b).

(** :2111-2153 [all_any] *)
Definition x_all (e : ext) (t : ity) (l : Z) : bool :=
  match e with
  | Sse2 | Sse42 => mm_movemask 128 8 l =? 0xFFFF
  | Avx2 => to_s 32 (mm_movemask 256 8 l) =? -1
  | Avx => (mm_movemask 128 8 (mm_lo 256 l) =? 0xFFFF) && (mm_movemask 128 8 (mm_hi 256 l) =? 0xFFFF)
  | _ => l =? 2 ^ (512 / bits t / 4 * 4) - 1
  end.
Definition x_any (e : ext) (t : ity) (l : Z) : bool :=
  match e with
  | Sse2 | Sse42 => negb (mm_movemask 128 8 l =? 0)
  | Avx2 => negb (to_s 32 (mm_movemask 256 8 l) =? 0)
  | Avx => negb (mm_movemask 128 8 (mm_lo 256 l) =? 0) || negb (mm_movemask 128 8 (mm_hi 256 l) =? 0)
  | _ => negb (l =? 0)
  end.

(** :2448-2485 [nbtrue1] *)
Definition nbtrue_reg n (t : ity) (l : Z) : Z :=
  if bits t =? 8 then popcnt32 (to_u 32 (mm_movemask n 8 l))
  else if bits t =? 16 then Z.shiftr (popcnt32 (to_u 32 (mm_movemask n 8 l))) 1
  else popcnt32 (to_u 32 (mm_movemask n (bits t) l)).
Definition x_nbtrue (e : ext) (t : ity) (l : Z) : Z :=
  match e with
  | Sse2 | Sse42 => nbtrue_reg 128 t l
  | Avx2 => nbtrue_reg 256 t l
  | Avx => if wide t then nbtrue_reg 256 t l
           else nbtrue_reg 128 t (mm_lo 256 l) + nbtrue_reg 128 t (mm_hi 256 l)
  | _ => popcnt64 l
  end.

(** :1855-1886 [loadl] and :1891-1924 [storel], on the register [v] that the load returns or the
    store receives *)
Fixpoint loadl_512 (t : ity) (v : Z) (k : nat) : Z :=
  match k with
  | O => 0
  | S k' => let r := loadl_512 t v k' in
            if lane (bits t) (Z.of_nat k') v =? 0 then r else Z.lor r (2 ^ Z.of_nat k')
  end.
Definition x_loadl (e : ext) (t : ity) (v : Z) : Z :=
  if is512 e then loadl_512 t v (Z.to_nat (le e t))
  else x_notl e t (x_eq e t v (x_set1 e t 0)).
Definition x_storel (e : ext) (t : ity) (l : Z) : Z :=
  if is512 e then build (bits t) (nlanes 512 (bits t)) (fun i => if Z.land (Z.shiftr l i) 1 =? 0 then 0 else 1)
  else x_if_else1 e t l (x_set1 e t 1) (x_set1 e t 0).
