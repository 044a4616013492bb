(** The integer operators of the ARM back ends: egg/platform_arm.py.

    A NEON register is an integer in [0, 2^128), an SVE register an integer in [0, 2^n) where [n],
    the vector length of the machine, is any multiple of 128; lane 0 is the least significant one, as in
    X86Arith.v.  An SVE predicate has one bit per byte of a register: it is an integer in [0, 2^(n/8)),
    and the bit of the lowest byte of a lane says whether the lane is active.

    The first part transcribes the meaning of the NEON and SVE intrinsics the generator emits (Arm C
    Language Extensions, Arm Architecture Reference Manual); it is part of the trusted base.  The
    second part transcribes, function by function and branch by branch, the code emitted for
    neon128, aarch64 and the SVE extensions.

    Simplifications: reinterpreting casts between vector types of the same size are no-ops and are left
    out; a local C array [typ buf[le]] is the function from indices to the patterns of its elements; on the
    fixed-size extensions (sve128, ..., sve2048) the vector length of the machine is the one in the name,
    as [arm_sve_vector_bits] requires, so that they coincide with sve on that machine. *)
From Coq Require Import ZArith List Bool.
From Verif Require Import CInt ScalarOps CpuSimd X86Deg234 X86Arith X86Mem.
Import ListNotations.
Open Scope Z_scope.

(** ** Extensions *)

(** egg/platform_arm.py:91-93; [emulate_bool] is the option sve_emulate_bool (logicals are
    registers instead of predicates), [vq] the vector length in units of 128 bits *)
Inductive aext := Neon128 | Aarch64 | Sve (emulate_bool : bool) (vq : positive).
Definition an (e : aext) : Z := match e with Sve _ vq => 128 * Zpos vq | _ => 128 end.

(** ** NEON intrinsics: [w] = lane size *)

Definition v_1 (w : Z) (f : Z -> Z) : Z -> Z := lanewise1 128 w f.
Definition v_2 (w : Z) (f : Z -> Z -> Z) : Z -> Z -> Z := lanewise2 128 w f.
Definition v_3 (w : Z) (f : Z -> Z -> Z -> Z) (a b c : Z) : Z :=
  build w (nlanes 128 w) (fun i => f (lane w i a) (lane w i b) (lane w i c)).
(** vdupq_n *)
Definition v_dup (w x : Z) : Z := build w (nlanes 128 w) (fun _ => x).
(** vandq, vorrq, veorq, vbicq (a & ~b), vbslq(l, a, b) *)
Definition v_and (a b : Z) : Z := Z.land a b.
Definition v_orr (a b : Z) : Z := Z.lor a b.
Definition v_eor (a b : Z) : Z := Z.lxor a b.
Definition v_bic (a b : Z) : Z := Z.land a (Z.lnot b).
Definition v_bsl (l a b : Z) : Z := Z.lor (Z.land l a) (Z.land (Z.lnot l) b).
(** lane operations shared by NEON and SVE *)
Definition l_shl_u (w x s : Z) : Z :=  (** vshlq_u: the low byte of the count, signed *)
  let c := to_s 8 s in
  if 0 <=? c then (if c <? w then x * 2 ^ c else 0) else (if - c <? w then x / 2 ^ (- c) else 0).
Definition l_shl_s (w x s : Z) : Z :=  (** vshlq_s *)
  let c := to_s 8 s in
  if 0 <=? c then (if c <? w then x * 2 ^ c else 0) else to_s w x / 2 ^ (- c).
Definition l_min (t : ity) (x y : Z) : Z := Z.min (cast t x) (cast t y).
Definition l_max (t : ity) (x y : Z) : Z := Z.max (cast t x) (cast t y).
Definition l_abs (w x : Z) : Z := Z.abs (to_s w x).
Definition l_neg (x : Z) : Z := - x.
Definition l_qadd (t : ity) (x y : Z) : Z := saturate t (cast t x + cast t y).
Definition l_qsub (t : ity) (x y : Z) : Z := saturate t (cast t x - cast t y).
Definition l_mla (c b a : Z) : Z := c + b * a.  (** vmla, svmla(c, b, a) *)
Definition l_mls (c b a : Z) : Z := c - b * a.
Definition l_cmp (t : ity) (p : Z -> Z -> bool) (x y : Z) : Z := if p (cast t x) (cast t y) then -1 else 0.
(** lanes of a register; vaddvq, vminvq, vmaxvq (unsigned) *)
Definition lane_list (n w a : Z) : list Z := map (fun i => lane w (Z.of_nat i) a) (seq 0 (nlanes n w)).
Definition lsum (l : list Z) : Z := fold_right Z.add 0 l.
Definition v_addv_s (w a : Z) : Z := to_s w (lsum (map (to_s w) (lane_list 128 w a))).
Definition v_minv_u (w a : Z) : Z := match lane_list 128 w a with [] => 0 | x :: l => fold_right Z.min x l end.
Definition v_maxv_u (w a : Z) : Z := fold_right Z.max 0 (lane_list 128 w a).

(** ** SVE intrinsics: [n] = vector length *)

(** whether lane [i] of width [w] is active in predicate [p] *)
Definition active (w p i : Z) : bool := Z.testbit p (i * (w / 8)).
(** a predicate from the activity of its lanes; svptrue_b{w}, svpfalse_b *)
Definition pred (n w : Z) (f : Z -> bool) : Z := build (w / 8) (nlanes n w) (fun i => if f i then 1 else 0).
Definition sv_ptrue (n w : Z) : Z := pred n w (fun _ => true).
Definition sv_pfalse : Z := 0.
(** predicated operations with suffix _x: lanes that are not active are those of an unspecified
    register [u] *)
Definition sv_1_x (u n w pg : Z) (f : Z -> Z) (a : Z) : Z :=
  build w (nlanes n w) (fun i => if active w pg i then f (lane w i a) else lane w i u).
Definition sv_2_x (u n w pg : Z) (f : Z -> Z -> Z) (a b : Z) : Z :=
  build w (nlanes n w) (fun i => if active w pg i then f (lane w i a) (lane w i b) else lane w i u).
Definition sv_3_x (u n w pg : Z) (f : Z -> Z -> Z -> Z) (a b c : Z) : Z :=
  build w (nlanes n w) (fun i => if active w pg i then f (lane w i a) (lane w i b) (lane w i c) else lane w i u).
(** svdup_n, svdup_n_x, svsel *)
Definition sv_dup (n w x : Z) : Z := build w (nlanes n w) (fun _ => x).
Definition sv_dup_x (u n w pg x : Z) : Z :=
  build w (nlanes n w) (fun i => if active w pg i then x else lane w i u).
Definition sv_sel (n w p a b : Z) : Z :=
  build w (nlanes n w) (fun i => if active w p i then lane w i a else lane w i b).
(** svcmp: a lane of the result is true if it is active and the comparison holds *)
Definition sv_cmp (n : Z) (t : ity) (pg : Z) (p : Z -> Z -> bool) (a b : Z) : Z :=
  pred n (bits t) (fun i => active (bits t) pg i && p (cast t (lane (bits t) i a)) (cast t (lane (bits t) i b))).
(** svand_z, svorr_z, sveor_z, svbic_z, svnot_z on predicates; svptest_any; svcntp_b{w} *)
Definition sv_and_z (pg a b : Z) : Z := Z.land pg (Z.land a b).
Definition sv_orr_z (pg a b : Z) : Z := Z.land pg (Z.lor a b).
Definition sv_eor_z (pg a b : Z) : Z := Z.land pg (Z.lxor a b).
Definition sv_bic_z (pg a b : Z) : Z := Z.land pg (Z.land a (Z.lnot b)).
Definition sv_not_z (pg a : Z) : Z := Z.land pg (Z.lnot a).
Definition sv_ptest_any (pg a : Z) : bool := negb (Z.land pg a =? 0).
Definition sv_cntp (n w pg p : Z) : Z :=
  lsum (map (fun i => if active w pg (Z.of_nat i) && active w p (Z.of_nat i) then 1 else 0) (seq 0 (nlanes n w))).
(** svlsl, svlsr, svasr_n, svdiv (a division by zero gives zero) *)
Definition l_lsl (w x s : Z) : Z := if s <? w then x * 2 ^ s else 0.
Definition l_lsr (w x s : Z) : Z := if s <? w then x / 2 ^ s else 0.
Definition l_asr (w x s : Z) : Z := to_s w x / 2 ^ s.
Definition l_div (t : ity) (x y : Z) : Z := if cast t y =? 0 then 0 else Z.quot (cast t x) (cast t y).

(** ** Emulation through local arrays and the CPU back end *)

(** for (i = 0; i < k; i++) buf0[i] = f(buf0[i], buf1[i]); *)
Fixpoint op2_loop (f : Z -> Z -> option Z) (buf1 : Z -> Z) (k : nat) (buf0 : Z -> Z) : option (Z -> Z) :=
  match k with
  | O => Some buf0
  | S k' => bind (op2_loop f buf1 k' buf0) (fun b =>
            bind (f (b (Z.of_nat k')) (buf1 (Z.of_nat k'))) (fun x =>
            Some (fun j => if j =? Z.of_nat k' then x else b j)))
  end.
(** :317-337 [emulate_op2]; on SVE the arrays have room for 2048 bits, and storing a longer register
    to them is undefined *)
Definition emulate_op2 (e : aext) (t : ity) (f : Z -> Z -> option Z) (a b : Z) : option Z :=
  let w := bits t in
  if (match e with Sve _ _ => an e / w <=? 2048 / w | _ => true end) then
    bind (op2_loop f (fun i => cast t (lane w i b)) (nlanes (an e) w) (fun i => cast t (lane w i a)))
         (fun buf => Some (build w (nlanes (an e) w) buf))
  else None.
(** the register as a CPU vector and back; a CPU vector has 128 bits (egg/common.py:264), so that the loops
    of :294-315 [emulate_op1] and :353-366 [emulate_op3_neon] have one iteration *)
Definition cpu_of (t : ity) (a : Z) : reg := map (cast t) (lane_list 128 (bits t) a).
Definition of_cpu (t : ity) (l : reg) : Z := X86Arith.build (bits t) (nlanes 128 (bits t)) (fun i => nth (Z.to_nat i) l 0).
Definition emulate_op1 (t : ity) (f : Z -> option Z) (a : Z) : option Z :=
  bind (scalar_impl1 (nlanes 128 (bits t)) f (cpu_of t a)) (fun l => Some (of_cpu t l)).
Definition emulate_op3 (t : ity) (f : Z -> Z -> Z -> option Z) (a b c : Z) : option Z :=
  bind (scalar_impl3 (nlanes 128 (bits t)) f (cpu_of t a) (cpu_of t b) (cpu_of t c)) (fun l => Some (of_cpu t l)).

Section Operators.
(** the lanes an instruction leaves unspecified *)
Variable u : Z.

(** {svtrue} = svptrue_b{typnbits}() *)
Definition svtrue (e : aext) (t : ity) : Z := sv_ptrue (an e) (bits t).
(** v{op}q_{suf}(..) and sv{op}_{suf}_x({svtrue}, ..) *)
Definition both1 (e : aext) (t : ity) (f : Z -> Z) (a : Z) : Z :=
  match e with Sve _ _ => sv_1_x u (an e) (bits t) (svtrue e t) f a | _ => v_1 (bits t) f a end.
Definition both2 (e : aext) (t : ity) (f : Z -> Z -> Z) (a b : Z) : Z :=
  match e with Sve _ _ => sv_2_x u (an e) (bits t) (svtrue e t) f a b | _ => v_2 (bits t) f a b end.
Definition both3 (e : aext) (t : ity) (f : Z -> Z -> Z -> Z) (a b c : Z) : Z :=
  match e with Sve _ _ => sv_3_x u (an e) (bits t) (svtrue e t) f a b c | _ => v_3 (bits t) f a b c end.
Definition is_neon (e : aext) : bool := match e with Sve _ _ => false | _ => true end.
Definition is_neon128 (e : aext) : bool := match e with Neon128 => true | _ => false end.

(** :747-754 [len1] *)
Definition a_len (e : aext) (t : ity) : Z :=
  match e with Sve _ _ => cast i32 (sv_cntp (an e) (bits t) (svtrue e t) (svtrue e t)) | _ => 128 / bits t end.

(** :759-769 [addsub] *)
Definition a_add (e : aext) (t : ity) (a b : Z) : Z := both2 e t Z.add a b.
Definition a_sub (e : aext) (t : ity) (a b : Z) : Z := both2 e t Z.sub a b.
(** :773-785 [mul2] *)
Definition a_mul (e : aext) (t : ity) (a b : Z) : option Z :=
  if is_neon e && (bits t =? 64) then emulate_op2 e t (s_mul t) a b else Some (both2 e t Z.mul a b).
(** :789-801 [div2] *)
Definition a_div (e : aext) (t : ity) (a b : Z) : option Z :=
  if negb (is_neon e) && (32 <=? bits t) then Some (both2 e t (l_div t) a b) else emulate_op2 e t (s_div t) a b.
(** :805-838 [binop2], integers *)
Definition a_andb (e : aext) (t : ity) (a b : Z) : Z := if is_neon e then v_and a b else both2 e t Z.land a b.
Definition a_orb (e : aext) (t : ity) (a b : Z) : Z := if is_neon e then v_orr a b else both2 e t Z.lor a b.
Definition a_xorb (e : aext) (t : ity) (a b : Z) : Z := if is_neon e then v_eor a b else both2 e t Z.lxor a b.
Definition a_andnotb (e : aext) (t : ity) (a b : Z) : Z :=
  if is_neon e then v_bic a b else both2 e t (fun x y => Z.land x (Z.lnot y)) a b.
(** :842-874 [not1], integers: vmvnq exists up to 32 bits *)
Definition a_notb (e : aext) (t : ity) (a : Z) : Z :=
  if is_neon e then v_1 (if bits t =? 64 then 32 else bits t) Z.lnot a else both1 e t Z.lnot a.

(** :1026-1047 [set1] *)
Definition a_set1 (e : aext) (t : ity) (x : Z) : Z := if is_neon e then v_dup (bits t) x else sv_dup (an e) (bits t) x.

(** :978-1003 [shl_shr] *)
Definition a_shl (e : aext) (t : ity) (a c : Z) : option Z :=
  let w := bits t in
  if is_neon e then Some (v_2 w (l_shl_u w) a (v_dup w (to_s w c)))
  else Some (both2 e t (l_lsl w) a (sv_dup (an e) w (to_u w c))).
Definition a_shr (e : aext) (t : ity) (a c : Z) : option Z :=
  let w := bits t in
  if is_neon e then bind (carith i32 (- c)) (fun c' => Some (v_2 w (l_shl_u w) a (v_dup w (to_s w c'))))
  else Some (both2 e t (l_lsr w) a (sv_dup (an e) w (to_u w c))).
(** :1005-1022 [shra] *)
Definition a_shra (e : aext) (t : ity) (a c : Z) : option Z :=
  let w := bits t in
  if negb (is_signed t) then a_shr e t a c
  else if is_neon e then bind (carith i32 (- c)) (fun c' => Some (v_2 w (l_shl_s w) a (v_dup w (to_s w c'))))
  else Some (both1 e t (fun x => l_asr w x (to_u w c)) a).

(** :1187-1207 [minmax2], integers *)
Definition minmax64 (t : ity) (p : Z -> Z -> bool) (a b : Z) : Z :=
  let x i := cast t (lane 64 i a) in let y i := cast t (lane 64 i b) in
  X86Arith.build 64 2 (fun i => if p (x i) (y i) then x i else y i).
Definition a_min (e : aext) (t : ity) (a b : Z) : Z :=
  if is_neon e && (bits t =? 64) then minmax64 t Z.ltb a b else both2 e t (l_min t) a b.
Definition a_max (e : aext) (t : ity) (a b : Z) : Z :=
  if is_neon e && (bits t =? 64) then minmax64 t Z.gtb a b else both2 e t (l_max t) a b.
(** :1211-1227 [abs1], integers *)
Definition a_abs (e : aext) (t : ity) (a : Z) : option Z :=
  if negb (is_signed t) then Some a
  else if is_neon128 e && (bits t =? 64) then emulate_op1 t (s_abs t) a
  else Some (both1 e t (l_abs (bits t)) a).
(** :1315-1352 [neg1], integers *)
Definition a_neg (e : aext) (t : ity) (a : Z) : option Z :=
  if is_neon128 e && (bits t =? 64) then emulate_op1 t (s_neg t) a else Some (both1 e t l_neg a).
(** :1257-1292 [fmafnma3], integers *)
Definition a_fma (e : aext) (t : ity) (a b c : Z) : option Z :=
  if is_neon e && (bits t =? 64) then emulate_op3 t (s_fma t) a b c else Some (both3 e t l_mla c b a).
Definition a_fnma (e : aext) (t : ity) (a b c : Z) : option Z :=
  if is_neon e && (bits t =? 64) then emulate_op3 t (s_fnma t) a b c else Some (both3 e t l_mls c b a).
(** :1296-1311 [fmsfnms3], integers *)
Definition a_fms (e : aext) (t : ity) (a b c : Z) : option Z := bind (a_fnma e t a b c) (a_neg e t).
Definition a_fnms (e : aext) (t : ity) (a b c : Z) : option Z := bind (a_fma e t a b c) (a_neg e t).
(** :2015-2035 [adds], [subs], integers; svqadd and svqsub are not predicated *)
Definition a_adds (e : aext) (t : ity) (a b : Z) : Z :=
  if is_neon e then v_2 (bits t) (l_qadd t) a b else lanewise2 (an e) (bits t) (l_qadd t) a b.
Definition a_subs (e : aext) (t : ity) (a b : Z) : Z :=
  if is_neon e then v_2 (bits t) (l_qsub t) a b else lanewise2 (an e) (bits t) (l_qsub t) a b.

(** ** Comparisons and logicals *)

(** :69-76 [convert_from_predicate], :78-86 [convert_to_predicate] *)
Definition from_pred (e : aext) (t : ity) (p : Z) : Z :=
  match e with
  | Sve true _ => sv_sel (an e) (bits t) p (sv_dup_x u (an e) (bits t) (svtrue e t) (-1)) (sv_dup_x u (an e) (bits t) (svtrue e t) 0)
  | _ => p
  end.
Definition to_pred (e : aext) (t : ity) (l : Z) : Z :=
  match e with
  | Sve true _ => sv_cmp (an e) (Ity false (bits t)) (svtrue e t) Z.eqb l (sv_dup_x u (an e) (bits t) (svtrue e t) (-1))
  | _ => l
  end.
(** :1085-1131 [cmp2], integers *)
Definition a_cmp (p : Z -> Z -> bool) (e : aext) (t : ity) (a b : Z) : Z :=
  match e with
  | Sve _ _ => from_pred e t (sv_cmp (an e) t (svtrue e t) p a b)
  | Neon128 => if bits t =? 64
               then X86Arith.build 64 2 (fun i => if p (cast t (lane 64 i a)) (cast t (lane 64 i b)) then -1 else 0)
               else v_2 (bits t) (l_cmp t p) a b
  | Aarch64 => v_2 (bits t) (l_cmp t p) a b
  end.
Definition a_eq := a_cmp Z.eqb.
Definition a_lt := a_cmp Z.ltb.
Definition a_le := a_cmp Z.leb.
Definition a_gt := a_cmp Z.gtb.
Definition a_ge := a_cmp Z.geb.
(** :922-952 [lnot1]; :878-918 [lop2] *)
Definition a_notl (e : aext) (t : ity) (l : Z) : Z :=
  match e with
  | Sve true _ => both1 e t Z.lnot l
  | Sve false _ => sv_not_z (svtrue e t) l
  | _ => v_1 (if bits t =? 64 then 32 else bits t) Z.lnot l
  end.
Definition a_lop2 (v : Z -> Z -> Z) (f : Z -> Z -> Z) (z : Z -> Z -> Z -> Z) (e : aext) (t : ity) (a b : Z) : Z :=
  match e with
  | Sve true _ => both2 e t f a b
  | Sve false _ => z (svtrue e t) a b
  | _ => v a b
  end.
Definition a_andl := a_lop2 v_and Z.land sv_and_z.
Definition a_orl := a_lop2 v_orr Z.lor sv_orr_z.
Definition a_xorl := a_lop2 v_eor Z.lxor sv_eor_z.
Definition a_andnotl := a_lop2 v_bic (fun x y => Z.land x (Z.lnot y)) sv_bic_z.
(** :1135-1144 [neq2] *)
Definition a_ne (e : aext) (t : ity) (a b : Z) : Z :=
  match e with
  | Sve _ _ => from_pred e t (sv_cmp (an e) t (svtrue e t) (fun x y => negb (x =? y)) a b)
  | _ => a_notl e t (a_eq e t a b)
  end.
(** :1149-1183 [if_else3] *)
Definition a_if_else1 (e : aext) (t : ity) (l a b : Z) : Z :=
  match e with Sve _ _ => sv_sel (an e) (bits t) (to_pred e t l) a b | _ => v_bsl l a b end.
(** :1051-1080 [lset1]; with sve_emulate_bool the emitted code returns a predicate where a register
    is expected and does not compile *)
Definition a_set1l (e : aext) (t : ity) (x : Z) : Z :=
  match e with
  | Sve _ _ => if x =? 0 then sv_pfalse else sv_ptrue (an e) (bits t)
  | _ => if x =? 0 then v_dup (bits t) 0 else v_dup (bits t) (-1)
  end.
(** :1431-1478 [allany1] *)
Definition a_all (e : aext) (t : ity) (l : Z) : bool :=
  match e with
  | Neon128 => forallb (fun x => negb (x =? 0)) (lane_list 128 (bits t) l)
  | Aarch64 => negb (v_minv_u (if bits t =? 64 then 32 else bits t) l =? 0)
  | Sve _ _ => negb (sv_ptest_any (svtrue e t) (sv_not_z (svtrue e t) (to_pred e t l)))
  end.
Definition a_any (e : aext) (t : ity) (l : Z) : bool :=
  match e with
  | Neon128 => existsb (fun x => negb (x =? 0)) (lane_list 128 (bits t) l)
  | Aarch64 => negb (v_maxv_u (if bits t =? 64 then 32 else bits t) l =? 0)
  | Sve _ _ => sv_ptest_any (svtrue e t) (to_pred e t l)
  end.
(** :1482-1524 [nbtrue1] *)
Definition a_nbtrue (e : aext) (t : ity) (l : Z) : Z :=
  match e with
  | Neon128 => - cast i32 (lsum (map (to_s (bits t)) (lane_list 128 (bits t) l)))
  | Aarch64 => if bits t =? 64 then - Z.shiftr (v_addv_s 32 l) 1 else - cast i32 (v_addv_s (bits t) l)
  | Sve _ _ => cast i32 (sv_cntp (an e) (bits t) (svtrue e t) (to_pred e t l))
  end.
(** :2039-2074 [to_mask1], :2139-2166 [to_logical1], integers *)
Definition a_to_mask (e : aext) (t : ity) (l : Z) : Z :=
  match e with
  | Sve false _ => sv_sel (an e) (bits t) l (sv_dup (an e) (bits t) (-1)) (sv_dup (an e) (bits t) 0)
  | _ => l
  end.
Definition a_to_logical (e : aext) (t : ity) (a : Z) : Z := a_ne e t a (a_set1 e t 0).

(** ** iota and mask_for_loop_tail *)

(** :2078-2109 [iota], integers; svindex(0, 1) *)
Definition a_iota (e : aext) (t : ity) : Z := X86Arith.build (bits t) (nlanes (an e) (bits t)) (fun i => i).
(** :2113-2135 [mask_for_loop_tail], integers; [le] is nsimd_len_sve on sve, a constant elsewhere *)
Definition a_mask_for_loop_tail (e : aext) (t : ity) (i n : Z) : option Z :=
  if n <=? i then Some (a_set1l e t 0)
  else bind (carith i32 (n - i)) (fun d =>
       if d <? a_len e t then Some (a_lt e t (a_iota e t) (a_set1 e t (cast t d)))
       else Some (a_set1l e t 1)).
End Operators.
