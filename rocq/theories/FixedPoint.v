(** Model of the fixed-point module, include/nsimd/modules/fixed_point/.

    A value of type fp_t<lf,rt> is its member [_raw], an integer of the storage
    type [t]; the functions below take [t], [lf] and [rt] as the C++ templates
    do.  C integer semantics as in ScalarOps: promotion to [int], [None] for
    undefined operations.  Simplification: [<<] on negative or overflowing signed
    operands keeps the low bits and [>>] on negative ones is arithmetic, as GCC,
    Clang and MSVC (and C++20) define them.  Floats are binary32 patterns, rounded
    to nearest even. *)
From Coq Require Import ZArith Bool List.
From Verif Require Import CInt FloatSpec RoundEven ScalarOps CpuSimd.
Import ListNotations.
Open Scope Z_scope.

(** fixed.hpp:53-97 [fp_types]: the storage type from lf + 2 rt. *)
Definition storage (lf rt : Z) : option ity :=
  let w := lf + 2 * rt in
  if (0 <? w) && (w <=? 8) then Some i8
  else if (8 <? w) && (w <=? 16) then Some i16
  else if (16 <? w) && (w <=? 32) then Some i32
  else if (32 <? w) && (w <=? 64) then Some i64
  else None.

(** *** binary32 arithmetic used by the conversions (IEEE, nearest even) *)
(** [(float)z] *)
Definition f_of_int (z : Z) : Z := encode binary32 (z <? 0) (Z.abs z * 2 ^ 149) 0.
(** [a * b]: magnitudes are in units of 2^-149, so the product of magnitudes is
    in units of 2^-298. *)
Definition fmul32 (a b : Z) : Z :=
  match decode binary32 a, decode binary32 b with
  | FNaN, _ | _, FNaN => nan_bits binary32
  | FInf s, FInf s' => sign_bit binary32 (xorb s s') + inf_bits binary32
  | FInf s, FFin s' m => if m =? 0 then nan_bits binary32 else sign_bit binary32 (xorb s s') + inf_bits binary32
  | FFin s m, FInf s' => if m =? 0 then nan_bits binary32 else sign_bit binary32 (xorb s s') + inf_bits binary32
  | FFin s m, FFin s' m' => encode binary32 (xorb s s') (m * m') 149
  end.
(** [a / b]: the quotient of the magnitudes with two extra bits and a sticky
    bit, which is enough to round it correctly. *)
Definition fdiv32 (a b : Z) : Z :=
  match decode binary32 a, decode binary32 b with
  | FNaN, _ | _, FNaN => nan_bits binary32
  | FInf _, FInf _ => nan_bits binary32
  | FInf s, FFin s' _ => sign_bit binary32 (xorb s s') + inf_bits binary32
  | FFin s _, FInf s' => sign_bit binary32 (xorb s s')
  | FFin s m, FFin s' m' =>
      if m' =? 0 then
        if m =? 0 then nan_bits binary32 else sign_bit binary32 (xorb s s') + inf_bits binary32
      else
        let n := m * 2 ^ (149 + 2) in
        encode binary32 (xorb s s') (2 * (n / m') + (if n mod m' =? 0 then 0 else 1)) 3
  end.
(** libm [roundf]: nearest integer, ties away from zero. *)
Definition roundf (b : Z) : Z :=
  match decode binary32 b with
  | FFin s m => encode binary32 s ((m + 2 ^ 148) / 2 ^ 149 * 2 ^ 149) 0
  | _ => b
  end.
(** [(T)b]: truncation; undefined when the integer does not fit. *)
Definition int_of_f (t : ity) (b : Z) : option Z :=
  match decode binary32 b with
  | FFin s m =>
      let z := sval s (m / 2 ^ 149) in
      if (ty_min t <=? z) && (z <=? ty_max t) then Some z else None
  | _ => None
  end.

(** [1 << rt], an [int]: undefined when the result is not an [int]. *)
Definition one_shl (rt : Z) : option Z :=
  if (0 <=? rt) && (rt <? 31) then Some (2 ^ rt) else None.

(** fixed.hpp:37-39 [float2int]. *)
Definition float2int (t : ity) (rt val : Z) : option Z :=
  bind (one_shl rt) (fun p => int_of_f t (roundf (fmul32 val (f_of_int p)))).
(** fixed.hpp:41-43 [int2float]. *)
Definition int2float (rt val : Z) : option Z :=
  bind (one_shl rt) (fun p => Some (fdiv32 (f_of_int val) (f_of_int p))).
(** fixed.hpp:118-120 constructor from an integer. *)
Definition fp_of_int (t : ity) (rt n : Z) : option Z := float2int t rt (f_of_int n).

(** *** Arithmetic *)
(** function/add.hpp:33-39, sub.hpp:33-39, neg.hpp:33-37 *)
Definition fp_add (t : ity) (a b : Z) : option Z := s_add t a b.
Definition fp_sub (t : ity) (a b : Z) : option Z := s_sub t a b.
Definition fp_neg (t : ity) (a : Z) : option Z := s_mul t a (-1).

(** function/mul.hpp:33-50.  [sign_val] is evaluated on every call (it is a
    function-local constant). *)
Definition fp_mul (t : ity) (rt a b : Z) : option Z :=
  bind (s_shl (uty t) (cast (uty t) (-1)) (bits t - rt)) (fun sv =>
  bind (s_mul t a b) (fun tmp =>
    let sign := if tmp <? 0 then cast t sv else 0 in
    let tmp' := cast t (Z.shiftr tmp rt) in
    Some (cast t (Z.lor tmp' sign)))).

(** function/div.hpp:33-44 *)
Definition fp_div (t : ity) (rt a b : Z) : option Z :=
  bind (s_shl t a rt) (fun tmp => s_div t tmp b).

(** function/abs.hpp:34-40 *)
Definition fp_abs (t : ity) (rt a : Z) : option Z :=
  if 0 <? a then Some a else bind (fp_of_int t rt (-1)) (fun m => fp_mul t rt a m).

(** function/shift.hpp:33-46 *)
Definition fp_shr (t : ity) (a b : Z) : option Z :=
  if (0 <=? b) && (b <? bits (promote t)) then Some (cast t (Z.shiftr a b)) else None.
Definition fp_shl (t : ity) (a b : Z) : option Z := s_shl t a b.

(** *** Comparisons *)
(** function/eq.hpp:35-38, less.hpp:36-39,57-60, greater.hpp: the mask. *)
Definition cmp_mask (t : ity) (lf rt : Z) : Z := cast t (Z.shiftl (-1) (bits t - lf - rt)).
(** function/eq.hpp:32-39, neq.hpp:33-35 *)
Definition fp_eq (t : ity) (lf rt a b : Z) : bool :=
  Z.land a (cmp_mask t lf rt) =? Z.land b (cmp_mask t lf rt).
Definition fp_ne (t : ity) (lf rt a b : Z) : bool := negb (fp_eq t lf rt a b).
(** function/less.hpp:33-40,54-61 *)
Definition fp_lt (t : ity) (lf rt a b : Z) : bool :=
  Z.land a (cmp_mask t lf rt) <? Z.land b (cmp_mask t lf rt).
Definition fp_le (t : ity) (lf rt a b : Z) : bool :=
  Z.land a (cmp_mask t lf rt) <=? Z.land b (cmp_mask t lf rt).
(** function/greater.hpp:34-40,58-64 *)
Definition fp_gt (t : ity) (lf rt a b : Z) : bool :=
  Z.land b (cmp_mask t lf rt) <? Z.land a (cmp_mask t lf rt).
Definition fp_ge (t : ity) (lf rt a b : Z) : bool :=
  Z.land b (cmp_mask t lf rt) <=? Z.land a (cmp_mask t lf rt).
(** function/eq_ulp.hpp:33-42; [-ulp] is an [int] operation. *)
Definition fp_eq_ulp (t : ity) (lf rt a b ulp : Z) : option bool :=
  bind (s_sub t (Z.land a (cmp_mask t lf rt)) (Z.land b (cmp_mask t lf rt))) (fun d =>
  let diff := cast t (Z.shiftr d (bits t - lf - rt)) in
  bind (carith i32 (- ulp)) (fun nulp => Some ((diff <=? ulp) && (nulp <=? diff)))).

(** function/floor.hpp:33-38 *)
Definition fp_floor (t : ity) (lf a : Z) : option Z :=
  bind (fp_shr t a (bits t - lf)) (fun q =>
  if (bits t - lf <? bits (promote t)) then Some (cast t (Z.shiftl q (bits t - lf))) else None).
(** function/is_int.hpp:34-37 *)
Definition fp_is_int (t : ity) (lf rt a : Z) : option bool :=
  bind (fp_floor t lf a) (fun fl => Some (fp_eq t lf rt a fl)).

(** *** sqrt: function/sqrt.hpp:33-45.  [x1] is indeterminate before the loop;
    the loop runs at least once. *)
Fixpoint sqrt_loop (t : ity) (rt a : Z) (n : nat) (x0 x1 : Z) : option Z :=
  match n with
  | O => Some x1
  | S n' =>
      bind (fp_div t rt a x0) (fun q =>
      bind (fp_add t x0 q) (fun s =>
      bind (fp_of_int t rt 2) (fun two =>
      bind (fp_div t rt s two) (fun x1 =>
        if x0 =? 0 then Some x1
        else bind (carith (promote t) (x0 - x1)) (fun d =>
          if d =? 0 then Some x1 else sqrt_loop t rt a n' x1 x1)))))
  end.
Definition fp_sqrt (t : ity) (rt a : Z) : option Z := sqrt_loop t rt a 10 a 0.

(** *** exp(fp_t, i64): function/exp.hpp:39-61.  [fuel] bounds the iterations of
    [while (e > 1)]; running out of it is the outer [None]. *)
Fixpoint exp_loop (t : ity) (rt : Z) (fuel : nat) (e val res : Z) : option (option Z) :=
  if 1 <? e then
    match fuel with
    | O => None
    | S fuel' =>
        if Z.odd e then
          match fp_mul t rt res val, fp_mul t rt val val with
          | Some res', Some val' => exp_loop t rt fuel' (Z.quot (e - 1) 2) val' res'
          | _, _ => Some None
          end
        else
          match fp_mul t rt val val with
          | Some val' => exp_loop t rt fuel' (Z.quot e 2) val' res
          | None => Some None
          end
    end
  else Some (fp_mul t rt res val).

Definition fp_exp (t : ity) (rt : Z) (fuel : nat) (a b : Z) : option (option Z) :=
  if b =? 0 then Some (fp_of_int t rt 1)
  else
    match (if b <? 0 then bind (fp_of_int t rt 1) (fun one => fp_div t rt one a) else Some a),
          (if b <? 0 then carith i64 (- b) else Some b),
          fp_of_int t rt 1 with
    | Some val, Some e, Some one => exp_loop t rt fuel e val one
    | _, _, _ => Some None
    end.

(** *** log2: function/log.hpp:37-98. *)
Inductive out := OutOfFuel | Undef | Ret (z : Z).
Definition obind {A} (x : option A) (k : A -> out) : out :=
  match x with None => Undef | Some a => k a end.

(** [char I]: signed 8 bits (as on x86); [++I] on it. *)
Definition inc8 (z : Z) : Z := cast i8 (z + 1).
Definition dec8 (z : Z) : Z := cast i8 (z - 1).

(** log.hpp:54-58 [while (tmp) { tmp >>= 1; ++I; pow2 = two * pow2; }] *)
Fixpoint log2_up (t : ity) (rt two : Z) (fuel : nat) (tmp I pow2 : Z) (k : Z -> Z -> out) : out :=
  if tmp =? 0 then k I pow2
  else match fuel with
       | O => OutOfFuel
       | S f => obind (fp_mul t rt two pow2) (fun p => log2_up t rt two f (Z.shiftr tmp 1) (inc8 I) p k)
       end.
(** log.hpp:66-70 *)
Fixpoint log2_down (t : ity) (rt two one : Z) (fuel : nat) (tmp2 I pow2 : Z) (k : Z -> Z -> out) : out :=
  if tmp2 <? one then
    match fuel with
    | O => OutOfFuel
    | S f => obind (fp_shl t tmp2 1) (fun tmp2' => obind (fp_div t rt pow2 two) (fun p =>
               log2_down t rt two one f tmp2' (dec8 I) p k))
    end
  else k I pow2.
(** log.hpp:86-92: the inner loop; [i] is an [int], [++i] overflows undefinedly. *)
Fixpoint log2_inner (t : ity) (rt two : Z) (fuel : nat) (z pow2 i : Z) (k : Z -> Z -> Z -> out) : out :=
  if z <? two then
    match fuel with
    | O => OutOfFuel
    | S f => obind (fp_mul t rt z z) (fun z' => obind (fp_div t rt pow2 two) (fun p =>
             obind (carith i32 (i + 1)) (fun i' => log2_inner t rt two f z' p i' k)))
    end
  else k z pow2 i.
(** log.hpp:84-95 *)
Fixpoint log2_outer (t : ity) (lf rt two : Z) (fuel : nat) (y0 pow2 res i : Z) : out :=
  if i <? rt + lf then
    match fuel with
    | O => OutOfFuel
    | S f =>
        log2_inner t rt two f y0 pow2 i (fun z p i' =>
        obind (fp_add t res p) (fun res' =>
        obind (fp_div t rt z two) (fun y0' =>
        obind (carith i32 (i' + 1)) (fun i'' => log2_outer t lf rt two f y0' p res' i''))))
    end
  else Ret res.

Definition fp_log2 (t : ity) (lf rt : Z) (fuel : nat) (a : Z) : out :=
  obind (fp_of_int t rt 1) (fun one =>
  obind (fp_of_int t rt 2) (fun two =>
  if a <=? 0 then obind (fp_of_int t rt (-1)) Ret
  else
    obind (fp_shr t a (bits t - lf)) (fun tmp =>
    let tmp := Z.shiftr tmp 1 in
    let frac I pow2 :=
      obind (fp_of_int t rt I) (fun res =>
      obind (fp_div t rt a pow2) (fun y0 => log2_outer t lf rt two fuel y0 one res 0)) in
    if negb (tmp =? 0) then
      log2_up t rt two fuel tmp 0 one (fun I pow2 =>
        obind (fp_div t rt a pow2) (fun q =>
        if fp_eq t lf rt one q then obind (fp_of_int t rt I) Ret else frac I pow2))
    else
      log2_down t rt two one fuel a 0 one (fun I pow2 =>
        if fp_eq t lf rt a pow2 then obind (fp_of_int t rt I) Ret else frac I pow2)))).

(** *** SIMD functions, on vectors of [n] raw values (CPU backend). *)
(** function/simd/add.hpp:33-40, sub.hpp *)
Definition simd_add (t : ity) (n : nat) (a b : reg) : option reg := op2 t Z.add n a b.
Definition simd_sub (t : ity) (n : nat) (a b : reg) : option reg := op2 t Z.sub n a b.
(** function/simd/mul.hpp:33-44 *)
Definition simd_mul (t : ity) (rt : Z) (n : nat) (a b : reg) : option reg :=
  bind (op2 t Z.mul n a b) (fun r => scalar_impl_shift n (s_shra t) r rt).
(** function/simd/div.hpp:33-44 *)
Definition simd_div (t : ity) (rt : Z) (n : nat) (a b : reg) : option reg :=
  bind (scalar_impl_shift n (s_shl t) a rt) (fun r => op2_div t n r b).
(** function/simd/fma.hpp:37-45 *)
Definition simd_fma (t : ity) (rt : Z) (n : nat) (a b c : reg) : option reg :=
  bind (simd_mul t rt n a b) (fun r => simd_add t n r c).
(** function/simd/rec.hpp:35-38 *)
Definition simd_rec (t : ity) (rt : Z) (n : nat) (a : reg) : option reg :=
  bind (fp_of_int t rt 1) (fun one => bind (set1 (EI t) n one) (fun v => simd_div t rt n v a)).
(** function/simd/{eq,ne,lt,le,gt,ge}.hpp:33-40 *)
Definition simd_eq (n : nat) (a b : reg) := cmp2 s_eq n a b.
Definition simd_ne (n : nat) (a b : reg) := cmp2 s_ne n a b.
Definition simd_lt (n : nat) (a b : reg) := cmp2 s_lt n a b.
Definition simd_le (n : nat) (a b : reg) := cmp2 s_le n a b.
Definition simd_gt (n : nat) (a b : reg) := cmp2 s_gt n a b.
Definition simd_ge (n : nat) (a b : reg) := cmp2 s_ge n a b.
(** function/simd/{min,max,abs}.hpp:33-40 *)
Definition simd_min (n : nat) (a b : reg) := scalar_impl2 n (fun x y => Some (s_min x y)) a b.
Definition simd_max (n : nat) (a b : reg) := scalar_impl2 n (fun x y => Some (s_max x y)) a b.
Definition simd_abs (t : ity) (n : nat) (a : reg) := scalar_impl1 n (s_abs t) a.
