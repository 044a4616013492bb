(** Model of src/fp16.cpp: software conversions between binary16 patterns
    (u16) and binary32 (f32, modelled by its 32-bit pattern). *)
From Coq Require Import ZArith Bool.
From Verif Require Import CInt FloatSpec.
Open Scope Z_scope.

(** src/fp16.cpp:124-128, the loop
      [int i = -1; do { ++i; mask <<= 1; } while ((mask & 0x400) == 0);]
    [fuel] bounds the iterations; [None] = fuel exhausted (the theorems show
    that this never happens).  Returns the final [(i, mask)]. *)
Fixpoint msb_loop (fuel : nat) (i mask : Z) : option (Z * Z) :=
  match fuel with
  | O => None
  | S fuel' =>
      let i' := i + 1 in
      let mask' := to_u 32 (Z.shiftl mask 1) in
      if Z.land mask' 0x400 =? 0 then msb_loop fuel' i' mask' else Some (i', mask')
  end.

(** src/fp16.cpp:136-137, rebuilding the float from its fields. *)
Definition rebuild_f32 (sign exponent mantissa : Z) : Z :=
  Z.lor (Z.lor (to_u 32 (Z.shiftl sign 16)) (to_u 32 (Z.shiftl exponent 23)))
        (to_u 32 (Z.shiftl mantissa 13)).

(** src/fp16.cpp:90,105-138 [nsimd_u16_to_f32], IEEE-754 build.  The result is
    the 32-bit pattern given to [nsimd_scalar_reinterpret_f32_u32]. *)
Definition u16_to_f32 (a : Z) : option Z :=
  let sign := Z.land a 0x8000 in
  let exponent := Z.land (Z.shiftr a 10) 0x1F in
  let mantissa := Z.land a 0x3FF in
  if exponent =? 31 then Some (rebuild_f32 sign 255 mantissa)
  else if (exponent =? 0) && (mantissa =? 0) then Some (rebuild_f32 sign exponent mantissa)
  else if exponent =? 0 then
    match msb_loop 64 (-1) mantissa with
    | None => None
    | Some (i, mask) =>
        Some (rebuild_f32 sign (to_u 32 (exponent + to_u 32 (112 - i))) (Z.land mask 0x3ff))
    end
  else Some (rebuild_f32 sign (to_u 32 (exponent + 112)) mantissa).

(** Unary minus on a float: flips the sign, keeps the magnitude. *)
Definition fneg (v : fval) : fval :=
  match v with
  | FNaN => FNaN
  | FInf s => FInf (negb s)
  | FFin s m => FFin (negb s) m
  end.

(** src/fp16.cpp:155,190-244 [nsimd_f32_to_u16], IEEE-754 build.  The argument
    is the pattern of the float.  Float comparisons are those of IEEE-754 on
    the decoded values; [in_f += magic_f] is [fadd binary32].  [int exponent]
    beyond the NaN test is dead in the source and is not modelled. *)
Definition f32_to_u16 (in_u : Z) : Z :=
  let a := decode binary32 in_u in
  let sign := Z.land in_u 0x80000000 in
  let exponent := Z.land (Z.shiftr in_u 23) 0xFF in
  let mantissa := Z.land in_u 0x7FFFFF in
  if (exponent =? 255) && negb (mantissa =? 0) then 0xffff
  else
    let biggest_f16 := decode binary32 0x477ff000 in
    if fle biggest_f16 a || fle a (fneg biggest_f16) then
      to_u 16 (Z.lor (Z.shiftr sign 16) (Z.shiftl 0x1f 10))
    else
      let smallest_f16 := decode binary32 0x33000000 in
      if fle a smallest_f16 && fle (fneg smallest_f16) a then
        to_u 16 (Z.shiftr sign 16)
      else
        let denormal_f16 := decode binary32 0x38800000 in
        if flt a denormal_f16 && flt (fneg denormal_f16) a then
          let magic_u := Z.shiftl ((127 - 15) + (23 - 10) + 1) 23 in
          let in_u2 := Z.land in_u (2 ^ 32 - 1 - 0x80000000) in
          let in_f := fadd binary32 in_u2 magic_u in
          let in_u3 := to_u 32 (in_f - magic_u) in
          to_u 16 (Z.lor (Z.shiftr sign 16) in_u3)
        else
          let in_u2 := Z.land in_u (2 ^ 32 - 1 - 0x80000000) in
          let mant_odd := Z.land (Z.shiftr in_u2 13) 1 in
          let in_u3 := to_u 32 (in_u2 + to_u 32 (to_u 32 (Z.shiftl (to_u 32 (15 - 127)) 23) + 0xfff)) in
          let in_u4 := to_u 32 (in_u3 + mant_odd) in
          to_u 16 (Z.lor (Z.shiftr sign 16) (Z.shiftr in_u4 13)).

(** src/fp16.cpp:90-103 [nsimd_u16_to_f32], NSIMD_NO_IEEE754 build.  The float
    result is given by its value, in units of 2^-149 ([std::ldexp] is exact
    here: 11 significant bits, exponents far from the ends of binary32). *)
Definition u16_to_f32_noieee (a : Z) : fval :=
  let sign := Z.shiftr a 15 =? 1 in
  let exponent := Z.land (Z.shiftr a 10) 0x1F in
  let mantissa := Z.land a 0x3FF in
  if exponent =? 0 then FFin sign (mantissa * 2 ^ (149 - 24))
  else FFin sign (Z.lor 0x400 mantissa * 2 ^ (149 + (exponent - 25))).

(** src/fp16.cpp:155-187 [nsimd_f32_to_u16], NSIMD_NO_IEEE754 build, on the
    value of the float (units of 2^-149).  [std::frexp] returns 0 and exponent
    0 on zeros; otherwise the fraction in [1/2,1) and the exponent [ex] with
    value = frac * 2^ex.  Its exponent is unspecified on infinities and NaN:
    [None].  [(u32)(frac * 2048.0)] truncates; frac is [x / 2^(log2 x + 1)]. *)
Definition f32_to_u16_noieee (v : fval) : option Z :=
  match v with
  | FNaN | FInf _ => None
  | FFin s x =>
      let frexp_exp := if x =? 0 then 0 else Z.log2 x + 1 - 149 in
      let sign := if (x =? 0) then 0 else if s then 1 else 0 in
      let exponent := frexp_exp + 1 in
      if exponent <? -14 then Some (to_u 16 (Z.shiftl sign 15))
      else if 15 <? exponent then Some (to_u 16 (Z.lor (Z.shiftl sign 15) 0x7C00))
      else
        let frac2048 := if x =? 0 then 0 else x * 2048 / 2 ^ (Z.log2 x + 1) in
        let mantissa := Z.land frac2048 0x3FF in
        Some (to_u 16 (Z.lor (Z.lor (Z.shiftl sign 15) (Z.shiftl (exponent + 15) 10)) mantissa))
  end.
