(** Model of include/nsimd/nsimd.h:2115-2203: isnan, isinf, isnormal on bit
    patterns.  Shifts are in u32 for f16 and f32 ((u32)b << 6, b << 9) and in
    u64 for f64 (b << 12). *)
From Coq Require Import ZArith Bool.
From Verif Require Import CInt.
Open Scope Z_scope.

(** nsimd.h:2115-2123 *)
Definition isnan_f16 (b : Z) : bool :=
  (Z.land (Z.shiftr b 10) 0x1F =? 0x1F) && negb (to_u 32 (Z.shiftl b 6) =? 0).
(** nsimd.h:2125-2133 *)
Definition isnan_f32 (b : Z) : bool :=
  (Z.land (Z.shiftr b 23) 0xFF =? 0xFF) && negb (to_u 32 (Z.shiftl b 9) =? 0).
(** nsimd.h:2135-2143 *)
Definition isnan_f64 (b : Z) : bool :=
  (Z.land (Z.shiftr b 52) 0x7FF =? 0x7FF) && negb (to_u 64 (Z.shiftl b 12) =? 0).
(** nsimd.h:2145-2153 *)
Definition isinf_f16 (b : Z) : bool :=
  (Z.land (Z.shiftr b 10) 0x1F =? 0x1F) && (to_u 32 (Z.shiftl b 6) =? 0).
(** nsimd.h:2155-2163 *)
Definition isinf_f32 (b : Z) : bool :=
  (Z.land (Z.shiftr b 23) 0xFF =? 0xFF) && (to_u 32 (Z.shiftl b 9) =? 0).
(** nsimd.h:2165-2173 *)
Definition isinf_f64 (b : Z) : bool :=
  (Z.land (Z.shiftr b 52) 0x7FF =? 0x7FF) && (to_u 64 (Z.shiftl b 12) =? 0).
(** nsimd.h:2175-2183 (no negation) *)
Definition isnormal_f16 (b : Z) : bool :=
  (Z.land (Z.shiftr b 10) 0x1F =? 0) && negb (to_u 32 (Z.shiftl b 6) =? 0).
(** nsimd.h:2185-2193 *)
Definition isnormal_f32 (b : Z) : bool :=
  negb ((Z.land (Z.shiftr b 23) 0xFF =? 0) && negb (to_u 32 (Z.shiftl b 9) =? 0)).
(** nsimd.h:2195-2203 *)
Definition isnormal_f64 (b : Z) : bool :=
  negb ((Z.land (Z.shiftr b 52) 0x7FF =? 0) && negb (to_u 64 (Z.shiftl b 12) =? 0)).
