(** What correctly rounded floating-point arithmetic is, in terms of the
    values of the bit patterns only. *)
Require Import ZArith Bool.
Require Import Verif.FloatSpec Verif.Fp16Spec Verif.X86CvtSpec.
Local Open Scope Z_scope.

(** The first power of two that is too large for the format. *)
Definition beyond (f : fmt) : Z := 2 ^ (mbits f + 2 ^ ebits f - 2).
(** How large a value is: an infinity counts as the first power of two that
    is too large, as IEEE-754 has it for the purpose of rounding. *)
Definition size (f : fmt) (v : fval) : option Z :=
  match v with FNaN => None | FInf _ => Some (beyond f) | FFin _ m => Some m end.
Definition signed (v : fval) (neg : bool) : Prop :=
  match v with FNaN => False | FInf s => s = neg | FFin s _ => s = neg end.

(** [r] is the number of format [f], of sign [neg], nearest to some
    non-negative real x; of two equally near numbers the one with the even
    pattern.  The real is known by the way twice x compares to integers:
    [c n] is the comparison of 2 x with n.  So [r] has size m, and for the
    size m' of any other number of the format, x is on m's side of the
    middle (m + m') / 2, or in the middle with an even pattern. *)
Definition correctly_rounded (f : fmt) (neg : bool) (c : Z -> comparison) (r : Z) : Prop :=
  0 <= r < 2 ^ width f /\ signed (decode f r) neg /\
  exists m, size f (decode f r) = Some m /\
  forall b m', 0 <= b < 2 ^ width f -> size f (decode f b) = Some m' ->
    (m < m' -> c (m + m') = Lt \/ (c (m + m') = Eq /\ Z.even r = true)) /\
    (m' < m -> c (m + m') = Gt \/ (c (m + m') = Eq /\ Z.even r = true)).

(** 2 x against n when x is num / den, and when x is the square root of v *)
Definition twice_ratio (num den n : Z) : comparison := 2 * num ?= n * den.
Definition twice_root (v n : Z) : comparison := 4 * v ?= n * n.

Definition is_nan (f : fmt) (r : Z) : Prop := decode f r = FNaN.
Definition infinite (f : fmt) (neg : bool) (r : Z) : Prop := decode f r = FInf neg.
Definition zero (f : fmt) (neg : bool) (r : Z) : Prop := decode f r = FFin neg 0.

(** IEEE-754 results of the operations on the values [v], [w], [x]; sizes
    are in units of the smallest subnormal number and 1.0 is [one f] of
    them. *)
Definition sum_is (f : fmt) (v w : fval) (r : Z) : Prop :=
  match v, w with
  | FNaN, _ | _, FNaN => is_nan f r
  | FInf s, FInf s' => if Bool.eqb s s' then infinite f s r else is_nan f r
  | FInf s, FFin _ _ | FFin _ _, FInf s => infinite f s r
  | FFin s m, FFin s' m' =>
      let z := sval s m + sval s' m' in
      if z =? 0 then zero f (s && s') r else correctly_rounded f (z <? 0) (twice_ratio (Z.abs z) 1) r
  end.
Definition minus (v : fval) : fval :=
  match v with FNaN => FNaN | FInf s => FInf (negb s) | FFin s m => FFin (negb s) m end.
Definition difference_is (f : fmt) (v w : fval) (r : Z) : Prop := sum_is f v (minus w) r.
Definition product_is (f : fmt) (v w : fval) (r : Z) : Prop :=
  match v, w with
  | FNaN, _ | _, FNaN => is_nan f r
  | FInf s, FInf s' => infinite f (xorb s s') r
  | FInf s, FFin s' m | FFin s' m, FInf s => if m =? 0 then is_nan f r else infinite f (xorb s s') r
  | FFin s m, FFin s' m' => correctly_rounded f (xorb s s') (twice_ratio (m * m') (one f)) r
  end.
Definition quotient_is (f : fmt) (v w : fval) (r : Z) : Prop :=
  match v, w with
  | FNaN, _ | _, FNaN => is_nan f r
  | FInf _, FInf _ => is_nan f r
  | FInf s, FFin s' _ => infinite f (xorb s s') r
  | FFin s _, FInf s' => zero f (xorb s s') r
  | FFin s m, FFin s' m' =>
      if m' =? 0 then if m =? 0 then is_nan f r else infinite f (xorb s s') r
      else correctly_rounded f (xorb s s') (twice_ratio (m * one f) m') r
  end.
Definition root_is (f : fmt) (v : fval) (r : Z) : Prop :=
  match v with
  | FNaN => is_nan f r
  | FInf s => if s then is_nan f r else infinite f false r
  | FFin s m =>
      if m =? 0 then zero f s r
      else if s then is_nan f r
      else correctly_rounded f false (twice_root (m * one f)) r
  end.
(** v * w + x with a single rounding *)
Definition fused_is (f : fmt) (v w x : fval) (r : Z) : Prop :=
  match v, w with
  | FNaN, _ | _, FNaN => is_nan f r
  | FInf s, FInf s' => sum_is f (FInf (xorb s s')) x r
  | FInf s, FFin s' m | FFin s' m, FInf s => if m =? 0 then is_nan f r else sum_is f (FInf (xorb s s')) x r
  | FFin s m, FFin s' m' =>
      match x with
      | FNaN => is_nan f r
      | FInf s'' => infinite f s'' r
      | FFin s'' m'' =>
          let z := sval (xorb s s') (m * m') + sval s'' (m'' * one f) in
          if z =? 0 then zero f (xorb s s' && s'') r else correctly_rounded f (z <? 0) (twice_ratio (Z.abs z) (one f)) r
      end
  end.

(** same number, or both not a number *)
Definition same_number (f : fmt) (r r' : Z) : Prop := r = r' \/ (is_nan f r /\ is_nan f r').

(** the half [r] nearest to the single [y] *)
Definition as_half (y r : Z) : Prop :=
  match decode binary32 y with
  | FNaN => is_nan binary16 r
  | FInf s => infinite binary16 s r
  | FFin s m => correctly_rounded binary16 s (twice_ratio m (2 ^ 125)) r
  end.
(** the single [y] is the middle of two halves next to each other *)
Definition between_halves (y : Z) : Prop :=
  exists b b' h h' m, 0 <= b < 2 ^ 16 /\ 0 <= b' < 2 ^ 16 /\
    size binary16 (decode binary16 b) = Some h /\ size binary16 (decode binary16 b') = Some h' /\ h < h' /\
    (forall c k, 0 <= c < 2 ^ 16 -> size binary16 (decode binary16 c) = Some k -> k <= h \/ h' <= k) /\
    size binary32 (decode binary32 y) = Some m /\ 2 * m = (h + h') * 2 ^ 125.

(** The four operators a b + c: fma, fms, fnma, fnms are a b + c, a b - c,
    - a b + c and - a b - c. *)
Inductive muladd := Fma | Fms | Fnma | Fnms.
Definition factor (o : muladd) (v : fval) : fval := match o with Fma | Fms => v | Fnma | Fnms => minus v end.
Definition addend (o : muladd) (v : fval) : fval := match o with Fma | Fnma => v | Fms | Fnms => minus v end.
(** with two roundings: the product is rounded, and so is the sum *)
Definition twice_rounded (f : fmt) (v w x : fval) (r : Z) : Prop :=
  exists p, 0 <= p < 2 ^ width f /\ product_is f v w p /\ sum_is f (decode f p) x r.
(** on halves: fused in single precision, then converted *)
Definition fused_in_single (v w x : fval) (y r : Z) : Prop :=
  0 <= y < 2 ^ 32 /\ fused_is binary32 (Fp16Spec.widen v) (Fp16Spec.widen w) (Fp16Spec.widen x) y /\ as_half y r.
(** 1 / sqrt with two roundings *)
Definition inverse_root (f : fmt) (v : fval) (r : Z) : Prop :=
  exists q, 0 <= q < 2 ^ width f /\ root_is f v q /\ quotient_is f (FFin false (one f)) (decode f q) r.
