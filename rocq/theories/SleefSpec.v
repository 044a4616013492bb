(** Vocabulary of the properties of the mathematical functions of one
    single precision number.  Nothing here depends on the model: [decode] is the
    text-book meaning of a pattern (FloatSpec.v). *)
Require Import ZArith Bool.
Require Import Verif.FloatSpec Verif.FloatArithSpec.
Local Open Scope Z_scope.

(** the number a 32-bit pattern stands for *)
Definition val (x : Z) : fval := decode binary32 x.
Definition pattern (x : Z) : Prop := 0 <= x < 2 ^ 32.

(** the integer n, and the fraction n / 2^k, as numbers (a magnitude counts units of 2^-149) *)
Definition whole (n : Z) : fval := FFin (n <? 0) (Z.abs n * 2 ^ 149).
Definition dyadic (n k : Z) : fval := FFin (n <? 0) (Z.abs n * 2 ^ (149 - k)).

(** x > n and x < n for a pattern x and an integer n; both false of a NaN *)
Definition above (n x : Z) : Prop := flt (whole n) (val x) = true.
Definition below (n x : Z) : Prop := flt (val x) (whole n) = true.

Definition nan (x : Z) : Prop := val x = FNaN.
Definition plus_infinity (x : Z) : Prop := val x = FInf false.
Definition minus_infinity (x : Z) : Prop := val x = FInf true.
Definition plus_zero (x : Z) : Prop := val x = FFin false 0.
Definition minus_zero (x : Z) : Prop := val x = FFin true 0.
Definition a_zero (x : Z) : Prop := exists s, val x = FFin s 0.
Definition an_infinity (x : Z) : Prop := exists s, val x = FInf s.
Definition finite (x : Z) : Prop := exists s m, val x = FFin s m.
Definition is (v : fval) (x : Z) : Prop := val x = v.

(** the pattern with the other sign *)
Definition opposite (x : Z) : Z := if sign_of binary32 x then x - 2 ^ 31 else x + 2 ^ 31.
(** the pattern without its sign *)
Definition absolute (x : Z) : Z := if sign_of binary32 x then x - 2 ^ 31 else x.

(** the number with the other sign; a NaN stays one *)
Definition negated (v : fval) : fval :=
  match v with
  | FNaN => FNaN
  | FInf s => FInf (negb s)
  | FFin s m => FFin (negb s) m
  end.

(** f(-x) = -f(x) and f(-x) = f(x), bit for bit except for the bits of a NaN *)
Definition odd_function (f : Z -> Z) : Prop :=
  forall x, pattern x -> val (f (opposite x)) = negated (val (f x)).
Definition even_function (f : Z -> Z) : Prop :=
  forall x, pattern x -> val (f (opposite x)) = val (f x).

(** a NaN gives a NaN *)
Definition keeps_nan (f : Z -> Z) : Prop := forall x, pattern x -> nan x -> nan (f x).

(** the pattern stands for an integer, for an odd one *)
Definition an_integer (x : Z) : Prop := exists s m, val x = FFin s m /\ m mod 2 ^ 149 = 0.
Definition an_odd_integer (x : Z) : Prop :=
  exists s m, val x = FFin s m /\ m mod 2 ^ 149 = 0 /\ Z.odd (m / 2 ^ 149) = true.

(** x >= n and x <= n *)
Definition at_least (n x : Z) : Prop := fle (whole n) (val x) = true.
Definition at_most (n x : Z) : Prop := fle (val x) (whole n) = true.
(** 2^n, for n from -149 to 127 *)
Definition power_of_two (n : Z) : fval := FFin false (2 ^ (149 + n)).

(** what is expected of a logarithm outside of the positive numbers, and at 1 *)
Definition like_a_logarithm (f : Z -> Z) : Prop :=
  forall x, pattern x ->
    (nan x -> nan (f x)) /\ (below 0 x -> nan (f x)) /\ (a_zero x -> minus_infinity (f x)) /\
    (plus_infinity x -> plus_infinity (f x)) /\ (is (whole 1) x -> plus_zero (f x)).

(** f of a zero is the same zero *)
Definition keeps_zeros (f : Z -> Z) : Prop :=
  forall x, pattern x -> (plus_zero x -> plus_zero (f x)) /\ (minus_zero x -> minus_zero (f x)).
(** f of a number above n is v, f of one below -n is w *)
Definition saturates (n : Z) (v w : fval) (f : Z -> Z) : Prop :=
  forall x, pattern x -> (above n x -> is v (f x)) /\ (below (- n) x -> is w (f x)).

(** about the square root of the largest finite number *)
Definition root_of_max : Z := 18446743523953729536.

(** pi, pi / 2, pi / 4 and 3 pi / 4, each rounded to the nearest single precision number *)
Definition pi_1 : fval := dyadic 13176795 22.
Definition pi_2 : fval := dyadic 13176795 23.
Definition pi_4 : fval := dyadic 13176795 24.
Definition pi_34 : fval := dyadic 9882596 22.
(** the sign s put on a number *)
Definition signed (s : bool) (v : fval) : fval := if s then negated v else v.

(** what is expected of asin *)
Definition like_asin (f : Z -> Z) : Prop :=
  odd_function f /\ keeps_nan f /\ keeps_zeros f /\
  (forall x, pattern x -> above 1 (absolute x) -> nan (f x)) /\
  (forall x, pattern x -> (is (whole 1) x -> is pi_2 (f x)) /\ (is (whole (-1)) x -> is (negated pi_2) (f x))).
(** what is expected of acos *)
Definition like_acos (f : Z -> Z) : Prop :=
  keeps_nan f /\ (forall x, pattern x -> above 1 (absolute x) -> nan (f x)) /\
  (forall x, pattern x -> (is (whole 1) x -> plus_zero (f x)) /\ (is (whole (-1)) x -> is pi_1 (f x)) /\ (a_zero x -> is pi_2 (f x))).
(** what is expected of atan *)
Definition like_atan (f : Z -> Z) : Prop :=
  odd_function f /\ keeps_nan f /\ keeps_zeros f /\ (forall x, pattern x -> (plus_infinity x -> is pi_2 (f x)) /\ (minus_infinity x -> is (negated pi_2) (f x))).

(** the cases the C standard (F.10.1.4) lists for the angle of the point (x, y) *)
Definition like_atan2 (f : Z -> Z -> Z) : Prop :=
  forall y x, pattern y -> pattern x ->
    (nan y \/ nan x -> nan (f y x)) /\
    val (f (opposite y) x) = negated (val (f y x)) /\
    (~ nan x -> a_zero y -> is (signed (sign_of binary32 y) (if sign_of binary32 x then pi_1 else FFin false 0)) (f y x)) /\
    (a_zero x -> ~ a_zero y -> ~ nan y -> is (signed (sign_of binary32 y) pi_2) (f y x)) /\
    (an_infinity y -> finite x -> is (signed (sign_of binary32 y) pi_2) (f y x)) /\
    (an_infinity y -> an_infinity x -> is (signed (sign_of binary32 y) (if sign_of binary32 x then pi_34 else pi_4)) (f y x)) /\
    (finite y -> an_infinity x -> is (signed (sign_of binary32 y) (if sign_of binary32 x then pi_1 else FFin false 0)) (f y x)).

(** what is expected of the square root of x^2 + y^2 *)
Definition like_hypot (f : Z -> Z -> Z) : Prop :=
  forall x y, pattern x -> pattern y ->
    (an_infinity x \/ an_infinity y -> plus_infinity (f x y)) /\
    (~ an_infinity x -> ~ an_infinity y -> nan x \/ nan y -> nan (f x y)) /\
    val (f x y) = val (f y x) /\ val (f (opposite x) y) = val (f x y) /\
    (~ nan x -> a_zero y -> is (val (absolute x)) (f x y)).

(** what is expected of a cubic root at the numbers that are not finite and not zero, and at the zeros *)
Definition like_cbrt (f : Z -> Z) : Prop :=
  keeps_nan f /\ keeps_zeros f /\
  (forall x, pattern x -> (plus_infinity x -> plus_infinity (f x)) /\ (minus_infinity x -> minus_infinity (f x))).

(** what is expected of the gamma function; [n] bounds the poles *)
Definition like_gamma (n : Z) (f : Z -> Z) : Prop :=
  forall x, pattern x ->
    (nan x -> nan (f x)) /\ (plus_zero x -> plus_infinity (f x)) /\ (minus_zero x -> minus_infinity (f x)) /\
    (plus_infinity x -> plus_infinity (f x)) /\ (minus_infinity x -> nan (f x)) /\
    (an_integer x -> below 0 x -> at_least (- n) x -> nan (f x)) /\
    (above 36 x -> plus_infinity (f x)) /\ (at_least 0 x -> ~ nan (f x)) /\ (is (whole 1) x -> is (whole 1) (f x)).
(** and of the logarithm of its magnitude *)
Definition like_log_gamma (n : Z) (f : Z -> Z) : Prop :=
  forall x, pattern x ->
    (nan x <-> nan (f x)) /\ (an_infinity x -> plus_infinity (f x)) /\
    (an_integer x -> at_most 0 x -> at_least (- n) x -> plus_infinity (f x)) /\
    (is (whole 1) x \/ is (whole 2) x -> plus_zero (f x)).

(** what is expected of the error function *)
Definition like_erf (f : Z -> Z) : Prop := odd_function f /\ keeps_nan f /\ keeps_zeros f /\ saturates 4 (whole 1) (whole (-1)) f.

(** what is expected of sin and tan, and of cos, at the NaNs, the infinities and the zeros *)
Definition like_sine (f : Z -> Z) : Prop :=
  keeps_nan f /\ keeps_zeros f /\ (forall x, pattern x -> an_infinity x -> nan (f x)).
Definition like_cosine (f : Z -> Z) : Prop :=
  keeps_nan f /\ (forall x, pattern x -> a_zero x -> is (whole 1) (f x)) /\ (forall x, pattern x -> an_infinity x -> nan (f x)).
(** f takes what a conversion of the C language that is undefined gives and what a read outside of
    an array gives: for the finite numbers there are none, so that f x depends on neither *)
Definition well_defined (f : (Z -> Z) -> (Z -> Z) -> Z -> Z) : Prop :=
  forall undefined outside undefined' outside' x, pattern x -> finite x -> f undefined outside x = f undefined' outside' x.
