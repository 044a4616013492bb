(** Vocabulary for the fixed-point properties.  A raw integer [z] of a value of
    type fp_t<lf,rt> denotes the number z / 2^rt. *)
From Coq Require Import ZArith Bool List.
From Verif Require Import CInt FloatSpec ScalarOps ScalarSpec.
Open Scope Z_scope.

(** A format the templates accept: lf and rt are u8 and the storage type exists. *)
Definition format (lf rt : Z) : Prop := 0 <= lf <= 255 /\ 0 <= rt <= 255.

(** The numbers of the format: lf + rt bits, two's complement. *)
Definition in_fmt (lf rt z : Z) : Prop := - 2 ^ (lf + rt - 1) <= z < 2 ^ (lf + rt - 1).

(** The bits of the storage type [t] that the format does not need. *)
Definition unused (t : ity) (lf rt : Z) : Z := bits t - lf - rt.

(** [r/2^rt] is the largest multiple of 2^-rt not above (a/2^rt) * (b/2^rt). *)
Definition is_product_down (rt a b r : Z) : Prop := r * 2 ^ rt <= a * b < (r + 1) * 2 ^ rt.

(** [r/2^rt] is (a/2^rt) / (b/2^rt) truncated toward zero to a multiple of 2^-rt:
    a * 2^rt = r * b + remainder, the remainder being smaller than [b] and of the
    sign of [a]. *)
Definition is_quotient_trunc (rt a b r : Z) : Prop :=
  exists m, a * 2 ^ rt = r * b + m /\ Z.abs m < Z.abs b /\ (0 <= a -> 0 <= m) /\ (a <= 0 -> m <= 0).

(** [r/2^rt] is the largest integer not above a/2^rt. *)
Definition is_floor (rt a r : Z) : Prop :=
  exists n, r = n * 2 ^ rt /\ r <= a < r + 2 ^ rt.

(** Nearest integer to the number x / 2^149, ties away from zero. *)
Definition nearest_away (x n : Z) : Prop :=
  2 * Z.abs (n * 2 ^ 149 - x) <= 2 ^ 149 /\
  (2 * Z.abs (n * 2 ^ 149 - x) = 2 ^ 149 -> Z.abs x <= Z.abs (n * 2 ^ 149)).

(** [r/2^rt] is the integer square root of a/2^rt at this precision:
    (r/2^rt)^2 <= a/2^rt < ((r+1)/2^rt)^2. *)
Definition is_sqrt (rt a r : Z) : Prop := 0 <= r /\ r * r <= a * 2 ^ rt < (r + 1) * (r + 1).

(** [p/2^rt] is exactly (a/2^rt)^m. *)
Definition is_power (rt a m p : Z) : Prop := p * 2 ^ (rt * m) = a ^ m * 2 ^ rt.
