(** The four operations of arithmetic, for the statements about vectors. *)
From Coq Require Import ZArith Bool.
From Verif Require Import FloatSpec X86CvtSpec FloatArithSpec.
Local Open Scope Z_scope.

Inductive arith := Add | Sub | Mul | Div.
(** [r] is the sum, difference, product or quotient of [v] and [w], correctly rounded. *)
Definition result_is (o : arith) : fmt -> fval -> fval -> Z -> Prop :=
  match o with Add => sum_is | Sub => difference_is | Mul => product_is | Div => quotient_is end.
(** The reciprocal. *)
Definition inverse_is (f : fmt) (v : fval) (r : Z) : Prop := quotient_is f (FFin false (one f)) v r.
