(** Model of src/ufp.cpp: number of agreeing leading bits of two floats. *)
From Coq Require Import ZArith Bool.
From Verif Require Import CInt FloatSpec.
Open Scope Z_scope.

(** src/ufp.cpp:56-58 [for (; i <= MantissaSize + 1 && d >= ((i64)1 << i); i++);]
    [None] = fuel exhausted. *)
Fixpoint ufp_loop (fuel : nat) (M i d : Z) : option Z :=
  match fuel with
  | O => None
  | S fuel' =>
      if (i <=? M + 1) && (Z.shiftl 1 i <=? d) then ufp_loop fuel' M (i + 1) d else Some i
  end.

(** src/ufp.cpp:32-60 [nsimd::ufp<ExponentSize, MantissaSize, UnsignedType>] on
    bit patterns.  [i64] arithmetic is wrapped explicitly ([to_s 64]). *)
Definition ufp (E M : Z) (a b : Z) : option Z :=
  let exp_mask := Z.shiftl 1 E - 1 in
  let ea := Z.land (Z.shiftr a M) exp_mask in
  let eb := Z.land (Z.shiftr b M) exp_mask in
  if (1 <? ea - eb) || (ea - eb <? -1) then Some 0
  else
    let man_mask := Z.shiftl 1 M - 1 in
    let ma := Z.lor (Z.land a man_mask) (Z.shiftl 1 M) in
    let mb := Z.lor (Z.land b man_mask) (Z.shiftl 1 M) in
    let d := if ea =? eb then to_s 64 (ma - mb)
             else if eb <? ea then to_s 64 (to_s 64 (2 * ma) - mb)
             else to_s 64 (to_s 64 (2 * mb) - ma) in
    let d := if 0 <=? d then d else to_s 64 (- d) in
    match ufp_loop 70 M 0 d with
    | None => None
    | Some i => Some (M + 1 - i)
    end.

(** src/ufp.cpp:69-79 *)
Definition ufp_f16 := ufp 5 10.
Definition ufp_f32 := ufp 8 23.
Definition ufp_f64 := ufp 11 52.
