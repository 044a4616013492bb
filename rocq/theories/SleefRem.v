(** fmod and remainder: src/sleefsp.c:2016-2069.  The loops of at most eight turns are functions of the number of turns
    left; [break] returns.  As in Sleef.v, [U] stands for the result of a conversion to int that is undefined in C.  Not
    generated: tools/sleef2coq.py does not translate loops. *)
Require Import ZArith Bool.
Require Import Verif.FloatSpec Verif.FloatArith Verif.FloatArithSpec Verif.SleefBase Verif.Sleef.
Local Open Scope Z_scope.

(** (float) (UINT64_C(1) << 25) and 1.0f / (UINT64_C(1) << 25) *)
Definition two25 : Z := Eval vm_compute in fint (2 ^ 25).
Definition half25 : Z := Eval vm_compute in divf (fint 1) (fint (2 ^ 25)).
(** 1.5f *)
Definition F_15 : Z := Eval vm_compute in fdec 15 1.

Section Rem.
Variable U : Z -> Z.

(** src/sleefsp.c:2022-2028 *)
Fixpoint fmod_loop (turns : nat) (de rde : Z) (r : f2) : f2 :=
  match turns with
  | O => r
  | S turns' =>
      let q := ptruncf U (mulf (toward0f (fx r)) rde) in
      let q := if ltf (fx r) (mulf I_3 de) && lef de (fx r) then I_2 else q in
      let q := if ltf (fx r) (mulf I_2 de) && lef de (fx r) then I_1 else q in
      let r := dfnormalize_f2_f2 (dfadd2_f2_f2_f2 r (dfmul_f2_f_f q (negf de))) in
      if ltf (fx r) de then r else fmod_loop turns' de rde r
  end.
(** src/sleefsp.c:2016-2037 *)
Definition xfmodf (x y : Z) : Z :=
  let nu := fabsfk x in
  let de := fabsfk y in
  let small := ltf de FLT_MIN in
  let nu := if small then mulf nu two25 else nu in
  let de := if small then mulf de two25 else de in
  let s := if small then half25 else I_1 in
  let rde := toward0f (divf F_1_0 de) in
  let r := fmod_loop 8 de rde (F2 nu I_0) in
  let ret := mulf (addf (fx r) (fy r)) s in
  let ret := if eqf (addf (fx r) (fy r)) de then I_0 else ret in
  let ret := mulsignf ret x in
  let ret := if ltf nu de then x else ret in
  let ret := if eqf de I_0 then SLEEF_NANf else ret in
  ret.

(** src/sleefsp.c:2054-2062; the integer qisodd is 0 or 1 *)
Fixpoint rem_loop (turns : nat) (d rd : Z) (qisodd : bool) (r : f2) : f2 :=
  match turns with
  | O => r
  | S turns' =>
      let q := rintfk2 U (mulf (fx r) rd) in
      let q := if ltf (fabsfk (fx r)) (mulf F_15 d) then (if ltf (fx r) I_0 then I_m1 else I_1) else q in
      let q := if ltf (fabsfk (fx r)) (mulf F_5_1 d) || (eqf (fabsfk (fx r)) (mulf F_5_1 d) && negb qisodd) then I_0 else q in
      if eqf q I_0 then r
      else
        let q := if xisinff (mulf q (negf d)) then addf q (mulsignf I_m1 (fx r)) else q in
        let qisodd := xorb qisodd (negb (Z.land 1 (toint U q) =? 0) && ltf (fabsfk q) (fint (2 ^ 24))) in
        rem_loop turns' d rd qisodd (dfnormalize_f2_f2 (dfadd2_f2_f2_f2 r (dfmul_f2_f_f q (negf d))))
  end.
(** src/sleefsp.c:2047-2069 *)
Definition xremainderf (x y : Z) : Z :=
  let n := fabsfk x in
  let d := fabsfk y in
  let small := ltf d (mulf FLT_MIN I_2) in
  let n := if small then mulf n two25 else n in
  let d := if small then mulf d two25 else d in
  let s := if small then half25 else I_1 in
  let rd := divf F_1_0 d in
  let r := rem_loop 8 d rd false (F2 n I_0) in
  let ret := mulf (fx r) s in
  let ret := mulsignf ret x in
  let ret := if xisinff y then (if xisinff x then SLEEF_NANf else x) else ret in
  let ret := if eqf d I_0 then SLEEF_NANf else ret in
  ret.
End Rem.
