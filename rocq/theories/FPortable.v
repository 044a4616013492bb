(** Straight-line programs on f32 and f64 written with nsimd's operators, and what they compute on each back end: as
    Portable.v, for floats.  Vectors hold the bit patterns of the floats.  The operators and their citations are in
    CpuSimd.v and CpuFloatArith.v (egg/platform_cpu.py), X86Float.v and X86FloatArith.v (egg/platform_x86.py),
    ArmFloat.v and ArmFloatArith.v (egg/platform_arm.py), PpcFloat.v and PpcFloatArith.v (egg/platform_ppc.py).
    [None] is undefined behaviour. *)
From Coq Require Import ZArith List Bool.
From Verif Require Import CInt FloatSpec RoundEven ScalarOps CpuSimd X86Deg234 X86Arith X86Mem X86Cvt X86Float X86FloatArith
  Arm ArmFloat ArmFloatArith Ppc PpcFloat PpcFloatSpec FloatArith FloatArithSpec ScalarFloat CpuFloatArith FloatVecSpec FloatVecOps.
From Verif Require Portable.
Open Scope Z_scope.

Inductive fop1 := FNeg | FAbs | FSqrt | FRec | FFloor | FCeil | FTrunc.
Inductive fop2 := FArith (o : arith) | FMin | FMax.

Inductive fexp :=
| FArg (k : nat)                       (* a vector variable *)
| FSplat (x : Z)                       (* set1 of the float of pattern [x] *)
| FOp1 (o : fop1) (a : fexp)
| FOp2 (o : fop2) (a b : fexp)
| FOp3 (o : muladd) (a b c : fexp)     (* fma, fms, fnma, fnms *)
| FIfElse (l : flexp) (a b : fexp)     (* if_else1 *)
with flexp :=
| FSplatl (x : Z)                      (* set1l *)
| FCmp (r : Portable.rel) (a b : fexp)
| FLogic (o : Portable.lop) (a b : flexp)
| FNotl (a : flexp)
| FToLogical (a : fexp).

Record fbackend := FBackend {
  FV : Type;
  f_set1 : Z -> option FV; f_op1 : fop1 -> FV -> option FV; f_op2 : fop2 -> FV -> FV -> option FV; f_op3 : muladd -> FV -> FV -> FV -> option FV;
  f_if : FV -> FV -> FV -> option FV; f_set1l : Z -> option FV; f_cmp : Portable.rel -> FV -> FV -> option FV;
  f_logic : Portable.lop -> FV -> FV -> option FV; f_notl : FV -> option FV; f_to_logical : FV -> option FV }.

Fixpoint fveval (B : fbackend) (env : nat -> FV B) (e : fexp) : option (FV B) :=
  match e with
  | FArg k => Some (env k)
  | FSplat x => f_set1 B x
  | FOp1 o a => bind (fveval B env a) (f_op1 B o)
  | FOp2 o a b => bind2 (fveval B env a) (fveval B env b) (f_op2 B o)
  | FOp3 o a b c => bind (fveval B env a) (fun x => bind2 (fveval B env b) (fveval B env c) (f_op3 B o x))
  | FIfElse l a b => bind (fleval B env l) (fun c => bind2 (fveval B env a) (fveval B env b) (f_if B c))
  end
with fleval (B : fbackend) (env : nat -> FV B) (e : flexp) : option (FV B) :=
  match e with
  | FSplatl x => f_set1l B x
  | FCmp r a b => bind2 (fveval B env a) (fveval B env b) (f_cmp B r)
  | FLogic o a b => bind2 (fleval B env a) (fleval B env b) (f_logic B o)
  | FNotl a => bind (fleval B env a) (f_notl B)
  | FToLogical a => bind (fveval B env a) (f_to_logical B)
  end.

Definition xm (t : fty) : mty := match t with F64 => MF64 | _ => MF32 end.
Definition ce (t : fty) : ety := match t with F16 => EF16 | F32 => EF32 | F64 => EF64 end.

(** egg/platform_cpu.py:623-741 [get_impl], [n] lanes; [c99], [new]: which code egg/scalar.py emits *)
Definition cpuf (c99 new : bool) (t : fty) (n : nat) : fbackend := {|
  FV := CpuSimd.reg;
  f_set1 := CpuSimd.set1 (ce t) n;
  f_op1 := fun o => match o with
    | FNeg => c_negf t n | FAbs => c_absf t n | FSqrt => c_sqrtf c99 t n | FRec => c_recf t n
    | FFloor => c_floorf c99 t n | FCeil => c_ceilf c99 t n | FTrunc => c_truncf new c99 t n end;
  f_op2 := fun o => match o with FArith o => c_arith o t n | FMin => c_minf t n | FMax => c_maxf t n end;
  f_op3 := fun o => c_muladd o c99 t n;
  f_if := CpuSimd.if_else1 n; f_set1l := CpuSimd.set1l n;
  f_cmp := fun r => cmp2 (fun x y => let v := decode (ff t) x in let w := decode (ff t) y in
    match r with
    | Portable.Eq => feqb v w | Portable.Ne => negb (feqb v w) | Portable.Lt => flt v w | Portable.Le => fle v w
    | Portable.Gt => flt w v | Portable.Ge => fle w v end) n;
  f_logic := fun o => match o with Portable.Orl => CpuSimd.orl n | Portable.Andl => CpuSimd.andl n | Portable.Xorl => CpuSimd.xorl n | Portable.Andnotl => CpuSimd.andnotl n end;
  f_notl := CpuSimd.notl n; f_to_logical := to_logical1 (ce t) n |}.

(** egg/platform_x86.py [get_impl]; [fma]: compiled with FMA; [undef]: the content of uninitialised local variables.  The
    operators on logicals of floats (:1175-1320 [binlop2], [landnot2], [lnot1]) are the bitwise ones of the logicals of integers of the same width. *)
Definition x86f (fma : bool) (e : ext) (t : fty) (undef : Z) : fbackend := {|
  FV := Z;
  f_set1 := fun x => Some (x_set1f e (xm t) x);
  f_op1 := fun o a => match o with
    | FNeg => Some (x_negf e (xm t) a) | FAbs => Some (x_absf e (xm t) a) | FSqrt => Some (x_sqrtf e (xm t) a) | FRec => Some (x_recf e (xm t) a)
    | FFloor => x_floorf e (xm t) undef a | FCeil => x_ceilf e (xm t) undef a | FTrunc => x_truncf e (xm t) undef a end;
  f_op2 := fun o a b => Some match o with FArith o => x_arith o e (xm t) a b | FMin => x_minf e (xm t) a b | FMax => x_maxf e (xm t) a b end;
  f_op3 := fun o a b c => Some (x_muladd o fma e (xm t) a b c);
  f_if := fun l a b => Some (x_if_else1f e (xm t) l a b); f_set1l := fun x => Some (x_set1lf e (xm t) x);
  f_cmp := fun r a b => Some ((match r with
    | Portable.Eq => x_eqf | Portable.Ne => x_nef | Portable.Lt => x_ltf | Portable.Le => x_lef | Portable.Gt => x_gtf | Portable.Ge => x_gef end) e (xm t) a b);
  f_logic := fun o a b => Some ((match o with Portable.Orl => x_orl | Portable.Andl => x_andl | Portable.Xorl => x_xorl | Portable.Andnotl => x_andnotl end) e (uty (xm t)) a b);
  f_notl := fun l => Some (x_notlf e (xm t) l); f_to_logical := fun a => Some (x_to_logicalf e (xm t) a) |}.

(** egg/platform_arm.py [get_impl]; [u]: what an SVE instruction leaves in inactive lanes *)
Definition armf (c99 : bool) (u : Z) (e : aext) (t : fty) : fbackend := {|
  FV := Z;
  f_set1 := fun x => Some (a_set1f e t x);
  f_op1 := fun o a => Some match o with
    | FNeg => a_negf u e t a | FAbs => a_absf u e t a | FSqrt => a_sqrtf u c99 e t a | FRec => a_recf u e t a
    | FFloor => a_floorf u e t a | FCeil => a_ceilf u e t a | FTrunc => a_truncf u e t a end;
  f_op2 := fun o a b => Some match o with FArith o => a_arith o u e t a b | FMin => a_minf u e t a b | FMax => a_maxf u e t a b end;
  f_op3 := fun o a b c => Some (a_muladd o u c99 e t a b c);
  f_if := fun l a b => Some (a_if_else1f u e t l a b); f_set1l := fun x => Some (a_set1lf e t x);
  f_cmp := fun r a b => Some ((match r with
    | Portable.Eq => a_eqf | Portable.Ne => a_nef | Portable.Lt => a_ltf | Portable.Le => a_lef | Portable.Gt => a_gtf | Portable.Ge => a_gef end) u e t a b);
  f_logic := fun o a b => Some ((match o with Portable.Orl => a_orlf | Portable.Andl => a_andlf | Portable.Xorl => a_xorlf | Portable.Andnotl => a_andnotlf end) u e t a b);
  f_notl := fun l => Some (a_notlf u e t l); f_to_logical := fun a => Some (a_to_logicalf u e t a) |}.

(** egg/platform_ppc.py [get_impl] *)
Definition powerf (c99 new : bool) (e : pext) (t : fty) : fbackend := {|
  FV := Z;
  f_set1 := fun x => Some (p_set1f e t x);
  f_op1 := fun o a => Some match o with
    | FNeg => p_negf e t a | FAbs => p_absf e t a | FSqrt => p_sqrtf e t a | FRec => p_recf e t a
    | FFloor => p_floorf e t a | FCeil => p_ceilf e t a | FTrunc => p_truncf new e t a end;
  f_op2 := fun o a b => Some match o with FArith o => p_arith o e t a b | FMin => p_minf e t a b | FMax => p_maxf e t a b end;
  f_op3 := fun o a b c => Some (p_muladd o c99 e t a b c);
  f_if := fun l a b => Some (p_if_else1f e t l a b); f_set1l := fun x => Some (p_set1lf e t x);
  f_cmp := fun r a b => Some ((match r with
    | Portable.Eq => p_eqf | Portable.Ne => p_nef | Portable.Lt => p_ltf | Portable.Le => p_lef | Portable.Gt => p_gtf | Portable.Ge => p_gef end) e t a b);
  f_logic := fun o a b => Some ((match o with Portable.Orl => p_orlf | Portable.Andl => p_andlf | Portable.Xorl => p_xorlf | Portable.Andnotl => p_andnotlf end) e t a b);
  f_notl := fun l => Some (p_notlf e t l); f_to_logical := fun a => Some (p_to_logicalf e t a) |}.
