(** Straight-line integer programs written with nsimd's operators, and what they compute on each back end.

    A program is an expression over vector arguments: the same C or C++ source, compiled with another value of the
    compile-time switch that selects the SIMD extension, calls the operators of another back end.  The evaluators below
    replace each node by the operator of the back end, whose definitions and citations are in CpuSimd.v
    (egg/platform_cpu.py), X86Arith.v and X86Mem.v (egg/platform_x86.py), Arm.v (egg/platform_arm.py) and Ppc.v
    (egg/platform_ppc.py); operator names as in egg/operators.py.  [None] is undefined behaviour. *)
From Coq Require Import ZArith List Bool.
From Verif Require Import CInt FloatSpec ScalarOps CpuSimd X86Deg234 X86Arith X86Mem Arm ArmSpec Ppc PpcSpec.
Open Scope Z_scope.

Inductive op1 := Neg | Abs | Notb.
Inductive op2 := Add | Sub | Mul | Div | Min | Max | Adds | Subs | Orb | Andb | Xorb | Andnotb.
(** [Muladd neg sub]: fma, fms (sub), fnma (neg), fnms (both) *)
Inductive op3 := Muladd (neg sub : bool).
Inductive shift := Shl | Shr | Shra.
Inductive rel := Eq | Ne | Lt | Le | Gt | Ge.
Inductive lop := Orl | Andl | Xorl | Andnotl.

Inductive vexp :=
| Arg (k : nat)                        (* a vector variable *)
| Splat (x : Z)                        (* set1 *)
| Iota
| Op1 (o : op1) (a : vexp)
| Op2 (o : op2) (a b : vexp)
| Op3 (o : op3) (a b c : vexp)
| Shift (o : shift) (a : vexp) (s : Z)
| IfElse (l : lexp) (a b : vexp)       (* if_else1 *)
| ToMask (l : lexp)
with lexp :=
| Splatl (x : Z)                       (* set1l *)
| Cmp (r : rel) (a b : vexp)
| Logic (o : lop) (a b : lexp)
| Notl (a : lexp)
| ToLogical (a : vexp).

(** The operators of a back end; [V] is the type of its vectors and of its vectors of logicals. *)
Record backend := Backend {
  V : Type;
  b_set1 : Z -> option V; b_iota : option V;
  b_op1 : op1 -> V -> option V; b_op2 : op2 -> V -> V -> option V; b_op3 : op3 -> V -> V -> V -> option V;
  b_shift : shift -> V -> Z -> option V; b_if : V -> V -> V -> option V; b_mask : V -> option V;
  b_set1l : Z -> option V; b_cmp : rel -> V -> V -> option V; b_logic : lop -> V -> V -> option V;
  b_notl : V -> option V; b_to_logical : V -> option V }.

Fixpoint veval (B : backend) (env : nat -> V B) (e : vexp) : option (V B) :=
  match e with
  | Arg k => Some (env k)
  | Splat x => b_set1 B x
  | Iota => b_iota B
  | Op1 o a => bind (veval B env a) (b_op1 B o)
  | Op2 o a b => bind2 (veval B env a) (veval B env b) (b_op2 B o)
  | Op3 o a b c => bind (veval B env a) (fun x => bind2 (veval B env b) (veval B env c) (b_op3 B o x))
  | Shift o a s => bind (veval B env a) (fun x => b_shift B o x s)
  | IfElse l a b => bind (leval B env l) (fun c => bind2 (veval B env a) (veval B env b) (b_if B c))
  | ToMask l => bind (leval B env l) (b_mask B)
  end
with leval (B : backend) (env : nat -> V B) (e : lexp) : option (V B) :=
  match e with
  | Splatl x => b_set1l B x
  | Cmp r a b => bind2 (veval B env a) (veval B env b) (b_cmp B r)
  | Logic o a b => bind2 (leval B env a) (leval B env b) (b_logic B o)
  | Notl a => bind (leval B env a) (b_notl B)
  | ToLogical a => bind (veval B env a) (b_to_logical B)
  end.

(** egg/platform_cpu.py:623-741 [get_impl], [n] lanes *)
Definition cpu (t : ity) (n : nat) : backend := {|
  V := CpuSimd.reg;
  b_set1 := fun x => CpuSimd.set1 (EI t) n x; b_iota := CpuSimd.iota t n;
  b_op1 := fun o => match o with
    | Neg => scalar_impl1 n (s_neg t) | Abs => scalar_impl1 n (s_abs t) | Notb => scalar_impl1 n (fun x => Some (s_notb t x)) end;
  b_op2 := fun o => match o with
    | Add => CpuSimd.op2 t Z.add n | Sub => CpuSimd.op2 t Z.sub n | Mul => CpuSimd.op2 t Z.mul n | Div => op2_div t n
    | Min => scalar_impl2 n (fun x y => Some (s_min x y)) | Max => scalar_impl2 n (fun x y => Some (s_max x y))
    | Adds => scalar_impl2 n (s_adds t) | Subs => scalar_impl2 n (s_subs t)
    | Orb => scalar_impl2 n (fun x y => Some (s_orb t x y)) | Andb => scalar_impl2 n (fun x y => Some (s_andb t x y))
    | Xorb => scalar_impl2 n (fun x y => Some (s_xorb t x y)) | Andnotb => scalar_impl2 n (fun x y => Some (s_andnotb t x y)) end;
  b_op3 := fun o => match o with Muladd neg sub => scalar_impl3 n ((if sub then if neg then s_fnms else s_fms else if neg then s_fnma else s_fma) t) end;
  b_shift := fun o a s => scalar_impl_shift n (match o with Shl => s_shl t | Shr => s_shr t | Shra => s_shra t end) a s;
  b_if := CpuSimd.if_else1 n; b_mask := to_mask1 (EI t) n; b_set1l := CpuSimd.set1l n;
  b_cmp := fun r => cmp2 (match r with Eq => s_eq | Ne => s_ne | Lt => s_lt | Le => s_le | Gt => s_gt | Ge => s_ge end) n;
  b_logic := fun o => match o with Orl => CpuSimd.orl n | Andl => CpuSimd.andl n | Xorl => CpuSimd.xorl n | Andnotl => CpuSimd.andnotl n end;
  b_notl := CpuSimd.notl n; b_to_logical := to_logical1 (EI t) n |}.

(** egg/platform_x86.py [get_impl]; [undef] is the content of the uninitialised local variables of the emulated operators *)
Definition x86 (e : ext) (t : ity) (undef : Z) : backend := {|
  V := Z;
  b_set1 := fun x => Some (x_set1 e t x); b_iota := Some (x_iota e t);
  b_op1 := fun o a => match o with Neg => Some (x_neg e t a) | Abs => Some (x_abs e t a) | Notb => Some (x_notb e t a) end;
  b_op2 := fun o a b => match o with
    | Add => Some (x_add e t a b) | Sub => Some (x_sub e t a b) | Mul => x_mul e t undef a b | Div => x_div e t undef a b
    | Min => Some (x_min e t a b) | Max => Some (x_max e t a b) | Adds => Some (x_adds e t a b) | Subs => Some (x_subs e t a b)
    | Orb => Some (x_orb e t a b) | Andb => Some (x_andb e t a b) | Xorb => Some (x_xorb e t a b) | Andnotb => Some (x_andnotb e t a b) end;
  b_op3 := fun o => match o with Muladd neg sub => x_fma_fms neg sub e t undef end;
  b_shift := fun o a s => match o with Shl => Some (x_shl e t a s) | Shr => Some (x_shr e t a s) | Shra => x_shra e t undef a s end;
  b_if := fun l a b => Some (x_if_else1 e t l a b); b_mask := fun l => Some (x_to_mask e t l); b_set1l := fun x => Some (x_set1l e t x);
  b_cmp := fun r a b => Some ((match r with Eq => x_eq | Ne => x_ne | Lt => x_lt | Le => x_le | Gt => x_gt | Ge => x_ge end) e t a b);
  b_logic := fun o a b => Some ((match o with Orl => x_orl | Andl => x_andl | Xorl => x_xorl | Andnotl => x_andnotl end) e t a b);
  b_notl := fun l => Some (x_notl e t l); b_to_logical := fun a => Some (x_to_logical e t a) |}.

(** egg/platform_arm.py [get_impl]; [u] stands for what an SVE instruction leaves in inactive lanes *)
Definition arm (u : Z) (e : aext) (t : ity) : backend := {|
  V := Z;
  b_set1 := fun x => Some (a_set1 e t x); b_iota := Some (a_iota e t);
  b_op1 := fun o a => match o with Neg => a_neg u e t a | Abs => a_abs u e t a | Notb => Some (a_notb u e t a) end;
  b_op2 := fun o a b => match o with
    | Add => Some (a_add u e t a b) | Sub => Some (a_sub u e t a b) | Mul => a_mul u e t a b | Div => a_div u e t a b
    | Min => Some (a_min u e t a b) | Max => Some (a_max u e t a b) | Adds => Some (a_adds e t a b) | Subs => Some (a_subs e t a b)
    | Orb => Some (a_orb u e t a b) | Andb => Some (a_andb u e t a b) | Xorb => Some (a_xorb u e t a b) | Andnotb => Some (a_andnotb u e t a b) end;
  b_op3 := fun o => match o with Muladd neg sub => (if sub then if neg then a_fnms else a_fms else if neg then a_fnma else a_fma) u e t end;
  b_shift := fun o a s => match o with Shl => a_shl u e t a s | Shr => a_shr u e t a s | Shra => a_shra u e t a s end;
  b_if := fun l a b => Some (a_if_else1 u e t l a b); b_mask := fun l => Some (a_to_mask e t l); b_set1l := fun x => Some (a_set1l e t x);
  b_cmp := fun r a b => Some ((match r with Eq => a_eq | Ne => a_ne | Lt => a_lt | Le => a_le | Gt => a_gt | Ge => a_ge end) u e t a b);
  b_logic := fun o a b => Some ((match o with Orl => a_orl | Andl => a_andl | Xorl => a_xorl | Andnotl => a_andnotl end) u e t a b);
  b_notl := fun l => Some (a_notl u e t l); b_to_logical := fun a => Some (a_to_logical u e t a) |}.

(** egg/platform_ppc.py [get_impl] *)
Definition power (e : pext) (t : ity) : backend := {|
  V := Z;
  b_set1 := fun x => Some (p_set1 e t x); b_iota := p_iota e t;
  b_op1 := fun o a => match o with Neg => p_neg e t a | Abs => p_abs e t a | Notb => p_notb e t a end;
  b_op2 := fun o a b => match o with
    | Add => p_add e t a b | Sub => p_sub e t a b | Mul => p_mul e t a b | Div => p_div e t a b
    | Min => p_min e t a b | Max => p_max e t a b | Adds => p_adds e t a b | Subs => p_subs e t a b
    | Orb => p_orb e t a b | Andb => p_andb e t a b | Xorb => p_xorb e t a b | Andnotb => p_andnotb e t a b end;
  b_op3 := fun o => match o with Muladd neg sub => (if sub then if neg then p_fnms else p_fms else if neg then p_fnma else p_fma) e t end;
  b_shift := fun o a s => match o with Shl => p_shl e t a s | Shr => p_shr e t a s | Shra => p_shra e t a s end;
  b_if := fun l a b => Some (p_if_else1 e t l a b); b_mask := fun l => Some (p_to_mask e t l); b_set1l := fun x => Some (p_set1l e t x);
  b_cmp := fun r a b => Some ((match r with Eq => p_eq | Ne => p_ne | Lt => p_lt | Le => p_le | Gt => p_gt | Ge => p_ge end) e t a b);
  b_logic := fun o a b => Some ((match o with Orl => p_orl | Andl => p_andl | Xorl => p_xorl | Andnotl => p_andnotl end) e t a b);
  b_notl := fun l => Some (p_notl e t l); b_to_logical := fun a => Some (p_to_logical e t a) |}.
