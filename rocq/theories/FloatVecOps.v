(** The operators of arithmetic on vectors, by name: which function of the
    models of the back ends is which operator. *)
From Coq Require Import ZArith Bool.
From Verif Require Import CInt FloatSpec Fp16 ScalarOps X86Deg234 X86Arith X86Mem X86Cvt X86Float Arm ArmFloat CpuSimd FloatArith FloatArithSpec ScalarFloat X86FloatArith ArmFloatArith CpuFloatArith FloatVecSpec.
Local Open Scope Z_scope.

(** egg/platform_x86.py: nsimd_add_sse2_f32, ... *)
Definition x_arith (o : arith) : ext -> mty -> Z -> Z -> Z :=
  match o with Add => x_addf | Sub => x_subf | Mul => x_mulf | Div => x_divf end.
Definition x_arith16 (o : arith) : ext -> Z * Z -> Z * Z -> Z * Z :=
  match o with Add => x_add16 | Sub => x_sub16 | Mul => x_mul16 | Div => x_div16 end.
Definition x_muladd (o : muladd) : bool -> ext -> mty -> Z -> Z -> Z -> Z :=
  match o with Fma => x_fmaf | Fms => x_fmsf | Fnma => x_fnmaf | Fnms => x_fnmsf end.
Definition x_muladd16 (o : muladd) : bool -> ext -> Z * Z -> Z * Z -> Z * Z -> Z * Z :=
  match o with Fma => x_fma16 | Fms => x_fms16 | Fnma => x_fnma16 | Fnms => x_fnms16 end.
(** egg/platform_arm.py *)
Definition a_arith (o : arith) : Z -> aext -> fty -> Z -> Z -> Z :=
  match o with Add => a_addf | Sub => a_subf | Mul => a_mulf | Div => a_divf end.
Definition a_arith16 (o : arith) : Z -> aext -> Z * Z -> Z * Z -> Z * Z :=
  match o with Add => a_add16 | Sub => a_sub16 | Mul => a_mul16 | Div => a_div16 end.
Definition a_muladd (o : muladd) : Z -> bool -> aext -> fty -> Z -> Z -> Z -> Z :=
  match o with Fma => a_fmaf | Fms => a_fmsf | Fnma => a_fnmaf | Fnms => a_fnmsf end.
Definition a_muladd16 (o : muladd) : Z -> bool -> aext -> Z * Z -> Z * Z -> Z * Z -> Z * Z :=
  match o with Fma => a_fma16 | Fms => a_fms16 | Fnma => a_fnma16 | Fnms => a_fnms16 end.
(** egg/platform_cpu.py *)
Definition c_arith (o : arith) : fty -> nat -> reg -> reg -> option reg :=
  match o with Add => c_addf | Sub => c_subf | Mul => c_mulf | Div => c_divf end.
Definition c_muladd (o : muladd) : bool -> fty -> nat -> reg -> reg -> reg -> option reg :=
  match o with Fma => c_fmaf | Fms => c_fmsf | Fnma => c_fnmaf | Fnms => c_fnmsf end.
(** egg/scalar.py: nsimd_scalar_add_f32, ... *)
Definition s_arith (o : arith) : fty -> Z -> Z -> option Z :=
  match o with Add => sf_add | Sub => sf_sub | Mul => sf_mul | Div => sf_div end.
Definition s_muladd (o : muladd) : bool -> fty -> Z -> Z -> Z -> option Z :=
  match o with Fma => sf_fma | Fms => sf_fms | Fnma => sf_fnma | Fnms => sf_fnms end.
