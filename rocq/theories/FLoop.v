(** The loop of the tutorial (examples/tutorial.cpp:18-39, Loop.v) on arrays of f32 and f64, with any float expression of
    FPortable.v as its body, on every back end.  The loads, stores and the masks are those of CpuSimd.v, X86Mem.v,
    X86Float.v, ArmMem.v, ArmFloat.v, PpcMem.v and PpcFloat.v (citations there). *)
From Coq Require Import ZArith List Bool.
From Verif Require Import CInt ScalarOps CpuSimd X86Deg234 X86Arith X86Mem X86Float Arm ArmMem ArmFloat Ppc PpcMem PpcFloat PpcFloatSpec FloatVecOps FPortable Loop.
Open Scope Z_scope.

Record fmbackend := FMBackend { fmb :> fbackend; fmb_mem : mops (FV fmb) }.
Definition fsimd_loop (B : fmbackend) (d : FV B) (body : fexp) : list Z -> Z -> Z -> (Z -> option Z) -> option (Z -> option Z) :=
  vector_loop (fmb_mem B) (fun env => fveval B env body) d.

Definition cpuf_m (c99 new : bool) (t : fty) (n : nat) : fmbackend := {|
  fmb := cpuf c99 new t n; fmb_mem := {| mo_len := Z.of_nat n; mo_size := 1;
  mo_load := CpuSimd.load (ce t) n; mo_store := CpuSimd.store (ce t) n; mo_tail := CpuSimd.mask_for_loop_tail n;
  mo_maskz_load := fun l m a => CpuSimd.maskz_load (ce t) n m l a; mo_mask_store := fun l m a v => CpuSimd.mask_store (ce t) n m l a v |} |}.
Definition x86f_m (fma : bool) (e : ext) (t : fty) (undef : Z) : fmbackend := {|
  fmb := x86f fma e t undef; fmb_mem := {| mo_len := nb e / fw t; mo_size := fw t / 8;
  mo_load := x_load e; mo_store := x_store e; mo_tail := x_mask_for_loop_tailf e (xm t);
  mo_maskz_load := x_maskz_load e (xm t); mo_mask_store := x_mask_store e (xm t) |} |}.
Definition armf_m (c99 : bool) (u : Z) (e : aext) (t : fty) : fmbackend := {|
  fmb := armf c99 u e t; fmb_mem := {| mo_len := an e / fw t; mo_size := fw t / 8;
  mo_load := a_load e (fm t); mo_store := a_store e (fm t); mo_tail := a_mask_for_loop_tailf u e t;
  mo_maskz_load := a_maskz_load e (fm t); mo_mask_store := a_mask_store e (fm t) |} |}.
(** [al]: loada and storea, or loadu and storeu *)
Definition powerf_m (al c99 new : bool) (e : pext) (t : fty) : fmbackend := {|
  fmb := powerf c99 new e t; fmb_mem := {| mo_len := 128 / fw t; mo_size := fw t / 8;
  mo_load := p_load al e (fm t); mo_store := p_store al e (fm t); mo_tail := p_mask_for_loop_tailf e t;
  mo_maskz_load := p_maskz_load e (fm t); mo_mask_store := p_mask_store e (fm t) |} |}.
