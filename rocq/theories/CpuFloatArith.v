(** The arithmetic operators of the CPU back end on float and f16 vectors:
    egg/platform_cpu.py.  Registers and [func_body] are those of CpuSimd.v;
    a lane is the pattern of the float, of a single for f16
    (:66-73 [get_type]).  [c99] tells which code egg/scalar.py emits. *)
From Coq Require Import ZArith Bool List.
From Verif Require Import CInt FloatSpec Fp16 ScalarOps RoundEven CpuSimd X86Cvt X86Float ArmFloat FloatArith ScalarFloat.
Open Scope Z_scope.

(** the type of the lanes: typ2 in :156-157 *)
Definition lane_ty (t : fty) : fty := match t with F16 => F32 | _ => t end.
(** :133-136 [op2], called at :674-677 *)
Definition c_op2f (op : fmt -> Z -> Z -> Z) (t : fty) (n : nat) (a b : reg) : option reg :=
  func_body n (fun i => bind2 (lane a i) (lane b i) (fun x y => Some (op (ff (lane_ty t)) x y))).
Definition c_addf := c_op2f fadd.
Definition c_subf := c_op2f fsub.
Definition c_mulf := c_op2f fmul.
Definition c_divf := c_op2f fdiv.
(** :156-167 [scalar_impl], called at :678-679, :688-689, :692, :706-713, :720-725 *)
Definition c_addsf (t : fty) (n : nat) := scalar_impl2 n (sf_adds (lane_ty t)).
Definition c_subsf (t : fty) (n : nat) := scalar_impl2 n (sf_subs (lane_ty t)).
Definition c_sqrtf (c99 : bool) (t : fty) (n : nat) := scalar_impl1 n (sf_sqrt c99 (lane_ty t)).
Definition c_recf (t : fty) (n : nat) := scalar_impl1 n (sf_rec (lane_ty t)).
Definition c_rsqrt11f (c99 : bool) (t : fty) (n : nat) := scalar_impl1 n (sf_rsqrt11 c99 (lane_ty t)).
Definition c_fmaf (c99 : bool) (t : fty) (n : nat) := scalar_impl3 n (sf_fma c99 (lane_ty t)).
Definition c_fmsf (c99 : bool) (t : fty) (n : nat) := scalar_impl3 n (sf_fms c99 (lane_ty t)).
Definition c_fnmaf (c99 : bool) (t : fty) (n : nat) := scalar_impl3 n (sf_fnma c99 (lane_ty t)).
Definition c_fnmsf (c99 : bool) (t : fty) (n : nat) := scalar_impl3 n (sf_fnms c99 (lane_ty t)).
Definition c_minf (t : fty) (n : nat) := scalar_impl2 n (sf_min (lane_ty t)).
Definition c_maxf (t : fty) (n : nat) := scalar_impl2 n (sf_max (lane_ty t)).
Definition c_absf (t : fty) (n : nat) := scalar_impl1 n (sf_abs (lane_ty t)).
Definition c_negf (t : fty) (n : nat) := scalar_impl1 n (sf_neg (lane_ty t)).
Definition c_floorf (c99 : bool) (t : fty) (n : nat) := scalar_impl1 n (sf_floor c99 (lane_ty t)).
Definition c_ceilf (c99 : bool) (t : fty) (n : nat) := scalar_impl1 n (sf_ceil c99 (lane_ty t)).
Definition c_truncf (new c99 : bool) (t : fty) (n : nat) := scalar_impl1 n (sf_trunc new c99 (lane_ty t)).
