(** Specification vocabulary for the POWER conversions; [nearest_float], [truncates], [pick], [format], [widen64] and
    [nearest_single] are those of X86CvtSpec.v, [saturated], [castable] and [widened] those of ArmCvtSpec.v. *)
From Coq Require Import ZArith Bool.
From Verif Require Import CInt FloatSpec ScalarOps ScalarSpec X86Deg234 X86Arith X86ArithSpec X86Mem X86MemSpec X86CvtSpec ArmCvtSpec Ppc PpcSpec.
Open Scope Z_scope.

(** [z] is the float [b] truncated toward zero and clamped to the range of [t]; a NaN gives zero, but the least
    integer in type i64. *)
Definition p_saturated (t : ity) (f : fmt) (b z : Z) : Prop :=
  match decode f b with
  | FNaN => z = if is_signed t && (bits t =? 64) then ty_min t else 0
  | _ => saturated t f b z
  end.
