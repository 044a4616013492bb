(** Specification vocabulary for the ARM conversions; [clamp] is that of ScalarSpec.v; [nearest_float], [truncates], [pick], [format], [widen64] and
    [nearest_single] are those of X86CvtSpec.v. *)
From Coq Require Import ZArith Bool.
From Verif Require Import CInt FloatSpec ScalarOps ScalarSpec X86Deg234 X86Arith X86ArithSpec X86Mem X86MemSpec X86CvtSpec Arm ArmSpec.
Open Scope Z_scope.

(** [z] is the float [b] truncated toward zero and clamped to the range of [t]; a NaN gives zero. *)
Definition saturated (t : ity) (f : fmt) (b z : Z) : Prop :=
  match decode f b with
  | FNaN => z = 0
  | FInf s => z = if s then ty_min t else ty_max t
  | FFin s m => z = clamp t (sval s (m / one f))
  end.
(** Where cvt from floats to integers is a C cast, undefined out of range: the doubles of neon128. *)
Definition c_casts (e : aext) (f : mty) : Prop := e = Neon128 /\ f = MF64.
(** The C cast to [t] is defined. *)
Definition castable (t : ity) (f : fmt) (b : Z) : Prop := exists z, truncates f b z /\ in_ty t z.
(** The type of the sign of [t] with [w] bits. *)
Definition widened (t : ity) (w : Z) : ity := Ity (is_signed t) w.
