(** C76, C77: reverse, zip and unzip on the ARM extensions. *)
From Coq Require Import ZArith Lia List Bool ZifyBool.
From Verif Require Import CInt BitLemmas ScalarOps ScalarSpec X86Deg234 X86Arith X86ArithSpec X86LaneLemmas X86Mem X86MemSpec
  Arm ArmSpec ArmProofs ArmProofs4 ArmPerm ArmPermSpec ArmPermProofs PropArm.
Import ListNotations.
Open Scope Z_scope.

(** *** C76: reverse *)
Theorem C76_reverse e t a : mem_type t -> in_reg (an e) (a_reverse e t a) /\
  forall i, 0 <= i < aelems e t -> pattern t (a_reverse e t a) i = pattern t a (aelems e t - 1 - i).
Proof. exact (a_reverse_ok e t a). Qed.
Theorem C76_reverse_f16 e v : is_neon e = true -> in_regs16 (a_reverse16 e v) /\
  forall i, 0 <= i < 8 -> apattern16 (a_reverse16 e v) i = apattern16 v (7 - i).
Proof. exact (a_reverse16_ok e v). Qed.
Theorem C76_reverse_twice e t a : mem_type t -> in_reg (an e) a -> a_reverse e t (a_reverse e t a) = a.
Proof.
  intros H Ha. destruct (a_reverse_ok e t a H) as [R L]. destruct (a_reverse_ok e t (a_reverse e t a) H) as [R2 L2].
  apply (reg_ext (an e) (mw t)); [apply okw_amw, H|assumption..|]. unfold aelems in *. intros i Hi.
  rewrite L2, L by lia. f_equal. lia.
Qed.
Example C76_ex : aelts Neon128 i16 (a_reverse Neon128 (MI i16) (avec i16 [1; 2; 3; 4; 5; 6; 7; 8])) = [8; 7; 6; 5; 4; 3; 2; 1] /\
  aelts Aarch64 i64 (a_reverse Aarch64 MF64 (avec i64 [1; 2])) = [2; 1].
Proof. vm_compute. auto. Qed.

(** *** C77: zip and unzip; [hi = false] is ziplo, unziplo, [hi = true] ziphi, unziphi *)
Theorem C77_zip hi e t a b : mem_type t -> in_reg (an e) (a_zip_half hi e t a b) /\
  forall i, 0 <= i < aelems e t / 2 ->
    pattern t (a_zip_half hi e t a b) (2 * i) = pattern t a ((if hi then aelems e t / 2 else 0) + i) /\
    pattern t (a_zip_half hi e t a b) (2 * i + 1) = pattern t b ((if hi then aelems e t / 2 else 0) + i).
Proof. intros H. rewrite a_zip_half_eq. apply i_zip_ok; [apply okw_amw, H|apply (even_lanes e t H)]. Qed.
Theorem C77_unzip hi e t a b : mem_type t -> in_reg (an e) (a_unzip_half hi e t a b) /\
  forall i, 0 <= i < aelems e t / 2 ->
    pattern t (a_unzip_half hi e t a b) i = pattern t a (2 * i + (if hi then 1 else 0)) /\
    pattern t (a_unzip_half hi e t a b) (aelems e t / 2 + i) = pattern t b (2 * i + (if hi then 1 else 0)).
Proof. intros H. rewrite a_unzip_half_eq. apply i_uzp_ok; [apply okw_amw, H|apply (even_lanes e t H)]. Qed.
(** zip and unzip give both halves at once *)
Theorem C77_both e t a b : a_zip e t a b = (a_zip_half false e t a b, a_zip_half true e t a b) /\
  a_unzip e t a b = (a_unzip_half false e t a b, a_unzip_half true e t a b).
Proof. split; [apply a_zip_eq|apply a_unzip_eq]. Qed.
(** they are inverse of each other *)
Theorem C77_inverse e t a b : mem_type t -> in_reg (an e) a -> in_reg (an e) b ->
  a_unzip e t (fst (a_zip e t a b)) (snd (a_zip e t a b)) = (a, b) /\
  a_zip e t (fst (a_unzip e t a b)) (snd (a_unzip e t a b)) = (a, b).
Proof.
  intros H Ha Hb. destruct (even_lanes e t H) as [Ev _]. pose proof (okw_amw e t H) as O.
  destruct (C77_both e t a b) as [Ez Eu]. rewrite Ez, Eu. cbn [fst snd].
  destruct (C77_zip false e t a b H) as [Rz0 Z0]. destruct (C77_zip true e t a b H) as [Rz1 Z1].
  destruct (C77_unzip false e t a b H) as [Ru0 U0]. destruct (C77_unzip true e t a b H) as [Ru1 U1].
  destruct (C77_both e t (a_zip_half false e t a b) (a_zip_half true e t a b)) as [_ ->].
  destruct (C77_both e t (a_unzip_half false e t a b) (a_unzip_half true e t a b)) as [-> _].
  set (zl := a_zip_half false e t a b) in *. set (zh := a_zip_half true e t a b) in *.
  set (ul := a_unzip_half false e t a b) in *. set (uh := a_unzip_half true e t a b) in *.
  destruct (C77_unzip false e t zl zh H) as [R1 L1]. destruct (C77_unzip true e t zl zh H) as [R2 L2].
  destruct (C77_zip false e t ul uh H) as [R3 L3]. destruct (C77_zip true e t ul uh H) as [R4 L4].
  assert (L3' : forall i, 0 <= i < aelems e t / 2 -> pattern t (a_zip_half false e t ul uh) (2 * i) = pattern t ul i /\ pattern t (a_zip_half false e t ul uh) (2 * i + 1) = pattern t uh i) by (intros i Hi; specialize (L3 i Hi); rewrite Z.add_0_l in L3; exact L3).
  unfold pattern in *. unfold aelems in *. set (h := an e / mw t / 2) in *.
  split; f_equal; apply (reg_ext (an e) (mw t)); try assumption; unfold lane; intros i Hi.
  - destruct (Z_lt_dec i h).
    + destruct (L1 i ltac:(lia)) as [-> _]. rewrite Z.add_0_r. destruct (Z0 i ltac:(lia)) as [-> _]. reflexivity.
    + replace i with (h + (i - h)) by lia. destruct (L1 (i - h) ltac:(lia)) as [_ ->]. rewrite Z.add_0_r.
      destruct (Z1 (i - h) ltac:(lia)) as [-> _]. reflexivity.
  - destruct (Z_lt_dec i h).
    + destruct (L2 i ltac:(lia)) as [-> _]. destruct (Z0 i ltac:(lia)) as [_ ->]. reflexivity.
    + replace i with (h + (i - h)) by lia. destruct (L2 (i - h) ltac:(lia)) as [_ ->].
      destruct (Z1 (i - h) ltac:(lia)) as [_ ->]. reflexivity.
  - destruct (Z.Even_or_Odd i) as [[k ->]|[k ->]].
    + destruct (L3' k ltac:(lia)) as [-> _]. destruct (U0 k ltac:(lia)) as [-> _]. f_equal; f_equal; f_equal; lia.
    + destruct (L3' k ltac:(lia)) as [_ ->]. destruct (U1 k ltac:(lia)) as [-> _]. reflexivity.
  - destruct (Z.Even_or_Odd i) as [[k ->]|[k ->]].
    + destruct (L4 k ltac:(lia)) as [-> _]. destruct (U0 k ltac:(lia)) as [_ ->]. f_equal; f_equal; f_equal; lia.
    + destruct (L4 k ltac:(lia)) as [_ ->]. destruct (U1 k ltac:(lia)) as [_ ->]. reflexivity.
Qed.
(** f16 as pairs of f32 registers *)
Theorem C77_zip_f16 hi v w : in_regs16 (a_zip_half16 hi v w) /\
  forall i, 0 <= i < 4 ->
    apattern16 (a_zip_half16 hi v w) (2 * i) = apattern16 v ((if hi then 4 else 0) + i) /\
    apattern16 (a_zip_half16 hi v w) (2 * i + 1) = apattern16 w ((if hi then 4 else 0) + i).
Proof. exact (a_zip_half16_ok hi v w). Qed.
Theorem C77_unzip_f16 hi v w : in_regs16 (a_unzip_half16 hi v w) /\
  forall i, 0 <= i < 4 ->
    apattern16 (a_unzip_half16 hi v w) i = apattern16 v (2 * i + (if hi then 1 else 0)) /\
    apattern16 (a_unzip_half16 hi v w) (4 + i) = apattern16 w (2 * i + (if hi then 1 else 0)).
Proof. exact (a_unzip_half16_ok hi v w). Qed.
Theorem C77_inverse_f16 v w : in_regs16 v -> in_regs16 w ->
  a_unzip16 (fst (a_zip16 v w)) (snd (a_zip16 v w)) = (v, w) /\
  a_zip16 (fst (a_unzip16 v w)) (snd (a_unzip16 v w)) = (v, w).
Proof.
  intros Hv Hw. unfold a_unzip16, a_zip16. cbn [fst snd].
  destruct (C77_zip_f16 false v w) as [Rz0 Z0]. destruct (C77_zip_f16 true v w) as [Rz1 Z1].
  destruct (C77_unzip_f16 false v w) as [Ru0 U0]. destruct (C77_unzip_f16 true v w) as [Ru1 U1].
  set (zl := a_zip_half16 false v w) in *. set (zh := a_zip_half16 true v w) in *.
  set (ul := a_unzip_half16 false v w) in *. set (uh := a_unzip_half16 true v w) in *.
  destruct (C77_unzip_f16 false zl zh) as [R1 L1]. destruct (C77_unzip_f16 true zl zh) as [R2 L2].
  destruct (C77_zip_f16 false ul uh) as [R3 L3]. destruct (C77_zip_f16 true ul uh) as [R4 L4].
  split; f_equal; apply regs16_ext; try assumption; intros i Hi.
  - destruct (Z_lt_dec i 4).
    + destruct (L1 i ltac:(lia)) as [-> _]. rewrite Z.add_0_r. destruct (Z0 i ltac:(lia)) as [-> _]. reflexivity.
    + replace i with (4 + (i - 4)) by lia. destruct (L1 (i - 4) ltac:(lia)) as [_ ->]. rewrite Z.add_0_r.
      destruct (Z1 (i - 4) ltac:(lia)) as [-> _]. reflexivity.
  - destruct (Z_lt_dec i 4).
    + destruct (L2 i ltac:(lia)) as [-> _]. destruct (Z0 i ltac:(lia)) as [_ ->]. reflexivity.
    + replace i with (4 + (i - 4)) by lia. destruct (L2 (i - 4) ltac:(lia)) as [_ ->].
      destruct (Z1 (i - 4) ltac:(lia)) as [_ ->]. reflexivity.
  - destruct (Z.Even_or_Odd i) as [[k ->]|[k ->]].
    + destruct (L3 k ltac:(lia)) as [-> _]. rewrite Z.add_0_l. destruct (U0 k ltac:(lia)) as [-> _]. f_equal. lia.
    + destruct (L3 k ltac:(lia)) as [_ ->]. rewrite Z.add_0_l. destruct (U1 k ltac:(lia)) as [-> _]. reflexivity.
  - destruct (Z.Even_or_Odd i) as [[k ->]|[k ->]].
    + destruct (L4 k ltac:(lia)) as [-> _]. destruct (U0 k ltac:(lia)) as [_ ->]. f_equal. lia.
    + destruct (L4 k ltac:(lia)) as [_ ->]. destruct (U1 k ltac:(lia)) as [_ ->]. reflexivity.
Qed.
Print Assumptions C77_inverse_f16.
Example C77_ex :
  aelts Neon128 i32 (a_zip_half false Neon128 MF32 (avec i32 [1; 2; 3; 4]) (avec i32 [5; 6; 7; 8])) = [1; 5; 2; 6] /\
  aelts sve128 i32 (a_zip_half true sve128 MF32 (avec i32 [1; 2; 3; 4]) (avec i32 [5; 6; 7; 8])) = [3; 7; 4; 8] /\
  aelts Aarch64 i32 (a_unzip_half true Aarch64 MF32 (avec i32 [1; 2; 3; 4]) (avec i32 [5; 6; 7; 8])) = [2; 4; 6; 8] /\
  aelts Neon128 i64 (a_unzip_half false Neon128 MF64 (avec i64 [1; 2]) (avec i64 [5; 6])) = [1; 5].
Proof. vm_compute. auto. Qed.
Print Assumptions C76_reverse.
Print Assumptions C76_reverse_twice.
Print Assumptions C77_inverse.
Print Assumptions C77_zip_f16.
Print Assumptions C77_unzip_f16.
