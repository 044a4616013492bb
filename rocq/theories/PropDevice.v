(** C116-C123: the operators inside GPU kernels (CUDA, ROCm, oneAPI), and the scalar operators on bits and between types.
    [d] is the kind of device, [arch] tells whether CUDA compiles for compute capability 5.3 or more. *)
From Coq Require Import ZArith Bool List Lia ZifyBool.
From Verif Require Import CInt FloatSpec Fp16 Fp16Spec ScalarOps ScalarSpec ScalarProofs RoundEven X86Cvt X86CvtSpec X86Float X86FloatSpec X86FloatProofs X86FloatProofs2 ArmFloat ArmFloatSpec.
From Verif Require Import FloatArith FloatArithSpec FloatArithProofs7 FloatArithProofs8 FloatArithProofs9 ScalarFloat FloatVecSpec ScalarBits Device DeviceSpec DeviceProofs DeviceProofs2.
Import ListNotations.
Local Open Scope Z_scope.

(** ** C116: arithmetic on integers *)
Theorem C116_arith d t a b : In t int_types -> in_ty t a -> in_ty t b ->
  int_result t (a + b) (g_add d t a b) /\ int_result t (a - b) (g_sub d t a b) /\ int_result t (a * b) (g_mul d t a b) /\ int_result t (- a) (g_neg d t a) /\
  (b <> 0 -> int_result t (Z.quot a b) (g_div d t a b)) /\ g_div d t a 0 = None.
Proof.
  intros H Ha Hb. rewrite g_add_is, g_sub_is, g_mul_is, g_neg_is, !g_div_is. repeat split; try (apply carith_result; exact H).
  intros N. unfold s_div. rewrite (proj2 (Z.eqb_neq b 0) N). apply carith_result. exact H.
Qed.
Theorem C116_min_max d t a b : g_min d t a b = Z.min a b /\ g_max d t a b = Z.max a b.
Proof. unfold g_min, g_max. split; [destruct (Z.ltb_spec a b)|destruct (Z.ltb_spec b a)]; lia. Qed.
(** the most negative value has no opposite: narrow types and oneAPI give it back *)
Theorem C116_abs d t a : In t int_types -> in_ty t a ->
  (is_signed t = false \/ a <> ty_min t -> g_abs d t a = Some (Z.abs a)) /\
  (is_signed t = true -> g_abs d t (ty_min t) = match d with Oneapi => Some (ty_min t) | _ => if bits t <? 32 then Some (ty_min t) else None end).
Proof. intros H Ha. split; [intros N; apply g_abs_ok; tauto|apply g_abs_min; exact H]. Qed.
Theorem C116_compare d t a b :
  truth (g_lt d t a b) (a < b) /\ truth (g_le d t a b) (a <= b) /\ truth (g_gt d t a b) (a > b) /\ truth (g_ge d t a b) (a >= b) /\ truth (g_eq d t a b) (a = b) /\ truth (g_ne d t a b) (a <> b).
Proof. repeat split; apply truth_c; lia. Qed.
(** floor, ceil, trunc and round_to_even *)
Theorem C116_round d t a : g_round d t a = a.
Proof. reflexivity. Qed.
Example C116_ex : g_add Cuda i8 100 100 = Some (-56) /\ g_mul Rocm u32 65536 65536 = Some 0 /\ g_mul Cuda i32 65536 65536 = None /\ g_div Oneapi i16 (-7) 2 = Some (-3) /\
  g_div Cuda i32 (-2147483648) (-1) = None /\ g_div Cuda i16 (-32768) (-1) = Some (-32768) /\ g_abs Cuda i32 (-2147483648) = None /\ g_abs Oneapi i32 (-2147483648) = Some (-2147483648) /\ g_abs Rocm i8 (-7) = Some 7 /\
  g_mul Oneapi u16 65535 65535 = None.
Proof. vm_compute. repeat split. Qed.
Print Assumptions C116_arith. Print Assumptions C116_min_max. Print Assumptions C116_abs. Print Assumptions C116_compare. Print Assumptions C116_round.

(** ** C117: saturation and shifts *)
Theorem C117_adds d t a b : In t int_types -> in_ty t a -> in_ty t b -> g_adds d t a b = Some (clamp t (a + b)).
Proof. apply g_adds_ok. Qed.
Theorem C117_subs d t a b : In t int_types -> in_ty t a -> in_ty t b -> d = Oneapi \/ is_signed t = false \/ b <> ty_min t -> g_subs d t a b = Some (clamp t (a - b)).
Proof.
  intros H Ha Hb C. assert (D : d = Oneapi \/ d <> Oneapi) by (destruct d; [right|right|left]; congruence). destruct D as [->|D].
  - unfold g_subs. rewrite sycl_clamp by exact H. reflexivity.
  - rewrite g_subs_is by exact D. apply s_subs_ok; try assumption. intros S. destruct C as [?|[?|?]]; congruence.
Qed.
(** with the most negative value CUDA and ROCm add instead of subtracting, or negate it out of range *)
Theorem C117_subs_most_negative d t a : In t int_types -> is_signed t = true -> in_ty t a -> d <> Oneapi ->
  g_subs d t a (ty_min t) = if bits t <? 32 then Some (clamp t (a + ty_min t)) else None.
Proof. intros H S Ha D. rewrite g_subs_is by exact D. apply s_subs_min; assumption. Qed.
Theorem C117_subs_refuted : exists d t a b, In t int_types /\ in_ty t a /\ in_ty t b /\ g_subs d t a b <> Some (clamp t (a - b)).
Proof. exists Cuda, i8, 5, (-128). split; [cbn; auto|]. repeat split; try (vm_compute; discriminate). Qed.
Theorem C117_shifts d t a s : In t int_types -> in_ty t a -> 0 <= s < bits t ->
  (exists r, g_shl d t a s = Some r /\ wraps_to t (a * 2 ^ s) r) /\
  (exists r, g_shr d t a s = Some r /\ wraps_to t ((a mod 2 ^ bits t) / 2 ^ s) r) /\
  g_shra d t a s = Some (a / 2 ^ s).
Proof.
  intros H Ha Hs. rewrite g_shl_is, g_shr_is, g_shra_is. split; [apply s_shl_ok; assumption|]. split; [apply s_shr_ok; assumption|apply s_shra_ok; assumption].
Qed.
Example C117_ex : g_adds Cuda i8 100 100 = Some 127 /\ g_subs Cuda i8 5 (-128) = Some (-123) /\ g_subs Oneapi i8 5 (-128) = Some 127 /\ g_subs Rocm i32 5 (-2147483648) = None /\ g_subs Cuda u8 3 4 = Some 0 /\
  g_shra Cuda i8 (-7) 1 = Some (-4) /\ g_shr Rocm i8 (-1) 1 = Some 127 /\ g_shl Oneapi u8 255 1 = Some 254.
Proof. vm_compute. repeat split. Qed.
Print Assumptions C117_adds. Print Assumptions C117_subs. Print Assumptions C117_subs_most_negative. Print Assumptions C117_subs_refuted. Print Assumptions C117_shifts.

(** ** C118: bits, masks and logicals, on devices and of the scalar operators on floats *)
Theorem C118_bitwise d t a b : element_type t ->
  has_bits t (g_orb d t a b) (fun i => Z.testbit a i || Z.testbit b i) /\ has_bits t (g_andb d t a b) (fun i => Z.testbit a i && Z.testbit b i) /\
  has_bits t (g_andnotb d t a b) (fun i => Z.testbit a i && negb (Z.testbit b i)) /\ has_bits t (g_xorb d t a b) (fun i => xorb (Z.testbit a i) (Z.testbit b i)) /\
  has_bits t (g_notb d t a) (fun i => negb (Z.testbit a i)).
Proof.
  intros H. split; [apply (g_opbit_ok t Z.lor orb); [exact H|intros; apply Z.lor_spec]|]. split; [apply (g_opbit_ok t Z.land andb); [exact H|intros; apply Z.land_spec]|].
  split; [apply (g_opbit_ok t _ (fun x y => x && negb y)); [exact H|intros x y i Hi; rewrite Z.land_spec, Z.lnot_spec by exact Hi; reflexivity]|].
  split; [apply (g_opbit_ok t Z.lxor xorb); [exact H|intros; apply Z.lxor_spec]|]. apply (g_opbit_ok t _ (fun x _ => negb x)); [exact H|intros x y i Hi; apply Z.lnot_spec, Hi].
Qed.
Theorem C118_bitwise_scalar t a b :
  has_bits (SF t) (sf_orb t a b) (fun i => Z.testbit a i || Z.testbit b i) /\ has_bits (SF t) (sf_andb t a b) (fun i => Z.testbit a i && Z.testbit b i) /\
  has_bits (SF t) (sf_andnotb t a b) (fun i => Z.testbit a i && negb (Z.testbit b i)) /\ has_bits (SF t) (sf_xorb t a b) (fun i => xorb (Z.testbit a i) (Z.testbit b i)) /\
  has_bits (SF t) (sf_notb t a) (fun i => negb (Z.testbit a i)).
Proof.
  split; [apply (sf_opbit_ok t Z.lor orb); intros; apply Z.lor_spec|]. split; [apply (sf_opbit_ok t Z.land andb); intros; apply Z.land_spec|].
  split; [apply (sf_opbit_ok t _ (fun x y => x && negb y)); intros x y i Hi; rewrite Z.land_spec, Z.lnot_spec by exact Hi; reflexivity|].
  split; [apply (sf_opbit_ok t Z.lxor xorb); intros; apply Z.lxor_spec|]. apply (sf_opbit_ok t _ (fun x _ => negb x)); intros x y i Hi; apply Z.lnot_spec, Hi.
Qed.
(** every bit of a mask is the truth of the logical, and a value is true as soon as a bit is set *)
Theorem C118_masks d t l a : element_type t -> valid t a ->
  has_bits t (g_to_mask d t l) (fun _ => negb (l =? 0)) /\ truth (g_to_logical d t a) (exists i, 0 <= i < sw t /\ Z.testbit a i = true) /\ truth (g_to_logical d t (g_to_mask d t l)) (l <> 0).
Proof.
  intros H V. pose proof (to_mask_ok d t l H) as M. split; [exact M|]. split; [apply to_logical_ok; assumption|].
  destruct (to_logical_ok d t _ H (proj1 M)) as [(E & (i & Hi & B))|(E & N)]; [left|right]; (split; [exact E|]).
  - rewrite (proj2 M) in B by exact Hi. apply c_true_ne. exact B.
  - intros K. apply N. exists 0. pose proof (sw_pos t H). split; [lia|]. rewrite (proj2 M) by lia. apply c_true_ne. exact K.
Qed.
Theorem C118_masks_scalar t l a : 0 <= a < 2 ^ fw t ->
  has_bits (SF t) (sf_to_mask t l) (fun _ => negb (l =? 0)) /\ truth (sf_to_logical t a) (exists i, 0 <= i < fw t /\ Z.testbit a i = true).
Proof.
  intros V. split.
  - replace (sf_to_mask t l) with (g_to_mask Cuda (SF t) l) by (unfold sf_to_mask, g_to_mask; cbn [value_of sw]; destruct t; reflexivity). apply to_mask_ok. exact I.
  - exact (to_logical_ok Cuda (SF t) a I V).
Qed.
Theorem C118_logicals d a b :
  truth (gl_and d a b) (a <> 0 /\ b <> 0) /\ truth (gl_or d a b) (a <> 0 \/ b <> 0) /\ truth (gl_andnot d a b) (a <> 0 /\ b = 0) /\ truth (gl_not d a) (a = 0) /\
  truth (sl_and a b) (a <> 0 /\ b <> 0) /\ truth (sl_or a b) (a <> 0 \/ b <> 0) /\ truth (sl_andnot a b) (a <> 0 /\ b = 0) /\ truth (sl_not a) (a = 0).
Proof. repeat split; destruct d; apply truth_c; unfold c_true; lia. Qed.
(** xorl is the bitwise operator: right on the logicals 0 and 1 that the operators give, not on all non-zero ints *)
Theorem C118_xorl d a b : a = 0 \/ a = 1 -> b = 0 \/ b = 1 -> truth (gl_xor d a b) (a <> b) /\ truth (sl_xor a b) (a <> b).
Proof. intros [->| ->] [->| ->]; destruct d; cbn; unfold truth; lia. Qed.
Theorem C118_xorl_refuted : exists a b, a <> 0 /\ b <> 0 /\ sl_xor a b <> 0 /\ forall d, gl_xor d a b <> 0.
Proof. exists 1, 2. repeat split; try discriminate. intros []; discriminate. Qed.
(** reinterpret keeps the bits and comes back *)
Theorem C118_reinterpret d from to x : element_type from -> element_type to -> sw from = sw to -> valid from x ->
  has_bits to (g_reinterpret d from to x) (fun i => Z.testbit x i) /\ g_reinterpret d to from (g_reinterpret d from to x) = x /\ sc_reinterpret from to x = g_reinterpret d from to x.
Proof. intros Hf Ht W V. destruct (reinterpret_ok from to x Hf Ht W V) as (B & E). split; [exact B|]. split; [exact E|reflexivity]. Qed.
Example C118_ex : g_xorb Cuda (SF F32) 0x3F800000 0x80000000 = 0xBF800000 /\ g_andnotb Rocm (SI i8) (-1) 1 = -2 /\ sf_notb F16 0 = 65535 /\ g_to_mask Oneapi (SI i16) 2 = -1 /\ g_to_mask Cuda (SF F64) 1 = 2 ^ 64 - 1 /\
  g_to_logical Cuda (SF F32) 0x80000000 = 1 /\ g_reinterpret Rocm (SF F32) (SI i32) 0xBF800000 = -1082130432 /\ g_reinterpret Rocm (SI i32) (SF F32) (-1082130432) = 0xBF800000 /\ gl_andnot Cuda 3 0 = 1 /\ gl_xor Cuda 1 2 = 3.
Proof. vm_compute. repeat split. Qed.
Print Assumptions C118_bitwise. Print Assumptions C118_bitwise_scalar. Print Assumptions C118_masks. Print Assumptions C118_masks_scalar. Print Assumptions C118_logicals. Print Assumptions C118_xorl.
Print Assumptions C118_xorl_refuted. Print Assumptions C118_reinterpret.

(** ** C119: conversions between types of the same width, on devices and scalar *)
Theorem C119_int_int d t u x : In t int_types -> In u int_types -> bits t = bits u -> in_ty t x ->
  exists r, g_cvt d (SI t) (SI u) x = Some r /\ sc_cvt (SI t) (SI u) x = Some r /\ wraps_to u x r.
Proof.
  intros Ht Hu W V. exists (cast u x). pose proof (same_sty_cast t u x Ht Hu W V) as E. split; [destruct d; exact E|]. split; [exact E|]. apply cast_wraps. exact Hu.
Qed.
Theorem C119_int_float d t u x : In t int_types -> bits t = fw u -> in_ty t x ->
  exists r, g_cvt d (SI t) (SF u) x = Some r /\ sc_cvt (SI t) (SF u) x = Some r /\ correctly_rounded (ff u) (x <? 0) (twice_ratio (Z.abs x * one (ff u)) 1) r.
Proof.
  intros H W V. exists (float_of_int (ff u) x). split; [apply g_int_float; assumption|]. split; [apply sc_int_float; assumption|]. apply float_int_rounded. apply ff_good'.
Qed.
Theorem C119_float_int d t u x : In u int_types -> bits u = fw t -> 0 <= x < 2 ^ fw t ->
  truncation (ff t) u x (g_cvt d (SF t) (SI u) x) /\ sc_cvt (SF t) (SI u) x = g_cvt d (SF t) (SI u) x.
Proof. intros H W V. rewrite g_float_int, sc_float_int by exact V. split; [|reflexivity]. apply int_of_float_ok. apply ff_good'. Qed.
Theorem C119_float_float d t x : 0 <= x < 2 ^ fw t -> sc_cvt (SF t) (SF t) x = Some x /\ gives t (g_cvt d (SF t) (SF t) x) (fun r => same_number (ff t) r x).
Proof.
  intros V. split; [destruct t; reflexivity|]. destruct d; [exists x; split; [destruct t; reflexivity|split; [exact V|left; reflexivity]]..|].
  destruct t; [exact (g_half_half x V)|exists x; split; [reflexivity|split; [exact V|left; reflexivity]]..].
Qed.
Example C119_ex : g_cvt Cuda (SI i32) (SF F32) 16777217 = Some 0x4B800000 /\ sc_cvt (SI u16) (SF F16) 65535 = Some 0x7C00 /\ g_cvt Oneapi (SI i16) (SF F16) (-3) = Some 0xC200 /\
  g_cvt Cuda (SF F32) (SI i32) 0xC0200000 = Some (-2) /\ sc_cvt (SF F16) (SI i16) 0x7C00 = None /\ sc_cvt (SF F16) (SI u16) 0x3E00 = Some 1 /\ g_cvt Rocm (SF F32) (SI i32) 0x4F000000 = None /\ g_cvt Rocm (SI i8) (SI u8) (-1) = Some 255.
Proof. vm_compute. repeat split. Qed.
Print Assumptions C119_int_int. Print Assumptions C119_int_float. Print Assumptions C119_float_int. Print Assumptions C119_float_float.

(** ** C120: arithmetic on floats is correctly rounded, for halves with and without half-precision instructions *)
Theorem C120_arith o d arch t a b : 0 <= a < 2 ^ fw t -> 0 <= b < 2 ^ fw t -> gives t (g_arith o d arch t a b) (result_is o (ff t) (decode (ff t) a) (decode (ff t) b)).
Proof. apply g_arith_ok. Qed.
Theorem C120_saturating d arch t a b : g_addsf d arch t a b = g_addf d arch t a b /\ g_subsf d arch t a b = g_subf d arch t a b.
Proof. split; destruct d; reflexivity. Qed.
Theorem C120_sqrt_rec d arch t a : 0 <= a < 2 ^ fw t -> gives t (g_sqrtf d arch t a) (root_is (ff t) (decode (ff t) a)) /\ gives t (g_recf d arch t a) (inverse_is (ff t) (decode (ff t) a)).
Proof. intros Ha. split; [apply g_sqrt_ok|apply g_rec_ok]; exact Ha. Qed.
Theorem C120_sign d arch t a : 0 <= a < 2 ^ fw t ->
  gives t (g_negf d arch t a) (fun r => decode (ff t) r = opposite (decode (ff t) a)) /\ gives t (g_absf d arch t a) (fun r => decode (ff t) r = absolute (decode (ff t) a)).
Proof. intros Ha. split; [apply g_neg_ok|apply g_absf_ok]; exact Ha. Qed.
Theorem C120_rounding d arch t a : 0 <= a < 2 ^ fw t ->
  gives t (g_floorf d arch t a) (fun r => rounded (ff t) (down (ff t)) (decode (ff t) a) (decode (ff t) r)) /\
  gives t (g_ceilf d arch t a) (fun r => rounded (ff t) (up (ff t)) (decode (ff t) a) (decode (ff t) r)) /\
  gives t (g_truncf d arch t a) (fun r => rounded (ff t) (toward_zero (ff t)) (decode (ff t) a) (decode (ff t) r)) /\
  gives t (g_round_to_evenf d arch t a) (fun r => rounded (ff t) (nearest (ff t)) (decode (ff t) a) (decode (ff t) r)).
Proof.
  intros Ha. split; [|split; [|split]].
  - apply (g_round_ok ffloor down _ d arch t a (fun f b G R => floor_fits f G b R) down_one'); [destruct d; [left; reflexivity..|right; apply sy1_is]|exact Ha].
  - apply (g_round_ok fceil up _ d arch t a (fun f b G R => ceil_fits f G b R) up_one'); [destruct d; [left; reflexivity..|right; apply sy1_is]|exact Ha].
  - apply (g_round_ok hw_trunc toward_zero _ d arch t a (fun f b G R => hw_trunc_fits f G b R) zero_one'); [destruct d; [left; reflexivity..|right; apply sy1_is]|exact Ha].
  - apply (g_round_ok hw_nearest nearest _ d arch t a (fun f b G R => hw_nearest_fits f G b R) nearest_one); [destruct d; [left; reflexivity..|right; apply sy1_is]|exact Ha].
Qed.
Example C120_ex : g_divf Cuda true F16 0x3C00 0x4200 = Some 0x3555 /\ g_divf Cuda false F16 0x3C00 0x4200 = Some 0x3555 /\ g_addf Oneapi false F32 0x3F800000 0x33800000 = Some 0x3F800000 /\ g_sqrtf Rocm true F16 0x4000 = Some 0x3DA8 /\
  g_absf Cuda true F16 0x8000 = Some 0 /\ g_round_to_evenf Oneapi true F16 0x4100 = Some 0x4000 /\ g_floorf Rocm false F32 0xBF000000 = Some 0xBF800000 /\ g_recf Cuda true F16 0x4200 = Some 0x3555.
Proof. vm_compute. repeat split. Qed.
Print Assumptions C120_arith. Print Assumptions C120_saturating. Print Assumptions C120_sqrt_rec. Print Assumptions C120_sign. Print Assumptions C120_rounding.

(** ** C121: multiply and add *)
(** integers: oneAPI computes the four operators, CUDA and ROCm compute a b + c for all four *)
Theorem C121_int o d t a b c : In t int_types -> d = Oneapi \/ o = Fma -> muladd_result o t a b c (g_imuladd o d t a b c).
Proof. intros H [->| ->]; [apply s_muladd_ok; exact H|]. destruct d; exact (s_muladd_ok Fma t a b c H). Qed.
Theorem C121_int_cuda o d t a b c : In t int_types -> d <> Oneapi -> muladd_result Fma t a b c (g_imuladd o d t a b c).
Proof. intros H D. destruct d; [..|contradiction]; destruct o; exact (s_muladd_ok Fma t a b c H). Qed.
(** f32 and f64: a single rounding *)
Theorem C121_float o d arch t a b c : t <> F16 -> 0 <= a < 2 ^ fw t -> 0 <= b < 2 ^ fw t -> 0 <= c < 2 ^ fw t -> d = Oneapi \/ o = Fma ->
  gives t (g_muladd o d arch t a b c) (fused_is (ff t) (factor o (decode (ff t) a)) (decode (ff t) b) (addend o (decode (ff t) c))).
Proof.
  intros T Ha Hb Hc D. rewrite g_muladd_sfm; [apply sfm_once; assumption|]. destruct D as [D|D]; [left; exact D|right; split; [exact D|]]. intros (_ & _ & K). contradiction.
Qed.
(** f16: in single precision, then rounded again; the same as a single rounding unless the single is the middle of two halves *)
Theorem C121_half o d arch a b c : 0 <= a < 2 ^ 16 -> 0 <= b < 2 ^ 16 -> 0 <= c < 2 ^ 16 -> d = Oneapi \/ (o = Fma /\ ~ half_hardware d arch F16) ->
  let v := factor o (decode binary16 a) in let w := decode binary16 b in let x := addend o (decode binary16 c) in
  exists y, gives F16 (g_muladd o d arch F16 a b c) (fun r => fused_in_single v w x y r /\ (~ between_halves y -> fused_is binary16 v w x r)).
Proof. intros Ha Hb Hc D. rewrite g_muladd_sfm by exact D. apply sfm_half; assumption. Qed.
(** with half-precision instructions: a single rounding *)
Theorem C121_half_hardware a b c : 0 <= a < 2 ^ 16 -> 0 <= b < 2 ^ 16 -> 0 <= c < 2 ^ 16 ->
  gives F16 (g_fmaf Cuda true F16 a b c) (fused_is binary16 (decode binary16 a) (decode binary16 b) (decode binary16 c)).
Proof. intros Ha Hb Hc. eexists; split; [reflexivity|]. split; [apply (ffma_rng binary16 a b c good16)|apply FloatArithProofs2.ffma_is; exact good16]. Qed.
(** CUDA and ROCm: fms, fnma and fnms are fma *)
Theorem C121_cuda o d arch t a b c : d <> Oneapi -> g_muladd o d arch t a b c = g_fmaf d arch t a b c.
Proof. apply cuda_muladd. Qed.
Theorem C121_cuda_refuted : g_imuladd Fms Cuda i32 2 3 1 = Some 7 /\ g_imuladd Fnma Cuda i32 2 3 1 = Some 7 /\ g_imuladd Fnms Rocm i32 2 3 1 = Some 7 /\
  ~ (forall o a b c, 0 <= a < 2 ^ 32 -> 0 <= b < 2 ^ 32 -> 0 <= c < 2 ^ 32 ->
     gives F32 (g_muladd o Cuda true F32 a b c) (fused_is binary32 (factor o (decode binary32 a)) (decode binary32 b) (addend o (decode binary32 c)))).
Proof.
  split; [reflexivity|]. split; [reflexivity|]. split; [reflexivity|]. intros K. specialize (K Fnma 0x3F800000 0x3F800000 0x40000000). destruct K as (r & E & _ & F); try lia.
  vm_compute in E. injection E as <-. destruct F as (_ & _ & m & Em & F). vm_compute in Em. injection Em as <-. destruct (F 0x3F800000 (2 ^ 149)) as (_ & G); [split; [discriminate|reflexivity]|reflexivity|].
  destruct G as [G|(G & _)]; [reflexivity| |]; vm_compute in G; discriminate.
Qed.
(** halves with and without half-precision instructions differ *)
Theorem C121_half_refuted : exists a b c, 0 <= a < 2 ^ 16 /\ 0 <= b < 2 ^ 16 /\ 0 <= c < 2 ^ 16 /\ g_fmaf Cuda true F16 a b c = Some 0x3C01 /\ g_fmaf Cuda false F16 a b c = Some 0x3C02.
Proof. exists 0x3C01, 0x0FFE, 0x3C01. repeat split; try lia; reflexivity. Qed.
Example C121_ex : g_imuladd Fms Oneapi i32 2 3 1 = Some 5 /\ g_imuladd Fnma Oneapi i8 2 3 1 = Some (-5) /\ g_muladd Fnms Oneapi true F32 0x40000000 0x40400000 0x3F800000 = Some 0xC0E00000 /\ g_muladd Fnms Cuda true F32 0x40000000 0x40400000 0x3F800000 = Some 0x40E00000 /\
  g_muladd Fms Oneapi true F16 0x4000 0x4200 0x3C00 = Some 0x4500 /\ g_muladd Fma Rocm true F64 0x4000000000000000 0x4008000000000000 0x3FF0000000000000 = Some 0x401C000000000000.
Proof. vm_compute. repeat split. Qed.
Print Assumptions C121_int. Print Assumptions C121_int_cuda. Print Assumptions C121_float. Print Assumptions C121_half. Print Assumptions C121_half_hardware. Print Assumptions C121_cuda. Print Assumptions C121_cuda_refuted.
Print Assumptions C121_half_refuted.

(** ** C122: comparisons, minimum and maximum *)
Theorem C122_compare d arch t a b : 0 <= a < 2 ^ fw t -> 0 <= b < 2 ^ fw t -> let c := compare (decode (ff t) a) (decode (ff t) b) in
  (exists r, g_ltf d arch t a b = Some r /\ truth r (c = Less)) /\ (exists r, g_gtf d arch t a b = Some r /\ truth r (c = Greater)) /\
  (exists r, g_lef d arch t a b = Some r /\ truth r (c = Less \/ c = Equal)) /\ (exists r, g_gef d arch t a b = Some r /\ truth r (c = Greater \/ c = Equal)) /\
  (exists r, g_eqf d arch t a b = Some r /\ truth r (c = Equal)) /\
  (exists r, g_nef d arch t a b = Some r /\ truth r (c = Less \/ c = Greater \/ (c = Unordered /\ ~ half_hardware d arch t))).
Proof.
  intros Ha Hb c. repeat split; eexists.
  - split; [apply (g_cmp_ok flt (fun c => is c Less)); [apply flt_less|reflexivity|assumption..]|]. apply truth_c. fold c. destruct c; cbn; intuition congruence.
  - split; [apply (g_cmp_ok (fun x y => flt y x) (fun c => is c Greater)); [apply flt_greater|reflexivity|assumption..]|]. apply truth_c. fold c. destruct c; cbn; intuition congruence.
  - split; [apply (g_cmp_ok fle (fun c => is c Less || is c Equal)); [exact is_le|reflexivity|assumption..]|]. apply truth_c. fold c. destruct c; cbn; intuition congruence.
  - split; [apply (g_cmp_ok (fun x y => fle y x) (fun c => is c Greater || is c Equal)); [exact is_ge|reflexivity|assumption..]|]. apply truth_c. fold c. destruct c; cbn; intuition congruence.
  - split; [apply (g_cmp_ok feqb (fun c => is c Equal)); [exact is_equal|reflexivity|assumption..]|]. apply truth_c. fold c. destruct c; cbn; intuition congruence.
  - split; [apply g_ne_ok; assumption|]. apply truth_c. fold c. rewrite <- native_iff. destruct c, (native d arch t); cbn; intuition congruence.
Qed.
(** with half-precision instructions a NaN is not different from itself *)
Theorem C122_ne_refuted : exists a, decode binary16 a = FNaN /\ g_nef Cuda true F16 a a = Some 0 /\ g_nef Cuda false F16 a a = Some 1.
Proof. exists 0x7E00. repeat split. Qed.
(** of the zeros either may be the result: [k] *)
Theorem C122_min_max k d arch t a b : ~ half_hardware d arch t -> 0 <= a < 2 ^ fw t -> 0 <= b < 2 ^ fw t ->
  gives t (g_minf k d arch t a b) (smaller_of (ff t) a b) /\ gives t (g_maxf k d arch t a b) (greater_of (ff t) a b).
Proof. intros N Ha Hb. split; [apply g_minf_ok|apply g_maxf_ok]; assumption. Qed.
(** with half-precision instructions min and max are the first argument *)
Theorem C122_first k a b : g_minf k Cuda true F16 a b = Some a /\ g_maxf k Cuda true F16 a b = Some a.
Proof. split; reflexivity. Qed.
Theorem C122_min_refuted : ~ (forall k d arch a b, 0 <= a < 2 ^ 16 -> 0 <= b < 2 ^ 16 -> gives F16 (g_minf k d arch F16 a b) (smaller_of binary16 a b)).
Proof.
  intros K. destruct (K true Cuda true 0x4000 0x3C00 ltac:(lia) ltac:(lia)) as (r & E & _ & _ & _ & S). vm_compute in E. injection E as <-.
  specialize (S ltac:(vm_compute; discriminate)). destruct S as [S|S]; vm_compute in S; discriminate.
Qed.
Example C122_ex : g_minf true Cuda true F32 0x7FC00000 0x3F800000 = Some 0x3F800000 /\ g_minf true Oneapi true F16 0x4000 0x3C00 = Some 0x3C00 /\ g_maxf false Rocm true F16 0x3C00 0x7E00 = Some 0x3C00 /\ g_minf true Cuda true F16 0x4000 0x3C00 = Some 0x4000 /\
  g_ltf Cuda true F16 0xBC00 0x3C00 = Some 1 /\ g_gef Oneapi false F64 0x7FF8000000000000 0 = Some 0 /\ g_eqf Rocm false F32 0 0x80000000 = Some 1 /\ g_minf true Cuda true F32 0 0x80000000 = Some 0 /\ g_minf false Cuda true F32 0 0x80000000 = Some 0x80000000.
Proof. vm_compute. repeat split. Qed.
Print Assumptions C122_compare. Print Assumptions C122_ne_refuted. Print Assumptions C122_min_max. Print Assumptions C122_first. Print Assumptions C122_min_refuted.

(** ** C123: a kernel computes what the scalar operators compute *)
Theorem C123_int d t a b s :
  g_add d t a b = s_add t a b /\ g_sub d t a b = s_sub t a b /\ g_mul d t a b = s_mul t a b /\ g_div d t a b = s_div t a b /\ g_neg d t a = s_neg t a /\
  g_min d t a b = s_min a b /\ g_max d t a b = s_max a b /\ g_shl d t a s = s_shl t a s /\ g_shr d t a s = s_shr t a s /\ g_shra d t a s = s_shra t a s.
Proof. destruct d; repeat split. Qed.
Theorem C123_int_saturated d t a b : In t int_types -> in_ty t a -> in_ty t b -> g_adds d t a b = s_adds t a b /\ (d <> Oneapi \/ is_signed t = false \/ b <> ty_min t -> g_subs d t a b = s_subs t a b) /\
  (is_signed t = false \/ a <> ty_min t -> g_abs d t a = s_abs t a).
Proof.
  intros H Ha Hb. split; [rewrite g_adds_ok, s_adds_ok by assumption; reflexivity|]. split.
  - intros [D|C]; [apply g_subs_is; exact D|]. rewrite (C117_subs d t a b H Ha Hb ltac:(tauto)). symmetry. apply s_subs_ok; try assumption. intros S. destruct C; congruence.
  - intros C. rewrite g_abs_ok, s_abs_ok by tauto. reflexivity.
Qed.
Theorem C123_float o d arch t a b : 0 <= a < 2 ^ fw t -> 0 <= b < 2 ^ fw t ->
  same_results t (g_arith o d arch t a b) (sf_arith o t a b) /\ same_results t (g_recf d arch t a) (sf_rec t a) /\
  forall c99, same_results t (g_sqrtf d arch t a) (sf_sqrt c99 t a).
Proof.
  intros Ha Hb. pose proof (ff_good' t) as G. split; [|split].
  - destruct (g_arith_ok o d arch t a b Ha Hb) as (r & E & R & K). assert (S : gives t (sf_arith o t a b) (result_is o (ff t) (decode (ff t) a) (decode (ff t) b))) by (destruct o; [apply sf_add_is|apply sf_sub_is|apply sf_mul_is|apply sf_div_is]; assumption).
    destruct S as (r' & E' & R' & K'). exists r, r'. repeat (split; [assumption|]). rewrite <- ff_w in R, R', Hb. destruct o; cbn [result_is] in *.
    + eapply sum_unique; eassumption.
    + eapply sum_unique; eassumption.
    + eapply product_unique; eassumption.
    + eapply (quotient_unique (ff t) r r' G R R'); [|exact K|exact K']. intros s m D. exact (FloatArithProofs2.dec_nonneg (ff t) b s m G Hb D).
  - destruct (g_rec_ok d arch t a Ha) as (r & E & R & K). destruct (sf_rec_is t a Ha) as (r' & E' & R' & K'). exists r, r'. repeat (split; [assumption|]). rewrite <- ff_w in R, R', Ha.
    eapply (quotient_unique (ff t) r r' G R R'); [|exact K|exact K']. intros s m D. exact (FloatArithProofs2.dec_nonneg (ff t) a s m G Ha D).
  - intros c99. destruct (g_sqrt_ok d arch t a Ha) as (r & E & R & K). destruct (sf_sqrt_is c99 t a Ha) as (r' & E' & R' & K'). exists r, r'. repeat (split; [assumption|]). rewrite <- ff_w in R, R'.
    eapply root_unique; eassumption.
Qed.
(** not the absolute value of -0, nor the minimum when one argument is a NaN *)
Theorem C123_abs_refuted : exists d arch t a, 0 <= a < 2 ^ fw t /\ g_absf d arch t a = Some 0 /\ sf_abs t a = Some 0x80000000.
Proof. exists Cuda, true, F32, 0x80000000. repeat split; try discriminate. Qed.
Theorem C123_min_refuted : exists d arch t a b, 0 <= a < 2 ^ fw t /\ 0 <= b < 2 ^ fw t /\ (forall k, g_minf k d arch t a b = Some a) /\ decode (ff t) a <> FNaN /\ sf_min t a b = Some b /\ decode (ff t) b = FNaN.
Proof. exists Cuda, true, F32, 0x3F800000, 0x7FC00000. repeat split; try discriminate. Qed.
Example C123_ex : g_divf Cuda true F16 0x3C00 0x4200 = sf_div F16 0x3C00 0x4200 /\ g_sqrtf Oneapi true F32 0x40000000 = sf_sqrt false F32 0x40000000.
Proof. vm_compute. split; reflexivity. Qed.
Print Assumptions C123_int. Print Assumptions C123_int_saturated. Print Assumptions C123_float. Print Assumptions C123_abs_refuted. Print Assumptions C123_min_refuted.
