(** Model of the lane permutations of the x86 extensions: reverse, ziplo,
    ziphi, zip, unziplo, unziphi and unzip (egg/platform_x86.py:2487-2676 and
    3311-3608), as programs of [X86Shuffle].

    A vector of f16 is kept by NSIMD as two vectors of f32, v0 and v1; the
    conversions are done when it is loaded and stored, so that here an f16
    vector is two registers of 4-byte lanes.  The parameters are called a0 and
    a1 (a0.v0, a0.v1, ... for f16), the result ret (ret.v0, ret.v1).

    A call to the version of another extension is expanded in place.  The
    local arrays of the loop fallback are the memory of the program.  Casts,
    and the differences between the integer, float and double versions of an
    intrinsic, do not change bits and are dropped.  C typing is not modelled:
    for instance the AVX-512 reverse of 8-bit integers passes __m512i to
    _mm512_insertf64x4, which only compiles with lax vector conversions. *)

From Coq Require Import ZArith String List Bool Arith.
From Verif Require Import X86Shuffle X86Deg234.
Import ListNotations.
Local Open Scope string_scope.
Local Open Scope list_scope.

(** Element types of the API: those of [etyp] and f16. *)
Inductive vtyp : Type := El (t : etyp) | F16.

(** A function with registers as parameters and results and with local
    arrays [m]. *)
Definition call_stack {B : Type} (zero : B) (bor : B -> B -> option B)
  (p : program) (ins outs : list string) (rs : list (list B)) (m : list B)
  : option (list (list B)) :=
  match run zero bor p (mkState (combine ins rs) m) with
  | Some s => looks outs (env s)
  | None => None
  end.

(** _MM_SHUFFLE(z, y, x, w), from Intel's xmmintrin.h. *)
Definition mm_shuffle (z y x w : Z) : Z := (z * 64 + y * 16 + x * 4 + w)%Z.

Definition lt (x : string) (o : op) (args : list string) : stmt :=
  I (Let x o args).

(** _mm256_insertf128_si256(a, b, k) and _mm512_insertf64x4(a, b, k). *)
Definition insert0 (x a b : string) : program :=
  [lt "ins" HighHalf [a]; lt x Concat [b; "ins"]].
Definition insert1 (x a b : string) : program :=
  [lt "ins" LowHalf [a]; lt x Concat ["ins"; b]].

(** _mm_set_epi8(0, 1, ..., n - 1) and _mm_set_epi8(1, 0, 3, 2, ...): the
    arguments are given from the last lane to the first. *)
Definition bytes8 (n : nat) : list Z := rev (map Z.of_nat (seq 0 n)).
Definition bytes16 (n : nat) : list Z :=
  rev (flat_map (fun k => [Z.of_nat (2 * k + 1); Z.of_nat (2 * k)])
                (seq 0 (n / 2))).

(** ** reverse1, platform_x86.py:2487-2676 *)

Definition reverse8 (e : ext) : program :=
  match e with
  | Sse2 =>                                                  (* 2490-2498 *)
      [lt "a0" (ShufHi16 (mm_shuffle 0 1 2 3)) ["a0"];
       lt "a0" (ShufLo16 (mm_shuffle 0 1 2 3)) ["a0"];
       lt "a0" (ShufPd 1) ["a0"; "a0"];
       lt "r0" (SrlBytes 2 1) ["a0"];
       lt "r1" (SllBytes 2 1) ["a0"];
       lt "ret" Or ["r0"; "r1"]]
  | Sse42 =>                                                 (* 2499-2503 *)
      [lt "ret" (ShufEpi8 (bytes8 16)) ["a0"]]
  | Avx =>                                                   (* 2504-2514 *)
      [lt "t0" LowHalf ["a0"]; lt "r0" (ShufEpi8 (bytes8 16)) ["t0"];
       lt "t1" HighHalf ["a0"]; lt "r1" (ShufEpi8 (bytes8 16)) ["t1"]] ++
      insert1 "a0" "a0" "r0" ++ insert0 "ret" "a0" "r1"
  | Avx2 =>                                                  (* 2515-2523 *)
      [lt "a0" (ShufEpi8 (bytes8 32)) ["a0"];
       lt "ret" (Permute2x128 1) ["a0"; "a0"]]
  | Avx512Knl | Avx512Skylake =>                             (* 2525-2542 *)
      [lt "r0" LowHalf ["a0"]; lt "r1" HighHalf ["a0"];
       lt "r0" (ShufEpi8 (bytes8 32)) ["r0"];
       lt "r1" (ShufEpi8 (bytes8 32)) ["r1"];
       lt "r0" (Permute2x128 1) ["r0"; "r0"];
       lt "r1" (Permute2x128 1) ["r1"; "r1"]] ++
      insert1 "a0" "a0" "r0" ++ insert0 "ret" "a0" "r1"
  end.

Definition reverse16 (e : ext) : program :=
  match e with
  | Sse2 =>                                                  (* 2545-2551 *)
      [lt "a0" (ShufHi16 (mm_shuffle 0 1 2 3)) ["a0"];
       lt "a0" (ShufLo16 (mm_shuffle 0 1 2 3)) ["a0"];
       lt "ret" (ShufPd 1) ["a0"; "a0"]]
  | Sse42 =>                                                 (* 2552-2556 *)
      [lt "ret" (ShufEpi8 (bytes16 16)) ["a0"]]
  | Avx =>                                                   (* 2557-2567 *)
      [lt "t0" LowHalf ["a0"]; lt "r0" (ShufEpi8 (bytes16 16)) ["t0"];
       lt "t1" HighHalf ["a0"]; lt "r1" (ShufEpi8 (bytes16 16)) ["t1"]] ++
      insert1 "a0" "a0" "r0" ++ insert0 "ret" "a0" "r1"
  | Avx2 =>                                                  (* 2568-2576 *)
      [lt "a0" (ShufEpi8 (bytes16 32)) ["a0"];
       lt "ret" (Permute2x128 1) ["a0"; "a0"]]
  | Avx512Knl =>                                             (* 2578-2585 *)
      [lt "a0" (PermuteXVar 4 (bytes8 16)) ["a0"];
       lt "r0" (SrlBytes 4 2) ["a0"];
       lt "r1" (SllBytes 4 2) ["a0"];
       lt "ret" Or ["r0"; "r1"]]
  | Avx512Skylake =>
      (* 2587-2594: each 32-bit argument (2k << 16) | (2k + 1) holds the two
         16-bit indices 2k + 1 (low) and 2k (high), so that the 16-bit lanes
         are, from the last to the first, 0, 1, 2, ..., 31 *)
      [lt "ret" (PermuteXVar 2 (bytes8 32)) ["a0"]]
  end.

Definition reverse32 (e : ext) : program :=
  match e with
  | Sse2 | Sse42 =>                              (* 2597-2599, 2648-2650 *)
      [lt "ret" (ShufPs (mm_shuffle 0 1 2 3)) ["a0"; "a0"]]
  | Avx | Avx2 =>                                (* 2600-2611, 2651-2655 *)
      [lt "a0" (ShufPs (mm_shuffle 0 1 2 3)) ["a0"; "a0"];
       lt "ret" (Permute2x128 1) ["a0"; "a0"]]
  | Avx512Knl | Avx512Skylake =>                 (* 2612-2617, 2656-2660 *)
      [lt "ret" (PermuteXVar 4 (bytes8 16)) ["a0"]]
  end.

Definition reverse64 (e : ext) : program :=
  match e with
  | Sse2 | Sse42 =>                              (* 2619-2622, 2663-2664 *)
      [lt "ret" (ShufPd 1) ["a0"; "a0"]]
  | Avx =>                                       (* 2623-2632, 2665-2668 *)
      [lt "a0" (ShufPd 5) ["a0"; "a0"];
       lt "ret" (Permute2x128 1) ["a0"; "a0"]]
  | Avx2 =>                                      (* 2633-2635, 2669-2671 *)
      [lt "ret" (Permute4x64 (mm_shuffle 0 1 2 3)) ["a0"]]
  | Avx512Knl | Avx512Skylake =>                             (* 2636-2639 *)
      [lt "ret" (PermuteXVar 8 (bytes8 8)) ["a0"]]
  end.

(** A call of a function of one parameter: the argument [a] is copied into
    a0 and the result into [x]. *)
Definition call1 (p : program) (x a : string) : program :=
  [lt "a0" Mov [a]] ++ p ++ [lt x Mov ["ret"]].

(** [None]: the emitted text does not parse; f64 on AVX-512 emits
    [_mm512_permute_mm512_set_epi64(0, 1, ...), a0)], 2672-2675. *)
Definition reverse_prog (e : ext) (t : vtyp) : option program :=
  match t with
  | El (I8 | U8) => Some (reverse8 e)
  | El (I16 | U16) => Some (reverse16 e)
  | El (I32 | U32 | F32) => Some (reverse32 e)
  | El (I64 | U64) => Some (reverse64 e)
  | El F64 => match e with
              | Avx512Knl | Avx512Skylake => None
              | _ => Some (reverse64 e)
              end
  | F16 =>                                                   (* 2641-2645 *)
      Some (call1 (reverse32 e) "ret.v0" "a0.v0" ++
            call1 (reverse32 e) "ret.v1" "a0.v1")
  end.

(** ** zip_half, platform_x86.py:3314-3407 *)

Definition width (t : etyp) : nat :=
  match t with
  | I8 | U8 => 1
  | I16 | U16 => 2
  | I32 | U32 | F32 => 4
  | I64 | U64 | F64 => 8
  end.

Definition unpack (hi : bool) (w : nat) : op :=
  if hi then UnpackHi w else UnpackLo w.
Definition extract (hi : bool) : op := if hi then HighHalf else LowHalf.

(** avx and avx2, any type but f16, 3355-3367. *)
Definition zip_avx (hi : bool) (w : nat) (x a b : string) : program :=
  [lt "v_tmp0" (extract hi) [a];
   lt "v_tmp1" (extract hi) [b];
   lt "vres_lo" (UnpackLo w) ["v_tmp0"; "v_tmp1"];
   lt "vres_hi" (UnpackHi w) ["v_tmp0"; "v_tmp1"];
   lt x Concat ["vres_lo"; "vres_hi"]].

Definition zip_el (hi : bool) (e : ext) (w : nat) : program :=
  match e with
  | Sse2 | Sse42 => [lt "ret" (unpack hi w) ["a0"; "a1"]]    (* 3323-3324 *)
  | Avx | Avx2 => zip_avx hi w "ret" "a0" "a1"
  | Avx512Knl | Avx512Skylake =>                             (* 3395-3407 *)
      [lt "h.v_tmp0" (extract hi) ["a0"];
       lt "h.v_tmp1" (extract hi) ["a1"]] ++
      zip_avx false w "h.vres_lo" "h.v_tmp0" "h.v_tmp1" ++
      zip_avx true w "h.vres_hi" "h.v_tmp0" "h.v_tmp1" ++
      [lt "ret" Concat ["h.vres_lo"; "h.vres_hi"]]
  end.

Definition vk (x : string) (hi : bool) : string :=
  append x (if hi then ".v1" else ".v0").

Definition zip_f16 (hi : bool) (e : ext) : program :=
  match e with
  | Sse2 | Sse42 =>                                          (* 3317-3322 *)
      [lt "ret.v0" (UnpackLo 4) [vk "a0" hi; vk "a1" hi];
       lt "ret.v1" (UnpackHi 4) [vk "a0" hi; vk "a1" hi]]
  | Avx | Avx2 =>                                            (* 3330-3354 *)
      [lt "v_tmp0" LowHalf [vk "a0" hi];
       lt "v_tmp1" LowHalf [vk "a1" hi];
       lt "v_tmp2" HighHalf [vk "a0" hi];
       lt "v_tmp3" HighHalf [vk "a1" hi];
       lt "vres_lo0" (UnpackLo 4) ["v_tmp0"; "v_tmp1"];
       lt "vres_hi0" (UnpackHi 4) ["v_tmp0"; "v_tmp1"];
       lt "ret.v0" Concat ["vres_lo0"; "vres_hi0"];
       lt "vres_lo1" (UnpackLo 4) ["v_tmp2"; "v_tmp3"];
       lt "vres_hi1" (UnpackHi 4) ["v_tmp2"; "v_tmp3"];
       lt "ret.v1" Concat ["vres_lo1"; "vres_hi1"]]
  | Avx512Knl | Avx512Skylake =>                             (* 3369-3394 *)
      [lt "h.v_tmp0" LowHalf [vk "a0" hi];
       lt "h.v_tmp1" LowHalf [vk "a1" hi]] ++
      zip_avx false 4 "h.vres_lo" "h.v_tmp0" "h.v_tmp1" ++
      zip_avx true 4 "h.vres_hi" "h.v_tmp0" "h.v_tmp1" ++
      [lt "ret.v0" Concat ["h.vres_lo"; "h.vres_hi"];
       lt "h.v_tmp0" HighHalf [vk "a0" hi];
       lt "h.v_tmp1" HighHalf [vk "a1" hi]] ++
      zip_avx false 4 "h.vres_lo" "h.v_tmp0" "h.v_tmp1" ++
      zip_avx true 4 "h.vres_hi" "h.v_tmp0" "h.v_tmp1" ++
      [lt "ret.v1" Concat ["h.vres_lo"; "h.vres_hi"]]
  end.

Definition zip_prog (hi : bool) (e : ext) (t : vtyp) : program :=
  match t with
  | El t => zip_el hi e (width t)
  | F16 => zip_f16 hi e
  end.

(** ** unzip_half, platform_x86.py:3419-3602 *)

(** The loop fallback, 3420-3431: tab is at 0 and res after it; [r] bytes per
    register. *)
Definition unzip_loop (hi : bool) (r w : nat) (x a b : string) : program :=
  [I (Store 0 a); I (Store r b)] ++
  flat_map (fun i =>
    [I (Load "tab_i" ((2 * i + (if hi then 1 else 0)) * w) w);
     I (Store (2 * r + i * w) "tab_i")]) (seq 0 (r / w)) ++
  [I (Load x (2 * r) r)].

(** The masks _MM_SHUFFLE(2, 0, 2, 0) and _MM_SHUFFLE(3, 1, 3, 1). *)
Definition even_odd (hi : bool) : Z :=
  if hi then mm_shuffle 3 1 3 1 else mm_shuffle 2 0 2 0.

(** sse2 and sse42, 16-bit integers, 3468-3482. *)
Definition unzip16_sse (hi : bool) (x a b : string) : program :=
  [lt "s.v_tmp0" (ShufLo16 (mm_shuffle 3 1 2 0)) [a];
   lt "s.v_tmp0" (ShufHi16 (mm_shuffle 3 1 2 0)) ["s.v_tmp0"];
   lt "s.v_tmp1" (ShufLo16 (mm_shuffle 3 1 2 0)) [b];
   lt "s.v_tmp1" (ShufHi16 (mm_shuffle 3 1 2 0)) ["s.v_tmp1"];
   lt x (ShufPs (even_odd hi)) ["s.v_tmp0"; "s.v_tmp1"]].

(** ret_template of avx and avx2, 3486-3492; [shuf] is the shuffle_{ps,pd}
    with its mask. *)
Definition unzip_template (shuf : op) (x a b : string) : program :=
  [lt "v_tmp0" (Permute2x128 1) [a; a];
   lt "v_tmp0" shuf [a; "v_tmp0"];
   lt "v_tmp1" (Permute2x128 1) [b; b];
   lt "v_tmp1" shuf [b; "v_tmp1"];
   lt x (Permute2x128 32) ["v_tmp0"; "v_tmp1"]].

(** One 256-bit unzip, 3485-3557. *)
Definition unzip_avx (hi : bool) (w : nat) (x a b : string) : program :=
  match w with
  | 8 => unzip_template (ShufPd (if hi then 3 else 0)) x a b (* 3525-3540 *)
  | 4 => unzip_template (ShufPs (even_odd hi)) x a b         (* 3493-3508 *)
  | 2 =>                                                     (* 3541-3555 *)
      [lt "v_tmp0_hi" HighHalf [a]; lt "v_tmp0_lo" LowHalf [a];
       lt "v_tmp1_hi" HighHalf [b]; lt "v_tmp1_lo" LowHalf [b]] ++
      unzip16_sse hi "v_tmp0_lo" "v_tmp0_lo" "v_tmp0_hi" ++
      unzip16_sse hi "v_tmp1_lo" "v_tmp1_lo" "v_tmp1_hi" ++
      [lt x Concat ["v_tmp0_lo"; "v_tmp1_lo"]]
  | _ => unzip_loop hi 32 w x a b                            (* 3556-3557 *)
  end.

Definition unzip_el (hi : bool) (e : ext) (w : nat) : program :=
  match e with
  | Sse2 | Sse42 =>
      match w with
      | 8 =>                                                 (* 3456-3467 *)
          [lt "ret" (ShufPd (if hi then 3 else 0)) ["a0"; "a1"]]
      | 4 => [lt "ret" (ShufPs (even_odd hi)) ["a0"; "a1"]]  (* 3434-3446 *)
      | 2 => unzip16_sse hi "ret" "a0" "a1"
      | _ => unzip_loop hi 16 w "ret" "a0" "a1"              (* 3483-3484 *)
      end
  | Avx | Avx2 => unzip_avx hi w "ret" "a0" "a1"
  | Avx512Knl | Avx512Skylake =>                             (* 3588-3602 *)
      [lt "v00" LowHalf ["a0"]; lt "v01" HighHalf ["a0"];
       lt "v10" LowHalf ["a1"]; lt "v11" HighHalf ["a1"]] ++
      unzip_avx hi w "v00" "v00" "v01" ++
      unzip_avx hi w "v01" "v10" "v11" ++
      [lt "ret" Concat ["v00"; "v01"]]
  end.

Definition unzip_f16 (hi : bool) (e : ext) : program :=
  match e with
  | Sse2 | Sse42 =>                                          (* 3447-3455 *)
      [lt "ret.v0" (ShufPs (even_odd hi)) ["a0.v0"; "a0.v1"];
       lt "ret.v1" (ShufPs (even_odd hi)) ["a1.v0"; "a1.v1"]]
  | Avx | Avx2 =>                                            (* 3509-3524 *)
      unzip_template (ShufPs (even_odd hi)) "ret.v0" "a0.v0" "a0.v1" ++
      unzip_template (ShufPs (even_odd hi)) "ret.v1" "a1.v0" "a1.v1"
  | Avx512Knl | Avx512Skylake =>                             (* 3559-3587 *)
      flat_map (fun v =>
        match v with (r, x0, x1) =>
        [lt "h.v_tmp0" LowHalf [x0]; lt "h.v_tmp1" HighHalf [x0]] ++
        unzip_avx hi 4 "v_res_lo" "h.v_tmp0" "h.v_tmp1" ++
        [lt "h.v_tmp0" LowHalf [x1]; lt "h.v_tmp1" HighHalf [x1]] ++
        unzip_avx hi 4 "v_res_hi" "h.v_tmp0" "h.v_tmp1" ++
        [lt r Concat ["v_res_lo"; "v_res_hi"]]
        end)
      [("ret.v0", "a0.v0", "a0.v1"); ("ret.v1", "a1.v0", "a1.v1")]
  end.

Definition unzip_prog (hi : bool) (e : ext) (t : vtyp) : program :=
  match t with
  | El t => unzip_el hi e (width t)
  | F16 => unzip_f16 hi e
  end.

(** ** The functions *)

Definition regs (x : string) (t : vtyp) : list string :=
  match t with El _ => [x] | F16 => [append x ".v0"; append x ".v1"] end.

(** Vectors are lists of registers: one, or two for f16; [m] is the content
    of the local arrays before they are written. *)
Definition reverse_x86 (e : ext) (t : vtyp) (a : list (list Z))
  : option (list (list Z)) :=
  match reverse_prog e t with
  | Some p => call_stack 0%Z zbor p (regs "a0" t) (regs "ret" t) a []
  | None => None
  end.
(** ziplo ([hi] = false) and ziphi. *)
Definition zip_half_x86 (hi : bool) (e : ext) (t : vtyp)
  (a b : list (list Z)) : option (list (list Z)) :=
  call_stack 0%Z zbor (zip_prog hi e t) (regs "a0" t ++ regs "a1" t)
    (regs "ret" t) (a ++ b) [].
(** unziplo ([hi] = false) and unziphi. *)
Definition unzip_half_x86 (hi : bool) (e : ext) (t : vtyp)
  (a b : list (list Z)) (m : list Z) : option (list (list Z)) :=
  call_stack 0%Z zbor (unzip_prog hi e t) (regs "a0" t ++ regs "a1" t)
    (regs "ret" t) (a ++ b) m.

(** zip, 3410-3415, and unzip, 3603-3608: ret.v0 and ret.v1. *)
Definition zip_x86 (e : ext) (t : vtyp) (a b : list (list Z))
  : option (list (list Z) * list (list Z)) :=
  match zip_half_x86 false e t a b, zip_half_x86 true e t a b with
  | Some lo, Some hi => Some (lo, hi)
  | _, _ => None
  end.
Definition unzip_x86 (e : ext) (t : vtyp) (a b : list (list Z)) (m : list Z)
  : option (list (list Z) * list (list Z)) :=
  match unzip_half_x86 false e t a b m, unzip_half_x86 true e t a b m with
  | Some lo, Some hi => Some (lo, hi)
  | _, _ => None
  end.
