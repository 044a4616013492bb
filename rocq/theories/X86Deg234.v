(** The structure loads and stores of the x86 extensions, as emitted by
    egg/x86_load_store_deg234.py (dispatched by load_deg234 and store_deg234,
    egg/platform_x86.py:916-992).

    Generated by tools/gen_deg234.py, which translates the C templates
    statement by statement: variables keep their C names, a nested call gets a
    temporary (t1, t2, ...), a call to the f32 or f64 version of the same
    function is expanded in place with its variables prefixed by "f.", and
    vectors of constants become immediates.  Identical programs are emitted
    once.  The aligned and unaligned versions only differ by the alignment
    they require and translate to the same program. *)

From Coq Require Import ZArith List String.
From Verif Require Import X86Shuffle.
Import ListNotations.
Local Open Scope string_scope.

(** load2 for sse2 i8, sse2 u8.
    load2_sse x86_load_store_deg234.py:69-80 *)
Definition load2_sse2_i8 : program :=
  [I (Load "v0" 0 16);
   I (Load "v1" 16 16);
   I (Let "A1" (UnpackLo 1) ["v0"; "v1"]);
   I (Let "B2" (UnpackHi 1) ["v0"; "v1"]);
   I (Let "A3" (UnpackLo 1) ["A1"; "B2"]);
   I (Let "B4" (UnpackHi 1) ["A1"; "B2"]);
   I (Let "A5" (UnpackLo 1) ["A3"; "B4"]);
   I (Let "B6" (UnpackHi 1) ["A3"; "B4"]);
   I (Let "ret.v0" (UnpackLo 1) ["A5"; "B6"]);
   I (Let "ret.v1" (UnpackHi 1) ["A5"; "B6"])].

(** load2 for sse2 i16, sse2 u16.
    load2_sse x86_load_store_deg234.py:96-105 *)
Definition load2_sse2_i16 : program :=
  [I (Load "v0" 0 16);
   I (Load "v1" 16 16);
   I (Let "v2" (UnpackLo 2) ["v0"; "v1"]);
   I (Let "v3" (UnpackHi 2) ["v0"; "v1"]);
   I (Let "v5" (UnpackLo 2) ["v2"; "v3"]);
   I (Let "v6" (UnpackHi 2) ["v2"; "v3"]);
   I (Let "ret.v0" (UnpackLo 2) ["v5"; "v6"]);
   I (Let "ret.v1" (UnpackHi 2) ["v5"; "v6"])].

(** load2 for sse2 i32, sse2 u32, sse2 f32, sse42 i32, sse42 u32, sse42 f32.
    load2_sse x86_load_store_deg234.py:107-113 *)
Definition load2_sse2_i32 : program :=
  [I (Load "v0" 0 16);
   I (Load "v1" 16 16);
   I (Let "A0" (UnpackLo 4) ["v0"; "v1"]);
   I (Let "B0" (UnpackHi 4) ["v0"; "v1"]);
   I (Let "ret.v0" (UnpackLo 4) ["A0"; "B0"]);
   I (Let "ret.v1" (UnpackHi 4) ["A0"; "B0"])].

(** load2 for sse2 i64, sse2 u64, sse2 f64, sse42 i64, sse42 u64, sse42 f64.
    load2_sse x86_load_store_deg234.py:115-119 *)
Definition load2_sse2_i64 : program :=
  [I (Load "v0" 0 16);
   I (Load "v1" 16 16);
   I (Let "ret.v0" (UnpackLo 8) ["v0"; "v1"]);
   I (Let "ret.v1" (UnpackHi 8) ["v0"; "v1"])].

(** load2 for sse42 i8, sse42 u8.
    load2_sse x86_load_store_deg234.py:56-67 *)
Definition load2_sse42_i8 : program :=
  [I (Load "v0" 0 16);
   I (Load "v1" 16 16);
   I (Let "A0" (ShufEpi8 [0; 2; 4; 6; 8; 10; 12; 14; 1; 3; 5; 7; 9; 11; 13;
        15]%Z) ["v0"]);
   I (Let "B0" (ShufEpi8 [0; 2; 4; 6; 8; 10; 12; 14; 1; 3; 5; 7; 9; 11; 13;
        15]%Z) ["v1"]);
   I (Let "t1" (ShufPd 0) ["A0"; "B0"]);
   I (Let "ret.v0" Mov ["t1"]);
   I (Let "t2" (ShufPd 3) ["A0"; "B0"]);
   I (Let "ret.v1" Mov ["t2"])].

(** load2 for sse42 i16, sse42 u16.
    load2_sse x86_load_store_deg234.py:83-94 *)
Definition load2_sse42_i16 : program :=
  [I (Load "v0" 0 16);
   I (Load "v1" 16 16);
   I (Let "A0" (ShufEpi8 [0; 1; 4; 5; 8; 9; 12; 13; 2; 3; 6; 7; 10; 11; 14;
        15]%Z) ["v0"]);
   I (Let "B0" (ShufEpi8 [0; 1; 4; 5; 8; 9; 12; 13; 2; 3; 6; 7; 10; 11; 14;
        15]%Z) ["v1"]);
   I (Let "t1" (ShufPd 0) ["A0"; "B0"]);
   I (Let "ret.v0" Mov ["t1"]);
   I (Let "t2" (ShufPd 3) ["A0"; "B0"]);
   I (Let "ret.v1" Mov ["t2"])].

(** load2 for avx i8, avx u8.
    load2_avx x86_load_store_deg234.py:152-182 *)
Definition load2_avx_i8 : program :=
  [I (Load "v0" 0 32);
   I (Load "v1" 32 32);
   I (Let "v0a" LowHalf ["v0"]);
   I (Let "v0b" HighHalf ["v0"]);
   I (Let "v1a" LowHalf ["v1"]);
   I (Let "v1b" HighHalf ["v1"]);
   I (Let "A0a" (ShufEpi8 [0; 2; 4; 6; 8; 10; 12; 14; 1; 3; 5; 7; 9; 11; 13;
        15]%Z) ["v0a"]);
   I (Let "B0a" (ShufEpi8 [0; 2; 4; 6; 8; 10; 12; 14; 1; 3; 5; 7; 9; 11; 13;
        15]%Z) ["v1a"]);
   I (Let "t1" (ShufPd 0) ["A0a"; "B0a"]);
   I (Let "A1a" Mov ["t1"]);
   I (Let "t2" (ShufPd 3) ["A0a"; "B0a"]);
   I (Let "B1a" Mov ["t2"]);
   I (Let "A0b" (ShufEpi8 [0; 2; 4; 6; 8; 10; 12; 14; 1; 3; 5; 7; 9; 11; 13;
        15]%Z) ["v0b"]);
   I (Let "B0b" (ShufEpi8 [0; 2; 4; 6; 8; 10; 12; 14; 1; 3; 5; 7; 9; 11; 13;
        15]%Z) ["v1b"]);
   I (Let "t3" (ShufPd 0) ["A0b"; "B0b"]);
   I (Let "A1b" Mov ["t3"]);
   I (Let "t4" (ShufPd 3) ["A0b"; "B0b"]);
   I (Let "B1b" Mov ["t4"]);
   I (Let "ret.v0" Concat ["A1a"; "A1b"]);
   I (Let "ret.v1" Concat ["B1a"; "B1b"])].

(** load2 for avx i16, avx u16.
    load2_avx x86_load_store_deg234.py:197-226 *)
Definition load2_avx_i16 : program :=
  [I (Load "v0" 0 32);
   I (Load "v1" 32 32);
   I (Let "Aa" LowHalf ["v0"]);
   I (Let "Ba" HighHalf ["v0"]);
   I (Let "Ab" LowHalf ["v1"]);
   I (Let "Bb" HighHalf ["v1"]);
   I (Let "XY0" (ShufEpi8 [0; 1; 4; 5; 8; 9; 12; 13; 2; 3; 6; 7; 10; 11; 14;
        15]%Z) ["Aa"]);
   I (Let "XY1" (ShufEpi8 [0; 1; 4; 5; 8; 9; 12; 13; 2; 3; 6; 7; 10; 11; 14;
        15]%Z) ["Ba"]);
   I (Let "t1" (ShufPd 0) ["XY0"; "XY1"]);
   I (Let "Xa" Mov ["t1"]);
   I (Let "t2" (ShufPd 3) ["XY0"; "XY1"]);
   I (Let "Ya" Mov ["t2"]);
   I (Let "XY0" (ShufEpi8 [0; 1; 4; 5; 8; 9; 12; 13; 2; 3; 6; 7; 10; 11; 14;
        15]%Z) ["Ab"]);
   I (Let "XY1" (ShufEpi8 [0; 1; 4; 5; 8; 9; 12; 13; 2; 3; 6; 7; 10; 11; 14;
        15]%Z) ["Bb"]);
   I (Let "t3" (ShufPd 0) ["XY0"; "XY1"]);
   I (Let "Xb" Mov ["t3"]);
   I (Let "t4" (ShufPd 3) ["XY0"; "XY1"]);
   I (Let "Yb" Mov ["t4"]);
   I (Let "ret.v0" Concat ["Xa"; "Xb"]);
   I (Let "ret.v1" Concat ["Ya"; "Yb"])].

(** load2 for avx i32, avx u32.
    load2_avx x86_load_store_deg234.py:246-251; load2_avx
        x86_load_store_deg234.py:228-234 *)
Definition load2_avx_i32 : program :=
  [I (Load "f.v0" 0 32);
   I (Load "f.v1" 32 32);
   I (Let "f.A1" (UnpackLo 4) ["f.v0"; "f.v1"]);
   I (Let "f.B1" (UnpackHi 4) ["f.v0"; "f.v1"]);
   I (Let "f.ret.v0" (UnpackLo 4) ["f.A1"; "f.B1"]);
   I (Let "f.ret.v1" (UnpackHi 4) ["f.A1"; "f.B1"]);
   I (Let "retf32.v0" Mov ["f.ret.v0"]);
   I (Let "retf32.v1" Mov ["f.ret.v1"]);
   I (Let "ret.v0" Mov ["retf32.v0"]);
   I (Let "ret.v1" Mov ["retf32.v1"])].

(** load2 for avx i64, avx u64.
    load2_avx x86_load_store_deg234.py:267-272; load2_avx
        x86_load_store_deg234.py:253-257 *)
Definition load2_avx_i64 : program :=
  [I (Load "f.v0" 0 32);
   I (Load "f.v1" 32 32);
   I (Let "f.ret.v0" (UnpackLo 8) ["f.v0"; "f.v1"]);
   I (Let "f.ret.v1" (UnpackHi 8) ["f.v0"; "f.v1"]);
   I (Let "retf64.v0" Mov ["f.ret.v0"]);
   I (Let "retf64.v1" Mov ["f.ret.v1"]);
   I (Let "ret.v0" Mov ["retf64.v0"]);
   I (Let "ret.v1" Mov ["retf64.v1"])].

(** load2 for avx f32, avx2 i32, avx2 u32, avx2 f32.
    load2_avx x86_load_store_deg234.py:228-234; load2_avx
        x86_load_store_deg234.py:237-244 *)
Definition load2_avx_f32 : program :=
  [I (Load "v0" 0 32);
   I (Load "v1" 32 32);
   I (Let "A1" (UnpackLo 4) ["v0"; "v1"]);
   I (Let "B1" (UnpackHi 4) ["v0"; "v1"]);
   I (Let "ret.v0" (UnpackLo 4) ["A1"; "B1"]);
   I (Let "ret.v1" (UnpackHi 4) ["A1"; "B1"])].

(** load2 for avx f64, avx2 i64, avx2 u64, avx2 f64.
    load2_avx x86_load_store_deg234.py:253-257; load2_avx
        x86_load_store_deg234.py:260-265 *)
Definition load2_avx_f64 : program :=
  [I (Load "v0" 0 32);
   I (Load "v1" 32 32);
   I (Let "ret.v0" (UnpackLo 8) ["v0"; "v1"]);
   I (Let "ret.v1" (UnpackHi 8) ["v0"; "v1"])].

(** load2 for avx2 i8, avx2 u8.
    load2_avx x86_load_store_deg234.py:133-150 *)
Definition load2_avx2_i8 : program :=
  [I (Load "v0" 0 32);
   I (Load "v1" 32 32);
   I (Let "A1" (ShufEpi8 [0; 2; 4; 6; 8; 10; 12; 14; 1; 3; 5; 7; 9; 11; 13;
        15; 0; 2; 4; 6; 8; 10; 12; 14; 1; 3; 5; 7; 9; 11; 13; 15]%Z) ["v0"]);
   I (Let "B1" (ShufEpi8 [0; 2; 4; 6; 8; 10; 12; 14; 1; 3; 5; 7; 9; 11; 13;
        15; 0; 2; 4; 6; 8; 10; 12; 14; 1; 3; 5; 7; 9; 11; 13; 15]%Z) ["v1"]);
   I (Let "A2" (Permute4x64 216) ["A1"]);
   I (Let "B2" (Permute4x64 216) ["B1"]);
   I (Let "ret.v0" (Permute2x128 32) ["A2"; "B2"]);
   I (Let "ret.v1" (Permute2x128 49) ["A2"; "B2"])].

(** load2 for avx2 i16, avx2 u16.
    load2_avx x86_load_store_deg234.py:185-195 *)
Definition load2_avx2_i16 : program :=
  [I (Load "v0" 0 32);
   I (Load "v1" 32 32);
   I (Let "A1" (UnpackLo 2) ["v0"; "v1"]);
   I (Let "B1" (UnpackHi 2) ["v0"; "v1"]);
   I (Let "A2" (UnpackLo 2) ["A1"; "B1"]);
   I (Let "B2" (UnpackHi 2) ["A1"; "B1"]);
   I (Let "ret.v0" (UnpackLo 2) ["A2"; "B2"]);
   I (Let "ret.v1" (UnpackHi 2) ["A2"; "B2"])].

(** load2 for avx512_knl i8, avx512_knl u8, avx512_skylake i8, avx512_skylake
        u8.
    load2_avx512 x86_load_store_deg234.py:284-317 *)
Definition load2_avx512_knl_i8 : program :=
  [I (Load "v0" 0 64);
   I (Load "v1" 64 64);
   I (Let "A0" LowHalf ["v0"]);
   I (Let "B0" HighHalf ["v0"]);
   I (Let "C0" LowHalf ["v1"]);
   I (Let "D0" HighHalf ["v1"]);
   I (Let "A1" (ShufEpi8 [0; 2; 4; 6; 8; 10; 12; 14; 1; 3; 5; 7; 9; 11; 13;
        15; 0; 2; 4; 6; 8; 10; 12; 14; 1; 3; 5; 7; 9; 11; 13; 15]%Z) ["A0"]);
   I (Let "B1" (ShufEpi8 [0; 2; 4; 6; 8; 10; 12; 14; 1; 3; 5; 7; 9; 11; 13;
        15; 0; 2; 4; 6; 8; 10; 12; 14; 1; 3; 5; 7; 9; 11; 13; 15]%Z) ["B0"]);
   I (Let "C1" (ShufEpi8 [0; 2; 4; 6; 8; 10; 12; 14; 1; 3; 5; 7; 9; 11; 13;
        15; 0; 2; 4; 6; 8; 10; 12; 14; 1; 3; 5; 7; 9; 11; 13; 15]%Z) ["C0"]);
   I (Let "D1" (ShufEpi8 [0; 2; 4; 6; 8; 10; 12; 14; 1; 3; 5; 7; 9; 11; 13;
        15; 0; 2; 4; 6; 8; 10; 12; 14; 1; 3; 5; 7; 9; 11; 13; 15]%Z) ["D0"]);
   I (Let "A2" (Permute4x64 216) ["A1"]);
   I (Let "B2" (Permute4x64 216) ["B1"]);
   I (Let "C2" (Permute4x64 216) ["C1"]);
   I (Let "D2" (Permute4x64 216) ["D1"]);
   I (Let "A3" (Permute2x128 32) ["A2"; "B2"]);
   I (Let "B3" (Permute2x128 49) ["A2"; "B2"]);
   I (Let "C3" (Permute2x128 32) ["C2"; "D2"]);
   I (Let "D3" (Permute2x128 49) ["C2"; "D2"]);
   I (Let "ret.v0" Concat ["A3"; "C3"]);
   I (Let "ret.v1" Concat ["B3"; "D3"])].

(** load2 for avx512_knl i16, avx512_knl u16, avx512_skylake i16,
        avx512_skylake u16.
    load2_avx512 x86_load_store_deg234.py:319-346 *)
Definition load2_avx512_knl_i16 : program :=
  [I (Load "v0" 0 64);
   I (Load "v1" 64 64);
   I (Let "A0a" LowHalf ["v0"]);
   I (Let "B0a" HighHalf ["v0"]);
   I (Let "A0b" LowHalf ["v1"]);
   I (Let "B0b" HighHalf ["v1"]);
   I (Let "A1" (UnpackLo 2) ["A0a"; "B0a"]);
   I (Let "B1" (UnpackHi 2) ["A0a"; "B0a"]);
   I (Let "A2" (UnpackLo 2) ["A1"; "B1"]);
   I (Let "B2" (UnpackHi 2) ["A1"; "B1"]);
   I (Let "A3a" (UnpackLo 2) ["A2"; "B2"]);
   I (Let "B3a" (UnpackHi 2) ["A2"; "B2"]);
   I (Let "A1" (UnpackLo 2) ["A0b"; "B0b"]);
   I (Let "B1" (UnpackHi 2) ["A0b"; "B0b"]);
   I (Let "A2" (UnpackLo 2) ["A1"; "B1"]);
   I (Let "B2" (UnpackHi 2) ["A1"; "B1"]);
   I (Let "A3b" (UnpackLo 2) ["A2"; "B2"]);
   I (Let "B3b" (UnpackHi 2) ["A2"; "B2"]);
   I (Let "ret.v0" Concat ["A3a"; "A3b"]);
   I (Let "ret.v1" Concat ["B3a"; "B3b"])].

(** load2 for avx512_knl i32, avx512_knl u32, avx512_knl f32, avx512_skylake
        i32, avx512_skylake u32, avx512_skylake f32.
    load2_avx512 x86_load_store_deg234.py:348-357 *)
Definition load2_avx512_knl_i32 : program :=
  [I (Load "v0" 0 64);
   I (Load "v1" 64 64);
   I (Let "ret.v0" (PermuteX2Var 4 [0; 2; 4; 6; 8; 10; 12; 14; 16; 18; 20; 22;
        24; 26; 28; 30]%Z) ["v0"; "v1"]);
   I (Let "ret.v1" (PermuteX2Var 4 [1; 3; 5; 7; 9; 11; 13; 15; 17; 19; 21; 23;
        25; 27; 29; 31]%Z) ["v0"; "v1"])].

(** load2 for avx512_knl i64, avx512_knl u64, avx512_knl f64, avx512_skylake
        i64, avx512_skylake u64, avx512_skylake f64.
    load2_avx512 x86_load_store_deg234.py:359-364 *)
Definition load2_avx512_knl_i64 : program :=
  [I (Load "v0" 0 64);
   I (Load "v1" 64 64);
   I (Let "ret.v0" (UnpackLo 8) ["v0"; "v1"]);
   I (Let "ret.v1" (UnpackHi 8) ["v0"; "v1"])].

(** load3 for sse2 i8, sse2 u8.
    load3_sse x86_load_store_deg234.py:1627-1656 *)
Definition load3_sse2_i8 : program :=
  [I (Load "v0" 0 16);
   I (Load "v1" 16 16);
   I (Load "v2" 32 16);
   I (Let "A0" Mov ["v0"]);
   I (Let "B0" Mov ["v1"]);
   I (Let "C0" Mov ["v2"]);
   Loop 4 [
      Let "B0_pd" Mov ["B0"];
      Let "C0_pd" Mov ["C0"];
      Let "B1_pd" (ShufPd 1) ["B0_pd"; "B0_pd"];
      Let "C2_pd" (ShufPd 1) ["C0_pd"; "C0_pd"];
      Let "B1" Mov ["B1_pd"];
      Let "C2" Mov ["C2_pd"];
      Let "B3" (UnpackHi 1) ["A0"; "C2"];
      Let "A4" (UnpackLo 1) ["A0"; "B1"];
      Let "C5" (UnpackHi 1) ["B1"; "C0"];
      Let "A0" Mov ["A4"];
      Let "B0" Mov ["B3"];
      Let "C0" Mov ["C5"]];
   I (Let "ret.v0" Mov ["A0"]);
   I (Let "ret.v1" Mov ["B0"]);
   I (Let "ret.v2" Mov ["C0"])].

(** load3 for sse2 i16, sse2 u16, sse42 i16, sse42 u16.
    load3_sse x86_load_store_deg234.py:1658-1684 *)
Definition load3_sse2_i16 : program :=
  [I (Load "v0" 0 16);
   I (Load "v1" 16 16);
   I (Load "v2" 32 16);
   Loop 3 [
      Let "B1_pd" Mov ["v1"];
      Let "C1_pd" Mov ["v2"];
      Let "B2_pd" (ShufPd 1) ["B1_pd"; "B1_pd"];
      Let "C3_pd" (ShufPd 1) ["C1_pd"; "C1_pd"];
      Let "B2" Mov ["B2_pd"];
      Let "C3" Mov ["C3_pd"];
      Let "B4" (UnpackHi 2) ["v0"; "C3"];
      Let "A5" (UnpackLo 2) ["v0"; "B2"];
      Let "C7" (UnpackHi 2) ["B2"; "v2"];
      Let "v0" Mov ["A5"];
      Let "v1" Mov ["B4"];
      Let "v2" Mov ["C7"]];
   I (Let "ret.v0" Mov ["v0"]);
   I (Let "ret.v1" Mov ["v1"]);
   I (Let "ret.v2" Mov ["v2"])].

(** load3 for sse2 i32, sse2 u32, sse42 i32, sse42 u32.
    load3_sse x86_load_store_deg234.py:1702-1709; load3_sse
        x86_load_store_deg234.py:1686-1700 *)
Definition load3_sse2_i32 : program :=
  [I (Load "f.v0" 0 16);
   I (Load "f.v1" 16 16);
   I (Load "f.v2" 32 16);
   I (Let "f.A1" (ShufPs 228) ["f.v2"; "f.v1"]);
   I (Let "f.B2" (ShufPs 228) ["f.v0"; "f.v2"]);
   I (Let "f.C3" (ShufPs 228) ["f.v1"; "f.v0"]);
   I (Let "f.ret.v0" (ShufPs 108) ["f.v0"; "f.A1"]);
   I (Let "f.B5" (ShufPs 57) ["f.B2"; "f.v1"]);
   I (Let "f.ret.v2" (ShufPs 198) ["f.C3"; "f.v2"]);
   I (Let "f.ret.v1" (ShufPs 108) ["f.B5"; "f.B5"]);
   I (Let "retf32.v0" Mov ["f.ret.v0"]);
   I (Let "retf32.v1" Mov ["f.ret.v1"]);
   I (Let "retf32.v2" Mov ["f.ret.v2"]);
   I (Let "ret.v0" Mov ["retf32.v0"]);
   I (Let "ret.v1" Mov ["retf32.v1"]);
   I (Let "ret.v2" Mov ["retf32.v2"])].

(** load3 for sse2 i64, sse2 u64, sse42 i64, sse42 u64.
    load3_sse x86_load_store_deg234.py:1719-1726; load3_sse
        x86_load_store_deg234.py:1711-1717 *)
Definition load3_sse2_i64 : program :=
  [I (Load "f.v0" 0 16);
   I (Load "f.v1" 16 16);
   I (Load "f.v2" 32 16);
   I (Let "f.ret.v0" (ShufPd 2) ["f.v0"; "f.v1"]);
   I (Let "f.ret.v1" (ShufPd 1) ["f.v0"; "f.v2"]);
   I (Let "f.ret.v2" (ShufPd 2) ["f.v1"; "f.v2"]);
   I (Let "retf64.v0" Mov ["f.ret.v0"]);
   I (Let "retf64.v1" Mov ["f.ret.v1"]);
   I (Let "retf64.v2" Mov ["f.ret.v2"]);
   I (Let "ret.v0" Mov ["retf64.v0"]);
   I (Let "ret.v1" Mov ["retf64.v1"]);
   I (Let "ret.v2" Mov ["retf64.v2"])].

(** load3 for sse2 f32, sse42 f32.
    load3_sse x86_load_store_deg234.py:1686-1700 *)
Definition load3_sse2_f32 : program :=
  [I (Load "v0" 0 16);
   I (Load "v1" 16 16);
   I (Load "v2" 32 16);
   I (Let "A1" (ShufPs 228) ["v2"; "v1"]);
   I (Let "B2" (ShufPs 228) ["v0"; "v2"]);
   I (Let "C3" (ShufPs 228) ["v1"; "v0"]);
   I (Let "ret.v0" (ShufPs 108) ["v0"; "A1"]);
   I (Let "B5" (ShufPs 57) ["B2"; "v1"]);
   I (Let "ret.v2" (ShufPs 198) ["C3"; "v2"]);
   I (Let "ret.v1" (ShufPs 108) ["B5"; "B5"])].

(** load3 for sse2 f64, sse42 f64.
    load3_sse x86_load_store_deg234.py:1711-1717 *)
Definition load3_sse2_f64 : program :=
  [I (Load "v0" 0 16);
   I (Load "v1" 16 16);
   I (Load "v2" 32 16);
   I (Let "ret.v0" (ShufPd 2) ["v0"; "v1"]);
   I (Let "ret.v1" (ShufPd 1) ["v0"; "v2"]);
   I (Let "ret.v2" (ShufPd 2) ["v1"; "v2"])].

(** load3 for sse42 i8, sse42 u8.
    load3_sse x86_load_store_deg234.py:1585-1625 *)
Definition load3_sse42_i8 : program :=
  [I (Load "v0" 0 16);
   I (Load "v1" 16 16);
   I (Load "v2" 32 16);
   I (Let "A4" (ShufEpi8 [0; 3; 6; 9; 12; 15; (-1); (-1); (-1); (-1); (-1);
        (-1); (-1); (-1); (-1); (-1)]%Z) ["v0"]);
   I (Let "A5" (ShufEpi8 [(-1); (-1); (-1); (-1); (-1); (-1); 2; 5; 8; 11; 14;
        (-1); (-1); (-1); (-1); (-1)]%Z) ["v1"]);
   I (Let "A6" (ShufEpi8 [(-1); (-1); (-1); (-1); (-1); (-1); (-1); (-1);
        (-1); (-1); (-1); 1; 4; 7; 10; 13]%Z) ["v2"]);
   I (Let "A4" Or ["A4"; "A5"]);
   I (Let "ret.v0" Or ["A4"; "A6"]);
   I (Let "B4" (ShufEpi8 [1; 4; 7; 10; 13; (-1); (-1); (-1); (-1); (-1); (-1);
        (-1); (-1); (-1); (-1); (-1)]%Z) ["v0"]);
   I (Let "B5" (ShufEpi8 [(-1); (-1); (-1); (-1); (-1); 0; 3; 6; 9; 12; 15;
        (-1); (-1); (-1); (-1); (-1)]%Z) ["v1"]);
   I (Let "B6" (ShufEpi8 [(-1); (-1); (-1); (-1); (-1); (-1); (-1); (-1);
        (-1); (-1); (-1); 2; 5; 8; 11; 14]%Z) ["v2"]);
   I (Let "B4" Or ["B4"; "B5"]);
   I (Let "ret.v1" Or ["B4"; "B6"]);
   I (Let "C4" (ShufEpi8 [2; 5; 8; 11; 14; (-1); (-1); (-1); (-1); (-1); (-1);
        (-1); (-1); (-1); (-1); (-1)]%Z) ["v0"]);
   I (Let "C5" (ShufEpi8 [(-1); (-1); (-1); (-1); (-1); 1; 4; 7; 10; 13; (-1);
        (-1); (-1); (-1); (-1); (-1)]%Z) ["v1"]);
   I (Let "C6" (ShufEpi8 [(-1); (-1); (-1); (-1); (-1); (-1); (-1); (-1);
        (-1); (-1); 0; 3; 6; 9; 12; 15]%Z) ["v2"]);
   I (Let "C4" Or ["C4"; "C5"]);
   I (Let "ret.v2" Or ["C4"; "C6"])].

(** load3 for avx i8, avx u8.
    load3_avx x86_load_store_deg234.py:2041-2113 *)
Definition load3_avx_i8 : program :=
  [I (Load "v0" 0 32);
   I (Load "v1" 32 32);
   I (Load "v2" 64 32);
   I (Let "Aa" LowHalf ["v0"]);
   I (Let "Ba" HighHalf ["v0"]);
   I (Let "Ca" LowHalf ["v1"]);
   I (Let "Ab" HighHalf ["v1"]);
   I (Let "Bb" LowHalf ["v2"]);
   I (Let "Cb" HighHalf ["v2"]);
   I (Let "AR" (ShufEpi8 [0; 3; 6; 9; 12; 15; (-1); (-1); (-1); (-1); (-1);
        (-1); (-1); (-1); (-1); (-1)]%Z) ["Aa"]);
   I (Let "BR" (ShufEpi8 [(-1); (-1); (-1); (-1); (-1); (-1); 2; 5; 8; 11; 14;
        (-1); (-1); (-1); (-1); (-1)]%Z) ["Ba"]);
   I (Let "CR" (ShufEpi8 [(-1); (-1); (-1); (-1); (-1); (-1); (-1); (-1);
        (-1); (-1); (-1); 1; 4; 7; 10; 13]%Z) ["Ca"]);
   I (Let "R0" Or ["AR"; "BR"]);
   I (Let "R0" Or ["R0"; "CR"]);
   I (Let "AR" (ShufEpi8 [0; 3; 6; 9; 12; 15; (-1); (-1); (-1); (-1); (-1);
        (-1); (-1); (-1); (-1); (-1)]%Z) ["Ab"]);
   I (Let "BR" (ShufEpi8 [(-1); (-1); (-1); (-1); (-1); (-1); 2; 5; 8; 11; 14;
        (-1); (-1); (-1); (-1); (-1)]%Z) ["Bb"]);
   I (Let "CR" (ShufEpi8 [(-1); (-1); (-1); (-1); (-1); (-1); (-1); (-1);
        (-1); (-1); (-1); 1; 4; 7; 10; 13]%Z) ["Cb"]);
   I (Let "R1" Or ["AR"; "BR"]);
   I (Let "R1" Or ["R1"; "CR"]);
   I (Let "AG" (ShufEpi8 [1; 4; 7; 10; 13; (-1); (-1); (-1); (-1); (-1); (-1);
        (-1); (-1); (-1); (-1); (-1)]%Z) ["Aa"]);
   I (Let "BG" (ShufEpi8 [(-1); (-1); (-1); (-1); (-1); 0; 3; 6; 9; 12; 15;
        (-1); (-1); (-1); (-1); (-1)]%Z) ["Ba"]);
   I (Let "CG" (ShufEpi8 [(-1); (-1); (-1); (-1); (-1); (-1); (-1); (-1);
        (-1); (-1); (-1); 2; 5; 8; 11; 14]%Z) ["Ca"]);
   I (Let "G0" Or ["AG"; "BG"]);
   I (Let "G0" Or ["G0"; "CG"]);
   I (Let "AG" (ShufEpi8 [1; 4; 7; 10; 13; (-1); (-1); (-1); (-1); (-1); (-1);
        (-1); (-1); (-1); (-1); (-1)]%Z) ["Ab"]);
   I (Let "BG" (ShufEpi8 [(-1); (-1); (-1); (-1); (-1); 0; 3; 6; 9; 12; 15;
        (-1); (-1); (-1); (-1); (-1)]%Z) ["Bb"]);
   I (Let "CG" (ShufEpi8 [(-1); (-1); (-1); (-1); (-1); (-1); (-1); (-1);
        (-1); (-1); (-1); 2; 5; 8; 11; 14]%Z) ["Cb"]);
   I (Let "G1" Or ["AG"; "BG"]);
   I (Let "G1" Or ["G1"; "CG"]);
   I (Let "AB" (ShufEpi8 [2; 5; 8; 11; 14; (-1); (-1); (-1); (-1); (-1); (-1);
        (-1); (-1); (-1); (-1); (-1)]%Z) ["Aa"]);
   I (Let "BB" (ShufEpi8 [(-1); (-1); (-1); (-1); (-1); 1; 4; 7; 10; 13; (-1);
        (-1); (-1); (-1); (-1); (-1)]%Z) ["Ba"]);
   I (Let "CB" (ShufEpi8 [(-1); (-1); (-1); (-1); (-1); (-1); (-1); (-1);
        (-1); (-1); 0; 3; 6; 9; 12; 15]%Z) ["Ca"]);
   I (Let "B0" Or ["AB"; "BB"]);
   I (Let "B0" Or ["B0"; "CB"]);
   I (Let "AB" (ShufEpi8 [2; 5; 8; 11; 14; (-1); (-1); (-1); (-1); (-1); (-1);
        (-1); (-1); (-1); (-1); (-1)]%Z) ["Ab"]);
   I (Let "BB" (ShufEpi8 [(-1); (-1); (-1); (-1); (-1); 1; 4; 7; 10; 13; (-1);
        (-1); (-1); (-1); (-1); (-1)]%Z) ["Bb"]);
   I (Let "CB" (ShufEpi8 [(-1); (-1); (-1); (-1); (-1); (-1); (-1); (-1);
        (-1); (-1); 0; 3; 6; 9; 12; 15]%Z) ["Cb"]);
   I (Let "B1" Or ["AB"; "BB"]);
   I (Let "B1" Or ["B1"; "CB"]);
   I (Let "ret.v0" Concat ["R0"; "R1"]);
   I (Let "ret.v1" Concat ["G0"; "G1"]);
   I (Let "ret.v2" Concat ["B0"; "B1"])].

(** load3 for avx i16, avx u16.
    load3_avx x86_load_store_deg234.py:2190-2261 *)
Definition load3_avx_i16 : program :=
  [I (Load "v0" 0 32);
   I (Load "v1" 32 32);
   I (Load "v2" 64 32);
   I (Let "Aa" LowHalf ["v0"]);
   I (Let "Ba" HighHalf ["v0"]);
   I (Let "Ca" LowHalf ["v1"]);
   I (Let "Ab" HighHalf ["v1"]);
   I (Let "Bb" LowHalf ["v2"]);
   I (Let "Cb" HighHalf ["v2"]);
   I (Let "AR" (ShufEpi8 [0; 1; 6; 7; 12; 13; (-1); (-1); (-1); (-1); (-1);
        (-1); (-1); (-1); (-1); (-1)]%Z) ["Aa"]);
   I (Let "BR" (ShufEpi8 [(-1); (-1); (-1); (-1); (-1); (-1); 2; 3; 8; 9; 14;
        15; (-1); (-1); (-1); (-1)]%Z) ["Ba"]);
   I (Let "CR" (ShufEpi8 [(-1); (-1); (-1); (-1); (-1); (-1); (-1); (-1);
        (-1); (-1); (-1); (-1); 4; 5; 10; 11]%Z) ["Ca"]);
   I (Let "R0" Or ["AR"; "BR"]);
   I (Let "R0" Or ["R0"; "CR"]);
   I (Let "AR" (ShufEpi8 [0; 1; 6; 7; 12; 13; (-1); (-1); (-1); (-1); (-1);
        (-1); (-1); (-1); (-1); (-1)]%Z) ["Ab"]);
   I (Let "BR" (ShufEpi8 [(-1); (-1); (-1); (-1); (-1); (-1); 2; 3; 8; 9; 14;
        15; (-1); (-1); (-1); (-1)]%Z) ["Bb"]);
   I (Let "CR" (ShufEpi8 [(-1); (-1); (-1); (-1); (-1); (-1); (-1); (-1);
        (-1); (-1); (-1); (-1); 4; 5; 10; 11]%Z) ["Cb"]);
   I (Let "R1" Or ["AR"; "BR"]);
   I (Let "R1" Or ["R1"; "CR"]);
   I (Let "AG" (ShufEpi8 [2; 3; 8; 9; 14; 15; (-1); (-1); (-1); (-1); (-1);
        (-1); (-1); (-1); (-1); (-1)]%Z) ["Aa"]);
   I (Let "BG" (ShufEpi8 [(-1); (-1); (-1); (-1); (-1); (-1); 4; 5; 10; 11;
        (-1); (-1); (-1); (-1); (-1); (-1)]%Z) ["Ba"]);
   I (Let "CG" (ShufEpi8 [(-1); (-1); (-1); (-1); (-1); (-1); (-1); (-1);
        (-1); (-1); 0; 1; 6; 7; 12; 13]%Z) ["Ca"]);
   I (Let "G0" Or ["AG"; "BG"]);
   I (Let "G0" Or ["G0"; "CG"]);
   I (Let "AG" (ShufEpi8 [2; 3; 8; 9; 14; 15; (-1); (-1); (-1); (-1); (-1);
        (-1); (-1); (-1); (-1); (-1)]%Z) ["Ab"]);
   I (Let "BG" (ShufEpi8 [(-1); (-1); (-1); (-1); (-1); (-1); 4; 5; 10; 11;
        (-1); (-1); (-1); (-1); (-1); (-1)]%Z) ["Bb"]);
   I (Let "CG" (ShufEpi8 [(-1); (-1); (-1); (-1); (-1); (-1); (-1); (-1);
        (-1); (-1); 0; 1; 6; 7; 12; 13]%Z) ["Cb"]);
   I (Let "G1" Or ["AG"; "BG"]);
   I (Let "G1" Or ["G1"; "CG"]);
   I (Let "AB" (ShufEpi8 [4; 5; 10; 11; (-1); (-1); (-1); (-1); (-1); (-1);
        (-1); (-1); (-1); (-1); (-1); (-1)]%Z) ["Aa"]);
   I (Let "BB" (ShufEpi8 [(-1); (-1); (-1); (-1); 0; 1; 6; 7; 12; 13; (-1);
        (-1); (-1); (-1); (-1); (-1)]%Z) ["Ba"]);
   I (Let "CB" (ShufEpi8 [(-1); (-1); (-1); (-1); (-1); (-1); (-1); (-1);
        (-1); (-1); 2; 3; 8; 9; 14; 15]%Z) ["Ca"]);
   I (Let "B0" Or ["AB"; "BB"]);
   I (Let "B0" Or ["B0"; "CB"]);
   I (Let "AB" (ShufEpi8 [4; 5; 10; 11; (-1); (-1); (-1); (-1); (-1); (-1);
        (-1); (-1); (-1); (-1); (-1); (-1)]%Z) ["Ab"]);
   I (Let "BB" (ShufEpi8 [(-1); (-1); (-1); (-1); 0; 1; 6; 7; 12; 13; (-1);
        (-1); (-1); (-1); (-1); (-1)]%Z) ["Bb"]);
   I (Let "CB" (ShufEpi8 [(-1); (-1); (-1); (-1); (-1); (-1); (-1); (-1);
        (-1); (-1); 2; 3; 8; 9; 14; 15]%Z) ["Cb"]);
   I (Let "B1" Or ["AB"; "BB"]);
   I (Let "B1" Or ["B1"; "CB"]);
   I (Let "ret.v0" Concat ["R0"; "R1"]);
   I (Let "ret.v1" Concat ["G0"; "G1"]);
   I (Let "ret.v2" Concat ["B0"; "B1"])].

(** load3 for avx i32, avx u32.
    load3_avx x86_load_store_deg234.py:2353-2359; load3_avx
        x86_load_store_deg234.py:2302-2348 *)
Definition load3_avx_i32 : program :=
  [I (Load "f.v0" 0 32);
   I (Load "f.v1" 32 32);
   I (Load "f.v2" 64 32);
   I (Let "f.RA" (PermuteVarPs [0; 3; (-1); (-1); (-1); (-1); 2; (-1)]%Z)
        ["f.v0"]);
   I (Let "f.RAi" (Permute2x128 33) ["f.RA"; "f.RA"]);
   I (Let "f.RA" (Blend 4 3) ["f.RAi"; "f.RA"]);
   I (Let "f.RB" (PermuteVarPs [(-1); (-1); (-1); 1; 0; 3; (-1); (-1)]%Z)
        ["f.v1"]);
   I (Let "f.RC" (PermuteVarPs [0; 0; 2; 0; 1; 1; 1; 1]%Z) ["f.v2"]);
   I (Let "f.RCi" (Permute2x128 32) ["f.RC"; "f.RC"]);
   I (Let "f.RC" (Blend 4 64) ["f.RC"; "f.RCi"]);
   I (Let "f.R" (Blend 4 56) ["f.RA"; "f.RB"]);
   I (Let "f.ret.v0" (Blend 4 192) ["f.R"; "f.RC"]);
   I (Let "f.GA" (PermuteVarPs [1; (-1); (-1); (-1); (-1); 0; 3; (-1)]%Z)
        ["f.v0"]);
   I (Let "f.GAi" (Permute2x128 33) ["f.GA"; "f.GA"]);
   I (Let "f.GA" (Blend 4 6) ["f.GA"; "f.GAi"]);
   I (Let "f.GB" (PermuteVarPs [(-1); (-1); (-1); 2; 5; (-1); (-1); (-1)]%Z)
        ["f.v1"]);
   I (Let "f.GC" (PermuteVarPs [(-1); 0; 3; (-1); (-1); (-1); (-1); 6]%Z)
        ["f.v2"]);
   I (Let "f.GCi" (Permute2x128 32) ["f.GC"; "f.GC"]);
   I (Let "f.GC" (Blend 4 96) ["f.GC"; "f.GCi"]);
   I (Let "f.G" (Blend 4 24) ["f.GA"; "f.GB"]);
   I (Let "f.ret.v1" (Blend 4 224) ["f.G"; "f.GC"]);
   I (Let "f.BA" (PermuteVarPs [2; (-1); (-1); (-1); (-1); 1; (-1); (-1)]%Z)
        ["f.v0"]);
   I (Let "f.BAi" (Permute2x128 33) ["f.BA"; "f.BA"]);
   I (Let "f.BA" (Blend 4 2) ["f.BA"; "f.BAi"]);
   I (Let "f.BB" (PermuteVarPs [(-1); (-1); 0; 3; 6; (-1); (-1); (-1)]%Z)
        ["f.v1"]);
   I (Let "f.BC" (PermuteVarPs [(-1); 1; (-1); (-1); (-1); (-1); 4; 7]%Z)
        ["f.v2"]);
   I (Let "f.BCi" (Permute2x128 32) ["f.BC"; "f.BC"]);
   I (Let "f.BC" (Blend 4 32) ["f.BC"; "f.BCi"]);
   I (Let "f.B" (Blend 4 28) ["f.BA"; "f.BB"]);
   I (Let "f.ret.v2" (Blend 4 224) ["f.B"; "f.BC"]);
   I (Let "retf32.v0" Mov ["f.ret.v0"]);
   I (Let "retf32.v1" Mov ["f.ret.v1"]);
   I (Let "retf32.v2" Mov ["f.ret.v2"]);
   I (Let "ret.v0" Mov ["retf32.v0"]);
   I (Let "ret.v1" Mov ["retf32.v1"]);
   I (Let "ret.v2" Mov ["retf32.v2"])].

(** load3 for avx i64, avx u64.
    load3_avx x86_load_store_deg234.py:2399-2405; load3_avx
        x86_load_store_deg234.py:2377-2394 *)
Definition load3_avx_i64 : program :=
  [I (Load "f.v0" 0 32);
   I (Load "f.v1" 32 32);
   I (Load "f.v2" 64 32);
   I (Let "f.R1" (Permute2x128 33) ["f.v0"; "f.v2"]);
   I (Let "f.R2" (Permute2x128 48) ["f.v0"; "f.v1"]);
   I (Let "f.ret.v0" (Blend 8 5) ["f.R1"; "f.R2"]);
   I (Let "f.G1" (Permute2x128 48) ["f.v0"; "f.v1"]);
   I (Let "f.G2" (Permute2x128 48) ["f.v1"; "f.v2"]);
   I (Let "f.G" (Blend 8 5) ["f.G1"; "f.G2"]);
   I (Let "f.ret.v1" (PermutePd 5) ["f.G"]);
   I (Let "f.B1" (Permute2x128 33) ["f.v0"; "f.v2"]);
   I (Let "f.B2" (Permute2x128 48) ["f.v1"; "f.v2"]);
   I (Let "f.ret.v2" (Blend 8 10) ["f.B1"; "f.B2"]);
   I (Let "retf64.v0" Mov ["f.ret.v0"]);
   I (Let "retf64.v1" Mov ["f.ret.v1"]);
   I (Let "retf64.v2" Mov ["f.ret.v2"]);
   I (Let "ret.v0" Mov ["retf64.v0"]);
   I (Let "ret.v1" Mov ["retf64.v1"]);
   I (Let "ret.v2" Mov ["retf64.v2"])].

(** load3 for avx f32.
    load3_avx x86_load_store_deg234.py:2302-2348 *)
Definition load3_avx_f32 : program :=
  [I (Load "v0" 0 32);
   I (Load "v1" 32 32);
   I (Load "v2" 64 32);
   I (Let "RA" (PermuteVarPs [0; 3; (-1); (-1); (-1); (-1); 2; (-1)]%Z)
        ["v0"]);
   I (Let "RAi" (Permute2x128 33) ["RA"; "RA"]);
   I (Let "RA" (Blend 4 3) ["RAi"; "RA"]);
   I (Let "RB" (PermuteVarPs [(-1); (-1); (-1); 1; 0; 3; (-1); (-1)]%Z)
        ["v1"]);
   I (Let "RC" (PermuteVarPs [0; 0; 2; 0; 1; 1; 1; 1]%Z) ["v2"]);
   I (Let "RCi" (Permute2x128 32) ["RC"; "RC"]);
   I (Let "RC" (Blend 4 64) ["RC"; "RCi"]);
   I (Let "R" (Blend 4 56) ["RA"; "RB"]);
   I (Let "ret.v0" (Blend 4 192) ["R"; "RC"]);
   I (Let "GA" (PermuteVarPs [1; (-1); (-1); (-1); (-1); 0; 3; (-1)]%Z)
        ["v0"]);
   I (Let "GAi" (Permute2x128 33) ["GA"; "GA"]);
   I (Let "GA" (Blend 4 6) ["GA"; "GAi"]);
   I (Let "GB" (PermuteVarPs [(-1); (-1); (-1); 2; 5; (-1); (-1); (-1)]%Z)
        ["v1"]);
   I (Let "GC" (PermuteVarPs [(-1); 0; 3; (-1); (-1); (-1); (-1); 6]%Z)
        ["v2"]);
   I (Let "GCi" (Permute2x128 32) ["GC"; "GC"]);
   I (Let "GC" (Blend 4 96) ["GC"; "GCi"]);
   I (Let "G" (Blend 4 24) ["GA"; "GB"]);
   I (Let "ret.v1" (Blend 4 224) ["G"; "GC"]);
   I (Let "BA" (PermuteVarPs [2; (-1); (-1); (-1); (-1); 1; (-1); (-1)]%Z)
        ["v0"]);
   I (Let "BAi" (Permute2x128 33) ["BA"; "BA"]);
   I (Let "BA" (Blend 4 2) ["BA"; "BAi"]);
   I (Let "BB" (PermuteVarPs [(-1); (-1); 0; 3; 6; (-1); (-1); (-1)]%Z)
        ["v1"]);
   I (Let "BC" (PermuteVarPs [(-1); 1; (-1); (-1); (-1); (-1); 4; 7]%Z)
        ["v2"]);
   I (Let "BCi" (Permute2x128 32) ["BC"; "BC"]);
   I (Let "BC" (Blend 4 32) ["BC"; "BCi"]);
   I (Let "B" (Blend 4 28) ["BA"; "BB"]);
   I (Let "ret.v2" (Blend 4 224) ["B"; "BC"])].

(** load3 for avx f64.
    load3_avx x86_load_store_deg234.py:2377-2394 *)
Definition load3_avx_f64 : program :=
  [I (Load "v0" 0 32);
   I (Load "v1" 32 32);
   I (Load "v2" 64 32);
   I (Let "R1" (Permute2x128 33) ["v0"; "v2"]);
   I (Let "R2" (Permute2x128 48) ["v0"; "v1"]);
   I (Let "ret.v0" (Blend 8 5) ["R1"; "R2"]);
   I (Let "G1" (Permute2x128 48) ["v0"; "v1"]);
   I (Let "G2" (Permute2x128 48) ["v1"; "v2"]);
   I (Let "G" (Blend 8 5) ["G1"; "G2"]);
   I (Let "ret.v1" (PermutePd 5) ["G"]);
   I (Let "B1" (Permute2x128 33) ["v0"; "v2"]);
   I (Let "B2" (Permute2x128 48) ["v1"; "v2"]);
   I (Let "ret.v2" (Blend 8 10) ["B1"; "B2"])].

(** load3 for avx2 i8, avx2 u8.
    load3_avx x86_load_store_deg234.py:1966-2039 *)
Definition load3_avx2_i8 : program :=
  [I (Load "v0" 0 32);
   I (Load "v1" 32 32);
   I (Load "v2" 64 32);
   I (Let "AR" (ShufEpi8 [0; 3; 6; 9; 12; 15; (-1); (-1); (-1); (-1); (-1);
        (-1); (-1); (-1); (-1); (-1); (-1); (-1); (-1); (-1); (-1); (-1); 2;
        5; 8; 11; 14; (-1); (-1); (-1); (-1); (-1)]%Z) ["v0"]);
   I (Let "BR" (ShufEpi8 [(-1); (-1); (-1); (-1); (-1); (-1); (-1); (-1);
        (-1); (-1); (-1); 1; 4; 7; 10; 13; 0; 3; 6; 9; 12; 15; (-1); (-1);
        (-1); (-1); (-1); (-1); (-1); (-1); (-1); (-1)]%Z) ["v1"]);
   I (Let "CR" (ShufEpi8 [(-1); (-1); (-1); (-1); (-1); (-1); 2; 5; 8; 11; 14;
        (-1); (-1); (-1); (-1); (-1); (-1); (-1); (-1); (-1); (-1); (-1);
        (-1); (-1); (-1); (-1); (-1); 1; 4; 7; 10; 13]%Z) ["v2"]);
   I (Let "DR" (Permute2x128 33) ["AR"; "CR"]);
   I (Let "R0" Or ["AR"; "BR"]);
   I (Let "R1" Or ["BR"; "CR"]);
   I (Let "R2" (Permute2x128 48) ["R0"; "R1"]);
   I (Let "ret.v0" Or ["DR"; "R2"]);
   I (Let "AG" (ShufEpi8 [1; 4; 7; 10; 13; (-1); (-1); (-1); (-1); (-1); (-1);
        (-1); (-1); (-1); (-1); (-1); (-1); (-1); (-1); (-1); (-1); 0; 3; 6;
        9; 12; 15; (-1); (-1); (-1); (-1); (-1)]%Z) ["v0"]);
   I (Let "BG" (ShufEpi8 [(-1); (-1); (-1); (-1); (-1); (-1); (-1); (-1);
        (-1); (-1); (-1); 2; 5; 8; 11; 14; 1; 4; 7; 10; 13; (-1); (-1); (-1);
        (-1); (-1); (-1); (-1); (-1); (-1); (-1); (-1)]%Z) ["v1"]);
   I (Let "CG" (ShufEpi8 [(-1); (-1); (-1); (-1); (-1); 0; 3; 6; 9; 12; 15;
        (-1); (-1); (-1); (-1); (-1); (-1); (-1); (-1); (-1); (-1); (-1);
        (-1); (-1); (-1); (-1); (-1); 2; 5; 8; 11; 14]%Z) ["v2"]);
   I (Let "DG" (Permute2x128 33) ["AG"; "CG"]);
   I (Let "G0" Or ["AG"; "BG"]);
   I (Let "G1" Or ["BG"; "CG"]);
   I (Let "G2" (Permute2x128 48) ["G0"; "G1"]);
   I (Let "ret.v1" Or ["DG"; "G2"]);
   I (Let "AB" (ShufEpi8 [2; 5; 8; 11; 14; (-1); (-1); (-1); (-1); (-1); (-1);
        (-1); (-1); (-1); (-1); (-1); (-1); (-1); (-1); (-1); (-1); 1; 4; 7;
        10; 13; (-1); (-1); (-1); (-1); (-1); (-1)]%Z) ["v0"]);
   I (Let "BB" (ShufEpi8 [(-1); (-1); (-1); (-1); (-1); (-1); (-1); (-1);
        (-1); (-1); 0; 3; 6; 9; 12; 15; 2; 5; 8; 11; 14; (-1); (-1); (-1);
        (-1); (-1); (-1); (-1); (-1); (-1); (-1); (-1)]%Z) ["v1"]);
   I (Let "CB" (ShufEpi8 [(-1); (-1); (-1); (-1); (-1); 1; 4; 7; 10; 13; (-1);
        (-1); (-1); (-1); (-1); (-1); (-1); (-1); (-1); (-1); (-1); (-1);
        (-1); (-1); (-1); (-1); 0; 3; 6; 9; 12; 15]%Z) ["v2"]);
   I (Let "DB" (Permute2x128 33) ["AB"; "CB"]);
   I (Let "B0" Or ["AB"; "BB"]);
   I (Let "B1" Or ["BB"; "CB"]);
   I (Let "B2" (Permute2x128 48) ["B0"; "B1"]);
   I (Let "ret.v2" Or ["DB"; "B2"])].

(** load3 for avx2 i16, avx2 u16.
    load3_avx x86_load_store_deg234.py:2116-2188 *)
Definition load3_avx2_i16 : program :=
  [I (Load "v0" 0 32);
   I (Load "v1" 32 32);
   I (Load "v2" 64 32);
   I (Let "AR" (ShufEpi8 [0; 1; 6; 7; 12; 13; (-1); (-1); (-1); (-1); (-1);
        (-1); (-1); (-1); (-1); (-1); (-1); (-1); (-1); (-1); (-1); (-1); 2;
        3; 8; 9; 14; 15; (-1); (-1); (-1); (-1)]%Z) ["v0"]);
   I (Let "BR" (ShufEpi8 [(-1); (-1); (-1); (-1); (-1); (-1); (-1); (-1);
        (-1); (-1); (-1); (-1); 4; 5; 10; 11; 0; 1; 6; 7; 12; 13; (-1); (-1);
        (-1); (-1); (-1); (-1); (-1); (-1); (-1); (-1)]%Z) ["v1"]);
   I (Let "CR" (ShufEpi8 [(-1); (-1); (-1); (-1); (-1); (-1); 2; 3; 8; 9; 14;
        15; (-1); (-1); (-1); (-1); (-1); (-1); (-1); (-1); (-1); (-1); (-1);
        (-1); (-1); (-1); (-1); (-1); 4; 5; 10; 11]%Z) ["v2"]);
   I (Let "DR" (Permute2x128 33) ["AR"; "CR"]);
   I (Let "R0" Or ["AR"; "BR"]);
   I (Let "R1" Or ["BR"; "CR"]);
   I (Let "R2" (Permute2x128 48) ["R0"; "R1"]);
   I (Let "ret.v0" Or ["DR"; "R2"]);
   I (Let "AG" (ShufEpi8 [2; 3; 8; 9; 14; 15; (-1); (-1); (-1); (-1); (-1);
        (-1); (-1); (-1); (-1); (-1); (-1); (-1); (-1); (-1); (-1); (-1); 4;
        5; 10; 11; (-1); (-1); (-1); (-1); (-1); (-1)]%Z) ["v0"]);
   I (Let "BG" (ShufEpi8 [(-1); (-1); (-1); (-1); (-1); (-1); (-1); (-1);
        (-1); (-1); 0; 1; 6; 7; 12; 13; 2; 3; 8; 9; 14; 15; (-1); (-1); (-1);
        (-1); (-1); (-1); (-1); (-1); (-1); (-1)]%Z) ["v1"]);
   I (Let "CG" (ShufEpi8 [(-1); (-1); (-1); (-1); (-1); (-1); 4; 5; 10; 11;
        (-1); (-1); (-1); (-1); (-1); (-1); (-1); (-1); (-1); (-1); (-1);
        (-1); (-1); (-1); (-1); (-1); 0; 1; 6; 7; 12; 13]%Z) ["v2"]);
   I (Let "DG" (Permute2x128 33) ["AG"; "CG"]);
   I (Let "G0" Or ["AG"; "BG"]);
   I (Let "G1" Or ["BG"; "CG"]);
   I (Let "G2" (Permute2x128 48) ["G0"; "G1"]);
   I (Let "ret.v1" Or ["DG"; "G2"]);
   I (Let "AB" (ShufEpi8 [4; 5; 10; 11; (-1); (-1); (-1); (-1); (-1); (-1);
        (-1); (-1); (-1); (-1); (-1); (-1); (-1); (-1); (-1); (-1); 0; 1; 6;
        7; 12; 13; (-1); (-1); (-1); (-1); (-1); (-1)]%Z) ["v0"]);
   I (Let "BB" (ShufEpi8 [(-1); (-1); (-1); (-1); (-1); (-1); (-1); (-1);
        (-1); (-1); 2; 3; 8; 9; 14; 15; 4; 5; 10; 11; (-1); (-1); (-1); (-1);
        (-1); (-1); (-1); (-1); (-1); (-1); (-1); (-1)]%Z) ["v1"]);
   I (Let "CB" (ShufEpi8 [(-1); (-1); (-1); (-1); 0; 1; 6; 7; 12; 13; (-1);
        (-1); (-1); (-1); (-1); (-1); (-1); (-1); (-1); (-1); (-1); (-1);
        (-1); (-1); (-1); (-1); 2; 3; 8; 9; 14; 15]%Z) ["v2"]);
   I (Let "DB" (Permute2x128 33) ["AB"; "CB"]);
   I (Let "B0" Or ["AB"; "BB"]);
   I (Let "B1" Or ["BB"; "CB"]);
   I (Let "B2" (Permute2x128 48) ["B0"; "B1"]);
   I (Let "ret.v2" Or ["DB"; "B2"])].

(** load3 for avx2 i32, avx2 u32, avx2 f32.
    load3_avx x86_load_store_deg234.py:2351-2351; load3_avx
        x86_load_store_deg234.py:2300-2300 *)
Definition load3_avx2_i32 : program :=
  [I (Load "v0" 0 32);
   I (Load "v1" 32 32);
   I (Load "v2" 64 32);
   I (Let "RA" (PermuteXVar 4 [0; 3; 6; (-1); (-1); (-1); (-1); (-1)]%Z)
        ["v0"]);
   I (Let "RB" (PermuteXVar 4 [(-1); (-1); (-1); 1; 4; 7; (-1); (-1)]%Z)
        ["v1"]);
   I (Let "RC" (PermuteXVar 4 [(-1); (-1); (-1); (-1); (-1); (-1); 2; 5]%Z)
        ["v2"]);
   I (Let "R" (Blend 4 56) ["RA"; "RB"]);
   I (Let "ret.v0" (Blend 4 192) ["R"; "RC"]);
   I (Let "GA" (PermuteXVar 4 [1; 4; 7; (-1); (-1); (-1); (-1); (-1)]%Z)
        ["v0"]);
   I (Let "GB" (PermuteXVar 4 [(-1); (-1); (-1); 2; 5; (-1); (-1); (-1)]%Z)
        ["v1"]);
   I (Let "GC" (PermuteXVar 4 [(-1); (-1); (-1); (-1); (-1); 0; 3; 6]%Z)
        ["v2"]);
   I (Let "G" (Blend 4 24) ["GA"; "GB"]);
   I (Let "ret.v1" (Blend 4 224) ["G"; "GC"]);
   I (Let "BA" (PermuteXVar 4 [2; 5; (-1); (-1); (-1); (-1); (-1); (-1)]%Z)
        ["v0"]);
   I (Let "BB" (PermuteXVar 4 [(-1); (-1); 0; 3; 6; (-1); (-1); (-1)]%Z)
        ["v1"]);
   I (Let "BC" (PermuteXVar 4 [(-1); (-1); (-1); (-1); (-1); 1; 4; 7]%Z)
        ["v2"]);
   I (Let "B" (Blend 4 28) ["BA"; "BB"]);
   I (Let "ret.v2" (Blend 4 224) ["B"; "BC"])].

(** load3 for avx2 i64, avx2 u64, avx2 f64.
    load3_avx x86_load_store_deg234.py:2397-2397; load3_avx
        x86_load_store_deg234.py:2375-2375 *)
Definition load3_avx2_i64 : program :=
  [I (Load "v0" 0 32);
   I (Load "v1" 32 32);
   I (Load "v2" 64 32);
   I (Let "A1" (Permute4x64 156) ["v0"]);
   I (Let "C2" (Permute4x64 201) ["v2"]);
   I (Let "B3" (Permute2x128 33) ["A1"; "v1"]);
   I (Let "B4" (Permute2x128 33) ["v1"; "C2"]);
   I (Let "B5" (Permute4x64 216) ["B3"]);
   I (Let "B6" (Permute4x64 216) ["B4"]);
   I (Let "ret.v0" (Permute2x128 32) ["A1"; "B6"]);
   I (Let "ret.v1" (Permute2x128 48) ["B5"; "B6"]);
   I (Let "ret.v2" (Permute2x128 49) ["B5"; "C2"])].

(** load3 for avx512_knl i8, avx512_knl u8, avx512_skylake i8, avx512_skylake
        u8.
    load3_avx512 x86_load_store_deg234.py:2822-2941 *)
Definition load3_avx512_knl_i8 : program :=
  [I (Load "v0" 0 64);
   I (Load "v1" 64 64);
   I (Load "v2" 128 64);
   I (Let "A0in" LowHalf ["v0"]);
   I (Let "B0in" HighHalf ["v0"]);
   I (Let "C0in" LowHalf ["v1"]);
   I (Let "A1in" HighHalf ["v1"]);
   I (Let "B1in" LowHalf ["v2"]);
   I (Let "C1in" HighHalf ["v2"]);
   I (Let "AR" (ShufEpi8 [0; 3; 6; 9; 12; 15; (-1); (-1); (-1); (-1); (-1);
        (-1); (-1); (-1); (-1); (-1); (-1); (-1); (-1); (-1); (-1); (-1); 2;
        5; 8; 11; 14; (-1); (-1); (-1); (-1); (-1)]%Z) ["A0in"]);
   I (Let "BR" (ShufEpi8 [(-1); (-1); (-1); (-1); (-1); (-1); (-1); (-1);
        (-1); (-1); (-1); 1; 4; 7; 10; 13; 0; 3; 6; 9; 12; 15; (-1); (-1);
        (-1); (-1); (-1); (-1); (-1); (-1); (-1); (-1)]%Z) ["B0in"]);
   I (Let "CR" (ShufEpi8 [(-1); (-1); (-1); (-1); (-1); (-1); 2; 5; 8; 11; 14;
        (-1); (-1); (-1); (-1); (-1); (-1); (-1); (-1); (-1); (-1); (-1);
        (-1); (-1); (-1); (-1); (-1); 1; 4; 7; 10; 13]%Z) ["C0in"]);
   I (Let "DR" (Permute2x128 33) ["AR"; "CR"]);
   I (Let "R0" Or ["AR"; "BR"]);
   I (Let "R1" Or ["BR"; "CR"]);
   I (Let "R2" (Permute2x128 48) ["R0"; "R1"]);
   I (Let "R3" Or ["DR"; "R2"]);
   I (Let "AR" (ShufEpi8 [0; 3; 6; 9; 12; 15; (-1); (-1); (-1); (-1); (-1);
        (-1); (-1); (-1); (-1); (-1); (-1); (-1); (-1); (-1); (-1); (-1); 2;
        5; 8; 11; 14; (-1); (-1); (-1); (-1); (-1)]%Z) ["A1in"]);
   I (Let "BR" (ShufEpi8 [(-1); (-1); (-1); (-1); (-1); (-1); (-1); (-1);
        (-1); (-1); (-1); 1; 4; 7; 10; 13; 0; 3; 6; 9; 12; 15; (-1); (-1);
        (-1); (-1); (-1); (-1); (-1); (-1); (-1); (-1)]%Z) ["B1in"]);
   I (Let "CR" (ShufEpi8 [(-1); (-1); (-1); (-1); (-1); (-1); 2; 5; 8; 11; 14;
        (-1); (-1); (-1); (-1); (-1); (-1); (-1); (-1); (-1); (-1); (-1);
        (-1); (-1); (-1); (-1); (-1); 1; 4; 7; 10; 13]%Z) ["C1in"]);
   I (Let "DR" (Permute2x128 33) ["AR"; "CR"]);
   I (Let "R0" Or ["AR"; "BR"]);
   I (Let "R1" Or ["BR"; "CR"]);
   I (Let "R2" (Permute2x128 48) ["R0"; "R1"]);
   I (Let "R3b" Or ["DR"; "R2"]);
   I (Let "AG" (ShufEpi8 [1; 4; 7; 10; 13; (-1); (-1); (-1); (-1); (-1); (-1);
        (-1); (-1); (-1); (-1); (-1); (-1); (-1); (-1); (-1); (-1); 0; 3; 6;
        9; 12; 15; (-1); (-1); (-1); (-1); (-1)]%Z) ["A0in"]);
   I (Let "BG" (ShufEpi8 [(-1); (-1); (-1); (-1); (-1); (-1); (-1); (-1);
        (-1); (-1); (-1); 2; 5; 8; 11; 14; 1; 4; 7; 10; 13; (-1); (-1); (-1);
        (-1); (-1); (-1); (-1); (-1); (-1); (-1); (-1)]%Z) ["B0in"]);
   I (Let "CG" (ShufEpi8 [(-1); (-1); (-1); (-1); (-1); 0; 3; 6; 9; 12; 15;
        (-1); (-1); (-1); (-1); (-1); (-1); (-1); (-1); (-1); (-1); (-1);
        (-1); (-1); (-1); (-1); (-1); 2; 5; 8; 11; 14]%Z) ["C0in"]);
   I (Let "DG" (Permute2x128 33) ["AG"; "CG"]);
   I (Let "G0" Or ["AG"; "BG"]);
   I (Let "G1" Or ["BG"; "CG"]);
   I (Let "G2" (Permute2x128 48) ["G0"; "G1"]);
   I (Let "G3" Or ["DG"; "G2"]);
   I (Let "AG" (ShufEpi8 [1; 4; 7; 10; 13; (-1); (-1); (-1); (-1); (-1); (-1);
        (-1); (-1); (-1); (-1); (-1); (-1); (-1); (-1); (-1); (-1); 0; 3; 6;
        9; 12; 15; (-1); (-1); (-1); (-1); (-1)]%Z) ["A1in"]);
   I (Let "BG" (ShufEpi8 [(-1); (-1); (-1); (-1); (-1); (-1); (-1); (-1);
        (-1); (-1); (-1); 2; 5; 8; 11; 14; 1; 4; 7; 10; 13; (-1); (-1); (-1);
        (-1); (-1); (-1); (-1); (-1); (-1); (-1); (-1)]%Z) ["B1in"]);
   I (Let "CG" (ShufEpi8 [(-1); (-1); (-1); (-1); (-1); 0; 3; 6; 9; 12; 15;
        (-1); (-1); (-1); (-1); (-1); (-1); (-1); (-1); (-1); (-1); (-1);
        (-1); (-1); (-1); (-1); (-1); 2; 5; 8; 11; 14]%Z) ["C1in"]);
   I (Let "DG" (Permute2x128 33) ["AG"; "CG"]);
   I (Let "G0" Or ["AG"; "BG"]);
   I (Let "G1" Or ["BG"; "CG"]);
   I (Let "G2" (Permute2x128 48) ["G0"; "G1"]);
   I (Let "G3b" Or ["DG"; "G2"]);
   I (Let "AB" (ShufEpi8 [2; 5; 8; 11; 14; (-1); (-1); (-1); (-1); (-1); (-1);
        (-1); (-1); (-1); (-1); (-1); (-1); (-1); (-1); (-1); (-1); 1; 4; 7;
        10; 13; (-1); (-1); (-1); (-1); (-1); (-1)]%Z) ["A0in"]);
   I (Let "BB" (ShufEpi8 [(-1); (-1); (-1); (-1); (-1); (-1); (-1); (-1);
        (-1); (-1); 0; 3; 6; 9; 12; 15; 2; 5; 8; 11; 14; (-1); (-1); (-1);
        (-1); (-1); (-1); (-1); (-1); (-1); (-1); (-1)]%Z) ["B0in"]);
   I (Let "CB" (ShufEpi8 [(-1); (-1); (-1); (-1); (-1); 1; 4; 7; 10; 13; (-1);
        (-1); (-1); (-1); (-1); (-1); (-1); (-1); (-1); (-1); (-1); (-1);
        (-1); (-1); (-1); (-1); 0; 3; 6; 9; 12; 15]%Z) ["C0in"]);
   I (Let "DB" (Permute2x128 33) ["AB"; "CB"]);
   I (Let "B0" Or ["AB"; "BB"]);
   I (Let "B1" Or ["BB"; "CB"]);
   I (Let "B2" (Permute2x128 48) ["B0"; "B1"]);
   I (Let "B3" Or ["DB"; "B2"]);
   I (Let "AB" (ShufEpi8 [2; 5; 8; 11; 14; (-1); (-1); (-1); (-1); (-1); (-1);
        (-1); (-1); (-1); (-1); (-1); (-1); (-1); (-1); (-1); (-1); 1; 4; 7;
        10; 13; (-1); (-1); (-1); (-1); (-1); (-1)]%Z) ["A1in"]);
   I (Let "BB" (ShufEpi8 [(-1); (-1); (-1); (-1); (-1); (-1); (-1); (-1);
        (-1); (-1); 0; 3; 6; 9; 12; 15; 2; 5; 8; 11; 14; (-1); (-1); (-1);
        (-1); (-1); (-1); (-1); (-1); (-1); (-1); (-1)]%Z) ["B1in"]);
   I (Let "CB" (ShufEpi8 [(-1); (-1); (-1); (-1); (-1); 1; 4; 7; 10; 13; (-1);
        (-1); (-1); (-1); (-1); (-1); (-1); (-1); (-1); (-1); (-1); (-1);
        (-1); (-1); (-1); (-1); 0; 3; 6; 9; 12; 15]%Z) ["C1in"]);
   I (Let "DB" (Permute2x128 33) ["AB"; "CB"]);
   I (Let "B0" Or ["AB"; "BB"]);
   I (Let "B1" Or ["BB"; "CB"]);
   I (Let "B2" (Permute2x128 48) ["B0"; "B1"]);
   I (Let "B3b" Or ["DB"; "B2"]);
   I (Let "ret.v0" Concat ["R3"; "R3b"]);
   I (Let "ret.v1" Concat ["G3"; "G3b"]);
   I (Let "ret.v2" Concat ["B3"; "B3b"])].

(** load3 for avx512_knl i16, avx512_knl u16, avx512_skylake i16,
        avx512_skylake u16.
    load3_avx512 x86_load_store_deg234.py:2943-3062 *)
Definition load3_avx512_knl_i16 : program :=
  [I (Load "v0" 0 64);
   I (Load "v1" 64 64);
   I (Load "v2" 128 64);
   I (Let "A0a" LowHalf ["v0"]);
   I (Let "B0a" HighHalf ["v0"]);
   I (Let "C0a" LowHalf ["v1"]);
   I (Let "A0b" HighHalf ["v1"]);
   I (Let "B0b" LowHalf ["v2"]);
   I (Let "C0b" HighHalf ["v2"]);
   I (Let "AR" (ShufEpi8 [0; 1; 6; 7; 12; 13; (-1); (-1); (-1); (-1); (-1);
        (-1); (-1); (-1); (-1); (-1); (-1); (-1); (-1); (-1); (-1); (-1); 2;
        3; 8; 9; 14; 15; (-1); (-1); (-1); (-1)]%Z) ["A0a"]);
   I (Let "BR" (ShufEpi8 [(-1); (-1); (-1); (-1); (-1); (-1); (-1); (-1);
        (-1); (-1); (-1); (-1); 4; 5; 10; 11; 0; 1; 6; 7; 12; 13; (-1); (-1);
        (-1); (-1); (-1); (-1); (-1); (-1); (-1); (-1)]%Z) ["B0a"]);
   I (Let "CR" (ShufEpi8 [(-1); (-1); (-1); (-1); (-1); (-1); 2; 3; 8; 9; 14;
        15; (-1); (-1); (-1); (-1); (-1); (-1); (-1); (-1); (-1); (-1); (-1);
        (-1); (-1); (-1); (-1); (-1); 4; 5; 10; 11]%Z) ["C0a"]);
   I (Let "DR" (Permute2x128 33) ["AR"; "CR"]);
   I (Let "R0" Or ["AR"; "BR"]);
   I (Let "R1" Or ["BR"; "CR"]);
   I (Let "R2" (Permute2x128 48) ["R0"; "R1"]);
   I (Let "R3a" Or ["DR"; "R2"]);
   I (Let "AR" (ShufEpi8 [0; 1; 6; 7; 12; 13; (-1); (-1); (-1); (-1); (-1);
        (-1); (-1); (-1); (-1); (-1); (-1); (-1); (-1); (-1); (-1); (-1); 2;
        3; 8; 9; 14; 15; (-1); (-1); (-1); (-1)]%Z) ["A0b"]);
   I (Let "BR" (ShufEpi8 [(-1); (-1); (-1); (-1); (-1); (-1); (-1); (-1);
        (-1); (-1); (-1); (-1); 4; 5; 10; 11; 0; 1; 6; 7; 12; 13; (-1); (-1);
        (-1); (-1); (-1); (-1); (-1); (-1); (-1); (-1)]%Z) ["B0b"]);
   I (Let "CR" (ShufEpi8 [(-1); (-1); (-1); (-1); (-1); (-1); 2; 3; 8; 9; 14;
        15; (-1); (-1); (-1); (-1); (-1); (-1); (-1); (-1); (-1); (-1); (-1);
        (-1); (-1); (-1); (-1); (-1); 4; 5; 10; 11]%Z) ["C0b"]);
   I (Let "DR" (Permute2x128 33) ["AR"; "CR"]);
   I (Let "R0" Or ["AR"; "BR"]);
   I (Let "R1" Or ["BR"; "CR"]);
   I (Let "R2" (Permute2x128 48) ["R0"; "R1"]);
   I (Let "R3b" Or ["DR"; "R2"]);
   I (Let "AG" (ShufEpi8 [2; 3; 8; 9; 14; 15; (-1); (-1); (-1); (-1); (-1);
        (-1); (-1); (-1); (-1); (-1); (-1); (-1); (-1); (-1); (-1); (-1); 4;
        5; 10; 11; (-1); (-1); (-1); (-1); (-1); (-1)]%Z) ["A0a"]);
   I (Let "BG" (ShufEpi8 [(-1); (-1); (-1); (-1); (-1); (-1); (-1); (-1);
        (-1); (-1); 0; 1; 6; 7; 12; 13; 2; 3; 8; 9; 14; 15; (-1); (-1); (-1);
        (-1); (-1); (-1); (-1); (-1); (-1); (-1)]%Z) ["B0a"]);
   I (Let "CG" (ShufEpi8 [(-1); (-1); (-1); (-1); (-1); (-1); 4; 5; 10; 11;
        (-1); (-1); (-1); (-1); (-1); (-1); (-1); (-1); (-1); (-1); (-1);
        (-1); (-1); (-1); (-1); (-1); 0; 1; 6; 7; 12; 13]%Z) ["C0a"]);
   I (Let "DG" (Permute2x128 33) ["AG"; "CG"]);
   I (Let "G0" Or ["AG"; "BG"]);
   I (Let "G1" Or ["BG"; "CG"]);
   I (Let "G2" (Permute2x128 48) ["G0"; "G1"]);
   I (Let "G3a" Or ["DG"; "G2"]);
   I (Let "AG" (ShufEpi8 [2; 3; 8; 9; 14; 15; (-1); (-1); (-1); (-1); (-1);
        (-1); (-1); (-1); (-1); (-1); (-1); (-1); (-1); (-1); (-1); (-1); 4;
        5; 10; 11; (-1); (-1); (-1); (-1); (-1); (-1)]%Z) ["A0b"]);
   I (Let "BG" (ShufEpi8 [(-1); (-1); (-1); (-1); (-1); (-1); (-1); (-1);
        (-1); (-1); 0; 1; 6; 7; 12; 13; 2; 3; 8; 9; 14; 15; (-1); (-1); (-1);
        (-1); (-1); (-1); (-1); (-1); (-1); (-1)]%Z) ["B0b"]);
   I (Let "CG" (ShufEpi8 [(-1); (-1); (-1); (-1); (-1); (-1); 4; 5; 10; 11;
        (-1); (-1); (-1); (-1); (-1); (-1); (-1); (-1); (-1); (-1); (-1);
        (-1); (-1); (-1); (-1); (-1); 0; 1; 6; 7; 12; 13]%Z) ["C0b"]);
   I (Let "DG" (Permute2x128 33) ["AG"; "CG"]);
   I (Let "G0" Or ["AG"; "BG"]);
   I (Let "G1" Or ["BG"; "CG"]);
   I (Let "G2" (Permute2x128 48) ["G0"; "G1"]);
   I (Let "G3b" Or ["DG"; "G2"]);
   I (Let "AB" (ShufEpi8 [4; 5; 10; 11; (-1); (-1); (-1); (-1); (-1); (-1);
        (-1); (-1); (-1); (-1); (-1); (-1); (-1); (-1); (-1); (-1); 0; 1; 6;
        7; 12; 13; (-1); (-1); (-1); (-1); (-1); (-1)]%Z) ["A0a"]);
   I (Let "BB" (ShufEpi8 [(-1); (-1); (-1); (-1); (-1); (-1); (-1); (-1);
        (-1); (-1); 2; 3; 8; 9; 14; 15; 4; 5; 10; 11; (-1); (-1); (-1); (-1);
        (-1); (-1); (-1); (-1); (-1); (-1); (-1); (-1)]%Z) ["B0a"]);
   I (Let "CB" (ShufEpi8 [(-1); (-1); (-1); (-1); 0; 1; 6; 7; 12; 13; (-1);
        (-1); (-1); (-1); (-1); (-1); (-1); (-1); (-1); (-1); (-1); (-1);
        (-1); (-1); (-1); (-1); 2; 3; 8; 9; 14; 15]%Z) ["C0a"]);
   I (Let "DB" (Permute2x128 33) ["AB"; "CB"]);
   I (Let "B0" Or ["AB"; "BB"]);
   I (Let "B1" Or ["BB"; "CB"]);
   I (Let "B2" (Permute2x128 48) ["B0"; "B1"]);
   I (Let "B3a" Or ["DB"; "B2"]);
   I (Let "AB" (ShufEpi8 [4; 5; 10; 11; (-1); (-1); (-1); (-1); (-1); (-1);
        (-1); (-1); (-1); (-1); (-1); (-1); (-1); (-1); (-1); (-1); 0; 1; 6;
        7; 12; 13; (-1); (-1); (-1); (-1); (-1); (-1)]%Z) ["A0b"]);
   I (Let "BB" (ShufEpi8 [(-1); (-1); (-1); (-1); (-1); (-1); (-1); (-1);
        (-1); (-1); 2; 3; 8; 9; 14; 15; 4; 5; 10; 11; (-1); (-1); (-1); (-1);
        (-1); (-1); (-1); (-1); (-1); (-1); (-1); (-1)]%Z) ["B0b"]);
   I (Let "CB" (ShufEpi8 [(-1); (-1); (-1); (-1); 0; 1; 6; 7; 12; 13; (-1);
        (-1); (-1); (-1); (-1); (-1); (-1); (-1); (-1); (-1); (-1); (-1);
        (-1); (-1); (-1); (-1); 2; 3; 8; 9; 14; 15]%Z) ["C0b"]);
   I (Let "DB" (Permute2x128 33) ["AB"; "CB"]);
   I (Let "B0" Or ["AB"; "BB"]);
   I (Let "B1" Or ["BB"; "CB"]);
   I (Let "B2" (Permute2x128 48) ["B0"; "B1"]);
   I (Let "B3b" Or ["DB"; "B2"]);
   I (Let "ret.v0" Concat ["R3a"; "R3b"]);
   I (Let "ret.v1" Concat ["G3a"; "G3b"]);
   I (Let "ret.v2" Concat ["B3a"; "B3b"])].

(** load3 for avx512_knl i32, avx512_knl u32, avx512_knl f32, avx512_skylake
        i32, avx512_skylake u32, avx512_skylake f32.
    load3_avx512 x86_load_store_deg234.py:3064-3089 *)
Definition load3_avx512_knl_i32 : program :=
  [I (Load "v0" 0 64);
   I (Load "v1" 64 64);
   I (Load "v2" 128 64);
   I (Let "R" (PermuteX2Var 4 [0; 3; 6; 9; 12; 15; 18; 21; 24; 27; 30; 0; 0;
        0; 0; 0]%Z) ["v0"; "v1"]);
   I (Let "ret.v0" (PermuteX2Var 4 [0; 1; 2; 3; 4; 5; 6; 7; 8; 9; 10; 17; 20;
        23; 26; 29]%Z) ["R"; "v2"]);
   I (Let "G" (PermuteX2Var 4 [1; 4; 7; 10; 13; 16; 19; 22; 25; 28; 31; 0; 0;
        0; 0; 0]%Z) ["v0"; "v1"]);
   I (Let "ret.v1" (PermuteX2Var 4 [0; 1; 2; 3; 4; 5; 6; 7; 8; 9; 10; 18; 21;
        24; 27; 30]%Z) ["G"; "v2"]);
   I (Let "B" (PermuteX2Var 4 [2; 5; 8; 11; 14; 17; 20; 23; 26; 29; 0; 0; 0;
        0; 0; 0]%Z) ["v0"; "v1"]);
   I (Let "ret.v2" (PermuteX2Var 4 [0; 1; 2; 3; 4; 5; 6; 7; 8; 9; 16; 19; 22;
        25; 28; 31]%Z) ["B"; "v2"])].

(** load3 for avx512_knl i64, avx512_knl u64, avx512_knl f64, avx512_skylake
        i64, avx512_skylake u64, avx512_skylake f64.
    load3_avx512 x86_load_store_deg234.py:3091-3111 *)
Definition load3_avx512_knl_i64 : program :=
  [I (Load "v0" 0 64);
   I (Load "v1" 64 64);
   I (Load "v2" 128 64);
   I (Let "A1" (PermuteX2Var 8 [0; 3; 6; 9; 12; 15; 0; 0]%Z) ["v0"; "v1"]);
   I (Let "ret.v0" (PermuteX2Var 8 [0; 1; 2; 3; 4; 5; 10; 13]%Z) ["A1"; "v2"]);
   I (Let "B1" (PermuteX2Var 8 [1; 4; 7; 10; 13; 0; 0; 0]%Z) ["v0"; "v1"]);
   I (Let "ret.v1" (PermuteX2Var 8 [0; 1; 2; 3; 4; 8; 11; 14]%Z) ["B1"; "v2"]);
   I (Let "C1" (PermuteX2Var 8 [2; 5; 8; 11; 14; 0; 0; 0]%Z) ["v0"; "v1"]);
   I (Let "ret.v2" (PermuteX2Var 8 [0; 1; 2; 3; 4; 9; 12; 15]%Z) ["C1";
        "v2"])].

(** load4 for sse2 i8, sse2 u8.
    load4_sse x86_load_store_deg234.py:583-605 *)
Definition load4_sse2_i8 : program :=
  [I (Load "v0" 0 16);
   I (Load "v1" 16 16);
   I (Load "v2" 32 16);
   I (Load "v3" 48 16);
   I (Let "A1" (UnpackLo 1) ["v0"; "v2"]);
   I (Let "B1" (UnpackHi 1) ["v0"; "v2"]);
   I (Let "C1" (UnpackLo 1) ["v1"; "v3"]);
   I (Let "D1" (UnpackHi 1) ["v1"; "v3"]);
   I (Let "A2" (UnpackLo 1) ["A1"; "C1"]);
   I (Let "B2" (UnpackHi 1) ["A1"; "C1"]);
   I (Let "C2" (UnpackLo 1) ["B1"; "D1"]);
   I (Let "D2" (UnpackHi 1) ["B1"; "D1"]);
   I (Let "A3" (UnpackLo 1) ["A2"; "C2"]);
   I (Let "B3" (UnpackHi 1) ["A2"; "C2"]);
   I (Let "C3" (UnpackLo 1) ["B2"; "D2"]);
   I (Let "D3" (UnpackHi 1) ["B2"; "D2"]);
   I (Let "ret.v0" (UnpackLo 1) ["A3"; "C3"]);
   I (Let "ret.v1" (UnpackHi 1) ["A3"; "C3"]);
   I (Let "ret.v2" (UnpackLo 1) ["B3"; "D3"]);
   I (Let "ret.v3" (UnpackHi 1) ["B3"; "D3"])].

(** load4 for sse2 i16, sse2 u16, sse42 i16, sse42 u16.
    load4_sse x86_load_store_deg234.py:607-624 *)
Definition load4_sse2_i16 : program :=
  [I (Load "v0" 0 16);
   I (Load "v1" 16 16);
   I (Load "v2" 32 16);
   I (Load "v3" 48 16);
   I (Let "E" (UnpackLo 2) ["v0"; "v1"]);
   I (Let "F" (UnpackHi 2) ["v0"; "v1"]);
   I (Let "G" (UnpackLo 2) ["v2"; "v3"]);
   I (Let "H" (UnpackHi 2) ["v2"; "v3"]);
   I (Let "I" (UnpackLo 2) ["E"; "F"]);
   I (Let "J" (UnpackHi 2) ["E"; "F"]);
   I (Let "K" (UnpackLo 2) ["G"; "H"]);
   I (Let "L" (UnpackHi 2) ["G"; "H"]);
   I (Let "ret.v0" (UnpackLo 8) ["I"; "K"]);
   I (Let "ret.v1" (UnpackHi 8) ["I"; "K"]);
   I (Let "ret.v2" (UnpackLo 8) ["J"; "L"]);
   I (Let "ret.v3" (UnpackHi 8) ["J"; "L"])].

(** load4 for sse2 i32, sse2 u32, sse2 f32, sse42 i32, sse42 u32, sse42 f32.
    load4_sse x86_load_store_deg234.py:626-639 *)
Definition load4_sse2_i32 : program :=
  [I (Load "v0" 0 16);
   I (Load "v1" 16 16);
   I (Load "v2" 32 16);
   I (Load "v3" 48 16);
   I (Let "A1" (UnpackLo 4) ["v0"; "v2"]);
   I (Let "B1" (UnpackHi 4) ["v0"; "v2"]);
   I (Let "C1" (UnpackLo 4) ["v1"; "v3"]);
   I (Let "D1" (UnpackHi 4) ["v1"; "v3"]);
   I (Let "ret.v0" (UnpackLo 4) ["A1"; "C1"]);
   I (Let "ret.v1" (UnpackHi 4) ["A1"; "C1"]);
   I (Let "ret.v2" (UnpackLo 4) ["B1"; "D1"]);
   I (Let "ret.v3" (UnpackHi 4) ["B1"; "D1"])].

(** load4 for sse2 i64, sse2 u64, sse2 f64, sse42 i64, sse42 u64, sse42 f64.
    load4_sse x86_load_store_deg234.py:641-648 *)
Definition load4_sse2_i64 : program :=
  [I (Load "v0" 0 16);
   I (Load "v1" 16 16);
   I (Load "v2" 32 16);
   I (Load "v3" 48 16);
   I (Let "ret.v0" (UnpackLo 8) ["v0"; "v2"]);
   I (Let "ret.v1" (UnpackHi 8) ["v0"; "v2"]);
   I (Let "ret.v2" (UnpackLo 8) ["v1"; "v3"]);
   I (Let "ret.v3" (UnpackHi 8) ["v1"; "v3"])].

(** load4 for sse42 i8, sse42 u8.
    load4_sse x86_load_store_deg234.py:554-581 *)
Definition load4_sse42_i8 : program :=
  [I (Load "v0" 0 16);
   I (Load "v1" 16 16);
   I (Load "v2" 32 16);
   I (Load "v3" 48 16);
   I (Let "t1" (ShufEpi8 [0; 4; 8; 12; 1; 5; 9; 13; 2; 6; 10; 14; 3; 7; 11;
        15]%Z) ["v0"]);
   I (Let "A1" Mov ["t1"]);
   I (Let "t2" (ShufEpi8 [0; 4; 8; 12; 1; 5; 9; 13; 2; 6; 10; 14; 3; 7; 11;
        15]%Z) ["v1"]);
   I (Let "B1" Mov ["t2"]);
   I (Let "t3" (ShufEpi8 [0; 4; 8; 12; 1; 5; 9; 13; 2; 6; 10; 14; 3; 7; 11;
        15]%Z) ["v2"]);
   I (Let "C1" Mov ["t3"]);
   I (Let "t4" (ShufEpi8 [0; 4; 8; 12; 1; 5; 9; 13; 2; 6; 10; 14; 3; 7; 11;
        15]%Z) ["v3"]);
   I (Let "D1" Mov ["t4"]);
   I (Let "t5" (ShufPd 0) ["A1"; "B1"]);
   I (Let "A2" Mov ["t5"]);
   I (Let "t6" (ShufPd 0) ["C1"; "D1"]);
   I (Let "A3" Mov ["t6"]);
   I (Let "t7" (ShufPd 3) ["A1"; "B1"]);
   I (Let "C2" Mov ["t7"]);
   I (Let "t8" (ShufPd 3) ["C1"; "D1"]);
   I (Let "C3" Mov ["t8"]);
   I (Let "t9" (ShufPs 136) ["A2"; "A3"]);
   I (Let "ret.v0" Mov ["t9"]);
   I (Let "t10" (ShufPs 221) ["A2"; "A3"]);
   I (Let "ret.v1" Mov ["t10"]);
   I (Let "t11" (ShufPs 136) ["C2"; "C3"]);
   I (Let "ret.v2" Mov ["t11"]);
   I (Let "t12" (ShufPs 221) ["C2"; "C3"]);
   I (Let "ret.v3" Mov ["t12"])].

(** load4 for avx i8, avx u8.
    load4_avx x86_load_store_deg234.py:697-764 *)
Definition load4_avx_i8 : program :=
  [I (Load "v0" 0 32);
   I (Load "v1" 32 32);
   I (Load "v2" 64 32);
   I (Load "v3" 96 32);
   I (Let "Aa" LowHalf ["v0"]);
   I (Let "Ba" HighHalf ["v0"]);
   I (Let "Ca" LowHalf ["v1"]);
   I (Let "Da" HighHalf ["v1"]);
   I (Let "Ab" LowHalf ["v2"]);
   I (Let "Bb" HighHalf ["v2"]);
   I (Let "Cb" LowHalf ["v3"]);
   I (Let "Db" HighHalf ["v3"]);
   I (Let "t1" (ShufEpi8 [0; 4; 8; 12; 1; 5; 9; 13; 2; 6; 10; 14; 3; 7; 11;
        15]%Z) ["Aa"]);
   I (Let "A1" Mov ["t1"]);
   I (Let "t2" (ShufEpi8 [0; 4; 8; 12; 1; 5; 9; 13; 2; 6; 10; 14; 3; 7; 11;
        15]%Z) ["Ba"]);
   I (Let "B1" Mov ["t2"]);
   I (Let "t3" (ShufEpi8 [0; 4; 8; 12; 1; 5; 9; 13; 2; 6; 10; 14; 3; 7; 11;
        15]%Z) ["Ca"]);
   I (Let "C1" Mov ["t3"]);
   I (Let "t4" (ShufEpi8 [0; 4; 8; 12; 1; 5; 9; 13; 2; 6; 10; 14; 3; 7; 11;
        15]%Z) ["Da"]);
   I (Let "D1" Mov ["t4"]);
   I (Let "t5" (ShufPd 0) ["A1"; "B1"]);
   I (Let "A2" Mov ["t5"]);
   I (Let "t6" (ShufPd 0) ["C1"; "D1"]);
   I (Let "A3" Mov ["t6"]);
   I (Let "t7" (ShufPd 3) ["A1"; "B1"]);
   I (Let "C2" Mov ["t7"]);
   I (Let "t8" (ShufPd 3) ["C1"; "D1"]);
   I (Let "C3" Mov ["t8"]);
   I (Let "t9" (ShufPs 136) ["A2"; "A3"]);
   I (Let "Wa" Mov ["t9"]);
   I (Let "t10" (ShufPs 221) ["A2"; "A3"]);
   I (Let "Xa" Mov ["t10"]);
   I (Let "t11" (ShufPs 136) ["C2"; "C3"]);
   I (Let "Ya" Mov ["t11"]);
   I (Let "t12" (ShufPs 221) ["C2"; "C3"]);
   I (Let "Za" Mov ["t12"]);
   I (Let "t13" (ShufEpi8 [0; 4; 8; 12; 1; 5; 9; 13; 2; 6; 10; 14; 3; 7; 11;
        15]%Z) ["Ab"]);
   I (Let "A1" Mov ["t13"]);
   I (Let "t14" (ShufEpi8 [0; 4; 8; 12; 1; 5; 9; 13; 2; 6; 10; 14; 3; 7; 11;
        15]%Z) ["Bb"]);
   I (Let "B1" Mov ["t14"]);
   I (Let "t15" (ShufEpi8 [0; 4; 8; 12; 1; 5; 9; 13; 2; 6; 10; 14; 3; 7; 11;
        15]%Z) ["Cb"]);
   I (Let "C1" Mov ["t15"]);
   I (Let "t16" (ShufEpi8 [0; 4; 8; 12; 1; 5; 9; 13; 2; 6; 10; 14; 3; 7; 11;
        15]%Z) ["Db"]);
   I (Let "D1" Mov ["t16"]);
   I (Let "t17" (ShufPd 0) ["A1"; "B1"]);
   I (Let "A2" Mov ["t17"]);
   I (Let "t18" (ShufPd 0) ["C1"; "D1"]);
   I (Let "A3" Mov ["t18"]);
   I (Let "t19" (ShufPd 3) ["A1"; "B1"]);
   I (Let "C2" Mov ["t19"]);
   I (Let "t20" (ShufPd 3) ["C1"; "D1"]);
   I (Let "C3" Mov ["t20"]);
   I (Let "t21" (ShufPs 136) ["A2"; "A3"]);
   I (Let "Wb" Mov ["t21"]);
   I (Let "t22" (ShufPs 221) ["A2"; "A3"]);
   I (Let "Xb" Mov ["t22"]);
   I (Let "t23" (ShufPs 136) ["C2"; "C3"]);
   I (Let "Yb" Mov ["t23"]);
   I (Let "t24" (ShufPs 221) ["C2"; "C3"]);
   I (Let "Zb" Mov ["t24"]);
   I (Let "ret.v0" Concat ["Wa"; "Wb"]);
   I (Let "ret.v1" Concat ["Xa"; "Xb"]);
   I (Let "ret.v2" Concat ["Ya"; "Yb"]);
   I (Let "ret.v3" Concat ["Za"; "Zb"])].

(** load4 for avx i16, avx u16.
    load4_avx x86_load_store_deg234.py:788-854 *)
Definition load4_avx_i16 : program :=
  [I (Load "v0" 0 32);
   I (Load "v1" 32 32);
   I (Load "v2" 64 32);
   I (Load "v3" 96 32);
   I (Let "Aa" LowHalf ["v0"]);
   I (Let "Ba" HighHalf ["v0"]);
   I (Let "Ca" LowHalf ["v1"]);
   I (Let "Da" HighHalf ["v1"]);
   I (Let "Ab" LowHalf ["v2"]);
   I (Let "Bb" HighHalf ["v2"]);
   I (Let "Cb" LowHalf ["v3"]);
   I (Let "Db" HighHalf ["v3"]);
   I (Let "t1" (ShufEpi8 [0; 1; 8; 9; 2; 3; 10; 11; 4; 5; 12; 13; 6; 7; 14;
        15]%Z) ["Aa"]);
   I (Let "A1" Mov ["t1"]);
   I (Let "t2" (ShufEpi8 [0; 1; 8; 9; 2; 3; 10; 11; 4; 5; 12; 13; 6; 7; 14;
        15]%Z) ["Ba"]);
   I (Let "B1" Mov ["t2"]);
   I (Let "t3" (ShufEpi8 [0; 1; 8; 9; 2; 3; 10; 11; 4; 5; 12; 13; 6; 7; 14;
        15]%Z) ["Ca"]);
   I (Let "C1" Mov ["t3"]);
   I (Let "t4" (ShufEpi8 [0; 1; 8; 9; 2; 3; 10; 11; 4; 5; 12; 13; 6; 7; 14;
        15]%Z) ["Da"]);
   I (Let "D1" Mov ["t4"]);
   I (Let "t5" (ShufPd 0) ["A1"; "B1"]);
   I (Let "A2" Mov ["t5"]);
   I (Let "t6" (ShufPd 0) ["C1"; "D1"]);
   I (Let "A3" Mov ["t6"]);
   I (Let "t7" (ShufPd 3) ["A1"; "B1"]);
   I (Let "C2" Mov ["t7"]);
   I (Let "t8" (ShufPd 3) ["C1"; "D1"]);
   I (Let "C3" Mov ["t8"]);
   I (Let "t9" (ShufPs 136) ["A2"; "A3"]);
   I (Let "Wa" Mov ["t9"]);
   I (Let "t10" (ShufPs 221) ["A2"; "A3"]);
   I (Let "Xa" Mov ["t10"]);
   I (Let "t11" (ShufPs 136) ["C2"; "C3"]);
   I (Let "Ya" Mov ["t11"]);
   I (Let "t12" (ShufPs 221) ["C2"; "C3"]);
   I (Let "Za" Mov ["t12"]);
   I (Let "t13" (ShufEpi8 [0; 1; 8; 9; 2; 3; 10; 11; 4; 5; 12; 13; 6; 7; 14;
        15]%Z) ["Ab"]);
   I (Let "A1" Mov ["t13"]);
   I (Let "t14" (ShufEpi8 [0; 1; 8; 9; 2; 3; 10; 11; 4; 5; 12; 13; 6; 7; 14;
        15]%Z) ["Bb"]);
   I (Let "B1" Mov ["t14"]);
   I (Let "t15" (ShufEpi8 [0; 1; 8; 9; 2; 3; 10; 11; 4; 5; 12; 13; 6; 7; 14;
        15]%Z) ["Cb"]);
   I (Let "C1" Mov ["t15"]);
   I (Let "t16" (ShufEpi8 [0; 1; 8; 9; 2; 3; 10; 11; 4; 5; 12; 13; 6; 7; 14;
        15]%Z) ["Db"]);
   I (Let "D1" Mov ["t16"]);
   I (Let "t17" (ShufPd 0) ["A1"; "B1"]);
   I (Let "A2" Mov ["t17"]);
   I (Let "t18" (ShufPd 0) ["C1"; "D1"]);
   I (Let "A3" Mov ["t18"]);
   I (Let "t19" (ShufPd 3) ["A1"; "B1"]);
   I (Let "C2" Mov ["t19"]);
   I (Let "t20" (ShufPd 3) ["C1"; "D1"]);
   I (Let "C3" Mov ["t20"]);
   I (Let "t21" (ShufPs 136) ["A2"; "A3"]);
   I (Let "Wb" Mov ["t21"]);
   I (Let "t22" (ShufPs 221) ["A2"; "A3"]);
   I (Let "Xb" Mov ["t22"]);
   I (Let "t23" (ShufPs 136) ["C2"; "C3"]);
   I (Let "Yb" Mov ["t23"]);
   I (Let "t24" (ShufPs 221) ["C2"; "C3"]);
   I (Let "Zb" Mov ["t24"]);
   I (Let "ret.v0" Concat ["Wa"; "Wb"]);
   I (Let "ret.v1" Concat ["Xa"; "Xb"]);
   I (Let "ret.v2" Concat ["Ya"; "Yb"]);
   I (Let "ret.v3" Concat ["Za"; "Zb"])].

(** load4 for avx i32, avx u32.
    load4_avx x86_load_store_deg234.py:886-893; load4_avx
        x86_load_store_deg234.py:856-867 *)
Definition load4_avx_i32 : program :=
  [I (Load "f.v0" 0 32);
   I (Load "f.v1" 32 32);
   I (Load "f.v2" 64 32);
   I (Load "f.v3" 96 32);
   I (Let "f.A1" (UnpackLo 4) ["f.v0"; "f.v2"]);
   I (Let "f.B1" (UnpackHi 4) ["f.v0"; "f.v2"]);
   I (Let "f.C1" (UnpackLo 4) ["f.v1"; "f.v3"]);
   I (Let "f.D1" (UnpackHi 4) ["f.v1"; "f.v3"]);
   I (Let "f.ret.v0" (UnpackLo 4) ["f.A1"; "f.C1"]);
   I (Let "f.ret.v1" (UnpackHi 4) ["f.A1"; "f.C1"]);
   I (Let "f.ret.v2" (UnpackLo 4) ["f.B1"; "f.D1"]);
   I (Let "f.ret.v3" (UnpackHi 4) ["f.B1"; "f.D1"]);
   I (Let "retf32.v0" Mov ["f.ret.v0"]);
   I (Let "retf32.v1" Mov ["f.ret.v1"]);
   I (Let "retf32.v2" Mov ["f.ret.v2"]);
   I (Let "retf32.v3" Mov ["f.ret.v3"]);
   I (Let "ret.v0" Mov ["retf32.v0"]);
   I (Let "ret.v1" Mov ["retf32.v1"]);
   I (Let "ret.v2" Mov ["retf32.v2"]);
   I (Let "ret.v3" Mov ["retf32.v3"])].

(** load4 for avx i64, avx u64.
    load4_avx x86_load_store_deg234.py:927-934; load4_avx
        x86_load_store_deg234.py:895-908 *)
Definition load4_avx_i64 : program :=
  [I (Load "f.v0" 0 32);
   I (Load "f.v1" 32 32);
   I (Load "f.v2" 64 32);
   I (Load "f.v3" 96 32);
   I (Let "f.A1" (Permute2x128 32) ["f.v0"; "f.v2"]);
   I (Let "f.B1" (Permute2x128 49) ["f.v0"; "f.v2"]);
   I (Let "f.C1" (Permute2x128 32) ["f.v1"; "f.v3"]);
   I (Let "f.D1" (Permute2x128 49) ["f.v1"; "f.v3"]);
   I (Let "f.ret.v0" (UnpackLo 8) ["f.A1"; "f.C1"]);
   I (Let "f.ret.v1" (UnpackHi 8) ["f.A1"; "f.C1"]);
   I (Let "f.ret.v2" (UnpackLo 8) ["f.B1"; "f.D1"]);
   I (Let "f.ret.v3" (UnpackHi 8) ["f.B1"; "f.D1"]);
   I (Let "retf64.v0" Mov ["f.ret.v0"]);
   I (Let "retf64.v1" Mov ["f.ret.v1"]);
   I (Let "retf64.v2" Mov ["f.ret.v2"]);
   I (Let "retf64.v3" Mov ["f.ret.v3"]);
   I (Let "ret.v0" Mov ["retf64.v0"]);
   I (Let "ret.v1" Mov ["retf64.v1"]);
   I (Let "ret.v2" Mov ["retf64.v2"]);
   I (Let "ret.v3" Mov ["retf64.v3"])].

(** load4 for avx f32, avx2 i32, avx2 u32, avx2 f32.
    load4_avx x86_load_store_deg234.py:856-867; load4_avx
        x86_load_store_deg234.py:870-884 *)
Definition load4_avx_f32 : program :=
  [I (Load "v0" 0 32);
   I (Load "v1" 32 32);
   I (Load "v2" 64 32);
   I (Load "v3" 96 32);
   I (Let "A1" (UnpackLo 4) ["v0"; "v2"]);
   I (Let "B1" (UnpackHi 4) ["v0"; "v2"]);
   I (Let "C1" (UnpackLo 4) ["v1"; "v3"]);
   I (Let "D1" (UnpackHi 4) ["v1"; "v3"]);
   I (Let "ret.v0" (UnpackLo 4) ["A1"; "C1"]);
   I (Let "ret.v1" (UnpackHi 4) ["A1"; "C1"]);
   I (Let "ret.v2" (UnpackLo 4) ["B1"; "D1"]);
   I (Let "ret.v3" (UnpackHi 4) ["B1"; "D1"])].

(** load4 for avx f64, avx2 i64, avx2 u64, avx2 f64.
    load4_avx x86_load_store_deg234.py:895-908; load4_avx
        x86_load_store_deg234.py:911-925 *)
Definition load4_avx_f64 : program :=
  [I (Load "v0" 0 32);
   I (Load "v1" 32 32);
   I (Load "v2" 64 32);
   I (Load "v3" 96 32);
   I (Let "A1" (Permute2x128 32) ["v0"; "v2"]);
   I (Let "B1" (Permute2x128 49) ["v0"; "v2"]);
   I (Let "C1" (Permute2x128 32) ["v1"; "v3"]);
   I (Let "D1" (Permute2x128 49) ["v1"; "v3"]);
   I (Let "ret.v0" (UnpackLo 8) ["A1"; "C1"]);
   I (Let "ret.v1" (UnpackHi 8) ["A1"; "C1"]);
   I (Let "ret.v2" (UnpackLo 8) ["B1"; "D1"]);
   I (Let "ret.v3" (UnpackHi 8) ["B1"; "D1"])].

(** load4 for avx2 i8, avx2 u8.
    load4_avx x86_load_store_deg234.py:666-695 *)
Definition load4_avx2_i8 : program :=
  [I (Load "v0" 0 32);
   I (Load "v1" 32 32);
   I (Load "v2" 64 32);
   I (Load "v3" 96 32);
   I (Let "A1" (ShufEpi8 [0; 4; 8; 12; 1; 5; 9; 13; 2; 6; 10; 14; 3; 7; 11;
        15; 0; 4; 8; 12; 1; 5; 9; 13; 2; 6; 10; 14; 3; 7; 11; 15]%Z) ["v0"]);
   I (Let "B1" (ShufEpi8 [0; 4; 8; 12; 1; 5; 9; 13; 2; 6; 10; 14; 3; 7; 11;
        15; 0; 4; 8; 12; 1; 5; 9; 13; 2; 6; 10; 14; 3; 7; 11; 15]%Z) ["v1"]);
   I (Let "C1" (ShufEpi8 [0; 4; 8; 12; 1; 5; 9; 13; 2; 6; 10; 14; 3; 7; 11;
        15; 0; 4; 8; 12; 1; 5; 9; 13; 2; 6; 10; 14; 3; 7; 11; 15]%Z) ["v2"]);
   I (Let "D1" (ShufEpi8 [0; 4; 8; 12; 1; 5; 9; 13; 2; 6; 10; 14; 3; 7; 11;
        15; 0; 4; 8; 12; 1; 5; 9; 13; 2; 6; 10; 14; 3; 7; 11; 15]%Z) ["v3"]);
   I (Let "A2" (PermuteXVar 4 [0; 4; 1; 5; 2; 6; 3; 7]%Z) ["A1"]);
   I (Let "B2" (PermuteXVar 4 [0; 4; 1; 5; 2; 6; 3; 7]%Z) ["B1"]);
   I (Let "C2" (PermuteXVar 4 [0; 4; 1; 5; 2; 6; 3; 7]%Z) ["C1"]);
   I (Let "D2" (PermuteXVar 4 [0; 4; 1; 5; 2; 6; 3; 7]%Z) ["D1"]);
   I (Let "A3" (Permute2x128 32) ["A2"; "C2"]);
   I (Let "C3" (Permute2x128 32) ["B2"; "D2"]);
   I (Let "B3" (Permute2x128 49) ["A2"; "C2"]);
   I (Let "D3" (Permute2x128 49) ["B2"; "D2"]);
   I (Let "ret.v0" (UnpackLo 8) ["A3"; "C3"]);
   I (Let "ret.v1" (UnpackHi 8) ["A3"; "C3"]);
   I (Let "ret.v2" (UnpackLo 8) ["B3"; "D3"]);
   I (Let "ret.v3" (UnpackHi 8) ["B3"; "D3"])].

(** load4 for avx2 i16, avx2 u16.
    load4_avx x86_load_store_deg234.py:767-786 *)
Definition load4_avx2_i16 : program :=
  [I (Load "v0" 0 32);
   I (Load "v1" 32 32);
   I (Load "v2" 64 32);
   I (Load "v3" 96 32);
   I (Let "A1" (UnpackLo 2) ["v0"; "v2"]);
   I (Let "B1" (UnpackHi 2) ["v0"; "v2"]);
   I (Let "C1" (UnpackLo 2) ["v1"; "v3"]);
   I (Let "D1" (UnpackHi 2) ["v1"; "v3"]);
   I (Let "A2" (UnpackLo 2) ["A1"; "C1"]);
   I (Let "B2" (UnpackHi 2) ["A1"; "C1"]);
   I (Let "C2" (UnpackLo 2) ["B1"; "D1"]);
   I (Let "D2" (UnpackHi 2) ["B1"; "D1"]);
   I (Let "ret.v0" (UnpackLo 2) ["A2"; "C2"]);
   I (Let "ret.v1" (UnpackHi 2) ["A2"; "C2"]);
   I (Let "ret.v2" (UnpackLo 2) ["B2"; "D2"]);
   I (Let "ret.v3" (UnpackHi 2) ["B2"; "D2"])].

(** load4 for avx512_knl i8, avx512_knl u8, avx512_skylake i8, avx512_skylake
        u8.
    load4_avx512 x86_load_store_deg234.py:951-1020 *)
Definition load4_avx512_knl_i8 : program :=
  [I (Load "v0" 0 64);
   I (Load "v1" 64 64);
   I (Load "v2" 128 64);
   I (Load "v3" 192 64);
   I (Let "A0a" LowHalf ["v0"]);
   I (Let "B0a" HighHalf ["v0"]);
   I (Let "C0a" LowHalf ["v1"]);
   I (Let "D0a" HighHalf ["v1"]);
   I (Let "A0b" LowHalf ["v2"]);
   I (Let "B0b" HighHalf ["v2"]);
   I (Let "C0b" LowHalf ["v3"]);
   I (Let "D0b" HighHalf ["v3"]);
   I (Let "A1" (ShufEpi8 [0; 4; 8; 12; 1; 5; 9; 13; 2; 6; 10; 14; 3; 7; 11;
        15; 0; 4; 8; 12; 1; 5; 9; 13; 2; 6; 10; 14; 3; 7; 11; 15]%Z) ["A0a"]);
   I (Let "B1" (ShufEpi8 [0; 4; 8; 12; 1; 5; 9; 13; 2; 6; 10; 14; 3; 7; 11;
        15; 0; 4; 8; 12; 1; 5; 9; 13; 2; 6; 10; 14; 3; 7; 11; 15]%Z) ["B0a"]);
   I (Let "C1" (ShufEpi8 [0; 4; 8; 12; 1; 5; 9; 13; 2; 6; 10; 14; 3; 7; 11;
        15; 0; 4; 8; 12; 1; 5; 9; 13; 2; 6; 10; 14; 3; 7; 11; 15]%Z) ["C0a"]);
   I (Let "D1" (ShufEpi8 [0; 4; 8; 12; 1; 5; 9; 13; 2; 6; 10; 14; 3; 7; 11;
        15; 0; 4; 8; 12; 1; 5; 9; 13; 2; 6; 10; 14; 3; 7; 11; 15]%Z) ["D0a"]);
   I (Let "A2" (PermuteXVar 4 [0; 4; 1; 5; 2; 6; 3; 7]%Z) ["A1"]);
   I (Let "B2" (PermuteXVar 4 [0; 4; 1; 5; 2; 6; 3; 7]%Z) ["B1"]);
   I (Let "C2" (PermuteXVar 4 [0; 4; 1; 5; 2; 6; 3; 7]%Z) ["C1"]);
   I (Let "D2" (PermuteXVar 4 [0; 4; 1; 5; 2; 6; 3; 7]%Z) ["D1"]);
   I (Let "A3" (Permute2x128 32) ["A2"; "C2"]);
   I (Let "C3" (Permute2x128 32) ["B2"; "D2"]);
   I (Let "B3" (Permute2x128 49) ["A2"; "C2"]);
   I (Let "D3" (Permute2x128 49) ["B2"; "D2"]);
   I (Let "A4a" (UnpackLo 8) ["A3"; "C3"]);
   I (Let "B4a" (UnpackHi 8) ["A3"; "C3"]);
   I (Let "C4a" (UnpackLo 8) ["B3"; "D3"]);
   I (Let "D4a" (UnpackHi 8) ["B3"; "D3"]);
   I (Let "A1" (ShufEpi8 [0; 4; 8; 12; 1; 5; 9; 13; 2; 6; 10; 14; 3; 7; 11;
        15; 0; 4; 8; 12; 1; 5; 9; 13; 2; 6; 10; 14; 3; 7; 11; 15]%Z) ["A0b"]);
   I (Let "B1" (ShufEpi8 [0; 4; 8; 12; 1; 5; 9; 13; 2; 6; 10; 14; 3; 7; 11;
        15; 0; 4; 8; 12; 1; 5; 9; 13; 2; 6; 10; 14; 3; 7; 11; 15]%Z) ["B0b"]);
   I (Let "C1" (ShufEpi8 [0; 4; 8; 12; 1; 5; 9; 13; 2; 6; 10; 14; 3; 7; 11;
        15; 0; 4; 8; 12; 1; 5; 9; 13; 2; 6; 10; 14; 3; 7; 11; 15]%Z) ["C0b"]);
   I (Let "D1" (ShufEpi8 [0; 4; 8; 12; 1; 5; 9; 13; 2; 6; 10; 14; 3; 7; 11;
        15; 0; 4; 8; 12; 1; 5; 9; 13; 2; 6; 10; 14; 3; 7; 11; 15]%Z) ["D0b"]);
   I (Let "A2" (PermuteXVar 4 [0; 4; 1; 5; 2; 6; 3; 7]%Z) ["A1"]);
   I (Let "B2" (PermuteXVar 4 [0; 4; 1; 5; 2; 6; 3; 7]%Z) ["B1"]);
   I (Let "C2" (PermuteXVar 4 [0; 4; 1; 5; 2; 6; 3; 7]%Z) ["C1"]);
   I (Let "D2" (PermuteXVar 4 [0; 4; 1; 5; 2; 6; 3; 7]%Z) ["D1"]);
   I (Let "A3" (Permute2x128 32) ["A2"; "C2"]);
   I (Let "C3" (Permute2x128 32) ["B2"; "D2"]);
   I (Let "B3" (Permute2x128 49) ["A2"; "C2"]);
   I (Let "D3" (Permute2x128 49) ["B2"; "D2"]);
   I (Let "A4b" (UnpackLo 8) ["A3"; "C3"]);
   I (Let "B4b" (UnpackHi 8) ["A3"; "C3"]);
   I (Let "C4b" (UnpackLo 8) ["B3"; "D3"]);
   I (Let "D4b" (UnpackHi 8) ["B3"; "D3"]);
   I (Let "ret.v0" Concat ["A4a"; "A4b"]);
   I (Let "ret.v1" Concat ["B4a"; "B4b"]);
   I (Let "ret.v2" Concat ["C4a"; "C4b"]);
   I (Let "ret.v3" Concat ["D4a"; "D4b"])].

(** load4 for avx512_knl i16, avx512_knl u16, avx512_skylake i16,
        avx512_skylake u16.
    load4_avx512 x86_load_store_deg234.py:1022-1075 *)
Definition load4_avx512_knl_i16 : program :=
  [I (Load "v0" 0 64);
   I (Load "v1" 64 64);
   I (Load "v2" 128 64);
   I (Load "v3" 192 64);
   I (Let "A0a" LowHalf ["v0"]);
   I (Let "B0a" HighHalf ["v0"]);
   I (Let "C0a" LowHalf ["v1"]);
   I (Let "D0a" HighHalf ["v1"]);
   I (Let "A0b" LowHalf ["v2"]);
   I (Let "B0b" HighHalf ["v2"]);
   I (Let "C0b" LowHalf ["v3"]);
   I (Let "D0b" HighHalf ["v3"]);
   I (Let "A1" (UnpackLo 2) ["A0a"; "C0a"]);
   I (Let "B1" (UnpackHi 2) ["A0a"; "C0a"]);
   I (Let "C1" (UnpackLo 2) ["B0a"; "D0a"]);
   I (Let "D1" (UnpackHi 2) ["B0a"; "D0a"]);
   I (Let "A2" (UnpackLo 2) ["A1"; "C1"]);
   I (Let "B2" (UnpackHi 2) ["A1"; "C1"]);
   I (Let "C2" (UnpackLo 2) ["B1"; "D1"]);
   I (Let "D2" (UnpackHi 2) ["B1"; "D1"]);
   I (Let "A3a" (UnpackLo 2) ["A2"; "C2"]);
   I (Let "B3a" (UnpackHi 2) ["A2"; "C2"]);
   I (Let "C3a" (UnpackLo 2) ["B2"; "D2"]);
   I (Let "D3a" (UnpackHi 2) ["B2"; "D2"]);
   I (Let "A1" (UnpackLo 2) ["A0b"; "C0b"]);
   I (Let "B1" (UnpackHi 2) ["A0b"; "C0b"]);
   I (Let "C1" (UnpackLo 2) ["B0b"; "D0b"]);
   I (Let "D1" (UnpackHi 2) ["B0b"; "D0b"]);
   I (Let "A2" (UnpackLo 2) ["A1"; "C1"]);
   I (Let "B2" (UnpackHi 2) ["A1"; "C1"]);
   I (Let "C2" (UnpackLo 2) ["B1"; "D1"]);
   I (Let "D2" (UnpackHi 2) ["B1"; "D1"]);
   I (Let "A3b" (UnpackLo 2) ["A2"; "C2"]);
   I (Let "B3b" (UnpackHi 2) ["A2"; "C2"]);
   I (Let "C3b" (UnpackLo 2) ["B2"; "D2"]);
   I (Let "D3b" (UnpackHi 2) ["B2"; "D2"]);
   I (Let "ret.v0" Concat ["A3a"; "A3b"]);
   I (Let "ret.v1" Concat ["B3a"; "B3b"]);
   I (Let "ret.v2" Concat ["C3a"; "C3b"]);
   I (Let "ret.v3" Concat ["D3a"; "D3b"])].

(** load4 for avx512_knl i32, avx512_knl u32, avx512_knl f32, avx512_skylake
        i32, avx512_skylake u32, avx512_skylake f32.
    load4_avx512 x86_load_store_deg234.py:1077-1101 *)
Definition load4_avx512_knl_i32 : program :=
  [I (Load "v0" 0 64);
   I (Load "v1" 64 64);
   I (Load "v2" 128 64);
   I (Load "v3" 192 64);
   I (Let "WXa" (PermuteX2Var 4 [0; 4; 8; 12; 16; 20; 24; 28; 1; 5; 9; 13; 17;
        21; 25; 29]%Z) ["v0"; "v1"]);
   I (Let "WXb" (PermuteX2Var 4 [0; 4; 8; 12; 16; 20; 24; 28; 1; 5; 9; 13; 17;
        21; 25; 29]%Z) ["v2"; "v3"]);
   I (Let "YZa" (PermuteX2Var 4 [2; 6; 10; 14; 18; 22; 26; 30; 3; 7; 11; 15;
        19; 23; 27; 31]%Z) ["v0"; "v1"]);
   I (Let "YZb" (PermuteX2Var 4 [2; 6; 10; 14; 18; 22; 26; 30; 3; 7; 11; 15;
        19; 23; 27; 31]%Z) ["v2"; "v3"]);
   I (Let "ret.v0" (PermuteX2Var 4 [0; 1; 2; 3; 4; 5; 6; 7; 16; 17; 18; 19;
        20; 21; 22; 23]%Z) ["WXa"; "WXb"]);
   I (Let "ret.v1" (PermuteX2Var 4 [8; 9; 10; 11; 12; 13; 14; 15; 24; 25; 26;
        27; 28; 29; 30; 31]%Z) ["WXa"; "WXb"]);
   I (Let "ret.v2" (PermuteX2Var 4 [0; 1; 2; 3; 4; 5; 6; 7; 16; 17; 18; 19;
        20; 21; 22; 23]%Z) ["YZa"; "YZb"]);
   I (Let "ret.v3" (PermuteX2Var 4 [8; 9; 10; 11; 12; 13; 14; 15; 24; 25; 26;
        27; 28; 29; 30; 31]%Z) ["YZa"; "YZb"])].

(** load4 for avx512_knl i64, avx512_knl u64, avx512_knl f64, avx512_skylake
        i64, avx512_skylake u64, avx512_skylake f64.
    load4_avx512 x86_load_store_deg234.py:1103-1121 *)
Definition load4_avx512_knl_i64 : program :=
  [I (Load "v0" 0 64);
   I (Load "v1" 64 64);
   I (Load "v2" 128 64);
   I (Load "v3" 192 64);
   I (Let "A1" (UnpackLo 8) ["v0"; "v1"]);
   I (Let "B1" (UnpackLo 8) ["v2"; "v3"]);
   I (Let "C1" (UnpackHi 8) ["v0"; "v1"]);
   I (Let "D1" (UnpackHi 8) ["v2"; "v3"]);
   I (Let "ret.v0" (PermuteX2Var 8 [0; 4; 1; 5; 8; 12; 9; 13]%Z) ["A1"; "B1"]);
   I (Let "ret.v1" (PermuteX2Var 8 [0; 4; 1; 5; 8; 12; 9; 13]%Z) ["C1"; "D1"]);
   I (Let "ret.v2" (PermuteX2Var 8 [2; 6; 3; 7; 10; 14; 11; 15]%Z) ["A1";
        "B1"]);
   I (Let "ret.v3" (PermuteX2Var 8 [2; 6; 3; 7; 10; 14; 11; 15]%Z) ["C1";
        "D1"])].

(** store2 for sse2 i8, sse2 u8, sse42 i8, sse42 u8.
    store2 x86_load_store_deg234.py:382-382 *)
Definition store2_sse2_i8 : program :=
  [I (Let "t1" (UnpackLo 1) ["a1"; "a2"]);
   I (Store 0 "t1");
   I (Let "t2" (UnpackHi 1) ["a1"; "a2"]);
   I (Store 16 "t2")].

(** store2 for sse2 i16, sse2 u16, sse42 i16, sse42 u16.
    store2 x86_load_store_deg234.py:382-382 *)
Definition store2_sse2_i16 : program :=
  [I (Let "t1" (UnpackLo 2) ["a1"; "a2"]);
   I (Store 0 "t1");
   I (Let "t2" (UnpackHi 2) ["a1"; "a2"]);
   I (Store 16 "t2")].

(** store2 for sse2 i32, sse2 u32, sse2 f32, sse42 i32, sse42 u32, sse42 f32.
    store2 x86_load_store_deg234.py:382-382 *)
Definition store2_sse2_i32 : program :=
  [I (Let "t1" (UnpackLo 4) ["a1"; "a2"]);
   I (Store 0 "t1");
   I (Let "t2" (UnpackHi 4) ["a1"; "a2"]);
   I (Store 16 "t2")].

(** store2 for sse2 i64, sse2 u64, sse2 f64, sse42 i64, sse42 u64, sse42 f64.
    store2 x86_load_store_deg234.py:382-382 *)
Definition store2_sse2_i64 : program :=
  [I (Let "t1" (UnpackLo 8) ["a1"; "a2"]);
   I (Store 0 "t1");
   I (Let "t2" (UnpackHi 8) ["a1"; "a2"]);
   I (Store 16 "t2")].

(** store2 for avx i8, avx u8.
    store2 x86_load_store_deg234.py:412-430 *)
Definition store2_avx_i8 : program :=
  [I (Let "v0a" LowHalf ["a1"]);
   I (Let "v0b" HighHalf ["a1"]);
   I (Let "v1a" LowHalf ["a2"]);
   I (Let "v1b" HighHalf ["a2"]);
   I (Let "A1a" (UnpackLo 1) ["v0a"; "v1a"]);
   I (Let "B1a" (UnpackHi 1) ["v0a"; "v1a"]);
   I (Let "A1b" (UnpackLo 1) ["v0b"; "v1b"]);
   I (Let "B1b" (UnpackHi 1) ["v0b"; "v1b"]);
   I (Let "A1" Concat ["A1a"; "A1b"]);
   I (Let "B1" Concat ["B1a"; "B1b"]);
   I (Store 0 "A1");
   I (Store 32 "B1")].

(** store2 for avx i16, avx u16.
    store2 x86_load_store_deg234.py:432-450 *)
Definition store2_avx_i16 : program :=
  [I (Let "Xa" LowHalf ["a1"]);
   I (Let "Xb" HighHalf ["a1"]);
   I (Let "Ya" LowHalf ["a2"]);
   I (Let "Yb" HighHalf ["a2"]);
   I (Let "A0" (UnpackLo 2) ["Xa"; "Ya"]);
   I (Let "B0" (UnpackHi 2) ["Xa"; "Ya"]);
   I (Let "A1" (UnpackLo 2) ["Xb"; "Yb"]);
   I (Let "B1" (UnpackHi 2) ["Xb"; "Yb"]);
   I (Let "A" Concat ["A0"; "B0"]);
   I (Let "B" Concat ["A1"; "B1"]);
   I (Store 0 "A");
   I (Store 32 "B")].

(** store2 for avx i32, avx u32.
    store2 x86_load_store_deg234.py:457-463 *)
Definition store2_avx_i32 : program :=
  [I (Let "v0" Mov ["a1"]);
   I (Let "v1" Mov ["a2"]);
   I (Let "t1" (UnpackLo 4) ["v0"; "v1"]);
   I (Store 0 "t1");
   I (Let "t2" (UnpackHi 4) ["v0"; "v1"]);
   I (Store 32 "t2")].

(** store2 for avx i64, avx u64.
    store2 x86_load_store_deg234.py:457-463 *)
Definition store2_avx_i64 : program :=
  [I (Let "v0" Mov ["a1"]);
   I (Let "v1" Mov ["a2"]);
   I (Let "t1" (UnpackLo 8) ["v0"; "v1"]);
   I (Store 0 "t1");
   I (Let "t2" (UnpackHi 8) ["v0"; "v1"]);
   I (Store 32 "t2")].

(** store2 for avx f32, avx2 i32, avx2 u32, avx2 f32.
    store2 x86_load_store_deg234.py:453-453 *)
Definition store2_avx_f32 : program :=
  [I (Let "t1" (UnpackLo 4) ["a1"; "a2"]);
   I (Store 0 "t1");
   I (Let "t2" (UnpackHi 4) ["a1"; "a2"]);
   I (Store 32 "t2")].

(** store2 for avx f64, avx2 i64, avx2 u64, avx2 f64.
    store2 x86_load_store_deg234.py:453-453 *)
Definition store2_avx_f64 : program :=
  [I (Let "t1" (UnpackLo 8) ["a1"; "a2"]);
   I (Store 0 "t1");
   I (Let "t2" (UnpackHi 8) ["a1"; "a2"]);
   I (Store 32 "t2")].

(** store2 for avx2 i8, avx2 u8.
    store2 x86_load_store_deg234.py:392-407 *)
Definition store2_avx2_i8 : program :=
  [I (Let "A1" (Permute2x128 32) ["a1"; "a2"]);
   I (Let "B1" (Permute2x128 49) ["a1"; "a2"]);
   I (Let "A2" (Permute4x64 216) ["A1"]);
   I (Let "B2" (Permute4x64 216) ["B1"]);
   I (Let "t1" (ShufEpi8 [0; 8; 1; 9; 2; 10; 3; 11; 4; 12; 5; 13; 6; 14; 7;
        15; 0; 8; 1; 9; 2; 10; 3; 11; 4; 12; 5; 13; 6; 14; 7; 15]%Z) ["A2"]);
   I (Store 0 "t1");
   I (Let "t2" (ShufEpi8 [0; 8; 1; 9; 2; 10; 3; 11; 4; 12; 5; 13; 6; 14; 7;
        15; 0; 8; 1; 9; 2; 10; 3; 11; 4; 12; 5; 13; 6; 14; 7; 15]%Z) ["B2"]);
   I (Store 32 "t2")].

(** store2 for avx2 i16, avx2 u16.
    store2 x86_load_store_deg234.py:409-409 *)
Definition store2_avx2_i16 : program :=
  [I (Let "t1" (UnpackLo 2) ["a1"; "a2"]);
   I (Store 0 "t1");
   I (Let "t2" (UnpackHi 2) ["a1"; "a2"]);
   I (Store 32 "t2")].

(** store2 for avx512_knl i8, avx512_knl u8, avx512_skylake i8, avx512_skylake
        u8.
    store2 x86_load_store_deg234.py:466-496 *)
Definition store2_avx512_knl_i8 : program :=
  [I (Let "A1" LowHalf ["a1"]);
   I (Let "B1" HighHalf ["a1"]);
   I (Let "C1" LowHalf ["a2"]);
   I (Let "D1" HighHalf ["a2"]);
   I (Let "A2" (Permute2x128 32) ["A1"; "C1"]);
   I (Let "B2" (Permute2x128 49) ["A1"; "C1"]);
   I (Let "C2" (Permute2x128 32) ["B1"; "D1"]);
   I (Let "D2" (Permute2x128 49) ["B1"; "D1"]);
   I (Let "A3" (Permute4x64 216) ["A2"]);
   I (Let "B3" (Permute4x64 216) ["B2"]);
   I (Let "C3" (Permute4x64 216) ["C2"]);
   I (Let "D3" (Permute4x64 216) ["D2"]);
   I (Let "A4" (ShufEpi8 [0; 8; 1; 9; 2; 10; 3; 11; 4; 12; 5; 13; 6; 14; 7;
        15; 0; 8; 1; 9; 2; 10; 3; 11; 4; 12; 5; 13; 6; 14; 7; 15]%Z) ["A3"]);
   I (Let "B4" (ShufEpi8 [0; 8; 1; 9; 2; 10; 3; 11; 4; 12; 5; 13; 6; 14; 7;
        15; 0; 8; 1; 9; 2; 10; 3; 11; 4; 12; 5; 13; 6; 14; 7; 15]%Z) ["B3"]);
   I (Let "C4" (ShufEpi8 [0; 8; 1; 9; 2; 10; 3; 11; 4; 12; 5; 13; 6; 14; 7;
        15; 0; 8; 1; 9; 2; 10; 3; 11; 4; 12; 5; 13; 6; 14; 7; 15]%Z) ["C3"]);
   I (Let "D4" (ShufEpi8 [0; 8; 1; 9; 2; 10; 3; 11; 4; 12; 5; 13; 6; 14; 7;
        15; 0; 8; 1; 9; 2; 10; 3; 11; 4; 12; 5; 13; 6; 14; 7; 15]%Z) ["D3"]);
   I (Let "t1" Concat ["A4"; "B4"]);
   I (Store 0 "t1");
   I (Let "t2" Concat ["C4"; "D4"]);
   I (Store 64 "t2")].

(** store2 for avx512_knl i16, avx512_knl u16, avx512_skylake i16,
        avx512_skylake u16.
    store2 x86_load_store_deg234.py:498-513 *)
Definition store2_avx512_knl_i16 : program :=
  [I (Let "A0a" LowHalf ["a1"]);
   I (Let "A0b" HighHalf ["a1"]);
   I (Let "B0a" LowHalf ["a2"]);
   I (Let "B0b" HighHalf ["a2"]);
   I (Let "A1a" (UnpackLo 2) ["A0a"; "B0a"]);
   I (Let "B1a" (UnpackHi 2) ["A0a"; "B0a"]);
   I (Let "A1b" (UnpackLo 2) ["A0b"; "B0b"]);
   I (Let "B1b" (UnpackHi 2) ["A0b"; "B0b"]);
   I (Let "t1" Concat ["A1a"; "B1a"]);
   I (Store 0 "t1");
   I (Let "t2" Concat ["A1b"; "B1b"]);
   I (Store 64 "t2")].

(** store2 for avx512_knl i32, avx512_knl u32, avx512_knl f32, avx512_skylake
        i32, avx512_skylake u32, avx512_skylake f32.
    store2 x86_load_store_deg234.py:515-523 *)
Definition store2_avx512_knl_i32 : program :=
  [I (Let "t1" (PermuteX2Var 4 [0; 16; 1; 17; 2; 18; 3; 19; 4; 20; 5; 21; 6;
        22; 7; 23]%Z) ["a1"; "a2"]);
   I (Store 0 "t1");
   I (Let "t2" (PermuteX2Var 4 [8; 24; 9; 25; 10; 26; 11; 27; 12; 28; 13; 29;
        14; 30; 15; 31]%Z) ["a1"; "a2"]);
   I (Store 64 "t2")].

(** store2 for avx512_knl i64, avx512_knl u64, avx512_knl f64, avx512_skylake
        i64, avx512_skylake u64, avx512_skylake f64.
    store2 x86_load_store_deg234.py:525-528 *)
Definition store2_avx512_knl_i64 : program :=
  [I (Let "t1" (UnpackLo 8) ["a1"; "a2"]);
   I (Store 0 "t1");
   I (Let "t2" (UnpackHi 8) ["a1"; "a2"]);
   I (Store 64 "t2")].

(** store3 for sse2 i8, sse2 u8.
    store3_sse x86_load_store_deg234.py:1796-1837 *)
Definition store3_sse2_i8 : program :=
  [I (Let "A0" Mov ["a1"]);
   I (Let "B0" Mov ["a2"]);
   I (Let "C0" Mov ["a3"]);
   Loop 4 [
      Let "A1" (UnpackLo 1) ["A0"; "B0"];
      Let "A2" (UnpackHi 1) ["A0"; "B0"];
      Let "A3" (UnpackLo 1) ["A1"; "A2"];
      Let "A4" (UnpackHi 1) ["A1"; "A2"];
      Let "A5" (UnpackLo 1) ["A3"; "A4"];
      Let "A6" (UnpackHi 1) ["A3"; "A4"];
      Let "A7" (UnpackLo 1) ["A5"; "A6"];
      Let "B8" (UnpackHi 1) ["A5"; "A6"];
      Let "t1" (ShufPd 1) ["C0"; "C0"];
      Let "C9" Mov ["t1"];
      Let "C10" (UnpackLo 1) ["C0"; "C9"];
      Let "t2" (ShufPd 1) ["C10"; "C10"];
      Let "C11" Mov ["t2"];
      Let "C12" (UnpackLo 1) ["C10"; "C11"];
      Let "t3" (ShufPd 1) ["C12"; "C12"];
      Let "C13" Mov ["t3"];
      Let "C14" (UnpackLo 1) ["C12"; "C13"];
      Let "t4" (ShufPd 0) ["C14"; "B8"];
      Let "B15" Mov ["t4"];
      Let "t5" (ShufPd 3) ["B8"; "C14"];
      Let "C16" Mov ["t5"];
      Let "A0" Mov ["A7"];
      Let "B0" Mov ["B15"];
      Let "C0" Mov ["C16"]];
   I (Store 0 "A0");
   I (Store 16 "B0");
   I (Store 32 "C0")].

(** store3 for sse2 i16, sse2 u16, sse42 i16, sse42 u16.
    store3_sse x86_load_store_deg234.py:1884-1915 *)
Definition store3_sse2_i16 : program :=
  [I (Let "A0" Mov ["a1"]);
   I (Let "B0" Mov ["a2"]);
   I (Let "C0" Mov ["a3"]);
   Loop 3 [
      Let "A1" (ShufLo16 216) ["A0"];
      Let "A2" (ShufHi16 216) ["A1"];
      Let "B3" (ShufLo16 216) ["B0"];
      Let "B4" (ShufHi16 216) ["B3"];
      Let "C5" (ShufLo16 216) ["C0"];
      Let "C6" (ShufHi16 216) ["C5"];
      Let "A2_ps" Mov ["A2"];
      Let "B4_ps" Mov ["B4"];
      Let "C6_ps" Mov ["C6"];
      Let "A0_ps" (ShufPs 136) ["A2_ps"; "B4_ps"];
      Let "B0_ps" (ShufPs 216) ["C6_ps"; "A2_ps"];
      Let "C0_ps" (ShufPs 221) ["B4_ps"; "C6_ps"];
      Let "A0" Mov ["A0_ps"];
      Let "B0" Mov ["B0_ps"];
      Let "C0" Mov ["C0_ps"]];
   I (Store 0 "A0");
   I (Store 16 "B0");
   I (Store 32 "C0")].

(** store3 for sse2 i32, sse2 u32, sse42 i32, sse42 u32.
    store3_sse x86_load_store_deg234.py:1930-1935; store3_sse
        x86_load_store_deg234.py:1917-1928 *)
Definition store3_sse2_i32 : program :=
  [I (Let "f.a1" Mov ["a1"]);
   I (Let "f.a2" Mov ["a2"]);
   I (Let "f.a3" Mov ["a3"]);
   I (Let "f.A1" (ShufPs 136) ["f.a1"; "f.a2"]);
   I (Let "f.B2" (ShufPs 216) ["f.a3"; "f.a1"]);
   I (Let "f.C3" (ShufPs 221) ["f.a2"; "f.a3"]);
   I (Let "f.A4" (ShufPs 136) ["f.A1"; "f.B2"]);
   I (Let "f.B5" (ShufPs 216) ["f.C3"; "f.A1"]);
   I (Let "f.C6" (ShufPs 221) ["f.B2"; "f.C3"]);
   I (Store 0 "f.A4");
   I (Store 16 "f.B5");
   I (Store 32 "f.C6")].

(** store3 for sse2 i64, sse2 u64, sse42 i64, sse42 u64.
    store3_sse x86_load_store_deg234.py:1945-1950; store3_sse
        x86_load_store_deg234.py:1937-1943 *)
Definition store3_sse2_i64 : program :=
  [I (Let "f.a1" Mov ["a1"]);
   I (Let "f.a2" Mov ["a2"]);
   I (Let "f.a3" Mov ["a3"]);
   I (Let "f.A0" (UnpackLo 8) ["f.a1"; "f.a2"]);
   I (Let "f.B0" (ShufPd 2) ["f.a3"; "f.a1"]);
   I (Let "f.C0" (UnpackHi 8) ["f.a2"; "f.a3"]);
   I (Store 0 "f.A0");
   I (Store 16 "f.B0");
   I (Store 32 "f.C0")].

(** store3 for sse2 f32, sse42 f32.
    store3_sse x86_load_store_deg234.py:1917-1928 *)
Definition store3_sse2_f32 : program :=
  [I (Let "A1" (ShufPs 136) ["a1"; "a2"]);
   I (Let "B2" (ShufPs 216) ["a3"; "a1"]);
   I (Let "C3" (ShufPs 221) ["a2"; "a3"]);
   I (Let "A4" (ShufPs 136) ["A1"; "B2"]);
   I (Let "B5" (ShufPs 216) ["C3"; "A1"]);
   I (Let "C6" (ShufPs 221) ["B2"; "C3"]);
   I (Store 0 "A4");
   I (Store 16 "B5");
   I (Store 32 "C6")].

(** store3 for sse2 f64, sse42 f64.
    store3_sse x86_load_store_deg234.py:1937-1943 *)
Definition store3_sse2_f64 : program :=
  [I (Let "A0" (UnpackLo 8) ["a1"; "a2"]);
   I (Let "B0" (ShufPd 2) ["a3"; "a1"]);
   I (Let "C0" (UnpackHi 8) ["a2"; "a3"]);
   I (Store 0 "A0");
   I (Store 16 "B0");
   I (Store 32 "C0")].

(** store3 for sse42 i8, sse42 u8.
    store3_sse x86_load_store_deg234.py:1756-1794 *)
Definition store3_sse42_i8 : program :=
  [I (Let "A4" (ShufEpi8 [0; (-1); (-1); 1; (-1); (-1); 2; (-1); (-1); 3;
        (-1); (-1); 4; (-1); (-1); 5]%Z) ["a1"]);
   I (Let "A5" (ShufEpi8 [(-1); 0; (-1); (-1); 1; (-1); (-1); 2; (-1); (-1);
        3; (-1); (-1); 4; (-1); (-1)]%Z) ["a2"]);
   I (Let "A6" (ShufEpi8 [(-1); (-1); 0; (-1); (-1); 1; (-1); (-1); 2; (-1);
        (-1); 3; (-1); (-1); 4; (-1)]%Z) ["a3"]);
   I (Let "A4" Or ["A4"; "A5"]);
   I (Let "A4" Or ["A4"; "A6"]);
   I (Let "B4" (ShufEpi8 [(-1); (-1); 6; (-1); (-1); 7; (-1); (-1); 8; (-1);
        (-1); 9; (-1); (-1); 10; (-1)]%Z) ["a1"]);
   I (Let "B5" (ShufEpi8 [5; (-1); (-1); 6; (-1); (-1); 7; (-1); (-1); 8;
        (-1); (-1); 9; (-1); (-1); 10]%Z) ["a2"]);
   I (Let "B6" (ShufEpi8 [(-1); 5; (-1); (-1); 6; (-1); (-1); 7; (-1); (-1);
        8; (-1); (-1); 9; (-1); (-1)]%Z) ["a3"]);
   I (Let "B4" Or ["B4"; "B5"]);
   I (Let "B4" Or ["B4"; "B6"]);
   I (Let "C4" (ShufEpi8 [(-1); 11; (-1); (-1); 12; (-1); (-1); 13; (-1);
        (-1); 14; (-1); (-1); 15; (-1); (-1)]%Z) ["a1"]);
   I (Let "C5" (ShufEpi8 [(-1); (-1); 11; (-1); (-1); 12; (-1); (-1); 13;
        (-1); (-1); 14; (-1); (-1); 15; (-1)]%Z) ["a2"]);
   I (Let "C6" (ShufEpi8 [10; (-1); (-1); 11; (-1); (-1); 12; (-1); (-1); 13;
        (-1); (-1); 14; (-1); (-1); 15]%Z) ["a3"]);
   I (Let "C4" Or ["C4"; "C5"]);
   I (Let "C4" Or ["C4"; "C6"]);
   I (Store 0 "A4");
   I (Store 16 "B4");
   I (Store 32 "C4")].

(** store3 for avx i8, avx u8.
    store3_avx x86_load_store_deg234.py:2487-2557 *)
Definition store3_avx_i8 : program :=
  [I (Let "Ra" LowHalf ["a1"]);
   I (Let "Rb" HighHalf ["a1"]);
   I (Let "Ga" LowHalf ["a2"]);
   I (Let "Gb" HighHalf ["a2"]);
   I (Let "Ba" LowHalf ["a3"]);
   I (Let "Bb" HighHalf ["a3"]);
   I (Let "RA" (ShufEpi8 [0; (-1); (-1); 1; (-1); (-1); 2; (-1); (-1); 3;
        (-1); (-1); 4; (-1); (-1); 5]%Z) ["Ra"]);
   I (Let "GA" (ShufEpi8 [(-1); 0; (-1); (-1); 1; (-1); (-1); 2; (-1); (-1);
        3; (-1); (-1); 4; (-1); (-1)]%Z) ["Ga"]);
   I (Let "BA" (ShufEpi8 [(-1); (-1); 0; (-1); (-1); 1; (-1); (-1); 2; (-1);
        (-1); 3; (-1); (-1); 4; (-1)]%Z) ["Ba"]);
   I (Let "A0" Or ["RA"; "GA"]);
   I (Let "A0" Or ["A0"; "BA"]);
   I (Let "RA" (ShufEpi8 [0; (-1); (-1); 1; (-1); (-1); 2; (-1); (-1); 3;
        (-1); (-1); 4; (-1); (-1); 5]%Z) ["Rb"]);
   I (Let "GA" (ShufEpi8 [(-1); 0; (-1); (-1); 1; (-1); (-1); 2; (-1); (-1);
        3; (-1); (-1); 4; (-1); (-1)]%Z) ["Gb"]);
   I (Let "BA" (ShufEpi8 [(-1); (-1); 0; (-1); (-1); 1; (-1); (-1); 2; (-1);
        (-1); 3; (-1); (-1); 4; (-1)]%Z) ["Bb"]);
   I (Let "A1" Or ["RA"; "GA"]);
   I (Let "A1" Or ["A1"; "BA"]);
   I (Let "RB" (ShufEpi8 [(-1); (-1); 6; (-1); (-1); 7; (-1); (-1); 8; (-1);
        (-1); 9; (-1); (-1); 10; (-1)]%Z) ["Ra"]);
   I (Let "GB" (ShufEpi8 [5; (-1); (-1); 6; (-1); (-1); 7; (-1); (-1); 8;
        (-1); (-1); 9; (-1); (-1); 10]%Z) ["Ga"]);
   I (Let "BB" (ShufEpi8 [(-1); 5; (-1); (-1); 6; (-1); (-1); 7; (-1); (-1);
        8; (-1); (-1); 9; (-1); (-1)]%Z) ["Ba"]);
   I (Let "B0" Or ["RB"; "GB"]);
   I (Let "B0" Or ["B0"; "BB"]);
   I (Let "RB" (ShufEpi8 [(-1); (-1); 6; (-1); (-1); 7; (-1); (-1); 8; (-1);
        (-1); 9; (-1); (-1); 10; (-1)]%Z) ["Rb"]);
   I (Let "GB" (ShufEpi8 [5; (-1); (-1); 6; (-1); (-1); 7; (-1); (-1); 8;
        (-1); (-1); 9; (-1); (-1); 10]%Z) ["Gb"]);
   I (Let "BB" (ShufEpi8 [(-1); 5; (-1); (-1); 6; (-1); (-1); 7; (-1); (-1);
        8; (-1); (-1); 9; (-1); (-1)]%Z) ["Bb"]);
   I (Let "B1" Or ["RB"; "GB"]);
   I (Let "B1" Or ["B1"; "BB"]);
   I (Let "RC" (ShufEpi8 [(-1); 11; (-1); (-1); 12; (-1); (-1); 13; (-1);
        (-1); 14; (-1); (-1); 15; (-1); (-1)]%Z) ["Ra"]);
   I (Let "GC" (ShufEpi8 [(-1); (-1); 11; (-1); (-1); 12; (-1); (-1); 13;
        (-1); (-1); 14; (-1); (-1); 15; (-1)]%Z) ["Ga"]);
   I (Let "BC" (ShufEpi8 [10; (-1); (-1); 11; (-1); (-1); 12; (-1); (-1); 13;
        (-1); (-1); 14; (-1); (-1); 15]%Z) ["Ba"]);
   I (Let "C0" Or ["RC"; "GC"]);
   I (Let "C0" Or ["C0"; "BC"]);
   I (Let "RC" (ShufEpi8 [(-1); 11; (-1); (-1); 12; (-1); (-1); 13; (-1);
        (-1); 14; (-1); (-1); 15; (-1); (-1)]%Z) ["Rb"]);
   I (Let "GC" (ShufEpi8 [(-1); (-1); 11; (-1); (-1); 12; (-1); (-1); 13;
        (-1); (-1); 14; (-1); (-1); 15; (-1)]%Z) ["Gb"]);
   I (Let "BC" (ShufEpi8 [10; (-1); (-1); 11; (-1); (-1); 12; (-1); (-1); 13;
        (-1); (-1); 14; (-1); (-1); 15]%Z) ["Bb"]);
   I (Let "C1" Or ["RC"; "GC"]);
   I (Let "C1" Or ["C1"; "BC"]);
   I (Let "A" Concat ["A0"; "B0"]);
   I (Let "B" Concat ["C0"; "A1"]);
   I (Let "C" Concat ["B1"; "C1"]);
   I (Store 0 "A");
   I (Store 32 "B");
   I (Store 64 "C")].

(** store3 for avx i16, avx u16.
    store3_avx x86_load_store_deg234.py:2627-2697 *)
Definition store3_avx_i16 : program :=
  [I (Let "Ra" LowHalf ["a1"]);
   I (Let "Rb" HighHalf ["a1"]);
   I (Let "Ga" LowHalf ["a2"]);
   I (Let "Gb" HighHalf ["a2"]);
   I (Let "Ba" LowHalf ["a3"]);
   I (Let "Bb" HighHalf ["a3"]);
   I (Let "RA" (ShufEpi8 [0; 1; (-1); (-1); (-1); (-1); 2; 3; (-1); (-1);
        (-1); (-1); 4; 5; (-1); (-1)]%Z) ["Ra"]);
   I (Let "GA" (ShufEpi8 [(-1); (-1); 0; 1; (-1); (-1); (-1); (-1); 2; 3;
        (-1); (-1); (-1); (-1); 4; 5]%Z) ["Ga"]);
   I (Let "BA" (ShufEpi8 [(-1); (-1); (-1); (-1); 0; 1; (-1); (-1); (-1);
        (-1); 2; 3; (-1); (-1); (-1); (-1)]%Z) ["Ba"]);
   I (Let "A0" Or ["RA"; "GA"]);
   I (Let "A0" Or ["A0"; "BA"]);
   I (Let "RA" (ShufEpi8 [0; 1; (-1); (-1); (-1); (-1); 2; 3; (-1); (-1);
        (-1); (-1); 4; 5; (-1); (-1)]%Z) ["Rb"]);
   I (Let "GA" (ShufEpi8 [(-1); (-1); 0; 1; (-1); (-1); (-1); (-1); 2; 3;
        (-1); (-1); (-1); (-1); 4; 5]%Z) ["Gb"]);
   I (Let "BA" (ShufEpi8 [(-1); (-1); (-1); (-1); 0; 1; (-1); (-1); (-1);
        (-1); 2; 3; (-1); (-1); (-1); (-1)]%Z) ["Bb"]);
   I (Let "A1" Or ["RA"; "GA"]);
   I (Let "A1" Or ["A1"; "BA"]);
   I (Let "RB" (ShufEpi8 [(-1); (-1); 6; 7; (-1); (-1); (-1); (-1); 8; 9;
        (-1); (-1); (-1); (-1); 10; 11]%Z) ["Ra"]);
   I (Let "GB" (ShufEpi8 [(-1); (-1); (-1); (-1); 6; 7; (-1); (-1); (-1);
        (-1); 8; 9; (-1); (-1); (-1); (-1)]%Z) ["Ga"]);
   I (Let "BB" (ShufEpi8 [4; 5; (-1); (-1); (-1); (-1); 6; 7; (-1); (-1);
        (-1); (-1); 8; 9; (-1); (-1)]%Z) ["Ba"]);
   I (Let "B0" Or ["RB"; "GB"]);
   I (Let "B0" Or ["B0"; "BB"]);
   I (Let "RB" (ShufEpi8 [(-1); (-1); 6; 7; (-1); (-1); (-1); (-1); 8; 9;
        (-1); (-1); (-1); (-1); 10; 11]%Z) ["Rb"]);
   I (Let "GB" (ShufEpi8 [(-1); (-1); (-1); (-1); 6; 7; (-1); (-1); (-1);
        (-1); 8; 9; (-1); (-1); (-1); (-1)]%Z) ["Gb"]);
   I (Let "BB" (ShufEpi8 [4; 5; (-1); (-1); (-1); (-1); 6; 7; (-1); (-1);
        (-1); (-1); 8; 9; (-1); (-1)]%Z) ["Bb"]);
   I (Let "B1" Or ["RB"; "GB"]);
   I (Let "B1" Or ["B1"; "BB"]);
   I (Let "RC" (ShufEpi8 [(-1); (-1); (-1); (-1); 12; 13; (-1); (-1); (-1);
        (-1); 14; 15; (-1); (-1); (-1); (-1)]%Z) ["Ra"]);
   I (Let "GC" (ShufEpi8 [10; 11; (-1); (-1); (-1); (-1); 12; 13; (-1); (-1);
        (-1); (-1); 14; 15; (-1); (-1)]%Z) ["Ga"]);
   I (Let "BC" (ShufEpi8 [(-1); (-1); 10; 11; (-1); (-1); (-1); (-1); 12; 13;
        (-1); (-1); (-1); (-1); 14; 15]%Z) ["Ba"]);
   I (Let "C0" Or ["RC"; "GC"]);
   I (Let "C0" Or ["C0"; "BC"]);
   I (Let "RC" (ShufEpi8 [(-1); (-1); (-1); (-1); 12; 13; (-1); (-1); (-1);
        (-1); 14; 15; (-1); (-1); (-1); (-1)]%Z) ["Rb"]);
   I (Let "GC" (ShufEpi8 [10; 11; (-1); (-1); (-1); (-1); 12; 13; (-1); (-1);
        (-1); (-1); 14; 15; (-1); (-1)]%Z) ["Gb"]);
   I (Let "BC" (ShufEpi8 [(-1); (-1); 10; 11; (-1); (-1); (-1); (-1); 12; 13;
        (-1); (-1); (-1); (-1); 14; 15]%Z) ["Bb"]);
   I (Let "C1" Or ["RC"; "GC"]);
   I (Let "C1" Or ["C1"; "BC"]);
   I (Let "A" Concat ["A0"; "B0"]);
   I (Let "B" Concat ["C0"; "A1"]);
   I (Let "C" Concat ["B1"; "C1"]);
   I (Store 0 "A");
   I (Store 32 "B");
   I (Store 64 "C")].

(** store3 for avx i32, avx u32.
    store3_avx x86_load_store_deg234.py:2782-2787; store3_avx
        x86_load_store_deg234.py:2738-2777 *)
Definition store3_avx_i32 : program :=
  [I (Let "f.a1" Mov ["a1"]);
   I (Let "f.a2" Mov ["a2"]);
   I (Let "f.a3" Mov ["a3"]);
   I (Let "f.RA" (PermuteVarPs [0; (-1); (-1); 1; (-1); (-1); 2; (-1)]%Z)
        ["f.a1"]);
   I (Let "f.RB" (PermuteVarPs [(-1); 3; (-1); (-1); 4; (-1); (-1); 5]%Z)
        ["f.a1"]);
   I (Let "f.RC" (PermuteVarPs [(-1); (-1); 6; (-1); (-1); 7; (-1); (-1)]%Z)
        ["f.a1"]);
   I (Let "f.GA" (PermuteVarPs [(-1); 0; (-1); (-1); 1; (-1); (-1); 2]%Z)
        ["f.a2"]);
   I (Let "f.GB" (PermuteVarPs [(-1); (-1); 3; (-1); (-1); 4; (-1); (-1)]%Z)
        ["f.a2"]);
   I (Let "f.GC" (PermuteVarPs [5; (-1); (-1); 6; (-1); (-1); 7; (-1)]%Z)
        ["f.a2"]);
   I (Let "f.BA" (PermuteVarPs [(-1); (-1); 0; (-1); (-1); 1; (-1); (-1)]%Z)
        ["f.a3"]);
   I (Let "f.BB" (PermuteVarPs [2; (-1); (-1); 3; (-1); (-1); 4; (-1)]%Z)
        ["f.a3"]);
   I (Let "f.BC" (PermuteVarPs [(-1); 5; (-1); (-1); 6; (-1); (-1); 7]%Z)
        ["f.a3"]);
   I (Let "f.A1" (Blend 4 146) ["f.RA"; "f.GA"]);
   I (Let "f.A1" (Blend 4 36) ["f.A1"; "f.BA"]);
   I (Let "f.B" (Blend 4 36) ["f.RB"; "f.GB"]);
   I (Let "f.B" (Blend 4 73) ["f.B"; "f.BB"]);
   I (Let "f.C1" (Blend 4 73) ["f.RC"; "f.GC"]);
   I (Let "f.C1" (Blend 4 146) ["f.C1"; "f.BC"]);
   I (Let "f.A" (Permute2x128 32) ["f.A1"; "f.C1"]);
   I (Let "f.C" (Permute2x128 49) ["f.A1"; "f.C1"]);
   I (Store 0 "f.A");
   I (Store 32 "f.B");
   I (Store 64 "f.C")].

(** store3 for avx i64, avx u64, avx2 i64, avx2 u64.
    store3_avx x86_load_store_deg234.py:2802-2807; store3_avx
        x86_load_store_deg234.py:2789-2800 *)
Definition store3_avx_i64 : program :=
  [I (Let "f.a1" Mov ["a1"]);
   I (Let "f.a2" Mov ["a2"]);
   I (Let "f.a3" Mov ["a3"]);
   I (Let "f.invv1" (PermutePd 5) ["f.a2"]);
   I (Let "f.A1C0" (Blend 8 5) ["f.a1"; "f.a3"]);
   I (Let "f.A0B1" (Blend 8 10) ["f.a1"; "f.invv1"]);
   I (Let "f.B0C1" (Blend 8 10) ["f.invv1"; "f.a3"]);
   I (Let "f.A" (Permute2x128 32) ["f.A0B1"; "f.A1C0"]);
   I (Let "f.B" (Blend 8 12) ["f.B0C1"; "f.A0B1"]);
   I (Let "f.C" (Permute2x128 49) ["f.A1C0"; "f.B0C1"]);
   I (Store 0 "f.A");
   I (Store 32 "f.B");
   I (Store 64 "f.C")].

(** store3 for avx f32.
    store3_avx x86_load_store_deg234.py:2738-2777 *)
Definition store3_avx_f32 : program :=
  [I (Let "RA" (PermuteVarPs [0; (-1); (-1); 1; (-1); (-1); 2; (-1)]%Z)
        ["a1"]);
   I (Let "RB" (PermuteVarPs [(-1); 3; (-1); (-1); 4; (-1); (-1); 5]%Z)
        ["a1"]);
   I (Let "RC" (PermuteVarPs [(-1); (-1); 6; (-1); (-1); 7; (-1); (-1)]%Z)
        ["a1"]);
   I (Let "GA" (PermuteVarPs [(-1); 0; (-1); (-1); 1; (-1); (-1); 2]%Z)
        ["a2"]);
   I (Let "GB" (PermuteVarPs [(-1); (-1); 3; (-1); (-1); 4; (-1); (-1)]%Z)
        ["a2"]);
   I (Let "GC" (PermuteVarPs [5; (-1); (-1); 6; (-1); (-1); 7; (-1)]%Z)
        ["a2"]);
   I (Let "BA" (PermuteVarPs [(-1); (-1); 0; (-1); (-1); 1; (-1); (-1)]%Z)
        ["a3"]);
   I (Let "BB" (PermuteVarPs [2; (-1); (-1); 3; (-1); (-1); 4; (-1)]%Z)
        ["a3"]);
   I (Let "BC" (PermuteVarPs [(-1); 5; (-1); (-1); 6; (-1); (-1); 7]%Z)
        ["a3"]);
   I (Let "A1" (Blend 4 146) ["RA"; "GA"]);
   I (Let "A1" (Blend 4 36) ["A1"; "BA"]);
   I (Let "B" (Blend 4 36) ["RB"; "GB"]);
   I (Let "B" (Blend 4 73) ["B"; "BB"]);
   I (Let "C1" (Blend 4 73) ["RC"; "GC"]);
   I (Let "C1" (Blend 4 146) ["C1"; "BC"]);
   I (Let "A" (Permute2x128 32) ["A1"; "C1"]);
   I (Let "C" (Permute2x128 49) ["A1"; "C1"]);
   I (Store 0 "A");
   I (Store 32 "B");
   I (Store 64 "C")].

(** store3 for avx f64, avx2 f64.
    store3_avx x86_load_store_deg234.py:2789-2800 *)
Definition store3_avx_f64 : program :=
  [I (Let "invv1" (PermutePd 5) ["a2"]);
   I (Let "A1C0" (Blend 8 5) ["a1"; "a3"]);
   I (Let "A0B1" (Blend 8 10) ["a1"; "invv1"]);
   I (Let "B0C1" (Blend 8 10) ["invv1"; "a3"]);
   I (Let "A" (Permute2x128 32) ["A0B1"; "A1C0"]);
   I (Let "B" (Blend 8 12) ["B0C1"; "A0B1"]);
   I (Let "C" (Permute2x128 49) ["A1C0"; "B0C1"]);
   I (Store 0 "A");
   I (Store 32 "B");
   I (Store 64 "C")].

(** store3 for avx2 i8, avx2 u8.
    store3_avx x86_load_store_deg234.py:2420-2485 *)
Definition store3_avx2_i8 : program :=
  [I (Let "RAC" (ShufEpi8 [0; (-1); (-1); 1; (-1); (-1); 2; (-1); (-1); 3;
        (-1); (-1); 4; (-1); (-1); 5; (-1); 27; (-1); (-1); 28; (-1); (-1);
        29; (-1); (-1); 30; (-1); (-1); 31; (-1); (-1)]%Z) ["a1"]);
   I (Let "GAC" (ShufEpi8 [(-1); 0; (-1); (-1); 1; (-1); (-1); 2; (-1); (-1);
        3; (-1); (-1); 4; (-1); (-1); (-1); (-1); 27; (-1); (-1); 28; (-1);
        (-1); 29; (-1); (-1); 30; (-1); (-1); 31; (-1)]%Z) ["a2"]);
   I (Let "BAC" (ShufEpi8 [(-1); (-1); 0; (-1); (-1); 1; (-1); (-1); 2; (-1);
        (-1); 3; (-1); (-1); 4; (-1); 26; (-1); (-1); 27; (-1); (-1); 28;
        (-1); (-1); 29; (-1); (-1); 30; (-1); (-1); 31]%Z) ["a3"]);
   I (Let "RBB" (ShufEpi8 [(-1); 11; (-1); (-1); 12; (-1); (-1); 13; (-1);
        (-1); 14; (-1); (-1); 15; (-1); (-1); 16; (-1); (-1); 17; (-1); (-1);
        18; (-1); (-1); 19; (-1); (-1); 20; (-1); (-1); 21]%Z) ["a1"]);
   I (Let "GBB" (ShufEpi8 [(-1); (-1); 11; (-1); (-1); 12; (-1); (-1); 13;
        (-1); (-1); 14; (-1); (-1); 15; (-1); (-1); 16; (-1); (-1); 17; (-1);
        (-1); 18; (-1); (-1); 19; (-1); (-1); 20; (-1); (-1)]%Z) ["a2"]);
   I (Let "BBB" (ShufEpi8 [10; (-1); (-1); 11; (-1); (-1); 12; (-1); (-1); 13;
        (-1); (-1); 14; (-1); (-1); 15; (-1); (-1); 16; (-1); (-1); 17; (-1);
        (-1); 18; (-1); (-1); 19; (-1); (-1); 20; (-1)]%Z) ["a3"]);
   I (Let "RCA" (ShufEpi8 [(-1); (-1); 22; (-1); (-1); 23; (-1); (-1); 24;
        (-1); (-1); 25; (-1); (-1); 26; (-1); (-1); (-1); 6; (-1); (-1); 7;
        (-1); (-1); 8; (-1); (-1); 9; (-1); (-1); 10; (-1)]%Z) ["a1"]);
   I (Let "GCA" (ShufEpi8 [21; (-1); (-1); 22; (-1); (-1); 23; (-1); (-1); 24;
        (-1); (-1); 25; (-1); (-1); 26; 5; (-1); (-1); 6; (-1); (-1); 7; (-1);
        (-1); 8; (-1); (-1); 9; (-1); (-1); 10]%Z) ["a2"]);
   I (Let "BCA" (ShufEpi8 [(-1); 21; (-1); (-1); 22; (-1); (-1); 23; (-1);
        (-1); 24; (-1); (-1); 25; (-1); (-1); (-1); 5; (-1); (-1); 6; (-1);
        (-1); 7; (-1); (-1); 8; (-1); (-1); 9; (-1); (-1)]%Z) ["a3"]);
   I (Let "AC" Or ["RAC"; "GAC"]);
   I (Let "AC" Or ["AC"; "BAC"]);
   I (Let "B" Or ["RBB"; "GBB"]);
   I (Let "B" Or ["B"; "BBB"]);
   I (Let "CA" Or ["RCA"; "GCA"]);
   I (Let "CA" Or ["CA"; "BCA"]);
   I (Let "A" (Permute2x128 32) ["AC"; "CA"]);
   I (Let "C" (Permute2x128 19) ["AC"; "CA"]);
   I (Store 0 "A");
   I (Store 32 "B");
   I (Store 64 "C")].

(** store3 for avx2 i16, avx2 u16.
    store3_avx x86_load_store_deg234.py:2560-2625 *)
Definition store3_avx2_i16 : program :=
  [I (Let "RAC" (ShufEpi8 [0; 1; (-1); (-1); (-1); (-1); 2; 3; (-1); (-1);
        (-1); (-1); 4; 5; (-1); (-1); (-1); (-1); (-1); (-1); 12; 13; (-1);
        (-1); (-1); (-1); 14; 15; (-1); (-1); (-1); (-1)]%Z) ["a1"]);
   I (Let "GAC" (ShufEpi8 [(-1); (-1); 0; 1; (-1); (-1); (-1); (-1); 2; 3;
        (-1); (-1); (-1); (-1); 4; 5; 10; 11; (-1); (-1); (-1); (-1); 12; 13;
        (-1); (-1); (-1); (-1); 14; 15; (-1); (-1)]%Z) ["a2"]);
   I (Let "BAC" (ShufEpi8 [(-1); (-1); (-1); (-1); 0; 1; (-1); (-1); (-1);
        (-1); 2; 3; (-1); (-1); (-1); (-1); (-1); (-1); 10; 11; (-1); (-1);
        (-1); (-1); 12; 13; (-1); (-1); (-1); (-1); 14; 15]%Z) ["a3"]);
   I (Let "RBB" (ShufEpi8 [(-1); (-1); (-1); (-1); 12; 13; (-1); (-1); (-1);
        (-1); 14; 15; (-1); (-1); (-1); (-1); 0; 1; (-1); (-1); (-1); (-1); 2;
        3; (-1); (-1); (-1); (-1); 4; 5; (-1); (-1)]%Z) ["a1"]);
   I (Let "GBB" (ShufEpi8 [10; 11; (-1); (-1); (-1); (-1); 12; 13; (-1); (-1);
        (-1); (-1); 14; 15; (-1); (-1); (-1); (-1); 0; 1; (-1); (-1); (-1);
        (-1); 2; 3; (-1); (-1); (-1); (-1); 4; 5]%Z) ["a2"]);
   I (Let "BBB" (ShufEpi8 [(-1); (-1); 10; 11; (-1); (-1); (-1); (-1); 12; 13;
        (-1); (-1); (-1); (-1); 14; 15; (-1); (-1); (-1); (-1); 0; 1; (-1);
        (-1); (-1); (-1); 2; 3; (-1); (-1); (-1); (-1)]%Z) ["a3"]);
   I (Let "RCA" (ShufEpi8 [(-1); (-1); 6; 7; (-1); (-1); (-1); (-1); 8; 9;
        (-1); (-1); (-1); (-1); 10; 11; (-1); (-1); 6; 7; (-1); (-1); (-1);
        (-1); 8; 9; (-1); (-1); (-1); (-1); 10; 11]%Z) ["a1"]);
   I (Let "GCA" (ShufEpi8 [(-1); (-1); (-1); (-1); 6; 7; (-1); (-1); (-1);
        (-1); 8; 9; (-1); (-1); (-1); (-1); (-1); (-1); (-1); (-1); 6; 7;
        (-1); (-1); (-1); (-1); 8; 9; (-1); (-1); (-1); (-1)]%Z) ["a2"]);
   I (Let "BCA" (ShufEpi8 [4; 5; (-1); (-1); (-1); (-1); 6; 7; (-1); (-1);
        (-1); (-1); 8; 9; (-1); (-1); 4; 5; (-1); (-1); (-1); (-1); 6; 7;
        (-1); (-1); (-1); (-1); 8; 9; (-1); (-1)]%Z) ["a3"]);
   I (Let "AC" Or ["RAC"; "GAC"]);
   I (Let "AC" Or ["AC"; "BAC"]);
   I (Let "B" Or ["RBB"; "GBB"]);
   I (Let "B" Or ["B"; "BBB"]);
   I (Let "CA" Or ["RCA"; "GCA"]);
   I (Let "CA" Or ["CA"; "BCA"]);
   I (Let "A" (Permute2x128 32) ["AC"; "CA"]);
   I (Let "C" (Permute2x128 19) ["AC"; "CA"]);
   I (Store 0 "A");
   I (Store 32 "B");
   I (Store 64 "C")].

(** store3 for avx2 i32, avx2 u32, avx2 f32.
    store3_avx x86_load_store_deg234.py:2780-2780; store3_avx
        x86_load_store_deg234.py:2736-2736 *)
Definition store3_avx2_i32 : program :=
  [I (Let "RA" (PermuteXVar 4 [0; (-1); (-1); 1; (-1); (-1); 2; (-1)]%Z)
        ["a1"]);
   I (Let "RB" (PermuteXVar 4 [(-1); 3; (-1); (-1); 4; (-1); (-1); 5]%Z)
        ["a1"]);
   I (Let "RC" (PermuteXVar 4 [(-1); (-1); 6; (-1); (-1); 7; (-1); (-1)]%Z)
        ["a1"]);
   I (Let "GA" (PermuteXVar 4 [(-1); 0; (-1); (-1); 1; (-1); (-1); 2]%Z)
        ["a2"]);
   I (Let "GB" (PermuteXVar 4 [(-1); (-1); 3; (-1); (-1); 4; (-1); (-1)]%Z)
        ["a2"]);
   I (Let "GC" (PermuteXVar 4 [5; (-1); (-1); 6; (-1); (-1); 7; (-1)]%Z)
        ["a2"]);
   I (Let "BA" (PermuteXVar 4 [(-1); (-1); 0; (-1); (-1); 1; (-1); (-1)]%Z)
        ["a3"]);
   I (Let "BB" (PermuteXVar 4 [2; (-1); (-1); 3; (-1); (-1); 4; (-1)]%Z)
        ["a3"]);
   I (Let "BC" (PermuteXVar 4 [(-1); 5; (-1); (-1); 6; (-1); (-1); 7]%Z)
        ["a3"]);
   I (Let "A" (Blend 4 146) ["RA"; "GA"]);
   I (Let "A" (Blend 4 36) ["A"; "BA"]);
   I (Let "B" (Blend 4 36) ["RB"; "GB"]);
   I (Let "B" (Blend 4 73) ["B"; "BB"]);
   I (Let "C" (Blend 4 73) ["RC"; "GC"]);
   I (Let "C" (Blend 4 146) ["C"; "BC"]);
   I (Store 0 "A");
   I (Store 32 "B");
   I (Store 64 "C")].

(** store3 for avx512_knl i8, avx512_knl u8, avx512_skylake i8, avx512_skylake
        u8.
    store3_avx512 x86_load_store_deg234.py:3125-3230 *)
Definition store3_avx512_knl_i8 : program :=
  [I (Let "R0" LowHalf ["a1"]);
   I (Let "R1" HighHalf ["a1"]);
   I (Let "G0" LowHalf ["a2"]);
   I (Let "G1" HighHalf ["a2"]);
   I (Let "B0" LowHalf ["a3"]);
   I (Let "B1" HighHalf ["a3"]);
   I (Let "RAC" (ShufEpi8 [0; (-1); (-1); 1; (-1); (-1); 2; (-1); (-1); 3;
        (-1); (-1); 4; (-1); (-1); 5; (-1); 27; (-1); (-1); 28; (-1); (-1);
        29; (-1); (-1); 30; (-1); (-1); 31; (-1); (-1)]%Z) ["R0"]);
   I (Let "GAC" (ShufEpi8 [(-1); 0; (-1); (-1); 1; (-1); (-1); 2; (-1); (-1);
        3; (-1); (-1); 4; (-1); (-1); (-1); (-1); 27; (-1); (-1); 28; (-1);
        (-1); 29; (-1); (-1); 30; (-1); (-1); 31; (-1)]%Z) ["G0"]);
   I (Let "BAC" (ShufEpi8 [(-1); (-1); 0; (-1); (-1); 1; (-1); (-1); 2; (-1);
        (-1); 3; (-1); (-1); 4; (-1); 26; (-1); (-1); 27; (-1); (-1); 28;
        (-1); (-1); 29; (-1); (-1); 30; (-1); (-1); 31]%Z) ["B0"]);
   I (Let "AC0" Or ["RAC"; "GAC"]);
   I (Let "AC0" Or ["AC0"; "BAC"]);
   I (Let "RBB" (ShufEpi8 [(-1); 11; (-1); (-1); 12; (-1); (-1); 13; (-1);
        (-1); 14; (-1); (-1); 15; (-1); (-1); 16; (-1); (-1); 17; (-1); (-1);
        18; (-1); (-1); 19; (-1); (-1); 20; (-1); (-1); 21]%Z) ["R0"]);
   I (Let "GBB" (ShufEpi8 [(-1); (-1); 11; (-1); (-1); 12; (-1); (-1); 13;
        (-1); (-1); 14; (-1); (-1); 15; (-1); (-1); 16; (-1); (-1); 17; (-1);
        (-1); 18; (-1); (-1); 19; (-1); (-1); 20; (-1); (-1)]%Z) ["G0"]);
   I (Let "BBB" (ShufEpi8 [10; (-1); (-1); 11; (-1); (-1); 12; (-1); (-1); 13;
        (-1); (-1); 14; (-1); (-1); 15; (-1); (-1); 16; (-1); (-1); 17; (-1);
        (-1); 18; (-1); (-1); 19; (-1); (-1); 20; (-1)]%Z) ["B0"]);
   I (Let "BB0" Or ["RBB"; "GBB"]);
   I (Let "BB0" Or ["BB0"; "BBB"]);
   I (Let "RCA" (ShufEpi8 [(-1); (-1); 22; (-1); (-1); 23; (-1); (-1); 24;
        (-1); (-1); 25; (-1); (-1); 26; (-1); (-1); (-1); 6; (-1); (-1); 7;
        (-1); (-1); 8; (-1); (-1); 9; (-1); (-1); 10; (-1)]%Z) ["R0"]);
   I (Let "GCA" (ShufEpi8 [21; (-1); (-1); 22; (-1); (-1); 23; (-1); (-1); 24;
        (-1); (-1); 25; (-1); (-1); 26; 5; (-1); (-1); 6; (-1); (-1); 7; (-1);
        (-1); 8; (-1); (-1); 9; (-1); (-1); 10]%Z) ["G0"]);
   I (Let "BCA" (ShufEpi8 [(-1); 21; (-1); (-1); 22; (-1); (-1); 23; (-1);
        (-1); 24; (-1); (-1); 25; (-1); (-1); (-1); 5; (-1); (-1); 6; (-1);
        (-1); 7; (-1); (-1); 8; (-1); (-1); 9; (-1); (-1)]%Z) ["B0"]);
   I (Let "CA0" Or ["RCA"; "GCA"]);
   I (Let "CA0" Or ["CA0"; "BCA"]);
   I (Let "AA0" (Permute2x128 32) ["AC0"; "CA0"]);
   I (Let "CC0" (Permute2x128 19) ["AC0"; "CA0"]);
   I (Let "RAC" (ShufEpi8 [0; (-1); (-1); 1; (-1); (-1); 2; (-1); (-1); 3;
        (-1); (-1); 4; (-1); (-1); 5; (-1); 27; (-1); (-1); 28; (-1); (-1);
        29; (-1); (-1); 30; (-1); (-1); 31; (-1); (-1)]%Z) ["R1"]);
   I (Let "GAC" (ShufEpi8 [(-1); 0; (-1); (-1); 1; (-1); (-1); 2; (-1); (-1);
        3; (-1); (-1); 4; (-1); (-1); (-1); (-1); 27; (-1); (-1); 28; (-1);
        (-1); 29; (-1); (-1); 30; (-1); (-1); 31; (-1)]%Z) ["G1"]);
   I (Let "BAC" (ShufEpi8 [(-1); (-1); 0; (-1); (-1); 1; (-1); (-1); 2; (-1);
        (-1); 3; (-1); (-1); 4; (-1); 26; (-1); (-1); 27; (-1); (-1); 28;
        (-1); (-1); 29; (-1); (-1); 30; (-1); (-1); 31]%Z) ["B1"]);
   I (Let "AC1" Or ["RAC"; "GAC"]);
   I (Let "AC1" Or ["AC1"; "BAC"]);
   I (Let "RBB" (ShufEpi8 [(-1); 11; (-1); (-1); 12; (-1); (-1); 13; (-1);
        (-1); 14; (-1); (-1); 15; (-1); (-1); 16; (-1); (-1); 17; (-1); (-1);
        18; (-1); (-1); 19; (-1); (-1); 20; (-1); (-1); 21]%Z) ["R1"]);
   I (Let "GBB" (ShufEpi8 [(-1); (-1); 11; (-1); (-1); 12; (-1); (-1); 13;
        (-1); (-1); 14; (-1); (-1); 15; (-1); (-1); 16; (-1); (-1); 17; (-1);
        (-1); 18; (-1); (-1); 19; (-1); (-1); 20; (-1); (-1)]%Z) ["G1"]);
   I (Let "BBB" (ShufEpi8 [10; (-1); (-1); 11; (-1); (-1); 12; (-1); (-1); 13;
        (-1); (-1); 14; (-1); (-1); 15; (-1); (-1); 16; (-1); (-1); 17; (-1);
        (-1); 18; (-1); (-1); 19; (-1); (-1); 20; (-1)]%Z) ["B1"]);
   I (Let "BB1" Or ["RBB"; "GBB"]);
   I (Let "BB1" Or ["BB1"; "BBB"]);
   I (Let "RCA" (ShufEpi8 [(-1); (-1); 22; (-1); (-1); 23; (-1); (-1); 24;
        (-1); (-1); 25; (-1); (-1); 26; (-1); (-1); (-1); 6; (-1); (-1); 7;
        (-1); (-1); 8; (-1); (-1); 9; (-1); (-1); 10; (-1)]%Z) ["R1"]);
   I (Let "GCA" (ShufEpi8 [21; (-1); (-1); 22; (-1); (-1); 23; (-1); (-1); 24;
        (-1); (-1); 25; (-1); (-1); 26; 5; (-1); (-1); 6; (-1); (-1); 7; (-1);
        (-1); 8; (-1); (-1); 9; (-1); (-1); 10]%Z) ["G1"]);
   I (Let "BCA" (ShufEpi8 [(-1); 21; (-1); (-1); 22; (-1); (-1); 23; (-1);
        (-1); 24; (-1); (-1); 25; (-1); (-1); (-1); 5; (-1); (-1); 6; (-1);
        (-1); 7; (-1); (-1); 8; (-1); (-1); 9; (-1); (-1)]%Z) ["B1"]);
   I (Let "CA1" Or ["RCA"; "GCA"]);
   I (Let "CA1" Or ["CA1"; "BCA"]);
   I (Let "AA1" (Permute2x128 32) ["AC1"; "CA1"]);
   I (Let "CC1" (Permute2x128 19) ["AC1"; "CA1"]);
   I (Let "A" Concat ["AA0"; "BB0"]);
   I (Let "B" Concat ["CC0"; "AA1"]);
   I (Let "C" Concat ["BB1"; "CC1"]);
   I (Store 0 "A");
   I (Store 64 "B");
   I (Store 128 "C")].

(** store3 for avx512_knl i16, avx512_knl u16, avx512_skylake i16,
        avx512_skylake u16.
    store3_avx512 x86_load_store_deg234.py:3232-3336 *)
Definition store3_avx512_knl_i16 : program :=
  [I (Let "R0a" LowHalf ["a1"]);
   I (Let "R0b" HighHalf ["a1"]);
   I (Let "G0a" LowHalf ["a2"]);
   I (Let "G0b" HighHalf ["a2"]);
   I (Let "B0a" LowHalf ["a3"]);
   I (Let "B0b" HighHalf ["a3"]);
   I (Let "RAC" (ShufEpi8 [0; 1; (-1); (-1); (-1); (-1); 2; 3; (-1); (-1);
        (-1); (-1); 4; 5; (-1); (-1); (-1); (-1); (-1); (-1); 12; 13; (-1);
        (-1); (-1); (-1); 14; 15; (-1); (-1); (-1); (-1)]%Z) ["R0a"]);
   I (Let "GAC" (ShufEpi8 [(-1); (-1); 0; 1; (-1); (-1); (-1); (-1); 2; 3;
        (-1); (-1); (-1); (-1); 4; 5; 10; 11; (-1); (-1); (-1); (-1); 12; 13;
        (-1); (-1); (-1); (-1); 14; 15; (-1); (-1)]%Z) ["G0a"]);
   I (Let "BAC" (ShufEpi8 [(-1); (-1); (-1); (-1); 0; 1; (-1); (-1); (-1);
        (-1); 2; 3; (-1); (-1); (-1); (-1); (-1); (-1); 10; 11; (-1); (-1);
        (-1); (-1); 12; 13; (-1); (-1); (-1); (-1); 14; 15]%Z) ["B0a"]);
   I (Let "RBB" (ShufEpi8 [(-1); (-1); (-1); (-1); 12; 13; (-1); (-1); (-1);
        (-1); 14; 15; (-1); (-1); (-1); (-1); 0; 1; (-1); (-1); (-1); (-1); 2;
        3; (-1); (-1); (-1); (-1); 4; 5; (-1); (-1)]%Z) ["R0a"]);
   I (Let "GBB" (ShufEpi8 [10; 11; (-1); (-1); (-1); (-1); 12; 13; (-1); (-1);
        (-1); (-1); 14; 15; (-1); (-1); (-1); (-1); 0; 1; (-1); (-1); (-1);
        (-1); 2; 3; (-1); (-1); (-1); (-1); 4; 5]%Z) ["G0a"]);
   I (Let "BBB" (ShufEpi8 [(-1); (-1); 10; 11; (-1); (-1); (-1); (-1); 12; 13;
        (-1); (-1); (-1); (-1); 14; 15; (-1); (-1); (-1); (-1); 0; 1; (-1);
        (-1); (-1); (-1); 2; 3; (-1); (-1); (-1); (-1)]%Z) ["B0a"]);
   I (Let "RCA" (ShufEpi8 [(-1); (-1); 6; 7; (-1); (-1); (-1); (-1); 8; 9;
        (-1); (-1); (-1); (-1); 10; 11; (-1); (-1); 6; 7; (-1); (-1); (-1);
        (-1); 8; 9; (-1); (-1); (-1); (-1); 10; 11]%Z) ["R0a"]);
   I (Let "GCA" (ShufEpi8 [(-1); (-1); (-1); (-1); 6; 7; (-1); (-1); (-1);
        (-1); 8; 9; (-1); (-1); (-1); (-1); (-1); (-1); (-1); (-1); 6; 7;
        (-1); (-1); (-1); (-1); 8; 9; (-1); (-1); (-1); (-1)]%Z) ["G0a"]);
   I (Let "BCA" (ShufEpi8 [4; 5; (-1); (-1); (-1); (-1); 6; 7; (-1); (-1);
        (-1); (-1); 8; 9; (-1); (-1); 4; 5; (-1); (-1); (-1); (-1); 6; 7;
        (-1); (-1); (-1); (-1); 8; 9; (-1); (-1)]%Z) ["B0a"]);
   I (Let "AC" Or ["RAC"; "GAC"]);
   I (Let "AC" Or ["AC"; "BAC"]);
   I (Let "BBa" Or ["RBB"; "GBB"]);
   I (Let "BBa" Or ["BBa"; "BBB"]);
   I (Let "CA" Or ["RCA"; "GCA"]);
   I (Let "CA" Or ["CA"; "BCA"]);
   I (Let "AAa" (Permute2x128 32) ["AC"; "CA"]);
   I (Let "CCa" (Permute2x128 19) ["AC"; "CA"]);
   I (Let "RAC" (ShufEpi8 [0; 1; (-1); (-1); (-1); (-1); 2; 3; (-1); (-1);
        (-1); (-1); 4; 5; (-1); (-1); (-1); (-1); (-1); (-1); 12; 13; (-1);
        (-1); (-1); (-1); 14; 15; (-1); (-1); (-1); (-1)]%Z) ["R0b"]);
   I (Let "GAC" (ShufEpi8 [(-1); (-1); 0; 1; (-1); (-1); (-1); (-1); 2; 3;
        (-1); (-1); (-1); (-1); 4; 5; 10; 11; (-1); (-1); (-1); (-1); 12; 13;
        (-1); (-1); (-1); (-1); 14; 15; (-1); (-1)]%Z) ["G0b"]);
   I (Let "BAC" (ShufEpi8 [(-1); (-1); (-1); (-1); 0; 1; (-1); (-1); (-1);
        (-1); 2; 3; (-1); (-1); (-1); (-1); (-1); (-1); 10; 11; (-1); (-1);
        (-1); (-1); 12; 13; (-1); (-1); (-1); (-1); 14; 15]%Z) ["B0b"]);
   I (Let "RBB" (ShufEpi8 [(-1); (-1); (-1); (-1); 12; 13; (-1); (-1); (-1);
        (-1); 14; 15; (-1); (-1); (-1); (-1); 0; 1; (-1); (-1); (-1); (-1); 2;
        3; (-1); (-1); (-1); (-1); 4; 5; (-1); (-1)]%Z) ["R0b"]);
   I (Let "GBB" (ShufEpi8 [10; 11; (-1); (-1); (-1); (-1); 12; 13; (-1); (-1);
        (-1); (-1); 14; 15; (-1); (-1); (-1); (-1); 0; 1; (-1); (-1); (-1);
        (-1); 2; 3; (-1); (-1); (-1); (-1); 4; 5]%Z) ["G0b"]);
   I (Let "BBB" (ShufEpi8 [(-1); (-1); 10; 11; (-1); (-1); (-1); (-1); 12; 13;
        (-1); (-1); (-1); (-1); 14; 15; (-1); (-1); (-1); (-1); 0; 1; (-1);
        (-1); (-1); (-1); 2; 3; (-1); (-1); (-1); (-1)]%Z) ["B0b"]);
   I (Let "RCA" (ShufEpi8 [(-1); (-1); 6; 7; (-1); (-1); (-1); (-1); 8; 9;
        (-1); (-1); (-1); (-1); 10; 11; (-1); (-1); 6; 7; (-1); (-1); (-1);
        (-1); 8; 9; (-1); (-1); (-1); (-1); 10; 11]%Z) ["R0b"]);
   I (Let "GCA" (ShufEpi8 [(-1); (-1); (-1); (-1); 6; 7; (-1); (-1); (-1);
        (-1); 8; 9; (-1); (-1); (-1); (-1); (-1); (-1); (-1); (-1); 6; 7;
        (-1); (-1); (-1); (-1); 8; 9; (-1); (-1); (-1); (-1)]%Z) ["G0b"]);
   I (Let "BCA" (ShufEpi8 [4; 5; (-1); (-1); (-1); (-1); 6; 7; (-1); (-1);
        (-1); (-1); 8; 9; (-1); (-1); 4; 5; (-1); (-1); (-1); (-1); 6; 7;
        (-1); (-1); (-1); (-1); 8; 9; (-1); (-1)]%Z) ["B0b"]);
   I (Let "AC" Or ["RAC"; "GAC"]);
   I (Let "AC" Or ["AC"; "BAC"]);
   I (Let "BBb" Or ["RBB"; "GBB"]);
   I (Let "BBb" Or ["BBb"; "BBB"]);
   I (Let "CA" Or ["RCA"; "GCA"]);
   I (Let "CA" Or ["CA"; "BCA"]);
   I (Let "AAb" (Permute2x128 32) ["AC"; "CA"]);
   I (Let "CCb" (Permute2x128 19) ["AC"; "CA"]);
   I (Let "A" Concat ["AAa"; "BBa"]);
   I (Let "B" Concat ["CCa"; "AAb"]);
   I (Let "C" Concat ["BBb"; "CCb"]);
   I (Store 0 "A");
   I (Store 64 "B");
   I (Store 128 "C")].

(** store3 for avx512_knl i32, avx512_knl u32, avx512_knl f32, avx512_skylake
        i32, avx512_skylake u32, avx512_skylake f32.
    store3_avx512 x86_load_store_deg234.py:3338-3361 *)
Definition store3_avx512_knl_i32 : program :=
  [I (Let "A" (PermuteX2Var 4 [0; 16; 0; 1; 17; 0; 2; 18; 0; 3; 19; 0; 4; 20;
        0; 5]%Z) ["a1"; "a2"]);
   I (Let "A" (PermuteX2Var 4 [0; 1; 16; 3; 4; 17; 6; 7; 18; 9; 10; 19; 12;
        13; 20; 15]%Z) ["A"; "a3"]);
   I (Let "B" (PermuteX2Var 4 [21; 0; 6; 22; 0; 7; 23; 0; 8; 24; 0; 9; 25; 0;
        10; 26]%Z) ["a1"; "a2"]);
   I (Let "B" (PermuteX2Var 4 [0; 21; 2; 3; 22; 5; 6; 23; 8; 9; 24; 11; 12;
        25; 14; 15]%Z) ["B"; "a3"]);
   I (Let "C" (PermuteX2Var 4 [0; 11; 27; 0; 12; 28; 0; 13; 29; 0; 14; 30; 0;
        15; 31; 0]%Z) ["a1"; "a2"]);
   I (Let "C" (PermuteX2Var 4 [26; 1; 2; 27; 4; 5; 28; 7; 8; 29; 10; 11; 30;
        13; 14; 31]%Z) ["C"; "a3"]);
   I (Store 0 "A");
   I (Store 64 "B");
   I (Store 128 "C")].

(** store3 for avx512_knl i64, avx512_knl u64, avx512_knl f64, avx512_skylake
        i64, avx512_skylake u64, avx512_skylake f64.
    store3_avx512 x86_load_store_deg234.py:3363-3381 *)
Definition store3_avx512_knl_i64 : program :=
  [I (Let "A1" (PermuteX2Var 8 [0; 8; 0; 1; 9; 0; 2; 10]%Z) ["a1"; "a2"]);
   I (Let "A2" (PermuteX2Var 8 [0; 1; 8; 3; 4; 9; 6; 7]%Z) ["A1"; "a3"]);
   I (Let "B1" (PermuteX2Var 8 [0; 3; 11; 0; 4; 12; 0; 5]%Z) ["a1"; "a2"]);
   I (Let "B2" (PermuteX2Var 8 [10; 1; 2; 11; 4; 5; 12; 7]%Z) ["B1"; "a3"]);
   I (Let "C1" (PermuteX2Var 8 [13; 0; 6; 14; 0; 7; 15; 0]%Z) ["a1"; "a2"]);
   I (Let "C2" (PermuteX2Var 8 [0; 13; 2; 3; 14; 5; 6; 15]%Z) ["C1"; "a3"]);
   I (Store 0 "A2");
   I (Store 64 "B2");
   I (Store 128 "C2")].

(** store4 for sse2 i8, sse2 u8, sse42 i8, sse42 u8.
    store4_sse x86_load_store_deg234.py:1152-1164 *)
Definition store4_sse2_i8 : program :=
  [I (Let "A5" (UnpackLo 1) ["a1"; "a3"]);
   I (Let "B5" (UnpackHi 1) ["a1"; "a3"]);
   I (Let "C5" (UnpackLo 1) ["a2"; "a4"]);
   I (Let "D5" (UnpackHi 1) ["a2"; "a4"]);
   I (Let "A6" (UnpackLo 1) ["A5"; "C5"]);
   I (Let "B6" (UnpackHi 1) ["A5"; "C5"]);
   I (Let "C6" (UnpackLo 1) ["B5"; "D5"]);
   I (Let "D6" (UnpackHi 1) ["B5"; "D5"]);
   I (Store 0 "A6");
   I (Store 16 "B6");
   I (Store 32 "C6");
   I (Store 48 "D6")].

(** store4 for sse2 i16, sse2 u16, sse42 i16, sse42 u16.
    store4_sse x86_load_store_deg234.py:1166-1178 *)
Definition store4_sse2_i16 : program :=
  [I (Let "Q" (UnpackLo 2) ["a1"; "a2"]);
   I (Let "R" (UnpackHi 2) ["a1"; "a2"]);
   I (Let "S" (UnpackLo 2) ["a3"; "a4"]);
   I (Let "T" (UnpackHi 2) ["a3"; "a4"]);
   I (Let "U" (UnpackLo 4) ["Q"; "S"]);
   I (Let "V" (UnpackHi 4) ["Q"; "S"]);
   I (Let "W" (UnpackLo 4) ["R"; "T"]);
   I (Let "X" (UnpackHi 4) ["R"; "T"]);
   I (Store 0 "U");
   I (Store 16 "V");
   I (Store 32 "W");
   I (Store 48 "X")].

(** store4 for sse2 i32, sse2 u32, sse2 f32, sse42 i32, sse42 u32, sse42 f32.
    store4_sse x86_load_store_deg234.py:1180-1192 *)
Definition store4_sse2_i32 : program :=
  [I (Let "A3" (UnpackLo 4) ["a1"; "a3"]);
   I (Let "B3" (UnpackHi 4) ["a1"; "a3"]);
   I (Let "C3" (UnpackLo 4) ["a2"; "a4"]);
   I (Let "D3" (UnpackHi 4) ["a2"; "a4"]);
   I (Let "A4" (UnpackLo 4) ["A3"; "C3"]);
   I (Let "B4" (UnpackHi 4) ["A3"; "C3"]);
   I (Let "C4" (UnpackLo 4) ["B3"; "D3"]);
   I (Let "D4" (UnpackHi 4) ["B3"; "D3"]);
   I (Store 0 "A4");
   I (Store 16 "B4");
   I (Store 32 "C4");
   I (Store 48 "D4")].

(** store4 for sse2 i64, sse2 u64, sse2 f64, sse42 i64, sse42 u64, sse42 f64.
    store4_sse x86_load_store_deg234.py:1194-1200 *)
Definition store4_sse2_i64 : program :=
  [I (Let "A0" (UnpackLo 8) ["a1"; "a2"]);
   I (Let "B0" (UnpackLo 8) ["a3"; "a4"]);
   I (Let "C0" (UnpackHi 8) ["a1"; "a2"]);
   I (Let "D0" (UnpackHi 8) ["a3"; "a4"]);
   I (Store 0 "A0");
   I (Store 16 "B0");
   I (Store 32 "C0");
   I (Store 48 "D0")].

(** store4 for avx i8, avx u8.
    store4_avx x86_load_store_deg234.py:1236-1276 *)
Definition store4_avx_i8 : program :=
  [I (Let "Wa" LowHalf ["a1"]);
   I (Let "Wb" HighHalf ["a1"]);
   I (Let "Xa" LowHalf ["a2"]);
   I (Let "Xb" HighHalf ["a2"]);
   I (Let "Ya" LowHalf ["a3"]);
   I (Let "Yb" HighHalf ["a3"]);
   I (Let "Za" LowHalf ["a4"]);
   I (Let "Zb" HighHalf ["a4"]);
   I (Let "AA" (UnpackLo 1) ["Wa"; "Ya"]);
   I (Let "BB" (UnpackHi 1) ["Wa"; "Ya"]);
   I (Let "CC" (UnpackLo 1) ["Xa"; "Za"]);
   I (Let "DD" (UnpackHi 1) ["Xa"; "Za"]);
   I (Let "A0" (UnpackLo 1) ["AA"; "CC"]);
   I (Let "B0" (UnpackHi 1) ["AA"; "CC"]);
   I (Let "C0" (UnpackLo 1) ["BB"; "DD"]);
   I (Let "D0" (UnpackHi 1) ["BB"; "DD"]);
   I (Let "AA" (UnpackLo 1) ["Wb"; "Yb"]);
   I (Let "BB" (UnpackHi 1) ["Wb"; "Yb"]);
   I (Let "CC" (UnpackLo 1) ["Xb"; "Zb"]);
   I (Let "DD" (UnpackHi 1) ["Xb"; "Zb"]);
   I (Let "A1" (UnpackLo 1) ["AA"; "CC"]);
   I (Let "B1" (UnpackHi 1) ["AA"; "CC"]);
   I (Let "C1" (UnpackLo 1) ["BB"; "DD"]);
   I (Let "D1" (UnpackHi 1) ["BB"; "DD"]);
   I (Let "A" Concat ["A0"; "B0"]);
   I (Let "B" Concat ["C0"; "D0"]);
   I (Let "C" Concat ["A1"; "B1"]);
   I (Let "D" Concat ["C1"; "D1"]);
   I (Store 0 "A");
   I (Store 32 "B");
   I (Store 64 "C");
   I (Store 96 "D")].

(** store4 for avx i16, avx u16.
    store4_avx x86_load_store_deg234.py:1293-1333 *)
Definition store4_avx_i16 : program :=
  [I (Let "Wa" LowHalf ["a1"]);
   I (Let "Wb" HighHalf ["a1"]);
   I (Let "Xa" LowHalf ["a2"]);
   I (Let "Xb" HighHalf ["a2"]);
   I (Let "Ya" LowHalf ["a3"]);
   I (Let "Yb" HighHalf ["a3"]);
   I (Let "Za" LowHalf ["a4"]);
   I (Let "Zb" HighHalf ["a4"]);
   I (Let "AA" (UnpackLo 2) ["Wa"; "Ya"]);
   I (Let "BB" (UnpackHi 2) ["Wa"; "Ya"]);
   I (Let "CC" (UnpackLo 2) ["Xa"; "Za"]);
   I (Let "DD" (UnpackHi 2) ["Xa"; "Za"]);
   I (Let "A0" (UnpackLo 2) ["AA"; "CC"]);
   I (Let "B0" (UnpackHi 2) ["AA"; "CC"]);
   I (Let "C0" (UnpackLo 2) ["BB"; "DD"]);
   I (Let "D0" (UnpackHi 2) ["BB"; "DD"]);
   I (Let "AA" (UnpackLo 2) ["Wb"; "Yb"]);
   I (Let "BB" (UnpackHi 2) ["Wb"; "Yb"]);
   I (Let "CC" (UnpackLo 2) ["Xb"; "Zb"]);
   I (Let "DD" (UnpackHi 2) ["Xb"; "Zb"]);
   I (Let "A1" (UnpackLo 2) ["AA"; "CC"]);
   I (Let "B1" (UnpackHi 2) ["AA"; "CC"]);
   I (Let "C1" (UnpackLo 2) ["BB"; "DD"]);
   I (Let "D1" (UnpackHi 2) ["BB"; "DD"]);
   I (Let "A" Concat ["A0"; "B0"]);
   I (Let "B" Concat ["C0"; "D0"]);
   I (Let "C" Concat ["A1"; "B1"]);
   I (Let "D" Concat ["C1"; "D1"]);
   I (Store 0 "A");
   I (Store 32 "B");
   I (Store 64 "C");
   I (Store 96 "D")].

(** store4 for avx i32, avx u32.
    store4_avx x86_load_store_deg234.py:1364-1370; store4_avx
        x86_load_store_deg234.py:1335-1347 *)
Definition store4_avx_i32 : program :=
  [I (Let "f.a1" Mov ["a1"]);
   I (Let "f.a2" Mov ["a2"]);
   I (Let "f.a3" Mov ["a3"]);
   I (Let "f.a4" Mov ["a4"]);
   I (Let "f.A3" (UnpackLo 4) ["f.a1"; "f.a3"]);
   I (Let "f.B3" (UnpackHi 4) ["f.a1"; "f.a3"]);
   I (Let "f.C3" (UnpackLo 4) ["f.a2"; "f.a4"]);
   I (Let "f.D3" (UnpackHi 4) ["f.a2"; "f.a4"]);
   I (Let "f.A" (UnpackLo 4) ["f.A3"; "f.C3"]);
   I (Let "f.B" (UnpackHi 4) ["f.A3"; "f.C3"]);
   I (Let "f.C" (UnpackLo 4) ["f.B3"; "f.D3"]);
   I (Let "f.D" (UnpackHi 4) ["f.B3"; "f.D3"]);
   I (Store 0 "f.A");
   I (Store 32 "f.B");
   I (Store 64 "f.C");
   I (Store 96 "f.D")].

(** store4 for avx i64, avx u64.
    store4_avx x86_load_store_deg234.py:1404-1410; store4_avx
        x86_load_store_deg234.py:1372-1384 *)
Definition store4_avx_i64 : program :=
  [I (Let "f.a1" Mov ["a1"]);
   I (Let "f.a2" Mov ["a2"]);
   I (Let "f.a3" Mov ["a3"]);
   I (Let "f.a4" Mov ["a4"]);
   I (Let "f.A3" (Permute2x128 32) ["f.a1"; "f.a3"]);
   I (Let "f.B3" (Permute2x128 32) ["f.a2"; "f.a4"]);
   I (Let "f.C3" (Permute2x128 49) ["f.a1"; "f.a3"]);
   I (Let "f.D3" (Permute2x128 49) ["f.a2"; "f.a4"]);
   I (Let "f.A" (UnpackLo 8) ["f.A3"; "f.B3"]);
   I (Let "f.B" (UnpackHi 8) ["f.A3"; "f.B3"]);
   I (Let "f.C" (UnpackLo 8) ["f.C3"; "f.D3"]);
   I (Let "f.D" (UnpackHi 8) ["f.C3"; "f.D3"]);
   I (Store 0 "f.A");
   I (Store 32 "f.B");
   I (Store 64 "f.C");
   I (Store 96 "f.D")].

(** store4 for avx f32, avx2 i32, avx2 u32, avx2 f32.
    store4_avx x86_load_store_deg234.py:1335-1347; store4_avx
        x86_load_store_deg234.py:1350-1362 *)
Definition store4_avx_f32 : program :=
  [I (Let "A3" (UnpackLo 4) ["a1"; "a3"]);
   I (Let "B3" (UnpackHi 4) ["a1"; "a3"]);
   I (Let "C3" (UnpackLo 4) ["a2"; "a4"]);
   I (Let "D3" (UnpackHi 4) ["a2"; "a4"]);
   I (Let "A" (UnpackLo 4) ["A3"; "C3"]);
   I (Let "B" (UnpackHi 4) ["A3"; "C3"]);
   I (Let "C" (UnpackLo 4) ["B3"; "D3"]);
   I (Let "D" (UnpackHi 4) ["B3"; "D3"]);
   I (Store 0 "A");
   I (Store 32 "B");
   I (Store 64 "C");
   I (Store 96 "D")].

(** store4 for avx f64, avx2 i64, avx2 u64, avx2 f64.
    store4_avx x86_load_store_deg234.py:1372-1384; store4_avx
        x86_load_store_deg234.py:1388-1402 *)
Definition store4_avx_f64 : program :=
  [I (Let "A3" (Permute2x128 32) ["a1"; "a3"]);
   I (Let "B3" (Permute2x128 32) ["a2"; "a4"]);
   I (Let "C3" (Permute2x128 49) ["a1"; "a3"]);
   I (Let "D3" (Permute2x128 49) ["a2"; "a4"]);
   I (Let "A" (UnpackLo 8) ["A3"; "B3"]);
   I (Let "B" (UnpackHi 8) ["A3"; "B3"]);
   I (Let "C" (UnpackLo 8) ["C3"; "D3"]);
   I (Let "D" (UnpackHi 8) ["C3"; "D3"]);
   I (Store 0 "A");
   I (Store 32 "B");
   I (Store 64 "C");
   I (Store 96 "D")].

(** store4 for avx2 i8, avx2 u8.
    store4_avx x86_load_store_deg234.py:1217-1234 *)
Definition store4_avx2_i8 : program :=
  [I (Let "A1" (UnpackLo 1) ["a1"; "a3"]);
   I (Let "B1" (UnpackHi 1) ["a1"; "a3"]);
   I (Let "C1" (UnpackLo 1) ["a2"; "a4"]);
   I (Let "D1" (UnpackHi 1) ["a2"; "a4"]);
   I (Let "A2" (Permute4x64 216) ["A1"]);
   I (Let "B2" (Permute4x64 216) ["B1"]);
   I (Let "C2" (Permute4x64 216) ["C1"]);
   I (Let "D2" (Permute4x64 216) ["D1"]);
   I (Let "A" (UnpackLo 1) ["A2"; "C2"]);
   I (Let "B" (UnpackLo 1) ["B2"; "D2"]);
   I (Let "C" (UnpackHi 1) ["A2"; "C2"]);
   I (Let "D" (UnpackHi 1) ["B2"; "D2"]);
   I (Store 0 "A");
   I (Store 32 "B");
   I (Store 64 "C");
   I (Store 96 "D")].

(** store4 for avx2 i16, avx2 u16.
    store4_avx x86_load_store_deg234.py:1279-1291 *)
Definition store4_avx2_i16 : program :=
  [I (Let "A3" (UnpackLo 2) ["a1"; "a3"]);
   I (Let "B3" (UnpackHi 2) ["a1"; "a3"]);
   I (Let "C3" (UnpackLo 2) ["a2"; "a4"]);
   I (Let "D3" (UnpackHi 2) ["a2"; "a4"]);
   I (Let "A" (UnpackLo 2) ["A3"; "C3"]);
   I (Let "B" (UnpackHi 2) ["A3"; "C3"]);
   I (Let "C" (UnpackLo 2) ["B3"; "D3"]);
   I (Let "D" (UnpackHi 2) ["B3"; "D3"]);
   I (Store 0 "A");
   I (Store 32 "B");
   I (Store 64 "C");
   I (Store 96 "D")].

(** store4 for avx512_knl i8, avx512_knl u8, avx512_skylake i8, avx512_skylake
        u8.
    store4_avx512 x86_load_store_deg234.py:1426-1476 *)
Definition store4_avx512_knl_i8 : program :=
  [I (Let "A0a" LowHalf ["a1"]);
   I (Let "A0b" HighHalf ["a1"]);
   I (Let "B0a" LowHalf ["a2"]);
   I (Let "B0b" HighHalf ["a2"]);
   I (Let "C0a" LowHalf ["a3"]);
   I (Let "C0b" HighHalf ["a3"]);
   I (Let "D0a" LowHalf ["a4"]);
   I (Let "D0b" HighHalf ["a4"]);
   I (Let "A1" (UnpackLo 1) ["A0a"; "C0a"]);
   I (Let "B1" (UnpackHi 1) ["A0a"; "C0a"]);
   I (Let "C1" (UnpackLo 1) ["B0a"; "D0a"]);
   I (Let "D1" (UnpackHi 1) ["B0a"; "D0a"]);
   I (Let "A2" (Permute4x64 216) ["A1"]);
   I (Let "B2" (Permute4x64 216) ["B1"]);
   I (Let "C2" (Permute4x64 216) ["C1"]);
   I (Let "D2" (Permute4x64 216) ["D1"]);
   I (Let "A3a" (UnpackLo 1) ["A2"; "C2"]);
   I (Let "B3a" (UnpackLo 1) ["B2"; "D2"]);
   I (Let "C3a" (UnpackHi 1) ["A2"; "C2"]);
   I (Let "D3a" (UnpackHi 1) ["B2"; "D2"]);
   I (Let "A1" (UnpackLo 1) ["A0b"; "C0b"]);
   I (Let "B1" (UnpackHi 1) ["A0b"; "C0b"]);
   I (Let "C1" (UnpackLo 1) ["B0b"; "D0b"]);
   I (Let "D1" (UnpackHi 1) ["B0b"; "D0b"]);
   I (Let "A2" (Permute4x64 216) ["A1"]);
   I (Let "B2" (Permute4x64 216) ["B1"]);
   I (Let "C2" (Permute4x64 216) ["C1"]);
   I (Let "D2" (Permute4x64 216) ["D1"]);
   I (Let "A3b" (UnpackLo 1) ["A2"; "C2"]);
   I (Let "B3b" (UnpackLo 1) ["B2"; "D2"]);
   I (Let "C3b" (UnpackHi 1) ["A2"; "C2"]);
   I (Let "D3b" (UnpackHi 1) ["B2"; "D2"]);
   I (Let "A" Concat ["A3a"; "B3a"]);
   I (Let "B" Concat ["C3a"; "D3a"]);
   I (Let "C" Concat ["A3b"; "B3b"]);
   I (Let "D" Concat ["C3b"; "D3b"]);
   I (Store 0 "A");
   I (Store 64 "B");
   I (Store 128 "C");
   I (Store 192 "D")].

(** store4 for avx512_knl i16, avx512_knl u16, avx512_skylake i16,
        avx512_skylake u16.
    store4_avx512 x86_load_store_deg234.py:1478-1518 *)
Definition store4_avx512_knl_i16 : program :=
  [I (Let "A0a" LowHalf ["a1"]);
   I (Let "A0b" HighHalf ["a1"]);
   I (Let "B0a" LowHalf ["a2"]);
   I (Let "B0b" HighHalf ["a2"]);
   I (Let "C0a" LowHalf ["a3"]);
   I (Let "C0b" HighHalf ["a3"]);
   I (Let "D0a" LowHalf ["a4"]);
   I (Let "D0b" HighHalf ["a4"]);
   I (Let "A3" (UnpackLo 2) ["A0a"; "C0a"]);
   I (Let "B3" (UnpackHi 2) ["A0a"; "C0a"]);
   I (Let "C3" (UnpackLo 2) ["B0a"; "D0a"]);
   I (Let "D3" (UnpackHi 2) ["B0a"; "D0a"]);
   I (Let "A4a" (UnpackLo 2) ["A3"; "C3"]);
   I (Let "B4a" (UnpackHi 2) ["A3"; "C3"]);
   I (Let "C4a" (UnpackLo 2) ["B3"; "D3"]);
   I (Let "D4a" (UnpackHi 2) ["B3"; "D3"]);
   I (Let "A3" (UnpackLo 2) ["A0b"; "C0b"]);
   I (Let "B3" (UnpackHi 2) ["A0b"; "C0b"]);
   I (Let "C3" (UnpackLo 2) ["B0b"; "D0b"]);
   I (Let "D3" (UnpackHi 2) ["B0b"; "D0b"]);
   I (Let "A4b" (UnpackLo 2) ["A3"; "C3"]);
   I (Let "B4b" (UnpackHi 2) ["A3"; "C3"]);
   I (Let "C4b" (UnpackLo 2) ["B3"; "D3"]);
   I (Let "D4b" (UnpackHi 2) ["B3"; "D3"]);
   I (Let "A" Concat ["A4a"; "B4a"]);
   I (Let "B" Concat ["C4a"; "D4a"]);
   I (Let "C" Concat ["A4b"; "B4b"]);
   I (Let "D" Concat ["C4b"; "D4b"]);
   I (Store 0 "A");
   I (Store 64 "B");
   I (Store 128 "C");
   I (Store 192 "D")].

(** store4 for avx512_knl i32, avx512_knl u32, avx512_knl f32, avx512_skylake
        i32, avx512_skylake u32, avx512_skylake f32.
    store4_avx512 x86_load_store_deg234.py:1520-1541 *)
Definition store4_avx512_knl_i32 : program :=
  [I (Let "WXa" (PermuteX2Var 4 [0; 1; 2; 3; 16; 17; 18; 19; 4; 5; 6; 7; 20;
        21; 22; 23]%Z) ["a1"; "a2"]);
   I (Let "WXb" (PermuteX2Var 4 [8; 9; 10; 11; 24; 25; 26; 27; 12; 13; 14; 15;
        28; 29; 30; 31]%Z) ["a1"; "a2"]);
   I (Let "YZa" (PermuteX2Var 4 [0; 1; 2; 3; 16; 17; 18; 19; 4; 5; 6; 7; 20;
        21; 22; 23]%Z) ["a3"; "a4"]);
   I (Let "YZb" (PermuteX2Var 4 [8; 9; 10; 11; 24; 25; 26; 27; 12; 13; 14; 15;
        28; 29; 30; 31]%Z) ["a3"; "a4"]);
   I (Let "A" (PermuteX2Var 4 [0; 4; 16; 20; 1; 5; 17; 21; 2; 6; 18; 22; 3; 7;
        19; 23]%Z) ["WXa"; "YZa"]);
   I (Let "B" (PermuteX2Var 4 [8; 12; 24; 28; 9; 13; 25; 29; 10; 14; 26; 30;
        11; 15; 27; 31]%Z) ["WXa"; "YZa"]);
   I (Let "C" (PermuteX2Var 4 [0; 4; 16; 20; 1; 5; 17; 21; 2; 6; 18; 22; 3; 7;
        19; 23]%Z) ["WXb"; "YZb"]);
   I (Let "D" (PermuteX2Var 4 [8; 12; 24; 28; 9; 13; 25; 29; 10; 14; 26; 30;
        11; 15; 27; 31]%Z) ["WXb"; "YZb"]);
   I (Store 0 "A");
   I (Store 64 "B");
   I (Store 128 "C");
   I (Store 192 "D")].

(** store4 for avx512_knl i64, avx512_knl u64, avx512_knl f64, avx512_skylake
        i64, avx512_skylake u64, avx512_skylake f64.
    store4_avx512 x86_load_store_deg234.py:1543-1560 *)
Definition store4_avx512_knl_i64 : program :=
  [I (Let "A1" (PermuteX2Var 8 [0; 1; 2; 3; 8; 9; 10; 11]%Z) ["a1"; "a2"]);
   I (Let "B1" (PermuteX2Var 8 [4; 5; 6; 7; 12; 13; 14; 15]%Z) ["a1"; "a2"]);
   I (Let "C1" (PermuteX2Var 8 [0; 1; 2; 3; 8; 9; 10; 11]%Z) ["a3"; "a4"]);
   I (Let "D1" (PermuteX2Var 8 [4; 5; 6; 7; 12; 13; 14; 15]%Z) ["a3"; "a4"]);
   I (Let "A" (PermuteX2Var 8 [0; 4; 8; 12; 1; 5; 9; 13]%Z) ["A1"; "C1"]);
   I (Let "B" (PermuteX2Var 8 [2; 6; 10; 14; 3; 7; 11; 15]%Z) ["A1"; "C1"]);
   I (Let "C" (PermuteX2Var 8 [0; 4; 8; 12; 1; 5; 9; 13]%Z) ["B1"; "D1"]);
   I (Let "D" (PermuteX2Var 8 [2; 6; 10; 14; 3; 7; 11; 15]%Z) ["B1"; "D1"]);
   I (Store 0 "A");
   I (Store 64 "B");
   I (Store 128 "C");
   I (Store 192 "D")].

Inductive ext : Type := Sse2 | Sse42 | Avx | Avx2 | Avx512Knl | Avx512Skylake.
Inductive etyp : Type := I8 | U8 | I16 | U16 | I32 | U32 | I64 | U64 | F32 | F64.

(** egg/platform_x86.py:930-951 *)
Definition load2 (e : ext) (t : etyp) : program :=
  match e, t with
  | Sse2, I8 | Sse2, U8 => load2_sse2_i8
  | Sse2, I16 | Sse2, U16 => load2_sse2_i16
  | Sse2, I32 | Sse2, U32 | Sse2, F32 => load2_sse2_i32
  | Sse2, I64 | Sse2, U64 | Sse2, F64 => load2_sse2_i64
  | Sse42, I8 | Sse42, U8 => load2_sse42_i8
  | Sse42, I16 | Sse42, U16 => load2_sse42_i16
  | Sse42, I32 | Sse42, U32 | Sse42, F32 => load2_sse2_i32
  | Sse42, I64 | Sse42, U64 | Sse42, F64 => load2_sse2_i64
  | Avx, I8 | Avx, U8 => load2_avx_i8
  | Avx, I16 | Avx, U16 => load2_avx_i16
  | Avx, I32 | Avx, U32 => load2_avx_i32
  | Avx, I64 | Avx, U64 => load2_avx_i64
  | Avx, F32 => load2_avx_f32
  | Avx, F64 => load2_avx_f64
  | Avx2, I8 | Avx2, U8 => load2_avx2_i8
  | Avx2, I16 | Avx2, U16 => load2_avx2_i16
  | Avx2, I32 | Avx2, U32 | Avx2, F32 => load2_avx_f32
  | Avx2, I64 | Avx2, U64 | Avx2, F64 => load2_avx_f64
  | Avx512Knl, I8 | Avx512Knl, U8 => load2_avx512_knl_i8
  | Avx512Knl, I16 | Avx512Knl, U16 => load2_avx512_knl_i16
  | Avx512Knl, I32 | Avx512Knl, U32 | Avx512Knl, F32 => load2_avx512_knl_i32
  | Avx512Knl, I64 | Avx512Knl, U64 | Avx512Knl, F64 => load2_avx512_knl_i64
  | Avx512Skylake, I8 | Avx512Skylake, U8 => load2_avx512_knl_i8
  | Avx512Skylake, I16 | Avx512Skylake, U16 => load2_avx512_knl_i16
  | Avx512Skylake, I32 | Avx512Skylake, U32 | Avx512Skylake, F32 => load2_avx512_knl_i32
  | Avx512Skylake, I64 | Avx512Skylake, U64 | Avx512Skylake, F64 => load2_avx512_knl_i64
  end.

(** egg/platform_x86.py:930-951 *)
Definition load3 (e : ext) (t : etyp) : program :=
  match e, t with
  | Sse2, I8 | Sse2, U8 => load3_sse2_i8
  | Sse2, I16 | Sse2, U16 => load3_sse2_i16
  | Sse2, I32 | Sse2, U32 => load3_sse2_i32
  | Sse2, I64 | Sse2, U64 => load3_sse2_i64
  | Sse2, F32 => load3_sse2_f32
  | Sse2, F64 => load3_sse2_f64
  | Sse42, I8 | Sse42, U8 => load3_sse42_i8
  | Sse42, I16 | Sse42, U16 => load3_sse2_i16
  | Sse42, I32 | Sse42, U32 => load3_sse2_i32
  | Sse42, I64 | Sse42, U64 => load3_sse2_i64
  | Sse42, F32 => load3_sse2_f32
  | Sse42, F64 => load3_sse2_f64
  | Avx, I8 | Avx, U8 => load3_avx_i8
  | Avx, I16 | Avx, U16 => load3_avx_i16
  | Avx, I32 | Avx, U32 => load3_avx_i32
  | Avx, I64 | Avx, U64 => load3_avx_i64
  | Avx, F32 => load3_avx_f32
  | Avx, F64 => load3_avx_f64
  | Avx2, I8 | Avx2, U8 => load3_avx2_i8
  | Avx2, I16 | Avx2, U16 => load3_avx2_i16
  | Avx2, I32 | Avx2, U32 | Avx2, F32 => load3_avx2_i32
  | Avx2, I64 | Avx2, U64 | Avx2, F64 => load3_avx2_i64
  | Avx512Knl, I8 | Avx512Knl, U8 => load3_avx512_knl_i8
  | Avx512Knl, I16 | Avx512Knl, U16 => load3_avx512_knl_i16
  | Avx512Knl, I32 | Avx512Knl, U32 | Avx512Knl, F32 => load3_avx512_knl_i32
  | Avx512Knl, I64 | Avx512Knl, U64 | Avx512Knl, F64 => load3_avx512_knl_i64
  | Avx512Skylake, I8 | Avx512Skylake, U8 => load3_avx512_knl_i8
  | Avx512Skylake, I16 | Avx512Skylake, U16 => load3_avx512_knl_i16
  | Avx512Skylake, I32 | Avx512Skylake, U32 | Avx512Skylake, F32 => load3_avx512_knl_i32
  | Avx512Skylake, I64 | Avx512Skylake, U64 | Avx512Skylake, F64 => load3_avx512_knl_i64
  end.

(** egg/platform_x86.py:930-951 *)
Definition load4 (e : ext) (t : etyp) : program :=
  match e, t with
  | Sse2, I8 | Sse2, U8 => load4_sse2_i8
  | Sse2, I16 | Sse2, U16 => load4_sse2_i16
  | Sse2, I32 | Sse2, U32 | Sse2, F32 => load4_sse2_i32
  | Sse2, I64 | Sse2, U64 | Sse2, F64 => load4_sse2_i64
  | Sse42, I8 | Sse42, U8 => load4_sse42_i8
  | Sse42, I16 | Sse42, U16 => load4_sse2_i16
  | Sse42, I32 | Sse42, U32 | Sse42, F32 => load4_sse2_i32
  | Sse42, I64 | Sse42, U64 | Sse42, F64 => load4_sse2_i64
  | Avx, I8 | Avx, U8 => load4_avx_i8
  | Avx, I16 | Avx, U16 => load4_avx_i16
  | Avx, I32 | Avx, U32 => load4_avx_i32
  | Avx, I64 | Avx, U64 => load4_avx_i64
  | Avx, F32 => load4_avx_f32
  | Avx, F64 => load4_avx_f64
  | Avx2, I8 | Avx2, U8 => load4_avx2_i8
  | Avx2, I16 | Avx2, U16 => load4_avx2_i16
  | Avx2, I32 | Avx2, U32 | Avx2, F32 => load4_avx_f32
  | Avx2, I64 | Avx2, U64 | Avx2, F64 => load4_avx_f64
  | Avx512Knl, I8 | Avx512Knl, U8 => load4_avx512_knl_i8
  | Avx512Knl, I16 | Avx512Knl, U16 => load4_avx512_knl_i16
  | Avx512Knl, I32 | Avx512Knl, U32 | Avx512Knl, F32 => load4_avx512_knl_i32
  | Avx512Knl, I64 | Avx512Knl, U64 | Avx512Knl, F64 => load4_avx512_knl_i64
  | Avx512Skylake, I8 | Avx512Skylake, U8 => load4_avx512_knl_i8
  | Avx512Skylake, I16 | Avx512Skylake, U16 => load4_avx512_knl_i16
  | Avx512Skylake, I32 | Avx512Skylake, U32 | Avx512Skylake, F32 => load4_avx512_knl_i32
  | Avx512Skylake, I64 | Avx512Skylake, U64 | Avx512Skylake, F64 => load4_avx512_knl_i64
  end.

(** egg/platform_x86.py:971-992 *)
Definition store2 (e : ext) (t : etyp) : program :=
  match e, t with
  | Sse2, I8 | Sse2, U8 => store2_sse2_i8
  | Sse2, I16 | Sse2, U16 => store2_sse2_i16
  | Sse2, I32 | Sse2, U32 | Sse2, F32 => store2_sse2_i32
  | Sse2, I64 | Sse2, U64 | Sse2, F64 => store2_sse2_i64
  | Sse42, I8 | Sse42, U8 => store2_sse2_i8
  | Sse42, I16 | Sse42, U16 => store2_sse2_i16
  | Sse42, I32 | Sse42, U32 | Sse42, F32 => store2_sse2_i32
  | Sse42, I64 | Sse42, U64 | Sse42, F64 => store2_sse2_i64
  | Avx, I8 | Avx, U8 => store2_avx_i8
  | Avx, I16 | Avx, U16 => store2_avx_i16
  | Avx, I32 | Avx, U32 => store2_avx_i32
  | Avx, I64 | Avx, U64 => store2_avx_i64
  | Avx, F32 => store2_avx_f32
  | Avx, F64 => store2_avx_f64
  | Avx2, I8 | Avx2, U8 => store2_avx2_i8
  | Avx2, I16 | Avx2, U16 => store2_avx2_i16
  | Avx2, I32 | Avx2, U32 | Avx2, F32 => store2_avx_f32
  | Avx2, I64 | Avx2, U64 | Avx2, F64 => store2_avx_f64
  | Avx512Knl, I8 | Avx512Knl, U8 => store2_avx512_knl_i8
  | Avx512Knl, I16 | Avx512Knl, U16 => store2_avx512_knl_i16
  | Avx512Knl, I32 | Avx512Knl, U32 | Avx512Knl, F32 => store2_avx512_knl_i32
  | Avx512Knl, I64 | Avx512Knl, U64 | Avx512Knl, F64 => store2_avx512_knl_i64
  | Avx512Skylake, I8 | Avx512Skylake, U8 => store2_avx512_knl_i8
  | Avx512Skylake, I16 | Avx512Skylake, U16 => store2_avx512_knl_i16
  | Avx512Skylake, I32 | Avx512Skylake, U32 | Avx512Skylake, F32 => store2_avx512_knl_i32
  | Avx512Skylake, I64 | Avx512Skylake, U64 | Avx512Skylake, F64 => store2_avx512_knl_i64
  end.

(** egg/platform_x86.py:971-992 *)
Definition store3 (e : ext) (t : etyp) : program :=
  match e, t with
  | Sse2, I8 | Sse2, U8 => store3_sse2_i8
  | Sse2, I16 | Sse2, U16 => store3_sse2_i16
  | Sse2, I32 | Sse2, U32 => store3_sse2_i32
  | Sse2, I64 | Sse2, U64 => store3_sse2_i64
  | Sse2, F32 => store3_sse2_f32
  | Sse2, F64 => store3_sse2_f64
  | Sse42, I8 | Sse42, U8 => store3_sse42_i8
  | Sse42, I16 | Sse42, U16 => store3_sse2_i16
  | Sse42, I32 | Sse42, U32 => store3_sse2_i32
  | Sse42, I64 | Sse42, U64 => store3_sse2_i64
  | Sse42, F32 => store3_sse2_f32
  | Sse42, F64 => store3_sse2_f64
  | Avx, I8 | Avx, U8 => store3_avx_i8
  | Avx, I16 | Avx, U16 => store3_avx_i16
  | Avx, I32 | Avx, U32 => store3_avx_i32
  | Avx, I64 | Avx, U64 => store3_avx_i64
  | Avx, F32 => store3_avx_f32
  | Avx, F64 => store3_avx_f64
  | Avx2, I8 | Avx2, U8 => store3_avx2_i8
  | Avx2, I16 | Avx2, U16 => store3_avx2_i16
  | Avx2, I32 | Avx2, U32 | Avx2, F32 => store3_avx2_i32
  | Avx2, I64 | Avx2, U64 => store3_avx_i64
  | Avx2, F64 => store3_avx_f64
  | Avx512Knl, I8 | Avx512Knl, U8 => store3_avx512_knl_i8
  | Avx512Knl, I16 | Avx512Knl, U16 => store3_avx512_knl_i16
  | Avx512Knl, I32 | Avx512Knl, U32 | Avx512Knl, F32 => store3_avx512_knl_i32
  | Avx512Knl, I64 | Avx512Knl, U64 | Avx512Knl, F64 => store3_avx512_knl_i64
  | Avx512Skylake, I8 | Avx512Skylake, U8 => store3_avx512_knl_i8
  | Avx512Skylake, I16 | Avx512Skylake, U16 => store3_avx512_knl_i16
  | Avx512Skylake, I32 | Avx512Skylake, U32 | Avx512Skylake, F32 => store3_avx512_knl_i32
  | Avx512Skylake, I64 | Avx512Skylake, U64 | Avx512Skylake, F64 => store3_avx512_knl_i64
  end.

(** egg/platform_x86.py:971-992 *)
Definition store4 (e : ext) (t : etyp) : program :=
  match e, t with
  | Sse2, I8 | Sse2, U8 => store4_sse2_i8
  | Sse2, I16 | Sse2, U16 => store4_sse2_i16
  | Sse2, I32 | Sse2, U32 | Sse2, F32 => store4_sse2_i32
  | Sse2, I64 | Sse2, U64 | Sse2, F64 => store4_sse2_i64
  | Sse42, I8 | Sse42, U8 => store4_sse2_i8
  | Sse42, I16 | Sse42, U16 => store4_sse2_i16
  | Sse42, I32 | Sse42, U32 | Sse42, F32 => store4_sse2_i32
  | Sse42, I64 | Sse42, U64 | Sse42, F64 => store4_sse2_i64
  | Avx, I8 | Avx, U8 => store4_avx_i8
  | Avx, I16 | Avx, U16 => store4_avx_i16
  | Avx, I32 | Avx, U32 => store4_avx_i32
  | Avx, I64 | Avx, U64 => store4_avx_i64
  | Avx, F32 => store4_avx_f32
  | Avx, F64 => store4_avx_f64
  | Avx2, I8 | Avx2, U8 => store4_avx2_i8
  | Avx2, I16 | Avx2, U16 => store4_avx2_i16
  | Avx2, I32 | Avx2, U32 | Avx2, F32 => store4_avx_f32
  | Avx2, I64 | Avx2, U64 | Avx2, F64 => store4_avx_f64
  | Avx512Knl, I8 | Avx512Knl, U8 => store4_avx512_knl_i8
  | Avx512Knl, I16 | Avx512Knl, U16 => store4_avx512_knl_i16
  | Avx512Knl, I32 | Avx512Knl, U32 | Avx512Knl, F32 => store4_avx512_knl_i32
  | Avx512Knl, I64 | Avx512Knl, U64 | Avx512Knl, F64 => store4_avx512_knl_i64
  | Avx512Skylake, I8 | Avx512Skylake, U8 => store4_avx512_knl_i8
  | Avx512Skylake, I16 | Avx512Skylake, U16 => store4_avx512_knl_i16
  | Avx512Skylake, I32 | Avx512Skylake, U32 | Avx512Skylake, F32 => store4_avx512_knl_i32
  | Avx512Skylake, I64 | Avx512Skylake, U64 | Avx512Skylake, F64 => store4_avx512_knl_i64
  end.

