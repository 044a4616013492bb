(** The memory operators of the x86 back ends: egg/platform_x86.py, [load], [store],
    [maskoz_load], [mask_store], [gather], [gather_linear], [scatter], [scatter_linear], and
    [iota] and [mask_for_loop_tail] on integer types.

    Memory is a partial map from byte addresses to bytes; reading or writing an address outside
    the map is undefined ([None]).  Registers and masks are as in X86Arith.v; an f16 vector is a
    pair of registers of f32 lanes (egg/platform_x86.py:83-92).

    Simplifications: alignment is not modelled, so the aligned and unaligned versions coincide;
    a local C array [typ buf[le]] is the function from indices to the patterns of its elements,
    so that storing a register to it and loading one from it take and give its lanes; the f16
    conversions are those of fp16.c (the branches without NSIMD_FP16, and [_mm512_cvtph_ps] is
    taken to convert like them); only the 64-bit mode (NSIMD_WORD_SIZE == 64) is modelled;
    [_mm_maskmoveu_si128] is an ordinary store of the selected bytes (its non-temporal ordering
    and the faults it may raise on unselected bytes are left out). *)
From Coq Require Import ZArith List Bool.
From Verif Require Import CInt FloatSpec Fp16 ScalarOps X86Deg234 X86Arith.
Open Scope Z_scope.

(** ** Byte memory *)

Definition bmem := Z -> option Z.

(** The little-endian integer held by the [k] bytes at address [a]. *)
Fixpoint rd (m : bmem) (a : Z) (k : nat) : option Z :=
  match k with
  | O => Some 0
  | S k' => bind (m a) (fun b => bind (rd m (a + 1) k') (fun r => Some (b mod 256 + 256 * r)))
  end.

Definition write_byte (m : bmem) (a b : Z) : option bmem :=
  match m a with
  | None => None
  | Some _ => Some (fun x => if x =? a then Some b else m x)
  end.

Fixpoint wr (m : bmem) (a : Z) (k : nat) (v : Z) : option bmem :=
  match k with
  | O => Some m
  | S k' => bind (write_byte m a (v mod 256)) (fun m' => wr m' (a + 1) k' (v / 256))
  end.

(** Number of bytes of an element of [w] bits, and a typed access through a pointer. *)
Definition nbytes (w : Z) : nat := Z.to_nat (w / 8).
Definition rdw (w : Z) (m : bmem) (a : Z) : option Z := rd m a (nbytes w).
Definition wrw (w : Z) (m : bmem) (a v : Z) : option bmem := wr m a (nbytes w) v.

(** ** Lanes one after the other *)

(** for (i = 0; i < k; i++) if (cond(i)) buf[i] = f(i); *)
Fixpoint load_loop (cond : Z -> bool) (f : Z -> option Z) (k : nat) (buf : Z -> Z) : option (Z -> Z) :=
  match k with
  | O => Some buf
  | S k' =>
      bind (load_loop cond f k' buf) (fun b =>
      if cond (Z.of_nat k')
      then bind (f (Z.of_nat k')) (fun x => Some (fun j => if j =? Z.of_nat k' then x else b j))
      else Some b)
  end.

(** for (i = 0; i < k; i++) if (cond(i)) store val(i), w bits, at adr(i); *)
Fixpoint store_loop (w : Z) (cond : Z -> bool) (adr : Z -> option Z) (val : Z -> Z) (k : nat) (m : bmem) : option bmem :=
  match k with
  | O => Some m
  | S k' =>
      bind (store_loop w cond adr val k' m) (fun m' =>
      if cond (Z.of_nat k')
      then bind (adr (Z.of_nat k')) (fun a => wrw w m' a (val (Z.of_nat k')))
      else Some m')
  end.

(** ** Intel intrinsics on memory *)

(** loadu_si, loadu_ps, ...; storeu_si, storeu_ps, ... *)
Definition mm_loadu n (m : bmem) (a : Z) : option Z := rdw n m a.
Definition mm_storeu n (m : bmem) (a v : Z) : option bmem := wrw n m a v.

(** a register from lanes read one by one *)
Fixpoint build_o (w : Z) (k : nat) (f : Z -> option Z) : option Z :=
  match k with
  | O => Some 0
  | S k' => bind (build_o w k' f) (fun r =>
            bind (f (Z.of_nat k')) (fun x => Some (r + (x mod 2 ^ w) * 2 ^ (w * Z.of_nat k'))))
  end.

Definition top_bit (w x : Z) : bool := 2 ^ (w - 1) <=? x.

(** maskload_ps, maskload_pd, maskload_epi32, maskload_epi64: lanes whose mask has its top bit set
    are read, the others are zero *)
Definition mm_maskload n w (m : bmem) (a mask : Z) : option Z :=
  build_o w (nlanes n w) (fun i => if top_bit w (lane w i mask) then rdw w m (a + i * (w / 8)) else Some 0).
(** mask_loadu, maskz_loadu (AVX-512): lanes whose bit is set are read, the others come from [src] *)
Definition mm_mask_loadu n w (src k : Z) (m : bmem) (a : Z) : option Z :=
  build_o w (nlanes n w) (fun i => if Z.testbit k i then rdw w m (a + i * (w / 8)) else Some (lane w i src)).
Definition mm_maskstore n w (m : bmem) (a mask v : Z) : option bmem :=
  store_loop w (fun i => top_bit w (lane w i mask)) (fun i => Some (a + i * (w / 8))) (fun i => lane w i v) (nlanes n w) m.
Definition mm_mask_storeu n w (m : bmem) (a k v : Z) : option bmem :=
  store_loop w (fun i => Z.testbit k i) (fun i => Some (a + i * (w / 8))) (fun i => lane w i v) (nlanes n w) m.
(** _mm_maskmoveu_si128: byte by byte *)
Definition mm_maskmoveu (v mask : Z) (m : bmem) (a : Z) : option bmem :=
  store_loop 8 (fun i => top_bit 8 (lane 8 i mask)) (fun i => Some (a + i)) (fun i => lane 8 i v) 16 m.
(** i32gather, i64gather and scatter: address base + signed index * scale; lanes are written from the
    lowest to the highest *)
Definition mm_gather n w (m : bmem) (a idx scale : Z) : option Z :=
  build_o w (nlanes n w) (fun i => rdw w m (a + to_s w (lane w i idx) * scale)).
Definition mm_scatter n w (m : bmem) (a idx v scale : Z) : option bmem :=
  store_loop w (fun _ => true) (fun i => Some (a + to_s w (lane w i idx) * scale)) (fun i => lane w i v) (nlanes n w) m.

(** ** Element types other than f16 *)

Inductive mty := MI (t : ity) | MF32 | MF64.
(** the integer type of the same width *)
Definition uty (t : mty) : ity := match t with MI t => t | MF32 => u32 | MF64 => u64 end.
Definition mw (t : mty) : Z := bits (uty t).
Definition is_float (t : mty) : bool := match t with MI _ => false | _ => true end.
Definition msmall (t : mty) : bool := negb (wide (uty t)).

Definition is_sse (e : ext) : bool := match e with Sse2 | Sse42 => true | _ => false end.
Definition skylake (e : ext) : bool := match e with Avx512Skylake => true | _ => false end.

(** egg/platform_x86.py:733-799 [load] and :997-1055 [store] *)
Definition x_load (e : ext) (m : bmem) (a : Z) : option Z := mm_loadu (nb e) m a.
Definition x_store (e : ext) (m : bmem) (a v : Z) : option bmem := mm_storeu (nb e) m a v.

(** ** Masked loads: egg/platform_x86.py:802-911 [maskoz_load] *)

(** :835-862: the loop; [other] is the zero register or the fourth argument *)
Definition maskload_emul (e : ext) (t : mty) (l other : Z) (m : bmem) (a : Z) : option Z :=
  let w := mw t in
  let cond i := if knl e then negb (Z.land (Z.shiftr l i) 1 =? 0) else negb (lane w i l =? 0) in
  bind (load_loop cond (fun i => rdw w m (a + i * (w / 8))) (nlanes (nb e) w) (fun i => lane w i other))
       (fun buf => Some (build w (nlanes (nb e) w) buf)).

Definition maskload_emulated (e : ext) (t : mty) : bool :=
  (msmall t && negb (skylake e)) || (negb (msmall t) && is_sse e).

Definition x_maskz_load (e : ext) (t : mty) (l : Z) (m : bmem) (a : Z) : option Z :=
  if maskload_emulated e t then maskload_emul e t l mm_zero m a
  else if is512 e then mm_mask_loadu 512 (mw t) mm_zero l m a
  else mm_maskload 256 (mw t) m a l.

(** the AVX2 integer version blends bytes (:884-885), the others lanes *)
Definition x_masko_load (e : ext) (t : mty) (l : Z) (m : bmem) (a other : Z) : option Z :=
  if maskload_emulated e t then maskload_emul e t l other m a
  else if is512 e then mm_mask_loadu 512 (mw t) other l m a
  else bind (mm_maskload 256 (mw t) m a l) (fun r =>
         match e, is_float t with
         | Avx2, false => Some (mm_blendv 256 8 other r l)
         | _, _ => Some (mm_blendv 256 (mw t) other r l)
         end).

(** ** Masked stores: egg/platform_x86.py:1057-1135 [mask_store] *)

Definition mask_store_sse (m : bmem) (l a v : Z) : option bmem := mm_maskmoveu v l m a.

Definition x_mask_store (e : ext) (t : mty) (l : Z) (m : bmem) (a v : Z) : option bmem :=
  let w := mw t in
  if is_sse e then mask_store_sse m l a v
  else if msmall t && negb (skylake e) then
    if knl e then
      store_loop w (fun i => negb (Z.land (Z.shiftr l i) 1 =? 0)) (fun i => Some (a + i * (w / 8)))
                 (fun i => lane w i v) (nlanes 512 w) m
    else
      bind (mask_store_sse m (mm_lo 256 l) a (mm_lo 256 v)) (fun m' =>
      mask_store_sse m' (mm_hi 256 l) (a + nb e / w / 2 * (w / 8)) (mm_hi 256 v))
  else if is512 e then mm_mask_storeu 512 w m a l v
  else mm_maskstore 256 w m a l v.

(** ** Gather and scatter *)

(** [buf[i] = base[offset_buf[i]]]: the address of an element through a signed index *)
Definition at_index (w a : Z) (idx i : Z) : Z := a + to_s w (lane w i idx) * (w / 8).

(** egg/platform_x86.py:3783-3822 [gather] *)
Definition x_gather (e : ext) (t : mty) (m : bmem) (a idx : Z) : option Z :=
  let w := mw t in
  if is_sse e || (match e with Avx => true | _ => false end) || msmall t then
    bind (load_loop (fun _ => true) (fun i => rdw w m (at_index w a idx i)) (nlanes (nb e) w) (fun _ => 0))
         (fun buf => Some (build w (nlanes (nb e) w) buf))
  else mm_gather (nb e) w m a idx (w / 8).

(** egg/platform_x86.py:3656-3679 [scatter] *)
Definition x_scatter (e : ext) (t : mty) (m : bmem) (a idx v : Z) : option bmem :=
  let w := mw t in
  if negb (is512 e) || msmall t then
    store_loop w (fun _ => true) (fun i => Some (at_index w a idx i)) (fun i => lane w i v) (nlanes (nb e) w) m
  else mm_scatter 512 w m a idx v (w / 8).

(** [i * step] in [int], as an element offset *)
Definition at_step (w a step i : Z) : option Z := bind (carith i32 (i * step)) (fun k => Some (a + k * (w / 8))).

(** egg/platform_x86.py:3828-3873 [gather_linear]: a local array on SSE2 except for 16-bit types, lane
    insertions on the other extensions up to AVX2, two AVX2 calls on AVX-512 *)
Fixpoint set_lanes (e : ext) (t : ity) (f : Z -> option Z) (k : nat) (ret : Z) : option Z :=
  match k with
  | O => Some ret
  | S k' => bind (set_lanes e t f k' ret) (fun r => bind (f (Z.of_nat k')) (fun x => Some (set_lane e t r x (Z.of_nat k'))))
  end.
Definition gather_linear_avx (e : ext) (t : mty) (undef : Z) (m : bmem) (a step : Z) : option Z :=
  let w := mw t in
  let f i := bind (at_step w a step i) (rdw w m) in
  if match e with Sse2 => negb (w =? 16) | _ => false end then
    bind (load_loop (fun _ => true) f (nlanes (nb e) w) (fun _ => 0)) (fun buf => Some (build w (nlanes (nb e) w) buf))
  else set_lanes e (uty t) f (nlanes (nb e) w) undef.
Definition x_gather_linear (e : ext) (t : mty) (undef : Z) (m : bmem) (a step : Z) : option Z :=
  let w := mw t in
  if is512 e then
    bind (gather_linear_avx Avx2 t (mm_lo 512 undef) m a step) (fun lo =>
    bind (at_step w a step (nb e / w / 2)) (fun a2 =>
    bind (gather_linear_avx Avx2 t (mm_hi 512 undef) m a2 step) (fun hi => Some (mm_setr 512 lo hi))))
  else gather_linear_avx e t undef m a step.

(** egg/platform_x86.py:3682-3721 [scatter_linear]; [get_lane] where the trick is used *)
Definition scatter_linear_avx (e : ext) (t : mty) (m : bmem) (a step v : Z) : option bmem :=
  let w := mw t in
  let trick := match e with
               | Sse2 => w =? 16
               | Avx => negb (msmall t)
               | _ => true
               end in
  store_loop w (fun _ => true) (at_step w a step)
             (fun i => if trick then get_lane e (uty t) v i else lane w i v) (nlanes (nb e) w) m.
Definition x_scatter_linear (e : ext) (t : mty) (m : bmem) (a step v : Z) : option bmem :=
  let w := mw t in
  if is512 e then
    bind (scatter_linear_avx Avx2 t m a step (mm_lo 512 v)) (fun m' =>
    bind (at_step w a step (nb e / w / 2)) (fun a2 =>
    scatter_linear_avx Avx2 t m' a2 step (mm_hi 512 v)))
  else scatter_linear_avx e t m a step v.

(** ** f16: a pair of registers of f32 lanes *)

Definition le16 (e : ext) : Z := nb e / 16.
(** The array [buf] or [mask] of [le] floats filled from the two registers, and back. *)
Definition buf16 (e : ext) (v : Z * Z) (i : Z) : Z :=
  if i <? le16 e / 2 then lane 32 i (fst v) else lane 32 (i - le16 e / 2) (snd v).
Definition regs16 (e : ext) (buf : Z -> Z) : Z * Z :=
  (build 32 (nlanes (nb e) 32) buf, build 32 (nlanes (nb e) 32) (fun i => buf (i + le16 e / 2))).
(** the logical as an array of floats: :805-814 *)
Definition mask16 (e : ext) (l : Z * Z) : Z * Z :=
  if is512 e
  then (mm_mask_mov 512 32 mm_zero (fst l) (mm_set1 512 32 1065353216), mm_mask_mov 512 32 mm_zero (snd l) (mm_set1 512 32 1065353216))
  else l.
Definition ld16 (m : bmem) (a : Z) : option Z := bind (rdw 16 m a) u16_to_f32.

(** :733-799, branches without NSIMD_FP16 *)
Definition x_load16 (e : ext) (m : bmem) (a : Z) : option (Z * Z) :=
  bind (load_loop (fun _ => true) (fun i => ld16 m (a + i * 2)) (Z.to_nat (le16 e)) (fun _ => 0)) (fun buf => Some (regs16 e buf)).
(** :997-1055 *)
Definition x_store16 (e : ext) (m : bmem) (a : Z) (v : Z * Z) : option bmem :=
  store_loop 16 (fun _ => true) (fun i => Some (a + i * 2)) (fun i => f32_to_u16 (buf16 e v i)) (Z.to_nat (le16 e)) m.
(** :803-834 *)
Definition x_maskoz_load16 (e : ext) (l : Z * Z) (m : bmem) (a : Z) (other : Z * Z) : option (Z * Z) :=
  bind (load_loop (fun i => negb (buf16 e (mask16 e l) i =? 0)) (fun i => ld16 m (a + i * 2)) (Z.to_nat (le16 e)) (buf16 e other))
       (fun buf => Some (regs16 e buf)).
Definition x_maskz_load16 e l m a := x_maskoz_load16 e l m a (mm_zero, mm_zero).
Definition x_masko_load16 := x_maskoz_load16.
(** :1058-1080 *)
Definition x_mask_store16 (e : ext) (l : Z * Z) (m : bmem) (a : Z) (v : Z * Z) : option bmem :=
  store_loop 16 (fun i => negb (buf16 e (mask16 e l) i =? 0)) (fun i => Some (a + i * 2)) (fun i => f32_to_u16 (buf16 e v i)) (Z.to_nat (le16 e)) m.
(** :3784-3796, :3657-3668; the offsets are i16 lanes *)
Definition x_gather16 (e : ext) (m : bmem) (a idx : Z) : option (Z * Z) :=
  bind (load_loop (fun _ => true) (fun i => ld16 m (at_index 16 a idx i)) (Z.to_nat (le16 e)) (fun _ => 0)) (fun buf => Some (regs16 e buf)).
Definition x_scatter16 (e : ext) (m : bmem) (a idx : Z) (v : Z * Z) : option bmem :=
  store_loop 16 (fun _ => true) (fun i => Some (at_index 16 a idx i)) (fun i => f32_to_u16 (buf16 e v i)) (Z.to_nat (le16 e)) m.
(** :3831-3840, :3683-3691 *)
Definition x_gather_linear16 (e : ext) (m : bmem) (a step : Z) : option (Z * Z) :=
  bind (load_loop (fun _ => true) (fun i => bind (at_step 16 a step i) (ld16 m)) (Z.to_nat (le16 e)) (fun _ => 0)) (fun buf => Some (regs16 e buf)).
Definition x_scatter_linear16 (e : ext) (m : bmem) (a step : Z) (v : Z * Z) : option bmem :=
  store_loop 16 (fun _ => true) (at_step 16 a step) (fun i => f32_to_u16 (buf16 e v i)) (Z.to_nat (le16 e)) m.

(** ** iota and mask_for_loop_tail on integer types: egg/platform_x86.py:3612-3650 *)

Definition x_iota (e : ext) (t : ity) : Z := build (bits t) (nlanes (nb e) (bits t)) (fun i => i).
(** [i] and [n] are ints; [n - i] is computed in int *)
Definition x_mask_for_loop_tail (e : ext) (t : ity) (i n : Z) : option Z :=
  if n <=? i then Some (x_set1l e t 0)
  else bind (carith i32 (n - i)) (fun d =>
       if d <? le e t then bind (carith i32 (n - i)) (fun d' => Some (x_lt e t (x_iota e t) (x_set1 e t (cast t d'))))
       else Some (x_set1l e t 1)).
