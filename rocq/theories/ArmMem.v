(** The memory operators of the ARM back ends: egg/platform_arm.py, [load1234], [maskoz_load], [store1234],
    [mask_store], [loadl], [storel], [gather], [gather_linear], [scatter], [scatter_linear].

    Memory is that of X86Mem.v: a partial map from byte addresses to bytes, accesses outside of which are
    undefined ([None]).  Registers, predicates and vectors of f16 are as in Arm.v and ArmPerm.v.

    Simplifications: alignment is not modelled, so the aligned and unaligned versions coincide; a local C array is
    the function from indices to the patterns of its elements; the conversions of f16 where it is not native are
    those of fp16.c; little-endian memory. *)
From Coq Require Import ZArith List Bool.
From Verif Require Import CInt FloatSpec Fp16 ScalarOps X86Deg234 X86Arith X86Mem Arm.
Import ListNotations.
Open Scope Z_scope.

(** ** Intrinsics *)

(** svld1(pg, a), svst1(pg, a, v): only the active lanes access memory; a lane that is not active is zero *)
Definition sv_ld1 (n w pg : Z) (m : bmem) (a : Z) : option Z :=
  build_o w (nlanes n w) (fun i => if active w pg i then rdw w m (a + i * (w / 8)) else Some 0).
Definition sv_st1 (n w pg : Z) (m : bmem) (a v : Z) : option bmem :=
  store_loop w (active w pg) (fun i => Some (a + i * (w / 8))) (fun i => lane w i v) (nlanes n w) m.

(** [k] registers one after the other *)
Fixpoint collect {A} (k : nat) (f : Z -> option A) : option (list A) :=
  match k with
  | O => Some []
  | S k' => bind (collect k' f) (fun l => bind (f (Z.of_nat k')) (fun x => Some (l ++ [x])))
  end.
Definition reg_of (rs : list Z) (j : Z) : Z := nth (Z.to_nat j) rs 0.
(** vld2q, vld3q, vld4q and svld2, svld3, svld4 with all lanes active: structures of [deg] elements *)
Definition i_ldn (deg n w : Z) (m : bmem) (a : Z) : option (list Z) :=
  collect (Z.to_nat deg) (fun j => build_o w (nlanes n w) (fun i => rdw w m (a + (i * deg + j) * (w / 8)))).
(** vst2q ... svst4 *)
Definition i_stn (deg n w : Z) (m : bmem) (a : Z) (rs : list Z) : option bmem :=
  store_loop w (fun _ => true) (fun k => Some (a + k * (w / 8))) (fun k => lane w (k / deg) (reg_of rs (k mod deg)))
             (Z.to_nat (deg * (n / w))) m.

(** svld1_gather_s{w}index, all lanes active *)
Definition sv_gather (n w : Z) (m : bmem) (a idx : Z) : option Z :=
  build_o w (nlanes n w) (fun i => rdw w m (a + to_s w (lane w i idx) * (w / 8))).
(** svst1_scatter_s{w}index, all lanes active: the lanes are written in the order [ord 0], [ord 1], ..., which is
    left open *)
Definition sv_scatter (ord : Z -> Z) (n w : Z) (m : bmem) (a idx v : Z) : option bmem :=
  store_loop w (fun _ => true) (fun k => Some (a + to_s w (lane w (ord k) idx) * (w / 8))) (fun k => lane w (ord k) v) (nlanes n w) m.
(** svindex(0, step) *)
Definition sv_index (n w step : Z) : Z := build w (nlanes n w) (fun i => i * step).
(** vsetq_lane(x, r, i) *)
Definition v_set_lane (w x r i : Z) : Z := build w (nlanes 128 w) (fun j => if j =? i then x else lane w j r).

(** ** Element types other than f16, and f16 where it is native (as [MI u16]) *)

(** :442-534 [load1234], degree 1; neon128 has no vectors of doubles *)
Definition a_load (e : aext) (t : mty) (m : bmem) (a : Z) : option Z :=
  match e, t with
  | Sve _ _, _ => sv_ld1 (an e) (mw t) (svtrue e (uty t)) m a
  | Neon128, MF64 => bind (rdw 64 m a) (fun x => bind (rdw 64 m (a + 8)) (fun y => Some (build 64 2 (fun i => if i =? 0 then x else y))))
  | _, _ => rdw 128 m a
  end.
(** :607-698 [store1234], degree 1 *)
Definition a_store (e : aext) (t : mty) (m : bmem) (a v : Z) : option bmem :=
  match e, t with
  | Sve _ _, _ => sv_st1 (an e) (mw t) (svtrue e (uty t)) m a v
  | Neon128, MF64 => bind (wrw 64 m a (lane 64 0 v)) (fun m' => wrw 64 m' (a + 8) (lane 64 1 v))
  | _, _ => wrw 128 m a v
  end.
(** :442-534, degrees 2, 3 and 4: neon128 reads 64-bit elements one by one *)
Definition a_load_deg (deg : Z) (e : aext) (t : mty) (m : bmem) (a : Z) : option (list Z) :=
  if is_neon128 e && (mw t =? 64) then
    collect (Z.to_nat deg) (fun j =>
      bind (rdw 64 m (a + j * 8)) (fun x => bind (rdw 64 m (a + (j + deg) * 8)) (fun y =>
      Some (build 64 2 (fun i => if i =? 0 then x else y)))))
  else i_ldn deg (an e) (mw t) m a.
(** :607-698, degrees 2, 3 and 4: on neon128 the doubles are written in the order of the addresses, and the
    64-bit integers register by register *)
Definition a_store_deg (deg : Z) (e : aext) (t : mty) (m : bmem) (a : Z) (rs : list Z) : option bmem :=
  match e, t with
  | Neon128, MI t' =>
      if bits t' =? 64 then
        store_loop 64 (fun _ => true) (fun k => Some (a + (k / 2 + k mod 2 * deg) * 8)) (fun k => lane 64 (k mod 2) (reg_of rs (k / 2)))
                   (Z.to_nat (2 * deg)) m
      else i_stn deg (an e) (mw t) m a rs
  | _, _ => i_stn deg (an e) (mw t) m a rs
  end.

(** :539-602 [maskoz_load]; [other] is the zero register or the third argument.  With sve_emulate_bool the emitted
    code passes a register where a predicate is expected and does not compile. *)
Definition a_maskoz_load (e : aext) (t : mty) (l : Z) (m : bmem) (a other : Z) : option Z :=
  let w := mw t in
  match e with
  | Sve _ _ => bind (sv_ld1 (an e) w l m a) (fun r => Some (sv_sel (an e) w l r other))
  | _ => bind (load_loop (fun i => negb (lane w i l =? 0)) (fun i => rdw w m (a + i * (w / 8))) (nlanes 128 w) (fun i => lane w i other))
              (fun buf => Some (build w (nlanes 128 w) buf))
  end.
Definition a_maskz_load (e : aext) (t : mty) (l : Z) (m : bmem) (a : Z) : option Z :=
  a_maskoz_load e t l m a (if is_neon e then v_dup (mw t) 0 else sv_dup (an e) (mw t) 0).
Definition a_masko_load := a_maskoz_load.
(** :703-742 [mask_store] *)
Definition a_mask_store (e : aext) (t : mty) (l : Z) (m : bmem) (a v : Z) : option bmem :=
  let w := mw t in
  match e with
  | Sve _ _ => sv_st1 (an e) w l m a v
  | _ => store_loop w (fun i => negb (lane w i l =? 0)) (fun i => Some (a + i * (w / 8))) (fun i => lane w i v) (nlanes 128 w) m
  end.

(** :1402-1428 [loadl], [storel], integers *)
Definition a_loadl (u : Z) (e : aext) (t : ity) (m : bmem) (a : Z) : option Z :=
  bind (a_load e (MI t) m a) (fun v => Some (a_notl u e t (a_eq u e t v (a_set1 e t 0)))).
Definition a_storel (u : Z) (e : aext) (t : ity) (m : bmem) (a l : Z) : option bmem :=
  a_store e (MI t) m a (a_if_else1 u e t l (a_set1 e t 1) (a_set1 e t 0)).

(** on SVE the local arrays have room for 2048 bits, :425-431 [max_len] *)
Definition fits (e : aext) (w : Z) : bool := match e with Sve _ _ => an e / w <=? 2048 / w | _ => true end.
(** on SVE, elements that have no gather and scatter instructions *)
Definition through_buffer (e : aext) (w : Z) : bool := negb (is_neon e) && (w <=? 16).

(** ret = vdupq_n(f(0)); ret = vsetq_lane(f(1), ret, 1); ...; ret = vsetq_lane(f(k), ret, k); *)
Fixpoint fill_lanes (w : Z) (f : Z -> option Z) (k : nat) : option Z :=
  match k with
  | O => bind (f 0) (fun x => Some (v_dup w x))
  | S k' => bind (fill_lanes w f k') (fun r => bind (f (Z.of_nat k)) (fun x => Some (v_set_lane w x r (Z.of_nat k))))
  end.
(** for (i = 0; i < real_le; i++) buf[i] = f(i); return svld1(svtrue, buf); *)
Definition fill_buffer (e : aext) (w : Z) (f : Z -> option Z) : option Z :=
  if fits e w then
    bind (load_loop (fun _ => true) f (nlanes (an e) w) (fun _ => 0)) (fun buf => Some (build w (nlanes (an e) w) buf))
  else None.
(** :2307-2360 [gather]; the neon128 vector of two doubles is read in the same way *)
Definition a_gather (e : aext) (t : mty) (m : bmem) (a idx : Z) : option Z :=
  let w := mw t in
  let f i := rdw w m (at_index w a idx i) in
  if is_neon e then fill_lanes w f (nlanes 128 w - 1)
  else if through_buffer e w then fill_buffer e w f
  else sv_gather (an e) w m a idx.
(** :2365-2408 [gather_linear]; [in0[0]], then [in0[i * step]] *)
Definition a_gather_linear (e : aext) (t : mty) (m : bmem) (a step : Z) : option Z :=
  let w := mw t in
  let f i := if is_neon e && (i =? 0) then rdw w m a else bind (at_step w a step i) (rdw w m) in
  if is_neon e then fill_lanes w f (nlanes 128 w - 1)
  else if through_buffer e w then fill_buffer e w f
  else sv_gather (an e) w m a (sv_index (an e) w step).
(** :2513-2557 [scatter] *)
Definition a_scatter (ord : Z -> Z) (e : aext) (t : mty) (m : bmem) (a idx v : Z) : option bmem :=
  let w := mw t in
  if is_neon e || through_buffer e w then
    if fits e w then
      store_loop w (fun _ => true) (fun i => Some (at_index w a idx i)) (fun i => lane w i v) (nlanes (an e) w) m
    else None
  else sv_scatter ord (an e) w m a idx v.
(** :2562-2596 [scatter_linear] *)
Definition a_scatter_linear (ord : Z -> Z) (e : aext) (t : mty) (m : bmem) (a step v : Z) : option bmem :=
  let w := mw t in
  if is_neon e || through_buffer e w then
    if fits e w then store_loop w (fun _ => true) (at_step w a step) (fun i => lane w i v) (nlanes (an e) w) m else None
  else sv_scatter ord (an e) w m a (sv_index (an e) w step) v.

(** ** f16 on NEON without NSIMD_ARM_FP16 *)

(** the arrays [f32 buf[8]] and [u32 mask[8]] from the two registers, and back *)
Definition abuf16 (v : Z * Z) (i : Z) : Z := if i <? 4 then lane 32 i (fst v) else lane 32 (i - 4) (snd v).
Definition aregs16 (buf : Z -> Z) : Z * Z := (build 32 4 buf, build 32 4 (fun i => buf (i + 4))).
(** :450-466; the array of four floats is used twice *)
Definition a_load16 (m : bmem) (a : Z) : option (Z * Z) :=
  bind (load_loop (fun _ => true) (fun i => ld16 m (a + i * 2)) 8 (fun _ => 0)) (fun buf => Some (aregs16 buf)).
(** :615-627 *)
Definition a_store16 (m : bmem) (a : Z) (v : Z * Z) : option bmem :=
  store_loop 16 (fun _ => true) (fun i => Some (a + i * 2)) (fun i => f32_to_u16 (abuf16 v i)) 8 m.
(** :484-498: the interleaved halves, then one conversion per register *)
Definition load_halves (r : Z) : option (Z * Z) :=
  bind (load_loop (fun _ => true) (fun i => u16_to_f32 (lane 16 i r)) 8 (fun _ => 0)) (fun buf => Some (aregs16 buf)).
Definition a_load_deg16 (deg : Z) (m : bmem) (a : Z) : option (list (Z * Z)) :=
  bind (i_ldn deg 128 16 m a) (fun temp => collect (Z.to_nat deg) (fun j => load_halves (reg_of temp j))).
(** :646-665 *)
Definition a_store_deg16 (deg : Z) (m : bmem) (a : Z) (vs : list (Z * Z)) : option bmem :=
  i_stn deg 128 16 m a (map (fun v => build 16 8 (fun i => f32_to_u16 (abuf16 v i))) vs).
(** :572-600 *)
Definition a_maskoz_load16 (l : Z * Z) (m : bmem) (a : Z) (other : Z * Z) : option (Z * Z) :=
  bind (load_loop (fun i => negb (abuf16 l i =? 0)) (fun i => ld16 m (a + i * 2)) 8 (abuf16 other)) (fun buf => Some (aregs16 buf)).
Definition a_maskz_load16 l m a := a_maskoz_load16 l m a (v_dup 32 0, v_dup 32 0).
Definition a_masko_load16 := a_maskoz_load16.
(** :724-741 *)
Definition a_mask_store16 (l : Z * Z) (m : bmem) (a : Z) (v : Z * Z) : option bmem :=
  store_loop 16 (fun i => negb (abuf16 l i =? 0)) (fun i => Some (a + i * 2)) (fun i => f32_to_u16 (abuf16 v i)) 8 m.
(** :2331-2347, :2386-2398; the offsets are i16 lanes *)
Definition a_gather16 (m : bmem) (a idx : Z) : option (Z * Z) :=
  bind (load_loop (fun _ => true) (fun i => ld16 m (at_index 16 a idx i)) 8 (fun _ => 0)) (fun buf => Some (aregs16 buf)).
Definition a_gather_linear16 (m : bmem) (a step : Z) : option (Z * Z) :=
  bind (load_loop (fun _ => true) (fun i => bind (at_step 16 a step i) (ld16 m)) 8 (fun _ => 0)) (fun buf => Some (aregs16 buf)).
(** :2532-2546, :2581-2592 *)
Definition a_scatter16 (m : bmem) (a idx : Z) (v : Z * Z) : option bmem :=
  store_loop 16 (fun _ => true) (fun i => Some (at_index 16 a idx i)) (fun i => f32_to_u16 (abuf16 v i)) 8 m.
Definition a_scatter_linear16 (m : bmem) (a step : Z) (v : Z * Z) : option bmem :=
  store_loop 16 (fun _ => true) (at_step 16 a step) (fun i => f32_to_u16 (abuf16 v i)) 8 m.
