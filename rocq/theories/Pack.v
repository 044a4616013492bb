(** Model of the advanced C++ API on unrolled packs: the template code generated
    by egg/gen_adv_cxx_api.py and the hand-written part of
    include/nsimd/cxx_adv_api.hpp, over the CPU backend of CpuSimd.v.
    Memory and registers are those of CpuSimd.v; [len] is the number of lanes of
    one register. *)
From Coq Require Import ZArith Bool List.
From Verif Require Import CInt ScalarOps CpuSimd.
Import ListNotations.
Open Scope Z_scope.

(** include/nsimd/cxx_adv_api.hpp:44-135 (pack), 152-217 (packl): [pack<T,1>] has a
    member car; [pack<T,N>] has members car and cdr, a [pack<T,N-1>].
    Logical packs have the same shape. *)
Inductive pack := P1 (car : reg) | PN (car : reg) (cdr : pack).

Definition pcar (p : pack) : reg := match p with P1 c => c | PN c _ => c end.
(** No member cdr in [pack<T,1>]: not compilable, [None]. *)
Definition pcdr (p : pack) : option pack := match p with P1 _ => None | PN _ d => Some d end.

(** *** Generated functions (egg/gen_adv_cxx_api.py:30-165) *)
(** Arguments by kind of parameter: 'v'/'vi'/'l' are packs, '*'/'c*' pointers,
    anything else is passed unchanged. *)
Inductive arg := APack (p : pack) | APtr (a : Z) | AVal (z : Z).
(** Arguments of the base function on one register. *)
Inductive barg := BReg (r : reg) | BPtr (a : Z) | BVal (z : Z).

(** Lines 44-51 [var] with N = '1'. *)
Definition var1 (x : arg) : barg :=
  match x with APack p => BReg (pcar p) | APtr a => BPtr a | AVal z => BVal z end.
(** ... and with N != '1'. *)
Definition varN (len_ : Z) (x : arg) : option arg :=
  match x with
  | APack p => bind (pcdr p) (fun d => Some (APack d))
  | APtr a => Some (APtr (a + len_))
  | AVal z => Some (AVal z)
  end.

(** Lines 118-133 (template of both overloads) with a return type 'v', 'vi' or 'l'
    (lines 78-85): ret.car = name(vars1); ret.cdr = name(varsN). *)
Fixpoint adv_v (N : nat) (len_ : Z) (base : list barg -> option reg) (args : list arg) : option pack :=
  match N with
  | O => None
  | S O => bind (base (map var1 args)) (fun c => Some (P1 c))
  | S N' => bind (base (map var1 args)) (fun c =>
            bind (sequence (map (varN len_) args)) (fun args' =>
            bind (adv_v N' len_ base args') (fun d => Some (PN c d))))
  end.

(** Return type 'vxK' (lines 86-105): the base function returns K registers,
    ret.set_car / ret.set_cdr distribute them over the K packs. *)
Fixpoint set_cdr (cars : list reg) (cdrs : list pack) : option (list pack) :=
  match cars, cdrs with
  | [], [] => Some []
  | c :: cs, d :: ds => bind (set_cdr cs ds) (fun l => Some (PN c d :: l))
  | _, _ => None
  end.
Fixpoint adv_vx (N : nat) (len_ : Z) (base : list barg -> option (list reg)) (args : list arg) : option (list pack) :=
  match N with
  | O => None
  | S O => bind (base (map var1 args)) (fun cs => Some (map P1 cs))
  | S N' => bind (base (map var1 args)) (fun cs =>
            bind (sequence (map (varN len_) args)) (fun args' =>
            bind (adv_vx N' len_ base args') (fun ds => set_cdr cs ds)))
  end.

(** Return type '_' (lines 106-113): stores. *)
Fixpoint adv_m (N : nat) (len_ : Z) (base : mem -> list barg -> option mem) (m : mem) (args : list arg) : option mem :=
  match N with
  | O => None
  | S O => base m (map var1 args)
  | S N' => bind (base m (map var1 args)) (fun m' =>
            bind (sequence (map (varN len_) args)) (fun args' => adv_m N' len_ base m' args'))
  end.

(** The operators: the base functions of CpuSimd.v with their signature in
    egg/operators.py, and [len_] of lines 114-129. *)
Section Ops.
Variables (t : ety) (len : nat).

Definition b1 (g : reg -> option reg) (l : list barg) := match l with [BReg a] => g a | _ => None end.
Definition b2 (g : reg -> reg -> option reg) (l : list barg) := match l with [BReg a; BReg b] => g a b | _ => None end.
Definition b3 (g : reg -> reg -> reg -> option reg) (l : list barg) := match l with [BReg a; BReg b; BReg c] => g a b c | _ => None end.
Definition bshift (g : reg -> Z -> option reg) (l : list barg) := match l with [BReg a; BVal s] => g a s | _ => None end.

(** 'v op v', 'v op v v', 'l cmp v v', 'l op l l', 'v fma v v v', 'v shl v p', 'v set1 s' *)
Definition pk_un (N : nat) (g : Z -> option Z) (a : pack) := adv_v N 0 (b1 (scalar_impl1 len g)) [APack a].
Definition pk_bin (N : nat) (g : Z -> Z -> option Z) (a b : pack) := adv_v N 0 (b2 (scalar_impl2 len g)) [APack a; APack b].
Definition pk_ter (N : nat) (g : Z -> Z -> Z -> option Z) (a b c : pack) := adv_v N 0 (b3 (scalar_impl3 len g)) [APack a; APack b; APack c].
Definition pk_shift (N : nat) (g : Z -> Z -> option Z) (a : pack) (s : Z) := adv_v N 0 (bshift (scalar_impl_shift len g)) [APack a; AVal s].
Definition pk_set1 (N : nat) (x : Z) := adv_v N 0 (fun l => match l with [BVal x] => set1 t len x | _ => None end) [AVal x].

(** 'v loadu c*' (egg/operators.py), len_ = len(pack<T,1>). *)
Definition pk_load (N : nat) (m : mem) (p : Z) :=
  adv_v N (Z.of_nat len) (fun l => match l with [BPtr p] => load t len m p | _ => None end) [APtr p].
(** 'l loadlu c*' *)
Definition pk_loadl (N : nat) (m : mem) (p : Z) :=
  adv_v N (Z.of_nat len) (fun l => match l with [BPtr p] => loadl t len m p | _ => None end) [APtr p].
(** 'v maskz_loadu1 l c*', 'v masko_loadu1 l c* v' *)
Definition pk_maskz_load (N : nat) (m : mem) (l : pack) (p : Z) :=
  adv_v N (Z.of_nat len) (fun x => match x with [BReg l; BPtr p] => maskz_load t len m l p | _ => None end) [APack l; APtr p].
Definition pk_masko_load (N : nat) (m : mem) (l : pack) (p : Z) (o : pack) :=
  adv_v N (Z.of_nat len) (fun x => match x with [BReg l; BPtr p; BReg o] => masko_load t len m l p o | _ => None end) [APack l; APtr p; APack o].
(** '_ storeu * v', '_ storelu * l', '_ mask_storeu1 l * v' *)
Definition pk_store (N : nat) (m : mem) (p : Z) (a : pack) :=
  adv_m N (Z.of_nat len) (fun m l => match l with [BPtr p; BReg a] => store t len m p a | _ => None end) m [APtr p; APack a].
Definition pk_storel (N : nat) (m : mem) (p : Z) (a : pack) :=
  adv_m N (Z.of_nat len) (fun m l => match l with [BPtr p; BReg a] => storel t len m p a | _ => None end) m [APtr p; APack a].
Definition pk_mask_store (N : nat) (m : mem) (l : pack) (p : Z) (a : pack) :=
  adv_m N (Z.of_nat len) (fun m x => match x with [BReg l; BPtr p; BReg a] => mask_store t len m l p a | _ => None end) m [APack l; APtr p; APack a].

(** 'vxK loadKu c*': len_ = len(packxK<T,1>) = K * len (cxx_adv_api.hpp:505-523). *)
Definition pk_load_deg (N deg : nat) (m : mem) (p : Z) :=
  adv_vx N (Z.of_nat (deg * len)) (fun l => match l with [BPtr p] => load_deg t deg len m p | _ => None end) [APtr p].
(** '_ storeKu * v .. v': len_ = K * len (multiplier, lines 117-124). *)
Definition regs_of (l : list barg) : option (list reg) :=
  sequence (map (fun b => match b with BReg r => Some r | _ => None end) l).
Definition pk_store_deg (N deg : nat) (m : mem) (p : Z) (packs : list pack) :=
  adv_m N (Z.of_nat (deg * len)) (fun m l => match l with
    | BPtr p :: rs => bind (regs_of rs) (fun regs => store_deg t deg len m p regs)
    | _ => None end) m (APtr p :: map APack packs).

(** 'v gather c* vi', 'v gather_linear c* p', '_ scatter * vi v', '_ scatter_linear * p v' *)
Definition pk_gather (N : nat) (m : mem) (p : Z) (idx : pack) :=
  adv_v N (Z.of_nat len) (fun l => match l with [BPtr p; BReg i] => gather t len m p i | _ => None end) [APtr p; APack idx].
Definition pk_gather_linear (N : nat) (m : mem) (p step : Z) :=
  adv_v N (Z.of_nat len) (fun l => match l with [BPtr p; BVal s] => gather_linear t len m p s | _ => None end) [APtr p; AVal step].
Definition pk_scatter (N : nat) (m : mem) (p : Z) (idx a : pack) :=
  adv_m N (Z.of_nat len) (fun m l => match l with [BPtr p; BReg i; BReg a] => scatter t len m p i a | _ => None end) m [APtr p; APack idx; APack a].
Definition pk_scatter_linear (N : nat) (m : mem) (p step : Z) (a : pack) :=
  adv_m N (Z.of_nat len) (fun m l => match l with [BPtr p; BVal s; BReg a] => scatter_linear t len m p s a | _ => None end) m [APtr p; AVal step; APack a].

(** 'v iota', 'l mask_for_loop_tail p p' *)
Definition pk_iota (N : nat) (ti : ity) := adv_v N 0 (fun l => match l with [] => iota ti len | _ => None end) [].
Definition pk_mask_for_loop_tail (N : nat) (i n : Z) :=
  adv_v N 0 (fun l => match l with [BVal i; BVal n] => mask_for_loop_tail len i n | _ => None end) [AVal i; AVal n].

(** *** Hand-written functions of include/nsimd/cxx_adv_api.hpp *)
(** 734-755 [if_else]. *)
Fixpoint pk_if_else (l a b : pack) : option pack :=
  match l, a, b with
  | P1 l, P1 a, P1 b => bind (if_else1 len l a b) (fun c => Some (P1 c))
  | PN l l', PN a a', PN b b' => bind (if_else1 len l a b) (fun c => bind (pk_if_else l' a' b') (fun d => Some (PN c d)))
  | _, _, _ => None
  end.
(** 543-577 [all], [any], [nbtrue]: && and || of ints give 0 or 1. *)
Definition cbool (b : bool) : Z := if b then 1 else 0.
Fixpoint pk_all (a : pack) : option Z :=
  match a with
  | P1 a => all1 len a
  | PN a d => bind (all1 len a) (fun x => if x =? 0 then Some 0 else bind (pk_all d) (fun y => Some (cbool (negb (y =? 0)))))
  end.
Fixpoint pk_any (a : pack) : option Z :=
  match a with
  | P1 a => any1 len a
  | PN a d => bind (any1 len a) (fun x => if negb (x =? 0) then Some 1 else bind (pk_any d) (fun y => Some (cbool (negb (y =? 0)))))
  end.
Fixpoint pk_nbtrue (a : pack) : option Z :=
  match a with
  | P1 a => nbtrue1 len a
  | PN a d => bind (nbtrue1 len a) (fun x => bind (pk_nbtrue d) (fun y => Some (x + y)))
  end.
(** 588-729 compound assignment, e.g. [operator+=]: car and cdr updated. *)
Fixpoint pk_assign (g : Z -> Z -> option Z) (a b : pack) : option pack :=
  match a, b with
  | P1 a, P1 b => bind (scalar_impl2 len g a b) (fun c => Some (P1 c))
  | PN a a', PN b b' => bind (scalar_impl2 len g a b) (fun c => bind (pk_assign g a' b') (fun d => Some (PN c d)))
  | _, _ => None
  end.
(** 495-525 [len]. *)
Definition pk_len (N : nat) : Z := Z.of_nat N * Z.of_nat len.
Definition pk_len_deg (deg N : nat) : Z := Z.of_nat deg * Z.of_nat N * Z.of_nat len.
End Ops.

(** 1225-1295 [to_pack_recurs_helper]: [to] is to_pack_unroll_ix, [which] is
    which_from_pack_ix; the three specialisations advance / base case / switch. *)
Fixpoint to_pack_helper (to : nat) (from_packx : list pack) (which : nat) (from : pack) : option pack :=
  match to, from with
  | O, _ => None
  | S O, P1 c => Some (P1 c)                                            (* base case *)
  | S O, PN _ _ => None
  | S to', P1 c =>                                                       (* switch *)
      bind (nth_error from_packx (S which)) (fun next =>
      bind (to_pack_helper to' from_packx (S which) next) (fun d => Some (PN c d)))
  | S to', PN c cdr =>                                                   (* advance *)
      bind (to_pack_helper to' from_packx which cdr) (fun d => Some (PN c d))
  end.
(** 1297-1311 [to_pack] for N > 1; 1180-1220 the overloads for N = 1, which copy
    v0.car, v1.car, ... into car, cdr.car, ... *)
Fixpoint to_pack_1 (l : list pack) : option pack :=
  match l with
  | [P1 c] => Some (P1 c)
  | P1 c :: l' => bind (to_pack_1 l') (fun d => Some (PN c d))
  | _ => None
  end.
Definition to_pack (N : nat) (packx : list pack) : option pack :=
  match N with
  | O => None
  | S O => to_pack_1 packx
  | _ => match packx with
         | PN c cdr :: _ => bind (to_pack_helper (length packx * N - 1) packx 0 cdr) (fun d => Some (PN c d))
         | _ => None
         end
  end.

(** 1316-1439 [to_pack_interleave] for packx2, packx3, packx4: the cars of the
    members first, then the recursive call on the cdrs. *)
Fixpoint cons_all (cars : list reg) (rest : pack) : pack :=
  match cars with [] => rest | c :: cs => PN c (cons_all cs rest) end.
Fixpoint to_pack_interleave (N : nat) (packx : list pack) : option pack :=
  match N with
  | O => None
  | S O => to_pack_1 packx
  | S N' => bind (sequence (map pcdr packx)) (fun cdrs =>
            bind (to_pack_interleave N' cdrs) (fun d => Some (cons_all (map pcar packx) d)))
  end.
