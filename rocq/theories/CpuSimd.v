(** Model of the CPU emulation backend, egg/platform_cpu.py.

    A register is a C struct with members v0 .. v(n-1); the generated functions
    are straight-line sequences of member assignments ([repeat_stmt], lines
    117-118).  A struct under construction has indeterminate members ([None]);
    reading one, assigning a member that does not exist, or evaluating an
    undefined expression makes the whole call undefined ([None]).
    Floating-point lanes are bit patterns; lanes of f16 vectors are f32 patterns
    (line 70).  Lanes of vectors of logicals are u32 (line 82).
    Memory is a partial map from element indices to elements; accessing an
    unmapped element is undefined.  Simplifications: pointers are element
    indices (alignment and byte addresses are not modelled). *)
From Coq Require Import ZArith Bool List.
From Verif Require Import CInt FloatSpec Fp16 ScalarOps.
Import ListNotations.
Open Scope Z_scope.

Notation reg := (list Z).

(** *** Structs under construction *)
Definition asg := (nat * option Z)%type.

Fixpoint set_nth {A} (l : list A) (i : nat) (x : A) : option (list A) :=
  match l, i with
  | [], _ => None
  | _ :: l', O => Some (x :: l')
  | y :: l', S i' => bind (set_nth l' i' x) (fun l'' => Some (y :: l''))
  end.

Fixpoint run_asg (r : list (option Z)) (l : list asg) : option (list (option Z)) :=
  match l with
  | [] => Some r
  | (i, None) :: _ => None
  | (i, Some v) :: l' => bind (set_nth r i (Some v)) (fun r' => run_asg r' l')
  end.

Fixpoint sequence {A} (l : list (option A)) : option (list A) :=
  match l with
  | [] => Some []
  | None :: _ => None
  | Some x :: l' => bind (sequence l') (fun l'' => Some (x :: l''))
  end.

(** Declare [ret] with [n] members, run the assignments, return it. *)
Definition build (n : nat) (l : list asg) : option reg :=
  bind (run_asg (repeat None n) l) sequence.

(** egg/platform_cpu.py:117-126 [repeat_stmt], [func_body]:
    [ret.v{i} = f(i);] for i = 0 .. n-1. *)
Definition stmts (n : nat) (f : nat -> option Z) : list asg := map (fun i => (i, f i)) (seq 0 n).
Definition func_body (n : nat) (f : nat -> option Z) : option reg := build n (stmts n f).

(** Member access [a.v{i}]. *)
Definition lane (r : reg) (i : nat) : option Z := nth_error r i.

(** *** Memory *)
Definition mem := Z -> option Z.
Definition read (m : mem) (a : Z) : option Z := m a.
Definition write (m : mem) (a v : Z) : option mem :=
  match m a with
  | None => None
  | Some _ => Some (fun x => if x =? a then Some v else m x)
  end.
(** A sequence of assignments [p[a] = v;]. *)
Fixpoint run_writes (m : mem) (l : list (Z * option Z)) : option mem :=
  match l with
  | [] => Some m
  | (a, None) :: _ => None
  | (a, Some v) :: l' => bind (write m a v) (fun m' => run_writes m' l')
  end.

(** *** Element types (egg/common.py:214-224) *)
Inductive ety := EI (t : ity) | EF16 | EF32 | EF64.

Definition ebitsize (t : ety) : Z :=
  match t with EI t => bits t | EF16 => 16 | EF32 => 32 | EF64 => 64 end.
(** egg/platform_cpu.py:42-43 with CPU_NBITS = 128 (egg/common.py:264). *)
Definition nb_el (t : ety) : nat := Z.to_nat (128 / ebitsize t).

(** Conversion of a memory element into a lane and back: identity except for f16
    ([nsimd_u16_to_f32], [nsimd_f32_to_u16]). *)
Definition lane_in (t : ety) (z : Z) : option Z := match t with EF16 => u16_to_f32 z | _ => Some z end.
Definition lane_out (t : ety) (z : Z) : Z := match t with EF16 => f32_to_u16 z | _ => z end.
(** Float format of the lanes. *)
Definition lane_fmt (t : ety) : option fmt :=
  match t with EI _ => None | EF16 | EF32 => Some binary32 | EF64 => Some binary64 end.

(** [x == (typ)0] on a lane. *)
Definition is_zero (t : ety) (z : Z) : bool :=
  match lane_fmt t with
  | None => z =? 0
  | Some f => match decode f z with FFin _ 0 => true | _ => false end
  end.

(** The u32 values of logicals: [(u32)-1] and [(u32)0]. *)
Definition ltrue : Z := cast u32 (-1).
Definition lfalse : Z := 0.
Definition lbool (b : bool) : Z := if b then ltrue else lfalse.

Definition bind2 {A B C} (x : option A) (y : option B) (f : A -> B -> option C) : option C :=
  bind x (fun a => bind y (fun b => f a b)).

(** *** Lane-wise operators *)
(** egg/platform_cpu.py:155-164 [scalar_impl] with arity 1, 2, 3 (and 2 with a
    scalar second argument for shifts). *)
Definition scalar_impl1 (n : nat) (g : Z -> option Z) (a : reg) : option reg :=
  func_body n (fun i => bind (lane a i) g).
Definition scalar_impl2 (n : nat) (g : Z -> Z -> option Z) (a b : reg) : option reg :=
  func_body n (fun i => bind2 (lane a i) (lane b i) g).
Definition scalar_impl3 (n : nat) (g : Z -> Z -> Z -> option Z) (a b c : reg) : option reg :=
  func_body n (fun i => bind (lane a i) (fun x => bind2 (lane b i) (lane c i) (g x))).
Definition scalar_impl_shift (n : nat) (g : Z -> Z -> option Z) (a : reg) (s : Z) : option reg :=
  func_body n (fun i => bind (lane a i) (fun x => g x s)).

(** egg/platform_cpu.py:130-133 [op2] on integer types: [(typ)(a.v{i} op b.v{i})]. *)
Definition op2 (t : ity) (op : Z -> Z -> Z) (n : nat) (a b : reg) : option reg :=
  func_body n (fun i => bind2 (lane a i) (lane b i) (fun x y => casted t (carith (promote t) (op x y)))).
(** ... and division (undefined on 0). *)
Definition op2_div (t : ity) (n : nat) (a b : reg) : option reg :=
  func_body n (fun i => bind2 (lane a i) (lane b i)
    (fun x y => if y =? 0 then None else casted t (carith (promote t) (Z.quot x y)))).

(** egg/platform_cpu.py:168-174 [cmp2]. *)
Definition cmp2 (op : Z -> Z -> bool) (n : nat) (a b : reg) : option reg :=
  func_body n (fun i => bind2 (lane a i) (lane b i) (fun x y => Some (cast u32 (if op x y then -1 else 0)))).

(** egg/platform_cpu.py:178-192 [set1], [set1l]. *)
Definition set1 (t : ety) (n : nat) (x : Z) : option reg := func_body n (fun _ => lane_in t x).
Definition set1l (n : nat) (x : Z) : option reg :=
  func_body n (fun _ => Some (cast u32 (if negb (x =? 0) then -1 else 0))).

(** egg/platform_cpu.py:137-151 [lop2] with |, &, ^; [landnot2]; [lnot1] on u32. *)
Definition orl (n : nat) (a b : reg) := func_body n (fun i => bind2 (lane a i) (lane b i) (fun x y => Some (Z.lor x y))).
Definition andl (n : nat) (a b : reg) := func_body n (fun i => bind2 (lane a i) (lane b i) (fun x y => Some (Z.land x y))).
Definition xorl (n : nat) (a b : reg) := func_body n (fun i => bind2 (lane a i) (lane b i) (fun x y => Some (Z.lxor x y))).
Definition andnotl (n : nat) (a b : reg) :=
  func_body n (fun i => bind2 (lane a i) (lane b i) (fun x y => Some (Z.land x (cast u32 (Z.lnot y))))).
Definition notl (n : nat) (a : reg) := func_body n (fun i => bind (lane a i) (fun x => Some (cast u32 (Z.lnot x)))).

(** egg/platform_cpu.py:323-328 [if_else1]. *)
Definition if_else1 (n : nat) (l a b : reg) : option reg :=
  func_body n (fun i => bind (lane l i) (fun c => if negb (c =? 0) then lane a i else lane b i)).

(** egg/platform_cpu.py:332-343 [all_any]: the conditions [a.v{i} == (u32)-1]
    joined by && or ||, -1 or 0 returned. *)
Fixpoint and_list (l : list bool) : bool := match l with [] => true | b :: l' => b && and_list l' end.
Fixpoint or_list (l : list bool) : bool := match l with [] => false | b :: l' => b || or_list l' end.
Definition conds (n : nat) (a : reg) : option (list bool) :=
  sequence (map (fun i => bind (lane a i) (fun x => Some (x =? ltrue))) (seq 0 n)).
Definition all1 (n : nat) (a : reg) : option Z := bind (conds n a) (fun l => Some (if and_list l then -1 else 0)).
Definition any1 (n : nat) (a : reg) : option Z := bind (conds n a) (fun l => Some (if or_list l then -1 else 0)).

(** egg/platform_cpu.py:374-379 [nbtrue1]. *)
Definition nbtrue1 (n : nat) (a : reg) : option Z :=
  bind (conds n a) (fun l => Some (fold_left (fun (acc : Z) (b : bool) => acc + (if b then 1 else 0)) l 0)).

(** egg/platform_cpu.py:358-360 [reinterpretl1]. *)
Definition reinterpretl1 (n : nat) (a : reg) : option reg := func_body n (fun i => lane a i).

(** egg/platform_cpu.py:364-370 [convert1] between integer types: [(to)a.v{i}]. *)
Definition convert1 (to : ity) (n : nat) (a : reg) : option reg :=
  func_body n (fun i => bind (lane a i) (fun x => Some (cast to x))).

(** egg/platform_cpu.py:404-435 [upcvt1], [downcvt2] between integer types.
    [n] is the length of the vectors of the larger type. *)
Definition upcvt1 (to : ity) (n : nat) (a : reg) : option (reg * reg) :=
  bind2 (build n (map (fun i => (i, bind (lane a i) (fun x => Some (cast to x)))) (seq 0 n)))
        (build n (map (fun i => (i, bind (lane a (i + n)) (fun x => Some (cast to x)))) (seq 0 n)))
        (fun r0 r1 => Some (r0, r1)).
Definition downcvt2 (to : ity) (n : nat) (a b : reg) : option reg :=
  build (2 * n) (map (fun i => (i, bind (lane a i) (fun x => Some (cast to x)))) (seq 0 n)
                 ++ map (fun i => ((i + n)%nat, bind (lane b i) (fun x => Some (cast to x)))) (seq 0 n)).

(** egg/platform_cpu.py:443-459 [to_logical1].  On signed integers and floats the
    test is made on the unsigned pattern obtained by [reinterpret] (f16 lanes
    are rounded back to a half by it, lines 347-354). *)
Definition pattern_of (t : ety) (z : Z) : Z :=
  match t with EI t => cast (uty t) z | EF16 => f32_to_u16 z | _ => z end.
Definition to_logical1 (t : ety) (n : nat) (a : reg) : option reg :=
  func_body n (fun i => bind (lane a i) (fun x => Some (if pattern_of t x =? 0 then 0 else cast u32 (-1)))).

(** egg/platform_cpu.py:463-482 [to_mask1].  f16: the u32 is reinterpreted as f32. *)
Definition to_mask1 (t : ety) (n : nat) (a : reg) : option reg :=
  func_body n (fun i => bind (lane a i) (fun x => Some
    match t with
    | EF16 => x
    | EI t => cast t (cast (uty t) (if negb (x =? 0) then -1 else 0))
    | EF32 => cast u32 (if negb (x =? 0) then -1 else 0)
    | EF64 => cast u64 (if negb (x =? 0) then -1 else 0)
    end)).

(** egg/platform_cpu.py:347-354 [reinterpret1] between types of the same width:
    the lanes are stored and loaded back with the other type. *)
Definition value_of_pattern (t : ety) (z : Z) : option Z :=
  match t with EI t => Some (cast t z) | EF16 => u16_to_f32 z | _ => Some z end.
Definition reinterpret1 (from to : ety) (n : nat) (a : reg) : option reg :=
  func_body n (fun i => bind (lane a i) (fun x => value_of_pattern to (pattern_of from x))).

(** *** Shuffles *)
(** egg/platform_cpu.py:486-499 [zip_half] ([n] even). *)
Definition ziplo (n : nat) (a b : reg) : option reg :=
  build n (flat_map (fun i => [((i * 2)%nat, lane a i); ((i * 2 + 1)%nat, lane b i)]) (seq 0 (n / 2))).
Definition ziphi (n : nat) (a b : reg) : option reg :=
  build n (flat_map (fun i => [((i * 2)%nat, lane a (i + n / 2)); ((i * 2 + 1)%nat, lane b (i + n / 2))]) (seq 0 (n / 2))).
(** egg/platform_cpu.py:503-522 [unzip_half]. *)
Definition unziplo (n : nat) (a b : reg) : option reg :=
  build n (map (fun i => (i, lane a (i * 2))) (seq 0 (n / 2))
           ++ map (fun i => (i, lane b (2 * (i - n / 2)))) (seq (n / 2) (n - n / 2))).
Definition unziphi (n : nat) (a b : reg) : option reg :=
  build n (map (fun i => (i, lane a (i * 2 + 1))) (seq 0 (n / 2))
           ++ map (fun i => (i, lane b (2 * (i - n / 2) + 1))) (seq (n / 2) (n - n / 2))).
(** egg/platform_cpu.py:524-534 [zip], [unzip]. *)
Definition zip (n : nat) (a b : reg) : option (reg * reg) :=
  bind2 (ziplo n a b) (ziphi n a b) (fun x y => Some (x, y)).
Definition unzip (n : nat) (a b : reg) : option (reg * reg) :=
  bind2 (unziplo n a b) (unziphi n a b) (fun x y => Some (x, y)).

(** egg/platform_cpu.py:538-541 [mask_for_loop_tail]: [in0 + i < in1] in [int]. *)
Definition mask_for_loop_tail (n : nat) (in0 in1 : Z) : option reg :=
  func_body n (fun i => bind (carith i32 (in0 + Z.of_nat i)) (fun s => Some (if s <? in1 then ltrue else lfalse))).

(** egg/platform_cpu.py:545-548 [iota] on integer types. *)
Definition iota (t : ity) (n : nat) : option reg := func_body n (fun i => Some (cast t (Z.of_nat i))).

(** *** Memory operators *)
(** egg/platform_cpu.py:196-206 [load]. *)
Definition load (t : ety) (n : nat) (m : mem) (p : Z) : option reg :=
  func_body n (fun i => bind (read m (p + Z.of_nat i)) (lane_in t)).
(** egg/platform_cpu.py:210-226 [maskoz_load]. *)
Definition maskz_load (t : ety) (n : nat) (m : mem) (l : reg) (p : Z) : option reg :=
  func_body n (fun i => bind (lane l i) (fun c =>
    if negb (c =? 0) then bind (read m (p + Z.of_nat i)) (lane_in t) else Some 0)).
Definition masko_load (t : ety) (n : nat) (m : mem) (l : reg) (p : Z) (o : reg) : option reg :=
  func_body n (fun i => bind (lane l i) (fun c =>
    if negb (c =? 0) then bind (read m (p + Z.of_nat i)) (lane_in t) else lane o i)).
(** egg/platform_cpu.py:230-244 [load_deg234]: register j of the result. *)
Definition load_deg (t : ety) (deg n : nat) (m : mem) (p : Z) : option (list reg) :=
  sequence (map (fun j => func_body n (fun i =>
    bind (read m (p + Z.of_nat (deg * i + j))) (lane_in t))) (seq 0 deg)).
(** egg/platform_cpu.py:248-262 [store_deg234]. *)
Definition store_deg (t : ety) (deg n : nat) (m : mem) (p : Z) (regs : list reg) : option mem :=
  run_writes m (flat_map (fun i => map (fun j =>
    (p + Z.of_nat (deg * i + (j - 1)), bind (nth_error regs (j - 1)) (fun r => bind (lane r i) (fun x => Some (lane_out t x)))))
    (seq 1 deg)) (seq 0 n)).
(** egg/platform_cpu.py:266-279 [loadl]. *)
Definition loadl (t : ety) (n : nat) (m : mem) (p : Z) : option reg :=
  func_body n (fun i => bind (bind (read m (p + Z.of_nat i)) (lane_in t)) (fun x =>
    Some (cast u32 (if is_zero t x then 0 else -1)))).
(** egg/platform_cpu.py:283-290 [store]. *)
Definition store (t : ety) (n : nat) (m : mem) (p : Z) (a : reg) : option mem :=
  run_writes m (map (fun i => (p + Z.of_nat i, bind (lane a i) (fun x => Some (lane_out t x)))) (seq 0 n)).
(** egg/platform_cpu.py:294-303 [mask_store]: [if (l.v{i}) { p[i] = a.v{i}; }]. *)
Fixpoint mask_store_from (t : ety) (is : list nat) (m : mem) (l : reg) (p : Z) (a : reg) : option mem :=
  match is with
  | [] => Some m
  | i :: is' => bind (lane l i) (fun c =>
      if negb (c =? 0) then
        bind (lane a i) (fun x => bind (write m (p + Z.of_nat i) (lane_out t x)) (fun m' => mask_store_from t is' m' l p a))
      else mask_store_from t is' m l p a)
  end.
Definition mask_store (t : ety) (n : nat) := mask_store_from t (seq 0 n).
(** egg/platform_cpu.py:307-319 [storel]: (typ)0 or (typ)1; for f16
    [nsimd_f32_to_u16(0.0f)] or [nsimd_f32_to_u16(1.0f)]. *)
Definition one_of (t : ety) : Z :=
  match t with EI _ => 1 | EF16 => f32_to_u16 0x3f800000 | EF32 => 0x3f800000 | EF64 => 0x3ff0000000000000 end.
Definition storel (t : ety) (n : nat) (m : mem) (p : Z) (a : reg) : option mem :=
  run_writes m (map (fun i => (p + Z.of_nat i, bind (lane a i) (fun x => Some (if x =? 0 then 0 else one_of t)))) (seq 0 n)).
(** egg/platform_cpu.py:552-567 [gather], [gather_linear]. *)
Definition gather (t : ety) (n : nat) (m : mem) (p : Z) (idx : reg) : option reg :=
  func_body n (fun i => bind (lane idx i) (fun k => bind (read m (p + k)) (lane_in t))).
Definition gather_linear (t : ety) (n : nat) (m : mem) (p step : Z) : option reg :=
  func_body n (fun i => bind (read m (p + Z.of_nat i * step)) (lane_in t)).
(** egg/platform_cpu.py:591-608 [scatter], [scatter_linear]. *)
Definition scatter (t : ety) (n : nat) (m : mem) (p : Z) (idx a : reg) : option mem :=
  bind (sequence (map (lane idx) (seq 0 n))) (fun ks =>
  run_writes m (map (fun ik => (p + snd ik, bind (lane a (fst ik)) (fun x => Some (lane_out t x)))) (combine (seq 0 n) ks))).
Definition scatter_linear (t : ety) (n : nat) (m : mem) (p step : Z) (a : reg) : option mem :=
  run_writes m (map (fun i => (p + Z.of_nat i * step, bind (lane a i) (fun x => Some (lane_out t x)))) (seq 0 n)).

(** *** The documented loop with a masked tail
    [for (i = 0; i < n; i += len) { mask = mask_for_loop_tail(i, n);
       mask_store(mask, dst + i, g(maskz_load(mask, src + i))); }]
    [g] is a lane-wise operator; [i += len] is in [int]. Loop fuel is explicit
    and running out of it is [None]. *)
Fixpoint tail_loop (fuel : nat) (t : ety) (len : nat) (g : Z -> option Z) (src dst : Z) (n i : Z) (m : mem) : option mem :=
  match fuel with
  | O => None
  | S fuel' =>
      if i <? n then
        bind (mask_for_loop_tail len i n) (fun mask =>
        bind (maskz_load t len m mask (src + i)) (fun v =>
        bind (scalar_impl1 len g v) (fun w =>
        bind (mask_store t len m mask (dst + i) w) (fun m' =>
        bind (carith i32 (i + Z.of_nat len)) (fun i' =>
        tail_loop fuel' t len g src dst n i' m')))))
      else Some m
  end.

(** *** Programs over registers: any nesting of the operators above. *)
Inductive vexpr :=
| VVar (k : nat)                                   (* a register variable *)
| VSet (x : Z)                                     (* set1 *)
| VUn (g : Z -> option Z) (a : vexpr)              (* scalar_impl, arity 1 *)
| VBin (g : Z -> Z -> option Z) (a b : vexpr)      (* op2 and scalar_impl, arity 2 *)
| VTer (g : Z -> Z -> Z -> option Z) (a b c : vexpr)
| VShift (g : Z -> Z -> option Z) (a : vexpr) (s : Z)
| VIf (l : lexpr) (a b : vexpr)                    (* if_else1 *)
| VMask (l : lexpr)                                (* to_mask *)
with lexpr :=
| LVar (k : nat)
| LSet (x : Z)                                     (* set1l *)
| LCmp (op : Z -> Z -> bool) (a b : vexpr)
| LOr (a b : lexpr) | LAnd (a b : lexpr) | LXor (a b : lexpr) | LAndnot (a b : lexpr)
| LNot (a : lexpr)
| LReinterpret (a : lexpr)
| LTo (a : vexpr)                                  (* to_logical *)
| LTail (i n : Z).                                 (* mask_for_loop_tail *)

Fixpoint veval (t : ety) (n : nat) (ve le : nat -> reg) (e : vexpr) : option reg :=
  match e with
  | VVar k => Some (ve k)
  | VSet x => set1 t n x
  | VUn g a => bind (veval t n ve le a) (scalar_impl1 n g)
  | VBin g a b => bind2 (veval t n ve le a) (veval t n ve le b) (scalar_impl2 n g)
  | VTer g a b c => bind (veval t n ve le a) (fun x => bind2 (veval t n ve le b) (veval t n ve le c) (scalar_impl3 n g x))
  | VShift g a s => bind (veval t n ve le a) (fun x => scalar_impl_shift n g x s)
  | VIf l a b => bind (leval t n ve le l) (fun c => bind2 (veval t n ve le a) (veval t n ve le b) (if_else1 n c))
  | VMask l => bind (leval t n ve le l) (to_mask1 t n)
  end
with leval (t : ety) (n : nat) (ve le : nat -> reg) (e : lexpr) : option reg :=
  match e with
  | LVar k => Some (le k)
  | LSet x => set1l n x
  | LCmp op a b => bind2 (veval t n ve le a) (veval t n ve le b) (cmp2 op n)
  | LOr a b => bind2 (leval t n ve le a) (leval t n ve le b) (orl n)
  | LAnd a b => bind2 (leval t n ve le a) (leval t n ve le b) (andl n)
  | LXor a b => bind2 (leval t n ve le a) (leval t n ve le b) (xorl n)
  | LAndnot a b => bind2 (leval t n ve le a) (leval t n ve le b) (andnotl n)
  | LNot a => bind (leval t n ve le a) (notl n)
  | LReinterpret a => bind (leval t n ve le a) (reinterpretl1 n)
  | LTo a => bind (veval t n ve le a) (to_logical1 t n)
  | LTail i k => mask_for_loop_tail n i k
  end.

(** *** Bitwise operators on vectors of f16 (egg/platform_cpu.py:155-164: the f32
    version of the scalar operator is applied to the f32 lanes; egg/scalar.py:
    63-74 it works on the u32 pattern).  One lane, between loads and a store. *)
Definition f16_bitop (op : Z -> Z -> Z) (a b : Z) : option Z :=
  bind2 (u16_to_f32 a) (u16_to_f32 b) (fun x y => Some (f32_to_u16 (cast u32 (op x y)))).
Definition f16_notb (a : Z) : option Z :=
  bind (u16_to_f32 a) (fun x => Some (f32_to_u16 (cast u32 (Z.lnot x)))).
