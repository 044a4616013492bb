(** Model of the straight-line shuffle code emitted by the x86 generator.

    The generator (egg/platform_x86.py, egg/x86_load_store_deg234.py) emits C
    functions made of calls to Intel intrinsics which move bytes around.  Such
    a function is modelled by a [program]: the list of its C statements, one
    [instr] per intrinsic call, variables keeping their C names.

    A register is the list of its bytes, least significant first (the order in
    which x86 stores it).  The byte type is a parameter: the theorems are about
    bytes in [Z]; the proofs also run the same programs on symbolic bytes.

    What each intrinsic does is not in /repo: [sel] transcribes Intel's
    documentation (Intel 64 and IA-32 Architectures Software Developer's
    Manual, volume 2) and belongs to the trusted base.  Casts between the
    integer, float and double views of a register do not change its bits and
    are modelled by [Mov]. *)

From Coq Require Import ZArith List String Bool Arith.
Import ListNotations.
Local Open Scope nat_scope.

(** Intrinsics.  [w] is a width in bytes; an immediate or a constant vector
    argument is part of the operation. *)
Inductive op : Type :=
  | Mov                              (* _mm*_cast*_*, plain copies *)
  | Zero (n : nat)                   (* _mm*_setzero_* : n bytes *)
  | UnpackLo (w : nat)               (* _mm*_unpacklo_{epi8,..,ps,pd} *)
  | UnpackHi (w : nat)               (* _mm*_unpackhi_{epi8,..,ps,pd} *)
  | ShufEpi8 (mask : list Z)         (* _mm*_shuffle_epi8 *)
  | ShufPs (imm : Z)                 (* _mm*_shuffle_ps, shuffle_epi32 *)
  | ShufPd (imm : Z)                 (* _mm*_shuffle_pd *)
  | ShufLo16 (imm : Z)               (* _mm*_shufflelo_epi16 *)
  | ShufHi16 (imm : Z)               (* _mm*_shufflehi_epi16 *)
  | PermutePd (imm : Z)              (* _mm256_permute_pd *)
  | PermuteVarPs (idx : list Z)      (* _mm256_permutevar_ps *)
  | PermuteXVar (w : nat) (idx : list Z)
      (* _mm256_permutevar8x32_*, _mm512_permutexvar_* *)
  | PermuteX2Var (w : nat) (idx : list Z)  (* _mm512_permutex2var_* *)
  | Permute4x64 (imm : Z)            (* _mm256_permute4x64_* *)
  | Permute2x128 (imm : Z)           (* _mm256_permute2f128_*, permute2x128 *)
  | Blend (w : nat) (imm : Z)        (* _mm256_blend_{ps,pd,epi32} *)
  | SllBytes (w k : nat)             (* _mm*_slli_epi32 by 8*k bits *)
  | SrlBytes (w k : nat)             (* _mm*_srli_epi32 by 8*k bits *)
  | LowHalf                          (* _mm256_cast*256_*128, .. *)
  | HighHalf                         (* _mm256_extractf128_*(x, 1), .. *)
  | Concat                           (* insertf128(cast(x), y, 1), .. *)
  | Or.                              (* _mm*_or_si* *)

(** Field [k] (of [b] bits) of an immediate. *)
Definition field (b : Z) (imm : Z) (k : nat) : nat :=
  Z.to_nat ((imm / 2 ^ (b * Z.of_nat k)) mod 2 ^ b).

(** Bytes of the [w]-byte elements listed in [es]. *)
Definition bytes_of (w : nat) (es : list nat) : list (option nat) :=
  flat_map (fun e => map (fun b => Some (e * w + b)) (seq 0 w)) es.

(** Where each byte of the result comes from, as a position in the
    concatenation of the operands (all of [n] bytes); [None] is a zero byte. *)
Definition sel (o : op) (n : nat) : list (option nat) :=
  match o with
  | Mov => map Some (seq 0 n)
  | Zero k => repeat None k
  | UnpackLo w =>
      bytes_of w (flat_map (fun l => flat_map (fun j =>
        let e := l * (16 / w) + j in [e; n / w + e]) (seq 0 (16 / w / 2)))
        (seq 0 (n / 16)))
  | UnpackHi w =>
      bytes_of w (flat_map (fun l => flat_map (fun j =>
        let e := l * (16 / w) + 16 / w / 2 + j in [e; n / w + e])
        (seq 0 (16 / w / 2))) (seq 0 (n / 16)))
  | ShufEpi8 mask =>
      map (fun j => let m := (nth j mask 0%Z mod 256)%Z in
             if (m <? 128)%Z then Some (j / 16 * 16 + Z.to_nat (m mod 16))
             else None) (seq 0 n)
  | ShufPs imm =>
      bytes_of 4 (flat_map (fun l =>
        [l * 4 + field 2 imm 0; l * 4 + field 2 imm 1;
         n / 4 + l * 4 + field 2 imm 2; n / 4 + l * 4 + field 2 imm 3])
        (seq 0 (n / 16)))
  | ShufPd imm =>
      bytes_of 8 (flat_map (fun l =>
        [l * 2 + field 1 imm (2 * l);
         n / 8 + l * 2 + field 1 imm (2 * l + 1)]) (seq 0 (n / 16)))
  | ShufLo16 imm =>
      bytes_of 2 (flat_map (fun l =>
        map (fun j => l * 8 + field 2 imm j) (seq 0 4) ++
        map (fun j => l * 8 + 4 + j) (seq 0 4)) (seq 0 (n / 16)))
  | ShufHi16 imm =>
      bytes_of 2 (flat_map (fun l =>
        map (fun j => l * 8 + j) (seq 0 4) ++
        map (fun j => l * 8 + 4 + field 2 imm j) (seq 0 4)) (seq 0 (n / 16)))
  | PermutePd imm =>
      bytes_of 8 (map (fun j => j / 2 * 2 + field 1 imm j) (seq 0 (n / 8)))
  | PermuteVarPs idx =>
      bytes_of 4 (map (fun j =>
        j / 4 * 4 + Z.to_nat (nth j idx 0%Z mod 4)) (seq 0 (n / 4)))
  | PermuteXVar w idx =>
      bytes_of w (map (fun j =>
        Z.to_nat (nth j idx 0%Z mod Z.of_nat (n / w))) (seq 0 (n / w)))
  | PermuteX2Var w idx =>
      bytes_of w (map (fun j =>
        Z.to_nat (nth j idx 0%Z mod Z.of_nat (2 * (n / w)))) (seq 0 (n / w)))
  | Permute4x64 imm =>
      bytes_of 8 (map (field 2 imm) (seq 0 4))
  | Permute2x128 imm =>
      flat_map (fun l => let c := field 4 imm l in
        if c <? 8 then bytes_of 16 [c mod 4] else repeat None 16) (seq 0 2)
  | Blend w imm =>
      bytes_of w (map (fun j => if field 1 imm j =? 1 then n / w + j else j)
                      (seq 0 (n / w)))
  | SllBytes w k =>
      map (fun j => if j mod w <? k then None else Some (j - k)) (seq 0 n)
  | SrlBytes w k =>
      map (fun j => if j mod w + k <? w then Some (j + k) else None) (seq 0 n)
  | LowHalf => map Some (seq 0 (n / 2))
  | HighHalf => map Some (seq (n / 2) (n / 2))
  | Concat => map Some (seq 0 (2 * n))
  | Or => []
  end.

(** Number of register operands. *)
Definition arity (o : op) : nat :=
  match o with
  | Zero _ => 0
  | UnpackLo _ | UnpackHi _ | ShufPs _ | ShufPd _ | PermuteX2Var _ _
  | Permute2x128 _ | Blend _ _ | Concat | Or => 2
  | _ => 1
  end.

(** Statements: [x = op(args);], [x = load(a0 + off);],
    [store(a0 + off, x);] and [for (k = 0; k < n; ++k) { ... }]. *)
Inductive instr : Type :=
  | Let (x : string) (o : op) (args : list string)
  | Load (x : string) (off len : nat)
  | Store (off : nat) (x : string).

Inductive stmt : Type :=
  | I (i : instr)
  | Loop (n : nat) (body : list instr).

Definition program : Type := list stmt.

Section Run.
  (** A byte type, its zero, and its bitwise or (partial so that the symbolic
      bytes of the proofs fit; total on [Z]). *)
  Context {B : Type} (zero : B) (bor : B -> B -> option B).

  Record state : Type := mkState { env : list (string * list B); mem : list B }.

  Fixpoint look (x : string) (e : list (string * list B)) : option (list B) :=
    match e with
    | [] => None
    | (y, r) :: e' => if String.eqb x y then Some r else look x e'
    end.

  Fixpoint looks (xs : list string) (e : list (string * list B))
    : option (list (list B)) :=
    match xs with
    | [] => Some []
    | x :: xs' =>
        match look x e, looks xs' e with
        | Some r, Some rs => Some (r :: rs)
        | _, _ => None
        end
    end.

  Fixpoint or_bytes (a b : list B) : option (list B) :=
    match a, b with
    | [], [] => Some []
    | x :: a', y :: b' =>
        match bor x y, or_bytes a' b' with
        | Some z, Some r => Some (z :: r)
        | _, _ => None
        end
    | _, _ => None
    end.

  Fixpoint pick (l : list B) (s : list (option nat)) : option (list B) :=
    match s with
    | [] => Some []
    | None :: s' => option_map (cons zero) (pick l s')
    | Some i :: s' =>
        match nth_error l i, pick l s' with
        | Some x, Some r => Some (x :: r)
        | _, _ => None
        end
    end.

  (** One intrinsic; [None] when the operands do not all have the same size or
      are not in the right number (such a C program does not compile). *)
  Definition run_op (o : op) (args : list (list B)) : option (list B) :=
    let n := match args with [] => 0 | a :: _ => List.length a end in
    if (List.length args =? arity o) &&
       forallb (fun a => List.length a =? n) args
    then match o with
         | Or => match args with
                 | [a; b] => or_bytes a b
                 | _ => None
                 end
         | _ => pick (List.concat args) (sel o n)
         end
    else None.

  Definition run_instr (i : instr) (s : state) : option state :=
    match i with
    | Let x o args =>
        match looks args (env s) with
        | Some rs =>
            match run_op o rs with
            | Some r => Some (mkState ((x, r) :: env s) (mem s))
            | None => None
            end
        | None => None
        end
    | Load x off len =>
        if off + len <=? List.length (mem s)
        then Some (mkState ((x, firstn len (skipn off (mem s))) :: env s)
                           (mem s))
        else None
    | Store off x =>
        match look x (env s) with
        | Some r =>
            if off + List.length r <=? List.length (mem s)
            then Some (mkState (env s)
                   (firstn off (mem s) ++ r ++
                    skipn (off + List.length r) (mem s)))
            else None
        | None => None
        end
    end.

  Fixpoint run_instrs (l : list instr) (s : state) : option state :=
    match l with
    | [] => Some s
    | i :: l' => match run_instr i s with
                 | Some s' => run_instrs l' s'
                 | None => None
                 end
    end.

  Fixpoint run_loop (n : nat) (body : list instr) (s : state) : option state :=
    match n with
    | 0 => Some s
    | S n' => match run_instrs body s with
              | Some s' => run_loop n' body s'
              | None => None
              end
    end.

  Definition run_stmt (st : stmt) (s : state) : option state :=
    match st with
    | I i => run_instr i s
    | Loop n body => run_loop n body s
    end.

  Fixpoint run (p : program) (s : state) : option state :=
    match p with
    | [] => Some s
    | st :: p' => match run_stmt st s with
                  | Some s' => run p' s'
                  | None => None
                  end
    end.

  (** A function reading memory at a0 and returning the registers [outs]. *)
  Definition call_load (p : program) (outs : list string) (m : list B)
    : option (list (list B)) :=
    match run p (mkState [] m) with
    | Some s => looks outs (env s)
    | None => None
    end.

  (** A function storing at a0 the registers a1, a2, ...; its result is the
      memory afterwards. *)
  Definition call_store (p : program) (ins : list string)
    (rs : list (list B)) (m : list B) : option (list B) :=
    match run p (mkState (combine ins rs) m) with
    | Some s => Some (mem s)
    | None => None
    end.

  (** A function from registers to registers. *)
  Definition call_reg (p : program) (ins outs : list string)
    (rs : list (list B)) : option (list (list B)) :=
    match run p (mkState (combine ins rs) []) with
    | Some s => looks outs (env s)
    | None => None
    end.
End Run.

(** Bytes are integers; or is the bitwise or. *)
Definition zbor (a b : Z) : option Z := Some (Z.lor a b).
Definition load_z : program -> list string -> list Z -> option (list (list Z))
  := call_load 0%Z zbor.
Definition store_z :
  program -> list string -> list (list Z) -> list Z -> option (list Z)
  := call_store 0%Z zbor.
Definition reg_z :
  program -> list string -> list string -> list (list Z) ->
  option (list (list Z))
  := call_reg 0%Z zbor.
