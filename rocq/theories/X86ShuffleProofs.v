(** Proofs about the x86 shuffles.  The programs are run once on symbolic
    bytes (a position in the input, or zero); [run_sound] lifts the result to
    every concrete input. *)

From Coq Require Import ZArith String List Arith Bool Lia Permutation.
From Verif Require Import X86Shuffle X86Deg234 X86ShuffleSpec.
Import ListNotations.

(** ** Symbolic bytes *)

Notation sb := (option nat) (only parsing).
Definition sbor (a b : sb) : option sb :=
  match a, b with
  | None, x => Some x
  | x, None => Some x
  | _, _ => None
  end.

Section Sound.
  Variable v : nat -> Z.

  Definition den (b : sb) : Z := match b with None => 0%Z | Some i => v i end.
  Definition denr : list sb -> list Z := map den.
  Definition dene (e : list (string * list sb)) : list (string * list Z) :=
    map (fun '(x, r) => (x, denr r)) e.
  Definition dens (s : @state sb) : @state Z :=
    mkState (dene (env s)) (denr (mem s)).

  Lemma look_sound : forall x e, look x (dene e) = option_map denr (look x e).
  Proof.
    intros x e; induction e as [|[y r] e IH]; [reflexivity|].
    cbn. destruct (String.eqb x y); [reflexivity|exact IH].
  Qed.

  Lemma looks_sound : forall xs e,
    looks xs (dene e) = option_map (map denr) (looks xs e).
  Proof.
    intros xs e; induction xs as [|x xs IH]; [reflexivity|].
    cbn. rewrite look_sound, IH.
    destruct (look x e); [|reflexivity].
    destruct (looks xs e); reflexivity.
  Qed.

  Lemma bor_sound : forall a b c,
    sbor a b = Some c -> zbor (den a) (den b) = Some (den c).
  Proof.
    intros [a|] [b|] c H; cbn in H; inversion H; subst; unfold zbor; cbn.
    - now rewrite Z.lor_0_r.
    - reflexivity.
    - reflexivity.
  Qed.

  Lemma or_sound : forall a b c,
    or_bytes sbor a b = Some c -> or_bytes zbor (denr a) (denr b) = Some (denr c).
  Proof.
    induction a as [|x a IH]; intros [|y b] c H; cbn in H; try discriminate.
    - inversion H; reflexivity.
    - destruct (sbor x y) as [z|] eqn:E1; [|discriminate].
      destruct (or_bytes sbor a b) as [r|] eqn:E2; [|discriminate].
      inversion H; subst. cbn.
      pose proof (bor_sound _ _ _ E1) as B. unfold zbor in B |- *. cbn in B |- *.
      inversion B as [B']. rewrite B'.
      unfold zbor in IH. now rewrite (IH _ _ E2).
  Qed.

  Lemma pick_sound : forall l s r,
    pick None l s = Some r -> pick 0%Z (denr l) s = Some (denr r).
  Proof.
    intros l s; induction s as [|[i|] s IH]; intros r H; cbn in H |- *.
    - inversion H; reflexivity.
    - unfold denr at 1. rewrite nth_error_map.
      destruct (nth_error l i) as [x|]; [|discriminate].
      destruct (pick None l s) as [r'|]; [|discriminate].
      inversion H; subst. cbn. rewrite (IH _ eq_refl). reflexivity.
    - destruct (pick None l s) as [r'|]; [|discriminate].
      cbn in H. inversion H; subst. rewrite (IH _ eq_refl). reflexivity.
  Qed.

  Lemma concat_denr : forall l, List.concat (map denr l) = denr (List.concat l).
  Proof. intro l. unfold denr. symmetry. apply concat_map. Qed.

  Lemma run_op_sound : forall o args r,
    run_op None sbor o args = Some r ->
    run_op 0%Z zbor o (map denr args) = Some (denr r).
  Proof.
    intros o args r H. unfold run_op in *.
    assert (Hn : match map denr args with [] => 0 | a :: _ => List.length a end =
                 match args with [] => 0 | a :: _ => List.length a end).
    { destruct args; cbn; [reflexivity|]. apply map_length. }
    rewrite Hn, map_length.
    set (n := match args with [] => 0 | a :: _ => List.length a end) in *.
    clearbody n. clear Hn.
    assert (Hf : forallb (fun a : list Z => List.length a =? n) (map denr args) =
                 forallb (fun a : list sb => List.length a =? n) args).
    { clear H. induction args as [|a args IH]; [reflexivity|].
      cbn. unfold denr at 1. now rewrite map_length, IH. }
    rewrite Hf.
    destruct ((List.length args =? arity o) &&
              forallb (fun a : list sb => List.length a =? n) args);
      [|discriminate].
    rewrite concat_denr.
    destruct o; try (now apply pick_sound).
    destruct args as [|a [|b [|]]]; try discriminate.
    cbn [map]. now apply or_sound.
  Qed.

  Lemma run_instr_sound : forall i s s',
    run_instr None sbor i s = Some s' ->
    run_instr 0%Z zbor i (dens s) = Some (dens s').
  Proof.
    intros i s s' H. destruct i as [x o args|x off len|off x]; cbn in H |- *.
    - rewrite looks_sound. destruct (looks args (env s)) as [rs|]; [|discriminate].
      cbn. destruct (run_op None sbor o rs) as [r|] eqn:E; [|discriminate].
      rewrite (run_op_sound _ _ _ E). inversion H; reflexivity.
    - unfold denr at 1. rewrite map_length.
      destruct (off + len <=? List.length (mem s)); [|discriminate].
      inversion H; subst. unfold dens, dene, denr. cbn.
      now rewrite skipn_map, firstn_map.
    - rewrite look_sound. destruct (look x (env s)) as [r|]; [|discriminate].
      cbn. unfold denr at 1 2. rewrite !map_length.
      destruct (off + List.length r <=? List.length (mem s)); [|discriminate].
      inversion H; subst. unfold dens, denr. cbn.
      rewrite !map_app, map_length, firstn_map, skipn_map. reflexivity.
  Qed.

  Lemma run_instrs_sound : forall l s s',
    run_instrs None sbor l s = Some s' ->
    run_instrs 0%Z zbor l (dens s) = Some (dens s').
  Proof.
    induction l as [|i l IH]; intros s s' H; cbn [run_instrs] in *.
    - inversion H; reflexivity.
    - destruct (run_instr None sbor i s) as [s1|] eqn:E; [|discriminate].
      rewrite (run_instr_sound _ _ _ E). now apply IH.
  Qed.

  Lemma run_stmt_sound : forall st s s',
    run_stmt None sbor st s = Some s' ->
    run_stmt 0%Z zbor st (dens s) = Some (dens s').
  Proof.
    intros [i|n body]; cbn [run_stmt]; [apply run_instr_sound|].
    induction n as [|n IH]; intros s s' H; cbn [run_loop] in *.
    - inversion H; reflexivity.
    - destruct (run_instrs None sbor body s) as [s1|] eqn:E; [|discriminate].
      rewrite (run_instrs_sound _ _ _ E). now apply IH.
  Qed.

  Lemma run_sound : forall p s s',
    run None sbor p s = Some s' ->
    run 0%Z zbor p (dens s) = Some (dens s').
  Proof.
    induction p as [|st p IH]; intros s s' H; cbn [run] in *.
    - inversion H; reflexivity.
    - destruct (run_stmt None sbor st s) as [s1|] eqn:E; [|discriminate].
      rewrite (run_stmt_sound _ _ _ E). now apply IH.
  Qed.

  Lemma call_load_sound : forall p outs m vs,
    call_load None sbor p outs m = Some vs ->
    load_z p outs (denr m) = Some (map denr vs).
  Proof.
    intros p outs m vs H. unfold load_z, call_load in *.
    destruct (run None sbor p (mkState [] m)) as [s|] eqn:E; [|discriminate].
    apply run_sound in E. unfold dens in E at 1. cbn in E. rewrite E.
    cbn. now rewrite looks_sound, H.
  Qed.

  Lemma combine_dene : forall ins rs,
    combine ins (map denr rs) = dene (combine ins rs).
  Proof.
    induction ins as [|x ins IH]; intros [|r rs]; cbn; try reflexivity.
    now rewrite IH.
  Qed.

  Lemma call_store_sound : forall p ins rs m m',
    call_store None sbor p ins rs m = Some m' ->
    store_z p ins (map denr rs) (denr m) = Some (denr m').
  Proof.
    intros p ins rs m m' H. unfold store_z, call_store in *.
    destruct (run None sbor p (mkState (combine ins rs) m)) as [s|] eqn:E;
      [|discriminate].
    apply run_sound in E. unfold dens in E at 1. cbn [env mem] in E.
    rewrite combine_dene. try (change (denr []) with (@nil Z) in E). rewrite E. inversion H; reflexivity.
  Qed.

  Lemma call_reg_sound : forall p ins outs rs vs,
    call_reg None sbor p ins outs rs = Some vs ->
    reg_z p ins outs (map denr rs) = Some (map denr vs).
  Proof.
    intros p ins outs rs vs H. unfold reg_z, call_reg in *.
    destruct (run None sbor p (mkState (combine ins rs) [])) as [s|] eqn:E;
      [|discriminate].
    apply run_sound in E. unfold dens in E at 1. cbn [env mem] in E.
    rewrite combine_dene. try (change (denr []) with (@nil Z) in E). rewrite E. cbn. now rewrite looks_sound, H.
  Qed.
End Sound.

(** ** Frame: bytes after those accessed do not matter *)

Section Frame.
  Context {B : Type} (zero : B) (bor : B -> B -> option B) (rest : list B).

  Definition more (s : @state B) : @state B := mkState (env s) (mem s ++ rest).

  Lemma run_instr_frame : forall i s s',
    run_instr zero bor i s = Some s' ->
    run_instr zero bor i (more s) = Some (more s').
  Proof.
    intros i s s' H. destruct i as [x o args|x off len|off x]; cbn in H |- *.
    - destruct (looks args (env s)); [|discriminate].
      destruct (run_op zero bor o l); [|discriminate].
      inversion H; reflexivity.
    - destruct (off + len <=? List.length (mem s)) eqn:E; [|discriminate].
      apply Nat.leb_le in E. rewrite app_length.
      replace (off + len <=? List.length (mem s) + List.length rest) with true
        by (symmetry; apply Nat.leb_le; lia).
      inversion H; subst. unfold more; cbn. do 3 f_equal. f_equal.
      rewrite skipn_app. rewrite firstn_app.
      rewrite skipn_length.
      replace (len - (List.length (mem s) - off)) with 0 by lia.
      cbn. now rewrite app_nil_r.
    - destruct (look x (env s)) as [r|]; [|discriminate].
      destruct (off + List.length r <=? List.length (mem s)) eqn:E;
        [|discriminate].
      apply Nat.leb_le in E. rewrite app_length.
      replace (off + List.length r <=? List.length (mem s) + List.length rest)
        with true by (symmetry; apply Nat.leb_le; lia).
      inversion H; subst. unfold more; cbn. do 2 f_equal.
      rewrite firstn_app, skipn_app.
      replace (off - List.length (mem s)) with 0 by lia.
      replace (off + List.length r - List.length (mem s)) with 0 by lia.
      cbn. rewrite app_nil_r. now rewrite <- !app_assoc.
  Qed.

  Lemma run_instrs_frame : forall l s s',
    run_instrs zero bor l s = Some s' ->
    run_instrs zero bor l (more s) = Some (more s').
  Proof.
    induction l as [|i l IH]; intros s s' H; cbn [run_instrs] in *.
    - inversion H; reflexivity.
    - destruct (run_instr zero bor i s) as [s1|] eqn:E; [|discriminate].
      rewrite (run_instr_frame _ _ _ E). now apply IH.
  Qed.

  Lemma run_frame : forall p s s',
    run zero bor p s = Some s' -> run zero bor p (more s) = Some (more s').
  Proof.
    induction p as [|st p IH]; intros s s' H; cbn [run] in *.
    - inversion H; reflexivity.
    - destruct (run_stmt zero bor st s) as [s1|] eqn:E; [|discriminate].
      assert (E' : run_stmt zero bor st (more s) = Some (more s1)).
      { clear H IH. destruct st as [i|n body]; cbn [run_stmt] in *.
        - now apply run_instr_frame.
        - revert s E. induction n as [|n IH]; intros s E; cbn [run_loop] in *.
          + inversion E; reflexivity.
          + destruct (run_instrs zero bor body s) as [s2|] eqn:E2;
              [|discriminate].
            rewrite (run_instrs_frame _ _ _ E2). now apply IH. }
      rewrite E'. now apply IH.
  Qed.
End Frame.

Lemma load_z_frame : forall p outs m vs rest,
  load_z p outs m = Some vs -> load_z p outs (m ++ rest) = Some vs.
Proof.
  intros p outs m vs rest H. unfold load_z, call_load in *.
  destruct (run 0%Z zbor p (mkState [] m)) as [s|] eqn:E; [|discriminate].
  apply (run_frame 0%Z zbor rest) in E. unfold more in E at 1. cbn in E.
  rewrite E. exact H.
Qed.

Lemma store_z_frame : forall p ins rs m m' rest,
  store_z p ins rs m = Some m' ->
  store_z p ins rs (m ++ rest) = Some (m' ++ rest).
Proof.
  intros p ins rs m m' rest H. unfold store_z, call_store in *.
  destruct (run 0%Z zbor p (mkState (combine ins rs) m)) as [s|] eqn:E;
    [|discriminate].
  apply (run_frame 0%Z zbor rest) in E. unfold more in E at 1. cbn in E.
  rewrite E. inversion H; reflexivity.
Qed.

(** ** The symbolic runs of the 180 loads and 180 stores *)

Definition inputs (a n : nat) : list sb := map Some (seq a n).

Fixpoint sb_eqb (a b : list sb) : bool :=
  match a, b with
  | [], [] => true
  | None :: a', None :: b' => sb_eqb a' b'
  | Some i :: a', Some j :: b' => (i =? j) && sb_eqb a' b'
  | _, _ => false
  end.

Lemma sb_eqb_eq : forall a b, sb_eqb a b = true -> a = b.
Proof.
  induction a as [|[i|] a IH]; intros [|[j|] b] H; cbn in H; try discriminate.
  - reflexivity.
  - apply andb_true_iff in H as [H1 H2]. apply Nat.eqb_eq in H1.
    subst. f_equal. now apply IH.
  - f_equal. now apply IH.
Qed.

Fixpoint sbs_eqb (a b : list (list sb)) : bool :=
  match a, b with
  | [], [] => true
  | x :: a', y :: b' => sb_eqb x y && sbs_eqb a' b'
  | _, _ => false
  end.

Lemma sbs_eqb_eq : forall a b, sbs_eqb a b = true -> a = b.
Proof.
  induction a as [|x a IH]; intros [|y b] H; cbn in H; try discriminate.
  - reflexivity.
  - apply andb_true_iff in H as [H1 H2]. apply sb_eqb_eq in H1.
    subst. f_equal. now apply IH.
Qed.

Definition outs (d : nat) : list string :=
  firstn d ["ret.v0"; "ret.v1"; "ret.v2"; "ret.v3"]%string.
Definition ins (d : nat) : list string :=
  firstn d ["a1"; "a2"; "a3"; "a4"]%string.

Definition sload (d : nat) (e : ext) (t : etyp) : option (list (list sb)) :=
  call_load None sbor (load_prog d e t) (outs d) (inputs 0 (d * reg_bytes e)).

(** The structure found in each lane of the first register. *)
Definition perm (d : nat) (e : ext) (t : etyp) : list nat :=
  match sload d e t with
  | Some (v0 :: _) =>
      map (fun i => match nth (i * elt_bytes t) v0 None with
                    | Some x => x / elt_bytes t / d
                    | None => 0
                    end) (seq 0 (lanes_of e t))
  | _ => []
  end.

Definition expected (d : nat) (e : ext) (t : etyp) (p : list nat)
  : list (list sb) :=
  map (fun k => flat_map (fun i =>
         map (fun b => Some ((d * i + k) * elt_bytes t + b))
             (seq 0 (elt_bytes t))) p) (seq 0 d).

Definition load_check (d : nat) (e : ext) (t : etyp) : bool :=
  match sload d e t with
  | Some vs => sbs_eqb vs (expected d e t (perm d e t))
  | None => false
  end.

Definition perm_check (d : nat) (e : ext) (t : etyp) : bool :=
  let p := perm d e t in
  (List.length p =? lanes_of e t) &&
  forallb (fun i => existsb (Nat.eqb i) p) (seq 0 (lanes_of e t)).

(** Storing the symbolic result of the load over any memory. *)
Definition store_check (d : nat) (e : ext) (t : etyp) : bool :=
  let n := d * reg_bytes e in
  match call_store None sbor (store_prog d e t) (ins d)
          (expected d e t (perm d e t)) (inputs n n) with
  | Some m => sb_eqb m (inputs 0 n)
  | None => false
  end.

Definition all_checks (d : nat) (e : ext) (t : etyp) : bool :=
  load_check d e t && perm_check d e t && store_check d e t.

Definition exts : list ext := [Sse2; Sse42; Avx; Avx2; Avx512Knl; Avx512Skylake].
Definition etyps : list etyp := [I8; U8; I16; U16; I32; U32; I64; U64; F32; F64].

Lemma checks_ok :
  forallb (fun d => forallb (fun e => forallb (all_checks d e) etyps) exts)
    [2; 3; 4] = true.
Proof. vm_compute. reflexivity. Qed.

Lemma ext_in : forall e, In e exts.
Proof. intros []; cbn; tauto. Qed.
Lemma etyp_in : forall t, In t etyps.
Proof. intros []; cbn; tauto. Qed.

Lemma checks : forall d e t, 2 <= d <= 4 -> all_checks d e t = true.
Proof.
  intros d e t Hd. pose proof checks_ok as H.
  rewrite forallb_forall in H.
  assert (Hin : In d [2; 3; 4]) by (cbn; lia).
  specialize (H d Hin). rewrite forallb_forall in H.
  specialize (H e (ext_in e)). rewrite forallb_forall in H.
  exact (H t (etyp_in t)).
Qed.

Lemma nth_firstn_lt : forall {A} (l : list A) n i x, i < n ->
  nth i (firstn n l) x = nth i l x.
Proof.
  intros A l; induction l as [|y l IH]; intros [|n] i x H; try lia.
  - now destruct i.
  - destruct i; cbn; [reflexivity|]. apply IH. lia.
Qed.

Lemma nth_skipn_add : forall {A} (l : list A) n i x,
  nth i (skipn n l) x = nth (n + i) l x.
Proof.
  intros A l; induction l as [|y l IH]; intros [|n] i x; try reflexivity.
  - cbn. now destruct i.
  - cbn. apply IH.
Qed.

Lemma seq_add : forall a n, map (fun b => a + b) (seq 0 n) = seq a n.
Proof.
  intros a n. assert (H : forall b, map (fun b => a + b) (seq b n) = seq (a + b) n).
  { induction n as [|n IH]; intro b; [reflexivity|].
    cbn. f_equal. rewrite IH. f_equal. lia. }
  rewrite (H 0). f_equal. lia.
Qed.

Lemma exists_perm : forall d e t, 2 <= d <= 4 ->
  Permutation (perm d e t) (seq 0 (lanes_of e t)).
Proof.
  intros d e t Hd. pose proof (checks d e t Hd) as H.
  unfold all_checks in H. apply andb_true_iff in H as [H _].
  apply andb_true_iff in H as [_ H]. unfold perm_check in H.
  apply andb_true_iff in H as [H1 H2]. apply Nat.eqb_eq in H1.
  rewrite forallb_forall in H2.
  symmetry. apply NoDup_Permutation_bis.
  - apply seq_NoDup.
  - rewrite seq_length, H1. lia.
  - intros x Hx. specialize (H2 x Hx). apply existsb_exists in H2 as [y [Hy E]].
    apply Nat.eqb_eq in E. now subst.
Qed.

Lemma sload_eq : forall d e t, 2 <= d <= 4 ->
  sload d e t = Some (expected d e t (perm d e t)).
Proof.
  intros d e t Hd. pose proof (checks d e t Hd) as H.
  unfold all_checks in H. apply andb_true_iff in H as [H _].
  apply andb_true_iff in H as [H _]. unfold load_check in H.
  destruct (sload d e t) as [vs|]; [|discriminate].
  f_equal. now apply sbs_eqb_eq.
Qed.

Lemma sstore_eq : forall d e t, 2 <= d <= 4 ->
  call_store None sbor (store_prog d e t) (ins d)
    (expected d e t (perm d e t))
    (inputs (d * reg_bytes e) (d * reg_bytes e)) =
  Some (inputs 0 (d * reg_bytes e)).
Proof.
  intros d e t Hd. pose proof (checks d e t Hd) as H.
  unfold all_checks in H. apply andb_true_iff in H as [_ H].
  unfold store_check in H.
  destruct (call_store None sbor (store_prog d e t) (ins d)
    (expected d e t (perm d e t))
    (inputs (d * reg_bytes e) (d * reg_bytes e))) as [m|]; [|discriminate].
  f_equal. now apply sb_eqb_eq.
Qed.

Lemma perm_props : forall d e t, 2 <= d <= 4 ->
  List.length (perm d e t) = lanes_of e t /\ NoDup (perm d e t) /\
  forall i, i < lanes_of e t -> nth i (perm d e t) 0 < lanes_of e t.
Proof.
  intros d e t Hd. pose proof (exists_perm d e t Hd) as H.
  assert (L : List.length (perm d e t) = lanes_of e t).
  { rewrite (Permutation_length H). apply seq_length. }
  split; [exact L|split].
  - apply (Permutation_NoDup (l := seq 0 (lanes_of e t))).
    + now symmetry.
    + apply seq_NoDup.
  - intros i Hi. assert (In (nth i (perm d e t) 0) (seq 0 (lanes_of e t))).
    { apply (Permutation_in _ H). apply nth_In. lia. }
    apply in_seq in H0. lia.
Qed.

Lemma lanes_bytes : forall e t, lanes_of e t * elt_bytes t = reg_bytes e.
Proof. intros [] []; reflexivity. Qed.

(** Valuation reading a list. *)
Definition at_list (m : list Z) (i : nat) : Z := nth i m 0%Z.

Lemma map_nth_seq : forall (m : list Z) a n,
  a + n <= List.length m ->
  map (at_list m) (seq a n) = firstn n (skipn a m).
Proof.
  intros m a n; revert a; induction n as [|n IH]; intros a H; [reflexivity|].
  cbn [seq map]. rewrite IH by lia.
  assert (E : skipn a m = nth a m 0%Z :: skipn (S a) m).
  { clear IH. revert m H. induction a as [|a IHa]; intros [|x m] H; cbn in H; try lia.
    - reflexivity.
    - cbn. apply IHa. lia. }
  rewrite E. reflexivity.
Qed.

Lemma denr_inputs : forall v a n, denr v (inputs a n) = map v (seq a n).
Proof. intros. unfold denr, inputs. rewrite map_map. reflexivity. Qed.

Lemma denr_all : forall m, denr (at_list m) (inputs 0 (List.length m)) = m.
Proof.
  intro m. rewrite denr_inputs, map_nth_seq by lia. cbn. apply firstn_all.
Qed.

Lemma flat_map_length_w : forall {A B} (g : A -> list B) w l,
  (forall x, List.length (g x) = w) ->
  List.length (flat_map g l) = List.length l * w.
Proof.
  intros A B g w l Hg; induction l as [|x l IH]; [reflexivity|].
  cbn. now rewrite app_length, Hg, IH.
Qed.

Lemma chunk_flat_map : forall {B} (g : nat -> list B) w l i,
  (forall x, List.length (g x) = w) -> i < List.length l ->
  firstn w (skipn (i * w) (flat_map g l)) = g (nth i l 0).
Proof.
  intros B g w l i Hg; revert i; induction l as [|x l IH]; intros i Hi;
    cbn in Hi; [lia|].
  cbn [flat_map]. destruct i as [|i].
  - cbn [Nat.mul skipn nth]. rewrite firstn_app, Hg, Nat.sub_diag.
    rewrite <- (Hg x) at 1. rewrite firstn_all. cbn. apply app_nil_r.
  - rewrite skipn_app, Hg.
    replace (S i * w - w) with (i * w) by (cbn; lia).
    rewrite skipn_all2 by (rewrite Hg; cbn; lia).
    cbn [nth app]. apply IH. lia.
Qed.

Lemma expected_nth : forall d e t p k, k < d ->
  nth k (expected d e t p) [] =
  flat_map (fun i => map (fun b => Some ((d * i + k) * elt_bytes t + b))
                         (seq 0 (elt_bytes t))) p.
Proof.
  intros d e t p k Hk. unfold expected.
  rewrite nth_indep with
    (d' := flat_map (fun i => map (fun b => Some ((d * i + 0) * elt_bytes t + b))
                         (seq 0 (elt_bytes t))) p)
    by (rewrite map_length, seq_length; lia).
  rewrite (map_nth (fun k => flat_map (fun i =>
    map (fun b => Some ((d * i + k) * elt_bytes t + b))
        (seq 0 (elt_bytes t))) p)).
  now rewrite seq_nth by lia.
Qed.

Lemma expected_registers : forall d e t v, 2 <= d <= 4 ->
  registers e d (map (denr v) (expected d e t (perm d e t))).
Proof.
  intros d e t v Hd. destruct (perm_props d e t Hd) as [L _]. split.
  - unfold expected. now rewrite !map_length, seq_length.
  - apply Forall_forall. intros x Hx. apply in_map_iff in Hx as [y [<- Hy]].
    unfold expected in Hy. apply in_map_iff in Hy as [k [<- _]].
    unfold denr. rewrite map_length.
    rewrite flat_map_length_w with (w := elt_bytes t)
      by (intro; now rewrite map_length, seq_length).
    rewrite L. apply lanes_bytes.
Qed.

Lemma elt_bound : forall d e t s k, s < lanes_of e t -> k < d ->
  (d * s + k) * elt_bytes t + elt_bytes t <= d * reg_bytes e.
Proof.
  intros d e t s k Hs Hk. rewrite <- (lanes_bytes e t).
  replace ((d * s + k) * elt_bytes t + elt_bytes t)
    with ((d * s + k + 1) * elt_bytes t) by lia.
  rewrite Nat.mul_assoc. apply Nat.mul_le_mono_r. nia.
Qed.

Lemma expected_transposed : forall d e t m, 2 <= d <= 4 ->
  d * reg_bytes e <= List.length m ->
  transposed d e t (perm d e t) m
    (map (denr (at_list m)) (expected d e t (perm d e t))).
Proof.
  intros d e t m Hd Hm. destruct (perm_props d e t Hd) as [L [_ B]].
  split; [now apply expected_registers|].
  intros k i Hk Hi. unfold elt.
  change [] with (denr (at_list m) []). rewrite (map_nth (denr (at_list m))).
  rewrite expected_nth by exact Hk.
  unfold denr. rewrite skipn_map, firstn_map.
  rewrite chunk_flat_map;
    [|intro; now rewrite map_length, seq_length|now rewrite L].
  rewrite map_map. cbn [den].
  specialize (B i Hi).
  set (s := nth i (perm d e t) 0) in *.
  pose proof (elt_bound d e t s k B Hk) as Hb.
  rewrite <- map_nth_seq by lia.
  replace (seq ((d * s + k) * elt_bytes t) (elt_bytes t))
    with (map (fun b => (d * s + k) * elt_bytes t + b) (seq 0 (elt_bytes t))).
  - now rewrite map_map.
  - apply seq_add.
Qed.

Lemma load_expected : forall d e t m, 2 <= d <= 4 ->
  d * reg_bytes e <= List.length m ->
  load234 d e t m =
  Some (map (denr (at_list m)) (expected d e t (perm d e t))).
Proof.
  intros d e t m Hd Hm. unfold load234. fold (outs d).
  pose proof (call_load_sound (at_list m) _ _ _ _ (sload_eq d e t Hd)) as H.
  rewrite denr_inputs, map_nth_seq in H by lia. cbn [skipn] in H.
  rewrite <- (firstn_skipn (d * reg_bytes e) m) at 1.
  now apply load_z_frame.
Qed.

(** Storing registers described by a valuation. *)
Lemma store_expected : forall d e t v m0, 2 <= d <= 4 ->
  d * reg_bytes e <= List.length m0 ->
  store234 d e t (map (denr v) (expected d e t (perm d e t))) m0 =
  Some (map v (seq 0 (d * reg_bytes e)) ++ skipn (d * reg_bytes e) m0).
Proof.
  intros d e t v m0 Hd Hm. unfold store234. fold (ins d).
  set (n := d * reg_bytes e) in *.
  set (v' := fun i => if i <? n then v i else at_list m0 (i - n)).
  pose proof (call_store_sound v' _ _ _ _ _ (sstore_eq d e t Hd)) as H.
  fold n in H. rewrite !denr_inputs in H.
  assert (E1 : map v' (seq n n) = firstn n m0).
  { transitivity (map (at_list m0) (seq 0 n)).
    2:{ rewrite map_nth_seq by lia. reflexivity. }
    replace (seq n n) with (map (fun i => n + i) (seq 0 n)).
    2:{ apply seq_add. }
    rewrite map_map. apply map_ext_in. intros i Hi. apply in_seq in Hi.
    unfold v'. replace (n + i <? n) with false
      by (symmetry; apply Nat.ltb_ge; lia).
    f_equal. lia. }
  assert (E2 : map v' (seq 0 n) = map v (seq 0 n)).
  { apply map_ext_in. intros i Hi. apply in_seq in Hi. unfold v'.
    replace (i <? n) with true by (symmetry; apply Nat.ltb_lt; lia).
    reflexivity. }
  assert (E3 : map (denr v') (expected d e t (perm d e t)) =
               map (denr v) (expected d e t (perm d e t))).
  { destruct (perm_props d e t Hd) as [L [_ B]].
    apply map_ext_in. intros r Hr. unfold denr. apply map_ext_in.
    intros x Hx. unfold expected in Hr. apply in_map_iff in Hr as [k [<- Hk]].
    apply in_seq in Hk. apply in_flat_map in Hx as [s [Hs Hx]].
    apply in_map_iff in Hx as [b [<- Hb]]. apply in_seq in Hb. cbn [den].
    apply (In_nth _ _ 0) in Hs as [i [Hi <-]].
    rewrite L in Hi. specialize (B i Hi).
    pose proof (elt_bound d e t _ k B ltac:(lia)) as Hbd. fold n in Hbd.
    unfold v'.
    destruct (Nat.ltb_spec
      ((d * nth i (perm d e t) 0 + k) * elt_bytes t + b) n); [reflexivity|lia]. }
  rewrite E1, E2, E3 in H.
  rewrite <- (firstn_skipn n m0) at 1. now apply store_z_frame.
Qed.

(** Position of a structure in the permutation. *)
Fixpoint index (x : nat) (l : list nat) : nat :=
  match l with
  | [] => 0
  | y :: l' => if x =? y then 0 else S (index x l')
  end.

Lemma index_nth : forall l i, NoDup l -> i < List.length l ->
  index (nth i l 0) l = i.
Proof.
  induction l as [|y l IH]; intros i Hn Hi; cbn in Hi; [lia|].
  inversion Hn as [|? ? Hy Hn']; subst. destruct i as [|i]; cbn.
  - now rewrite Nat.eqb_refl.
  - destruct (Nat.eqb_spec (nth i l 0) y) as [E|_].
    + exfalso. apply Hy. rewrite <- E. apply nth_In. lia.
    + f_equal. apply IH; [assumption|lia].
Qed.

(** The valuation for which the symbolic registers are [vs]. *)
Definition regs_val (d w : nat) (p : list nat) (vs : list (list Z)) (x : nat)
  : Z :=
  nth (index (x / w / d) p * w + x mod w) (nth ((x / w) mod d) vs []) 0%Z.

Lemma elt_bytes_pos : forall t, elt_bytes t <> 0.
Proof. intros []; discriminate. Qed.

Lemma list_eq_nth : forall (a b : list Z), List.length a = List.length b ->
  (forall i, i < List.length a -> nth i a 0%Z = nth i b 0%Z) -> a = b.
Proof. intros a b H1 H2. now apply (nth_ext a b 0%Z 0%Z). Qed.

Lemma regs_val_eq : forall d e t vs, 2 <= d <= 4 -> registers e d vs ->
  map (denr (regs_val d (elt_bytes t) (perm d e t) vs))
    (expected d e t (perm d e t)) = vs.
Proof.
  intros d e t vs Hd [Lv Fv]. destruct (perm_props d e t Hd) as [L [N B]].
  set (v := regs_val d (elt_bytes t) (perm d e t) vs).
  pose proof (elt_bytes_pos t) as Hw.
  assert (Le : List.length (expected d e t (perm d e t)) = d)
    by (unfold expected; now rewrite map_length, seq_length).
  apply (nth_ext _ _ [] []); [now rewrite map_length, Le|].
  intros k Hk. rewrite map_length, Le in Hk.
  change [] with (denr v []) at 1. rewrite (map_nth (denr v)).
  rewrite expected_nth by exact Hk.
  assert (Lk : List.length (nth k vs []) = reg_bytes e).
  { rewrite Forall_forall in Fv. apply Fv. apply nth_In. lia. }
  apply list_eq_nth.
  - unfold denr. rewrite map_length, flat_map_length_w with (w := elt_bytes t)
      by (intro; now rewrite map_length, seq_length).
    rewrite L, Lk. apply lanes_bytes.
  - intros j Hj. unfold denr in Hj |- *.
    rewrite map_length, flat_map_length_w with (w := elt_bytes t) in Hj
      by (intro; now rewrite map_length, seq_length).
    rewrite L in Hj. set (w := elt_bytes t) in *.
    pose proof (Nat.div_mod j w Hw) as Dj.
    pose proof (Nat.mod_upper_bound j w Hw) as Mj.
    assert (Hi : j / w < lanes_of e t)
      by (apply Nat.div_lt_upper_bound; lia).
    set (g := fun i => map (fun b => Some ((d * i + k) * w + b)) (seq 0 w)).
    assert (Hg : forall x, List.length (g x) = w)
      by (intro; unfold g; now rewrite map_length, seq_length).
    pose proof (chunk_flat_map g w (perm d e t) (j / w) Hg ltac:(lia)) as C.
    assert (E : nth (j mod w) (g (nth (j / w) (perm d e t) 0)) None =
                nth j (flat_map g (perm d e t)) None).
    { rewrite <- C. rewrite nth_firstn_lt by exact Mj.
      rewrite nth_skipn_add. f_equal. lia. }
    change (0%Z) with (den v None) at 1. rewrite (map_nth (den v)).
    rewrite <- E. unfold g.
    rewrite (nth_indep _ None (Some ((d * nth (j / w) (perm d e t) 0 + k) * w + 0)))
      by (rewrite map_length, seq_length; exact Mj).
    rewrite (map_nth (fun b => Some ((d * nth (j / w) (perm d e t) 0 + k) * w + b))).
    rewrite seq_nth by exact Mj. cbn [den Nat.add].
    set (s := nth (j / w) (perm d e t) 0).
    unfold v, regs_val.
    assert (E1 : ((d * s + k) * w + j mod w) / w = d * s + k).
    { rewrite Nat.div_add_l by exact Hw. rewrite (Nat.div_small _ _ Mj). lia. }
    assert (E2 : ((d * s + k) * w + j mod w) mod w = j mod w).
    { rewrite Nat.add_comm, Nat.mod_add by exact Hw. now apply Nat.mod_small. }
    assert (E3 : (d * s + k) / d = s).
    { rewrite Nat.mul_comm, Nat.div_add_l by lia.
      rewrite (Nat.div_small k d) by exact Hk. lia. }
    assert (E4 : (d * s + k) mod d = k).
    { rewrite Nat.add_comm, Nat.mul_comm, Nat.mod_add by lia.
      now apply Nat.mod_small. }
    fold w. rewrite E1, E2, E3, E4. unfold s.
    rewrite index_nth by (try assumption; lia).
    f_equal. lia.
Qed.

(** ** Memory order *)

Definition order_check (d : nat) (e : ext) (t : etyp) : bool :=
  Bool.eqb (in_memory_order d e t)
    (sb_eqb (map Some (perm d e t)) (inputs 0 (lanes_of e t))).

Lemma orders_ok :
  forallb (fun d => forallb (fun e => forallb (order_check d e) etyps) exts)
    [2; 3; 4] = true.
Proof. vm_compute. reflexivity. Qed.

Lemma sb_eqb_refl : forall a, sb_eqb a a = true.
Proof.
  induction a as [|[i|] a IH]; cbn; [reflexivity| |exact IH].
  now rewrite Nat.eqb_refl.
Qed.

Lemma map_Some_inj : forall a b : list nat, map Some a = map Some b -> a = b.
Proof.
  induction a as [|x a IH]; intros [|y b] H; cbn in H; try discriminate.
  - reflexivity.
  - inversion H. f_equal. now apply IH.
Qed.

Lemma in_order_iff : forall d e t, 2 <= d <= 4 ->
  in_memory_order d e t = true <-> perm d e t = seq 0 (lanes_of e t).
Proof.
  intros d e t Hd. pose proof orders_ok as H.
  rewrite forallb_forall in H.
  assert (Hin : In d [2; 3; 4]) by (cbn; lia).
  specialize (H d Hin). rewrite forallb_forall in H.
  specialize (H e (ext_in e)). rewrite forallb_forall in H.
  specialize (H t (etyp_in t)). unfold order_check in H.
  apply Bool.eqb_prop in H. rewrite H. split.
  - intro E. apply sb_eqb_eq in E. now apply map_Some_inj.
  - intros ->. apply sb_eqb_refl.
Qed.

(** A memory whose bytes are all different. *)
Definition ramp (n : nat) : list Z := map Z.of_nat (seq 0 n).

Lemma ramp_elt : forall n w j, w <> 0 -> j * w < n ->
  nth 0 (elt w j (ramp n)) (-1)%Z = Z.of_nat (j * w).
Proof.
  intros n w j Hw Hj. unfold elt, ramp.
  rewrite nth_firstn_lt by lia. rewrite nth_skipn_add, Nat.add_0_r.
  rewrite (nth_indep _ (-1)%Z (Z.of_nat 0)) by (rewrite map_length, seq_length; lia).
  rewrite map_nth, seq_nth by lia. reflexivity.
Qed.

Lemma order_forced : forall d e t, 2 <= d <= 4 ->
  (forall m vs, d * reg_bytes e <= List.length m ->
     load234 d e t m = Some vs ->
     transposed d e t (seq 0 (lanes_of e t)) m vs) ->
  in_memory_order d e t = true.
Proof.
  intros d e t Hd H. apply in_order_iff; [exact Hd|].
  destruct (perm_props d e t Hd) as [L [_ B]].
  set (n := d * reg_bytes e) in *. set (m := ramp n).
  assert (Lm : List.length m = n)
    by (unfold m, ramp; now rewrite map_length, seq_length).
  pose proof (H m _ ltac:(lia) (load_expected d e t m Hd ltac:(fold n; lia)))
    as [_ T1].
  destruct (expected_transposed d e t m Hd ltac:(fold n; lia)) as [_ T2].
  apply (nth_ext _ _ 0 0); [now rewrite seq_length|].
  intros i Hi. rewrite L in Hi. rewrite seq_nth by exact Hi. cbn.
  specialize (T1 0 i ltac:(lia) Hi). specialize (T2 0 i ltac:(lia) Hi).
  rewrite T2 in T1. rewrite seq_nth in T1 by exact Hi. cbn [Nat.add] in T1.
  specialize (B i Hi).
  pose proof (elt_bytes_pos t) as Hw.
  pose proof (elt_bound d e t _ 0 B ltac:(lia)) as B1.
  pose proof (elt_bound d e t _ 0 Hi ltac:(lia)) as B2. fold n in B1, B2.
  apply (f_equal (fun l => nth 0 l (-1)%Z)) in T1.
  unfold m in T1. rewrite !ramp_elt in T1 by lia.
  apply Nat2Z.inj in T1. apply Nat.mul_cancel_r in T1; [|exact Hw].
  rewrite !Nat.add_0_r in T1. apply Nat.mul_cancel_l in T1; lia.
Qed.
