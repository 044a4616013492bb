(** The linear gathers and scatters, the f16 operators, iota and mask_for_loop_tail. *)
From Coq Require Import ZArith Lia List Bool ZifyBool.
From Verif Require Import CInt BitLemmas FloatSpec Fp16 Fp16Proofs ScalarOps ScalarSpec ScalarProofs X86Deg234 X86Arith X86ArithSpec
  X86LaneLemmas X86ArithProofs X86EmulProofs X86LogicProofs X86Mem X86MemSpec X86MemProofs.
Import ListNotations.
Open Scope Z_scope.

Lemma at_step_ok w a step i : in_ty i32 (i * step) -> at_step w a step i = Some (a + i * step * (w / 8)).
Proof. intros H. unfold at_step. rewrite carith_fits by (cbn; tauto || exact H). reflexivity. Qed.

Lemma set_lanes_ok e t f k ret : In t int_types -> in_reg (nb e) ret -> Z.of_nat k <= nb e / bits t ->
  (forall i, 0 <= i < Z.of_nat k -> f i <> None) ->
  exists r, set_lanes e t f k ret = Some r /\ in_reg (nb e) r /\
    (forall i x, 0 <= i < Z.of_nat k -> f i = Some x -> lane (bits t) i r = x mod 2 ^ bits t).
Proof.
  intros H Hr. induction k as [|k IH]; intros Hk F.
  - exists ret. split; [reflexivity|]. split; [exact Hr|]. intros; lia.
  - destruct IH as (r & E & R & L); [lia|intros; apply F; lia|]. cbn [set_lanes]. rewrite E. cbn [bind].
    pose proof (F (Z.of_nat k) ltac:(lia)) as Fk. destruct (f (Z.of_nat k)) as [x|] eqn:Ef; [|congruence]. cbn [bind].
    destruct (set_lane_ok e t r x (Z.of_nat k) H R ltac:(lia)) as [R' L'].
    eexists. split; [reflexivity|]. split; [exact R'|]. intros i y Hi Ey. rewrite L' by lia.
    destruct (Z.eqb_spec i (Z.of_nat k)) as [->|N]; [congruence|]. apply L; [lia|exact Ey].
Qed.

Lemma gather_linear_avx_ok e t undef m a step : mem_type t -> in_reg (nb e) undef ->
  (forall i, 0 <= i < nb e / mw t -> in_ty i32 (i * step)) ->
  (forall i, 0 <= i < nb e / mw t -> mapped (mw t) m (a + i * step * (mw t / 8))) ->
  exists r, gather_linear_avx e t undef m a step = Some r /\ in_reg (nb e) r /\
    forall i, 0 <= i < nb e / mw t -> holds (mw t) m (a + i * step * (mw t / 8)) (lane (mw t) i r).
Proof.
  intros H Hu S M. pose proof (okw_mw e t H) as On. pose proof (ok8_mw t H) as O. pose proof (nlanes_z _ _ On) as N.
  assert (F : forall i, 0 <= i < nb e / mw t -> bind (at_step (mw t) a step i) (rdw (mw t) m) = rdw (mw t) m (a + i * step * (mw t / 8))).
  { intros i Hi. rewrite at_step_ok by (apply S; exact Hi). reflexivity. }
  unfold gather_linear_avx. destruct (match e with Sse2 => _ | _ => _ end).
  - destruct (load_loop_ok (fun _ => true) (fun i => bind (at_step (mw t) a step i) (rdw (mw t) m)) (nlanes (nb e) (mw t)) (fun _ => 0)) as (b & E & A & _).
    { rewrite N. intros i Hi _. rewrite F by exact Hi. destruct (rdw_mapped (mw t) m _ O (M i Hi)) as (x & Ex & _). congruence. }
    rewrite N in A. rewrite E. cbn [bind]. eexists. split; [reflexivity|]. split; [apply in_reg_build; exact On|]. intros i Hi.
    specialize (A i Hi). cbv beta iota in A. rewrite F in A by exact Hi. rewrite lane_buildn by assumption.
    destruct (rdw_mapped (mw t) m _ O (M i Hi)) as (x & Ex & Hx). rewrite Ex in A. injection A as <-.
    rewrite Z.mod_small by apply Hx. exact Hx.
  - destruct (set_lanes_ok e (uty t) (fun i => bind (at_step (mw t) a step i) (rdw (mw t) m)) (nlanes (nb e) (mw t)) undef (mem_ty t H) Hu) as (r & E & R & L).
    { rewrite N. change (bits (uty t)) with (mw t). lia. }
    { rewrite N. intros i Hi. rewrite F by exact Hi. destruct (rdw_mapped (mw t) m _ O (M i Hi)) as (x & Ex & _). congruence. }
    rewrite N in L. exists r. split; [exact E|]. split; [exact R|]. intros i Hi.
    destruct (rdw_mapped (mw t) m _ O (M i Hi)) as (x & Ex & Hx). change (mw t) with (bits (uty t)) at 3. rewrite (L i x Hi) by (rewrite F by exact Hi; exact Ex).
    rewrite Z.mod_small by apply Hx. exact Hx.
Qed.

Lemma half_512 w : okw 256 w -> 512 / w / 2 = 256 / w /\ 512 / w = 256 / w + 256 / w.
Proof.
  intros O. destruct (okw_double 256 w O) as [_ E]. change (2 * 256) with 512 in E. split; [|exact E].
  rewrite E. replace (256 / w + 256 / w) with (256 / w * 2) by ring. apply Z.div_mul. lia.
Qed.

Lemma x_gather_linear_ok e t undef m a step : mem_type t -> in_reg (nb e) undef ->
  (forall i, 0 <= i < nb e / mw t -> in_ty i32 (i * step)) ->
  (forall i, 0 <= i < nb e / mw t -> mapped (mw t) m (a + i * step * (mw t / 8))) ->
  exists r, x_gather_linear e t undef m a step = Some r /\ in_reg (nb e) r /\
    forall i, 0 <= i < nb e / mw t -> holds (mw t) m (a + i * step * (mw t / 8)) (lane (mw t) i r).
Proof.
  intros H Hu S M. unfold x_gather_linear. destruct (is512 e) eqn:N5; [|apply gather_linear_avx_ok; assumption].
  assert (Nb : nb e = 512) by (destruct e; try discriminate; reflexivity). rewrite Nb in *.
  assert (O2 : okw 256 (mw t)) by exact (okw_mw Avx2 t H). destruct (half_512 _ O2) as [Eh Ed].
  assert (P : 0 < 256 / mw t). { destruct O2 as (?&?&E2). destruct (Z.eq_dec (256 / mw t) 0) as [Z0|]; [rewrite Z0 in E2; lia|]. pose proof (Z.div_pos 256 (mw t) ltac:(lia) ltac:(lia)). lia. }
  destruct (gather_linear_avx_ok Avx2 t (mm_lo 512 undef) m a step H) as (lo & E1 & R1 & L1).
  { apply (in_reg_lo 256). lia. }
  { cbn [nb]. intros i Hi. apply S. lia. }
  { cbn [nb]. intros i Hi. apply M. lia. }
  rewrite E1. cbn [bind]. rewrite Eh. rewrite at_step_ok by (apply S; lia). cbn [bind].
  destruct (gather_linear_avx_ok Avx2 t (mm_hi 512 undef) m (a + 256 / mw t * step * (mw t / 8)) step H) as (hi & E2 & R2 & L2).
  { apply (in_reg_hi 256); [lia|exact Hu]. }
  { cbn [nb]. intros i Hi. apply S. lia. }
  { cbn [nb]. intros i Hi. replace (a + 256 / mw t * step * (mw t / 8) + i * step * (mw t / 8)) with (a + (256 / mw t + i) * step * (mw t / 8)) by ring. apply M. lia. }
  rewrite E2. cbn [bind]. eexists. split; [reflexivity|]. cbn [nb] in *. split; [apply (in_reg_setr 256); assumption || lia|].
  intros i Hi. rewrite (lane_setr 256) by (assumption || lia). destruct (Z.ltb_spec i (256 / mw t)).
  - apply L1. lia.
  - specialize (L2 (i - 256 / mw t) ltac:(lia)).
    replace (a + 256 / mw t * step * (mw t / 8) + (i - 256 / mw t) * step * (mw t / 8)) with (a + i * step * (mw t / 8)) in L2 by ring. exact L2.
Qed.

(** what a linear scatter of [k] lanes does *)
Definition lin_stored (w k : Z) (a step : Z) (val : Z -> Z) (m m' : bmem) : Prop :=
  (step <> 0 -> forall i, 0 <= i < k -> holds w m' (a + i * step * (w / 8)) (val i mod 2 ^ w)) /\
  (step = 0 -> 0 < k -> holds w m' a (val (k - 1) mod 2 ^ w)) /\
  (forall x, (forall i, 0 <= i < k -> outside w (a + i * step * (w / 8)) x) -> m' x = m x) /\
  (forall x, m x <> None -> m' x <> None).

Lemma lin_loop n w a step val m : okw n w -> ok8 w ->
  (forall i, 0 <= i < n / w -> in_ty i32 (i * step)) ->
  (forall i, 0 <= i < n / w -> mapped w m (a + i * step * (w / 8))) ->
  exists m', store_loop w (fun _ => true) (at_step w a step) val (nlanes n w) m = Some m' /\ lin_stored w (n / w) a step val m m'.
Proof.
  intros On O S M. destruct (scattered w (at_step w a step) val m n On O) as (m' & E & A & U & D).
  { intros i Hi. eexists. split; [apply at_step_ok, S, Hi|apply M, Hi]. }
  exists m'. split; [exact E|]. split; [|split; [|split; [|exact D]]].
  - intros N0 i Hi. apply A; [exact Hi|apply at_step_ok, S, Hi|]. intros j b Hj Eb. rewrite at_step_ok in Eb by (apply S; lia). injection Eb as <-.
    apply strided_disjoint; [exact O|]. nia.
  - intros -> Hk. specialize (A (n / w - 1) a ltac:(lia)). apply A.
    + rewrite at_step_ok by (apply S; lia). f_equal. ring.
    + intros j b Hj. lia.
  - intros x Hx. apply U. intros i b Hi Eb. rewrite at_step_ok in Eb by (apply S; lia). injection Eb as <-. apply Hx. exact Hi.
Qed.

Lemma lin_ext w k a step v v' m m' : (forall i, 0 <= i < k -> v i mod 2 ^ w = v' i mod 2 ^ w) -> lin_stored w k a step v m m' -> lin_stored w k a step v' m m'.
Proof.
  intros E (A & B & U & D). split; [|split; [|split; assumption]].
  - intros N i Hi. rewrite <- E by exact Hi. apply A; assumption.
  - intros N Hk. rewrite <- E by lia. apply B; assumption.
Qed.

Lemma lane_mod w i v : 0 <= w -> lane w i v mod 2 ^ w = lane w i v.
Proof. intros. apply Z.mod_small. apply lane_range. assumption. Qed.

Lemma scatter_linear_avx_ok e t m a step v : mem_type t -> in_reg (nb e) v ->
  (forall i, 0 <= i < nb e / mw t -> in_ty i32 (i * step)) ->
  (forall i, 0 <= i < nb e / mw t -> mapped (mw t) m (a + i * step * (mw t / 8))) ->
  exists m', scatter_linear_avx e t m a step v = Some m' /\ lin_stored (mw t) (nb e / mw t) a step (fun i => lane (mw t) i v) m m'.
Proof.
  intros H Hv S M. unfold scatter_linear_avx. set (tr := match e with Sse2 => _ | _ => _ end). clearbody tr.
  destruct (lin_loop (nb e) (mw t) a step (fun i => if tr then get_lane e (uty t) v i else lane (mw t) i v) m (okw_mw e t H) (ok8_mw t H) S M) as (m' & E & L).
  exists m'. split; [exact E|]. eapply lin_ext; [|exact L]. intros i Hi. cbv beta. destruct tr; [|reflexivity].
  pose proof (mem_ty t H) as Ht. rewrite (get_lane_ok e (uty t) v i Ht Hv Hi). rewrite lane_mod by (destruct (ok8_mw t H); lia).
  apply elt_congr. exact Ht.
Qed.

Lemma lin_app w k a step v1 v2 val m m1 m2 : ok8 w -> 0 < k ->
  lin_stored w k a step v1 m m1 -> lin_stored w k (a + k * step * (w / 8)) step v2 m1 m2 ->
  (forall i, 0 <= i < k -> v1 i = val i) -> (forall i, 0 <= i < k -> v2 i = val (k + i)) ->
  lin_stored w (k + k) a step val m m2.
Proof.
  intros O Hk (A1 & B1 & U1 & D1) (A2 & B2 & U2 & D2) V1 V2. split; [|split; [|split]].
  - intros N i Hi. destruct (Z.ltb_spec i k).
    + apply (holds_keep w m1).
      * intros x Hx. apply U2. intros j Hj.
        pose proof (strided_disjoint w a (i * step) ((k + j) * step) O ltac:(nia)) as Q. unfold outside in *.
        replace (a + k * step * (w / 8) + j * step * (w / 8)) with (a + (k + j) * step * (w / 8)) by ring. lia.
      * rewrite <- V1 by lia. apply A1; [exact N|lia].
    + specialize (A2 N (i - k) ltac:(lia)). rewrite V2 in A2 by lia. replace (k + (i - k)) with i in A2 by ring.
      replace (a + k * step * (w / 8) + (i - k) * step * (w / 8)) with (a + i * step * (w / 8)) in A2 by ring. exact A2.
  - intros N _. specialize (B2 N Hk). rewrite V2 in B2 by lia. replace (k + (k - 1)) with (k + k - 1) in B2 by ring. subst step.
    replace (a + k * 0 * (w / 8)) with a in B2 by ring. exact B2.
  - intros x Hx. rewrite U2, U1; [reflexivity| |].
    + intros i Hi. apply Hx. lia.
    + intros i Hi. replace (a + k * step * (w / 8) + i * step * (w / 8)) with (a + (k + i) * step * (w / 8)) by ring. apply Hx. lia.
  - intros x Hx. apply D2, D1, Hx.
Qed.

Lemma x_scatter_linear_ok e t m a step v : mem_type t -> in_reg (nb e) v ->
  (forall i, 0 <= i < nb e / mw t -> in_ty i32 (i * step)) ->
  (forall i, 0 <= i < nb e / mw t -> mapped (mw t) m (a + i * step * (mw t / 8))) ->
  exists m', x_scatter_linear e t m a step v = Some m' /\ lin_stored (mw t) (nb e / mw t) a step (fun i => lane (mw t) i v) m m'.
Proof.
  intros H Hv S M. unfold x_scatter_linear. destruct (is512 e) eqn:N5; [|apply scatter_linear_avx_ok; assumption].
  assert (Nb : nb e = 512) by (destruct e; try discriminate; reflexivity). rewrite Nb in *.
  assert (O2 : okw 256 (mw t)) by exact (okw_mw Avx2 t H). destruct (half_512 _ O2) as [Eh Ed].
  assert (P : 0 < 256 / mw t). { destruct O2 as (?&?&E2). destruct (Z.eq_dec (256 / mw t) 0) as [Z0|]; [rewrite Z0 in E2; lia|]. pose proof (Z.div_pos 256 (mw t) ltac:(lia) ltac:(lia)). lia. }
  destruct (scatter_linear_avx_ok Avx2 t m a step (mm_lo 512 v) H) as (m1 & E1 & L1).
  { apply (in_reg_lo 256). lia. }
  { cbn [nb]. intros i Hi. apply S. lia. }
  { cbn [nb]. intros i Hi. apply M. lia. }
  rewrite E1. cbn [bind]. rewrite Eh. rewrite at_step_ok by (apply S; lia). cbn [bind].
  destruct (scatter_linear_avx_ok Avx2 t m1 (a + 256 / mw t * step * (mw t / 8)) step (mm_hi 512 v) H) as (m2 & E2 & L2).
  { apply (in_reg_hi 256); [lia|exact Hv]. }
  { cbn [nb]. intros i Hi. apply S. lia. }
  { cbn [nb]. intros i Hi. replace (a + 256 / mw t * step * (mw t / 8) + i * step * (mw t / 8)) with (a + (256 / mw t + i) * step * (mw t / 8)) by ring.
    intros j Hj. apply L1. apply M; [lia|exact Hj]. }
  exists m2. split; [exact E2|]. cbn [nb] in *. rewrite Ed. eapply lin_app; [apply ok8_mw, H|exact P|exact L1|exact L2| |].
  - intros i Hi. cbv beta. apply (lane_lo 256); assumption.
  - intros i Hi. cbv beta. apply (lane_hi 256); [assumption|lia].
Qed.

(** ** f16 *)

Lemma le16_half e : le16 e / 2 = nb e / 32 /\ le16 e = nb e / 32 + nb e / 32 /\ le16 e = nb e / 16.
Proof. destruct e; repeat split; reflexivity. Qed.
Lemma okw32 e : okw (nb e) 32.
Proof. exact (okw_nb e u32 ltac:(cbn; tauto)). Qed.
Lemma buf16_eq e v i : buf16 e v i = pattern16 e v i.
Proof. unfold buf16, pattern16, lane. destruct (le16_half e) as (-> & _). reflexivity. Qed.
Lemma nat16 e : Z.of_nat (Z.to_nat (le16 e)) = nb e / 16.
Proof. destruct e; reflexivity. Qed.

Lemma regs16_ok e buf : (forall i, 0 <= i < nb e / 16 -> 0 <= buf i < 2 ^ 32) ->
  in_reg16 e (regs16 e buf) /\ forall i, 0 <= i < nb e / 16 -> pattern16 e (regs16 e buf) i = buf i.
Proof.
  intros B. pose proof (okw32 e) as O. destruct (le16_half e) as (Eh & Ed & E16). split; [split; apply in_reg_build; exact O|].
  intros i Hi. rewrite <- buf16_eq. unfold buf16, regs16. cbn [fst snd]. rewrite Eh. destruct (Z.ltb_spec i (nb e / 32)).
  - rewrite lane_buildn by (assumption || lia). apply Z.mod_small. apply B. exact Hi.
  - rewrite lane_buildn by (assumption || lia). replace (i - nb e / 32 + nb e / 32) with i by ring. apply Z.mod_small. apply B. exact Hi.
Qed.

Lemma pattern16_range e v i : in_reg16 e v -> 0 <= i -> in_u 32 (pattern16 e v i).
Proof. intros _ Hi. rewrite <- buf16_eq. unfold buf16. pose proof (fun j r => lane_range 32 j r ltac:(lia)) as Q. unfold in_u. change (2 ^ 32) with 4294967296 in *. destruct (_ <? _); apply Q. Qed.

Lemma ld16_ok m a : mapped 16 m a -> exists h u, holds 16 m a h /\ ld16 m a = Some u /\ u16_to_f32 h = Some u /\ in_u 32 u.
Proof.
  intros M. destruct (rdw_mapped 16 m a ltac:(split; reflexivity) M) as (h & E & Hh).
  destruct (u16_to_f32_exact_l h) as (u & Eu & Hu & _). { destruct Hh as [R _]. exact R. }
  exists h, u. split; [exact Hh|]. split; [unfold ld16; rewrite E; exact Eu|]. split; assumption.
Qed.

(** what a masked f16 load returns *)
Definition loaded16 (e : ext) (p : Z -> bool) (m : bmem) (adr : Z -> Z) (other : Z -> Z) (r : Z * Z) : Prop :=
  in_reg16 e r /\ forall i, 0 <= i < nb e / 16 ->
    if p i then exists h, holds 16 m (adr i) h /\ u16_to_f32 h = Some (pattern16 e r i) else pattern16 e r i = other i.

Lemma load16_ok e cond p m f adr other : (forall i, 0 <= i < nb e / 16 -> cond i = p i) ->
  (forall i, 0 <= i < nb e / 16 -> p i = true -> f i = ld16 m (adr i)) ->
  (forall i, 0 <= i < nb e / 16 -> 0 <= other i < 2 ^ 32) ->
  (forall i, 0 <= i < nb e / 16 -> p i = true -> mapped 16 m (adr i)) ->
  exists r, bind (load_loop cond f (Z.to_nat (le16 e)) other) (fun buf => Some (regs16 e buf)) = Some r /\ loaded16 e p m adr other r.
Proof.
  intros C F B M. destruct (load_loop_ok cond f (Z.to_nat (le16 e)) other) as (b & E & A & _).
  { rewrite nat16. intros i Hi Ci. rewrite C in Ci by exact Hi. rewrite F by assumption. destruct (ld16_ok m (adr i) (M i Hi Ci)) as (h & u & _ & Eu & _). congruence. }
  rewrite nat16 in A. rewrite E. cbn [bind]. eexists. split; [reflexivity|].
  destruct (regs16_ok e b) as [R P].
  { intros i Hi. specialize (A i Hi). rewrite C in A by exact Hi. destruct (p i) eqn:Pi; [|rewrite A; apply B; exact Hi].
    rewrite F in A by assumption. destruct (ld16_ok m (adr i) (M i Hi Pi)) as (h & u & _ & Eu & _ & Ru). rewrite Eu in A. injection A as <-. exact Ru. }
  split; [exact R|]. intros i Hi. rewrite P by exact Hi. specialize (A i Hi). rewrite C in A by exact Hi. destruct (p i) eqn:Pi; [|exact A].
  rewrite F in A by assumption. destruct (ld16_ok m (adr i) (M i Hi Pi)) as (h & u & Hh & Eu & Cu & _). rewrite Eu in A. injection A as <-.
  exists h. split; assumption.
Qed.

Lemma mask16_ok e l p i : logical16 e l p -> 0 <= i < nb e / 16 -> negb (buf16 e (mask16 e l) i =? 0) = p i.
Proof.
  intros [L1 L2] Hi. pose proof (okw32 e) as O. destruct (le16_half e) as (Eh & Ed & E16). unfold buf16. rewrite Eh.
  assert (T : In u32 int_types) by (cbn; tauto).
  unfold mask16. destruct (is512 e) eqn:N5.
  - assert (Nb : nb e = 512) by (destruct e; try discriminate; reflexivity). rewrite Nb in *. cbn [fst snd]. destruct (Z.ltb_spec i (512 / 32)).
    + unfold mm_mask_mov, mm_set1. rewrite lane_buildn by (assumption || lia). rewrite lane_buildn by (assumption || lia).
      rewrite (logical_bit e u32 (fst l) p) by (try assumption; rewrite Nb; cbn [bits u32]; lia). destruct (p i); reflexivity || (rewrite lane_0 by lia; reflexivity).
    + unfold mm_mask_mov, mm_set1. rewrite lane_buildn by (assumption || lia). rewrite lane_buildn by (assumption || lia).
      rewrite (logical_bit e u32 (snd l) _ _ N5 L2) by (rewrite Nb; cbn [bits u32]; lia). replace (i - 512 / 32 + 512 / 32) with i by ring.
      destruct (p i); reflexivity || (rewrite lane_0 by lia; reflexivity).
  - destruct (Z.ltb_spec i (nb e / 32)).
    + change 32 with (bits u32) at 1. rewrite (logical_lane e u32 (fst l) p) by (assumption || (cbn [bits u32]; lia)). destruct (p i); reflexivity.
    + change 32 with (bits u32) at 1. rewrite (logical_lane e u32 (snd l) _ _ T N5 L2) by (cbn [bits u32]; lia).
      replace (i - nb e / 32 + nb e / 32) with i by ring. destruct (p i); reflexivity.
Qed.

Lemma stored16_val e v i : in_reg16 e v -> 0 <= i < nb e / 16 -> f32_to_u16 (buf16 e v i) mod 2 ^ 16 = f32_to_u16 (pattern16 e v i).
Proof.
  intros R Hi. rewrite buf16_eq. apply Z.mod_small. apply (f32_to_u16_range_l (pattern16 e v i)). apply pattern16_range; [exact R|lia].
Qed.

(** ** iota and loop tails *)

Lemma lanes_fit e t : In t int_types -> ty_min t <= 0 /\ nb e / bits t <= ty_max t.
Proof. intros H. destruct e; ty_cases H; vm_compute; split; discriminate. Qed.

Lemma x_iota_ok e t : In t int_types -> in_reg (nb e) (x_iota e t) /\ forall i, 0 <= i < nb e / bits t -> elt t (x_iota e t) i = i.
Proof.
  intros H. pose proof (okw_nb e t H) as O. split; [apply in_reg_build; exact O|]. intros i Hi.
  rewrite (elt_of_lane t _ i i H).
  - apply cast_id; [exact H|]. destruct (lanes_fit e t H). unfold in_ty. lia.
  - apply lane_buildn; assumption.
Qed.

Lemma x_tail_ok e t i n : In t int_types -> in_ty i32 i -> in_ty i32 n -> in_ty i32 (n - i) ->
  exists l, x_mask_for_loop_tail e t i n = Some l /\ logical e t l (fun k => i + k <? n).
Proof.
  intros H Hi Hn Hd. unfold x_mask_for_loop_tail. destruct (Z.leb_spec n i).
  - eexists. split; [reflexivity|]. eapply logical_ext; [apply x_set1l_ok; exact H|]. intros k Hk. cbv beta. symmetry. change (negb (0 =? 0)) with false. lia.
  - rewrite carith_fits by (cbn; tauto || exact Hd). cbn [bind]. rewrite le_eq. destruct (Z.ltb_spec (n - i) (nb e / bits t)).
    + eexists. split; [reflexivity|]. destruct (x_iota_ok e t H) as [Ri Li]. pose proof (okw_nb e t H) as O.
      assert (Rs : in_reg (nb e) (x_set1 e t (cast t (n - i)))) by (apply in_reg_build; exact O).
      eapply logical_ext; [apply x_lt_ok; assumption|]. intros k Hk. cbv beta. rewrite Li by exact Hk.
      assert (V : cast t (n - i) = n - i) by (apply cast_id; [exact H|]; destruct (lanes_fit e t H); unfold in_ty; lia).
      rewrite (elt_of_lane t _ k (n - i) H).
      * rewrite V. lia.
      * unfold x_set1, mm_set1. rewrite lane_buildn by assumption. rewrite V. reflexivity.
    + eexists. split; [reflexivity|]. eapply logical_ext; [apply x_set1l_ok; exact H|]. intros k Hk. cbv beta. change (negb (1 =? 0)) with true. lia.
Qed.
