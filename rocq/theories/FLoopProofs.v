(** Proofs about FLoop.v. *)
From Coq Require Import ZArith Lia List Bool ZifyBool.
From Verif Require Import CInt BitLemmas ScalarOps ScalarSpec ScalarProofs CpuSimd CpuSimdSpec CpuSimdMem CpuSimdProofs PropCpuLanes PropCpuSimd.
From Verif Require Import PpcMem PpcMemSpec PropPpcMem.
From Verif Require Import FloatSpec RoundEven X86Deg234 X86Arith X86ArithSpec X86Mem X86MemSpec X86MemProofs X86Cvt X86CvtSpec X86Float X86FloatSpec PropX86Mem PropX86Float.
From Verif Require Import Arm ArmSpec ArmMem ArmPermSpec ArmFloat ArmFloatSpec ArmFloatProofs2 PropArm PropArmMem PropArmFloat Ppc PpcSpec PpcFloat PpcFloatSpec PropPpcFloat.
From Verif Require Import FloatArith FloatArithSpec FloatArithProofs ScalarFloat PropFloatArith FloatVecSpec FloatVecOps FloatVecProofs2.
From Verif Require Import Portable PortableSpec PortableProofs PortableProofs2 PortableProofs5 FPortable FPortableSpec FPortableProofs FPortableProofs2 FPortableProofs3 FPortableProofs4 FPortableProofs5 PropFPortable.
From Verif Require Import PropArmFloatArith Loop LoopSpec LoopProofs LoopProofs2 FLoop FLoopSpec.
Open Scope Z_scope.

Lemma fveval_occurs B env env' : (forall e, (forall k, foccurs k e = true -> env k = env' k) -> fveval B env e = fveval B env' e) /\
  (forall l, (forall k, foccursl k l = true -> env k = env' k) -> fleval B env l = fleval B env' l).
Proof.
  apply fexp_both; cbn [fveval fleval foccurs foccursl]; intros; try reflexivity.
  - f_equal. apply H. apply Nat.eqb_refl.
  - rewrite H by assumption. reflexivity.
  - rewrite H, H0 by (intros k K; apply H1; rewrite K, ?orb_true_r; reflexivity). reflexivity.
  - rewrite H, H0, H1 by (intros k K; apply H2; rewrite K, ?orb_true_r; reflexivity). reflexivity.
  - rewrite H, H0, H1 by (intros k K; apply H2; rewrite K, ?orb_true_r; reflexivity). reflexivity.
  - rewrite H, H0 by (intros k K; apply H1; rewrite K, ?orb_true_r; reflexivity). reflexivity.
  - rewrite H, H0 by (intros k K; apply H1; rewrite K, ?orb_true_r; reflexivity). reflexivity.
  - rewrite H by assumption. reflexivity.
  - rewrite H by assumption. reflexivity.
Qed.
Lemma felement_occurs t env env' : (forall e, (forall k, foccurs k e = true -> env k = env' k) -> felement t env e = felement t env' e) /\
  (forall l, (forall k, foccursl k l = true -> env k = env' k) -> flogical_element t env l = flogical_element t env' l).
Proof.
  apply fexp_both; cbn [felement flogical_element foccurs foccursl]; intros; try reflexivity.
  - f_equal. apply H. apply Nat.eqb_refl.
  - rewrite H by assumption. reflexivity.
  - rewrite H, H0 by (intros k K; apply H1; rewrite K, ?orb_true_r; reflexivity). reflexivity.
  - rewrite H, H0, H1 by (intros k K; apply H2; rewrite K, ?orb_true_r; reflexivity). reflexivity.
  - rewrite H, H0, H1 by (intros k K; apply H2; rewrite K, ?orb_true_r; reflexivity). reflexivity.
  - rewrite H, H0 by (intros k K; apply H1; rewrite K, ?orb_true_r; reflexivity). reflexivity.
  - rewrite H, H0 by (intros k K; apply H1; rewrite K, ?orb_true_r; reflexivity). reflexivity.
  - rewrite H by assumption. reflexivity.
  - rewrite H by assumption. reflexivity.
Qed.

Section Vars.
Variables (B : fbackend) (t : fty) (len : Z).
Notation lanes := (all_lanes len).
Variables (repv : FV B -> (Z -> Z) -> Prop) (d : FV B) (body : fexp) (srcs : list Z).
Hypothesis H_any : exists r f, repv r f.
Hypothesis H_ext : forall r f g, repv r f -> lanes (fun i => f i = g i) -> repv r g.
Hypothesis H_eval : forall env args, (forall k, repv (env k) (args k)) -> lanes (fun i => felement t (fun k => args k i) body <> None) ->
  exists r, fveval B env body = Some r /\ repv r (fun i => val (felement t (fun k => args k i) body)).
Hypothesis H_occurs : forall k, foccurs k body = true -> (k < length srcs)%nat.
Lemma feval_vars (rs : list (FV B)) args : length rs = length srcs -> (forall k, (k < length srcs)%nat -> repv (nth k rs d) (args k)) ->
  lanes (fun i => felement t (fun k => args k i) body <> None) ->
  exists r, fveval B (variables d rs) body = Some r /\ repv r (fun i => val (felement t (fun k => args k i) body)).
Proof.
  intros L R D. destruct H_any as (r0 & f0 & H0). set (n := length srcs) in *.
  set (env' := fun k => if Nat.ltb k n then nth k rs d else r0). set (args' := fun k => if Nat.ltb k n then args k else f0).
  assert (forall i, felement t (fun k => args' k i) body = felement t (fun k => args k i) body) as E.
  { intros i. apply felement_occurs. intros k K. unfold args'. rewrite (proj2 (Nat.ltb_lt k n) (H_occurs k K)). reflexivity. }
  destruct (H_eval env' args') as (r & W & Q).
  - intros k. unfold env', args'. destruct (Nat.ltb k n) eqn:K; [apply R; apply Nat.ltb_lt; exact K|exact H0].
  - intros i Hi. rewrite E. exact (D i Hi).
  - exists r. split.
    + rewrite <- W. apply fveval_occurs. intros k K. unfold env', variables. rewrite (proj2 (Nat.ltb_lt k n) (H_occurs k K)). reflexivity.
    + apply (H_ext r _ _ Q). intros i Hi. rewrite E. reflexivity.
Qed.
End Vars.

Section Reg.
Variables (N : Z) (t : fty).
Let w := fw t.
Let sz := w / 8.
Notation lanes := (all_lanes (N / w)).
Lemma fbytes : ok8 w /\ 0 < sz /\ 8 * sz = w.
Proof. unfold ok8, sz, w. destruct t; cbn; lia. Qed.
Lemma pattern_fpat r i : pattern (fm t) r i = fpat t r i. Proof. destruct t; reflexivity. Qed.
Lemma float_local m m' a v : (forall x, a <= x < a + sz -> m' x = m x) -> holds_float t m a v -> holds_float t m' a v.
Proof.
  intros E (I & p & P & H & S). split; [exact I|]. exists p. split; [exact P|]. split; [|exact S]. apply (holds_keep w m m' a _); [|exact H]. intros x O. apply E. unfold outside in O. fold sz in O. lia.
Qed.
Lemma float_mapped m a v : holds_float t m a v -> forall x, a <= x < a + sz -> m x <> None.
Proof. intros (I & p & P & H & S) x Hx. pose proof (holds_mapped _ _ _ _ H (x - a) ltac:(fold w sz; lia)) as M. replace (a + (x - a)) with x in M by lia. exact M. Qed.
Lemma float_read r i v m a : holds_float t m a v -> holds w m a (pattern (fm t) r i) -> 0 <= v < 2 ^ w /\ decode (ff t) (fpat t r i) = decode (ff t) v.
Proof.
  intros (I & p & P & H & S) H'. split; [exact I|]. rewrite pattern_fpat in H'. rewrite <- (holds_unique w m a _ _ (proj1 fbytes) H H'). apply same_decode. exact S.
Qed.
Lemma freg_load ld m a f : ((forall i, 0 <= i < N / w -> mapped w m (a + i * sz)) ->
    exists r, ld = Some r /\ in_reg N r /\ forall i, 0 <= i < N / w -> holds w m (a + i * sz) (pattern (fm t) r i)) ->
  lanes (fun i => holds_float t m (a + i * sz) (f i)) -> exists r, ld = Some r /\ frep N t r f.
Proof.
  intros S H. destruct S as (r & R & I & P).
  { intros i Hi. destruct (H i Hi) as (_ & p & _ & X & _). exact (holds_mapped _ _ _ _ X). }
  exists r. split; [exact R|]. split; [exact I|]. intros i Hi. exact (float_read r i (f i) m _ (H i Hi) (P i Hi)).
Qed.
Lemma freg_maskz ld m a f p : ((forall i, 0 <= i < N / w -> p i = true -> mapped w m (a + i * sz)) ->
    exists r, ld = Some r /\ in_reg N r /\ forall i, 0 <= i < N / w -> if p i then holds w m (a + i * sz) (pattern (fm t) r i) else pattern (fm t) r i = 0) ->
  lanes (fun i => p i = true -> holds_float t m (a + i * sz) (f i)) -> exists r, ld = Some r /\ frep N t r (fun i => if p i then f i else 0).
Proof.
  intros S H. destruct S as (r & R & I & P).
  { intros i Hi Q. destruct (H i Hi Q) as (_ & q & _ & X & _). exact (holds_mapped _ _ _ _ X). }
  exists r. split; [exact R|]. split; [exact I|]. intros i Hi. specialize (P i Hi). specialize (H i Hi). cbv beta in H. destruct (p i).
  - exact (float_read r i (f i) m _ (H eq_refl) P).
  - rewrite pattern_fpat in P. rewrite P. split; [|reflexivity]. split; [lia|]. apply Z.pow_pos_nonneg; [lia|]. destruct t; cbn; lia.
Qed.
Lemma freg_store r f m a i : frep N t r f -> 0 <= i < N / w -> holds w m a (pattern (fm t) r i) -> holds_float t m a (f i).
Proof.
  intros (I & F) Hi H. destruct (F i Hi) as (R & E). split; [exact R|]. exists (fpat t r i). split; [apply fpat_rng|]. rewrite pattern_fpat in H. split; [exact H|]. apply same_of; [apply fpat_rng|exact R|exact E].
Qed.
Lemma frep_any : 0 <= N -> exists r f, frep N t r f.
Proof.
  intros HN. exists 0, (fun _ => 0). apply frep_id. { unfold in_reg. split; [lia|]. apply Z.pow_pos_nonneg; lia. } intros i Hi. split; [split; [lia|]; apply Z.pow_pos_nonneg; [lia|]; destruct t; cbn; lia|]. unfold fpat. rewrite Zdiv_0_l. apply Zmod_0_l.
Qed.
End Reg.

Lemma mem_fm t : mem_type (fm t). Proof. destruct t; cbn; auto. Qed.
Lemma x_flanes e t : 0 < nb e / fw t. Proof. destruct e, t; reflexivity. Qed.
Lemma a_flanes e t : architectural e -> native_logicals e -> 0 < an e / fw t.
Proof. intros A L. apply Z.div_str_pos. unfold architectural in A. assert (128 <= an e) by (destruct e; cbn [an] in *; lia). destruct t; cbn; lia. Qed.
Lemma p_flanes t : 0 < 128 / fw t. Proof. destruct t; reflexivity. Qed.

Lemma x86_floop fma e t undef d body srcs dst n x m : t <> F16 -> in_reg (nb e) undef -> (uses_fma body = true -> is512 e || fma = true) -> floop_data t (nb e / fw t) body srcs dst n x m ->
  exists m', fsimd_loop (x86f_m fma e t undef) d body srcs dst n m = Some m' /\ floop_result t body dst n x m m'.
Proof.
  intros T Hu Hf (Hn & Hi & Ho & Hs & Hd & Ha & He & Hz). assert (xm t = fm t) as X by (destruct t; congruence || reflexivity). assert (mw (fm t) = fw t) as W by (destruct t; reflexivity).
  refine (vector_loop_ok _ (fmb_mem (x86f_m fma e t undef)) _ (fun env i => felement t env body) d srcs (frep (nb e) t) (logical e (X86Mem.uty (fm t))) (holds_float t) (fun _ => True) (x_flanes e t) (proj1 (proj2 (fbytes t)))
    (feval_vars (x86f fma e t undef) t (nb e / fw t) (frep (nb e) t) d body srcs _ (frep_ext (nb e) t) _ Ho) (float_local t) (float_mapped t) _ _ _ _ _ dst n x m Hn Hi Hs Hd Ha (fun _ _ _ => I) (fun _ => I) He (fun _ _ _ => Hz)); cbn [mo_len mo_size mo_load mo_store mo_tail mo_maskz_load mo_mask_store fmb_mem x86f_m]; rewrite ?X.
  - apply frep_any. destruct e; cbn; lia.
  - intros env args E D. exact (x86_float fma e t undef T Hu env args E body Hf D).
  - intros m1 a f _ H. apply (freg_load (nb e) t _ m1 a f); [|exact H]. rewrite <- W. exact (C58_load e (fm t) m1 a (mem_fm t)).
  - intros m1 a r f _ R M. destruct (C58_store e (fm t) m1 a r (mem_fm t) (proj1 R)) as (m' & S & A & F).
    { rewrite W. intros i Hi'. unfold elems in Hi'. rewrite W in Hi'. intros k Hk. apply (M i Hi'). lia. }
    unfold elems in A, F. rewrite W in A, F. exists m'. split; [exact S|]. split; [|exact F]. intros i Hi'. exact (freg_store (nb e) t r f m' _ i R Hi' (A i Hi')).
  - intros i k Hik _ Hk. apply C68_loop_tail; [destruct t; congruence || reflexivity|]. apply i32_fits. pose proof (x_flanes e t). lia.
  - intros l p m1 a f L H. apply (freg_maskz (nb e) t _ m1 a f p); [|exact H]. rewrite <- W. exact (C58_maskz_load e (fm t) l m1 a p (mem_fm t) L).
  - intros l p m1 a r f L R M. destruct (C58_mask_store e (fm t) l m1 a r p (mem_fm t) L (proj1 R)) as (m' & S & A & F).
    { rewrite W. intros i Hi' P. unfold elems in Hi'. rewrite W in Hi'. intros k Hk. apply (M i Hi' P). lia. }
    unfold elems in A, F. rewrite W in A, F. exists m'. split; [exact S|]. split.
    + intros i Hi' P. exact (freg_store (nb e) t r f m' _ i R Hi' (A i Hi' P)).
    + intros y Hy. apply F. intros i Hi' P. destruct (Hy i Hi' P) as [Q|Q]; [left|right]; exact Q.
Qed.
Lemma arm_floop c99 u e t d body srcs dst n x m : t <> F16 -> architectural e -> native_logicals e -> (uses_fma body = true -> fused_vector c99 e t) -> floop_data t (an e / fw t) body srcs dst n x m ->
  exists m', fsimd_loop (armf_m c99 u e t) d body srcs dst n m = Some m' /\ floop_result t body dst n x m m'.
Proof.
  intros T Har Hl Hf (Hn & Hi & Ho & Hs & Hd & Ha & He & Hz). assert (mw (fm t) = fw t) as W by (destruct t; reflexivity). assert (X86Mem.uty (fm t) = fu t) as Y by (destruct t; reflexivity).
  refine (vector_loop_ok _ (fmb_mem (armf_m c99 u e t)) _ (fun env i => felement t env body) d srcs (frep (an e) t) (alogical e (X86Mem.uty (fm t))) (holds_float t) (fun _ => True) (a_flanes e t Har Hl) (proj1 (proj2 (fbytes t)))
    (feval_vars (armf c99 u e t) t (an e / fw t) (frep (an e) t) d body srcs _ (frep_ext (an e) t) _ Ho) (float_local t) (float_mapped t) _ _ _ _ _ dst n x m Hn Hi Hs Hd Ha (fun _ _ _ => I) (fun _ => I) He (fun _ _ _ => Hz)); cbn [mo_len mo_size mo_load mo_store mo_tail mo_maskz_load mo_mask_store fmb_mem armf_m].
  - apply frep_any. unfold native_logicals in Hl. destruct e; cbn [an]; lia.
  - intros env args E D. exact (arm_float c99 u e t T Hl env args E body Hf D).
  - intros m1 a f _ H. apply (freg_load (an e) t _ m1 a f); [|exact H]. rewrite <- W. exact (C78_load e (fm t) m1 a (mem_fm t)).
  - intros m1 a r f _ R M. destruct (C78_store e (fm t) m1 a r (mem_fm t) (proj1 R)) as (m' & S & A & F).
    { rewrite W. intros i Hi'. unfold aelems in Hi'. rewrite W in Hi'. intros k Hk. apply (M i Hi'). lia. }
    unfold aelems in A, F. rewrite W in A, F. exists m'. split; [exact S|]. split; [|exact F]. intros i Hi'. exact (freg_store (an e) t r f m' _ i R Hi' (A i Hi')).
  - intros i k Hik _ Hk. rewrite Y. apply C88_loop_tail; [exact Har|exact Hl|]. right. apply i32_fits. pose proof (a_flanes e t Har Hl). lia.
  - intros l p m1 a f L H. apply (freg_maskz (an e) t _ m1 a f p); [|exact H]. rewrite <- W. exact (C79_maskz_load e (fm t) l m1 a p (mem_fm t) Hl L).
  - intros l p m1 a r f L R M. destruct (C79_mask_store e (fm t) l m1 a r p (mem_fm t) Hl L) as (m' & S & A & F).
    { rewrite W. intros i Hi' P. unfold aelems in Hi'. rewrite W in Hi'. intros k Hk. apply (M i Hi' P). lia. }
    unfold aelems in A, F. rewrite W in A, F. exists m'. split; [exact S|]. split.
    + intros i Hi' P. exact (freg_store (an e) t r f m' _ i R Hi' (A i Hi' P)).
    + intros y Hy. apply F. intros i Hi' P. destruct (Hy i Hi' P) as [Q|Q]; [left|right]; exact Q.
Qed.
Lemma power_floop al c99 new e t d body srcs dst n x m : t <> F16 -> vector_address (fm t) dst -> (forall k, (k < length srcs)%nat -> vector_address (fm t) (nth k srcs 0)) ->
  (uses_fma body = true -> vmx_double e t -> c99 = true) -> floop_data t (128 / fw t) body srcs dst n x m ->
  exists m', fsimd_loop (powerf_m al c99 new e t) d body srcs dst n m = Some m' /\ floop_result t body dst n x m m'.
Proof.
  intros T Vd Vs Hf (Hn & Hi & Ho & Hs & Hd & Ha & He & Hz). assert (mw (fm t) = fw t) as W by (destruct t; reflexivity). assert (X86Mem.uty (fm t) = fu t) as Y by (destruct t; reflexivity).
  assert (128 / fw t * (fw t / 8) = 16) as B by (destruct t; reflexivity).
  assert (forall a q, vector_address (fm t) a -> vector_address (fm t) (a + q * (128 / fw t) * (fw t / 8))) as K.
  { intros a q [V|V]; [left; exact V|right]. apply Z.divide_add_r; [exact V|]. exists q. rewrite <- Z.mul_assoc, B. reflexivity. }
  refine (vector_loop_ok _ (fmb_mem (powerf_m al c99 new e t)) _ (fun env i => felement t env body) d srcs (frep 128 t) (plogical (X86Mem.uty (fm t))) (holds_float t) (vector_address (fm t)) (p_flanes t) (proj1 (proj2 (fbytes t)))
    (feval_vars (powerf c99 new e t) t (128 / fw t) (frep 128 t) d body srcs _ (frep_ext 128 t) _ Ho) (float_local t) (float_mapped t) _ _ _ _ _ dst n x m Hn Hi Hs Hd Ha (fun k q Hk => K _ q (Vs k Hk)) (fun q => K _ q Vd) He (fun _ _ _ => Hz)); cbn [mo_len mo_size mo_load mo_store mo_tail mo_maskz_load mo_mask_store fmb_mem powerf_m].
  - apply frep_any. lia.
  - intros env args E D. exact (power_float c99 new e t T env args E body Hf D).
  - intros m1 a f V H. apply (freg_load 128 t _ m1 a f); [|exact H]. rewrite <- W. exact (C103_load al e (fm t) m1 a (mem_fm t) V).
  - intros m1 a r f V R M. destruct (C103_store al e (fm t) m1 a r (mem_fm t) V (proj1 R)) as (m' & S & A & F).
    { rewrite W. intros i Hi'. unfold pelems in Hi'. rewrite W in Hi'. intros k Hk. apply (M i Hi'). lia. }
    unfold pelems in A. rewrite W in A. exists m'. split; [exact S|]. split.
    + intros i Hi'. exact (freg_store 128 t r f m' _ i R Hi' (A i Hi')).
    + intros y Hy. apply F. rewrite B in Hy. exact Hy.
  - intros i k Hik _ Hk. rewrite Y. apply C113_loop_tail. right. apply i32_fits. pose proof (p_flanes t). lia.
  - intros l p m1 a f L H. apply (freg_maskz 128 t _ m1 a f p); [|exact H]. rewrite <- W. exact (C104_maskz_load e (fm t) l m1 a p (mem_fm t) L).
  - intros l p m1 a r f L R M. destruct (C104_mask_store e (fm t) l m1 a r p (mem_fm t) L) as (m' & S & A & F).
    { rewrite W. intros i Hi' P. unfold pelems in Hi'. rewrite W in Hi'. intros k Hk. apply (M i Hi' P). lia. }
    unfold pelems in A, F. rewrite W in A, F. exists m'. split; [exact S|]. split.
    + intros i Hi' P. exact (freg_store 128 t r f m' _ i R Hi' (A i Hi' P)).
    + intros y Hy. apply F. intros i Hi' P. destruct (Hy i Hi' P) as [Q|Q]; [left|right]; exact Q.
Qed.
