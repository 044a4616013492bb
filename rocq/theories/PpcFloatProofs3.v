(** Proofs about the POWER operators on floating-point vectors: arithmetic. *)
From Coq Require Import ZArith Bool Lia ZifyBool List.
From Verif Require Import PpcMemProofs PpcMemProofs2 PpcMemProofs3 PpcMemProofs4 Ppc PpcSpec PpcProofs PpcMem PpcMemSpec.
From Verif Require Import CInt FloatSpec Fp16 Fp16Spec Fp16Proofs ScalarOps RoundEven X86Deg234 X86Arith X86ArithSpec X86LaneLemmas X86Mem X86MemSpec X86Cvt X86CvtSpec FloatProofs X86CvtProofs2 X86CvtProofs4 X86Float X86FloatSpec X86FloatProofs2.
From Verif Require Import Arm ArmSpec ArmPermSpec ArmProofs ArmProofs2 ArmMem PropArmMem ArmFloat ArmFloatSpec ArmFloatProofs ArmFloatProofs2 ArmFloatProofs3.
From Verif Require Import FloatArith FloatArithSpec FloatArithProofs FloatArithProofs2 FloatArithProofs6 ScalarFloat FloatArithProofs7 FloatArithProofs8 FloatArithProofs9 PropFloatArith X86FloatArith ArmFloatArith FloatVecSpec FloatVecOps FloatVecProofs FloatVecProofs2.
From Verif Require Import PpcFloat PpcFloatSpec PpcFloatProofs PpcFloatProofs2.
Local Open Scope Z_scope.

Lemma fop_rng o t x y : 0 <= x < 2 ^ fw t -> 0 <= y < 2 ^ fw t -> 0 <= fop o (ff t) x y < 2 ^ fw t.
Proof. intros X Y. rewrite <- ff_width in *. apply fop_is; [apply ff_good|assumption..]. Qed.
Lemma p_arith_maps o e t a b : maps2f Neon128 t (fop o (ff t)) a b (p_arith o e t a b).
Proof. destruct o; [apply (p_2_same e t fadd)|apply (p_2_same e t fsub)|apply (p_2_same e t fmul)|apply (p_2_same e t fdiv)]; [exact (fop_rng Add t)|exact (fop_rng Sub t)|exact (fop_rng Mul t)|exact (fop_rng Div t)]. Qed.
Lemma p_sqrt_maps e t a : mapsf Neon128 t (fsqrt (ff t)) a (p_sqrtf e t a).
Proof. apply (p_1_same e t fsqrt). intros x X. rewrite <- ff_width in *. apply fsqrt_rng; apply ff_good. Qed.
Lemma fone_int t : float_of_int (ff t) 1 = fone (ff t). Proof. destruct t; vm_compute; reflexivity. Qed.
Lemma p_rec_maps e t a : mapsf Neon128 t (fdiv (ff t) (fone (ff t))) a (p_recf e t a).
Proof.
  assert (R : forall x, 0 <= x < 2 ^ fw t -> 0 <= fdiv (ff t) (fone (ff t)) x < 2 ^ fw t) by (intros x X; rewrite <- ff_width in *; apply inverse_ok; [apply ff_good|exact X]).
  unfold p_recf. destruct (pair64f e t) eqn:P.
  - apply pair_inv in P as [_ ->]. destruct (each64_ok (fun i => fdiv binary64 (fone binary64) (lane 64 i a))) as [S L]. split; [exact S|]. intros i Hi. change (fw F64) with 64 in *. rewrite L by exact Hi.
    apply Z.mod_small. apply (R (lane 64 i a)). apply lane_range. lia.
  - assert (O : 0 <= float_of_int (ff t) 1 < 2 ^ fw t) by (apply small_float; lia).
    destruct (v_2_maps Neon128 t (fdiv (ff t)) (vec_splats (fw t) (float_of_int (ff t) 1)) a eq_refl (fop_rng Div t)) as [S L]. split; [exact S|]. intros i Hi. unfold vec_2. unfold v_2 in L. rewrite L by exact Hi.
    rewrite lane_splats; [|apply okf|exact Hi]. rewrite Z.mod_small by exact O. rewrite fone_int. reflexivity.
Qed.

(** ** Multiply and add *)
Lemma fopp_even f b : good_fmt f -> Z.even (fopp f b) = Z.even b.
Proof.
  intros G. assert (E : Z.even (2 ^ (ebits f + mbits f)) = true) by (destruct G as [->|[->| ->]]; vm_compute; reflexivity).
  unfold fopp. destruct (sign_of f b); [rewrite Z.even_sub, E|rewrite Z.even_add, E]; destruct (Z.even b); reflexivity.
Qed.
Lemma neg_num_value f q : good_fmt f -> 0 <= q < 2 ^ width f -> decode f (neg_num f q) = minus (decode f q) /\ 0 <= neg_num f q < 2 ^ width f /\ Z.even (neg_num f q) = Z.even q.
Proof.
  intros G Q. unfold neg_num. destruct (fopp_opp f q G Q) as [D R]. pose proof (fopp_even f q G) as E. destruct (decode f q) eqn:V; [split; [rewrite V; reflexivity|split; [exact Q|reflexivity]]|..]; (split; [exact D|split; [exact R|exact E]]).
Qed.
Lemma mirror_rounded f neg c q : good_fmt f -> correctly_rounded f neg c q -> correctly_rounded f (negb neg) c (neg_num f q).
Proof.
  intros G (Q & S & m & M & H). destruct (neg_num_value f q G Q) as (D & R & E). split; [exact R|]. rewrite D. split; [destruct (decode f q); cbn in *; congruence || contradiction|].
  exists m. split; [destruct (decode f q); exact M|]. rewrite E. exact H.
Qed.
Lemma mirror_sum f s x q : good_fmt f -> 0 <= q < 2 ^ width f -> sum_is f (FInf s) x q -> sum_is f (FInf (negb s)) (minus x) (neg_num f q).
Proof.
  intros G Q. destruct (neg_num_value f q G Q) as (D & _). unfold sum_is, is_nan, infinite. destruct x as [|s'|s' m]; cbn [minus]; rewrite D.
  - intros ->. reflexivity.
  - destruct s, s'; cbn [Bool.eqb negb]; intros ->; reflexivity.
  - intros ->. reflexivity.
Qed.
Lemma sval_negb s m : sval (negb s) m = - sval s m. Proof. destruct s; cbn [sval negb]; lia. Qed.
Lemma minus_minus v : minus (minus v) = v. Proof. destruct v as [|s|s m]; cbn [minus]; rewrite ?negb_involutive; reflexivity. Qed.
Lemma mirror_fused f v w x q : good_fmt f -> 0 <= q < 2 ^ width f -> fused_is f v w x q -> fused_negated f (minus v) w (minus x) (neg_num f q).
Proof.
  intros G Q F. destruct (neg_num_value f q G Q) as (D & R & E). unfold fused_negated.
  destruct v as [|s|s m], w as [|s'|s' m'].
  1-3: (split; [intros _; cbn [fused_is minus] in *; unfold is_nan in *; rewrite D, F; reflexivity|intros []]).
  - split; [intros _; cbn [fused_is minus] in *; unfold is_nan in *; rewrite D, F; reflexivity|intros []].
  - split; [intros _|intros []]. cbn [fused_is minus] in *. rewrite <- negb_xorb_l. apply mirror_sum; assumption.
  - split; [intros _|intros []]. cbn [fused_is minus] in *. destruct (m' =? 0); [unfold is_nan in *; rewrite D, F; reflexivity|]. rewrite <- negb_xorb_l. apply mirror_sum; assumption.
  - split; [intros _; cbn [fused_is minus] in *; unfold is_nan in *; rewrite D, F; reflexivity|intros []].
  - split; [intros _|intros []]. cbn [fused_is minus] in *. destruct (m =? 0); [unfold is_nan in *; rewrite D, F; reflexivity|]. rewrite <- negb_xorb_r. apply mirror_sum; assumption.
  - destruct x as [|s''|s'' m'']; cbn [minus].
    + split; [intros _; cbn [fused_is] in *; unfold is_nan in *; rewrite D, F; reflexivity|intros []].
    + split; [intros _; cbn [fused_is] in *; unfold infinite in *; rewrite D, F; reflexivity|intros []].
    + cbn [fused_is cancels] in *. rewrite <- !negb_xorb_l, !sval_negb.
      set (z := sval (xorb s s') (m * m') + sval s'' (m'' * one f)) in *. replace (- sval (xorb s s') (m * m') + - sval s'' (m'' * one f)) with (- z) by (unfold z; lia).
      destruct (Z.eqb_spec z 0) as [Z0|Z0].
      * unfold zero in *. split.
        -- intros N. replace (- z =? 0) with true by lia. rewrite D, F. cbn [minus]. f_equal. destruct (xorb s s'), s''; cbn in *; try reflexivity; exfalso; apply N; split; (lia || discriminate).
        -- intros [_ N]. rewrite D, F. cbn [minus]. f_equal. destruct (xorb s s'), s''; cbn in *; congruence.
      * split; [|intros [C _]; lia]. intros _. replace (- z =? 0) with false by lia. replace (- z <? 0) with (negb (z <? 0)) by lia. rewrite Z.abs_opp. apply mirror_rounded; [exact G|exact F].
Qed.
Definition native_ma (o : muladd) : fmt -> Z -> Z -> Z -> Z := match o with Fma => l_madd | Fms => l_msub | Fnma => l_nmsub | Fnms => l_nmadd end.
Lemma native_ma_is o f x y z : good_fmt f -> 0 <= x < 2 ^ width f -> 0 <= y < 2 ^ width f -> 0 <= z < 2 ^ width f ->
  0 <= native_ma o f x y z < 2 ^ width f /\ muladd_is o f (decode f x) (decode f y) (decode f z) (native_ma o f x y z).
Proof.
  intros G X Y Z. pose proof (ma_is Fma true f x y z G X Y Z) as [R1 F1]. pose proof (ma_is Fms true f x y z G X Y Z) as [R2 F2].
  destruct o; cbn [muladd_is native_ma factor addend].
  - exact (conj R1 F1).
  - exact (conj R2 F2).
  - change (l_nmsub f x y z) with (neg_num f (ma Fms true f x y z)). split; [apply neg_num_value; assumption|]. pose proof (mirror_fused f _ _ _ _ G R2 F2) as M. cbn [factor addend] in M. rewrite minus_minus in M. exact M.
  - change (l_nmadd f x y z) with (neg_num f (ma Fma true f x y z)). split; [apply neg_num_value; assumption|]. exact (mirror_fused f _ _ _ _ G R1 F1).
Qed.
Lemma v_3_same w f a b c : vec_3 w f a b c = v_3 w f a b c. Proof. reflexivity. Qed.
Lemma p_3_maps e t s v a b c : (forall x y z, 0 <= x < 2 ^ fw t -> 0 <= y < 2 ^ fw t -> 0 <= z < 2 ^ fw t -> 0 <= (if pair64f e t then s else v) x y z < 2 ^ fw t) ->
  maps3f Neon128 t (if pair64f e t then s else v) a b c (p_3 e t s v a b c).
Proof.
  unfold p_3. destruct (pair64f e t) eqn:P; intros F; [|exact (v_3_maps Neon128 t v a b c eq_refl F)].
  apply pair_inv in P as [_ ->]. destruct (each64_ok (fun i => s (lane 64 i a) (lane 64 i b) (lane 64 i c))) as [R L]. split; [exact R|]. intros i Hi. change (fw F64) with 64 in *. rewrite L by exact Hi.
  apply Z.mod_small. apply F; apply lane_range; lia.
Qed.
Lemma p_muladd_shape o c99 e t a b c : p_muladd o c99 e t a b c = p_3 e t (ma o c99 binary64) (native_ma o (ff t)) a b c.
Proof. destruct o; reflexivity. Qed.
Lemma p_muladd_maps o c99 e t a b c : maps3f Neon128 t (if pair64f e t then ma o c99 binary64 else native_ma o (ff t)) a b c (p_muladd o c99 e t a b c).
Proof.
  rewrite p_muladd_shape. apply p_3_maps. intros x y z X Y Z. destruct (pair64f e t) eqn:P.
  - apply pair_inv in P as [_ ->]. apply (ma_is o c99 binary64); [right; left; reflexivity|assumption..].
  - rewrite <- ff_width in *. apply native_ma_is; [apply ff_good|assumption..].
Qed.
Lemma map3_16_ok (f g : Z -> Z -> Z -> Z) v w u : (forall a b c, maps3f Neon128 F32 f a b c (g a b c)) ->
  fvector16 (on_halves3 g v w u) (fun i x => x = f (apattern16 v i) (apattern16 w i) (apattern16 u i)).
Proof.
  intros M. apply pv16; (split; [apply M|]); intros i Hi; rewrite fpat_lane; rewrite (proj2 (M _ _ _)) by exact Hi; change (128 / fw F32) with 4 in Hi;
    [rewrite !apat_lo by lia|rewrite !apat_hi by lia]; rewrite !fpat_lane; reflexivity.
Qed.
