(** Lanes of the arithmetic operators on ARM vectors. *)
From Coq Require Import ZArith Bool Lia ZifyBool List.
From Verif Require Import CInt FloatSpec Fp16 Fp16Spec Fp16Proofs ScalarOps RoundEven X86Deg234 X86Arith X86ArithSpec X86LaneLemmas X86Mem X86MemSpec X86Cvt X86CvtSpec FloatProofs X86CvtProofs2 X86CvtProofs4 X86Float X86FloatSpec X86FloatProofs2.
From Verif Require Import Arm ArmSpec ArmPermSpec ArmProofs ArmProofs2 ArmFloat ArmFloatSpec ArmFloatProofs ArmFloatProofs2 ArmFloatProofs3.
From Verif Require Import FloatArith FloatArithSpec FloatArithProofs FloatArithProofs2 FloatArithProofs6 ScalarFloat FloatArithProofs7 FloatArithProofs8 FloatArithProofs9 X86FloatArith ArmFloatArith FloatVecSpec FloatVecOps FloatVecProofs.
Local Open Scope Z_scope.

Lemma product_comm f v w r : product_is f v w r -> product_is f w v r.
Proof.
  destruct v as [|s|s m], w as [|s'|s' m']; cbn [product_is]; try exact (fun H => H); rewrite (xorb_comm s' s), ?(Z.mul_comm m' m); exact (fun H => H).
Qed.
Lemma sum_comm f v w r : sum_is f v w r -> sum_is f w v r.
Proof.
  destruct v as [|s|s m], w as [|s'|s' m']; cbn [sum_is]; try exact (fun H => H).
  - destruct s, s'; exact (fun H => H).
  - rewrite (Z.add_comm (sval s' m')), (andb_comm s'). exact (fun H => H).
Qed.
Lemma fopp_even f r : good_fmt f -> Z.even (fopp f r) = Z.even r.
Proof.
  intros G. assert (E : exists k, 2 ^ (ebits f + mbits f) = 2 * k).
  { exists (2 ^ (ebits f + mbits f - 1)). rewrite <- Z.pow_succ_r by (destruct G as [->|[->| ->]]; cbn; lia). f_equal. lia. }
  destruct E as (k & E). unfold fopp. rewrite E. destruct (sign_of f r); [rewrite Z.even_sub|rewrite Z.even_add]; rewrite Z.even_mul; change (Z.even 2) with true; cbn [orb]; destruct (Z.even r); reflexivity.
Qed.
Lemma size_minus f v : size f (minus v) = size f v. Proof. destruct v; reflexivity. Qed.
Lemma rounded_minus f s c r : good_fmt f -> correctly_rounded f s c r -> correctly_rounded f (negb s) c (fopp f r).
Proof.
  intros G (R & S & m & Sm & A). destruct (fopp_minus f r G R) as (D & R'). split; [exact R'|]. rewrite D. split.
  - destruct (decode f r); cbn [signed minus] in *; [exact S|congruence|congruence].
  - exists m. rewrite size_minus, fopp_even by exact G. split; [exact Sm|exact A].
Qed.
Lemma product_minus f v w r : good_fmt f -> 0 <= r < 2 ^ width f -> product_is f v w r -> product_is f (minus v) w (fopp f r).
Proof.
  intros G R. destruct (fopp_minus f r G R) as (D & _).
  assert (N : is_nan f r -> is_nan f (fopp f r)). { unfold is_nan. rewrite D. intros ->. reflexivity. }
  assert (I : forall s, infinite f s r -> infinite f (negb s) (fopp f r)). { unfold infinite. intros s. rewrite D. intros ->. reflexivity. }
  assert (X : forall s s', xorb (negb s) s' = negb (xorb s s')) by (intros [|] [|]; reflexivity). assert (X' : forall s s', xorb s (negb s') = negb (xorb s s')) by (intros [|] [|]; reflexivity).
  destruct v as [|s|s m], w as [|s'|s' m']; cbn [product_is minus]; try exact N; rewrite ?X, ?X'.
  - apply I.
  - destruct (m' =? 0); [exact N|apply I].
  - destruct (m =? 0); [exact N|apply I].
  - apply rounded_minus. exact G.
Qed.
(** ** Three arguments *)
Definition maps3f (e : aext) (t : fty) (f : Z -> Z -> Z -> Z) (a b c r : Z) : Prop :=
  in_reg (an e) r /\ forall i, 0 <= i < felems e t -> lane (fw t) i r = f (lane (fw t) i a) (lane (fw t) i b) (lane (fw t) i c).
Lemma v_3_maps e t f a b c : is_neon e = true -> (forall x y z, 0 <= x < 2 ^ fw t -> 0 <= y < 2 ^ fw t -> 0 <= z < 2 ^ fw t -> 0 <= f x y z < 2 ^ fw t) -> maps3f e t f a b c (v_3 (fw t) f a b c).
Proof.
  intros E F. unfold v_3. rewrite <- (an_neon e E). pose proof (okw_fa e t) as O. pose proof (fw_pos t). split; [apply in_reg_build; exact O|].
  intros i Hi. rewrite lane_buildn by assumption. apply Z.mod_small, F; apply lane_range; lia.
Qed.
Lemma both3_maps u e t f a b c : (forall x y z, 0 <= x < 2 ^ fw t -> 0 <= y < 2 ^ fw t -> 0 <= z < 2 ^ fw t -> 0 <= f x y z < 2 ^ fw t) -> maps3f e t f a b c (both3 u e (fu t) f a b c).
Proof.
  intros F. destruct e as [| |b' vq]; unfold both3; rewrite ?fu_bits; [apply v_3_maps; [reflexivity|exact F]..|]. pose proof (okw_fa (Sve b' vq) t) as O. pose proof (fw_pos t).
  unfold sv_3_x. split; [apply in_reg_build; exact O|]. intros i Hi. rewrite lane_buildn by assumption.
  rewrite <- (fu_bits t) at 1. rewrite active_true by (apply fu_in || (rewrite fu_bits; exact Hi)). apply Z.mod_small, F; apply lane_range; lia.
Qed.
Lemma map3_16_ok (f : Z -> Z -> Z -> Z) (g : Z -> Z -> Z -> Z) e v w u : is_neon e = true -> (forall a b c, maps3f e F32 f a b c (g a b c)) ->
  fvector16 (on_halves3 g v w u) (fun i x => x = f (apattern16 v i) (apattern16 w i) (apattern16 u i)).
Proof.
  intros E M. apply (vec16_of e); [exact E|..]; (split; [apply M|]); intros i Hi; rewrite fpat_lane; rewrite (proj2 (M _ _ _)) by exact Hi; rewrite neon_felems in Hi by exact E;
    [rewrite !apat_lo by lia|rewrite !apat_hi by lia]; rewrite !fpat_lane; reflexivity.
Qed.

Lemma a_arith_maps u o e t a b : maps2f e t (fop o (ff t)) a b (a_arith o u e t a b).
Proof.
  assert (K : maps2f e t (fop o (ff t)) a b (both2 u e (fu t) (fop o (ff t)) a b)).
  { apply both2_maps. intros x y Hx Hy. rewrite <- ff_width in *. apply fop_is; [apply ff_good|exact Hx|exact Hy]. }
  destruct o; exact K.
Qed.
(** what a lane of sqrt holds *)
Definition asqrt (c99 : bool) (e : aext) (t : fty) (x : Z) : Z :=
  match e, t with Neon128, F32 => libm1_f32 c99 fsqrt x | _, _ => fsqrt (ff t) x end.
Lemma asqrt_is c99 e t x : 0 <= x < 2 ^ fw t -> root_is (ff t) (decode (ff t) x) (asqrt c99 e t x) /\ 0 <= asqrt c99 e t x < 2 ^ fw t.
Proof.
  intros R. assert (K : root_is (ff t) (decode (ff t) x) (fsqrt (ff t) x) /\ 0 <= fsqrt (ff t) x < 2 ^ fw t).
  { rewrite <- ff_width in *. split; [apply fsqrt_is; [apply ff_good|exact R]|apply fsqrt_rng, ff_good]. }
  destruct e, t; try exact K. apply sqrt32_is. exact R.
Qed.
Lemma a_sqrt_maps u c99 e t a : mapsf e t (asqrt c99 e t) a (a_sqrtf u c99 e t a).
Proof.
  assert (K : forall x, 0 <= x < 2 ^ fw t -> 0 <= asqrt c99 e t x < 2 ^ fw t). { intros x Hx. apply asqrt_is, Hx. }
  unfold a_sqrtf, asqrt in *. destruct e, t; try (apply both1_maps; exact K). apply (v_1_maps Neon128 F32); [reflexivity|exact K].
Qed.
Lemma float_one t : float_const t 1 = fone (ff t). Proof. destruct t; vm_compute; reflexivity. Qed.
Lemma fone_fw t : 0 <= fone (ff t) < 2 ^ fw t. Proof. rewrite <- ff_width. apply fone_rng, ff_good. Qed.
Lemma a_over_maps u e t a : mapsf e t (fun x => fdiv (ff t) (fone (ff t)) x) a (a_divf u e t (a_set1f e t (float_const t 1)) a).
Proof.
  rewrite float_one. destruct (a_arith_maps u Div e t (a_set1f e t (fone (ff t))) a) as (H & L). split; [exact H|]. intros i Hi. cbn [a_arith fop] in L. rewrite L by exact Hi.
  rewrite <- (fpat_lane t (a_set1f e t (fone (ff t)))). rewrite (proj2 (a_set1f_ok e t (fone (ff t)) (fone_fw t)) i Hi). reflexivity.
Qed.

(** ** Multiply and add *)
(** the extensions and types with a single rounding; the f16 of AArch64 is apart *)
Definition once (c99 : bool) (e : aext) (t : fty) : bool :=
  match e, t with Neon128, F32 => false | Neon128, F64 => c99 | _, _ => true end.
Definition muladd_ok (o : muladd) (k : bool) (t : fty) (x y z r : Z) : Prop :=
  0 <= r < 2 ^ fw t /\
  if k then fused_is (ff t) (factor o (decode (ff t) x)) (decode (ff t) y) (addend o (decode (ff t) z)) r
  else twice_rounded (ff t) (factor o (decode (ff t) x)) (decode (ff t) y) (addend o (decode (ff t) z)) r.
Lemma fused_swap f v w x r : fused_is f v w x r -> fused_is f w v x r.
Proof.
  destruct v as [|s|s m], w as [|s'|s' m']; cbn [fused_is]; try exact (fun H => H); rewrite (xorb_comm s' s), ?(Z.mul_comm m' m); exact (fun H => H).
Qed.
Lemma mla_ok x y z : 0 <= x < 2 ^ 32 -> 0 <= y < 2 ^ 32 -> 0 <= z < 2 ^ 32 -> muladd_ok Fma false F32 x y z (fadd binary32 z (fmul binary32 y x)).
Proof.
  intros Hx Hy Hz. split; [apply fadd_rng; left; reflexivity|]. exists (fmul binary32 y x). cbn [ff factor addend]. split; [apply fmul_rng; (left; reflexivity) || assumption|].
  split; [apply product_comm, fmul_is; (left; reflexivity) || assumption|]. apply sum_comm, fadd_is. left; reflexivity.
Qed.
Lemma mls_ok x y z : 0 <= x < 2 ^ 32 -> 0 <= y < 2 ^ 32 -> 0 <= z < 2 ^ 32 -> muladd_ok Fnma false F32 x y z (fsub binary32 z (fmul binary32 y x)).
Proof.
  intros Hx Hy Hz. assert (G : good_fmt binary32) by (left; reflexivity). split; [apply fadd_rng; exact G|]. pose proof (fmul_rng binary32 y x G Hy Hx) as R. exists (fopp binary32 (fmul binary32 y x)). cbn [ff factor addend].
  split; [apply fopp_rng; assumption|]. split; [apply product_minus; [exact G|exact R|]; apply product_comm, fmul_is; assumption|]. apply sum_comm. unfold fsub. apply fadd_is. exact G.
Qed.
Lemma ma_ok o k t x y z : 0 <= x < 2 ^ fw t -> 0 <= y < 2 ^ fw t -> 0 <= z < 2 ^ fw t -> muladd_ok o k t x y z (ma o k (ff t) x y z).
Proof. intros Hx Hy Hz. unfold muladd_ok. rewrite <- ff_width in *. apply ma_is; [apply ff_good|assumption..]. Qed.
Lemma fused_shift f v w x r : fused_is f (minus v) w x r -> fused_is f v (minus w) x r.
Proof.
  destruct v as [|s|s m], w as [|s'|s' m']; cbn [fused_is minus]; try exact (fun H => H); destruct s, s'; exact (fun H => H).
Qed.
Lemma fused_ok o t x y z r : 0 <= r < 2 ^ fw t -> fused_is (ff t) (factor o (decode (ff t) y)) (decode (ff t) x) (addend o (decode (ff t) z)) r -> muladd_ok o true t x y z r.
Proof. intros R F. split; [exact R|]. apply fused_swap. destruct o; cbn [factor] in *; try exact F; apply fused_shift; exact F. Qed.

(** A vector whose lanes are [f] of the lanes is one whose lanes satisfy what [f] satisfies. *)
Lemma maps3_all e t f (Q : Z -> Z -> Z -> Z -> Prop) a b c r : maps3f e t f a b c r ->
  (forall x y z, 0 <= x < 2 ^ fw t -> 0 <= y < 2 ^ fw t -> 0 <= z < 2 ^ fw t -> Q x y z (f x y z)) ->
  fvector e t r (fun i p => Q (fpat t a i) (fpat t b i) (fpat t c i) p).
Proof.
  intros (H & L) A. pose proof (fun r i => lane_range (fw t) i r ltac:(pose proof (fw_pos t); lia)) as R. split; [exact H|]. intros i Hi. rewrite !fpat_lane. rewrite L by exact Hi. apply A; apply R.
Qed.
Definition not16 (e : aext) (t : fty) : bool := match e, t with Aarch64, F16 | Neon128, F16 => false | _, _ => true end.
Lemma a_fma_lane u c99 e t a b c : not16 e t = true -> fvector e t (a_fmaf u c99 e t a b c) (fun i r => muladd_ok Fma (once c99 e t) t (fpat t a i) (fpat t b i) (fpat t c i) r).
Proof.
  intros N. assert (K : fvector e t (both3 u e (fu t) (fun z y x => ffma (ff t) y x z) c b a) (fun i r => muladd_ok Fma true t (fpat t a i) (fpat t b i) (fpat t c i) r)).
  { apply (maps3_all e t (fun z y x => ffma (ff t) y x z) (fun z y x r => muladd_ok Fma true t x y z r) c b a).
    - apply both3_maps. intros. rewrite <- ff_width. apply ffma_rng, ff_good.
    - intros z y x Hz Hy Hx. apply fused_ok; [rewrite <- ff_width; apply ffma_rng, ff_good|]. apply ffma_is, ff_good. }
  destruct e, t; try discriminate N; try exact K.
  - apply (maps3_all Neon128 F32 (fun z y x => fadd binary32 z (fmul binary32 y x)) (fun z y x r => muladd_ok Fma false F32 x y z r) c b a).
    + apply v_3_maps; [reflexivity|]. intros. apply (fadd_rng binary32). left; reflexivity.
    + intros z y x Hz Hy Hx. apply mla_ok; assumption.
  - apply (maps3_all Neon128 F64 (fun x y z => fma_std c99 binary64 x y z) (muladd_ok Fma c99 F64) a b c).
    + apply v_3_maps; [reflexivity|]. intros. apply (fma_std_rng c99 binary64). right; left; reflexivity.
    + intros x y z Hx Hy Hz. exact (ma_ok Fma c99 F64 x y z Hx Hy Hz).
Qed.
Lemma a_fnma_lane u c99 e t a b c : not16 e t = true -> fvector e t (a_fnmaf u c99 e t a b c) (fun i r => muladd_ok Fnma (once c99 e t) t (fpat t a i) (fpat t b i) (fpat t c i) r).
Proof.
  intros N. assert (K : fvector e t (both3 u e (fu t) (fun z y x => ffma (ff t) (fopp (ff t) y) x z) c b a) (fun i r => muladd_ok Fnma true t (fpat t a i) (fpat t b i) (fpat t c i) r)).
  { apply (maps3_all e t (fun z y x => ffma (ff t) (fopp (ff t) y) x z) (fun z y x r => muladd_ok Fnma true t x y z r) c b a).
    - apply both3_maps. intros. rewrite <- ff_width. apply ffma_rng, ff_good.
    - intros z y x Hz Hy Hx. apply fused_ok; [rewrite <- ff_width; apply ffma_rng, ff_good|]. cbn [factor addend]. rewrite <- ff_width in Hy. rewrite <- (proj1 (fopp_minus (ff t) y (ff_good t) Hy)). apply ffma_is, ff_good. }
  destruct e, t; try discriminate N; try exact K.
  - apply (maps3_all Neon128 F32 (fun z y x => fsub binary32 z (fmul binary32 y x)) (fun z y x r => muladd_ok Fnma false F32 x y z r) c b a).
    + apply v_3_maps; [reflexivity|]. intros. apply (fadd_rng binary32). left; reflexivity.
    + intros z y x Hz Hy Hx. apply mls_ok; assumption.
  - apply (maps3_all Neon128 F64 (fun x y z => fma_std c99 binary64 (fopp binary64 x) y z) (muladd_ok Fnma c99 F64) a b c).
    + apply v_3_maps; [reflexivity|]. intros. apply (fma_std_rng c99 binary64). right; left; reflexivity.
    + intros x y z Hx Hy Hz. exact (ma_ok Fnma c99 F64 x y z Hx Hy Hz).
Qed.
(** the opposite of the addend *)
Lemma muladd_neg o o' k t x y z r : (o = Fma /\ o' = Fms) \/ (o = Fnma /\ o' = Fnms) -> 0 <= z < 2 ^ fw t -> muladd_ok o k t x y (fopp (ff t) z) r -> muladd_ok o' k t x y z r.
Proof.
  intros O Hz. unfold muladd_ok. rewrite <- ff_width in *. rewrite (proj1 (fopp_minus (ff t) z (ff_good t) Hz)). destruct O as [(-> & ->)|(-> & ->)]; exact (fun H => H).
Qed.
Lemma a_neg_lane u e t c i : 0 <= i < felems e t -> fpat t (a_negf u e t c) i = fopp (ff t) (fpat t c i).
Proof. intros Hi. rewrite !fpat_lane. apply (a_negf_ok u e t c), Hi. Qed.
Lemma fpat_rng t r i : 0 <= fpat t r i < 2 ^ fw t.
Proof. rewrite fpat_lane. apply lane_range. pose proof (fw_pos t). lia. Qed.
Lemma a_muladd_lane u o c99 e t a b c : not16 e t = true -> fvector e t (a_muladd o u c99 e t a b c) (fun i r => muladd_ok o (once c99 e t) t (fpat t a i) (fpat t b i) (fpat t c i) r).
Proof.
  intros N. destruct o; [apply a_fma_lane; exact N| |apply a_fnma_lane; exact N|]; cbn [a_muladd].
  - destruct (is_neon e) eqn:E.
    + replace (a_fmsf u c99 e t a b c) with (a_fmaf u c99 e t a b (a_negf u e t c)) by (destruct e; [reflexivity|reflexivity|discriminate E]).
      destruct (a_fma_lane u c99 e t a b (a_negf u e t c) N) as (H & L). split; [exact H|]. intros i Hi. specialize (L i Hi). rewrite a_neg_lane in L by exact Hi. apply (muladd_neg Fma); [auto|apply fpat_rng|exact L].
    + destruct e; try discriminate E. apply (maps3_all _ t (fun z y x => ffma (ff t) y x (fopp (ff t) z)) (fun z y x r => muladd_ok Fms true t x y z r) c b a).
      * apply both3_maps. intros. rewrite <- ff_width. apply ffma_rng, ff_good.
      * intros z y x Hz Hy Hx. apply (muladd_neg Fma); [auto|exact Hz|]. apply fused_ok; [rewrite <- ff_width; apply ffma_rng, ff_good|]. apply ffma_is, ff_good.
  - destruct (is_neon e) eqn:E.
    + replace (a_fnmsf u c99 e t a b c) with (a_fnmaf u c99 e t a b (a_negf u e t c)) by (destruct e; [reflexivity|reflexivity|discriminate E]).
      destruct (a_fnma_lane u c99 e t a b (a_negf u e t c) N) as (H & L). split; [exact H|]. intros i Hi. specialize (L i Hi). rewrite a_neg_lane in L by exact Hi. apply (muladd_neg Fnma); [auto|apply fpat_rng|exact L].
    + destruct e; try discriminate E. apply (maps3_all _ t (fun z y x => ffma (ff t) (fopp (ff t) y) x (fopp (ff t) z)) (fun z y x r => muladd_ok Fnms true t x y z r) c b a).
      * apply both3_maps. intros. rewrite <- ff_width. apply ffma_rng, ff_good.
      * intros z y x Hz Hy Hx. apply (muladd_neg Fnma); [auto|exact Hz|]. apply fused_ok; [rewrite <- ff_width; apply ffma_rng, ff_good|]. cbn [factor addend]. rewrite <- ff_width in Hy. rewrite <- (proj1 (fopp_minus (ff t) y (ff_good t) Hy)). apply ffma_is, ff_good.
Qed.

(** ** Halves *)
Lemma apat_rng v i : 0 <= i -> 0 <= apattern16 v i < 2 ^ 32.
Proof.
  intros Hi. destruct (Z.ltb_spec i 4). - rewrite apat_lo by lia. exact (fpat_rng F32 (fst v) i).
  - replace i with (i - 4 + 4) by lia. rewrite apat_hi by lia. exact (fpat_rng F32 (snd v) (i - 4)).
Qed.
Section Halves.
Variable e : aext.
Hypothesis N : is_neon e = true.
Lemma a_arith16_lane u o a b : fvector16 (a_arith16 o u e a b) (fun i x => x = fop o binary32 (apattern16 a i) (apattern16 b i)).
Proof.
  replace (a_arith16 o u e a b) with (on_halves2 (a_arith o u e F32) a b) by (destruct o; reflexivity). apply (map2_16_ok _ _ e _ _ N). intros x y. exact (a_arith_maps u o e F32 x y).
Qed.
Lemma a_sqrt16_lane u c99 a : fvector16 (a_sqrt16 u c99 e a) (fun i x => x = asqrt c99 e F32 (apattern16 a i)).
Proof. apply (map16_ok _ _ e _ N). intros x. exact (a_sqrt_maps u c99 e F32 x). Qed.
Lemma a_rec16_lane u a : exists r, a_rec16 u e a = Some r /\ fvector16 r (fun i x => x = fdiv binary32 (fone binary32) (apattern16 a i)).
Proof.
  unfold a_rec16. rewrite set16_1A. cbn [bind]. eexists. split; [reflexivity|]. destruct (a_arith16_lane u Div (a_set1f e F32 1065353216, a_set1f e F32 1065353216) a) as (H & L). split; [exact H|].
  intros i Hi. cbn [a_arith16 fop] in L. rewrite L by exact Hi. f_equal. destruct (Z.ltb_spec i 4).
  - rewrite apat_lo by lia. apply (a_set1f_ok e F32 1065353216); [cbn; lia|]. rewrite neon_felems by exact N. lia.
  - replace i with (i - 4 + 4) by lia. rewrite apat_hi by lia. apply (a_set1f_ok e F32 1065353216); [cbn; lia|]. rewrite neon_felems by exact N. lia.
Qed.
(** fvector on each half *)
Lemma halves3_all g (Q : Z -> Z -> Z -> Z -> Prop) a b c : (forall x y z, fvector e F32 (g x y z) (fun i p => Q (fpat F32 x i) (fpat F32 y i) (fpat F32 z i) p)) ->
  fvector16 (on_halves3 g a b c) (fun i p => Q (apattern16 a i) (apattern16 b i) (apattern16 c i) p).
Proof.
  intros H. apply (vec16_of e); [exact N|..].
  - destruct (H (fst a) (fst b) (fst c)) as (R & L). split; [exact R|]. intros i Hi. specialize (L i Hi). rewrite neon_felems in Hi by exact N. rewrite !apat_lo by lia. exact L.
  - destruct (H (snd a) (snd b) (snd c)) as (R & L). split; [exact R|]. intros i Hi. specialize (L i Hi). rewrite neon_felems in Hi by exact N. rewrite !apat_hi by lia. exact L.
Qed.
Lemma a_neg16_lane u c i : 0 <= i < 8 -> apattern16 (a_neg16 u e c) i = fopp binary32 (apattern16 c i).
Proof. intros Hi. apply (map16_ok (fopp binary32) (a_negf u e F32) e c N); [intros x; exact (a_negf_ok u e F32 x)|exact Hi]. Qed.
Lemma a_muladd16_lane u o c99 a b c : fvector16 (a_muladd16 o u c99 e a b c) (fun i r => muladd_ok o (once c99 e F32) F32 (apattern16 a i) (apattern16 b i) (apattern16 c i) r).
Proof.
  assert (N16 : not16 e F32 = true) by (destruct e; reflexivity).
  assert (K : forall c, fvector16 (a_fma16 u c99 e a b c) (fun i r => muladd_ok Fma (once c99 e F32) F32 (apattern16 a i) (apattern16 b i) (apattern16 c i) r)).
  { intros c'. apply halves3_all. intros x y z. exact (a_fma_lane u c99 e F32 x y z N16). }
  assert (K' : forall c, fvector16 (a_fnma16 u c99 e a b c) (fun i r => muladd_ok Fnma (once c99 e F32) F32 (apattern16 a i) (apattern16 b i) (apattern16 c i) r)).
  { intros c'. apply halves3_all. intros x y z. exact (a_fnma_lane u c99 e F32 x y z N16). }
  destruct o; cbn [a_muladd16]; [apply K| |apply K'|].
  - destruct (K (a_neg16 u e c)) as (H & L). split; [exact H|]. intros i Hi. specialize (L i Hi). rewrite a_neg16_lane in L by exact Hi. apply (muladd_neg Fma); [auto|apply apat_rng; lia|exact L].
  - destruct (K' (a_neg16 u e c)) as (H & L). split; [exact H|]. intros i Hi. specialize (L i Hi). rewrite a_neg16_lane in L by exact Hi. apply (muladd_neg Fnma); [auto|apply apat_rng; lia|exact L].
Qed.
End Halves.

(** Two results of a multiply and add, rounded the same number of times, are the same number. *)
Lemma same_decode2 f r r' : same_number f r r' -> decode f r = decode f r'.
Proof. intros [->|(H & H')]; [reflexivity|]. unfold is_nan in *. congruence. Qed.
Lemma muladd_unique o k t x y z r r' : muladd_ok o k t x y z r -> muladd_ok o k t x y z r' -> same_number (ff t) r r'.
Proof.
  intros (R & A) (R' & A'). rewrite <- ff_width in *. destruct k.
  - eapply fused_unique; [apply ff_good|exact R|exact R'|exact A|exact A'].
  - destruct A as (p & Rp & P & S), A' as (p' & Rp' & P' & S'). pose proof (product_unique (ff t) p p' (ff_good t) Rp Rp' _ _ P P') as U. apply same_decode2 in U. rewrite <- U in S'.
    eapply sum_unique; [apply ff_good|exact R|exact R'|exact S|exact S'].
Qed.
Lemma same_half y y' : 0 <= y < 2 ^ 32 -> 0 <= y' < 2 ^ 32 -> same_number binary32 y y' -> same_number binary16 (f32_to_u16 y) (f32_to_u16 y').
Proof.
  intros R R' [->|(H & H')]; [left; reflexivity|right]. split; apply f32_to_u16_nan_l; assumption.
Qed.
