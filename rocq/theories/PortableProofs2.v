(** Proofs about Portable.v: from the theorems on the registers of a back end to the hypotheses of the induction. *)
From Coq Require Import ZArith Lia List Bool ZifyBool.
From Verif Require Import CInt BitLemmas ScalarOps ScalarSpec ScalarProofs X86Deg234 X86Arith X86ArithSpec PpcSpec Portable PortableSpec PortableProofs.
Open Scope Z_scope.

Definition rep (N : Z) (t : ity) (r : Z) (f : Z -> Z) : Prop := in_reg N r /\ forall i, 0 <= i < N / bits t -> elt t r i = f i.
Definition okvec (N : Z) (t : ity) (res : option Z) (P : Z -> Z -> Prop) : Prop :=
  exists r, res = Some r /\ in_reg N r /\ forall i, 0 <= i < N / bits t -> P i (elt t r i).

Definition bitop (t : ity) (g : bool -> bool -> bool) (x y v : Z) : Prop := in_ty t v /\ forall k, 0 <= k < bits t -> Z.testbit v k = g (Z.testbit x k) (Z.testbit y k).
Definition val1 (t : ity) (o : op1) (x v : Z) : Prop :=
  match o with Neg => wraps_to t (- x) v | Abs => wraps_to t (Z.abs x) v | Notb => bitop t (fun a _ => negb a) x x v end.
Definition def1 (t : ity) (o : op1) (x : Z) : Prop := match o with Neg | Abs => is_signed t = true -> 32 <= bits t -> in_ty t (- x) | Notb => True end.
Definition val2 (t : ity) (o : op2) (x y v : Z) : Prop :=
  match o with
  | Add => wraps_to t (x + y) v | Sub => wraps_to t (x - y) v | Mul => wraps_to t (x * y) v | Div => wraps_to t (Z.quot x y) v
  | Min => v = Z.min x y | Max => v = Z.max x y | Adds => v = clamp t (x + y) | Subs => v = clamp t (x - y)
  | Orb => bitop t orb x y v | Andb => bitop t andb x y v | Xorb => bitop t xorb x y v | Andnotb => bitop t (fun a b => a && negb b) x y v
  end.
Definition def2 (t : ity) (o : op2) (x y : Z) : Prop :=
  match o with
  | Add => is_signed t = true -> 32 <= bits t -> in_ty t (x + y)
  | Sub => is_signed t = true -> 32 <= bits t -> in_ty t (x - y)
  | Mul => is_signed t = true -> 32 <= bits t -> in_ty t (x * y)
  | Div => ~ bad_div t x y
  | Subs => is_signed t = true -> y <> ty_min t
  | _ => True
  end.
Definition val3 (t : ity) (o : op3) (x y z v : Z) : Prop := match o with Muladd neg sub => wraps_to t (p_fma_value neg sub x y z) v end.
Definition def3 (t : ity) (o : op3) (x y z : Z) : Prop :=
  match o with Muladd neg sub => is_signed t = true -> 32 <= bits t ->
    (in_ty t x /\ in_ty t (- x)) /\ (in_ty t (x * y) /\ in_ty t (- (x * y))) /\ (in_ty t (p_fma_value neg sub x y z) /\ in_ty t (- p_fma_value neg sub x y z)) end.
Definition vals (t : ity) (o : shift) (x s v : Z) : Prop :=
  match o with Shl => wraps_to t (x * 2 ^ s) v | Shr => wraps_to t ((x mod 2 ^ bits t) / 2 ^ s) v | Shra => v = x / 2 ^ s end.

Section Bridges.
Variables (N : Z) (t : ity).
Hypothesis Ht : In t int_types.

Lemma elt_in r i : in_ty t (elt t r i). Proof. apply cast_in_ty, Ht. Qed.
Lemma elt_testbit r i k : 0 <= i -> 0 <= k < bits t -> Z.testbit (elt t r i) k = Z.testbit r (bits t * i + k).
Proof.
  intros Hi Hk. pose proof (bits_pos t Ht). unfold elt. rewrite testbit_cast by (exact Ht || exact Hk). rewrite Z.mod_pow2_bits_low by lia. rewrite Z.div_pow2_bits by nia. f_equal. lia.
Qed.
Lemma bitop_unique g x y v v' : bitop t g x y v -> bitop t g x y v' -> v = v'.
Proof. intros (I & B) (I' & B'). apply (in_ty_bits t v v' Ht I I'). intros k Hk. rewrite B, B' by exact Hk. reflexivity. Qed.
Lemma val1_unique o x v v' : val1 t o x v -> val1 t o x v' -> v = v'.
Proof. destruct o; cbn [val1]; intros A B; try (exact (wraps_unique t _ _ _ Ht A B)). exact (bitop_unique _ _ _ _ _ A B). Qed.
Lemma val2_unique o x y v v' : val2 t o x y v -> val2 t o x y v' -> v = v'.
Proof. destruct o; cbn [val2]; intros A B; first [exact (wraps_unique t _ _ _ Ht A B)|exact (bitop_unique _ _ _ _ _ A B)|congruence]. Qed.
Lemma val3_unique o x y z v v' : val3 t o x y z v -> val3 t o x y z v' -> v = v'.
Proof. destruct o; cbn [val3]; intros A B. exact (wraps_unique t _ _ _ Ht A B). Qed.
Lemma vals_unique o x s v v' : vals t o x s v -> vals t o x s v' -> v = v'.
Proof. destruct o; cbn [vals]; intros A B; first [exact (wraps_unique t _ _ _ Ht A B)|congruence]. Qed.

Lemma scalar1_sound o x r : in_ty t x -> scalar1 t o x = Some r -> def1 t o x /\ val1 t o x r.
Proof.
  intros Hx E. destruct o; cbn [scalar1 def1 val1] in *.
  - split; [|exact (s_neg_value t _ _ Ht E)]. intros S W. exact (casted_wide t _ _ W S E).
  - split; [|exact (s_abs_value t _ _ Ht Hx E)]. intros S W. exact (s_abs_wide t _ _ W S Hx E).
  - split; [exact I|]. injection E as <-. unfold bitop. apply (s_opbit_ok t (fun a _ => Z.lnot a) (fun a _ => negb a) x 0 Ht). intros. apply Z.lnot_spec. assumption.
Qed.
Lemma scalar2_sound o x y r : in_ty t x -> in_ty t y -> scalar2 t o x y = Some r -> def2 t o x y /\ val2 t o x y r.
Proof.
  intros Hx Hy E. destruct o; cbn [def2 val2].
  - split; [|exact (s_add_value t _ _ _ Ht E)]. intros S W. exact (casted_wide t _ _ W S E).
  - split; [|exact (s_sub_value t _ _ _ Ht E)]. intros S W. exact (casted_wide t _ _ W S E).
  - split; [|exact (s_mul_value t _ _ _ Ht E)]. intros S W. exact (casted_wide t _ _ W S E).
  - exact (s_div_defined t x y r Ht Hx Hy E).
  - split; [exact I|]. injection E as <-. apply s_min_ok.
  - split; [exact I|]. injection E as <-. apply s_max_ok.
  - split; [exact I|]. cbn [scalar2] in E. rewrite s_adds_ok in E by assumption. injection E as <-. reflexivity.
  - apply scalar2_subs in E. destruct E as (M & E). split; [exact M|]. rewrite s_subs_ok in E by assumption. injection E as <-. reflexivity.
  - split; [exact I|]. injection E as <-. apply (s_opbit_ok t Z.lor orb x y Ht). intros; apply Z.lor_spec.
  - split; [exact I|]. injection E as <-. apply (s_opbit_ok t Z.land andb x y Ht). intros; apply Z.land_spec.
  - split; [exact I|]. injection E as <-. apply (s_opbit_ok t Z.lxor xorb x y Ht). intros; apply Z.lxor_spec.
  - split; [exact I|]. injection E as <-. apply (s_opbit_ok t (fun a b => Z.land a (Z.lnot b)) (fun a b => a && negb b) x y Ht). intros. rewrite Z.land_spec, Z.lnot_spec by assumption. reflexivity.
Qed.
Lemma scalar3_sound o x y z r : scalar3 t o x y z = Some r -> def3 t o x y z /\ val3 t o x y z r.
Proof. destruct o as [neg sub]. intros E. split; [|exact (scalar3_value t neg sub x y z r Ht E)]. intros S W. exact (scalar3_opposites t neg sub x y z r S W E). Qed.

Lemma bridge res f (P : Z -> Z -> Prop) g : okvec N t res P -> (forall i, 0 <= i < N / bits t -> forall v, P i v -> v = g i) -> (f = g) -> exists r, res = Some r /\ rep N t r f.
Proof. intros (r & R & I & Q) U ->. exists r. split; [exact R|]. split; [exact I|]. intros i Hi. exact (U i Hi _ (Q i Hi)). Qed.
Lemma bridge1 res o f g a : rep N t a f -> (forall i, 0 <= i < N / bits t -> scalar1 t o (f i) = Some (g i)) ->
  ((forall i, 0 <= i < N / bits t -> def1 t o (elt t a i)) -> okvec N t res (fun i => val1 t o (elt t a i))) -> exists r, res = Some r /\ rep N t r g.
Proof.
  intros (Ra & Fa) S K. assert (forall i, 0 <= i < N / bits t -> def1 t o (elt t a i) /\ val1 t o (elt t a i) (g i)) as H.
  { intros i Hi. apply scalar1_sound; [apply elt_in|]. rewrite Fa by exact Hi. exact (S i Hi). }
  refine (bridge res g _ g (K (fun i Hi => proj1 (H i Hi))) _ eq_refl). intros i Hi v W. exact (val1_unique _ _ _ _ W (proj2 (H i Hi))).
Qed.
Lemma bridge2 res o f f' g a b : rep N t a f -> rep N t b f' -> (forall i, 0 <= i < N / bits t -> scalar2 t o (f i) (f' i) = Some (g i)) ->
  ((forall i, 0 <= i < N / bits t -> def2 t o (elt t a i) (elt t b i)) -> okvec N t res (fun i => val2 t o (elt t a i) (elt t b i))) -> exists r, res = Some r /\ rep N t r g.
Proof.
  intros (Ra & Fa) (Rb & Fb) S K. assert (forall i, 0 <= i < N / bits t -> def2 t o (elt t a i) (elt t b i) /\ val2 t o (elt t a i) (elt t b i) (g i)) as H.
  { intros i Hi. apply scalar2_sound; [apply elt_in|apply elt_in|]. rewrite Fa, Fb by exact Hi. exact (S i Hi). }
  refine (bridge res g _ g (K (fun i Hi => proj1 (H i Hi))) _ eq_refl). intros i Hi v W. exact (val2_unique _ _ _ _ _ W (proj2 (H i Hi))).
Qed.
Lemma bridge3 res o f f' f'' g a b c : rep N t a f -> rep N t b f' -> rep N t c f'' -> (forall i, 0 <= i < N / bits t -> scalar3 t o (f i) (f' i) (f'' i) = Some (g i)) ->
  ((forall i, 0 <= i < N / bits t -> def3 t o (elt t a i) (elt t b i) (elt t c i)) -> okvec N t res (fun i => val3 t o (elt t a i) (elt t b i) (elt t c i))) -> exists r, res = Some r /\ rep N t r g.
Proof.
  intros (Ra & Fa) (Rb & Fb) (Rc & Fc) S K. assert (forall i, 0 <= i < N / bits t -> def3 t o (elt t a i) (elt t b i) (elt t c i) /\ val3 t o (elt t a i) (elt t b i) (elt t c i) (g i)) as H.
  { intros i Hi. apply scalar3_sound. rewrite Fa, Fb, Fc by exact Hi. exact (S i Hi). }
  refine (bridge res g _ g (K (fun i Hi => proj1 (H i Hi))) _ eq_refl). intros i Hi v W. exact (val3_unique _ _ _ _ _ _ W (proj2 (H i Hi))).
Qed.
Lemma bridges res o f g a s : 0 < N / bits t -> rep N t a f -> (forall i, 0 <= i < N / bits t -> scalar_shift t o (f i) s = Some (g i)) ->
  (0 <= s < bits t -> (o = Shra -> is_signed t = true) -> okvec N t res (fun i => vals t o (elt t a i) s)) -> exists r, res = Some r /\ rep N t r g.
Proof.
  intros Hn (Ra & Fa) S K.
  assert (forall i, 0 <= i < N / bits t -> (o = Shra -> is_signed t = true) /\ vals t o (elt t a i) s (g i)) as H.
  { intros i Hi. rewrite Fa by exact Hi. assert (in_ty t (f i)) as I by (rewrite <- (Fa i Hi); apply elt_in).
    pose proof (scalar_shift_value t o _ s _ Ht I (S i Hi)) as W. destruct o; cbn [vals]; [split; [discriminate|exact W]..|]. destruct W as (G & W). auto. }
  pose proof (scalar_shift_inv _ _ _ _ _ (S 0 ltac:(lia))) as B.
  refine (bridge res g _ g (K B (proj1 (H 0 ltac:(lia)))) _ eq_refl). intros i Hi v W. exact (vals_unique _ _ _ _ _ W (proj2 (H i Hi))).
Qed.
(** a bitwise register operator is bitwise on the elements *)
Lemma lanes_bits i k : 0 < bits t -> 0 <= i < N / bits t -> 0 <= k < bits t -> 0 <= bits t * i + k < N.
Proof. intros P Hi Hk. pose proof (Z.mul_div_le N (bits t) P). nia. Qed.
Lemma bitwise_reg r g a b : in_reg N r -> (forall k, 0 <= k < N -> Z.testbit r k = g (Z.testbit a k) (Z.testbit b k)) ->
  okvec N t (Some r) (fun i => bitop t g (elt t a i) (elt t b i)).
Proof.
  intros I B. pose proof (bits_pos t Ht). exists r. split; [reflexivity|]. split; [exact I|]. intros i Hi. split; [apply elt_in|]. intros k Hk.
  rewrite !elt_testbit by lia. apply B. apply lanes_bits; lia.
Qed.
End Bridges.
Lemma mask_value t c : In t int_types -> s_to_mask t c = if c then cast t (-1) else 0.
Proof. intros H. cbn in H. decompose [or] H; subst; try tauto; destruct c; reflexivity. Qed.
Lemma in_ty_cast_0 t : In t int_types -> in_ty t 0.
Proof. intros H. cbn in H. decompose [or] H; subst; try tauto; unfold in_ty; cbn; lia. Qed.
