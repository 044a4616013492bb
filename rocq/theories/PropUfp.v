(** Property C06: ufp (src/ufp.cpp). *)
From Coq Require Import ZArith Lia Bool.
From Verif Require Import CInt FloatSpec Ufp UfpSpec UfpProofs.
Open Scope Z_scope.

(** Statements for any format with a significand of at most 60 stored bits;
    nsimd instantiates them at binary16, binary32 and binary64. *)
Definition ufp_of (f : fmt) (a b : Z) : option Z := ufp (ebits f) (mbits f) a b.

Theorem C06_instances : ufp_of binary16 = ufp_f16 /\ ufp_of binary32 = ufp_f32 /\ ufp_of binary64 = ufp_f64.
Proof. repeat split. Qed.
Print Assumptions C06_instances.

Lemma sup f : supported f -> 1 <= mbits f <= 60 /\ 1 <= ebits f.
Proof. intros [->|[->| ->]]; cbn; lia. Qed.

(** Exact value. *)
Theorem C06_ufp_comparable : forall f a b, supported f -> comparable f a b ->
  ufp_of f a b = Some (mbits f + 1 - bitlen (scaled_gap f a b)).
Proof.
  intros f a b [HM HE]%sup Hc. unfold ufp_of. rewrite ufp_value by assumption.
  unfold comparable in Hc. destruct (Z.abs (exp_of f a - exp_of f b) <=? 1) eqn:E; [reflexivity|].
  apply Z.leb_gt in E. lia.
Qed.
Print Assumptions C06_ufp_comparable.

Theorem C06_ufp_far : forall f a b, supported f -> ~ comparable f a b -> ufp_of f a b = Some 0.
Proof.
  intros f a b [HM HE]%sup Hc. unfold ufp_of. rewrite ufp_value by assumption.
  unfold comparable in Hc. destruct (Z.abs (exp_of f a - exp_of f b) <=? 1) eqn:E; [|reflexivity].
  apply Z.leb_le in E. lia.
Qed.
Print Assumptions C06_ufp_far.

(** For normal numbers the scaled gap is the difference of the magnitudes in
    units of the last place of the smaller one. *)
Theorem C06_gap_is_distance : forall f a b, supported f ->
  1 <= exp_of f a -> 1 <= exp_of f b -> comparable f a b ->
  scaled_gap f a b * 2 ^ (Z.min (exp_of f a) (exp_of f b) - 1)
  = Z.abs (magnitude f (exp_of f a) (man_of f a) - magnitude f (exp_of f b) (man_of f b)).
Proof. intros f a b [HM HE]%sup. apply ufp_normal; assumption. Qed.
Print Assumptions C06_gap_is_distance.

Theorem C06_ufp_symmetric : forall f a b, supported f -> ufp_of f a b = ufp_of f b a.
Proof. intros f a b [HM HE]%sup. apply ufp_sym; assumption. Qed.
Print Assumptions C06_ufp_symmetric.

Theorem C06_ufp_ignores_sign : forall f a b a' b', supported f ->
  strip_sign f a = strip_sign f a' -> strip_sign f b = strip_sign f b' -> ufp_of f a b = ufp_of f a' b'.
Proof. intros f a b a' b' [HM HE]%sup. apply ufp_sign; assumption. Qed.
Print Assumptions C06_ufp_ignores_sign.

Theorem C06_ufp_bounds : forall f a b, supported f ->
  exists r, ufp_of f a b = Some r /\ -1 <= r <= mbits f + 1.
Proof.
  intros f a b [HM HE]%sup. unfold ufp_of.
  destruct (ufp (ebits f) (mbits f) a b) as [r|] eqn:E.
  - exists r. split; [reflexivity|]. eapply ufp_bounds; eassumption.
  - rewrite ufp_value in E by assumption. discriminate.
Qed.
Print Assumptions C06_ufp_bounds.

Theorem C06_ufp_max_iff_equal : forall f a b, supported f ->
  (ufp_of f a b = Some (mbits f + 1) <-> strip_sign f a = strip_sign f b).
Proof. intros f a b [HM HE]%sup. apply ufp_max; assumption. Qed.
Print Assumptions C06_ufp_max_iff_equal.

(** 1.0 against its successor; 2.0 against its predecessor; -1 is reached. *)
Example C06_ex : comparable binary32 0x3f800000 0x3f800001
  /\ ufp_f32 0x3f800000 0x3f800001 = Some 23
  /\ ufp_f32 0x40000000 0xbfffffff = Some 23
  /\ ufp_f32 0x407fffff 0x3f800000 = Some (-1)
  /\ ufp_f16 0x3c00 0x3c00 = Some 11.
Proof. vm_compute. repeat split; try reflexivity; discriminate. Qed.
