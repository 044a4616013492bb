(** Odd and even functions. *)
Require Import ZArith List Bool Lia.
Require Import Verif.FloatSpec Verif.FloatProofs Verif.FloatArith Verif.FloatArithSpec Verif.RoundEven Verif.X86Cvt Verif.X86CvtSpec Verif.X86CvtProofs4
  Verif.SleefBase Verif.Sleef Verif.SleefSpec Verif.SleefProofs Verif.SleefProofs2 Verif.SleefProofs4.
Local Open Scope Z_scope.

Lemma isnan_neg x : pattern x -> xisnanf (negf x) = xisnanf x.
Proof. intros P. rewrite !isnan_iff, val_neg by assumption. destruct (val x); reflexivity. Qed.
Lemma isinf_neg x : pattern x -> xisinff (negf x) = xisinff x.
Proof. intros P. rewrite !isinf_iff, val_neg by assumption. destruct (val x); reflexivity. Qed.

(** the sign of x given to a function of |x| *)
Lemma odd_shape f g : (forall x, pattern x -> pattern (g x)) -> (forall x, pattern x -> g (negf x) = g x) ->
  (forall x, f x = if xisnanf x then SLEEF_NANf else mulsignf (g x) x) -> odd_function f.
Proof.
  intros G N F x P. rewrite opposite_neg, !F, N, isnan_neg by assumption.
  destruct (xisnanf x); [reflexivity |]. apply mulsign_neg; [apply G |]; exact P.
Qed.
Lemma even_shape f g : (forall x, pattern x -> g (negf x) = g x) -> (forall x, f x = if xisnanf x then SLEEF_NANf else g x) -> even_function f.
Proof. intros N F x P. rewrite opposite_neg, !F, N, isnan_neg by assumption. reflexivity. Qed.

Lemma abs_gt n x c : pattern x -> above n (absolute x) -> (flt (val c) (whole n) = true \/ val c = whole n) -> ltf c (fabsfk x) = true.
Proof. intros P A C. apply (above_gt n); [| exact C]. rewrite <- absolute_fabs by assumption. exact A. Qed.
Lemma above_not_nan n x : above n x -> ~ nan x.
Proof. unfold above, nan. intros A N. rewrite N in A. destruct (whole n) as [| [] |]; discriminate. Qed.
Lemma below_not_nan n x : below n x -> ~ nan x.
Proof. unfold below, nan. intros A N. rewrite N in A. discriminate. Qed.
Lemma abs_nan x : pattern x -> nan (absolute x) <-> nan x.
Proof. intros P. rewrite absolute_fabs by assumption. unfold nan. rewrite val_fabs by assumption. destruct (val x); intuition discriminate. Qed.
Lemma not_nan x : ~ nan x -> xisnanf x = false.
Proof. intros N. rewrite isnan_iff. unfold nan in N. destruct (val x); congruence. Qed.
Lemma yes_nan x : nan x -> xisnanf x = true.
Proof. intros N. rewrite isnan_iff, N. reflexivity. Qed.

(** a positive and a negative number of more than n *)
Lemma above_abs n x : 0 <= n -> pattern x -> above n x -> above n (absolute x) /\ sign_of binary32 x = false.
Proof.
  intros N P A. unfold above in *. rewrite absolute_fabs, val_fabs by assumption. pose proof (val_sign x P) as S.
  assert (0 <= sval (n <? 0) (Z.abs n * 2 ^ 149)) as W.
  { destruct (Z.ltb_spec n 0); [lia |]. cbn [sval]. apply Z.mul_nonneg_nonneg; [lia | discriminate]. }
  destruct (val x) as [| [] | [] m] eqn:E; unfold whole in *; try discriminate; cbn [flt fle] in *.
  - split; [reflexivity | symmetry; exact S].
  - pose proof (val_nonneg _ _ _ E). apply negb_true_iff, Z.leb_gt in A. cbn [sval] in A. lia.
  - split; [exact A | symmetry; exact S].
Qed.
Lemma below_abs n x : 0 <= n -> pattern x -> below (- n) x -> above n (absolute x) /\ sign_of binary32 x = true.
Proof.
  intros N P A. unfold above, below in *. rewrite absolute_fabs, val_fabs by assumption. pose proof (val_sign x P) as S.
  assert (sval (- n <? 0) (Z.abs (- n) * 2 ^ 149) = - (n * 2 ^ 149)) as W.
  { destruct (Z.ltb_spec (- n) 0); cbn [sval]; [rewrite Z.abs_opp, Z.abs_eq by lia; reflexivity |]. replace n with 0 by lia. reflexivity. }
  assert (sval (n <? 0) (Z.abs n * 2 ^ 149) = n * 2 ^ 149) as W'.
  { destruct (Z.ltb_spec n 0); [lia |]. rewrite Z.abs_eq by lia. reflexivity. }
  assert (0 <= n * 2 ^ 149) by (apply Z.mul_nonneg_nonneg; [lia | discriminate]).
  destruct (val x) as [| [] | [] m] eqn:E; unfold whole in *; try discriminate; cbn [flt fle] in *.
  - split; [reflexivity | symmetry; exact S].
  - split; [| symmetry; exact S]. apply negb_true_iff, Z.leb_gt in A. apply negb_true_iff, Z.leb_gt. rewrite W'. rewrite W in A. cbn [sval] in *. lia.
  - pose proof (val_nonneg _ _ _ E). apply negb_true_iff, Z.leb_gt in A. rewrite W in A. cbn [sval] in A. lia.
Qed.
