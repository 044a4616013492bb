From Coq Require Import ZArith Lia Bool List ZifyBool Arith.
From Verif Require Import CInt BitLemmas ScalarOps ScalarSpec ScalarProofs CpuSimd CpuSimdSpec CpuSimdProofs CpuSimdMem CpuSimdLoop Pack PackSpec.
Import ListNotations.
Open Scope Z_scope.

(** *** sequence / func_body and concatenation *)
Lemma sequence_app {A} (l1 l2 : list (option A)) :
  sequence (l1 ++ l2) = bind (sequence l1) (fun a => bind (sequence l2) (fun b => Some (a ++ b))).
Proof.
  induction l1 as [|[x|] l1 IH]; cbn [sequence app]; [|rewrite IH|reflexivity].
  - cbn [bind]. destruct (sequence l2); reflexivity.
  - destruct (sequence l1); cbn [bind]; [|reflexivity]. destruct (sequence l2); reflexivity.
Qed.
Lemma seq_shift_add n : forall k s, seq (n + s) k = map (fun i => (n + i)%nat) (seq s k).
Proof. induction k as [|k IH]; intros s; [reflexivity|]. cbn. f_equal. rewrite <- IH. f_equal. lia. Qed.
Lemma func_body_app n k f :
  func_body (n + k) f = bind (func_body n f) (fun a => bind (func_body k (fun i => f (n + i)%nat)) (fun b => Some (a ++ b))).
Proof.
  rewrite !func_body_seq, seq_app, map_app, sequence_app. cbn [Nat.add].
  replace (map f (seq n k)) with (map (fun i => f (n + i)%nat) (seq 0 k)); [reflexivity|].
  rewrite <- (map_map (fun i => (n + i)%nat) f). rewrite <- seq_shift_add, Nat.add_0_r. reflexivity.
Qed.

Lemma lane_app1 (a b : reg) i n : length a = n -> (i < n)%nat -> lane (a ++ b) i = lane a i.
Proof. intros. unfold lane. apply nth_error_app1. lia. Qed.
Lemma lane_app2 (a b : reg) i n : length a = n -> lane (a ++ b) (n + i) = lane b i.
Proof. intros. unfold lane. rewrite nth_error_app2 by lia. f_equal. lia. Qed.

Lemma flat_P1 c : flat (P1 c) = c. Proof. unfold flat. cbn. apply app_nil_r. Qed.
Lemma flat_PN c d : flat (PN c d) = c ++ flat d. Proof. reflexivity. Qed.
Lemma shape_P1 N len c : shape N len (P1 c) -> N = 1%nat /\ length c = len.
Proof. intros [H F]. cbn in *. split; [lia|]. inversion F. assumption. Qed.
Lemma shape_PN N len c d : shape N len (PN c d) -> exists N', N = S N' /\ length c = len /\ shape N' len d /\ N' <> O.
Proof.
  intros [H F]. cbn in *. destruct N as [|N']; [lia|]. exists N'. inversion F; subst. repeat split; try assumption; try lia.
  destruct d; cbn in *; lia.
Qed.
Lemma shape_S N len p : shape (S (S N)) len p -> exists c d, p = PN c d /\ length c = len /\ shape (S N) len d.
Proof.
  intros H. destruct p as [c|c d]; [apply shape_P1 in H; lia|]. apply shape_PN in H. destruct H as (N' & E & L & S' & _).
  injection E as <-. exists c, d. auto.
Qed.
Lemma shape_1 len p : shape 1 len p -> exists c, p = P1 c /\ length c = len.
Proof.
  intros H. destruct p as [c|c d]; [apply shape_P1 in H; exists c; tauto|]. apply shape_PN in H. destruct H as (N' & E & _ & _ & H). lia.
Qed.
Lemma flat_length N len p : shape N len p -> length (flat p) = (N * len)%nat.
Proof.
  revert N. induction p as [c|c d IH]; intros N H.
  - apply shape_P1 in H. destruct H as [-> <-]. rewrite flat_P1. lia.
  - apply shape_PN in H. destruct H as (N' & -> & L & S' & _). rewrite flat_PN, app_length, (IH _ S'). lia.
Qed.

(** *** Value-returning functions as one long vector.
    [f off i]: lane [i] of the register at lane offset [off]. *)
Lemma adv_v_flat len len_ base (Q : nat -> nat -> list arg -> Prop) (f : nat -> option Z) :
  (forall N off args, Q N off args -> (1 <= N)%nat -> base (map var1 args) = func_body len (fun i => f (off + i)%nat)) ->
  (forall N off args, Q (S N) off args -> (1 <= N)%nat -> exists args', sequence (map (varN len_) args) = Some args' /\ Q N (off + len)%nat args') ->
  forall N off args, (1 <= N)%nat -> Q N off args ->
    option_map flat (adv_v N len_ base args) = func_body (N * len) (fun i => f (off + i)%nat) /\
    (forall r, adv_v N len_ base args = Some r -> shape N len r).
Proof.
  intros Hb Hn. induction N as [|N IH]; intros off args H1 HQ; [lia|].
  destruct N as [|N].
  - cbn [adv_v]. rewrite (Hb _ _ _ HQ) by lia. rewrite Nat.mul_1_l. destruct (func_body len _) as [c|] eqn:E; cbn [bind option_map]; (split; [|intros r Hr]).
    + rewrite flat_P1. reflexivity.
    + injection Hr as <-. split; [reflexivity|]. constructor; [eapply func_body_length; exact E|constructor].
    + reflexivity.
    + discriminate.
  - change (adv_v (S (S N)) len_ base args) with (bind (base (map var1 args)) (fun c => bind (sequence (map (varN len_) args)) (fun args' => bind (adv_v (S N) len_ base args') (fun d => Some (PN c d))))).
    rewrite (Hb _ _ _ HQ) by lia. destruct (Hn _ _ _ HQ ltac:(lia)) as (args' & -> & HQ'). cbn [bind].
    destruct (IH _ _ ltac:(lia) HQ') as [E S'].
    replace (S (S N) * len)%nat with (len + S N * len)%nat by lia. rewrite func_body_app.
    replace (func_body (S N * len) (fun i => f (off + (len + i))%nat)) with (option_map flat (adv_v (S N) len_ base args')) by (rewrite E; apply func_body_ext; intros; f_equal; lia).
    destruct (func_body len _) as [c|] eqn:Ec; cbn [bind option_map]; [|split; [reflexivity|discriminate]].
    destruct (adv_v (S N) len_ base args') as [d|]; cbn [bind option_map]; [|split; [reflexivity|discriminate]].
    split; [rewrite flat_PN; reflexivity|]. intros r Hr. injection Hr as <-. destruct (S' _ eq_refl) as [SL SF].
    split; [cbn; lia|]. cbn. constructor; [eapply func_body_length; exact Ec|exact SF].
Qed.

(** Memory functions: [ws off] the effect of the register at offset [off]. *)
Lemma adv_m_flat len len_ base (Q : nat -> nat -> list arg -> Prop) (ww : nat -> list (Z * option Z)) k :
  (forall N off args m, Q N off args -> (1 <= N)%nat -> base m (map var1 args) = run_writes m (flat_map (fun i => ww (off + i)%nat) (seq 0 k))) ->
  (forall N off args, Q (S N) off args -> (1 <= N)%nat -> exists args', sequence (map (varN len_) args) = Some args' /\ Q N (off + len)%nat args') -> k = len ->
  forall N off args m, (1 <= N)%nat -> Q N off args ->
    adv_m N len_ base m args = run_writes m (flat_map (fun i => ww (off + i)%nat) (seq 0 (N * len))).
Proof.
  intros Hb Hn ->.
  assert (App : forall l1 l2 m1, run_writes m1 (l1 ++ l2) = bind (run_writes m1 l1) (fun m2 => run_writes m2 l2)).
  { induction l1 as [|[a v] l1 I1]; intros l2 m1; [reflexivity|]. cbn [app run_writes]. destruct v as [v|]; [|reflexivity]. destruct (write m1 a v); cbn [bind]; [apply I1|reflexivity]. }
  induction N as [|N IH]; intros off args m H1 HQ; [lia|].
  destruct N as [|N].
  - cbn [adv_m]. rewrite (Hb _ _ _ _ HQ) by lia. rewrite Nat.mul_1_l. reflexivity.
  - change (adv_m (S (S N)) len_ base m args) with (bind (base m (map var1 args)) (fun m' => bind (sequence (map (varN len_) args)) (fun args' => adv_m (S N) len_ base m' args'))).
    rewrite (Hb _ _ _ _ HQ) by lia. destruct (Hn _ _ _ HQ ltac:(lia)) as (args' & -> & HQ'). cbn [bind].
    replace (S (S N) * len)%nat with (len + S N * len)%nat by lia. rewrite seq_app, flat_map_app, App. cbn [Nat.add].
    destruct (run_writes m _) as [m'|]; cbn [bind]; [|reflexivity]. rewrite (IH _ _ _ ltac:(lia) HQ'). f_equal.
    replace (seq len (S N * len)) with (map (fun i => (len + i)%nat) (seq 0 (S N * len))) by (rewrite <- seq_shift_add, Nat.add_0_r; reflexivity).
    rewrite !flat_map_concat_map, map_map. f_equal. apply map_ext. intros i. f_equal. lia.
Qed.

Lemma adv_v_flat0 len len_ base (Q : nat -> nat -> list arg -> Prop) (f : nat -> option Z) N args :
  (1 <= N)%nat ->
  (forall N off args, Q N off args -> (1 <= N)%nat -> base (map var1 args) = func_body len (fun i => f (off + i)%nat)) ->
  (forall N off args, Q (S N) off args -> (1 <= N)%nat -> exists args', sequence (map (varN len_) args) = Some args' /\ Q N (off + len)%nat args') ->
  Q N 0%nat args ->
    option_map flat (adv_v N len_ base args) = func_body (N * len) f /\
    (forall r, adv_v N len_ base args = Some r -> shape N len r).
Proof. intros H1 H2 H3 H4. exact (adv_v_flat len len_ base Q f H2 H3 N 0%nat args H1 H4). Qed.

Lemma adv_m_flat0 len len_ base (Q : nat -> nat -> list arg -> Prop) (ww : nat -> list (Z * option Z)) N args m :
  (1 <= N)%nat ->
  (forall N off args m, Q N off args -> (1 <= N)%nat -> base m (map var1 args) = run_writes m (flat_map (fun i => ww (off + i)%nat) (seq 0 len))) ->
  (forall N off args, Q (S N) off args -> (1 <= N)%nat -> exists args', sequence (map (varN len_) args) = Some args' /\ Q N (off + len)%nat args') ->
  Q N 0%nat args ->
    adv_m N len_ base m args = run_writes m (flat_map ww (seq 0 (N * len))).
Proof. intros H1 H2 H3 H4. exact (adv_m_flat len len_ base Q ww len H2 H3 eq_refl N 0%nat args m H1 H4). Qed.

(** [a] is the part of the long vector [A] starting at lane [off]. *)
Definition tailof (len N off : nat) (A : reg) (a : pack) : Prop :=
  shape N len a /\ forall i, (i < N * len)%nat -> lane (flat a) i = lane A (off + i).
Lemma tail_car len N off A a : tailof len N off A a -> (1 <= N)%nat -> length (pcar a) = len /\ forall i, (i < len)%nat -> lane (pcar a) i = lane A (off + i).
Proof.
  intros [S T] H. destruct a as [c|c d]; cbn [pcar].
  - apply shape_P1 in S. destruct S as [-> L]. split; [exact L|]. intros i Hi. rewrite <- T by lia. rewrite flat_P1. reflexivity.
  - apply shape_PN in S. destruct S as (N' & -> & L & _ & _). split; [exact L|]. intros i Hi. rewrite <- T by lia. rewrite flat_PN, (lane_app1 _ _ _ len) by lia. reflexivity.
Qed.
Lemma tail_cdr len N off A a : tailof len (S N) off A a -> (1 <= N)%nat -> exists d, pcdr a = Some d /\ tailof len N (off + len) A d.
Proof.
  intros [S T] H. destruct N as [|N]; [lia|]. apply shape_S in S. destruct S as (c & d & -> & L & S). exists d. split; [reflexivity|]. split; [exact S|].
  intros i Hi. replace (off + len + i)%nat with (off + (len + i))%nat by lia. rewrite <- T by lia. rewrite flat_PN, (lane_app2 _ _ _ len L). reflexivity.
Qed.
Lemma tail_start len N a : shape N len a -> tailof len N 0 (flat a) a.
Proof. intros H. split; [exact H|reflexivity]. Qed.

Lemma bind_ext {A B} (o : option A) (f g : A -> option B) : (forall x, f x = g x) -> bind o f = bind o g.
Proof. intros H. destruct o; [apply H|reflexivity]. Qed.

Section Inst.
Variables (t : ety) (len : nat).

Lemma pk_un_ok N g a : (1 <= N)%nat -> shape N len a -> one_vec len N (pk_un len N g a) (scalar_impl1 (N * len) g (flat a)).
Proof.
  intros HN Sa. unfold pk_un, one_vec.
  apply (adv_v_flat0 len 0 _ (fun N off args => exists x, args = [APack x] /\ tailof len N off (flat a) x) (fun i => bind (lane (flat a) i) g)); try assumption.
  - intros M off args (x & -> & T) H. cbn [map var1 b1]. apply func_body_ext. intros i Hi. destruct (tail_car _ _ _ _ _ T H) as [_ ->]; [reflexivity|exact Hi].
  - intros M off args (x & -> & T) H. destruct (tail_cdr _ _ _ _ _ T H) as (d & E & T'). eexists. cbn [map varN]. rewrite E. cbn [bind sequence]. split; [reflexivity|]. exists d. auto.
  - exists a. split; [reflexivity|apply tail_start; assumption].
Qed.

Lemma pk_shift_ok N g a s : (1 <= N)%nat -> shape N len a -> one_vec len N (pk_shift len N g a s) (scalar_impl_shift (N * len) g (flat a) s).
Proof.
  intros HN Sa. unfold pk_shift, one_vec.
  apply (adv_v_flat0 len 0 _ (fun N off args => exists x, args = [APack x; AVal s] /\ tailof len N off (flat a) x) (fun i => bind (lane (flat a) i) (fun x => g x s))); try assumption.
  - intros M off args (x & -> & T) H. cbn [map var1 bshift]. apply func_body_ext. intros i Hi. destruct (tail_car _ _ _ _ _ T H) as [_ ->]; [reflexivity|exact Hi].
  - intros M off args (x & -> & T) H. destruct (tail_cdr _ _ _ _ _ T H) as (d & E & T'). eexists. cbn [map varN]. rewrite E. cbn [bind sequence]. split; [reflexivity|]. exists d. auto.
  - exists a. split; [reflexivity|apply tail_start; assumption].
Qed.

Lemma pk_bin_ok N g a b : (1 <= N)%nat -> shape N len a -> shape N len b -> one_vec len N (pk_bin len N g a b) (scalar_impl2 (N * len) g (flat a) (flat b)).
Proof.
  intros HN Sa Sb. unfold pk_bin, one_vec.
  apply (adv_v_flat0 len 0 _ (fun N off args => exists x y, args = [APack x; APack y] /\ tailof len N off (flat a) x /\ tailof len N off (flat b) y) (fun i => bind2 (lane (flat a) i) (lane (flat b) i) g)); try assumption.
  - intros M off args (x & y & -> & T & T2) H. cbn [map var1 b2]. apply func_body_ext. intros i Hi.
    destruct (tail_car _ _ _ _ _ T H) as [_ ->]; [|exact Hi]. destruct (tail_car _ _ _ _ _ T2 H) as [_ ->]; [reflexivity|exact Hi].
  - intros M off args (x & y & -> & T & T2) H. destruct (tail_cdr _ _ _ _ _ T H) as (d & E & T'). destruct (tail_cdr _ _ _ _ _ T2 H) as (d2 & E2 & T2').
    eexists. cbn [map varN]. rewrite E, E2. cbn [bind sequence]. split; [reflexivity|]. exists d, d2. auto.
  - exists a, b. split; [reflexivity|]. split; apply tail_start; assumption.
Qed.

Lemma pk_ter_ok N g a b c : (1 <= N)%nat -> shape N len a -> shape N len b -> shape N len c ->
  one_vec len N (pk_ter len N g a b c) (scalar_impl3 (N * len) g (flat a) (flat b) (flat c)).
Proof.
  intros HN Sa Sb Sc. unfold pk_ter, one_vec.
  apply (adv_v_flat0 len 0 _ (fun N off args => exists x y z, args = [APack x; APack y; APack z] /\ tailof len N off (flat a) x /\ tailof len N off (flat b) y /\ tailof len N off (flat c) z)
    (fun i => bind (lane (flat a) i) (fun x => bind2 (lane (flat b) i) (lane (flat c) i) (g x)))); try assumption.
  - intros M off args (x & y & z & -> & T & T2 & T3) H. cbn [map var1 b3]. apply func_body_ext. intros i Hi.
    destruct (tail_car _ _ _ _ _ T H) as [_ ->]; [|exact Hi]. destruct (tail_car _ _ _ _ _ T2 H) as [_ ->]; [|exact Hi]. destruct (tail_car _ _ _ _ _ T3 H) as [_ ->]; [reflexivity|exact Hi].
  - intros M off args (x & y & z & -> & T & T2 & T3) H. destruct (tail_cdr _ _ _ _ _ T H) as (d & E & T'). destruct (tail_cdr _ _ _ _ _ T2 H) as (d2 & E2 & T2'). destruct (tail_cdr _ _ _ _ _ T3 H) as (d3 & E3 & T3').
    eexists. cbn [map varN]. rewrite E, E2, E3. cbn [bind sequence]. split; [reflexivity|]. exists d, d2, d3. auto.
  - exists a, b, c. split; [reflexivity|]. split; [|split]; apply tail_start; assumption.
Qed.

Lemma pk_set1_ok N x : (1 <= N)%nat -> one_vec len N (pk_set1 t len N x) (set1 t (N * len) x).
Proof.
  intros HN. unfold pk_set1, one_vec.
  apply (adv_v_flat0 len 0 _ (fun N off args => args = [AVal x]) (fun i => lane_in t x)); try assumption.
  - intros M off args -> H. reflexivity.
  - intros M off args -> H. eexists. split; reflexivity.
  - reflexivity.
Qed.

Lemma pk_load_ok N m p : (1 <= N)%nat -> one_vec len N (pk_load t len N m p) (load t (N * len) m p).
Proof.
  intros HN. unfold pk_load, one_vec.
  apply (adv_v_flat0 len _ _ (fun N off args => args = [APtr (p + Z.of_nat off)]) (fun i => bind (read m (p + Z.of_nat i)) (lane_in t))); try assumption.
  - intros M off args -> H. cbn [map var1]. apply func_body_ext. intros i Hi. f_equal. f_equal. lia.
  - intros M off args -> H. eexists. split; [reflexivity|]. f_equal. f_equal. lia.
  - f_equal. f_equal. lia.
Qed.

Lemma pk_loadl_ok N m p : (1 <= N)%nat -> one_vec len N (pk_loadl t len N m p) (loadl t (N * len) m p).
Proof.
  intros HN. unfold pk_loadl, one_vec.
  apply (adv_v_flat0 len _ _ (fun N off args => args = [APtr (p + Z.of_nat off)]) (fun i => bind (bind (read m (p + Z.of_nat i)) (lane_in t)) (fun x => Some (cast u32 (if is_zero t x then 0 else -1))))); try assumption.
  - intros M off args -> H. cbn [map var1]. apply func_body_ext. intros i Hi. f_equal. f_equal. f_equal. lia.
  - intros M off args -> H. eexists. split; [reflexivity|]. f_equal. f_equal. lia.
  - f_equal. f_equal. lia.
Qed.

Lemma pk_maskz_load_ok N m l p : (1 <= N)%nat -> shape N len l -> one_vec len N (pk_maskz_load t len N m l p) (maskz_load t (N * len) m (flat l) p).
Proof.
  intros HN Sl. unfold pk_maskz_load, one_vec.
  apply (adv_v_flat0 len _ _ (fun N off args => exists x, args = [APack x; APtr (p + Z.of_nat off)] /\ tailof len N off (flat l) x)
    (fun i => bind (lane (flat l) i) (fun c => if negb (c =? 0) then bind (read m (p + Z.of_nat i)) (lane_in t) else Some 0))); try assumption.
  - intros M off args (x & -> & T) H. cbn [map var1]. apply func_body_ext. intros i Hi. destruct (tail_car _ _ _ _ _ T H) as [_ ->]; [|exact Hi].
    apply bind_ext. intros c. destruct (negb (c =? 0)); [|reflexivity]. f_equal. f_equal. lia.
  - intros M off args (x & -> & T) H. destruct (tail_cdr _ _ _ _ _ T H) as (d & E & T'). eexists. cbn [map varN]. rewrite E. cbn [bind sequence]. split; [reflexivity|]. exists d. split; [|exact T']. f_equal. f_equal. f_equal. lia.
  - exists l. split; [f_equal; f_equal; f_equal; lia|apply tail_start; assumption].
Qed.

Lemma pk_masko_load_ok N m l p o : (1 <= N)%nat -> shape N len l -> shape N len o -> one_vec len N (pk_masko_load t len N m l p o) (masko_load t (N * len) m (flat l) p (flat o)).
Proof.
  intros HN Sl So. unfold pk_masko_load, one_vec.
  apply (adv_v_flat0 len _ _ (fun N off args => exists x y, args = [APack x; APtr (p + Z.of_nat off); APack y] /\ tailof len N off (flat l) x /\ tailof len N off (flat o) y)
    (fun i => bind (lane (flat l) i) (fun c => if negb (c =? 0) then bind (read m (p + Z.of_nat i)) (lane_in t) else lane (flat o) i))); try assumption.
  - intros M off args (x & y & -> & T & T2) H. cbn [map var1]. apply func_body_ext. intros i Hi. destruct (tail_car _ _ _ _ _ T H) as [_ ->]; [|exact Hi].
    destruct (tail_car _ _ _ _ _ T2 H) as [_ ->]; [|exact Hi].
    apply bind_ext. intros c. destruct (negb (c =? 0)); [|reflexivity]. f_equal. f_equal. lia.
  - intros M off args (x & y & -> & T & T2) H. destruct (tail_cdr _ _ _ _ _ T H) as (d & E & T'). destruct (tail_cdr _ _ _ _ _ T2 H) as (d2 & E2 & T2').
    eexists. cbn [map varN]. rewrite E, E2. cbn [bind sequence]. split; [reflexivity|]. exists d, d2. split; [|auto]. f_equal. f_equal. f_equal. lia.
  - exists l, o. split; [f_equal; f_equal; f_equal; lia|split; apply tail_start; assumption].
Qed.

Lemma map_flat {A B} (f : A -> B) l : map f l = flat_map (fun i => [f i]) l.
Proof. induction l as [|x l IH]; [reflexivity|]. cbn [map flat_map app]. rewrite IH. reflexivity. Qed.

Lemma pk_store_ok N m p a : (1 <= N)%nat -> shape N len a -> pk_store t len N m p a = store t (N * len) m p (flat a).
Proof.
  intros HN Sa. unfold pk_store, store. rewrite map_flat.
  apply (adv_m_flat0 len _ _ (fun N off args => exists x, args = [APtr (p + Z.of_nat off); APack x] /\ tailof len N off (flat a) x)
    (fun i => [(p + Z.of_nat i, bind (lane (flat a) i) (fun x => Some (lane_out t x)))])); try assumption.
  - intros M off args m' (x & -> & T) H. cbn [map var1]. unfold store. f_equal. rewrite map_flat, !flat_map_concat_map. f_equal. apply map_ext_in. intros i Hi. apply in_seq in Hi.
    destruct (tail_car _ _ _ _ _ T H) as [_ ->]; [|lia]. replace (p + Z.of_nat off + Z.of_nat i) with (p + Z.of_nat (off + i)) by lia. reflexivity.
  - intros M off args (x & -> & T) H. destruct (tail_cdr _ _ _ _ _ T H) as (d & E & T'). eexists. cbn [map varN]. rewrite E. cbn [bind sequence]. split; [reflexivity|]. exists d. split; [|exact T']. f_equal. f_equal. lia.
  - exists a. split; [f_equal; f_equal; lia|apply tail_start; assumption].
Qed.

Lemma pk_storel_ok N m p a : (1 <= N)%nat -> shape N len a -> pk_storel t len N m p a = storel t (N * len) m p (flat a).
Proof.
  intros HN Sa. unfold pk_storel, storel. rewrite map_flat.
  apply (adv_m_flat0 len _ _ (fun N off args => exists x, args = [APtr (p + Z.of_nat off); APack x] /\ tailof len N off (flat a) x)
    (fun i => [(p + Z.of_nat i, bind (lane (flat a) i) (fun x => Some (if x =? 0 then 0 else one_of t)))])); try assumption.
  - intros M off args m' (x & -> & T) H. cbn [map var1]. unfold storel. f_equal. rewrite map_flat, !flat_map_concat_map. f_equal. apply map_ext_in. intros i Hi. apply in_seq in Hi.
    destruct (tail_car _ _ _ _ _ T H) as [_ ->]; [|lia]. replace (p + Z.of_nat off + Z.of_nat i) with (p + Z.of_nat (off + i)) by lia. reflexivity.
  - intros M off args (x & -> & T) H. destruct (tail_cdr _ _ _ _ _ T H) as (d & E & T'). eexists. cbn [map varN]. rewrite E. cbn [bind sequence]. split; [reflexivity|]. exists d. split; [|exact T']. f_equal. f_equal. lia.
  - exists a. split; [f_equal; f_equal; lia|apply tail_start; assumption].
Qed.

Lemma mask_store_writes l p a : forall is m, (forall i, In i is -> (i < length l)%nat /\ (i < length a)%nat) ->
  mask_store_from t is m l p a = run_writes m (flat_map (fun i => if nth i l 0 =? 0 then [] else [(p + Z.of_nat i, Some (lane_out t (nth i a 0)))]) is).
Proof.
  induction is as [|i is IH]; intros m H; [reflexivity|]. cbn [mask_store_from flat_map].
  destruct (H i (or_introl eq_refl)) as [H1 H2]. rewrite !nth_lane by assumption. cbn [bind].
  destruct (nth i l 0 =? 0); cbn [negb app run_writes]; [apply IH; intros; apply H; right; assumption|].
  destruct (write m _ _); cbn [bind]; [apply IH; intros; apply H; right; assumption|reflexivity].
Qed.

Lemma pk_mask_store_ok N m l p a : (1 <= N)%nat -> shape N len l -> shape N len a -> pk_mask_store t len N m l p a = mask_store t (N * len) m (flat l) p (flat a).
Proof.
  intros HN Sl Sa. unfold pk_mask_store, mask_store.
  rewrite mask_store_writes by (intros i Hi; apply in_seq in Hi; rewrite (flat_length _ _ _ Sl), (flat_length _ _ _ Sa); lia).
  apply (adv_m_flat0 len _ _ (fun N off args => exists x y, args = [APack x; APtr (p + Z.of_nat off); APack y] /\ tailof len N off (flat l) x /\ tailof len N off (flat a) y)
    (fun i => if nth i (flat l) 0 =? 0 then [] else [(p + Z.of_nat i, Some (lane_out t (nth i (flat a) 0)))])); try assumption.
  - intros M off args m' (x & y & -> & T & T2) H. cbn [map var1]. destruct (tail_car _ _ _ _ _ T H) as [Lx Nx]. destruct (tail_car _ _ _ _ _ T2 H) as [Ly Ny].
    unfold mask_store. rewrite mask_store_writes by (intros i Hi; apply in_seq in Hi; lia). f_equal. rewrite !flat_map_concat_map. f_equal. apply map_ext_in. intros i Hi. apply in_seq in Hi.
    specialize (Nx i ltac:(lia)). specialize (Ny i ltac:(lia)).
    assert (forall (r : reg) k d z, lane r k = Some z -> nth k r d = z) as LN by (intros r k d0 z Hz; apply nth_error_nth; exact Hz).
    rewrite nth_lane in Nx by lia. rewrite nth_lane in Ny by lia. rewrite (LN _ _ 0 _ (eq_sym Nx)), (LN _ _ 0 _ (eq_sym Ny)).
    replace (p + Z.of_nat off + Z.of_nat i) with (p + Z.of_nat (off + i)) by lia. reflexivity.
  - intros M off args (x & y & -> & T & T2) H. destruct (tail_cdr _ _ _ _ _ T H) as (d & E & T'). destruct (tail_cdr _ _ _ _ _ T2 H) as (d2 & E2 & T2').
    eexists. cbn [map varN]. rewrite E, E2. cbn [bind sequence]. split; [reflexivity|]. exists d, d2. split; [|auto]. f_equal. f_equal. f_equal. lia.
  - exists l, a. split; [f_equal; f_equal; f_equal; lia|split; apply tail_start; assumption].
Qed.

(** *** Hand-written ones *)
Lemma pk_if_else_ok : forall N l a b, (1 <= N)%nat -> shape N len l -> shape N len a -> shape N len b ->
  one_vec len N (pk_if_else len l a b) (if_else1 (N * len) (flat l) (flat a) (flat b)).
Proof.
  unfold one_vec. induction N as [|N IH]; intros l a b HN Sl Sa Sb; [lia|]. destruct N as [|N].
  - destruct (shape_1 _ _ Sl) as (x & -> & Lx). destruct (shape_1 _ _ Sa) as (y & -> & Ly). destruct (shape_1 _ _ Sb) as (z & -> & Lz).
    cbn [pk_if_else]. rewrite !flat_P1, Nat.mul_1_l. destruct (if_else1 len x y z) as [c|] eqn:E; cbn [bind option_map]; (split; [try rewrite flat_P1; reflexivity|intros p Hp; try discriminate]).
    injection Hp as <-. split; [reflexivity|]. constructor; [eapply func_body_length; exact E|constructor].
  - apply shape_S in Sl, Sa, Sb. destruct Sl as (x & x' & -> & Lx & Sx). destruct Sa as (y & y' & -> & Ly & Sy). destruct Sb as (z & z' & -> & Lz & Sz).
    cbn [pk_if_else]. destruct (IH x' y' z' ltac:(lia) Sx Sy Sz) as [E S'].
    assert (if_else1 (S (S N) * len) (flat (PN x x')) (flat (PN y y')) (flat (PN z z')) =
      bind (if_else1 len x y z) (fun c => bind (if_else1 (S N * len) (flat x') (flat y') (flat z')) (fun d => Some (c ++ d)))) as ->.
    { unfold if_else1. replace (S (S N) * len)%nat with (len + S N * len)%nat by lia. rewrite func_body_app, !flat_PN.
      rewrite (func_body_ext len _ (fun i => bind (lane x i) (fun c => if negb (c =? 0) then lane y i else lane z i))).
      2: { intros i Hi. rewrite !(lane_app1 _ _ _ len) by assumption. reflexivity. }
      apply bind_ext. intros c. rewrite (func_body_ext (S N * len) _ (fun i => bind (lane (flat x') i) (fun c => if negb (c =? 0) then lane (flat y') i else lane (flat z') i))); [reflexivity|].
      intros i Hi. rewrite !(lane_app2 _ _ _ len) by assumption. reflexivity. }
    rewrite <- E. destruct (if_else1 len x y z) as [c|] eqn:Ec; cbn [bind option_map]; [|split; [reflexivity|discriminate]].
    destruct (pk_if_else len x' y' z') as [d|]; cbn [bind option_map]; [|split; [reflexivity|discriminate]].
    split; [reflexivity|]. intros p Hp. injection Hp as <-. destruct (S' d eq_refl) as [SL SF]. split; [cbn; lia|]. cbn. constructor; [eapply func_body_length; exact Ec|exact SF].
Qed.

Lemma pk_assign_eq : forall N g a b, (1 <= N)%nat -> shape N len a -> shape N len b -> pk_assign len g a b = pk_bin len N g a b.
Proof.
  induction N as [|N IH]; intros g a b HN Sa Sb; [lia|]. destruct N as [|N].
  - destruct (shape_1 _ _ Sa) as (y & -> & Ly). destruct (shape_1 _ _ Sb) as (z & -> & Lz). reflexivity.
  - apply shape_S in Sa, Sb. destruct Sa as (y & y' & -> & Ly & Sy). destruct Sb as (z & z' & -> & Lz & Sz).
    cbn [pk_assign]. rewrite (IH g y' z' ltac:(lia) Sy Sz). reflexivity.
Qed.

Lemma canonical_app a b : canonical (a ++ b) <-> canonical a /\ canonical b.
Proof. unfold canonical. apply Forall_app. Qed.

Lemma pk_all_ok : forall N a, shape N len a -> canonical (flat a) -> exists r, pk_all len a = Some r /\ (r <> 0 <-> forallb truth (flat a) = true).
Proof.
  intros N a. revert N. induction a as [c|c d IH]; intros N S C.
  - apply shape_P1 in S. destruct S as [_ L]. rewrite flat_P1 in *. cbn [pk_all]. rewrite (all1_ok len c L C). eexists. split; [reflexivity|]. destruct (forallb truth c); split; intros; try discriminate; try lia; reflexivity.
  - apply shape_PN in S. destruct S as (N' & -> & L & S & _). rewrite flat_PN in *. apply canonical_app in C. destruct C as [C1 C2]. destruct (IH _ S C2) as (r & E & R).
    cbn [pk_all]. rewrite (all1_ok len c L C1). cbn [bind]. rewrite forallb_app. destruct (forallb truth c).
    + change (-1 =? 0) with false. cbv iota. rewrite E. cbn [bind]. eexists. split; [reflexivity|]. cbn [andb]. rewrite <- R. unfold cbool. destruct (Z.eqb_spec r 0); cbn; lia.
    + change (0 =? 0) with true. cbv iota. eexists. split; [reflexivity|]. cbn [andb]. split; [lia|discriminate].
Qed.

Lemma pk_any_ok : forall N a, shape N len a -> canonical (flat a) -> exists r, pk_any len a = Some r /\ (r <> 0 <-> existsb truth (flat a) = true).
Proof.
  intros N a. revert N. induction a as [c|c d IH]; intros N S C.
  - apply shape_P1 in S. destruct S as [_ L]. rewrite flat_P1 in *. cbn [pk_any]. rewrite (any1_ok len c L C). eexists. split; [reflexivity|]. destruct (existsb truth c); split; intros; try discriminate; try lia; reflexivity.
  - apply shape_PN in S. destruct S as (N' & -> & L & S & _). rewrite flat_PN in *. apply canonical_app in C. destruct C as [C1 C2]. destruct (IH _ S C2) as (r & E & R).
    cbn [pk_any]. rewrite (any1_ok len c L C1). cbn [bind]. rewrite existsb_app. destruct (existsb truth c).
    + change (negb (-1 =? 0)) with true. cbv iota. eexists. split; [reflexivity|]. cbn [orb]. split; [reflexivity|lia].
    + change (negb (0 =? 0)) with false. cbv iota. rewrite E. cbn [bind]. eexists. split; [reflexivity|]. cbn [orb]. rewrite <- R. unfold cbool. destruct (Z.eqb_spec r 0); cbn; lia.
Qed.

Lemma pk_nbtrue_ok : forall N a, shape N len a -> canonical (flat a) -> pk_nbtrue len a = Some (count_true (map truth (flat a))).
Proof.
  intros N a. revert N. induction a as [c|c d IH]; intros N S C.
  - apply shape_P1 in S. destruct S as [_ L]. rewrite flat_P1 in *. apply (nbtrue1_ok len c L C).
  - apply shape_PN in S. destruct S as (N' & -> & L & S & _). rewrite flat_PN in *. apply canonical_app in C. destruct C as [C1 C2].
    cbn [pk_nbtrue]. rewrite (nbtrue1_ok len c L C1). cbn [bind]. rewrite (IH _ S C2). cbn [bind]. f_equal. unfold count_true. rewrite map_app, filter_app, app_length. lia.
Qed.

(** *** Structures *)
Lemma pk_store_deg_ok N deg m p packs : (1 <= N)%nat -> length packs = deg -> Forall (shape N len) packs ->
  pk_store_deg t len N deg m p packs = store_deg t deg (N * len) m p (map flat packs).
Proof.
  intros HN Ld Sp. unfold pk_store_deg, store_deg.
  assert (Hstep : forall j k off, nth_error packs j = Some k -> tailof len N off (flat k) k -> True) by auto. clear Hstep.
  apply (adv_m_flat0 len _ _ (fun N off args => exists xs, args = APtr (p + Z.of_nat (deg * off)) :: map APack xs /\ Forall2 (fun A x => tailof len N off (flat A) x) packs xs)
    (fun i => map (fun j => (p + Z.of_nat (deg * i + (j - 1)), bind (nth_error (map flat packs) (j - 1)) (fun r => bind (lane r i) (fun x => Some (lane_out t x))))) (seq 1 deg))); try assumption.
  - intros M off args m' (xs & -> & F) H. cbn [map var1].
    assert (regs_of (map var1 (map APack xs)) = Some (map pcar xs)) as ->.
    { unfold regs_of. rewrite !map_map. cbn. clear. induction xs as [|x xs IH]; [reflexivity|]. cbn [map sequence]. rewrite IH. reflexivity. }
    cbn [bind]. unfold store_deg. f_equal. rewrite !flat_map_concat_map. f_equal. apply map_ext_in. intros i Hi. apply in_seq in Hi. apply map_ext_in. intros j Hj. apply in_seq in Hj. f_equal; [lia|].
    rewrite !nth_error_map. 
    assert (forall k, match nth_error packs k, nth_error xs k with Some A, Some x => tailof len M off (flat A) x | None, None => True | _, _ => False end) as NE.
    { clear - F. induction F as [|A x l l' T F IH]; intros [|k]; cbn; auto. apply IH. }
    specialize (NE (j - 1)%nat). destruct (nth_error packs (j - 1)) as [A|], (nth_error xs (j - 1)) as [x|]; try contradiction; [|reflexivity]. cbn [option_map bind].
    destruct (tail_car _ _ _ _ _ NE H) as [_ ->]; [reflexivity|lia].
  - intros M off args (xs & -> & F) H.
    assert (exists ds, sequence (map (varN (Z.of_nat (deg * len))) (map APack xs)) = Some (map APack ds) /\ Forall2 (fun A x => tailof len M (off + len) (flat A) x) packs ds) as (ds & E & F').
    { clear - F H. induction F as [|A x l l' T F IH]; [exists []; split; [reflexivity|constructor]|]. destruct IH as (ds & E & F').
      destruct (tail_cdr _ _ _ _ _ T H) as (d & Ed & T'). exists (d :: ds). split; [|constructor; assumption]. cbn [map varN sequence]. rewrite Ed. cbn [bind sequence]. rewrite E. reflexivity. }
    eexists. cbn [map varN]. cbn [sequence]. rewrite E. cbn [bind]. split; [reflexivity|]. exists ds. split; [|exact F']. f_equal. f_equal. lia.
  - exists packs. split; [f_equal; f_equal; lia|]. clear - Sp. induction Sp; constructor; [apply tail_start; assumption|assumption].
Qed.

Lemma set_cdr_spec : forall cs ds, length cs = length ds -> exists ps, set_cdr cs ds = Some ps /\ length ps = length cs /\
  forall j, (j < length cs)%nat -> nth j ps (P1 []) = PN (nth j cs []) (nth j ds (P1 [])).
Proof.
  induction cs as [|c cs IH]; intros [|d ds] L; cbn in L; try discriminate; [exists []; repeat split; intros; cbn in *; lia|].
  destruct (IH ds ltac:(lia)) as (ps & E & Lp & N). exists (PN c d :: ps). cbn [set_cdr]. rewrite E. cbn [bind]. split; [reflexivity|]. split; [cbn; lia|].
  intros [|j] Hj; [reflexivity|]. cbn. apply N. cbn in Hj. lia.
Qed.

(** Element [deg*i+j] lands in lane i of pack j. *)
Lemma pk_load_deg_ok deg m : (1 <= deg)%nat -> forall N p, (1 <= N)%nat ->
  (forall k, (k < deg * (N * len))%nat -> bind (m (p + Z.of_nat k)) (lane_in t) <> None) ->
  exists packs, pk_load_deg t len N deg m p = Some packs /\ length packs = deg /\
    forall j, (j < deg)%nat -> shape N len (nth j packs (P1 [])) /\
      forall i, (i < N * len)%nat -> Some (nth i (flat (nth j packs (P1 []))) 0) = bind (m (p + Z.of_nat (deg * i + j))) (lane_in t).
Proof.
  intros Hdeg. unfold pk_load_deg.
  induction N as [|N IH]; intros p HN D; [lia|].
  destruct (load_deg_ok t deg len m p) as (regs & E & Lr & R); [intros k Hk; apply D; nia|].
  destruct N as [|N].
  - cbn [adv_vx map var1]. rewrite E. cbn [bind]. eexists. split; [reflexivity|]. split; [rewrite map_length; exact Lr|].
    intros j Hj. destruct (R j Hj) as [Lj Nj]. 
    assert (nth j (map P1 regs) (P1 []) = P1 (nth j regs [])) as -> by (apply (map_nth P1 regs [] j)).
    split; [split; [reflexivity|constructor; [exact Lj|constructor]]|]. rewrite flat_P1, Nat.mul_1_l. exact Nj.
  - destruct (IH (p + Z.of_nat (deg * len)) ltac:(lia)) as (packs & Ep & Lp & Rp).
    { intros k Hk. rewrite <- Z.add_assoc, <- Nat2Z.inj_add. apply D. nia. }
    set (base := fun l => match l with [BPtr p] => load_deg t deg len m p | _ => None end) in *.
    change (adv_vx (S (S N)) (Z.of_nat (deg * len)) base [APtr p]) with (bind (base (map var1 [APtr p])) (fun cs => bind (sequence (map (varN (Z.of_nat (deg * len))) [APtr p])) (fun args' => bind (adv_vx (S N) (Z.of_nat (deg * len)) base args') (fun ds => set_cdr cs ds)))).
    cbn [map var1 varN sequence bind]. unfold base at 1. rewrite E. cbn [bind]. rewrite Ep. cbn [bind].
    destruct (set_cdr_spec regs packs ltac:(lia)) as (ps & Es & Ls & Ns). exists ps. split; [exact Es|]. split; [lia|].
    intros j Hj. rewrite Ns by lia. destruct (R j Hj) as [Lj Nj]. destruct (Rp j Hj) as [Sj Fj]. split.
    + destruct Sj as [S1 S2]. split; [cbn; lia|]. cbn. constructor; assumption.
    + intros i Hi. rewrite flat_PN. destruct (Nat.lt_ge_cases i len) as [H|H].
      * rewrite app_nth1 by lia. apply Nj. exact H.
      * rewrite app_nth2 by lia. rewrite Lj, Fj by lia. rewrite <- Z.add_assoc, <- Nat2Z.inj_add. f_equal. f_equal. f_equal. f_equal. nia.
Qed.

(** *** gather, scatter, iota, mask_for_loop_tail: what they really do.
    [off i = (i / len) * len]: the first lane of the register of lane i. *)
Hypothesis Hlen : (1 <= len)%nat.
Lemma reg_off off i : (exists q, off = q * len)%nat -> (i < len)%nat -> ((off + i) / len * len = off /\ (off + i) mod len = i)%nat.
Proof.
  intros (q & ->) Hi. assert (((q * len + i) / len)%nat = q) as E by (rewrite Nat.add_comm, Nat.div_add by lia; rewrite Nat.div_small by lia; reflexivity).
  split; [rewrite E; reflexivity|]. rewrite Nat.add_comm, Nat.mod_add by lia. apply Nat.mod_small. exact Hi.
Qed.

Lemma pk_gather_real N m p idx : (1 <= N)%nat -> shape N len idx ->
  one_vec len N (pk_gather t len N m p idx)
    (func_body (N * len) (fun i => bind (lane (flat idx) i) (fun k => bind (read m (p + Z.of_nat (i / len * len) + k)) (lane_in t)))).
Proof.
  intros HN Sl. unfold pk_gather, one_vec.
  apply (adv_v_flat0 len _ _ (fun N off args => exists x, args = [APtr (p + Z.of_nat off); APack x] /\ (exists q, off = q * len)%nat /\ tailof len N off (flat idx) x)
    (fun i => bind (lane (flat idx) i) (fun k => bind (read m (p + Z.of_nat (i / len * len) + k)) (lane_in t)))); try assumption.
  - intros M off args (x & -> & Hq & T) H. cbn [map var1]. apply func_body_ext. intros i Hi. destruct (tail_car _ _ _ _ _ T H) as [_ ->]; [|exact Hi].
    destruct (reg_off off i Hq Hi) as [-> _]. reflexivity.
  - intros M off args (x & -> & (q & Hq) & T) H. destruct (tail_cdr _ _ _ _ _ T H) as (d & E & T'). eexists. cbn [map varN]. rewrite E. cbn [bind sequence]. split; [reflexivity|].
    exists d. split; [f_equal; f_equal; lia|]. split; [exists (q + 1)%nat; lia|exact T'].
  - exists idx. split; [f_equal; f_equal; lia|]. split; [exists O; reflexivity|apply tail_start; assumption].
Qed.

Lemma pk_gather_linear_real N m p step : (1 <= N)%nat ->
  one_vec len N (pk_gather_linear t len N m p step)
    (func_body (N * len) (fun i => bind (read m (p + Z.of_nat (i / len * len) + Z.of_nat (i mod len) * step)) (lane_in t))).
Proof.
  intros HN. unfold pk_gather_linear, one_vec.
  apply (adv_v_flat0 len _ _ (fun N off args => args = [APtr (p + Z.of_nat off); AVal step] /\ (exists q, off = q * len)%nat)
    (fun i => bind (read m (p + Z.of_nat (i / len * len) + Z.of_nat (i mod len) * step)) (lane_in t))); try assumption.
  - intros M off args (-> & Hq) H. cbn [map var1]. apply func_body_ext. intros i Hi. destruct (reg_off off i Hq Hi) as [-> ->]. reflexivity.
  - intros M off args (-> & (q & Hq)) H. eexists. split; [reflexivity|]. split; [f_equal; f_equal; lia|exists (q + 1)%nat; lia].
  - split; [f_equal; f_equal; lia|exists O; reflexivity].
Qed.

Lemma pk_iota_real N ti : (1 <= N)%nat -> one_vec len N (pk_iota len N ti) (func_body (N * len) (fun i => Some (cast ti (Z.of_nat (i mod len))))).
Proof.
  intros HN. unfold pk_iota, one_vec.
  apply (adv_v_flat0 len _ _ (fun N off args => args = [] /\ (exists q, off = q * len)%nat) (fun i => Some (cast ti (Z.of_nat (i mod len))))); try assumption.
  - intros M off args (-> & Hq) H. cbn [map]. apply func_body_ext. intros i Hi. destruct (reg_off off i Hq Hi) as [_ ->]. reflexivity.
  - intros M off args (-> & (q & Hq)) H. exists []. split; [reflexivity|]. split; [reflexivity|exists (q + 1)%nat; lia].
  - split; [reflexivity|exists O; reflexivity].
Qed.

Lemma pk_tail_real N i0 n : (1 <= N)%nat ->
  one_vec len N (pk_mask_for_loop_tail len N i0 n)
   (func_body (N * len) (fun i => bind (carith i32 (i0 + Z.of_nat (i mod len))) (fun s => Some (if s <? n then ltrue else lfalse)))).
Proof.
  intros HN. unfold pk_mask_for_loop_tail, one_vec.
  apply (adv_v_flat0 len _ _ (fun N off args => args = [AVal i0; AVal n] /\ (exists q, off = q * len)%nat)
    (fun i => bind (carith i32 (i0 + Z.of_nat (i mod len))) (fun s => Some (if s <? n then ltrue else lfalse)))); try assumption.
  - intros M off args (-> & Hq) H. cbn [map var1]. apply func_body_ext. intros i Hi. destruct (reg_off off i Hq Hi) as [_ ->]. reflexivity.
  - intros M off args (-> & (q & Hq)) H. eexists. split; [reflexivity|]. split; [reflexivity|exists (q + 1)%nat; lia].
  - split; [reflexivity|exists O; reflexivity].
Qed.

Lemma pk_scatter_linear_real N m p step a : (1 <= N)%nat -> shape N len a ->
  pk_scatter_linear t len N m p step a =
    run_writes m (map (fun i => (p + Z.of_nat (i / len * len) + Z.of_nat (i mod len) * step, bind (lane (flat a) i) (fun x => Some (lane_out t x)))) (seq 0 (N * len))).
Proof.
  intros HN Sa. unfold pk_scatter_linear. rewrite map_flat.
  apply (adv_m_flat0 len _ _ (fun N off args => exists x, args = [APtr (p + Z.of_nat off); AVal step; APack x] /\ (exists q, off = q * len)%nat /\ tailof len N off (flat a) x)
    (fun i => [(p + Z.of_nat (i / len * len) + Z.of_nat (i mod len) * step, bind (lane (flat a) i) (fun x => Some (lane_out t x)))])); try assumption.
  - intros M off args m' (x & -> & Hq & T) H. cbn [map var1]. unfold scatter_linear. f_equal. rewrite map_flat, !flat_map_concat_map. f_equal. apply map_ext_in. intros i Hi. apply in_seq in Hi.
    destruct (tail_car _ _ _ _ _ T H) as [_ ->]; [|lia]. destruct (reg_off off i Hq ltac:(lia)) as [-> ->]. reflexivity.
  - intros M off args (x & -> & (q & Hq) & T) H. destruct (tail_cdr _ _ _ _ _ T H) as (d & E & T'). eexists. cbn [map varN]. rewrite E. cbn [bind sequence]. split; [reflexivity|].
    exists d. split; [f_equal; f_equal; lia|]. split; [exists (q + 1)%nat; lia|exact T'].
  - exists a. split; [f_equal; f_equal; lia|]. split; [exists O; reflexivity|apply tail_start; assumption].
Qed.

Lemma scatter_writes m p idx a : length idx = len -> length a = len ->
  scatter t len m p idx a = run_writes m (map (fun i => (p + nth i idx 0, bind (lane a i) (fun x => Some (lane_out t x)))) (seq 0 len)).
Proof.
  intros Li La. unfold scatter. rewrite sequence_lanes by exact Li. cbn [bind]. f_equal.
  apply list_ext; rewrite !map_length, combine_length, seq_length, Li, Nat.min_id; [reflexivity|].
  intros k Hk. rewrite nth_error_map_seq by exact Hk. rewrite nth_error_map.
  assert (nth_error (combine (seq 0 len) idx) k = Some (k, nth k idx 0)) as ->; [|reflexivity].
  assert (forall (l1 : list nat) (l2 : list Z) k x y, nth_error l1 k = Some x -> nth_error l2 k = Some y -> nth_error (combine l1 l2) k = Some (x, y)) as C.
  { induction l1 as [|u l1 I1]; intros [|w l2] [|q] x y; cbn; try discriminate; [intros [=->] [=->]; reflexivity|apply I1]. }
  apply C; [rewrite nth_error_nth' with (d := O) by (rewrite seq_length; exact Hk); rewrite seq_nth by exact Hk; reflexivity|].
  apply nth_error_nth'. lia.
Qed.

Lemma pk_scatter_real N m p idx a : (1 <= N)%nat -> shape N len idx -> shape N len a ->
  pk_scatter t len N m p idx a =
    run_writes m (map (fun i => (p + Z.of_nat (i / len * len) + nth i (flat idx) 0, bind (lane (flat a) i) (fun x => Some (lane_out t x)))) (seq 0 (N * len))).
Proof.
  intros HN Si Sa. unfold pk_scatter. rewrite map_flat.
  apply (adv_m_flat0 len _ _ (fun N off args => exists y x, args = [APtr (p + Z.of_nat off); APack y; APack x] /\ (exists q, off = q * len)%nat /\ tailof len N off (flat idx) y /\ tailof len N off (flat a) x)
    (fun i => [(p + Z.of_nat (i / len * len) + nth i (flat idx) 0, bind (lane (flat a) i) (fun x => Some (lane_out t x)))])); try assumption.
  - intros M off args m' (y & x & -> & Hq & Ty & T) H. cbn [map var1]. destruct (tail_car _ _ _ _ _ T H) as [Lx Nx]. destruct (tail_car _ _ _ _ _ Ty H) as [Ly Ny].
    rewrite scatter_writes by assumption. f_equal. rewrite map_flat, !flat_map_concat_map. f_equal. apply map_ext_in. intros i Hi. apply in_seq in Hi.
    rewrite Nx by lia. destruct (reg_off off i Hq ltac:(lia)) as [-> _].
    specialize (Ny i ltac:(lia)). rewrite nth_lane in Ny by lia. symmetry in Ny. rewrite (nth_error_nth (flat idx) (off + i) 0 Ny). reflexivity.
  - intros M off args (y & x & -> & (q & Hq) & Ty & T) H. destruct (tail_cdr _ _ _ _ _ T H) as (d & E & T'). destruct (tail_cdr _ _ _ _ _ Ty H) as (d2 & E2 & Ty').
    eexists. cbn [map varN]. rewrite E, E2. cbn [bind sequence]. split; [reflexivity|].
    exists d2, d. split; [f_equal; f_equal; lia|]. split; [exists (q + 1)%nat; lia|auto].
  - exists idx, a. split; [f_equal; f_equal; lia|]. split; [exists O; reflexivity|split; apply tail_start; assumption].
Qed.
End Inst.
