(** C29-C31: aligned allocation, allocators, paired host/device buffers. *)
From Coq Require Import ZArith Lia Bool List.
From Coq Require Import ZifyBool.
From Verif Require Import CInt ScalarOps Memory MemorySpec MemoryProofs.
Import ListNotations.
Open Scope Z_scope.

(** C29. After every history of allocations and frees, live blocks are aligned,
    inside the address space, and share no byte. *)
Theorem C29_history : forall o W pl os l h, 0 <= W -> posix W os -> history o W pl os [] l = Some h ->
  Forall (fun b => aligned (max_alignment pl) (addr b) /\ in_address_space W b) h /\ separated h.
Proof. intros o W pl os l h HW Hos E. exact (history_good o W pl os HW Hos l [] h (good_nil _ _) E). Qed.
Print Assumptions C29_history.

(** What one allocation of [n] bytes gives. *)
Theorem C29_alloc : forall W pl os h n p h', 0 < W -> posix W os -> 0 <= n < 2 ^ (W - 1) ->
  nsimd_aligned_alloc W pl os h n = (p, h') ->
  (p = null /\ h' = h) \/
  (p <> null /\ aligned (max_alignment pl) p /\ exists b, h' = b :: h /\ addr b = p /\ bytes_of b = n /\
     forall c, In c h -> disjoint b c).
Proof.
  intros W pl os h n p h' HW Hos Hn E. unfold nsimd_aligned_alloc in E.
  pose proof (pow2_split W HW).
  rewrite to_u_id in E by (unfold in_u; lia).
  destruct (sys_alloc_ok W os fresh_bytes h (max_alignment pl) n Hos fresh_len ltac:(lia)) as [H1|(q & H1 & Hp & Ha & Has & Hb & Hd)]; rewrite H1 in E; injection E as <- <-.
  - left. split; reflexivity.
  - right. split; [exact Hp|]. split; [exact Ha|]. eexists. split; [reflexivity|]. split; [reflexivity|]. split; [exact Hb|].
    intros c Hc. apply Hd. exact Hc.
Qed.
Print Assumptions C29_alloc.

(** Typed allocation: room for [n] elements as soon as the size in bytes is a
    representable nsimd_nat. *)
Theorem C29_alloc_for : forall o W pl os h sizeof n, 0 < W -> posix W os -> 1 <= sizeof < 2 ^ (W - 1) -> 0 <= n -> n * sizeof < 2 ^ (W - 1) ->
  exists p h', aligned_alloc_for o W pl os h sizeof n = Some (p, h') /\
    ((p = null /\ h' = h) \/ (p <> null /\ aligned (max_alignment pl) p /\ room_for h' p sizeof n)).
Proof.
  intros o W pl os h sizeof n HW Hos Hsz Hn Hm. pose proof (pow2_split W HW). pose proof (pow2_pos (W - 1) ltac:(lia)).
  rewrite (alloc_for_bytes o W pl os h sizeof n (n * sizeof)).
  2:{ rewrite (to_s_id W sizeof) by (try lia; unfold in_s; lia). apply nat_mul_fits; nia. }
  rewrite to_u_id by (unfold in_u; nia).
  destruct (sys_alloc_ok W os fresh_bytes h (max_alignment pl) (n * sizeof) Hos fresh_len ltac:(nia)) as [->|(q & -> & Hp & Ha & _)].
  - exists null, h. auto.
  - eexists _, _. split; [reflexivity|]. right. split; [exact Hp|]. split; [exact Ha|]. apply room_head; [exact fresh_len|nia|lia].
Qed.
Print Assumptions C29_alloc_for.

(** Freeing a live block releases that block and no other. *)
Theorem C29_free : forall h p, p <> null -> (exists b, In b h /\ addr b = p) ->
  exists h', nsimd_aligned_free h p = Some h' /\ forall b, In b h' <-> In b h /\ addr b <> p.
Proof. exact sys_free_live. Qed.
Print Assumptions C29_free.

(** A conforming allocator exists, and a non-trivial history runs on it. *)
Example C29_ex : posix 64 (bump 64) /\
  option_map (map (fun b => (addr b, bytes_of b))) (history Undefined 64 X86 (bump 64) [] [Alloc 10; AllocFor 8 5; Alloc 0; Free 64; Alloc 100]) = Some [(256, 100); (192, 0); (128, 40)].
Proof. split; [apply bump_posix|vm_compute; reflexivity]. Qed.

(** C30. The C++11 allocator, overflow of nsimd_nat wrapping: throws or has room. *)
Theorem C30_cxx11_wrapping : forall W pl os h sizeof n, 0 < W -> posix W os -> 1 <= sizeof < 2 ^ (W - 1) -> 0 <= n < 2 ^ W ->
  exists r h', allocate11 Wrapping W pl os h sizeof n = Some (r, h') /\
    (r = Threw /\ h' = h \/ exists p, r = Returned p /\ aligned (max_alignment pl) p /\ room_for h' p sizeof n).
Proof.
  intros W pl os h sizeof n HW Hos Hsz Hn. pose proof (pow2_split W HW). pose proof (pow2_pos (W - 1) ltac:(lia)).
  unfold allocate11. destruct ((2 ^ W - 1) / sizeof <? n) eqn:E.
  - eexists _, _. split; [reflexivity|]. left. auto.
  - assert (Hm : n * sizeof < 2 ^ W).
    { pose proof (Z.mul_div_le (2 ^ W - 1) sizeof ltac:(lia)). nia. }
    rewrite (alloc_for_bytes _ W pl os h sizeof _ (to_s W (to_s W n * to_s W sizeof))) by reflexivity.
    assert (Hu : to_u W (to_s W (to_s W n * to_s W sizeof)) = n * sizeof).
    { rewrite to_u_to_s by lia. transitivity (to_u W (n * sizeof)).
      - apply to_u_congr. rewrite Z.mul_mod, !to_s_mod, <- Z.mul_mod by lia. reflexivity.
      - apply to_u_id. unfold in_u. nia. }
    rewrite Hu. cbn [bind].
    destruct (sys_alloc_ok W os fresh_bytes h (max_alignment pl) (n * sizeof) Hos fresh_len ltac:(nia)) as [->|(q & -> & Hp & Ha & _)]; cbn [fst snd].
    + rewrite Z.eqb_refl. eexists _, _. split; [reflexivity|]. left; auto.
    + destruct (q =? null) eqn:E2; [lia|]. cbn [negb]. eexists _, _. split; [reflexivity|]. right. eexists. split; [reflexivity|].
      split; [exact Ha|]. apply room_head; [exact fresh_len|nia|lia].
Qed.
Print Assumptions C30_cxx11_wrapping.

(** With overflow undefined: the same, except exactly when more than one byte per
    element and 2^(W-1) <= n*sizeof(T) < 2^W, where the call is undefined. *)
Theorem C30_cxx11_standard : forall W pl os h sizeof n, 0 < W -> posix W os -> 1 <= sizeof < 2 ^ (W - 1) -> 0 <= n < 2 ^ W ->
  (allocate11 Undefined W pl os h sizeof n = None <-> 1 < sizeof /\ 2 ^ (W - 1) <= n * sizeof < 2 ^ W) /\
  (forall r h', allocate11 Undefined W pl os h sizeof n = Some (r, h') ->
    (r = Threw /\ h' = h) \/ exists p, r = Returned p /\ aligned (max_alignment pl) p /\ room_for h' p sizeof n).
Proof.
  intros W pl os h sizeof n HW Hos Hsz Hn. pose proof (pow2_split W HW). pose proof (pow2_pos (W - 1) ltac:(lia)).
  assert (Hquo : (2 ^ W - 1) / sizeof < n <-> 2 ^ W <= n * sizeof).
  { split; intros Hx.
    - pose proof (Z.div_mod (2 ^ W - 1) sizeof ltac:(lia)). pose proof (Z.mod_pos_bound (2 ^ W - 1) sizeof ltac:(lia)). nia.
    - apply Z.div_lt_upper_bound; lia. }
  destruct (C30_cxx11_wrapping W pl os h sizeof n HW Hos Hsz Hn) as (r & h' & Ew & Hw).
  assert (Hcase : (1 < sizeof /\ 2 ^ (W - 1) <= n * sizeof < 2 ^ W /\ allocate11 Undefined W pl os h sizeof n = None) \/
    (~ (1 < sizeof /\ 2 ^ (W - 1) <= n * sizeof < 2 ^ W) /\ allocate11 Undefined W pl os h sizeof n = allocate11 Wrapping W pl os h sizeof n)).
  { unfold allocate11 in *. destruct ((2 ^ W - 1) / sizeof <? n) eqn:E.
    - right. split; [nia|reflexivity].
    - unfold aligned_alloc_for. cbn [nat_mul]. rewrite (to_s_id W sizeof) by (try lia; unfold in_s; lia).
      destruct (Z_le_gt_dec sizeof 1) as [H1|H1].
      + right. split; [lia|]. assert (sizeof = 1) by lia. subst sizeof. rewrite Z.mul_1_r, carith_s.
        pose proof (to_s_range W n HW) as Hr. unfold in_s in Hr.
        destruct ((- 2 ^ (W - 1) <=? to_s W n) && (to_s W n <=? 2 ^ (W - 1) - 1)) eqn:E2; [|lia].
        rewrite (to_s_id W (to_s W n)) by (try lia; unfold in_s; lia). reflexivity.
      + assert (Hm : n * sizeof < 2 ^ W) by lia.
        rewrite (to_s_id W n) by (try lia; unfold in_s; nia). rewrite carith_s.
        destruct ((- 2 ^ (W - 1) <=? n * sizeof) && (n * sizeof <=? 2 ^ (W - 1) - 1)) eqn:E2.
        * right. split; [lia|]. rewrite to_s_id; [reflexivity|lia|unfold in_s; lia].
        * left. split; [lia|]. split; [nia|reflexivity]. }
  destruct Hcase as [(H1 & H2 & H3)|(H1 & H2)].
  - split; [tauto|]. intros r0 h0 E0. congruence.
  - split; [split; [congruence|tauto]|]. intros r0 h0 E0. rewrite H2, Ew in E0. injection E0 as <- <-. exact Hw.
Qed.
Print Assumptions C30_cxx11_standard.

(** The C++98 allocator has room when the size is representable... *)
Theorem C30_cxx98_in_range : forall o W pl os h sizeof n, 0 < W -> posix W os -> 1 <= sizeof < 2 ^ (W - 1) -> 0 <= n -> n * sizeof < 2 ^ (W - 1) ->
  exists p h', allocate98 o W pl os h sizeof n = Some (p, h') /\
    ((p = null /\ h' = h) \/ (p <> null /\ aligned (max_alignment pl) p /\ room_for h' p sizeof n)).
Proof.
  intros. unfold allocate98. rewrite to_s_id by (try lia; unfold in_s; nia). apply C29_alloc_for; assumption.
Qed.
Print Assumptions C30_cxx98_in_range.
(** ... but for n = 2^61 + 1 eight-byte elements it returns a block of 8 bytes
    (wrapping), and the C++11 one is undefined for n = 2^60. *)
Theorem C30_refuted : posix 64 (bump 64) /\
  (exists h', allocate98 Wrapping 64 X86 (bump 64) [] 8 (2 ^ 61 + 1) = Some (64, h') /\ map bytes_of h' = [8] /\
     ~ room_for h' 64 8 (2 ^ 61 + 1)) /\
  allocate11 Undefined 64 X86 (bump 64) [] 8 (2 ^ 60) = None.
Proof.
  split; [apply bump_posix|]. split; [|vm_compute; reflexivity].
  eexists. split; [vm_compute; reflexivity|]. split; [vm_compute; reflexivity|].
  intros (b & [<-|[]] & _ & H). vm_compute in H. congruence.
Qed.
Print Assumptions C30_refuted.
Example C30_ex : allocate11 Undefined 64 X86 (bump 64) [] 8 3 = Some (Returned 64, [Block 64 (repeat None 24)]) /\
  allocate11 Undefined 64 X86 (bump 64) [] 8 (2 ^ 61) = Some (Threw, []).
Proof. vm_compute. auto. Qed.

(** C31. On CPU both pointers are one buffer of sz elements (or both null), and
    the copies do nothing. *)
Theorem C31_cpu : forall init W os_h os_d m sizeof sz, 0 < W -> posix W os_h -> init = fresh_bytes \/ init = zero_bytes -> 0 <= sz -> 1 <= sizeof -> sz * sizeof < 2 ^ W ->
  exists p m', pair_alloc init CPU W os_h os_d m sizeof sz = Some (p, m') /\ device_ptr p = host_ptr p /\ psz p = sz /\
    (host_ptr p = null /\ m' = m \/
     host_ptr p <> null /\ room_for (host m') (host_ptr p) sizeof sz /\
     find_block (host m') (host_ptr p) = Some (Block (host_ptr p) (init (sz * sizeof))) /\
     pair_to_device CPU W sizeof m' p = Some m' /\ pair_to_host CPU W sizeof m' p = Some m').
Proof.
  intros init W os_h os_d m sizeof sz HW Hos Hi Hs1 Hs2 Hs3.
  assert (Hl : forall n, length (init n) = Z.to_nat n) by (destruct Hi as [-> | ->]; auto using fresh_len, zero_len).
  unfold pair_alloc, device_alloc. cbn [gpu]. rewrite to_u_id by (unfold in_u; nia).
  destruct (sys_alloc_ok W os_h init (host m) 1 (sz * sizeof) Hos Hl ltac:(nia)) as [->|(q & -> & Hp & _)].
  - destruct m as [h d]. eexists _, _. split; [reflexivity|]. cbn [device_ptr host_ptr psz host device]. auto.
  - eexists _, _. split; [reflexivity|]. cbn [device_ptr host_ptr psz host device]. split; [reflexivity|]. split; [reflexivity|]. right.
    split; [exact Hp|]. split; [apply room_head; auto; nia|]. split; [|split; reflexivity].
    unfold find_block, is_block. cbn [find addr]. rewrite Z.eqb_refl. reflexivity.
Qed.
Print Assumptions C31_cpu.

(** On GPUs a failure gives two null pointers, size 0, and leaks nothing... *)
Theorem C31_gpu : forall init k W os_h os_d m sizeof sz, gpu k = true -> 0 < W -> posix W os_h -> posix W os_d ->
  init = fresh_bytes \/ init = zero_bytes -> 0 <= sz -> 1 <= sizeof -> sz * sizeof < 2 ^ W ->
  exists p m', pair_alloc init k W os_h os_d m sizeof sz = Some (p, m') /\
    (device_ptr p = null /\ host_ptr p = null /\ psz p = 0 /\ m' = m \/
     device_ptr p <> null /\ host_ptr p <> null /\ psz p = sz /\ room_for (device m') (device_ptr p) sizeof sz /\
     find_block (device m') (device_ptr p) = Some (Block (device_ptr p) (init (sz * sizeof))) /\
     (* ... and a success gives sz elements on the device but only sz bytes on the host. *)
     find_block (host m') (host_ptr p) = Some (Block (host_ptr p) (init sz)) /\
     pair_free k m' p = Some m).
Proof.
  intros init k W os_h os_d m sizeof sz Hk HW Hoh Hod Hi Hs1 Hs2 Hs3.
  assert (Hl : forall n, length (init n) = Z.to_nat n) by (destruct Hi as [-> | ->]; auto using fresh_len, zero_len).
  assert (Hfree : forall a h c, a <> null -> (forall b, In b h -> a <> addr b) -> sys_free (Block a c :: h) a = Some h).
  { intros a h c Ha Hb. unfold sys_free, is_block. destruct (a =? null) eqn:E; [lia|]. cbn [existsb filter addr]. rewrite Z.eqb_refl. cbn [orb negb].
    f_equal. induction h as [|x h IH]; [reflexivity|]. cbn [filter]. pose proof (Hb x (or_introl eq_refl)). replace (addr x =? a) with false by lia. cbn [negb].
    f_equal. apply IH. intros b Hx. apply Hb. right; exact Hx. }
  destruct m as [h d]. cbn [host device].
  unfold pair_alloc, device_alloc. rewrite Hk. cbn [host device]. rewrite (to_u_id W (sz * sizeof)) by (unfold in_u; nia). rewrite (to_u_id W sz) by (unfold in_u; nia).
  destruct (sys_alloc_ok W os_d init d 1 (sz * sizeof) Hod Hl ltac:(nia)) as [->|(q & -> & Hp & _ & _ & Hb & Hd)].
  - rewrite Z.eqb_refl. eexists _, _. split; [reflexivity|]. left. auto.
  - destruct (q =? null) eqn:E; [lia|].
    destruct (sys_alloc_ok W os_h init h 1 sz Hoh Hl ltac:(lia)) as [->|(r & -> & Hp2 & _ & _ & Hb2 & Hd2)].
    + rewrite Z.eqb_refl, Hfree; [|exact Hp|intros b Hx; apply Hd; exact Hx]. cbn [bind]. eexists _, _. split; [reflexivity|]. left. auto.
    + destruct (r =? null) eqn:E2; [lia|]. eexists _, _. split; [reflexivity|]. right. cbn [device_ptr host_ptr psz host device].
      split; [exact Hp|]. split; [exact Hp2|]. split; [reflexivity|]. split; [apply room_head; auto; nia|].
      unfold find_block, is_block. cbn [find addr]. rewrite !Z.eqb_refl. split; [reflexivity|]. split; [reflexivity|].
      unfold pair_free. rewrite Hk. cbn [host device device_ptr host_ptr].
      rewrite Hfree; [|exact Hp|intros b Hx; apply Hd; exact Hx]. cbn [bind].
      rewrite Hfree; [|exact Hp2|intros b Hx; apply Hd2; exact Hx]. reflexivity.
Qed.
Print Assumptions C31_gpu.

(** Hence, on GPUs, copying a fresh pair to the device reads past the end of the
    host buffer as soon as an element is wider than a byte. *)
Theorem C31_gpu_copy_refuted : forall init k W os_h os_d m sizeof sz p m', gpu k = true -> 0 < W -> posix W os_h -> posix W os_d ->
  init = fresh_bytes \/ init = zero_bytes -> 0 < sz -> 1 < sizeof -> sz * sizeof < 2 ^ W ->
  pair_alloc init k W os_h os_d m sizeof sz = Some (p, m') -> host_ptr p <> null -> pair_to_device k W sizeof m' p = None.
Proof.
  intros init k W os_h os_d m sizeof sz p m' Hk HW Hoh Hod Hi Hs1 Hs2 Hs3 E Hn.
  destruct (C31_gpu init k W os_h os_d m sizeof sz Hk HW Hoh Hod Hi ltac:(lia) ltac:(lia) Hs3) as (p1 & m1 & E1 & H1).
  rewrite E in E1. injection E1 as <- <-. destruct H1 as [(_ & H1 & _)|(_ & _ & H1 & _ & _ & H2 & _)]; [congruence|].
  unfold pair_to_device, copy_to_device. rewrite Hk, H1, to_u_id by (unfold in_u; nia).
  rewrite (copy_bytes_small _ _ _ _ (sz * sizeof) _ ltac:(nia) H2); [reflexivity|].
  rewrite fresh_bytes_of; [nia| |lia]. destruct Hi as [-> | ->]; auto using fresh_len, zero_len.
Qed.
Print Assumptions C31_gpu_copy_refuted.

(** Between buffers that do hold [sz] elements, the copies round-trip: whatever
    happens to the host buffer in between, its [sz] elements are restored, and no
    other host block changes. *)
Theorem C31_round_trip : forall W m hp dp sizeof sz bh bd, 0 <= sz -> 1 <= sizeof -> sz * sizeof < 2 ^ W ->
  find_block (host m) hp = Some bh -> find_block (device m) dp = Some bd ->
  sz * sizeof <= bytes_of bh -> sz * sizeof <= bytes_of bd ->
  exists m1, copy_to_device W m dp hp sizeof sz = Some m1 /\ host m1 = host m /\
    forall h2 bh2, find_block h2 hp = Some bh2 -> bytes_of bh2 = bytes_of bh ->
    exists m3 bh3, copy_to_host W (Machine h2 (device m1)) hp dp sizeof sz = Some m3 /\ device m3 = device m1 /\
      find_block (host m3) hp = Some bh3 /\ bytes_of bh3 = bytes_of bh /\
      firstn (Z.to_nat (sz * sizeof)) (contents bh3) = firstn (Z.to_nat (sz * sizeof)) (contents bh) /\
      forall q, q <> hp -> find_block (host m3) q = find_block h2 q.
Proof.
  intros W m hp dp sizeof sz bh bd Hs1 Hs2 Hs3 Hh Hd Lh Ld. unfold copy_to_device, copy_to_host. rewrite to_u_id by (unfold in_u; nia).
  set (n := sz * sizeof) in *. assert (0 <= n) by (unfold n; nia).
  destruct (copy_bytes_ok (device m) dp (host m) hp n bd bh) as (d1 & E1 & F1 & _); auto.
  rewrite E1. cbn [bind]. eexists. split; [reflexivity|]. cbn [host device]. split; [reflexivity|].
  intros h2 bh2 H2 L2. unfold bytes_of in *. rename H into Hn.
  assert (L3 : n <= bytes_of (Block dp (firstn (Z.to_nat n) (contents bh) ++ skipn (Z.to_nat n) (contents bd)))).
  { unfold bytes_of. cbn [contents]. rewrite app_length, firstn_length. lia. }
  destruct (copy_bytes_ok h2 hp d1 dp n bh2 _ Hn H2 F1 ltac:(unfold bytes_of; lia) L3) as (h3 & E3 & F3 & F4).
  rewrite E3. cbn [bind]. eexists _, _. split; [reflexivity|]. cbn [host device]. split; [reflexivity|]. split; [exact F3|]. cbn [contents].
  assert (Lf : length (firstn (Z.to_nat n) (contents bh)) = Z.to_nat n) by (rewrite firstn_length; lia).
  rewrite firstn_app, Lf, Nat.sub_diag, firstn_O, app_nil_r, firstn_firstn, Nat.min_id.
  split; [rewrite app_length, Lf, skipn_length; lia|]. split; [|exact F4].
  rewrite firstn_app, Lf, Nat.sub_diag, firstn_O, app_nil_r, firstn_firstn, Nat.min_id. reflexivity.
Qed.
Print Assumptions C31_round_trip.

(** Concrete pairs: on CUDA 3 four-byte elements get 12 bytes on the device, 3 on
    the host; a failing CPU pair_malloc still reports size 3. *)
Theorem C31_refuted :
  (exists m', pair_calloc CUDA 64 (bump 64) (bump 64) (Machine [] []) 4 3 = Some (Paired 1 1 3, m') /\
     map bytes_of (device m') = [12] /\ map bytes_of (host m') = [3] /\ pair_to_device CUDA 64 4 m' (Paired 1 1 3) = None) /\
  pair_malloc CPU 64 (fun _ _ _ => None) (bump 64) (Machine [] []) 4 3 = Some (Paired null null 3, Machine [] []).
Proof. split; [eexists; split; [vm_compute; reflexivity|vm_compute; auto]|vm_compute; reflexivity]. Qed.
Print Assumptions C31_refuted.
Example C31_ex : exists m m1 m3, pair_malloc CUDA 64 (bump 64) (bump 64) (Machine [] []) 1 2 = Some (Paired 1 1 2, m) /\
  pair_to_device CUDA 64 1 (Machine [Block 1 [Some 7; Some 8]] (device m)) (Paired 1 1 2) = Some m1 /\
  pair_to_host CUDA 64 1 (Machine [Block 1 [Some 0; Some 0]] (device m1)) (Paired 1 1 2) = Some m3 /\ host m3 = [Block 1 [Some 7; Some 8]].
Proof. vm_compute. do 3 eexists. auto. Qed.
