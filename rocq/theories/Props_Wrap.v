(** * Property theorems C120-C122: block caches over any stream (proofs in WrapProofs). *)
From Verif Require Import GoBase ListZ Errors BlockCache Spec_BlockCache Spec_Bounds BlockCacheProofs BlockCacheProofs2 BlockCacheProofs3 BlockCacheProofs4 Props_BlockCache BoundsProofs WrapStream Spec_Wrap WrapProofs.

(** ** C120: WrapStream over a stream that keeps Go's io contracts *)
(* true if reads deliver all they are asked for (or fail, or reach the end) and writes never fail with EOF: whatever
   operations fail, the cache is the array that starts as the stream's contents, and a successful flush makes the
   stream hold that array *)
Theorem C120_wrap_stream_partial T (io : rws T) con pos : go_stream io con pos -> full_reads io -> no_eof_writes io ->
  forall bs total0 allow t os, 0 < bs -> 0 <= total0 -> total0 * bs <= zlen (con t) -> Forall (op_ok bs) os ->
  exists t' c' rs A', exec (wrap_cb io bs total0 allow) t (new_cache bs total0) os = Ret (t', c', rs) /\
    array_run bs (slice 0 (total0 * bs) (con t)) os rs A' /\
    forall t2 c2, flush_all (wrap_cb io bs total0 allow) t' c' = Ret (t2, c2, None) -> slice 0 (zlen A') (con t2) = A'.
Proof.
  intros HG HF HE bs total0 allow t os Hb Ht Hl Hok. pose proof (wrap_honest io con pos HG HF HE bs total0 allow Hb) as HH. pose proof (g_len _ _ _ HG t) as HL.
  assert (0 <= total0 <= wnb con bs t) as HN by (split; [lia|]; unfold wnb; apply Z.div_le_lower_bound; lia).
  destruct (exec_refines _ bs _ _ HH Hb os t (new_cache bs total0) _ (new_inv bs (wnb con bs) (wblk con bs) Hb t total0 HN ltac:(lia)) (new_rep _ bs _ _ HH Hb t total0 HN ltac:(lia)) Hok)
    as (t' & c' & rs & evss & A' & E & I' & R' & Hac & Hio).
  pose proof (io_run_array _ _ _ _ _ _ Hio) as HR. cbn [viewof vA] in HR. rewrite wrap_storage_bytes in HR by lia.
  exists t', c', rs, A'. split; [exact E|]. split; [exact HR|]. intros t2 c2 EF.
  destruct (C16_flush_durable T _ bs _ _ HH t total0 os t' c' rs A' t2 c2 Hb HN ltac:(lia) Hok E) as [HS _].
  { rewrite wrap_storage_bytes by lia. exact HR. } { cbn [exec_op]. rewrite EF. reflexivity. }
  destruct (flush_ok_clean _ bs _ _ HH t' c' t2 c2 Hb I' EF) as (I2 & Ht2 & _).
  pose proof (i_total _ _ _ _ _ I2) as HT. unfold wnb in HT. pose proof (Z.mul_div_le (zlen (con t2)) bs Hb).
  assert (total c2 * bs <= zlen (con t2)) by nia. rewrite wrap_storage_bytes in HS by lia. rewrite <- HS. rewrite zlen_slice by lia. reflexivity.
Qed.
(* a device of N bytes that delivers at most k bytes per Read (None: no limit) and, if [ro], refuses writes with EOF *)
Definition device (k : option Z) (ro : bool) (N : Z) : rws ((Z -> Z) * Z) :=
  mkRws ((Z -> Z) * Z)
    (fun t off => ((fst t, off), None))
    (fun t buf =>
       let most := match k with Some k => Z.min k (zlen buf) | None => zlen buf end in
       let n := Z.max 0 (Z.min most (N - snd t)) in
       ((fst t, snd t + n), splice 0 (map (fst t) (zrange (snd t) (snd t + n))) buf, n,
        if (n <? zlen buf) && (N <=? snd t + n) then Some KEOF else None))
    (fun t buf =>
       if ro then (t, 0, Some KEOF)
       else if snd t + zlen buf <=? N then
         ((fun i => if (snd t <=? i) && (i <? snd t + zlen buf) then znth 0 buf (i - snd t) else fst t i, snd t + zlen buf), zlen buf, None)
       else (t, 0, Some (K ErrNoSpaceOnDevice)))
    None
    (fun t => ((fst t, N), N, None)).
Definition dcon (N : Z) (t : (Z -> Z) * Z) : list Z := map (fst t) (zrange 0 N).
Lemma zlen_dcon N t : 0 <= N -> zlen (dcon N t) = N.
Proof. intros HN. unfold dcon. rewrite zlen_map, zlen_zrange. lia. Qed.
Lemma znth_map_zrange (f : Z -> Z) a b i : 0 <= i < b - a -> znth 0 (map f (zrange a b)) i = f (a + i).
Proof.
  intros Hi. rewrite (znth_map f 0 0) by (rewrite zlen_zrange; lia). f_equal. unfold zrange, znth.
  rewrite <- (Nat2Z.id (Z.to_nat i)) at 1. rewrite (nth_indep _ 0 (a + Z.of_nat 0)) by (rewrite map_length, seq_length, Nat2Z.id; lia).
  rewrite (map_nth (fun k => a + Z.of_nat k)). rewrite seq_nth by (rewrite Nat2Z.id; lia). lia.
Qed.
Lemma device_ok k ro N : 0 <= N < 2^63 -> match k with Some k => 0 <= k | None => True end -> go_stream (device k ro N) (dcon N) snd.
Proof.
  intros HN Hk. constructor.
  - intros t. rewrite zlen_dcon; lia.
  - intros t off t' e _ [= <- <-]. auto.
  - intros t buf t' buf' n e [= <- <- <- <-]. apply zlen_splice; [lia|]. rewrite zlen_map, zlen_zrange. pose proof (zlen_nonneg buf). destruct k; lia.
  - intros [f p] buf t' buf' n e Hp [= <- <- <- <-]. cbn [fst snd] in *. rewrite zlen_dcon by lia. pose proof (zlen_nonneg buf) as HB.
    set (n := Z.max 0 (Z.min match k with Some k => Z.min k (zlen buf) | None => zlen buf end (N - p))). assert (0 <= n <= zlen buf /\ p + n <= Z.max p N) as [Hn Hn2] by (unfold n; destruct k; lia).
    assert (zlen (map f (zrange p (p + n))) = n) as EL by (rewrite zlen_map, zlen_zrange; lia).
    split; [reflexivity|]. split; [exact Hn|]. split; [exact Hn2|]. split.
    + apply (list_ext 0). { rewrite zlen_slice by (rewrite ?zlen_splice; lia). destruct (Z.eq_dec n 0) as [->|]; [rewrite slice_nil; reflexivity|]. rewrite zlen_slice by (rewrite ?zlen_dcon; lia). reflexivity. }
      intros i Hi. rewrite zlen_slice in Hi by (rewrite ?zlen_splice; lia). rewrite !znth_slice by lia. rewrite znth_splice by lia. rewrite EL.
      replace ((0 <=? 0 + i) && (0 + i <? 0 + n)) with true by (symmetry; rewrite andb_true_iff; lia). unfold dcon. cbn [fst]. rewrite !znth_map_zrange by lia. f_equal. lia.
    + destruct (_ && _) eqn:E; [|discriminate]. intros _. lia.
  - intros [f p] buf t' n e Hp. cbn [device rw_write fst snd] in *. pose proof (zlen_nonneg buf) as HB. destruct ro.
    { intros [= <- <- <-]. split; [discriminate|]. auto. }
    destruct (_ <=? N) eqn:E; [|intros [= <- <- <-]; split; [discriminate|auto]]. intros [= <- <- <-]. rewrite !zlen_dcon by lia. split.
    + intros _. apply (list_ext 0); [rewrite zlen_dcon by lia; unfold file_write; rewrite zlen_splice; [|lia|]; rewrite zlen_app, zlen_dcon by lia; unfold zrepeat; replace (Z.to_nat (p + zlen buf - N)) with 0%nat by lia; change (zlen (repeat 0 0)) with 0; lia|].
      intros i Hi. rewrite zlen_dcon in Hi by lia. unfold file_write. rewrite zlen_dcon by lia. replace (zrepeat 0 (p + zlen buf - N)) with (@nil Z) by (unfold zrepeat; replace (Z.to_nat (p + zlen buf - N)) with 0%nat by lia; reflexivity).
      rewrite app_nil_r. rewrite znth_splice by (rewrite ?zlen_dcon; lia). unfold dcon at 1. rewrite znth_map_zrange by lia. cbn [fst]. destruct (_ && _) eqn:E2; [f_equal; lia|]. unfold dcon. rewrite znth_map_zrange by lia. reflexivity.
    + intros _. split; [reflexivity|]. intros i Hi. assert (i < N \/ N <= i) as [L|L] by lia.
      * unfold dcon. rewrite !znth_map_zrange by lia. cbn [fst]. destruct (_ && _) eqn:E2; [lia|reflexivity].
      * rewrite !znth_overflow by (rewrite zlen_dcon; lia). reflexivity.
  - intros tr t n t' e [=].
Qed.
(* the premises of the partial theorem are met *)
Lemma device_reads ro N : full_reads (device None ro N).
Proof.
  intros [f p] buf t' buf' n e [= <- <- <- <-]. cbn [fst snd]. pose proof (zlen_nonneg buf). destruct (_ <? zlen buf) eqn:E1; [|lia]. destruct (N <=? _) eqn:E2; [discriminate|]. lia.
Qed.
Lemma device_full N : full_reads (device None false N) /\ no_eof_writes (device None false N).
Proof.
  split.
  - apply device_reads.
  - intros t buf t' n e. cbn [device rw_write]. destruct (_ <=? _); intros [= <- <- <-]; discriminate.
Qed.
Example C120_example : go_stream (device None false 6) (dcon 6) snd /\ full_reads (device None false 6) /\ no_eof_writes (device None false 6) /\
  exists t' c', exec (wrap_cb (device None false 6) 2 3 true) (fun i => i + 1, 0) (new_cache 2 3) [OWrite 0 [9]; OResize 4; OFlush; OData] =
    Ret (t', c', [ROk; RErr (K ErrNotSupported); ROk; RBytes [9;2;3;4;5;6]]) /\ dcon 6 t' = [9;2;3;4;5;6].
Proof. split; [apply device_ok; auto; lia|]. split; [apply device_full|]. split; [apply device_full|]. do 2 eexists. split; vm_compute; reflexivity. Qed.
(* REFUTED by short reads, which io.Reader allows: with a device that delivers one byte per call, writing one byte
   through a cache of 2-byte blocks succeeds and destroys the byte next to it *)
Theorem C120_short_read_refuted : exists io : rws ((Z -> Z) * Z), go_stream io (dcon 4) snd /\ no_eof_writes io /\
  exists t t' c', dcon 4 t = [1;2;3;4] /\ exec (wrap_cb io 2 2 false) t (new_cache 2 2) [OWrite 0 [9]; OFlush; OData] = Ret (t', c', [ROk; ROk; RBytes [9;0;3;0]]) /\ dcon 4 t' = [9;0;3;4].
Proof.
  exists (device (Some 1) false 4). split; [apply device_ok; lia|]. split; [intros t buf t' n e; cbn [device rw_write]; destruct (_ <=? _); intros [= <- <- <-]; discriminate|].
  exists (fun i => i + 1, 0). do 2 eexists. split; [vm_compute; reflexivity|]. split; vm_compute; reflexivity.
Qed.
(* REFUTED by writes that fail with io.EOF: the flush succeeds and nothing was written *)
Theorem C120_eof_write_refuted : exists io : rws ((Z -> Z) * Z), go_stream io (dcon 4) snd /\ full_reads io /\
  exists t t' c', dcon 4 t = [1;2;3;4] /\ exec (wrap_cb io 2 2 false) t (new_cache 2 2) [OWrite 0 [9]; OFlush; OFlush] = Ret (t', c', [ROk; ROk; ROk]) /\ dcon 4 t' = [1;2;3;4].
Proof.
  exists (device None true 4). split; [apply device_ok; auto; lia|]. split.
  - apply device_reads.
  - exists (fun i => i + 1, 0). do 2 eexists. split; [vm_compute; reflexivity|]. split; vm_compute; reflexivity.
Qed.
(* C26 and C27 speak about WrapStream over a healthy file (one whose size fits an int64): it is this WrapStream *)
Theorem C120_healthy_file bs total0 allow f p i buf n : 0 <= i * bs < 2^63 -> 0 <= n * bs < 2^63 ->
  let cb := wrap_cb healthy bs total0 allow in let cb0 := wrap_stream_cb bs total0 allow true in
  (exists p', cb_fetch cb (f, p) i buf = (let '(f', b', e) := cb_fetch cb0 f i buf in ((f', p'), b', e))) /\
  (exists p', cb_flush cb (f, p) i buf = (let '(f', e) := cb_flush cb0 f i buf in ((f', p'), e))) /\
  (exists p', cb_resize cb (f, p) n = (let '(f', e) := cb_resize cb0 f n in ((f', p'), e))).
Proof. apply healthy_same. Qed.

(** ** C121: a cache that may not be resized never changes the size of the stream, nor any byte outside its blocks,
    whatever the stream does within its contract (short reads and failures included) and whatever arguments are passed *)
Theorem C121_fixed T (io : rws T) con pos bs total0 t os t' c' rs : go_stream io con pos -> 0 < bs < 2^59 -> 0 <= total0 -> total0 * bs <= zlen (con t) ->
  Forall (op_go bs) os -> exec (wrap_cb io bs total0 false) t (new_cache bs total0) os = Ret (t', c', rs) ->
  total c' = total0 /\ zlen (con t') = zlen (con t) /\
  slice (total0 * bs) (zlen (con t) - total0 * bs) (con t') = slice (total0 * bs) (zlen (con t) - total0 * bs) (con t).
Proof.
  intros HG Hb Ht Hl Hok E. split; [|eapply fixed_run; eauto]. pose proof (g_len _ _ _ HG t).
  eapply (fixed_total io con pos bs total0 HG Hb t os); [exact Hok| |exact E]. apply new_shape; auto. lia.
Qed.
Example C121_example : exists t' c' rs, exec (wrap_cb (device (Some 1) false 7) 2 3 false) (fun i => i + 1, 0) (new_cache 2 3) [OWrite 2 [9;9]; OResize 9; OWrite 3 [1]; OFlush] = Ret (t', c', rs) /\
  dcon 7 t' = [1;2;3;4;9;9;7].
Proof. do 3 eexists. split; vm_compute; reflexivity. Qed.

(** ** C122: WrapStreamWithInferredSize *)
(* if the size can be determined, the cache has as many blocks as fit into the stream *)
Theorem C122_inferred_partial T (io : rws T) bs t t1 sz : rw_size io t = (t1, sz, None) -> 0 <= sz < 2^63 -> 0 < bs ->
  exists t2 n, inferred_blocks io bs t = Ret (t2, n) /\ 0 <= n /\ n * bs <= sz < (n + 1) * bs.
Proof.
  intros E Hs Hb. unfold inferred_blocks. rewrite E. replace (bs =? 0) with false by lia. cbv zeta. destruct (rw_seek io t1 0) as [t2 e2].
  assert (u64 sz = sz) as -> by (unfold u64; apply Z.mod_small; lia). pose proof (Z.div_mod sz bs ltac:(lia)). pose proof (Z.mod_pos_bound sz bs Hb). assert (0 <= sz / bs) by (apply Z.div_pos; lia). assert (sz / bs <= sz) by (apply Z.div_le_upper_bound; nia).
  rewrite !i64_small' by lia. replace (sz / bs <? 0) with false by lia. replace (bs * (sz / bs) <? 0) with false by lia. cbn [orb]. do 2 eexists. split; [reflexivity|]. lia.
Qed.
(* REFUTED: the error is dropped.  If Seek fails and returns 0 the result is an empty cache; if it fails and returns
   -1, the process dies *)
Theorem C122_seek_error_refuted T (io : rws T) bs t t1 k : 0 < bs < 2^63 ->
  (rw_size io t = (t1, 0, Some k) -> exists t2, inferred_blocks io bs t = Ret (t2, 0)) /\
  (rw_size io t = (t1, -1, Some k) -> inferred_blocks io bs t = Panic).
Proof.
  intros Hb. unfold inferred_blocks. split; intros ->; replace (bs =? 0) with false by lia; cbv zeta; destruct (rw_seek io t1 0) as [t2 e2].
  - change (u64 0) with 0. rewrite Z.div_0_l by lia. rewrite Z.mul_0_r. change (i64 0) with 0. cbn. eauto.
  - change (u64 (-1)) with (2^64 - 1). pose proof (Z.div_mod (2^64 - 1) bs ltac:(lia)). pose proof (Z.mod_pos_bound (2^64 - 1) bs ltac:(lia)).
    set (x := bs * ((2^64 - 1) / bs)) in *. assert (i64 x < 0) as E.
    { unfold i64. replace (x + 2^63) with (x - 2^63 + 1 * 2^64) by lia. rewrite Z.mod_add by lia. rewrite Z.mod_small by lia. lia. }
    replace (i64 x <? 0) with true by lia. rewrite orb_true_r. reflexivity.
Qed.
Example C122_example : exists t2, inferred_blocks (device None false 7) 2 (fun i => i, 0) = Ret (t2, 3) /\ inferred_blocks (device None false 7) 0 (fun i => i, 0) = Panic.
Proof. eexists. split; vm_compute; reflexivity. Qed.

Print Assumptions C120_wrap_stream_partial.
Print Assumptions C120_short_read_refuted.
Print Assumptions C120_eof_write_refuted.
Print Assumptions C120_healthy_file.
Print Assumptions C121_fixed.
Print Assumptions C122_inferred_partial.
Print Assumptions C122_seek_error_refuted.

(** ** The parts that hold of claims refuted above, as claims of their own (the examples above are theirs too) *)
Theorem C148_wrap_stream T (io : rws T) con pos : go_stream io con pos -> full_reads io -> no_eof_writes io ->
  forall bs total0 allow t os, 0 < bs -> 0 <= total0 -> total0 * bs <= zlen (con t) -> Forall (op_ok bs) os ->
  exists t' c' rs A', exec (wrap_cb io bs total0 allow) t (new_cache bs total0) os = Ret (t', c', rs) /\
    array_run bs (slice 0 (total0 * bs) (con t)) os rs A' /\
    forall t2 c2, flush_all (wrap_cb io bs total0 allow) t' c' = Ret (t2, c2, None) -> slice 0 (zlen A') (con t2) = A'.
Proof. apply C120_wrap_stream_partial. Qed.
Print Assumptions C148_wrap_stream.
