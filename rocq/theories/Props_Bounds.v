(** * Property theorems C114-C115: the storage under the cache, sizes and bounds (proofs in BoundsProofs). *)
From Coq Require Import String.
From Verif Require Import GoBase ListZ Errors Flags Spec_Path BlockCache BlockCacheProofs Spec_BlockCache BasicStream Spec_BasicStream Driver Spec_Driver Spec_Bounds BoundsProofs Props_Driver2.

(** ** C114 *)
(* Two storages that agree on requests for one whole existing block, and differ arbitrarily elsewhere (in results,
   failures and their own state), cannot be told apart by any history of stream operations with any arguments, not
   even by the panics: nothing but existing whole blocks is ever asked for. *)
Theorem C114_stream_stays_inside {S} (cb1 cb2 : callbacks S) bs tot s sz flags os : 0 < bs < 2^59 -> 0 <= tot s -> tot s * bs < 2^63 ->
  tracks cb1 tot -> same_inside cb1 cb2 bs tot -> Forall sop_go os ->
  open_and_run cb1 bs (tot s) sz flags s os = open_and_run cb2 bs (tot s) sz flags s os.
Proof. intros Hbs H0 H1 Ht Hs Hf. now apply (open_run_same cb1 cb2 bs tot). Qed.
Theorem C114_cache_stays_inside {S} (cb1 cb2 : callbacks S) bs tot s os : 0 < bs < 2^59 -> 0 <= tot s -> tot s * bs < 2^63 ->
  tracks cb1 tot -> same_inside cb1 cb2 bs tot -> Forall (op_go bs) os ->
  exec cb1 s (new_cache bs (tot s)) os = exec cb2 s (new_cache bs (tot s)) os.
Proof. intros Hbs H0 H1 Ht Hs Hf. apply (exec_same cb1 cb2 bs tot); auto. apply new_shape; auto; lia. Qed.
(* storage: number of blocks, and an alarm that a request outside raises *)
Definition strict (bs : Z) : callbacks (Z * bool) :=
  let bad (s : Z * bool) i (b : list Z) := negb ((0 <=? i) && (i <? fst s) && (zlen b =? bs)) in
  mkCb (Z * bool) (fun s i b => ((fst s, snd s || bad s i b), zrepeat 7 (zlen b), None)) (fun s i b => ((fst s, snd s || bad s i b), None)) (fun s n => ((n, snd s), None)).
Definition lenient (bs : Z) : callbacks (Z * bool) :=
  mkCb (Z * bool) (fun s i b => (s, zrepeat 7 (zlen b), None)) (fun s i b => (s, None)) (fun s n => ((n, snd s), None)).
Example C114_example : tracks (strict 4) fst /\ same_inside (strict 4) (lenient 4) 4 fst /\
  (exists st rs, open_and_run (strict 4) 4 3 10 O_RDWR (3, false) [TReadAt 20 5; TWriteAt [1;2;3] 0; TTruncate 30; TWriteAt [1;2;3;4;5] 38; TSeek (-3) 2; TRead 9; TSync] = Ret ((11, false), Some st, None, rs)) /\
  (* the alarm works *)
  fst (fst (cb_fetch (strict 4) (3, false) 3 [0;0;0;0])) = (3, true).
Proof.
  split; [|split; [|split]].
  - split; [|split]; cbn.
    + intros s i b s' b' e [= <- <- <-]. split; [reflexivity|]. apply zlen_repeat, zlen_nonneg.
    + now intros s i b s' e [= <- <-].
    + now intros s n s' e [= <- <-].
  - split; [|reflexivity]. intros [t a] i b Hi Hl. cbn in *. replace ((0 <=? i) && (i <? t) && (zlen b =? 4)) with true by lia. now rewrite orb_false_r.
  - eexists. eexists. vm_compute. reflexivity.
  - reflexivity.
Qed.
(* A File does not keep this promise to the implementer of its ObjectHandle: the object is resized to a number of
   blocks taken as bytes (C52), so that the blocks written after that lie outside the object.  Here an object with
   blocks of 4 bytes is resized to 2 bytes, which is one block, and its block number 1 is written. *)
Definition empty_file : node := NDir [(B "f", NFile [])].
Theorem C114_object_bounds_refuted : exists s', run_op (memfs 4) Full demo 9 (PWriteFile (B "/f") (B "hello") 420) (start empty_file) = Done s' None /\
  d_log s' = [EvAcquire 0; EvGet 0 (B "f"); EvAcquire 1; EvRelease 0; EvResizeObj 1 0; EvResizeObj 1 2; EvWrite 1 0 (B "hell"); EvWrite 1 1 [111; 0; 0; 0]] /\
  f_nblocks (mem_stat 4 (d_fs s') [B "f"]) = 1 /\ lookup (d_fs s') [B "f"] = Some (NFile (B "he")).
Proof. eexists. split; [vm_compute; reflexivity|]. repeat split; vm_compute; reflexivity. Qed.

(** ** C115 *)
(* GetMinBlocksForSize, for every block size and every size a uint can hold *)
Theorem C115_min_blocks c sz : 0 <= bpb c < 2^64 -> 0 <= sz < 2^64 ->
  (bpb c = 0 /\ min_blocks c sz = Panic) \/
  exists n, min_blocks c sz = Ret n /\ (sz + bpb c <= 2^64 -> 0 <= n < 2^64 /\ sz <= n * bpb c /\ forall k, sz <= k * bpb c -> n <= k) /\
    (2^64 < sz + bpb c -> n * bpb c < sz).
Proof.
  intros Hb Hs. unfold min_blocks. destruct (bpb c =? 0) eqn:E0; [left; split; [lia|reflexivity]|right]. set (b := bpb c) in *.
  eexists. split; [reflexivity|]. split.
  - intros Hf. assert (u64 (u64 (sz + b) - 1) = sz + b - 1) as ->.
    { destruct (Z.eq_dec (sz + b) (2^64)) as [->|]; [reflexivity|]. rewrite (u64_small (sz + b)) by lia. apply u64_small. lia. }
    pose proof (cdiv_ge b sz ltac:(lia)) as G. pose proof (cdiv_lt b sz ltac:(lia)) as L. pose proof (cdiv_nonneg b sz ltac:(lia) ltac:(lia)) as N. split.
    + split; [lia|]. apply Z.div_lt_upper_bound; [lia|]. assert (1 * 2^64 <= b * 2^64) by (apply Z.mul_le_mono_nonneg_r; lia). lia.
    + split; [lia|]. intros k Hk. destruct (Z_le_gt_dec ((sz + b - 1) / b) k) as [|Hg]; [assumption|]. exfalso.
      assert ((k + 1) * b <= (sz + b - 1) / b * b) by (apply Z.mul_le_mono_nonneg_r; lia). lia.
  - intros Hf. assert (u64 (u64 (sz + b) - 1) = sz + b - 2^64 - 1) as ->.
    { assert (u64 (sz + b) = sz + b - 2^64) as ->; [|apply u64_small; lia]. unfold u64. symmetry. apply (Z.mod_unique _ _ 1); lia. }
    pose proof (Z.mul_div_le (sz + b - 2^64 - 1) b ltac:(lia)). lia.
Qed.
(* CheckBounds accepts exactly what lies inside, for devices and buffers that fit into memory *)
Theorem C115_check_bounds c start sz : 0 < bpb c < 2^63 -> 0 <= total c -> total c * bpb c < 2^63 -> 0 <= start < 2^64 -> 0 <= sz < 2^63 ->
  exists r, check_bounds c start sz = Ret r /\ (r = None <-> start < total c /\ start * bpb c + sz <= total c * bpb c) /\
    (r <> None -> r = Some (K ErrArgumentOutOfRange)).
Proof.
  intros Hb Ht Htb Hst Hs. unfold check_bounds. destruct (C115_min_blocks c sz ltac:(lia) ltac:(lia)) as [[E _]|(n & -> & Hn & _)]; [lia|].
  destruct Hn as (N0 & N1 & N2); [lia|]. set (b := bpb c) in *.
  assert (n <= sz) as N3 by (apply N2; assert (sz * 1 <= sz * b) by (apply Z.mul_le_mono_nonneg_l; lia); lia).
  assert (total c < 2^63) as T3 by (assert (total c * 1 <= total c * b) by (apply Z.mul_le_mono_nonneg_l; lia); lia).
  destruct (start >=? total c) eqn:E1.
  { eexists. split; [reflexivity|]. split; [|auto]. split; [discriminate|]. intros [A _]. lia. }
  rewrite u64_small by lia. destruct (start + n >? total c) eqn:E2; eexists; (split; [reflexivity|]); (split; [|try congruence]).
  - split; [discriminate|]. intros [_ A]. exfalso. assert (n <= total c - start) by (apply N2; rewrite Z.mul_sub_distr_r; lia). lia.
  - split; [|reflexivity]. intros _. split; [lia|]. assert ((start + n) * b <= total c * b) by (apply Z.mul_le_mono_nonneg_r; lia). lia.
Qed.
(* exactly what is accepted, for all block sizes, device sizes, starts and buffer sizes a uint can hold *)
Theorem C115_check_bounds_exactly c start sz : 0 < bpb c < 2^64 -> 0 <= total c < 2^64 -> 0 <= start < 2^64 -> 0 <= sz < 2^64 ->
  exists r, check_bounds c start sz = Ret r /\ (r <> None -> r = Some (K ErrArgumentOutOfRange)) /\
    (r = None <-> start < total c /\ (start * bpb c + sz <= total c * bpb c \/ 2^64 < sz + bpb c \/ (2^64 - 1) * bpb c < start * bpb c + sz)).
Proof.
  intros Hb Ht Hst Hs. unfold check_bounds, min_blocks. replace (bpb c =? 0) with false by lia. set (b := bpb c) in *. set (t := total c) in *. clearbody b t.
  destruct (start >=? t) eqn:E1.
  { eexists. split; [reflexivity|]. split; [auto|]. split; [discriminate|]. intros [A _]. lia. }
  destruct (Z_le_gt_dec (sz + b) (2^64)) as [Hw|Hw].
  - assert (EU : u64 (u64 (sz + b) - 1) = sz + b - 1).
    { unfold u64. destruct (Z.eq_dec (sz + b) (2^64)) as [->|]; [rewrite Z.mod_same by lia; reflexivity|]. rewrite (Z.mod_small (sz + b)), Z.mod_small; lia. }
    rewrite EU. set (m := (sz + b - 1) / b). assert (M1 : sz <= m * b /\ (m - 1) * b < sz /\ 0 <= m).
    { unfold m. pose proof (Z.div_mod (sz + b - 1) b ltac:(lia)) as D. pose proof (Z.mod_pos_bound (sz + b - 1) b ltac:(lia)). assert (0 <= (sz + b - 1) / b) by (apply Z.div_pos; lia). nia. }
    assert (M2 : m <= sz) by (destruct (Z_le_gt_dec m sz); [assumption|exfalso; nia]). clearbody m. clear EU.
    destruct (Z_lt_le_dec (start + m) (2^64)) as [Hn|Hn].
    + rewrite u64_small by lia. destruct (start + m >? t) eqn:E2; eexists; (split; [reflexivity|]); (split; [auto; congruence|]).
      * split; [discriminate|]. intros [_ [A|[A|A]]]; exfalso; [|lia|]; nia.
      * split; [|reflexivity]. intros _. split; [lia|]. left. nia.
    + assert (EW : u64 (start + m) = start + m - 2^64) by (unfold u64; replace (start + m) with (start + m - 2^64 + 1 * 2^64) at 1 by lia; rewrite Z.mod_add by lia; apply Z.mod_small; lia).
      rewrite EW. replace (start + m - 2^64 >? t) with false by lia. eexists. split; [reflexivity|]. split; [congruence|]. split; [|reflexivity]. intros _. split; [lia|]. right. right. nia.
  - assert (EU : u64 (u64 (sz + b) - 1) / b = 0).
    { unfold u64. replace (sz + b) with (sz + b - 2^64 + 1 * 2^64) by lia. rewrite Z.mod_add by lia. rewrite (Z.mod_small (sz + b - 2^64)), Z.mod_small by lia. apply Z.div_small. lia. }
    rewrite EU, Z.add_0_r, u64_small by lia. replace (start >? t) with false by lia. eexists. split; [reflexivity|]. split; [congruence|]. split; [|reflexivity]. intros _. split; [lia|]. right. left. lia.
Qed.
(* other sizes a caller can pass, and devices over callbacks larger than that, get wrong answers: 2^64 - 1 bytes
   at block 0 of ten blocks are "in bounds" *)
Theorem C115_check_bounds_refuted : check_bounds (mkCache 512 10 [] [] []) 0 (2^64 - 1) = Ret None /\ min_blocks (mkCache 512 10 [] [] []) (2^64 - 1) = Ret 0 /\
  check_bounds (mkCache 1 10 [] [] []) 9 (2^64 - 1) = Ret None.
Proof. vm_compute. auto. Qed.
(* Size *)
Theorem C115_size bs n : 0 <= bs < 2^64 -> 0 <= n < 2^64 -> (size (new_cache bs n) = bs * n <-> bs * n < 2^63).
Proof.
  intros Hb Hn. assert (0 <= bs * n) by (apply Z.mul_nonneg_nonneg; lia). unfold size. cbn [new_cache bpb total]. unfold i64. split; intros E.
  - pose proof (Z.mod_pos_bound (bs * n + 2^63) (2^64) ltac:(lia)). lia.
  - rewrite Z.mod_small by lia. lia.
Qed.
(* the contract of BlockDevice.Size: more than BytesPerBlock*(TotalBlocks-1), at most BytesPerBlock*TotalBlocks *)
Theorem C115_size_contract bs n : 0 < bs < 2^64 -> 0 <= n < 2^64 -> bs * n < 2^63 ->
  bs * (n - 1) < size (new_cache bs n) <= bs * n.
Proof. intros Hb Hn H. assert (size (new_cache bs n) = bs * n) as -> by (apply C115_size; lia). lia. Qed.
Example C115_example : min_blocks (new_cache 512 10) 1025 = Ret 3 /\ check_bounds (new_cache 512 10) 8 1024 = Ret None /\
  check_bounds (new_cache 512 10) 8 1025 = Ret (Some (K ErrArgumentOutOfRange)) /\ size (new_cache 512 10) = 5120.
Proof. vm_compute. auto. Qed.

Print Assumptions C114_stream_stays_inside.
Print Assumptions C114_cache_stays_inside.
Print Assumptions C114_object_bounds_refuted.
Print Assumptions C115_min_blocks.
Print Assumptions C115_check_bounds.
Print Assumptions C115_check_bounds_exactly.
Print Assumptions C115_check_bounds_refuted.
Print Assumptions C115_size.
Print Assumptions C115_size_contract.

(** ** The parts that hold of claims refuted above, as claims of their own (the examples above are theirs too) *)
Theorem C144_stream_stays_inside {S} (cb1 cb2 : callbacks S) bs tot s sz flags os : 0 < bs < 2^59 -> 0 <= tot s -> tot s * bs < 2^63 ->
  tracks cb1 tot -> same_inside cb1 cb2 bs tot -> Forall sop_go os ->
  open_and_run cb1 bs (tot s) sz flags s os = open_and_run cb2 bs (tot s) sz flags s os.
Proof. apply C114_stream_stays_inside. Qed.
Theorem C144_cache_stays_inside {S} (cb1 cb2 : callbacks S) bs tot s os : 0 < bs < 2^59 -> 0 <= tot s -> tot s * bs < 2^63 ->
  tracks cb1 tot -> same_inside cb1 cb2 bs tot -> Forall (op_go bs) os ->
  exec cb1 s (new_cache bs (tot s)) os = exec cb2 s (new_cache bs (tot s)) os.
Proof. apply C114_cache_stays_inside. Qed.
Theorem C145_check_bounds c start sz : 0 < bpb c < 2^63 -> 0 <= total c -> total c * bpb c < 2^63 -> 0 <= start < 2^64 -> 0 <= sz < 2^63 ->
  exists r, check_bounds c start sz = Ret r /\ (r = None <-> start < total c /\ start * bpb c + sz <= total c * bpb c) /\
    (r <> None -> r = Some (K ErrArgumentOutOfRange)).
Proof. apply C115_check_bounds. Qed.
Theorem C145_min_blocks c sz : 0 < bpb c < 2^64 -> 0 <= sz -> sz + bpb c <= 2^64 ->
  exists n, min_blocks c sz = Ret n /\ 0 <= n < 2^64 /\ sz <= n * bpb c /\ forall k, sz <= k * bpb c -> n <= k.
Proof.
  intros Hb Hs Hf. destruct (C115_min_blocks c sz ltac:(lia) ltac:(lia)) as [[X _]|(n & E & HN & _)]; [lia|]. exists n. split; [exact E|]. now apply HN.
Qed.
Theorem C145_size bs n : 0 <= bs < 2^64 -> 0 <= n < 2^64 -> bs * n < 2^63 -> size (new_cache bs n) = bs * n.
Proof. intros Hb Hn H. now apply C115_size. Qed.
Print Assumptions C144_stream_stays_inside.
Print Assumptions C144_cache_stays_inside.
Print Assumptions C145_check_bounds.
Print Assumptions C145_min_blocks.
Print Assumptions C145_size.
