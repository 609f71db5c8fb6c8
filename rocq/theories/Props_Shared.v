(** * Props_Shared: C123, several caches over the same storage *)
From Coq Require Import String.
From Verif Require Import GoBase ListZ Errors Flags GoPath Spec_Path BlockCache BasicStream Driver DriverFile Spec_Driver Props_Driver2 Spec_BlockCache BlockCacheProofs BlockCacheProofs2 BlockCacheProofs3 Spec_Shared SharedProofs.

(** ** Witness: a file of two blocks of four bytes *)
Definition sh_file : list Z := [10; 11; 12; 13; 20; 21; 22; 23].
Definition sh_cb : callbacks (list Z) := wrap_stream_cb 4 2 false false.
Definition sh_pool : pool := fun _ => new_cache 4 2.
Definition sh_nb (f : list Z) : Z := fnb 4 2 f.
Lemma sh_honest : honest sh_cb 4 sh_nb (fblk 4).
Proof. apply (honest_file 4 2 false false (cb_resize sh_cb)); [lia|lia|]. intros f n f' e Hn E. cbn in E. injection E as <- <-. reflexivity. Qed.

(** ** C123 *)
(* whatever the other caches write and flush, a cache that has read a range keeps returning what it read first *)
Theorem C123_stale_refuted {S} (cb : callbacks S) bs nb blk n s0 os1 os2 k a l s1 p1 rs1 s2 c2 b :
  honest cb bs nb blk -> 0 < bs -> 0 <= n <= nb s0 -> bs * n < 2^63 ->
  Forall (fun ko => op_ok bs (snd ko) /\ forall m, snd ko <> OResize m) (os1 ++ os2) -> op_ok bs (ORead a l) -> Forall (fun ko => fst ko <> k) os2 ->
  share cb s0 (fun _ => new_cache bs n) os1 = Ret (s1, p1, rs1) -> exec_op cb s1 (p1 k) (ORead a l) = Ret (s2, c2, RBytes b) ->
  exists s p rs, share cb s0 (fun _ => new_cache bs n) (os1 ++ (k, ORead a l) :: os2 ++ [(k, ORead a l)]) = Ret (s, p, rs1 ++ RBytes b :: rs ++ [RBytes b]).
Proof. intros H Hb. exact (stale cb bs nb blk H Hb n s0 os1 os2 k a l s1 p1 rs1 s2 c2 b). Qed.
(* cache 1 replaces block 0 and flushes; cache 0 still returns the old block *)
Example C123_stale_ex : exists s p, share sh_cb sh_file sh_pool [(0%nat, ORead 0 4); (1%nat, OWrite 0 [1; 2; 3; 4]); (1%nat, OFlush); (0%nat, ORead 0 4)] =
  Ret (s, p, [RBytes [10; 11; 12; 13]; ROk; ROk; RBytes [10; 11; 12; 13]]) /\ s = [1; 2; 3; 4; 20; 21; 22; 23].
Proof. eexists. eexists. split; [vm_compute; reflexivity|reflexivity]. Qed.
(* two caches change different bytes of one block; both succeed, both flush, and one change is gone *)
Theorem C123_lost_update_refuted : exists s p, share sh_cb sh_file sh_pool
    [(0%nat, OModify 0 1 0 [1]); (1%nat, OModify 0 1 3 [4]); (0%nat, OFlush); (1%nat, OFlush)] = Ret (s, p, [ROk; ROk; ROk; ROk]) /\ s = [10; 11; 12; 4; 20; 21; 22; 23].
Proof. eexists. eexists. split; [vm_compute; reflexivity|reflexivity]. Qed.
(* as long as every block that is changed is used by one cache only, all caches together are one array, for every interleaving,
   and the storage is that array once the writers have flushed *)
Theorem C123_disjoint_partial {S} (cb : callbacks S) bs nb blk n rd wr s0 os :
  honest cb bs nb blk -> 0 < bs -> 0 <= n <= nb s0 -> bs * n < 2^63 -> one_writer rd wr -> Forall (follows bs n rd wr) os ->
  exists s p rs A, share cb s0 (fun _ => new_cache bs n) os = Ret (s, p, rs) /\ array_run bs (storage_bytes blk s0 n) (map snd os) rs A /\
    forall ks s' p' rs', (forall k i, wr k i = true -> In k ks) -> share cb s p (map (fun k => (k, OFlush)) ks) = Ret (s', p', rs') -> Forall (eq ROk) rs' ->
      storage_bytes blk s' n = A.
Proof. intros H Hb Hn Hf Hex HF. exact (share_disjoint cb bs nb blk H Hb n rd wr Hex s0 os Hn Hf HF). Qed.
(* caches 0 and 1 own blocks 0 and 1 *)
Definition sh_own (k : nat) (i : Z) : bool := Z.of_nat k =? i.
Definition sh_ops : list (nat * op) := [(0%nat, OWrite 0 [1; 2]); (1%nat, OWrite 1 [3]); (0%nat, OFlush); (1%nat, ORead 1 4); (1%nat, OModify 1 1 2 [9]); (0%nat, ORead 0 4); (1%nat, OFlush)].
Example C123_disjoint_ex : one_writer sh_own sh_own /\ Forall (follows 4 2 sh_own sh_own) sh_ops /\ 0 <= 2 <= sh_nb sh_file /\ exists s p,
  share sh_cb sh_file sh_pool sh_ops = Ret (s, p, [ROk; ROk; ROk; RBytes [3; 21; 22; 23]; ROk; RBytes [1; 2; 12; 13]; ROk]) /\ s = [1; 2; 12; 13; 3; 21; 9; 23].
Proof.
  split; [unfold one_writer, sh_own; intros k i E; split; [exact E|intros j Ej; lia]|]. split.
  - unfold sh_ops, sh_own. repeat (apply Forall_cons; [split; [cbn; lia|split; [discriminate|split; intros i Hi Ht; cbn [fst snd touches changes] in *; first [contradiction|lia|vm_compute in Ht; destruct Ht as [Ht|[]]; lia]]]|]). constructor.
  - split; [vm_compute; split; discriminate|]. eexists. eexists. split; [vm_compute; reflexivity|reflexivity].
Qed.
(* one after the other: a cache made after a successful flush sees everything *)
Theorem C123_handoff_partial {S} (cb : callbacks S) bs nb blk s0 total0 s c s' c' os :
  honest cb bs nb blk -> reachable cb bs nb s0 total0 s c -> flush_all cb s c = Ret (s', c', None) -> Forall (op_ok bs) os ->
  exists s2 c2 rs A, exec cb s' (new_cache bs (total c)) os = Ret (s2, c2, rs) /\ array_run bs (contents blk s c) os rs A.
Proof.
  intros H HR HF Hos. destruct (reach_inv cb bs nb blk H s0 total0 s c HR) as (Hb & I & _). destruct (flush_ok_clean cb bs nb blk H s c s' c' Hb I HF) as (I' & T & _ & _ & ES & Hp).
  pose proof (i_total _ _ _ _ _ I') as Ht. pose proof (i_fits _ _ _ _ _ I') as Hf. rewrite T in Ht, Hf.
  destruct (exec_refines (Q := True) cb bs nb blk H Hb os s' (new_cache bs (total c)) _ (new_inv bs nb blk Hb s' (total c) Ht Hf) (new_rep cb bs nb blk H Hb s' (total c) Ht Hf) Hos) as (s2 & c2 & rs & evss & A & E & _ & _ & _ & Hio).
  exists s2, c2, rs, A. split; [exact E|]. apply io_run_array in Hio. cbn [viewof vA] in Hio. rewrite ES in Hio. exact Hio.
Qed.
Example C123_handoff_ex : exists s c s' c', exec sh_cb sh_file (new_cache 4 2) [OWrite 1 [5; 6]; ORead 0 2] = Ret (s, c, [ROk; RBytes [10; 11]]) /\
  flush_all sh_cb s c = Ret (s', c', None) /\ contents (fblk 4) s c = [10; 11; 12; 13; 5; 6; 22; 23].
Proof. do 4 eexists. split; [vm_compute; reflexivity|]. split; [vm_compute; reflexivity|vm_compute; reflexivity]. Qed.
(* no interleaving makes any of the caches panic *)
Theorem C123_no_panic_partial {S} (cb : callbacks S) bs nb blk n s0 os : honest cb bs nb blk -> 0 < bs -> 0 <= n <= nb s0 -> bs * n < 2^63 ->
  Forall (fun ko => op_ok bs (snd ko) /\ forall m, snd ko <> OResize m) os ->
  exists s p rs, share cb s0 (fun _ => new_cache bs n) os = Ret (s, p, rs) /\ length rs = length os.
Proof. intros H Hb Hn Hf HF. destruct (any_run cb bs nb blk H Hb n os s0 _ (shaped_fresh bs nb blk Hb n s0 Hn Hf) HF) as (s & p & rs & E & _ & L & _). eauto. Qed.
(* the same for two files opened on one path: the second one cuts the file, the first one still reads all of it.  (A write through the
   second one would not even reach the storage, C34.) *)
Theorem C123_files_refuted : exists s1 f1 s2 f2 s3 f1a s4 f2a s5 f1b,
  open_file (memfs 1) Full demo 9 (B "f") O_RDWR 0 (start (NDir tree)) = Done s1 (inl f1) /\ open_file (memfs 1) Full demo 9 (B "f") O_RDWR 0 s1 = Done s2 (inl f2) /\
  fl_read_at (memfs 1) f1 (zrepeat 0 4) 0 s2 = Done s3 (f1a, B "hell", 4, None) /\
  fl_truncate (memfs 1) f2 2 s3 = Done s4 (f2a, None) /\ lookup (d_fs s4) [B "f"] = Some (NFile (B "he")) /\
  fl_read_at (memfs 1) f1a (zrepeat 0 4) 0 s4 = Done s5 (f1b, B "hell", 4, None).
Proof. do 10 eexists. split; [vm_compute; reflexivity|]. split; [vm_compute; reflexivity|]. split; [vm_compute; reflexivity|]. split; [vm_compute; reflexivity|]. split; [vm_compute; reflexivity|]. vm_compute. reflexivity. Qed.
Print Assumptions C123_stale_refuted.
Print Assumptions C123_lost_update_refuted.
Print Assumptions C123_disjoint_partial.
Print Assumptions C123_handoff_partial.
Print Assumptions C123_no_panic_partial.
Print Assumptions C123_files_refuted.

(** ** The parts that hold of claims refuted above, as claims of their own (the examples above are theirs too) *)
Theorem C149_disjoint {S} (cb : callbacks S) bs nb blk n rd wr s0 os :
  honest cb bs nb blk -> 0 < bs -> 0 <= n <= nb s0 -> bs * n < 2^63 -> one_writer rd wr -> Forall (follows bs n rd wr) os ->
  exists s p rs A, share cb s0 (fun _ => new_cache bs n) os = Ret (s, p, rs) /\ array_run bs (storage_bytes blk s0 n) (map snd os) rs A /\
    forall ks s' p' rs', (forall k i, wr k i = true -> In k ks) -> share cb s p (map (fun k => (k, OFlush)) ks) = Ret (s', p', rs') -> Forall (eq ROk) rs' ->
      storage_bytes blk s' n = A.
Proof. apply C123_disjoint_partial. Qed.
Theorem C149_handoff {S} (cb : callbacks S) bs nb blk s0 total0 s c s' c' os :
  honest cb bs nb blk -> reachable cb bs nb s0 total0 s c -> flush_all cb s c = Ret (s', c', None) -> Forall (op_ok bs) os ->
  exists s2 c2 rs A, exec cb s' (new_cache bs (total c)) os = Ret (s2, c2, rs) /\ array_run bs (contents blk s c) os rs A.
Proof. apply C123_handoff_partial. Qed.
Theorem C149_no_panic {S} (cb : callbacks S) bs nb blk n s0 os : honest cb bs nb blk -> 0 < bs -> 0 <= n <= nb s0 -> bs * n < 2^63 ->
  Forall (fun ko => op_ok bs (snd ko) /\ forall m, snd ko <> OResize m) os ->
  exists s p rs, share cb s0 (fun _ => new_cache bs n) os = Ret (s, p, rs) /\ length rs = length os.
Proof. apply C123_no_panic_partial. Qed.
Print Assumptions C149_disjoint.
Print Assumptions C149_handoff.
Print Assumptions C149_no_panic.
