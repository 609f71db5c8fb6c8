(** * Props_NewFile: C170, opening a file from a handle whose Stat may say anything *)
From Coq Require Import String.
From Verif Require Import GoBase ListZ Errors Flags GoPath Spec_Path BlockCache BlockCacheProofs BasicStream Driver Spec_Driver DriverProofs DriverProofs2 Props_Driver2.

(** ** Specification: the three numbers of a stat, int64 each.  The number of bytes they promise is computed modulo 2^64, as a signed number. *)
Definition int64 (z : Z) : Prop := - 2^63 <= z < 2^63.
Definition capacity (st : fstat) : Z := i64 (f_bsize st * f_nblocks st).
Definition impossible (st : fstat) : Prop := f_nblocks st < 0 \/ capacity st < 0.
Definition disagreeing (st : fstat) : Prop := f_size st < 0 \/ capacity st < f_size st.
(* what a sane implementation reports *)
Definition sane (st : fstat) : Prop := 0 <= f_bsize st /\ 0 <= f_nblocks st /\ f_bsize st * f_nblocks st < 2^63 /\ 0 <= f_size st <= f_bsize st * f_nblocks st.

Lemma i64_u64_mul a b : i64 (u64 a * u64 b) = i64 (a * b).
Proof.
  unfold i64, u64. f_equal. rewrite <- (Zplus_mod_idemp_l (a mod 2^64 * (b mod 2^64))), <- (Zplus_mod_idemp_l (a * b)). now rewrite <- Zmult_mod.
Qed.
Lemma i64_u64 a : int64 a -> i64 (u64 a) = a.
Proof.
  intros Ha. unfold i64, u64. rewrite Zplus_mod_idemp_l. unfold int64 in Ha. rewrite Z.mod_small by lia. lia.
Qed.

(** ** C170 *)
Lemma fits_spec st : int64 (f_nblocks st) -> new_fits (u64 (f_bsize st)) (u64 (f_nblocks st)) = true <-> ~ impossible st.
Proof. intros H. unfold new_fits. rewrite i64_u64_mul, (i64_u64 _ H). unfold impossible, capacity. lia. Qed.
Lemma bad_size_spec st : (f_size st <? 0) || (f_size st >? size (new_cache (u64 (f_bsize st)) (u64 (f_nblocks st)))) = true <-> disagreeing st.
Proof. unfold size. cbn [new_cache bpb total]. rewrite i64_u64_mul. unfold disagreeing, capacity. lia. Qed.
(* opening without truncation is decided by the stat: it panics, is refused, or succeeds, and in no case touches the object *)
Theorem C170_open_exactly {F H} (im : impl F H) x flags s : meth x = true -> io_truncate flags = false ->
  let st := h_stat im (d_fs s) (x_h x) in int64 (f_nblocks st) ->
  (impossible st -> new_file im x flags s = Crash s) /\
  (~ impossible st -> disagreeing st -> new_file im x flags s = Done s (inr KBadSize)) /\
  (~ impossible st -> ~ disagreeing st -> exists f, new_file im x flags s = Done s (inl f) /\
     fl_obj f = x /\ fl_stat f = st /\ fl_flags f = flags /\ ssize (fl_stream f) = f_size st /\ spos (fl_stream f) = 0).
Proof.
  intros Hm Ht st Hi. pose proof (fits_spec st Hi) as HF. pose proof (bad_size_spec st) as HB.
  unfold new_file. rewrite bind_stat by exact Hm. fold st. cbv beta. destruct (new_fits (u64 (f_bsize st)) (u64 (f_nblocks st))) eqn:EF; cbn [negb].
  - split; [intros Hx; now apply HF in Hx|]. unfold s_new. destruct ((f_size st <? 0) || _) eqn:EB.
    + split; [intros _ _; reflexivity|]. intros _ Hd. exfalso. now apply Hd, HB.
    + split; [intros _ Hd; apply HB in Hd; congruence|]. intros _ _. rewrite Ht. eexists. split; [reflexivity|]. cbn. repeat split; reflexivity.
  - assert (~ ~ impossible st) as Hn by (intros Hx; apply HF in Hx; discriminate). split; [intros _; reflexivity|]. split; intros Hx; contradiction.
Qed.
(* a sane stat is enough *)
Theorem C170_sane_opens_partial {F H} (im : impl F H) x flags s : meth x = true -> io_truncate flags = false -> sane (h_stat im (d_fs s) (x_h x)) ->
  int64 (f_nblocks (h_stat im (d_fs s) (x_h x))) -> exists f, new_file im x flags s = Done s (inl f).
Proof.
  intros Hm Ht (H1 & H2 & H3 & H4) Hi. destruct (C170_open_exactly im x flags s Hm Ht Hi) as (_ & _ & HO).
  assert (capacity (h_stat im (d_fs s) (x_h x)) = f_bsize (h_stat im (d_fs s) (x_h x)) * f_nblocks (h_stat im (d_fs s) (x_h x))) as EC
    by (unfold capacity; apply i64_small'; split; [now apply Z.mul_nonneg_nonneg|exact H3]).
  destruct HO as (f & E & _); [unfold impossible; rewrite EC; lia|unfold disagreeing; rewrite EC; lia|]. now exists f.
Qed.
(* truncating does not help: the panic comes first *)
Theorem C170_impossible_panics_refuted {F H} (im : impl F H) x flags s : meth x = true -> let st := h_stat im (d_fs s) (x_h x) in
  int64 (f_nblocks st) -> impossible st -> new_file im x flags s = Crash s.
Proof.
  intros Hm st Hi Hx. unfold new_file. rewrite bind_stat by exact Hm. fold st. cbv beta.
  destruct (new_fits (u64 (f_bsize st)) (u64 (f_nblocks st))) eqn:EF; [|reflexivity]. apply fits_spec in EF; [contradiction|exact Hi].
Qed.
(* numbers can wrap around: 2^32 blocks of 2^32 bytes promise nothing, so that a file with a byte is refused and an empty one is opened *)
Theorem C170_wraparound_refuted {F H} (im : impl F H) x flags s : meth x = true -> io_truncate flags = false -> let st := h_stat im (d_fs s) (x_h x) in
  f_bsize st = 2^32 -> f_nblocks st = 2^32 -> (0 < f_size st -> new_file im x flags s = Done s (inr KBadSize)) /\ (f_size st = 0 -> exists f, new_file im x flags s = Done s (inl f)).
Proof.
  intros Hm Ht st Eb En. pose proof (C170_open_exactly im x flags s Hm Ht) as HX. cbv zeta in HX. fold st in HX.
  destruct HX as (_ & H1 & H2); [unfold int64; lia|].
  assert (capacity st = 0) as EC by (unfold capacity; rewrite Eb, En; reflexivity).
  assert (~ impossible st) as Hp by (unfold impossible; lia). split.
  - intros Hs. apply H1; [exact Hp|]. unfold disagreeing. lia.
  - intros Hs. destruct H2 as (f & E & _); [exact Hp|unfold disagreeing; lia|]. now exists f.
Qed.
Print Assumptions C170_open_exactly.
Print Assumptions C170_sane_opens_partial.
Print Assumptions C170_impossible_panics_refuted.
Print Assumptions C170_wraparound_refuted.
(* the memory file system with another stat for every file *)
Definition lying (size bs nb : Z) : impl node (list (list Z)) :=
  let m := memfs 4 in
  mkImpl node (list (list Z)) (i_root m) (i_get m) (i_create m) (i_link m) true true true
    (fun t h => let st := h_stat m t h in mkFstat (f_dev st) (f_ino st) (f_nlinks st) (f_mode st) (f_uid st) (f_gid st) (f_rdev st) size bs nb (f_created st) (f_changed st) (f_accessed st) (f_modified st) (f_deleted st))
    (h_resize m) (h_read m) (h_write m) (h_unlink m) (h_name m) (h_same m) (h_close m) (h_listdir m) (h_chmod m) (h_chown m) (h_chtimes m).
Example C170_example :
  (exists s' f, open_file (lying 5 4 2) Full demo 9 (B "f") O_RDONLY 0 (start (NDir tree)) = Done s' (inl f) /\ ssize (fl_stream f) = 5) /\
  (exists s', open_file (lying 9 4 2) Full demo 9 (B "f") O_RDONLY 0 (start (NDir tree)) = Done s' (inr KBadSize)) /\
  (exists s', open_file (lying (-1) 4 2) Full demo 9 (B "f") O_RDONLY 0 (start (NDir tree)) = Done s' (inr KBadSize)) /\
  (exists s', open_file (lying 5 4 (-2)) Full demo 9 (B "f") O_RDONLY 0 (start (NDir tree)) = Crash s') /\
  (exists s', open_file (lying 5 (2^62) 2) Full demo 9 (B "f") O_RDONLY 0 (start (NDir tree)) = Crash s').
Proof. repeat split; repeat eexists; vm_compute; reflexivity. Qed.
