(** * Props_Fat8Errors: C180, the errors of the FAT8 driver and errors.Is *)
From Coq Require Import String.
From Verif Require Import GoBase ListZ Errors OsFile Fat8 Spec_Fat8 Fat8Proofs Fat8Proofs2 Props_Fat8.

(** ** Specification: an error that errors.Is connects with none of the errors of errors.go *)
Definition plain (e : kerr) : Prop := forall s, kerr_is e s = false.
(* ... and one that it connects with that error *)
Definition says (e : kerr) (s : sentinel) : Prop := kerr_is e s = true.

Lemma plain_ext n : plain (KExt n). Proof. intros s. reflexivity. Qed.
Lemma plain_eof : plain KEOF. Proof. intros s. reflexivity. Qed.
Lemma says_self s : says (K s) s. Proof. unfold says. cbn. apply String.eqb_refl. Qed.
Lemma rem_mod size : Z.rem size 128 = 0 <-> size mod 128 = 0.
Proof. rewrite Z.rem_divide by lia. now rewrite Z.mod_divide by lia. Qed.

(** ** C180 *)
(* FormatImage on a working device: a mounted driver is busy, a size that is not a number of blocks is an invalid
   argument, but a size no disk has gives an error that cannot be told from any other *)
Theorem C180_format_refuted d f size d' f' e : healthy f -> - 2^63 <= size < 2^63 -> format8 d f size = Ret (d', f', Some e) ->
  (isMounted d = true /\ says e ErrBusy) \/
  (isMounted d = false /\ size mod 128 <> 0 /\ says e ErrInvalidArgument) \/
  (isMounted d = false /\ size mod 128 = 0 /\ ~ valid_size size /\ plain e).
Proof.
  intros Hh Hs H. destruct (isMounted d) eqn:Em.
  { left. split; [reflexivity|]. unfold format8 in H. rewrite Em in H. injection H as _ _ <-. apply says_self. }
  destruct (Z.eq_dec (size mod 128) 0) as [E0|E0].
  - right. right. split; [reflexivity|]. split; [exact E0|].
    assert (~ valid_size size) as Hv.
    { intros Hv. destruct (proj2 (C59_format_iff d f size Hh Hs) (conj Em Hv)) as (a & b & E). congruence. }
    split; [exact Hv|]. unfold format8 in H. rewrite Em in H. apply rem_mod in E0. rewrite E0 in H. change (negb (0 =? 0)) with false in H. cbv iota zeta in H.
    destruct (get_geometry (u64 size / 128)) as [g|ge] eqn:Eg.
    + exfalso. apply Hv. apply valid_size_geo. apply rem_mod in E0.
      pose proof (Z.div_mod size 128 ltac:(lia)) as HD.
      destruct (Z_lt_le_dec size 0) as [Hn|Hn].
      * destruct (get_geo_cases _ _ Eg) as [[X _]|[[X _]|[X _]]]; unfold u64 in X; rewrite <- (Z.mod_unique_pos size (2^64) (-1) (size + 2^64)) in X by lia; pose proof (Z.div_mod (size + 2^64) 128 ltac:(lia)); pose proof (Z.mod_pos_bound (size + 2^64) 128 ltac:(lia)); lia.
      * rewrite u64_id in Eg by lia. exists (size / 128), g. split; [lia|exact Eg].
    + assert (ge = err_bad_blocks) as -> by (unfold get_geometry in Eg; repeat destruct (_ =? _); congruence).
      injection H as _ _ <-. apply plain_ext.
  - right. left. split; [reflexivity|]. split; [exact E0|]. unfold format8 in H. rewrite Em in H.
    destruct (Z.rem size 128 =? 0) eqn:Er; [apply Z.eqb_eq, rem_mod in Er; contradiction|]. injection H as _ _ <-. apply says_self.
Qed.
(* writing on a working device: WriteDiskBlocks says ErrIOFailed *)
Theorem C180_write_blocks_partial d f s b f' e : healthy f -> 0 <= s < 2^56 -> write_blocks d f s b = (f', Some e) -> says e ErrIOFailed /\ f' = f.
Proof.
  intros Hh Hs. unfold write_blocks. destruct (negb _); [intros H; injection H as <- <-; split; [apply says_self|reflexivity]|].
  destruct (_ >? _); [intros H; injection H as <- <-; split; [apply says_self|reflexivity]|].
  rewrite (i64_id8 s), (i64_id8 (s * 128)) by lia. unfold f_write_at. destruct (Z.ltb_spec (s * 128) 0); [lia|].
  destruct (zlen b =? 0); [discriminate|]. unfold syscall. rewrite Hh. discriminate.
Qed.
(* but none of the errors of reading, on any device, is one of the library's *)
Theorem C180_read_refuted d f : 
  (forall s n f' e, read_blocks d f s n = Ret (f', inr e) -> plain e) /\
  (forall c f' e, read_cluster d f c = Ret (f', inr e) -> plain e) /\
  (forall de i f' e, read_file_cluster d f de i = Ret (f', inr e) -> plain e).
Proof.
  assert (forall s n f' e, read_blocks d f s n = Ret (f', inr e) -> plain e) as HR.
  { intros s n f' e. unfold read_blocks. destruct (_ >=? _); [intros H; injection H as _ <-; apply plain_ext|]. destruct (_ >? _); [discriminate|].
    unfold f_read_at. destruct (_ <? 0); [intros H; injection H as _ <-; apply plain_ext|]. destruct (_ =? 0); [discriminate|].
    destruct (syscall f) as [[k|] f1]; [intros H; injection H as _ <-; apply plain_ext|]. destruct (_ <=? _); [discriminate|]. intros H. injection H as _ <-. apply plain_eof. }
  split; [exact HR|]. split.
  - intros c f' e. unfold read_cluster. destruct (negb _); [intros H; injection H as _ <-; apply plain_ext|apply HR].
  - intros de i f' e. unfold read_file_cluster. destruct (_ >=? _); [intros H; injection H as _ <-; apply plain_ext|]. destruct (_ <? 0); [discriminate|]. apply HR.
Qed.
(* WriteAbsoluteCluster: ErrIOFailed for a cluster that it would put beyond the image (C65), and an error that says nothing for a number that is no cluster's or data of another length *)
Theorem C180_write_cluster_refuted d f c b f' e : healthy f -> 0 <= c < 256 -> 0 <= SectorsPerTrack (geo d) < 2^32 -> write_cluster d f c b = (f', Some e) ->
  f' = f /\
  (~ (1 <= c <= TotalClusters (geo d)) \/ zlen b <> i64 (BytesPerCluster (geo d)) -> plain e) /\
  (1 <= c <= TotalClusters (geo d) -> zlen b = i64 (BytesPerCluster (geo d)) -> says e ErrIOFailed).
Proof.
  intros Hh Hc Hp. unfold write_cluster, valid_cluster. destruct (Z.geb_spec c 1), (Z.leb_spec c (TotalClusters (geo d))); cbn [andb negb];
    try (intros H'; injection H' as <- <-; split; [reflexivity|]; split; [intros _; apply plain_ext|lia]).
  destruct (Z.eqb_spec (zlen b) (i64 (BytesPerCluster (geo d)))) as [El|El]; cbn [negb].
  - intros H'. rewrite (u64_id (c - 1)) in H' by lia.
    assert (0 <= (c - 1) * SectorsPerTrack (geo d) < 2^8 * 2^32) as Hb by (split; [apply Z.mul_nonneg_nonneg; lia|apply Z.mul_lt_mono_nonneg; lia]).
    rewrite u64_id in H' by lia. apply C180_write_blocks_partial in H'; [|exact Hh|lia]. destruct H' as [H1 H2]. split; [exact H2|]. split; [intros [X|X]; [lia|congruence]|auto].
  - intros H'. injection H' as <- <-. split; [reflexivity|]. split; [intros _; apply plain_ext|congruence].
Qed.
(* Mount says ErrAlreadyInProgress, and ErrFileSystemCorrupted for an image of another size or with different FATs *)
Theorem C180_mount_partial d f : 
  (isMounted d = true -> exists e, mount8 d f = Ret (d, f, Some e) /\ says e ErrAlreadyInProgress) /\
  (isMounted d = false -> healthy f -> zlen (contents f) < 2^63 -> (forall tb, tb = 640 \/ tb = 1898 \/ tb = 2002 -> zlen (contents f) / 128 <> tb) ->
     exists e, mount8 d f = Ret (d, f, Some e) /\ says e ErrFileSystemCorrupted) /\
  (forall tb g, isMounted d = false -> healthy f -> zlen (contents f) = 128 * tb -> get_geometry tb = inl g -> fat_end g < TotalBlocks (st8 d) < 2^50 ->
     ~ (fat_copy g f 0 = fat_copy g f 1 /\ fat_copy g f 0 = fat_copy g f 2) ->
     exists d' e, mount8 d f = Ret (d', f, Some e) /\ isMounted d' = false /\ says e ErrFileSystemCorrupted).
Proof.
  split.
  { intros Hm. unfold mount8. rewrite Hm. eexists. split; [reflexivity|]. apply says_self. }
  split.
  { intros Hm Hh Hl Ho. destruct (C61_other_sizes_refused d f Hh Hm Hl Ho) as [E1 E2]. eexists. split; [exact E1|exact E2]. }
  intros tb g Hm Hh Hl Hg Ht Hd. destruct (C64_mount d f tb g Hh Hm Hl Hg Ht Hd) as (d' & E & Hd'). exists d', (K ErrFileSystemCorrupted). split; [exact E|]. split; [exact Hd'|apply says_self].
Qed.
(* a driver that was just made fails on every good image, with an error that says nothing *)
Theorem C180_mount_refuted f : healthy f -> valid_size (zlen (contents f)) -> exists d' f' e, mount8 new_driver f = Ret (d', f', Some e) /\ plain e.
Proof.
  intros Hh Hv. apply valid_size_geo in Hv. destruct Hv as (tb & g & El & Hg).
  assert (0 <= tb < 2^12) as Htb by (clear -Hg; apply get_geo_cases in Hg; destruct Hg as [[-> _]|[[-> _]|[-> _]]]; lia).
  unfold mount8. cbn [new_driver isMounted]. unfold f_size_of, syscall. rewrite Hh. rewrite El, u64_id by lia. rewrite Z.mul_comm, Z.div_mul by lia. rewrite Hg.
  unfold get_fat, read_blocks at 1. cbn [with_geo geo st8 TotalBlocks zero_stat].
  pose proof (u64_range (FATsStart g + SectorsPerFAT g)). replace (u64 (FATsStart g + SectorsPerFAT g) >=? TotalBlocks (st8 new_driver)) with true by (cbn [st8 new_driver zero_stat TotalBlocks]; lia).
  cbn [rbind]. do 3 eexists. split; [reflexivity|]. apply plain_ext.
Qed.
(* so Flush says ErrIOFailed, and leaves the image alone *)
Theorem C180_flush_partial d f f' e : healthy f -> 0 <= FATsStart (geo d) < 2^56 -> flush8 d f = (f', Some e) -> says e ErrIOFailed /\ f' = f.
Proof. intros Hh Hs H. eapply C180_write_blocks_partial; [exact Hh|exact Hs|exact H]. Qed.
(* the second cluster of a file of one cluster cannot be written, nor read, and the error says nothing *)
Theorem C180_file_cluster_refuted d f de i b : zlen (d_clusters de) <= i < 2^63 -> exists e, plain e /\
  write_file_cluster d f de i b = Ret (f, Some e) /\ read_file_cluster d f de i = Ret (f, inr e).
Proof.
  intros Hi. assert (0 <= zlen (d_clusters de)) by apply zlen_nonneg. exists err_cluster_index. split; [apply plain_ext|]. unfold write_file_cluster, read_file_cluster. rewrite i64_id8 by lia.
  now replace (i >=? zlen (d_clusters de)) with true by lia.
Qed.
Print Assumptions C180_format_refuted.
Print Assumptions C180_write_blocks_partial.
Print Assumptions C180_read_refuted.
Print Assumptions C180_write_cluster_refuted.
Print Assumptions C180_mount_partial.
Print Assumptions C180_mount_refuted.
Print Assumptions C180_flush_partial.
Print Assumptions C180_file_cluster_refuted.
(* each refusal happens *)
Example C180_example :
  (exists e, format8 new_driver empty_file (128 * 641) = Ret (new_driver, empty_file, Some e) /\ plain e) /\
  (exists e, format8 new_driver empty_file 100 = Ret (new_driver, empty_file, Some e) /\ says e ErrInvalidArgument) /\
  (exists e, write_blocks demo8 demo_img 639 (zrepeat 5 256) = (demo_img, Some e) /\ says e ErrIOFailed) /\
  (exists e, write_cluster demo8 demo_img 81 (zrepeat 5 1024) = (demo_img, Some e) /\ plain e) /\
  (exists e, write_cluster demo8 demo_img 1 (zrepeat 5 1023) = (demo_img, Some e) /\ plain e) /\
  (exists e, write_cluster demo8 demo_img 80 (zrepeat 5 1024) = (demo_img, Some e) /\ says e ErrIOFailed) /\
  (exists e, read_blocks demo8 demo_img 639 1 = Ret (demo_img, inr e) /\ plain e).
Proof.
  repeat match goal with |- _ /\ _ => split end; (eexists; split; [reflexivity|]; first [vm_compute; reflexivity | intros s; reflexivity]).
Qed.
(* a driver that knows no image cannot flush a FAT it was given *)
Example C180_flush_example : let d := mkD8 G640 0 zero_stat [] (zrepeat 255 128) false [] in exists e, flush8 d demo_img = (demo_img, Some e) /\ says e ErrIOFailed /\ 0 <= FATsStart (geo d) < 2^56.
Proof. eexists. split; [reflexivity|]. split; [reflexivity|]. vm_compute. split; [discriminate|reflexivity]. Qed.
