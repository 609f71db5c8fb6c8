(** * Props_Misc: C83-C86, C101-C103 (Unix V6 inodes, disk geometries, FSStat) *)
From Coq Require Import String.
From Verif Require Import GoBase ListZ Errors Flags GoPath Spec_Path GoPathProofs BlockCache BasicStream Driver FatDirent UnixV6 Disks Spec_Misc MiscProofs.

(** ** C83 *)
Theorem C83_mode_to_v6_and_back : forall mode,
  In (Z.land mode ModeType) [0; ModeDir; ModeDevice; ModeCharDevice] ->
  exists w, ConvertStandardFlagsToFS mode = (w, None) /\ 0 <= w < 2^16 /\ Z.testbit w 15 = true
    /\ ConvertFSFlagsToStandard w = Z.land mode (ModePerm + ModeType + ModeSetgid + ModeSetuid)
    (* each bit of the word in terms of the mode *)
    /\ (forall i, 0 <= i < 9 -> Z.testbit w i = Z.testbit mode i)
    /\ Z.testbit w 10 = Z.testbit mode 22 /\ Z.testbit w 11 = Z.testbit mode 23.
Proof.
  intros mode Ht. exists (word (Z.land mode ModePerm) (Z.land mode ModeType) (Z.testbit mode 22) (Z.testbit mode 23)).
  destruct (word_back (Z.land mode ModePerm) (Z.land mode ModeType) (Z.testbit mode 22) (Z.testbit mode 23) (perm_range mode) Ht) as (E & A & R).
  assert (forall i, 0 <= i -> Z.testbit (Z.land mode ModePerm) i = (Z.testbit mode i && (i <? 9))) as HP.
  { intros i Hi. rewrite Z.land_spec. f_equal. change ModePerm with (Z.ones 9). destruct (i <? 9) eqn:EI; [apply Z.ones_spec_low; lia|apply Z.ones_spec_high; lia]. }
  assert (forall i, 0 <= i -> (i < 13) -> Z.testbit (type_word (Z.land mode ModeType)) i = false) as HT.
  { intros i Hi Hi2. cbn [In] in Ht. destruct Ht as [<-|[<-|[<-|[<-|[]]]]].
    - now rewrite Z.bits_0.
    - change (type_word ModeDir) with (2^14). rewrite Z.pow2_bits_eqb by lia. lia.
    - change (type_word ModeDevice) with (3 * 2^13). now rewrite Z.mul_pow2_bits_low by lia.
    - change (type_word ModeCharDevice) with (2^13). rewrite Z.pow2_bits_eqb by lia. lia. }
  split; [now apply to_fs_word|]. split; [exact R|]. split.
  { assert (Z.testbit (Z.land (word (Z.land mode ModePerm) (Z.land mode ModeType) (Z.testbit mode 22) (Z.testbit mode 23)) FlagIsAllocated) 15 = true) as X by (rewrite A; reflexivity). rewrite Z.land_spec in X. now apply andb_true_iff in X. }
  split; [rewrite E; apply mode_land|]. unfold word.
  assert (forall b i, 0 <= i -> Z.testbit (if b : bool then FlagSetGID else 0) i = b && (i =? 10)) as HG.
  { intros b i Hi. destruct b; [|now rewrite Z.bits_0]. change FlagSetGID with (2^10). rewrite Z.pow2_bits_eqb by lia. rewrite andb_true_l. lia. }
  assert (forall b i, 0 <= i -> Z.testbit (if b : bool then FlagSetUID else 0) i = b && (i =? 11)) as HU.
  { intros b i Hi. destruct b; [|now rewrite Z.bits_0]. change FlagSetUID with (2^11). rewrite Z.pow2_bits_eqb by lia. rewrite andb_true_l. lia. }
  assert (forall i, 0 <= i -> Z.testbit FlagIsAllocated i = (i =? 15)) as HA.
  { intros i Hi. change FlagIsAllocated with (2^15). rewrite Z.pow2_bits_eqb by lia. lia. }
  split; [|split].
  - intros i Hi. rewrite !Z.lor_spec, HP, HA, HT, HG, HU by lia. destruct (Z.testbit mode i); lia.
  - rewrite !Z.lor_spec, HP, HA, HT, HG, HU by lia. destruct (Z.testbit mode 10), (Z.testbit mode 22), (Z.testbit mode 23); reflexivity.
  - rewrite !Z.lor_spec, HP, HA, HT, HG, HU by lia. destruct (Z.testbit mode 11), (Z.testbit mode 22), (Z.testbit mode 23); reflexivity.
Qed.
Theorem C83_other_types_rejected : forall mode,
  ~ In (Z.land mode ModeType) [0; ModeDir; ModeDevice; ModeCharDevice] ->
  exists w, ConvertStandardFlagsToFS mode = (w, Some (KExt 0)).
Proof.
  intros mode H. pose proof (to_fs_rejects mode H) as E. destruct (ConvertStandardFlagsToFS mode) as [w e]. cbn in E. subst e. now exists w.
Qed.
(* 0x1000 large file, 0x0200 unused, 0x8000 allocated *)
Theorem C83_v6_to_mode_and_back : forall f, 0 <= f < 2^16 ->
  ConvertStandardFlagsToFS (ConvertFSFlagsToStandard f) = (Z.lor (Z.land f (0xffff - 0x8000 - 0x1000 - 0x200)) 0x8000, None).
Proof. exact fs_roundtrip. Qed.
(* the type of a V6 word is shown in the mode *)
Theorem C83_v6_types : forall f, 0 <= f < 2^16 ->
  let m := ConvertFSFlagsToStandard f in
  (Z.land f 0x6000 = 0x4000 -> Z.land m ModeType = ModeDir) /\ (Z.land f 0x6000 = 0x2000 -> Z.land m ModeType = ModeCharDevice)
  /\ (Z.land f 0x6000 = 0x6000 -> Z.land m ModeType = ModeDevice) /\ (Z.land f 0x6000 = 0 -> Z.land m ModeType = 0).
Proof.
  intros f Hf m. subst m.
  assert (forall a b c, Z.land a ModeType = 0 -> Z.land (if c : bool then Z.lor b a else b) ModeType = Z.land b ModeType) as HL.
  { intros a b c E. destruct c; [|reflexivity]. rewrite Z.land_lor_distr_l, E. apply Z.lor_0_r. }
  assert (Z.land (Z.land f ModePerm) ModeType = 0) as HPT by (rewrite <- Z.land_assoc; change (Z.land ModePerm ModeType) with 0; apply Z.land_0_r).
  unfold ConvertFSFlagsToStandard. cbv zeta. unfold FileTypeMask. rewrite !HL by reflexivity. repeat split; intros E; rewrite E; cbn [Z.eqb Pos.eqb FileTypeBlockDevice FileTypeCharDevice FileTypeDirectory].
  all: rewrite ?Z.land_lor_distr_l, HPT; reflexivity.
Qed.
Example C83_ex1 : ConvertStandardFlagsToFS (ModeDir + ModeSetgid + 0x1ed) = (0xc5ed, None). Proof. vm_compute. reflexivity. Qed.
Example C83_ex2 : In (Z.land (ModeDir + ModeSetgid + 0x1ed) ModeType) [0; ModeDir; ModeDevice; ModeCharDevice]. Proof. vm_compute. auto. Qed.
Example C83_ex3 : ~ In (Z.land (ModeSymlink + 0x1ff) ModeType) [0; ModeDir; ModeDevice; ModeCharDevice]. Proof. vm_compute. intuition discriminate. Qed.

(** ** C101 *)
(* os.FileInfo.Mode of a character device on every Go platform has both bits set *)
Definition os_char_device (mode : Z) : Prop := Z.land mode ModeType = ModeDevice + ModeCharDevice.
Theorem C101_char_devices_refuted :
  (forall mode, os_char_device mode -> exists w, ConvertStandardFlagsToFS mode = (w, Some (KExt 0)))
  /\ (forall f, 0 <= f < 2^16 -> ~ os_char_device (ConvertFSFlagsToStandard f)).
Proof.
  split.
  - intros mode H. apply C83_other_types_rejected. rewrite H. vm_compute. intuition discriminate.
  - intros f Hf. unfold os_char_device. destruct (C83_v6_types f Hf) as (A & B & C & D). cbv zeta in *.
    assert (Z.land f 0x6000 = 0 \/ Z.land f 0x6000 = 0x2000 \/ Z.land f 0x6000 = 0x4000 \/ Z.land f 0x6000 = 0x6000) as HC.
    { change 0x6000 with (Z.lor (2^13) (2^14)). rewrite Z.land_lor_distr_r, !land_bit by lia. destruct (Z.testbit f 13), (Z.testbit f 14); vm_compute; auto. }
    destruct HC as [E|[E|[E|E]]]; [rewrite (D E)|rewrite (B E)|rewrite (A E)|rewrite (C E)]; vm_compute; discriminate.
Qed.
(* what does hold: files, directories and block devices convert as Go's os package shows them *)
Theorem C101_other_types_partial : forall mode, In (Z.land mode ModeType) [0; ModeDir; ModeDevice] ->
  exists w, ConvertStandardFlagsToFS mode = (w, None) /\ Z.land (ConvertFSFlagsToStandard w) ModeType = Z.land mode ModeType.
Proof.
  intros mode H. destruct (C83_mode_to_v6_and_back mode) as (w & E & _ & _ & E2 & _); [cbn in *; tauto|]. exists w. split; [exact E|]. rewrite E2, <- Z.land_assoc. f_equal.
Qed.
Example C101_ex : os_char_device (ModeDevice + ModeCharDevice + 0x1b6). Proof. vm_compute. reflexivity. Qed.

(** ** C84 *)
Theorem C84_size_and_blocks : forall inumber n,
  is_byte (v_size0 n) -> is_byte (v_size1 n) -> is_byte (v_size2 n) ->
  let st := RawInodeToStat inumber n in
  f_size st = v_size0 n + 256 * v_size1 n + 65536 * v_size2 n /\ 0 <= f_size st < 2^24
  /\ f_bsize st = 512 /\ least_holding 512 (f_size st) (f_nblocks st)
  /\ f_ino st = inumber /\ f_nlinks st = v_nlink n /\ f_uid st = v_uid n /\ f_gid st = v_gid n /\ f_mode st = ConvertFSFlagsToStandard (v_flags n)
  (* the times are seconds after 1970-01-01 00:00:00 UTC (time_date is time.Date) *)
  /\ f_accessed st = time_date 1970 1 1 0 0 (v_accessed n) 0 /\ f_modified st = time_date 1970 1 1 0 0 (v_modified n) 0
  /\ f_created st = 0 /\ f_changed st = 0 /\ f_deleted st = 0 /\ f_dev st = 0 /\ f_rdev st = 0.
Proof.
  intros i n A B C st. subst st. pose proof (v6_size n i A B C) as E. unfold is_byte in *. split; [exact E|]. split; [lia|]. split; [reflexivity|].
  assert (T : forall v, unix_time v = time_date 1970 1 1 0 0 v 0) by (intros v; unfold time_date; cbv zeta; unfold secondNs; change (daysBeforeYear (1970 + (1 - 1) / 12)) with 719162; change (daysBefore ((1 - 1) mod 12)) with 0; change (isLeap (1970 + (1 - 1) / 12) && ((1 - 1) mod 12 >=? 2)) with false; unfold unix_time; cbv iota; lia).
  rewrite <- !T. split; [|repeat split].
  set (s := f_size (RawInodeToStat i n)) in *. change (f_nblocks (RawInodeToStat i n)) with (if negb (s mod 512 =? 0) then s / 512 + 1 else s / 512). apply least_ceil; lia.
Qed.
(* the on-disk layout of the sixth edition has the high byte first: the size is right only when the bytes are all equal *)
Theorem C84_size_refuted : forall inumber n,
  is_byte (v_size0 n) -> is_byte (v_size1 n) -> is_byte (v_size2 n) ->
  (f_size (RawInodeToStat inumber n) = v6_manual_size n <-> v_size0 n = v_size1 n /\ v_size1 n = v_size2 n).
Proof. intros i n A B C. rewrite (v6_size n i A B C). unfold v6_manual_size, is_byte in *. lia. Qed.
Example C84_ex :
  let n := mkInode 0x81a4 1 3 4 0 0xe8 3 [10; 11; 0; 0; 0; 0; 0; 0] 0 0 in
  v6_manual_size n = 1000 /\ f_size (RawInodeToStat 7 n) = 256000 /\ f_nblocks (RawInodeToStat 7 n) = 500.
Proof. vm_compute. auto. Qed.

(** ** C85 *)
Theorem C85_size : forall g, geometry_ok g -> geometry_bits g < 2^63 -> least_holding 8 (geometry_bits g) (GeometrySizeBytes g).
Proof. exact size_fits. Qed.
Theorem C85_predefined : forall g, In g disk_rows -> geometry_ok g /\ 8 * GeometrySizeBytes g = geometry_bits g /\ 0 < GeometrySizeBytes g.
Proof.
  assert (forallb (fun g => (0 <=? g_bits g) && (g_bits g <? 2^64) && (0 <=? g_units g) && (g_units g <? 2^64) && (0 <=? g_sectors g) && (g_sectors g <? 2^64) && (0 <=? g_tracks g) && (g_tracks g <? 2^64) && (0 <=? g_heads g) && (g_heads g <? 2^64) && (8 * GeometrySizeBytes g =? geometry_bits g) && (0 <? GeometrySizeBytes g)) disk_rows = true) as H by (vm_compute; reflexivity).
  intros g Hg. rewrite forallb_forall in H. specialize (H g Hg). rewrite !andb_true_iff in H. unfold geometry_ok. lia.
Qed.
Example C85_ex : exists g, In g disk_rows /\ g_slug g = B "msdos_312in_ds_hd_18" /\ GeometrySizeBytes g = 1474560.
Proof. exists (mkGeo (B "msdos_312in_ds_hd_18") 1986 1 8 512 18 80 0 2). split; [|split; vm_compute; reflexivity]. vm_compute. repeat ((left; reflexivity) || right). Qed.
Example C85_ex_rounds : GeometrySizeBytes (mkGeo [] 0 0 12 129 1 1 0 1) = 194. Proof. vm_compute. reflexivity. Qed.

(** ** C103 *)
(* past 63 bits the size is not the number of bytes, and can be negative or zero *)
Theorem C103_overflow_refuted : exists g h, geometry_ok g /\ GeometrySizeBytes g < 0 /\ geometry_ok h /\ 0 < geometry_bits h /\ GeometrySizeBytes h = 0.
Proof.
  exists (mkGeo [] 0 0 8 (2^15) (2^15) (2^15) 0 (2^15)), (mkGeo [] 0 0 8 (2^16) (2^16) (2^16) 0 (2^16)). unfold geometry_ok. repeat split; vm_compute; auto; discriminate.
Qed.
(* exactly: the size is the number of bytes if and only if the bits fit *)
Theorem C103_size_right_iff_fits : forall g, geometry_ok g ->
  (least_holding 8 (geometry_bits g) (GeometrySizeBytes g) <-> geometry_bits g < 2^63).
Proof.
  intros g Hg. split; [|now apply size_fits]. intros [H _]. pose proof (size_upper g). destruct (Z.eq_dec (geometry_bits g) (2^63)) as [E|]; [pose proof (size_edge g E)|]; lia.
Qed.

(** ** C86 *)
Theorem C86_start_up : forall rows, (init_geometries rows = Panic <-> ~ NoDup (map g_slug rows)) /\ (forall m, init_geometries rows = Ret m -> NoDup (map g_slug rows)).
Proof.
  intros rows. unfold init_geometries. rewrite init_spec by constructor. rewrite app_nil_r, map_rev.
  assert (NoDup (rev (map g_slug rows)) <-> NoDup (map g_slug rows)) as HR by (split; intros H; [rewrite <- (rev_involutive (map g_slug rows))|]; now apply NoDup_rev).
  destruct (ListDec.NoDup_dec (list_eq_dec Z.eq_dec) (rev (map g_slug rows))) as [H|H]; rewrite HR in H; (split; [split; [discriminate || intros _; assumption|intros X; try reflexivity; contradiction]|intros m X; try discriminate; assumption]).
Qed.
Theorem C86_lookup : forall rows m, init_geometries rows = Ret m -> forall slug,
  (forall g, In g rows -> g_slug g = slug -> GetPredefinedDiskGeometry m slug = (g, None))
  /\ (~ In slug (map g_slug rows) -> GetPredefinedDiskGeometry m slug = (mkGeo [] 0 0 0 0 0 0 0 0, Some (KExt 0))).
Proof.
  intros rows m. unfold init_geometries. rewrite init_spec by constructor. rewrite app_nil_r. destruct (ListDec.NoDup_dec _ _) as [HN|]; [|discriminate]. intros E. assert (m = rev rows) as -> by congruence. intros slug. unfold GetPredefinedDiskGeometry. split.
  - intros g Hg Hs. rewrite (proj2 (find_some slug (rev rows) g HN)); [reflexivity|]. split; [now apply -> in_rev|exact Hs].
  - intros Hn. rewrite (proj2 (find_none slug (rev rows))); [reflexivity|]. intros X. apply Hn. rewrite map_rev in X. now apply in_rev in X.
Qed.
(* the embedded table *)
Theorem C86_table : exists m, init_geometries disk_rows = Ret m /\ forall slug,
  (forall g, In g disk_rows -> g_slug g = slug -> GetPredefinedDiskGeometry m slug = (g, None))
  /\ (~ In slug (map g_slug disk_rows) -> GetPredefinedDiskGeometry m slug = (mkGeo [] 0 0 0 0 0 0 0 0, Some (KExt 0))).
Proof.
  destruct (init_geometries disk_rows) as [m| |] eqn:E; [|exfalso; vm_compute in E; discriminate|exfalso; vm_compute in E; discriminate]. exists m. split; [reflexivity|]. exact (C86_lookup disk_rows m E).
Qed.
Example C86_ex1 : exists m, init_geometries disk_rows = Ret m /\ g_tracks (fst (GetPredefinedDiskGeometry m (B "rk05"))) = 200 /\ snd (GetPredefinedDiskGeometry m (B "st_412")) = Some (KExt 0).
Proof. eexists. split; [reflexivity|]. vm_compute. auto. Qed.
Example C86_ex2 : init_geometries [mkGeo (B "a") 1 1 1 1 1 1 1 1; mkGeo (B "b") 1 1 1 1 1 1 1 1; mkGeo (B "a") 2 2 2 2 2 2 2 2] = Panic.
Proof. reflexivity. Qed.

(** ** C102 *)
Theorem C102_fsstat_size : forall bs nb, 0 <= bs < 2^64 -> 0 <= nb < 2^64 ->
  (FSStatSizeBytes bs nb = bs * nb <-> bs * nb < 2^63).
Proof.
  intros bs nb H1 H2. unfold FSStatSizeBytes. assert (forall x, i64 x < 2^63) as HI by (intros x; unfold i64; pose proof (Z.mod_pos_bound (x + 2^63) (2^64) ltac:(lia)); lia).
  split; [intros E; rewrite <- E; apply HI|]. intros H. rewrite <- i64_mul. unfold i64. rewrite Z.mod_small; [lia|]. assert (0 <= bs * nb) by (apply Z.mul_nonneg_nonneg; lia). lia.
Qed.
Example C102_ex : FSStatSizeBytes 512 2880 = 1474560 /\ FSStatSizeBytes (2^16) (2^48) = 0 /\ FSStatSizeBytes 512 (2^54) = - 2^63.
Proof. vm_compute. auto. Qed.

Print Assumptions C83_mode_to_v6_and_back.
Print Assumptions C83_other_types_rejected.
Print Assumptions C83_v6_to_mode_and_back.
Print Assumptions C83_v6_types.
Print Assumptions C101_char_devices_refuted.
Print Assumptions C101_other_types_partial.
Print Assumptions C84_size_and_blocks.
Print Assumptions C84_size_refuted.
Print Assumptions C85_size.
Print Assumptions C85_predefined.
Print Assumptions C103_overflow_refuted.
Print Assumptions C103_size_right_iff_fits.
Print Assumptions C86_start_up.
Print Assumptions C86_lookup.
Print Assumptions C86_table.
Print Assumptions C102_fsstat_size.
