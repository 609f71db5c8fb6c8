(** * Props_Fat: C71-C82 and C95-C100, the FAT package.  Flags: [new_boot false], [loc = false],
    [lenient = false], [rep = false] are the code as it is; [true] is the code with the repair named in
    FatBoot.v, FatDirent.v and FatDriver.v. *)
From Coq Require Import String.
From Verif Require Import GoBase ListZ Errors Flags GoPath Spec_Path GoPathProofs BlockCache BasicStream Driver FatBoot FatDirent FatDriver Spec_Fat FatProofs FatProofs2 FatProofs3 FatProofs4 FatLayout.

(** ** Witnesses *)
Definition ex_raw : raw_boot := mkRaw [235; 60; 144] (B "MSDOS5.0") 512 1 1 2 16 40 248 1 18 2 0 0.
Definition ex_raw2 : raw_boot := mkRaw [235; 60; 144] (B "MSDOS5.0") 512 4 1 2 512 40000 248 9 18 2 0 0.
Definition ex_boot : boot := Eval vm_compute in match process_boot ex_raw 0 with Ret (inl b) => b | _ => mkBoot ex_raw 0 0 0 0 0 0 0 0 0 end.
(* the chain 2, 3, 5, end; 6, 7, 6, 7, ... loops; 8 is followed by the invalid 100 *)
Definition ex_next (c : Z) : Z := znth 0 [0; 0; 3; 5; 0; 0xFFF; 7; 6; 100] c.
Definition ex_eoc (c : Z) : bool := 0xFF8 <=? c.
Definition ex_valid (c : Z) : bool := (2 <=? c) && (c <? 40) || ex_eoc c.
Definition strict_valid (c : Z) : bool := (2 <=? c) && (c <? 40).
Definition ex_disk : list Z := map (fun i => Z.of_nat i mod 251) (seq 0 (40 * 512)).
Definition ex_entry (name : string) (mode first size : Z) : dirent := mkDe (B name) 0 0 first false size mode zero_stat.
Definition ex_file : dirent := ex_entry "F" 0 2 1100.
Definition ex_dir : dirent := ex_entry "D" ModeDir 2 0.
Definition ex_fi (valid : Z -> bool) (root : list dirent) (disk : list Z) : fatimpl unit :=
  mkFat (fun _ => ex_boot) (fun _ c => (tt, inl (ex_next c))) (fun _ c => valid c) (fun _ c => ex_eoc c) (fun _ => (tt, inl root))
    (fun _ _ => (tt, None)) (fun _ _ => (tt, None)) (fun _ _ _ => (tt, None)) (fun _ off n => (tt, (slice off n disk, n, None))).
Definition ex_s : fstate unit := mkFs tt [].

(** ** C71 *)
Theorem C71_always_panics_refuted data : 36 <= zlen data -> new_boot false data = Panic.
Proof. intros H. unfold new_boot. assert (zlen data <? 36 = false) as -> by lia. reflexivity. Qed.
Theorem C71_short_partial data : zlen data < 36 -> new_boot false data = Ret (inr (K ErrIOFailed)).
Proof. intros H. unfold new_boot. assert (zlen data <? 36 = true) as -> by lia. reflexivity. Qed.
(* with the fields exported: division by zero for two header values, no panic otherwise *)
Theorem C71_exported_partial data : new_boot true data = Panic <-> 40 <= zlen data /\ (le16 data 11 = 0 \/ znth 0 data 13 = 0).
Proof.
  unfold new_boot. cbn [negb]. destruct (zlen data <? 36) eqn:E1; [split; [discriminate|lia]|]. destruct (zlen data <? 40) eqn:E2; [split; [discriminate|lia]|].
  rewrite process_panics. unfold decode_boot. cbn [BytesPerSector SectorsPerCluster]. split; [split; [lia|assumption]|intros [_ H]; exact H].
Qed.
(* every volume header, written as the specification says, is read back field by field *)
Theorem C71_disk_partial h spf32 rest : header_ok h -> 0 <= spf32 < 2^32 -> new_boot true (boot_bytes h spf32 ++ rest) = process_boot h spf32.
Proof. exact (boot_roundtrip h spf32 rest). Qed.
Example C71_disk_ex : header_ok ex_raw2 /\ zlen (boot_bytes ex_raw2 0) = 40 /\ exists b, new_boot true (boot_bytes ex_raw2 0 ++ [1; 2; 3]) = Ret (inl b) /\ TotalFATSectors b = 18.
Proof. split; [repeat split; cbn; lia|]. split; [reflexivity|]. eexists. split; [vm_compute; reflexivity|reflexivity]. Qed.
Example C71_ex : new_boot false (zrepeat 1 512) = Panic /\ new_boot true (zrepeat 0 512) = Panic /\ exists e, new_boot true (zrepeat 1 512) = Ret (inr e).
Proof. split; [vm_compute; reflexivity|]. split; [vm_compute; reflexivity|]. eexists. vm_compute. reflexivity. Qed.

(** ** C72 *)
Theorem C72_consistent h spf32 b : process_boot h spf32 = Ret (inl b) ->
  raw b = h /\ In (BytesPerSector h) [512; 1024; 2048; 4096] /\ (exists k, 0 <= k < 8 /\ SectorsPerCluster h = 2^k) /\
  BytesPerCluster b = BytesPerSector h * SectorsPerCluster h /\ BytesPerCluster b <= 32768 /\ 32 * DirentsPerCluster b = BytesPerCluster b /\
  (FATVersion b = 32 -> RootDirSectors b = 0) /\ FATVersion b = vol_version (TotalClusters b).
Proof.
  intros E. apply process_accepts in E as (_ & _ & Hs & Hc & Hv & Hl & ->).
  assert (exists k, 0 <= k < 8 /\ SectorsPerCluster h = 2^k) as HK.
  { cbn in Hc. destruct Hc as [X|[X|[X|[X|[X|[X|[X|[X|[]]]]]]]]]; rewrite <- X; [exists 0|exists 1|exists 2|exists 3|exists 4|exists 5|exists 6|exists 7]; (split; [lia|reflexivity]). }
  assert (0 < BytesPerSector h <= 4096 /\ BytesPerSector h mod 32 = 0) as [HB HM] by (cbn in Hs; destruct Hs as [X|[X|[X|[X|[]]]]]; rewrite <- X; (split; [lia|reflexivity])).
  assert (0 < SectorsPerCluster h) by (destruct HK as (k & Hk & ->); apply Z.pow_pos_nonneg; lia).
  assert (u64 (BytesPerSector h * SectorsPerCluster h) = BytesPerSector h * SectorsPerCluster h) as EU by (apply u64_small'; nia).
  unfold boot_code. cbn [raw BytesPerCluster DirentsPerCluster FATVersion RootDirSectors TotalClusters]. rewrite EU.
  split; [reflexivity|]. split; [exact Hs|]. split; [exact HK|]. split; [reflexivity|]. split; [exact Hl|]. split.
  - unfold i64. rewrite Z.mod_small by nia. rewrite Z.add_simpl_r. unfold DirentSize. apply Z.div_exact in HM; [|lia]. rewrite HM.
    replace (32 * (BytesPerSector h / 32) * SectorsPerCluster h) with ((BytesPerSector h / 32 * SectorsPerCluster h) * 32) by lia. rewrite Z.div_mul by lia. lia.
  - split; [exact Hv|reflexivity].
Qed.
(* what is not accepted is reported as corrupted, and sizes alone are no reason to reject *)
Theorem C72_rejects h spf32 : BytesPerSector h <> 0 -> SectorsPerCluster h <> 0 ->
  (exists b, process_boot h spf32 = Ret (inl b)) \/ process_boot h spf32 = Ret (inr (K ErrFileSystemCorrupted)).
Proof. intros H1 H2. rewrite (process_cases h spf32 H1 H2). destruct (_ && _); eauto. Qed.
Theorem C72_accepts h spf32 k : raw_ok h -> In (BytesPerSector h) [512; 1024; 2048; 4096] -> 0 <= k < 8 -> SectorsPerCluster h = 2^k ->
  BytesPerSector h * SectorsPerCluster h <= 32768 -> RootEntryCount h = 0 -> exists b, process_boot h spf32 = Ret (inl b).
Proof.
  intros Hok Hs Hk Ek Hl Hr. assert (In (SectorsPerCluster h) cluster_sizes) as Hc.
  { rewrite Ek. assert (k = 0 \/ k = 1 \/ k = 2 \/ k = 3 \/ k = 4 \/ k = 5 \/ k = 6 \/ k = 7) as HK by lia. cbn. destruct HK as [->|[->|[->|[->|[->|[->|[->| ->]]]]]]]; cbn; auto 10. }
  assert (0 < BytesPerSector h <= 4096) as HB by (cbn in Hs; lia). assert (0 < SectorsPerCluster h) by (rewrite Ek; apply Z.pow_pos_nonneg; lia).
  assert (root_code h = 0) as ER. { unfold root_code. rewrite Hr. cbn [Z.mul]. unfold u16. cbn [Z.add]. change (0 mod 2^16) with 0. rewrite !Z.add_0_l, !Z.mod_mod by lia. rewrite Z.mod_small by lia. apply Z.div_small. lia. }
  rewrite process_cases by lia. rewrite ER. rewrite (proj2 (existsb_eqb _ _)) by exact Hs. rewrite (proj2 (existsb_eqb _ _)) by exact Hc. rewrite u64_small' by nia.
  rewrite (proj2 (Z.leb_le _ _)) by exact Hl. cbn [Z.eqb negb]. rewrite andb_false_r. cbn [negb andb]. eauto.
Qed.
Example C72_ex : exists b, process_boot ex_raw2 0 = Ret (inl b) /\ BytesPerCluster b = 2048 /\ DirentsPerCluster b = 64.
Proof. eexists. split; [vm_compute; reflexivity|]. split; reflexivity. Qed.

(** ** C73 *)
Theorem C73_layout_partial h spf32 b : raw_ok h -> 0 <= spf32 < 2^32 -> process_boot h spf32 = Ret (inl b) ->
  32 * RootEntryCount h + BytesPerSector h <= 2^16 -> 0 <= vol_data h spf32 ->
  RootDirSectors b = vol_root h /\ SectorsPerFAT b = vol_fat_size h spf32 /\ TotalFATSectors b = vol_fats h spf32 /\ TotalDataSectors b = vol_data h spf32 /\
  FirstDataSector b = vol_first_data h spf32 - vol_fats h spf32 /\
  TotalClusters b = (vol_data h spf32 + 2 * (vol_fats h spf32 + vol_root h)) / SectorsPerCluster h.
Proof. intros H1 H2 H3 H4 H5. destruct (layout_code h spf32 b H1 H2 H3 H4 H5) as (A & B & C & D & E & G & I & _). auto 8. Qed.
(* the values computed for every accepted header: [root] is the size of the root directory, whose computation wraps at 16 bits *)
Theorem C73_values h spf32 b : raw_ok h -> 0 <= spf32 < 2^32 -> process_boot h spf32 = Ret (inl b) ->
  let root := ((32 * RootEntryCount h + BytesPerSector h - 1) mod 2^16) / BytesPerSector h in
  RootDirSectors b = root /\ SectorsPerFAT b = vol_fat_size h spf32 /\ TotalFATSectors b = vol_fats h spf32 /\
  FirstDataSector b = ReservedSectors h + root /\
  TotalDataSectors b = (vol_sectors h - ReservedSectors h - vol_fats h spf32 - root) mod 2^64 /\
  TotalClusters b = ((vol_sectors h - ReservedSectors h + vol_fats h spf32 + root) mod 2^64) / SectorsPerCluster h.
Proof. apply layout_any. Qed.
(* and which of them are right *)
Theorem C73_right_exactly h spf32 b : raw_ok h -> 0 <= spf32 < 2^32 -> process_boot h spf32 = Ret (inl b) ->
  (RootDirSectors b = vol_root h <-> 32 * RootEntryCount h + BytesPerSector h <= 2^16) /\
  (FirstDataSector b = vol_first_data h spf32 <-> vol_fats h spf32 = 0 /\ 32 * RootEntryCount h + BytesPerSector h <= 2^16) /\
  (TotalDataSectors b = vol_data h spf32 <-> 0 <= vol_data h spf32 /\ 32 * RootEntryCount h + BytesPerSector h <= 2^16).
Proof. apply layout_right. Qed.
(* every volume with a FAT gets a wrong data area *)
Theorem C73_data_area_refuted h spf32 b : raw_ok h -> 0 <= spf32 < 2^32 -> process_boot h spf32 = Ret (inl b) ->
  32 * RootEntryCount h + BytesPerSector h <= 2^16 -> 0 <= vol_data h spf32 -> vol_fats h spf32 <> 0 ->
  FirstDataSector b <> vol_first_data h spf32.
Proof. intros H1 H2 H3 H4 H5 H6. destruct (C73_layout_partial h spf32 b H1 H2 H3 H4 H5) as (_ & _ & _ & _ & E & _). lia. Qed.
(* the number of clusters is too large as soon as the excess fills a cluster *)
Theorem C73_clusters_refuted h spf32 b : raw_ok h -> 0 <= spf32 < 2^32 -> process_boot h spf32 = Ret (inl b) ->
  32 * RootEntryCount h + BytesPerSector h <= 2^16 -> 0 <= vol_data h spf32 -> SectorsPerCluster h <= 2 * (vol_fats h spf32 + vol_root h) ->
  vol_clusters h spf32 < TotalClusters b.
Proof.
  intros H1 H2 H3 H4 H5 H6. destruct (C73_layout_partial h spf32 b H1 H2 H3 H4 H5) as (_ & _ & _ & _ & _ & E). rewrite E. unfold vol_clusters.
  apply C72_consistent in H3 as (_ & _ & (k & Hk & Ek) & _). assert (0 < SectorsPerCluster h) as Hp by (rewrite Ek; apply Z.pow_pos_nonneg; lia).
  apply Z.lt_le_trans with ((vol_data h spf32 + 1 * SectorsPerCluster h) / SectorsPerCluster h); [rewrite Z.div_add by lia; lia|]. apply Z.div_le_mono; lia.
Qed.
(* and so the FAT width is wrong for some volumes, and the root directory's size for large ones *)
Theorem C73_width_refuted : exists h b, raw_ok h /\ process_boot h 0 = Ret (inl b) /\ FATVersion b = 16 /\ vol_version (vol_clusters h 0) = 12.
Proof. exists (mkRaw [] [] 512 1 1 2 16 4100 248 12 18 2 0 0). eexists. split; [repeat split; cbn; lia|]. split; [vm_compute; reflexivity|]. split; reflexivity. Qed.
Theorem C73_root_refuted : exists h b, raw_ok h /\ process_boot h 0 = Ret (inl b) /\ RootDirSectors b = 0 /\ vol_root h = 128.
Proof. exists (mkRaw [] [] 512 4 1 2 2048 40000 248 9 18 2 0 0). eexists. split; [repeat split; cbn; lia|]. split; [vm_compute; reflexivity|]. split; reflexivity. Qed.
Example C73_ex : exists b, raw_ok ex_raw2 /\ process_boot ex_raw2 0 = Ret (inl b) /\ 32 * RootEntryCount ex_raw2 + BytesPerSector ex_raw2 <= 2^16 /\ 0 <= vol_data ex_raw2 0 /\
  vol_fats ex_raw2 0 = 18 /\ FirstDataSector b = 33 /\ vol_first_data ex_raw2 0 = 51 /\ TotalClusters b = 10012 /\ vol_clusters ex_raw2 0 = 9987.
Proof. eexists. split; [repeat split; cbn; lia|]. split; [vm_compute; reflexivity|]. repeat split; vm_compute; congruence. Qed.

(** ** C74 *)
Theorem C74_always_panics_refuted v tv hund : DateFromInt false v = Panic /\ TimestampFromParts false v tv hund = Panic.
Proof. split; reflexivity. Qed.
Theorem C74_date_partial v y m d : stored_date v y m d ->
  exists t, DateFromInt true v = Ret t /\ t_year t = y /\ t_month t = m /\ t_day t = d /\ t_hour t = 0 /\ t_minute t = 0 /\ t_second t = 0 /\ t_nanosecond t = 0.
Proof.
  intros H. destruct (date_right _ _ _ _ H) as (t & E & _ & Ea & Em). exists t. split; [exact E|]. unfold t_year, t_month, t_day. rewrite Ea. split; [reflexivity|]. split; [reflexivity|]. split; [reflexivity|].
  pose proof (tod_fields (t / dayNs) 0 0 0 0 ltac:(lia) ltac:(lia) ltac:(lia) ltac:(unfold secondNs; lia)) as T. cbv zeta in T. change (tod 0 0 0 0) with 0 in T. rewrite Z.add_0_r in T.
  replace (t / dayNs * dayNs) with t in T; [|pose proof (Z.div_mod t dayNs ltac:(unfold dayNs, secondNs; lia)); lia]. destruct T as (_ & A & B & C & D). auto.
Qed.
Theorem C74_timestamp_partial v y m d tv h mi s2 hund : stored_date v y m d -> stored_time tv h mi s2 -> 0 <= hund < 200 ->
  exists t, TimestampFromParts true v tv hund = Ret t /\ t_year t = y /\ t_month t = m /\ t_day t = d /\ t_hour t = h /\ t_minute t = mi /\ t_second t = 2 * s2 + hund / 100.
Proof. intros H1 H2 H3. destruct (timestamp_right _ _ _ _ _ _ _ _ _ H1 H2 H3) as (t & E & A1 & A2 & A3 & A4 & A5 & A6 & _). exists t. auto 8. Qed.
(* the fraction of the second is never the stored one, unless that is a whole second and the time is special *)
Theorem C74_fraction_refuted v y m d tv h mi s2 hund t : stored_date v y m d -> stored_time tv h mi s2 -> 0 <= hund < 200 ->
  TimestampFromParts true v tv hund = Ret t -> hund mod 100 <> 0 -> t_nanosecond t <> (hund mod 100) * 10^7.
Proof.
  intros H1 H2 H3 E Hh. destruct (timestamp_right _ _ _ _ _ _ _ _ _ H1 H2 H3) as (t' & E' & _ & _ & _ & _ & _ & _ & N). rewrite E in E'. injection E' as <-. rewrite N.
  pose proof (Z.mod_pos_bound (tv * 10000) (2^16) ltac:(lia)). pose proof (Z.mod_pos_bound hund 100 ltac:(lia)). lia.
Qed.
(* values that encode no date are silently carried over: month 0 of 1980 is December 1979 *)
Theorem C74_total_partial v tv hund : (exists t, DateFromInt true v = Ret t) /\ (exists t, TimestampFromParts true v tv hund = Ret t).
Proof. split; [eexists; reflexivity|apply timestamp_total]. Qed.
Theorem C74_no_date_refuted : exists t, DateFromInt true 0 = Ret t /\ t_year t = 1979 /\ t_month t = 11 /\ t_day t = 30.
Proof. eexists. split; [reflexivity|]. vm_compute. auto. Qed.
Example C74_ex : stored_date 21082 2021 2 26 /\ stored_time 46519 22 45 23 /\ exists t, TimestampFromParts true 21082 46519 150 = Ret t /\ t_day t = 26 /\ t_second t = 47 /\ t_nanosecond t = 15472.
Proof. split; [repeat split; vm_compute; congruence|]. split; [repeat split; vm_compute; congruence|]. eexists. split; [reflexivity|]. vm_compute. auto. Qed.

(** ** C75 *)
Theorem C75_always_panics_refuted data : new_raw_dirent false data = Panic.
Proof. unfold new_raw_dirent. destruct (_ <? _); reflexivity. Qed.
Theorem C75_names_partial data : zlen data = 32 -> exists r, new_raw_dirent true data = Ret r /\ r_name r = slice 0 8 data /\ r_ext r = slice 8 3 data.
Proof. intros H. unfold new_raw_dirent. rewrite H. eexists. split; [reflexivity|]. auto. Qed.
(* the attribute byte is not read at all; all later fields are taken one byte too far on *)
Theorem C75_attribute_refuted data data' : zlen data = 32 -> zlen data' = 32 -> (forall i, i <> 11 -> znth 0 data i = znth 0 data' i) ->
  new_raw_dirent true data = new_raw_dirent true data'.
Proof.
  intros L L' H. unfold new_raw_dirent. rewrite L, L'. cbn [Z.ltb negb Z.compare Pos.compare Pos.compare_cont].
  assert (forall o n, 0 <= o -> 0 <= n -> o + n <= 11 -> slice o n data = slice o n data') as HS.
  { intros o n Ho Hn Hon. apply (list_ext 0); [rewrite !zlen_slice; lia|]. intros i Hi. rewrite zlen_slice in Hi by lia. rewrite !znth_slice by lia. apply H. lia. }
  rewrite (HS 0 8), (HS 8 3) by lia. unfold le16. rewrite !H by lia. reflexivity.
Qed.
Theorem C75_shifted_refuted data r : new_raw_dirent true data = Ret r ->
  r_attr r = znth 0 data 12 /\ r_nt r = znth 0 data 13 /\ r_cmillis r = znth 0 data 14 /\ r_ctime r = le16 data 15 /\ r_cdate r = le16 data 17 /\
  r_adate r = le16 data 19 /\ r_high r = le16 data 21 /\ r_mtime r = le16 data 23 /\ r_mdate r = le16 data 25 /\
  r_low r = le16 data 27 /\ r_size r = le16 data 29 + 2^16 * znth 0 data 31.
Proof. unfold new_raw_dirent. destruct (_ <? _); [discriminate|]. cbn [negb]. intros X. injection X as <-. auto 12. Qed.
Example C75_ex : let data := B "HELLO   TXT" ++ [32] ++ zrepeat 0 14 ++ [7; 0; 44; 1; 0; 0] in zlen data = 32 /\ disk_attr data = 32 /\ disk_cluster data = 7 /\ disk_size data = 300 /\
  exists r, new_raw_dirent true data = Ret r /\ r_attr r = 0 /\ r_size r = 1.
Proof. cbv zeta. repeat (split; [vm_compute; reflexivity|]). eexists. split; [vm_compute; reflexivity|]. auto. Qed.

(** ** C76 *)
Theorem C76_listing_partial {F} (fi : fatimpl F) s next valid eoc c cs e fuel : fat_is fi (x_fs s) next valid eoc ->
  chain next eoc c cs e -> valid c = true -> Forall (fun x => valid x = true) cs -> valid e = true -> (length cs < fuel)%nat ->
  listClusters fi fuel c s = FDone s (cs, None).
Proof.
  intros HF Hc Hv Hcs He Hf. rewrite (list_eq fi next valid eoc s HF), Hv. rewrite (loop_chain fi next valid eoc s HF c cs e Hc); [reflexivity| |auto|exact Hf]. destruct cs; [constructor|now inversion Hcs].
Qed.
(* if the implementation does not count end markers as valid, every proper chain is reported as corrupted *)
Theorem C76_end_marker_refuted {F} (fi : fatimpl F) s next valid eoc c cs e fuel : fat_is fi (x_fs s) next valid eoc ->
  chain next eoc c cs e -> cs <> [] -> Forall (fun x => valid x = true) cs -> valid e = false -> (length cs < fuel)%nat ->
  listClusters fi fuel c s = FDone s (cs, Some (K ErrFileSystemCorrupted)).
Proof.
  intros HF Hc Hne Hcs He Hf. assert (valid c = true) as Hv by (inversion Hc; subst; [congruence|now inversion Hcs]). rewrite (list_eq fi next valid eoc s HF), Hv.
  rewrite (loop_marker fi next valid eoc s HF c cs e Hc); [reflexivity|exact Hne| |exact He|exact Hf]. destruct cs; [constructor|now inversion Hcs].
Qed.
Theorem C76_nth_partial {F} (fi : fatimpl F) s next valid eoc c cs e i : fat_is fi (x_fs s) next valid eoc ->
  chain next eoc c cs e -> cs <> [] -> Forall (fun x => valid x = true) cs ->
  getClusterInChain fi c i s = FDone s (match nth_error cs i with Some x => inl x | None => inr (K ErrInvalidArgument) end).
Proof. intros HF Hc Hne Hv. apply (nth_chain fi next valid eoc s HF c cs e Hc); [exact Hne|]. destruct cs; [constructor|now inversion Hv]. Qed.
(* corruption: both stop at the same place *)
Theorem C76_corrupt_partial {F} (fi : fatimpl F) s next valid eoc c cs fuel i : fat_is fi (x_fs s) next valid eoc ->
  broken next valid eoc c cs -> valid c = true -> (length cs <= fuel)%nat ->
  listClusters fi fuel c s = FDone s (cs, Some (K ErrFileSystemCorrupted)) /\
  getClusterInChain fi c i s = FDone s (match nth_error cs i with Some x => inl x | None => inr (K ErrFileSystemCorrupted) end).
Proof.
  intros HF Hb Hv Hf. split; [rewrite (list_eq fi next valid eoc s HF), Hv; now rewrite (loop_broken fi next valid eoc s HF c cs Hb)|apply (nth_broken fi next valid eoc s HF c cs Hb)].
Qed.
Theorem C76_bad_start {F} (fi : fatimpl F) s c fuel : fi_valid fi (x_fs s) c = false -> listClusters fi fuel c s = FDone s ([], Some (K ErrInvalidArgument)).
Proof. intros H. unfold listClusters, fbind, pureF. rewrite H. reflexivity. Qed.
Example C76_ex : fat_is (ex_fi ex_valid [] []) tt ex_next ex_valid ex_eoc /\ chain ex_next ex_eoc 2 [2; 3; 5] 0xFFF /\ Forall (fun x => ex_valid x = true) [2; 3; 5] /\ ex_valid 0xFFF = true /\
  broken ex_next ex_valid ex_eoc 8 [8] /\ strict_valid 0xFFF = false /\
  listClusters (ex_fi ex_valid [] []) 9 2 ex_s = FDone ex_s ([2; 3; 5], None) /\ listClusters (ex_fi strict_valid [] []) 9 2 ex_s = FDone ex_s ([2; 3; 5], Some (K ErrFileSystemCorrupted)).
Proof.
  split; [repeat split; reflexivity|]. split. { do 3 (apply ch_next; [reflexivity|]). apply ch_end. reflexivity. }
  split; [repeat constructor|]. split; [reflexivity|]. split; [apply br_last; reflexivity|]. split; [reflexivity|]. split; reflexivity.
Qed.

(** ** C77 *)
(* a loop in the table: never returns *)
Theorem C77_loop_refuted {F} (fi : fatimpl F) s next valid eoc c p : fat_is fi (x_fs s) next valid eoc ->
  valid c = true -> (0 < p)%nat -> iter next p c = c -> (forall i, (i < p)%nat -> valid (iter next i c) = true /\ eoc (iter next i c) = false) ->
  forall fuel, listClusters fi fuel c s = FSpin s.
Proof.
  intros HF Hv Hp Hc Hl fuel. rewrite (list_eq fi next valid eoc s HF), Hv. apply (loop_forever fi next valid eoc s HF).
  assert (HM : forall k, iter next (k * p) c = c) by (induction k as [|k IH]; [reflexivity|]; cbn [Nat.mul]; rewrite iter_add, IH; exact Hc).
  assert (HR : forall i, iter next i c = iter next (i mod p) c).
  { intros i. rewrite (Nat.div_mod i p) at 1 by lia. rewrite Nat.add_comm, Nat.mul_comm, iter_add, HM. reflexivity. }
  intros i. unfold live. rewrite (HR i). destruct (Hl (i mod p)%nat ltac:(apply Nat.mod_upper_bound; lia)) as [_ ->]. cbn [negb andb].
  change (next (iter next (i mod p) c)) with (iter next (S (i mod p)) c). rewrite (HR (S (i mod p))). apply Hl. apply Nat.mod_upper_bound. lia.
Qed.
(* otherwise it returns, after at most as many steps as there are clusters *)
Theorem C77_terminates_partial {F} (fi : fatimpl F) s next valid eoc c (N : nat) : fat_is fi (x_fs s) next valid eoc ->
  (forall x, valid x = true -> eoc x = false -> 0 <= x < Z.of_nat N) ->
  (exists r, forall fuel, (N < fuel)%nat -> listClusters fi fuel c s = FDone s r) \/
  ((exists i p, (0 < p)%nat /\ (i + p <= N)%nat /\ iter next (p + i) c = iter next i c) /\ forall fuel, listClusters fi fuel c s = FSpin s).
Proof.
  intros HF HV. destruct (valid c) eqn:Hv; [|left; exists ([], Some (K ErrInvalidArgument)); intros fuel _; rewrite (list_eq fi next valid eoc s HF), Hv; reflexivity].
  destruct (first_dead next valid eoc (S N) c) as [Hl|(m & Hm & Ha & Hb)].
  - right. assert (HV' : forall x, (valid x && negb (eoc x)) = true -> 0 <= x < Z.of_nat N). { intros x X. apply andb_true_iff in X as [X1 X2]. apply HV; [exact X1|]. now destruct (eoc x). }
    assert (Hin : forall j, (j <= N)%nat -> valid (iter next j c) && negb (eoc (iter next j c)) = true).
    { intros j Hj. pose proof (Hl j ltac:(lia)) as L. unfold live in L. apply andb_true_iff in L as [L1 _]. rewrite L1, andb_true_r. destruct j as [|j]; [exact Hv|].
      pose proof (Hl j ltac:(lia)) as L2. unfold live in L2. apply andb_true_iff in L2. apply L2. }
    destruct (repeats_gen next (fun x => valid x && negb (eoc x)) N c HV' Hin) as (i & p & Hp & Hip & E). split; [exists i, p; auto|].
    intros fuel. rewrite (list_eq fi next valid eoc s HF), Hv. apply (loop_forever fi next valid eoc s HF). intros j. destruct (periodic next c i p Hp E j) as (j' & Hj' & ->). apply Hl. lia.
  - left. destruct (loop_dies fi next valid eoc s HF m c [] Ha Hb) as [r Hr]. exists r. intros fuel Hf. rewrite (list_eq fi next valid eoc s HF), Hv. apply Hr. lia.
Qed.
Example C77_ex : ex_valid 6 = true /\ iter ex_next 2 6 = 6 /\ (forall i, (i < 2)%nat -> ex_valid (iter ex_next i 6) = true /\ ex_eoc (iter ex_next i 6) = false) /\
  (forall x, ex_valid x = true -> ex_eoc x = false -> 0 <= x < Z.of_nat 40) /\ listClusters (ex_fi ex_valid [] []) 41 2 ex_s = FDone ex_s ([2; 3; 5], None).
Proof.
  split; [reflexivity|]. split; [reflexivity|]. split. { intros i Hi. destruct i as [|[|i]]; [auto|auto|lia]. }
  split; [|reflexivity]. intros x H1 H2. unfold ex_valid in H1. rewrite H2, orb_false_r in H1. lia.
Qed.

(** ** C78 *)
(* the "clusters" freed are the positions n-1, ..., 0 in the chain, whatever the chain *)
Theorem C78_indices_refuted {F} (fi : fatimpl F) rep fuel path s s1 s2 d p fs3 next valid eoc cs e s' :
  resolvePath fi rep fuel path s = FDone s1 (inl d) -> de_is_dir d = false -> resolvePath fi rep fuel (dir_of path) s1 = FDone s2 (inl p) ->
  fi_delete fi (x_fs s2) d p = (fs3, None) -> fat_is fi fs3 next valid eoc -> chain next eoc (de_first d) cs e -> valid (de_first d) = true -> Forall (fun x => valid x = true) cs -> valid e = true ->
  (length cs < fuel)%nat -> zlen cs < 2^32 -> Remove fi rep fuel path s = FDone s' (inl tt) ->
  x_log s' = x_log s2 ++ FvDelete d p :: map (fun i => FvFree (Z.of_nat i)) (rev (seq 0 (length cs))).
Proof.
  intros R1 Hd R2 HD HF Hc Hv Hcs He Hf Hn E. unfold Remove, ftry, fbind in E. rewrite R1, Hd, R2 in E. unfold delete_dirent, call_ in E. rewrite HD in E.
  rewrite (C76_listing_partial fi (mkFs fs3 (x_log s2 ++ [FvDelete d p])) next valid eoc _ cs e fuel HF Hc Hv Hcs He Hf) in E. cbn [fst snd] in E. apply free_loop_log in E; [|unfold zlen in Hn; lia]. rewrite E. cbn [x_log]. now rewrite <- app_assoc.
Qed.
Theorem C78_wrong_clusters_refuted cs : map (fun i => FvFree (Z.of_nat i)) (rev (seq 0 (length cs))) = map FvFree (rev cs) <-> cs = map Z.of_nat (seq 0 (length cs)).
Proof.
  assert (forall a b, map FvFree a = map FvFree b -> a = b) as Inj by (induction a as [|x a IH]; intros [|y b] X; try discriminate; [reflexivity|]; injection X as -> X; f_equal; now apply IH).
  split; intros H.
  - rewrite <- (map_map Z.of_nat FvFree) in H. apply Inj in H. rewrite map_rev in H. apply (f_equal (@rev Z)) in H. rewrite !rev_involutive in H. now symmetry.
  - rewrite <- (map_map Z.of_nat FvFree). f_equal. rewrite map_rev. f_equal. now symmetry.
Qed.
(* the entry goes first, and nothing is freed if it cannot be deleted *)
Theorem C78_entry_first_partial {F} (fi : fatimpl F) rep fuel path s s1 s2 d p fs3 er :
  resolvePath fi rep fuel path s = FDone s1 (inl d) -> de_is_dir d = false -> resolvePath fi rep fuel (dir_of path) s1 = FDone s2 (inl p) ->
  fi_delete fi (x_fs s2) d p = (fs3, Some er) -> Remove fi rep fuel path s = FDone (mkFs fs3 (x_log s2 ++ [FvDelete d p])) (inr er).
Proof. intros R1 Hd R2 HD. unfold Remove, ftry, fbind. rewrite R1, Hd, R2. unfold delete_dirent, call_. rewrite HD. reflexivity. Qed.
Theorem C78_directory_partial {F} (fi : fatimpl F) rep fuel path s s1 d :
  resolvePath fi rep fuel path s = FDone s1 (inl d) -> de_is_dir d = true -> Remove fi rep fuel path s = FDone s1 (inr (K ErrIsADirectory)).
Proof. intros R1 Hd. unfold Remove, ftry, fbind. rewrite R1, Hd. reflexivity. Qed.
(* as it is, the only entry Remove ever deletes is the empty one, whatever the path *)
Theorem C78_never_the_file_refuted {F} (fi : fatimpl F) fuel path s s' : Remove fi false fuel path s = FDone s' (inl tt) ->
  exists frees, x_log s' = x_log s ++ FvDelete zero_dirent zero_dirent :: map FvFree frees.
Proof.
  intros E. unfold Remove, ftry, fbind in E. destruct (resolvePath fi false fuel path s) as [s1 [d|]|s1|s1] eqn:R1; try discriminate. apply resolve_asis in R1 as [-> L1]. change (de_is_dir zero_dirent) with false in E. cbv beta iota in E.
  destruct (resolvePath fi false fuel (dir_of path) s1) as [s2 [p|]|s2|s2] eqn:R2; try discriminate. apply resolve_asis in R2 as [-> L2]. cbv beta iota in E.
  unfold delete_dirent, call_ in E. cbv beta in E. destruct (fi_delete fi (x_fs s2) zero_dirent zero_dirent) as [fs3 [er|]]; [discriminate|].
  destruct (listClusters fi fuel (de_first zero_dirent) _) as [s3 [cs [er|]]|s3|s3] eqn:EL; try discriminate. cbn [fst snd] in E. apply list_log in EL. cbn [x_log] in EL.
  apply free_loop_frees in E as [frees E]. exists frees. rewrite E, EL, L2, L1, <- app_assoc. reflexivity.
Qed.
Example C78_ex : Remove (ex_fi ex_valid [] ex_disk) true 9 (B "F") ex_s <> FDone ex_s (inl tt) /\ chain ex_next ex_eoc (de_first ex_file) [2; 3; 5] 0xFFF /\
  map (fun i => FvFree (Z.of_nat i)) (rev (seq 0 (length [2; 3; 5]))) = [FvFree 2; FvFree 1; FvFree 0].
Proof. split; [discriminate|]. split; [|reflexivity]. do 3 (apply ch_next; [reflexivity|]). apply ch_end. reflexivity. Qed.
(* a run of Remove that meets the hypotheses of C78_indices_refuted: every name is missing, cluster 0 is valid and starts a chain *)
Definition zero_fi : fatimpl unit :=
  mkFat (fun _ => ex_boot) (fun _ c => (tt, inl (if c =? 0 then 7 else 0xFFF))) (fun _ _ => true) (fun _ c => ex_eoc c) (fun _ => (tt, inl [ex_file]))
    (fun _ _ => (tt, None)) (fun _ _ => (tt, None)) (fun _ _ _ => (tt, None)) (fun _ off n => (tt, (slice off n ex_disk, n, None))).
Example C78_ex_run : exists s', Remove zero_fi false 9 (B "G") ex_s = FDone s' (inl tt) /\ x_log s' = [FvDelete zero_dirent zero_dirent; FvFree 1; FvFree 0] /\
  chain (fun c => if c =? 0 then 7 else 0xFFF) ex_eoc (de_first zero_dirent) [0; 7] 0xFFF.
Proof. eexists. split; [vm_compute; reflexivity|]. split; [reflexivity|]. do 2 (apply ch_next; [reflexivity|]). apply ch_end. reflexivity. Qed.

(** ** C79 *)
(* nothing is ever found: a lookup that returns without error returns the empty entry *)
Theorem C79_nothing_found_refuted {F} (fi : fatimpl F) fuel path s s' d : resolvePath fi false fuel path s = FDone s' (inl d) -> d = zero_dirent.
Proof. intros E. now apply resolve_asis in E. Qed.
(* a failing device is reported as success, and so is a missing name *)
Theorem C79_root_error_refuted {F} (fi : fatimpl F) rep fuel path s e : snd (fi_root fi (x_fs s)) = inr e ->
  resolvePath fi rep fuel path s = FDone (mkFs (fst (fi_root fi (x_fs s))) (x_log s)) (inl zero_dirent).
Proof. intros H. apply (resolve_root_fails fi rep fuel path s e H). apply SplitList_clean. Qed.
Theorem C79_missing_refuted {F} (fi : fatimpl F) rep fuel path s fs l : ~ In 58 (clean path) -> fi_root fi (x_fs s) = (fs, inl l) -> Forall (fun x => de_name x <> clean path) l ->
  resolvePath fi rep fuel path s = FDone (mkFs fs (x_log s)) (inl zero_dirent).
Proof. apply resolve_missing. Qed.
(* files are errors *)
Theorem C79_file_refuted {F} (fi : fatimpl F) rep fuel path s fs l1 x l2 : ~ In 58 (clean path) -> fi_root fi (x_fs s) = (fs, inl (l1 ++ x :: l2)) ->
  Forall (fun y => de_name y <> clean path) l1 -> de_name x = clean path -> de_is_dir x = false ->
  resolvePath fi rep fuel path s = FDone (mkFs fs (x_log s)) (inr (K ErrNotADirectory)).
Proof. apply resolve_file. Qed.
(* paths are split at ':' and not at '/': no absolute path and no path of two components is ever found *)
Theorem C79_slash_refuted {F} (fi : fatimpl F) rep fuel names s fs l : names <> [] -> Forall proper names -> Forall (fun n => ~ In 58 n) names -> fi_root fi (x_fs s) = (fs, inl l) ->
  Forall (fun x => ~ In 47 (de_name x)) l -> resolvePath fi rep fuel (render names) s = FDone (mkFs fs (x_log s)) (inl zero_dirent).
Proof.
  intros Hne Hp Hcol Er Hl. assert (clean (render names) = render names) as EC by (apply clean_render; now apply Forall_name_proper).
  apply (resolve_missing fi rep fuel (render names) s fs l); rewrite ?EC; [|exact Er|].
  - unfold render. destruct names as [|n ns]; [congruence|]. intros X. apply in_concat in X as (y & Hy & HI). apply in_map_iff in Hy as (n' & <- & Hn'). destruct HI as [HI|HI]; [discriminate|]. rewrite Forall_forall in Hcol. now apply (Hcol n').
  - rewrite Forall_forall in Hl |- *. intros x Hx X. apply (Hl x Hx). rewrite X. unfold render. destruct names as [|n ns]; [now left|]. cbn. now left.
Qed.
(* what a repaired decoder finds is a directory with the right name; a directory of the root is found by its name *)
Theorem C79_found_partial {F} (fi : fatimpl F) rep fuel path s s' d : ~ In 58 (clean path) -> resolvePath fi rep fuel path s = FDone s' (inl d) ->
  d = zero_dirent \/ (de_name d = clean path /\ de_is_dir d = true).
Proof. intros Hc E. apply resolve_found in E as [E|(A & B)]; [now left|right]. rewrite SplitList_one in A by exact Hc. destruct A as [A|[]]. auto. Qed.
Theorem C79_directory_partial {F} (fi : fatimpl F) rep fuel path s fs l1 x l2 s1 cont : ~ In 58 (clean path) -> fi_root fi (x_fs s) = (fs, inl (l1 ++ x :: l2)) ->
  Forall (fun y => de_name y <> clean path) (l1 ++ l2) -> de_name x = clean path -> readDirFromDirent fi rep fuel x (mkFs fs (x_log s)) = FDone s1 (inl cont) ->
  resolvePath fi rep fuel path s = FDone s1 (inl x).
Proof. apply resolve_dir. Qed.
Theorem C79_directory_error_partial {F} (fi : fatimpl F) rep fuel path s fs l1 x l2 s1 er : ~ In 58 (clean path) -> fi_root fi (x_fs s) = (fs, inl (l1 ++ x :: l2)) ->
  Forall (fun y => de_name y <> clean path) l1 -> de_name x = clean path -> readDirFromDirent fi rep fuel x (mkFs fs (x_log s)) = FDone s1 (inr er) ->
  resolvePath fi rep fuel path s = FDone s1 (inr er).
Proof.
  intros Hc Er Hn He Hd. rewrite (resolve_one fi rep fuel path s fs _ Hc Er). unfold ftry, fbind. rewrite entries_app by exact Hn. cbn [match_entries]. rewrite (proj2 (beqb_eq _ _)) by exact He.
  unfold ftry, fbind. rewrite Hd. reflexivity.
Qed.
Definition ex_dirdisk : list Z := zrepeat 0 (40 * 512).
Example C79_ex : resolvePath (ex_fi ex_valid [ex_file; ex_dir] ex_dirdisk) true 9 (B "X") ex_s = FDone ex_s (inl zero_dirent) /\
  resolvePath (ex_fi ex_valid [ex_file; ex_dir] ex_dirdisk) true 9 (B "F") ex_s = FDone ex_s (inr (K ErrNotADirectory)) /\
  resolvePath (ex_fi ex_valid [ex_file; ex_dir] ex_dirdisk) true 9 (B "/D") ex_s = FDone ex_s (inl zero_dirent) /\
  (exists s', resolvePath (ex_fi ex_valid [ex_file; ex_dir] ex_dirdisk) true 9 (B "D") ex_s = FDone s' (inl ex_dir)) /\
  (exists s', resolvePath (ex_fi ex_valid [ex_file; ex_dir] ex_dirdisk) false 9 (B "D") ex_s = FCrash s').
Proof. split; [vm_compute; reflexivity|]. split; [vm_compute; reflexivity|]. split; [vm_compute; reflexivity|]. split; eexists; vm_compute; reflexivity. Qed.

(** ** C80 *)
Theorem C80_registers_partial epoch os d : de_deleted d = false -> let r := run epoch os d in
  GetLastAccessedAt r = last_set epoch (times_A os) (GetLastAccessedAt d) /\ GetLastModifiedAt r = last_set epoch (times_M os) (GetLastModifiedAt d) /\
  (Forall (fun t => t < epoch) (times_D os) -> GetCreatedAt r = (last_set epoch (times_C os) (f_created (de_stat d)), None) /\ GetDeletedAt r = (0, Some (K ErrInvalidArgument))) /\
  de_name r = de_name d /\ de_first r = de_first d /\ de_size r = de_size d /\ f_mode (de_stat r) = f_mode (de_stat d) /\ f_size (de_stat r) = f_size (de_stat d).
Proof.
  intros Hd r. destruct (run_spec epoch os d Hd) as (A & B & C & D & E & G). fold r in A, B, C, D, E, G. split; [exact A|]. split; [exact B|]. split; [|exact G]. intros HD.
  assert (HX : existsb (fun t => epoch <=? t) (times_D os) = false).
  { destruct (existsb _ _) eqn:X; [|reflexivity]. apply existsb_exists in X as (t & Ht & Hle). rewrite Forall_forall in HD. specialize (HD t Ht). lia. }
  rewrite HX in E. unfold GetCreatedAt, GetDeletedAt. rewrite E. cbn [negb]. split; [|reflexivity]. rewrite C. do 2 f_equal.
  clear - HD. induction os as [|o os IH]; [reflexivity|]. destruct o; cbn [until_deleted times_D flat_map] in *; cbn [times_C flat_map]; try (fold (times_C (until_deleted epoch os)) (times_C os); rewrite IH by exact HD; reflexivity).
  apply Forall_inv in HD as HD1. apply Forall_inv_tail in HD as HD2. assert (t <? epoch = true) as -> by lia. cbn [times_C flat_map]. apply IH. exact HD2.
Qed.
Theorem C80_too_early epoch o d t : (o = SetA t \/ o = SetM t \/ o = SetC t \/ o = SetD t) -> t < epoch -> run1 epoch o d = (d, Some (K ErrArgumentOutOfRange)).
Proof.
  intros Ho Ht. destruct Ho as [->|[->|[->| ->]]]; cbn [run1]; unfold SetLastAccessedAt, SetLastModifiedAt, SetCreatedAt, SetDeletedAt; assert (t <? epoch = true) as -> by lia; reflexivity.
Qed.
Theorem C80_accepted epoch o d t : (o = SetA t \/ o = SetM t \/ (o = SetC t /\ de_deleted d = false)) -> epoch <= t -> snd (run1 epoch o d) = None.
Proof.
  intros Ho Ht. destruct Ho as [->|[->|[-> Hd]]]; cbn [run1]; unfold SetLastAccessedAt, SetLastModifiedAt, SetCreatedAt; assert (t <? epoch = false) as -> by lia; [reflexivity|reflexivity|]. now rewrite Hd.
Qed.
(* deleting: always an error, the entry is marked deleted all the same, and the time is lost for ever *)
Theorem C80_deleted_refuted epoch t d : epoch <= t ->
  snd (SetDeletedAt epoch t d) = Some (K ErrNotFound) /\ GetDeletedAt (fst (SetDeletedAt epoch t d)) = (f_deleted (de_stat d), None).
Proof.
  intros Ht. unfold SetDeletedAt, SetCreatedAt. assert (t <? epoch = false) as -> by lia. cbn [de_deleted set_times snd fst]. split; reflexivity.
Qed.
Theorem C80_deleted_for_ever_refuted epoch os d : de_deleted d = false -> f_deleted (de_stat (run epoch os d)) = f_deleted (de_stat d) /\
  de_deleted (run epoch os d) = existsb (fun t => epoch <=? t) (times_D os).
Proof. intros Hd. destruct (run_spec epoch os d Hd) as (_ & _ & _ & D & E & _). auto. Qed.
(* while an entry is deleted it has no time of creation, and setting one is refused *)
Theorem C80_deleted_has_no_creation_partial epoch os d t : de_deleted d = false -> Exists (fun t => epoch <= t) (times_D os) ->
  GetCreatedAt (run epoch os d) = (0, Some (K ErrNotFound)) /\ (epoch <= t -> run1 epoch (SetC t) (run epoch os d) = (run epoch os d, Some (K ErrNotFound))).
Proof.
  intros Hd HE. destruct (C80_deleted_for_ever_refuted epoch os d Hd) as [_ HD].
  assert (de_deleted (run epoch os d) = true) as X.
  { rewrite HD. apply existsb_exists. apply Exists_exists in HE as (x & Hx & Hle). exists x. split; [exact Hx|]. now apply Z.leb_le. }
  unfold GetCreatedAt. rewrite X. split; [reflexivity|]. intros Ht. cbn [run1]. unfold SetCreatedAt. rewrite X. now replace (t <? epoch) with false by lia.
Qed.
Example C80_ex : let d := run 100 [SetA 150; SetM 99; SetC 200; SetA 120; SetA 50] ex_file in GetLastAccessedAt d = 120 /\ GetLastModifiedAt d = 0 /\ GetCreatedAt d = (200, None) /\
  GetDeletedAt (fst (SetDeletedAt 100 300 d)) = (0, None).
Proof. vm_compute. auto. Qed.

(** ** C81 *)
Theorem C81_never_a_directory_refuted loc bpc r d : new_dirent loc bpc r = Ret (inl d) -> de_is_dir d = false.
Proof.
  intros E. enough (exists f, de_mode d = AttrFlagsToFileMode f) as [f Ef] by (unfold de_is_dir; rewrite Ef, attr_not_dir; reflexivity).
  unfold new_dirent in E. destruct (TimestampFromParts loc (r_mdate r) (r_mtime r) 0); [|discriminate|discriminate]. cbn [obind] in E. destruct (i64 bpc =? 0); [discriminate|].
  destruct (if _ =? 229 then _ else _); [|discriminate|discriminate]. cbn [obind] in E. destruct (DateFromInt loc (r_adate r)); [|discriminate|discriminate]. cbn [obind] in E.
  destruct (trim_right (r_name r)) as [|c rest]; [discriminate|]. destruct (c =? 0); [discriminate|]. injection E as <-. cbn [de_mode]. eauto.
Qed.
(* the stat mode has the right file type *)
Theorem C81_type_partial flags : (Z.land (AttrFlagsToFileMode flags) S_IFMT = S_IFDIR <-> Z.testbit flags 4 = true) /\
  (Z.land (AttrFlagsToFileMode flags) S_IFMT = S_IFREG <-> Z.testbit flags 4 = false /\ Z.testbit flags 6 = false).
Proof.
  assert (forall n k, 0 <= n -> k = 2^n -> negb (Z.land flags k =? 0) = Z.testbit flags n) as HT.
  { intros n k Hn ->. destruct (Z.testbit flags n) eqn:E.
    - apply negb_true_iff, Z.eqb_neq. intros X. assert (Z.testbit (Z.land flags (2^n)) n = true) as Y by (rewrite Z.land_spec, E, Z.pow2_bits_true by lia; reflexivity). rewrite X, Z.bits_0 in Y. discriminate.
    - apply negb_false_iff, Z.eqb_eq. apply Z.bits_inj'. intros i Hi. rewrite Z.land_spec, Z.bits_0, Z.pow2_bits_eqb by lia. destruct (n =? i) eqn:EI; [|apply andb_false_r]. apply Z.eqb_eq in EI. subst i. now rewrite E. }
  unfold AttrFlagsToFileMode, AttrReadOnly, AttrDirectory, AttrDevice. rewrite (HT 0 1), (HT 4 16), (HT 6 64) by (reflexivity || lia).
  destruct (Z.testbit flags 0), (Z.testbit flags 4), (Z.testbit flags 6); vm_compute; intuition congruence.
Qed.
Example C81_ex : exists d, new_dirent true 512 (mkRawDirent (B "SUB     ") (B "   ") 16 0 0 0 33 33 0 0 33 2 0) = Ret (inl d) /\ de_name d = B "SUB" /\ de_is_dir d = false /\ f_mode (de_stat d) = 0x41ff.
Proof. eexists. split; [vm_compute; reflexivity|]. vm_compute. auto. Qed.

(* every read and execute bit is set, the group and others may write exactly when the entry is not read-only *)
Theorem C81_permissions_partial flags n : 0 <= n < 9 ->
  Z.testbit (AttrFlagsToFileMode flags) n = if (n =? 1) || (n =? 4) then negb (Z.testbit flags 0) else true.
Proof.
  intros Hn. assert (negb (Z.land flags AttrReadOnly =? 0) = Z.testbit flags 0) as HT.
  { change AttrReadOnly with (Z.ones 1). rewrite Z.land_ones by lia. change (2^1) with 2. rewrite Zmod_odd, Z.bit0_odd. now destruct (Z.odd flags). }
  unfold AttrFlagsToFileMode. rewrite HT. assert (n = 0 \/ n = 1 \/ n = 2 \/ n = 3 \/ n = 4 \/ n = 5 \/ n = 6 \/ n = 7 \/ n = 8) as Hi by lia.
  destruct Hi as [->|[->|[->|[->|[->|[->|[->|[->| ->]]]]]]]]; destruct (Z.testbit flags 0), (negb (Z.land flags AttrDirectory =? 0)), (negb (Z.land flags AttrDevice =? 0)); reflexivity.
Qed.
(* so the owner may write every file, read-only or not *)
Theorem C81_readonly_refuted flags : Z.testbit (AttrFlagsToFileMode flags) 7 = true.
Proof. now rewrite C81_permissions_partial by lia. Qed.
Example C81_ex2 : AttrFlagsToFileMode 1 = 0x81ed /\ AttrFlagsToFileMode 0x20 = 0x81ff. Proof. vm_compute. auto. Qed.

(** ** C82 *)
Theorem C82_chmod_partial {F} (fi : fatimpl F) rep fuel path mode s s1 d : resolvePath fi rep fuel path s = FDone s1 (inl d) ->
  exists m, Chmod fi rep fuel path mode s = update_dirent fi (set_mode d m) s1 /\ Z.ldiff m 0x92 = Z.ldiff (f_mode (de_stat d)) 0x92 /\
    Z.land m 0x92 = (if Z.land mode 0x92 =? 0 then 0 else 0x92).
Proof.
  intros R. unfold Chmod, ftry, fbind. rewrite R. cbv zeta. eexists. split; [reflexivity|]. unfold writeBits. set (o := f_mode (de_stat d)).
  destruct (Z.land mode 146 =? 0); split; apply Z.bits_inj'; intros i Hi; rewrite ?Z.ldiff_spec, ?Z.land_spec, ?Z.lor_spec, ?Z.ldiff_spec, ?Z.bits_0; destruct (Z.testbit o i), (Z.testbit 146 i); reflexivity.
Qed.
Theorem C82_set_mode d m : let d' := set_mode d m in f_mode (de_stat d') = m /\ de_name d' = de_name d /\ de_attr d' = de_attr d /\ de_first d' = de_first d /\ de_size d' = de_size d /\
  f_size (de_stat d') = f_size (de_stat d) /\ GetLastAccessedAt d' = GetLastAccessedAt d /\ GetLastModifiedAt d' = GetLastModifiedAt d /\ GetCreatedAt d' = GetCreatedAt d.
Proof. unfold set_mode, GetCreatedAt. cbn. auto 10. Qed.
(* a time that cannot be stored is dropped without an error *)
Theorem C82_chtimes_refuted {F} (fi : fatimpl F) rep epoch fuel path atime mtime s s1 d : resolvePath fi rep fuel path s = FDone s1 (inl d) -> atime < epoch -> mtime < epoch ->
  Chtimes fi rep epoch fuel path atime mtime s = update_dirent fi d s1.
Proof.
  intros R Ha Hm. unfold Chtimes, ftry, fbind. rewrite R. unfold SetLastAccessedAt. assert (atime <? epoch = true) as -> by lia. cbn [fst]. unfold SetLastModifiedAt. assert (mtime <? epoch = true) as -> by lia. reflexivity.
Qed.
Theorem C82_chtimes_partial {F} (fi : fatimpl F) rep epoch fuel path atime mtime s s1 d : resolvePath fi rep fuel path s = FDone s1 (inl d) -> epoch <= atime -> epoch <= mtime ->
  exists d', Chtimes fi rep epoch fuel path atime mtime s = update_dirent fi d' s1 /\ GetLastAccessedAt d' = atime /\ GetLastModifiedAt d' = mtime /\ GetCreatedAt d' = GetCreatedAt d /\ GetDeletedAt d' = GetDeletedAt d /\
    de_name d' = de_name d /\ de_first d' = de_first d /\ de_size d' = de_size d /\ f_mode (de_stat d') = f_mode (de_stat d).
Proof.
  intros R Ha Hm. unfold Chtimes, ftry, fbind. rewrite R. unfold SetLastAccessedAt. assert (atime <? epoch = false) as -> by lia. cbn [fst]. unfold SetLastModifiedAt. assert (mtime <? epoch = false) as -> by lia.
  eexists. split; [reflexivity|]. cbn. auto 10.
Qed.
(* as it is, only descendants of the empty entry are ever written: the named file is never changed *)
Theorem C82_never_the_file_refuted {F} (fi : fatimpl F) fuel path mode s s' : Chmod fi false fuel path mode s = FDone s' (inl tt) ->
  exists d, x_log s' = x_log s ++ [FvUpdate d] /\ de_name d = [] /\ de_first d = 0.
Proof.
  intros E. unfold Chmod, ftry, fbind in E. destruct (resolvePath fi false fuel path s) as [s1 [d|]|s1|s1] eqn:R; try discriminate. apply resolve_asis in R as [-> L]. cbv zeta in E.
  unfold update_dirent, call_ in E. destruct (fi_update fi (x_fs s1) _) as [fs [e|]]; [discriminate|]. injection E as <-. cbn [x_log]. rewrite L. eexists. split; [reflexivity|]. split; reflexivity.
Qed.
Example C82_ex : exists s', Chmod (ex_fi ex_valid [ex_dir] ex_dirdisk) true 9 (B "D") 0x124 ex_s = FDone s' (inl tt) /\
  exists s'', Chtimes (ex_fi ex_valid [ex_dir] ex_dirdisk) true 100 9 (B "D") 5 7 ex_s = FDone s'' (inl tt) /\ exists o n, x_log s'' = [FvReadAt o n; FvUpdate ex_dir].
Proof. eexists. split; [vm_compute; reflexivity|]. eexists. split; [vm_compute; reflexivity|]. do 2 eexists. reflexivity. Qed.
Print Assumptions C71_always_panics_refuted.
Print Assumptions C71_short_partial.
Print Assumptions C71_exported_partial.
Print Assumptions C71_disk_partial.
Print Assumptions C72_consistent.
Print Assumptions C72_rejects.
Print Assumptions C72_accepts.
Print Assumptions C73_values.
Print Assumptions C73_right_exactly.
Print Assumptions C73_layout_partial.
Print Assumptions C73_data_area_refuted.
Print Assumptions C73_clusters_refuted.
Print Assumptions C73_width_refuted.
Print Assumptions C73_root_refuted.
Print Assumptions C74_always_panics_refuted.
Print Assumptions C74_date_partial.
Print Assumptions C74_timestamp_partial.
Print Assumptions C74_fraction_refuted.
Print Assumptions C74_total_partial.
Print Assumptions C74_no_date_refuted.
Print Assumptions C75_always_panics_refuted.
Print Assumptions C75_names_partial.
Print Assumptions C75_attribute_refuted.
Print Assumptions C75_shifted_refuted.
Print Assumptions C76_listing_partial.
Print Assumptions C76_end_marker_refuted.
Print Assumptions C76_nth_partial.
Print Assumptions C76_corrupt_partial.
Print Assumptions C76_bad_start.
Print Assumptions C77_loop_refuted.
Print Assumptions C77_terminates_partial.
Print Assumptions C78_indices_refuted.
Print Assumptions C78_wrong_clusters_refuted.
Print Assumptions C78_entry_first_partial.
Print Assumptions C78_directory_partial.
Print Assumptions C78_never_the_file_refuted.
Print Assumptions C79_nothing_found_refuted.
Print Assumptions C79_root_error_refuted.
Print Assumptions C79_missing_refuted.
Print Assumptions C79_file_refuted.
Print Assumptions C79_slash_refuted.
Print Assumptions C79_found_partial.
Print Assumptions C79_directory_partial.
Print Assumptions C79_directory_error_partial.
Print Assumptions C80_registers_partial.
Print Assumptions C80_too_early.
Print Assumptions C80_accepted.
Print Assumptions C80_deleted_refuted.
Print Assumptions C80_deleted_for_ever_refuted.
Print Assumptions C80_deleted_has_no_creation_partial.
Print Assumptions C81_never_a_directory_refuted.
Print Assumptions C81_type_partial.
Print Assumptions C81_permissions_partial.
Print Assumptions C81_readonly_refuted.
Print Assumptions C82_chmod_partial.
Print Assumptions C82_set_mode.
Print Assumptions C82_chtimes_refuted.
Print Assumptions C82_chtimes_partial.
Print Assumptions C82_never_the_file_refuted.

(** ** The parts that hold of claims refuted above, as claims of their own (the examples above are theirs too) *)
Theorem C140_terminates {F} (fi : fatimpl F) s next valid eoc c (N : nat) : fat_is fi (x_fs s) next valid eoc ->
  (forall x, valid x = true -> eoc x = false -> 0 <= x < Z.of_nat N) ->
  (exists r, forall fuel, (N < fuel)%nat -> listClusters fi fuel c s = FDone s r) \/
  ((exists i p, (0 < p)%nat /\ (i + p <= N)%nat /\ iter next (p + i) c = iter next i c) /\ forall fuel, listClusters fi fuel c s = FSpin s).
Proof. apply C77_terminates_partial. Qed.
Theorem C141_registers epoch os d : de_deleted d = false -> let r := run epoch os d in
  GetLastAccessedAt r = last_set epoch (times_A os) (GetLastAccessedAt d) /\ GetLastModifiedAt r = last_set epoch (times_M os) (GetLastModifiedAt d) /\
  (Forall (fun t => t < epoch) (times_D os) -> GetCreatedAt r = (last_set epoch (times_C os) (f_created (de_stat d)), None) /\ GetDeletedAt r = (0, Some (K ErrInvalidArgument))) /\
  de_name r = de_name d /\ de_first r = de_first d /\ de_size r = de_size d /\ f_mode (de_stat r) = f_mode (de_stat d) /\ f_size (de_stat r) = f_size (de_stat d).
Proof. apply C80_registers_partial. Qed.
Theorem C141_too_early epoch o d t : (o = SetA t \/ o = SetM t \/ o = SetC t \/ o = SetD t) -> t < epoch -> run1 epoch o d = (d, Some (K ErrArgumentOutOfRange)).
Proof. apply C80_too_early. Qed.
Theorem C141_accepted epoch o d t : (o = SetA t \/ o = SetM t \/ (o = SetC t /\ de_deleted d = false)) -> epoch <= t -> snd (run1 epoch o d) = None.
Proof. apply C80_accepted. Qed.
Print Assumptions C140_terminates.
Print Assumptions C141_registers.
Print Assumptions C141_too_early.
Print Assumptions C141_accepted.
