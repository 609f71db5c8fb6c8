(** * Property theorems C58-C70 (statements; proofs in Fat8Proofs 1 to 6 and Fat8Names).

    [f] is the image file, with the failures the device will have; [d] a driver.  [ready d f]:
    the device works, and the driver's geometry is that of the block count it uses, which
    fits in the image (the state after FormatImage, and of a mounted driver). *)
From Coq Require Import String.
From Verif Require Import GoBase ListZ Errors Flags GoPath Spec_Path GoPathProofs OsFile Fat8 Spec_Fat8 Fat8Proofs Fat8Proofs2 Fat8Proofs3 Fat8Proofs4 Fat8Proofs5 Fat8Proofs6 Fat8Names FatExact.

(* an empty file, and what FormatImage makes of it *)
Definition empty_file : osfile := mkFile [] [].
Definition demo8 : driver8 := formatted new_driver 640 G640.
Definition demo_img : osfile :=
  mkFile (splice (128 * 272) (new_track G640) (zrepeat 0 (128 * 640))) [].
Lemma demo_formats : format8 new_driver empty_file (128 * 640) = Ret (demo8, demo_img, None).
Proof. apply (format_ok new_driver empty_file 640 G640); reflexivity. Qed.
Lemma demo_ready : ready demo8 demo_img.
Proof. split; [reflexivity|]. split; [reflexivity|]. vm_compute. discriminate. Qed.
Lemma demo_reachable : reachable_healthy demo8 demo_img.
Proof.
  exists empty_file, [OFormat (128 * 640)]. split; [reflexivity|]. split; [constructor; [cbn; lia|constructor]|].
  cbn [run8 step8]. rewrite demo_formats. reflexivity.
Qed.

(** ** C58 *)
Theorem C58_accepted tb : (exists g, get_geometry tb = inl g) <-> tb = 640 \/ tb = 1898 \/ tb = 2002.
Proof.
  split.
  - intros [g H]. destruct (get_geo_cases _ _ H) as [[-> _]|[[-> _]|[-> _]]]; auto.
  - intros [-> | [-> | ->]]; eexists; reflexivity.
Qed.
Theorem C58_layout tb g : get_geometry tb = inl g ->
  TrueTotalTracks g * SectorsPerTrack g = tb /\ TotalTracks g <= TrueTotalTracks g /\
  (* the directory track, numbered from 1, is one of the usable tracks *)
  DirectoryTrackStart g = (DirectoryTrackNumber g - 1) * SectorsPerTrack g /\
  DirectoryTrackStart g + SectorsPerTrack g <= TotalTracks g * SectorsPerTrack g /\
  (* directory entries, info sector, three FATs *)
  0 < DirectoryTrackStart g < InfoSectorStart g /\ InfoSectorStart g + 1 = FATsStart g /\
  FATsStart g + 3 * SectorsPerFAT g = DirectoryTrackStart g + SectorsPerTrack g /\
  (* every cluster has a FAT entry, no sector is wasted; two clusters to the track *)
  TotalClusters g <= 128 * SectorsPerFAT g < TotalClusters g + 128 /\
  TotalClusters g * SectorsPerCluster g = TotalTracks g * SectorsPerTrack g /\
  BytesPerCluster g = 128 * SectorsPerCluster g /\ SectorsPerTrack g = 2 * SectorsPerCluster g.
Proof. apply geometry_facts. Qed.
(* the documented figures *)
Theorem C58_figures tb g : get_geometry tb = inl g ->
  (tb = 640 -> TotalTracks g = 40 /\ TrueTotalTracks g = 40 /\ SectorsPerTrack g = 16 /\ DirectoryTrackNumber g = 18) /\
  (tb = 1898 -> TotalTracks g = 73 /\ TrueTotalTracks g = 73 /\ SectorsPerTrack g = 26 /\ DirectoryTrackNumber g = 35) /\
  (tb = 2002 -> TotalTracks g = 73 /\ TrueTotalTracks g = 77 /\ SectorsPerTrack g = 26 /\ DirectoryTrackNumber g = 35).
Proof. intros H. destruct (get_geo_cases _ _ H) as [[-> ->]|[[-> ->]|[-> ->]]]; vm_compute; intuition congruence. Qed.
Theorem C58_refused tb : tb <> 640 -> tb <> 1898 -> tb <> 2002 -> exists e, get_geometry tb = inr e.
Proof.
  intros H1 H2 H3. destruct (get_geometry tb) as [g|e] eqn:E; [|eauto]. exfalso.
  destruct (proj1 (C58_accepted tb) (ex_intro _ g E)) as [|[|]]; contradiction.
Qed.
Example C58_example : get_geometry 2002 = inl G2002 /\ FATsStart G2002 = 904 /\ fat_end G2002 = 910.
Proof. now repeat split. Qed.

(** ** C59 *)
Definition valid_size (size : Z) : Prop := size = 128 * 640 \/ size = 128 * 1898 \/ size = 128 * 2002.
Lemma valid_size_geo size : valid_size size <-> exists tb g, size = 128 * tb /\ get_geometry tb = inl g.
Proof.
  split.
  - intros [-> | [-> | ->]]; do 2 eexists; (split; [reflexivity|]); reflexivity.
  - intros (tb & g & -> & H). destruct (get_geo_cases _ _ H) as [[-> _]|[[-> _]|[-> _]]]; unfold valid_size; auto.
Qed.
Theorem C59_format_iff d f size : healthy f -> - 2^63 <= size < 2^63 ->
  (exists d' f', format8 d f size = Ret (d', f', None)) <-> isMounted d = false /\ valid_size size.
Proof.
  intros Hh Hs. split.
  - intros (d' & f' & H). destruct (format_iff d f size Hh Hs) as [(tb & g & -> & Hg & Hm)|(e & He & _)]; [|congruence].
    split; [assumption|]. apply valid_size_geo. eauto.
  - intros [Hm (tb & g & -> & Hg)%valid_size_geo]. rewrite (format_ok d f tb g Hh Hm Hg). eauto.
Qed.
(* when it is refused nothing changes *)
Theorem C59_refused_untouched d f size : healthy f -> - 2^63 <= size < 2^63 -> ~ (isMounted d = false /\ valid_size size) ->
  exists e, format8 d f size = Ret (d, f, Some e).
Proof.
  intros Hh Hs Hn. destruct (format_iff d f size Hh Hs) as [(tb & g & -> & Hg & Hm)|(e & He & _)]; [|eauto].
  exfalso. apply Hn. split; [assumption|]. apply valid_size_geo. eauto.
Qed.
Theorem C59_image d f size d' f' : healthy f -> - 2^63 <= size < 2^63 -> format8 d f size = Ret (d', f', None) ->
  exists g, get_geometry (size / 128) = inl g /\ geo d' = g /\ zlen (contents f') = size /\
    (* the directory, the info sector and the three FATs *)
    blocks_of f' (DirectoryTrackStart g) (InfoSectorStart g - DirectoryTrackStart g) = zrepeat 255 (128 * (InfoSectorStart g - DirectoryTrackStart g)) /\
    blocks_of f' (InfoSectorStart g) 1 = zrepeat 0 128 /\
    fat_copy g f' 0 = fat_copy g f' 1 /\ fat_copy g f' 0 = fat_copy g f' 2 /\
    (* outside the directory track the image is as before, zero where it was too short *)
    (forall p, 0 <= p < size -> ~ sector_in_directory g (p / 128) -> byte_at f' p = byte_at f p).
Proof.
  intros Hh Hs H. destruct (format_iff d f size Hh Hs) as [(tb & g & -> & Hg & Hm)|(e & He & _)]; [|congruence].
  destruct (format_contents d f tb g Hh Hm Hg) as (f1 & E & Hr & Hl & H1 & H2 & H3 & H4).
  rewrite E in H. assert (d' = formatted d tb g /\ f' = f1) as [-> ->] by (split; congruence).
  exists g. replace (128 * tb / 128) with tb by (rewrite Z.mul_comm, Z.div_mul; lia). split; [assumption|]. split; [reflexivity|]. split; [assumption|].
  split; [assumption|]. split; [assumption|]. split; [rewrite !H3; auto|]. split; [rewrite !H3; auto|].
  intros p Hp Hn. apply H4; [assumption|]. intros Hin. apply Hn. unfold sector_in_directory. 
  split; [apply Z.div_le_lower_bound; lia | apply Z.div_lt_upper_bound; lia].
Qed.
(* what FSStat says afterwards: the directory track is not available, nor the tracks beyond the usable ones *)
Theorem C59_statistics d f size d' f' : healthy f -> - 2^63 <= size < 2^63 -> format8 d f size = Ret (d', f', None) ->
  exists g, get_geometry (size / 128) = inl g /\ BlockSize (fs_stat d') = 128 /\ BlockSize (fs_stat d') * TotalBlocks (fs_stat d') = size /\
    BlocksFree (fs_stat d') = (TotalTracks g - 1) * SectorsPerTrack g /\ BlocksAvailable (fs_stat d') = BlocksFree (fs_stat d') /\
    BlocksFree (fs_stat d') < TotalBlocks (fs_stat d') /\
    Files (fs_stat d') = 0 /\ FilesFree (fs_stat d') = 8 * (InfoSectorStart g - DirectoryTrackStart g) /\ MaxNameLength (fs_stat d') = 10.
Proof.
  intros Hh Hs H. destruct (format_iff d f size Hh Hs) as [(tb & g & -> & Hg & Hm)|(e & He & _)]; [|congruence].
  rewrite (format_ok d f tb g Hh Hm Hg) in H. assert (d' = formatted d tb g) as -> by congruence.
  exists g. replace (128 * tb / 128) with tb by (rewrite Z.mul_comm, Z.div_mul; lia). split; [assumption|].
  destruct (get_geo_cases _ _ Hg) as [[-> ->]|[[-> ->]|[-> ->]]]; vm_compute; auto 10.
Qed.
Example C59_example : format8 new_driver empty_file (128 * 640) = Ret (demo8, demo_img, None) /\ healthy empty_file /\ valid_size (128 * 640) /\
  (exists e, format8 new_driver empty_file (128 * 641) = Ret (new_driver, empty_file, Some e)).
Proof. split; [apply demo_formats|]. split; [reflexivity|]. split; [left; reflexivity|]. eexists. reflexivity. Qed.

(** ** C60 *)
(* entry [i] of the FAT belongs to cluster [i+1]; FormatImage marks the entries 17 and 18 (34
   and 35 on the larger disks), that is one cluster behind the first half of the track *)
Theorem C60_entries d f size d' f' : healthy f -> - 2^63 <= size < 2^63 -> format8 d f size = Ret (d', f', None) ->
  let g := geo d' in forall i, 0 <= i < 128 * SectorsPerFAT g ->
  znth 0 (fat_copy g f' 0) i = if (i =? DirectoryTrackNumber g - 1) || (i =? DirectoryTrackNumber g) then 254 else 255.
Proof.
  intros Hh Hs H g i Hi. destruct (format_iff d f size Hh Hs) as [(tb & g' & -> & Hg & Hm)|(e & He & _)]; [|congruence].
  destruct (format_contents d f tb g' Hh Hm Hg) as (f1 & E & Hr & Hl & H1 & H2 & H3 & H4).
  rewrite E in H. assert (d' = formatted d tb g' /\ f' = f1) as [-> ->] by (split; congruence).
  subst g. cbn [geo formatted] in *. rewrite H3 by auto. apply new_fat_entries; [|assumption]. eapply get_geo_good; eauto.
Qed.
(* each cluster with a sector of the directory track is left free *)
Theorem C60_directory_left_free_refuted d f size d' f' c s : healthy f -> - 2^63 <= size < 2^63 -> format8 d f size = Ret (d', f', None) ->
  sector_in_directory (geo d') s -> sector_in_cluster (geo d') s c -> znth 0 (fat_copy (geo d') f' 0) (c - 1) = 255.
Proof.
  intros Hh Hs H Hd Hc.
  destruct (format_iff d f size Hh Hs) as [(tb & g' & -> & Hg & Hm)|(e & He & _)]; [|congruence].
  assert (Hgeo : geo d' = g') by (rewrite (format_ok d f tb g' Hh Hm Hg) in H; assert (d' = formatted d tb g') as -> by congruence; reflexivity).
  rewrite (C60_entries d f _ d' f' Hh Hs H).
  - unfold sector_in_directory, sector_in_cluster in *. rewrite Hgeo in *.
    destruct (get_geo_cases _ _ Hg) as [[-> ->]|[[-> ->]|[-> ->]]]; cbn in *;
    match goal with |- (if ?b then _ else _) = _ => destruct b eqn:Eb end; try reflexivity; exfalso; lia.
  - unfold sector_in_directory, sector_in_cluster in *. rewrite Hgeo in *.
    destruct (get_geo_cases _ _ Hg) as [[-> ->]|[[-> ->]|[-> ->]]]; cbn in *; lia.
Qed.
(* exactly two entries are marked, in every copy; both are of clusters on the disk *)
Theorem C60_two_reserved_partial d f size d' f' : healthy f -> - 2^63 <= size < 2^63 -> format8 d f size = Ret (d', f', None) ->
  exists a, 1 <= a /\ a + 1 <= TotalClusters (geo d') /\
  forall k c, k = 0 \/ k = 1 \/ k = 2 -> 1 <= c <= 128 * SectorsPerFAT (geo d') ->
    (znth 0 (fat_copy (geo d') f' k) (c - 1) = 254 <-> c = a \/ c = a + 1) /\
    (znth 0 (fat_copy (geo d') f' k) (c - 1) = 255 <-> ~ (c = a \/ c = a + 1)).
Proof.
  intros Hh Hs H. exists (DirectoryTrackNumber (geo d')).
  assert (Hgood : good_geo (geo d')).
  { destruct (format_iff d f size Hh Hs) as [(tb & g' & -> & Hg & Hm)|(e & He & _)]; [|congruence].
    rewrite (format_ok d f tb g' Hh Hm Hg) in H. assert (d' = formatted d tb g') as -> by congruence. eapply get_geo_good; eauto. }
  split; [|split].
  - destruct Hgood as [E | [E | E]]; rewrite E; cbn; lia.
  - destruct Hgood as [E | [E | E]]; rewrite E; cbn; lia.
  - intros k c Hk Hc. destruct (C59_image d f size d' f' Hh Hs H) as (g & Hg & Hgd & _ & _ & _ & E1 & E2 & _). rewrite Hgd in *.
    assert (E : fat_copy g f' k = fat_copy g f' 0) by (destruct Hk as [-> | [-> | ->]]; congruence). rewrite E.
    pose proof (C60_entries d f size d' f' Hh Hs H (c - 1)) as X. cbv zeta in X. rewrite Hgd in X. rewrite X by lia.
    destruct ((c - 1 =? DirectoryTrackNumber g - 1) || (c - 1 =? DirectoryTrackNumber g)) eqn:Eb; split; split; intros; try lia; try discriminate.
Qed.
Example C60_example : healthy empty_file /\ sector_in_directory (geo demo8) 272 /\ sector_in_cluster (geo demo8) 272 35 /\ sector_in_directory (geo demo8) 287 /\ sector_in_cluster (geo demo8) 287 36 /\
  znth 0 (fat_copy G640 demo_img 0) 34 = 255 /\ znth 0 (fat_copy G640 demo_img 0) 17 = 254.
Proof. unfold sector_in_directory, sector_in_cluster. cbn [geo demo8 formatted]. split; [reflexivity|]. repeat split; try (vm_compute; congruence). Qed.

(** ** C61 *)
(* Mount reads the image through the block count of the driver, which only FormatImage sets *)
Theorem C61_fresh_driver_refuted f : exists d' f' e, mount8 new_driver f = Ret (d', f', Some e) /\ isMounted d' = false.
Proof. apply mount_zero; cbn; [reflexivity|lia]. Qed.
Theorem C61_well_formed_partial d f tb g : healthy f -> isMounted d = false ->
  (* an image of one of the three sizes with three equal FATs, and a driver that knows a block
     count beyond the FATs, as it does after FormatImage *)
  zlen (contents f) = 128 * tb -> get_geometry tb = inl g -> fat_copy g f 0 = fat_copy g f 1 -> fat_copy g f 0 = fat_copy g f 2 ->
  fat_end g < TotalBlocks (st8 d) < 2^50 ->
  exists d', mount8 d f = Ret (d', f, None) /\ isMounted d' = true /\ geo d' = g /\ fat d' = fat_copy g f 0 /\ dflags d' = byte_at f (128 * InfoSectorStart g) /\ st8 d' = st8 d.
Proof. intros. exists (mounted_as d g f). split; [now apply (mount_ok d f tb g)|]. repeat split. Qed.
Theorem C61_after_format_partial d f size d' f' : healthy f -> - 2^63 <= size < 2^63 -> format8 d f size = Ret (d', f', None) ->
  exists d'', mount8 d' f' = Ret (d'', f', None) /\ isMounted d'' = true /\ geo d'' = geo d' /\ fat d'' = fat_copy (geo d') f' 0 /\ ready d'' f'.
Proof.
  intros Hh Hs H. destruct (format_iff d f size Hh Hs) as [(tb & g & -> & Hg & Hm)|(e & He & _)]; [|congruence].
  destruct (format_contents d f tb g Hh Hm Hg) as (f1 & E & Hr & Hl & H1 & H2 & H3 & H4).
  rewrite E in H. assert (d' = formatted d tb g /\ f' = f1) as [-> ->] by (split; congruence).
  exists (mounted_as (formatted d tb g) g f1). split.
  - apply (mount_ok _ _ tb g); auto; try (rewrite !H3; auto); [apply Hr|]. pose proof (ready_facts _ _ Hr) as (_ & ? & ? & _). cbn [geo formatted st8 TotalBlocks] in *. lia.
  - split; [reflexivity|]. split; [reflexivity|]. split; [reflexivity|]. destruct Hr as (A & B0 & C). split; [assumption|]. split; assumption.
Qed.
(* an image of any other size is refused as corrupted, whatever the driver *)
Theorem C61_other_sizes_refused d f : healthy f -> isMounted d = false -> zlen (contents f) < 2^63 ->
  (forall tb, tb = 640 \/ tb = 1898 \/ tb = 2002 -> zlen (contents f) / 128 <> tb) ->
  mount8 d f = Ret (d, f, Some (KWrap ErrFileSystemCorrupted err_bad_blocks)) /\ kerr_is (KWrap ErrFileSystemCorrupted err_bad_blocks) ErrFileSystemCorrupted = true.
Proof.
  intros Hh Hm Hz Hn. split; [|reflexivity]. unfold mount8. rewrite Hm. unfold f_size_of, syscall. rewrite Hh.
  rewrite u64_id by (pose proof (zlen_nonneg (contents f)); lia).
  destruct (get_geometry (zlen (contents f) / 128)) as [g|e] eqn:E; [|unfold get_geometry in E; repeat (destruct (_ =? _) in E; [discriminate|]); injection E as <-; reflexivity].
  exfalso. apply (Hn _ (proj1 (C58_accepted _) (ex_intro _ g E))). reflexivity.
Qed.
Example C61_example : exists d'', mount8 demo8 demo_img = Ret (d'', demo_img, None) /\ isMounted d'' = true /\
  exists d' f' e, mount8 new_driver demo_img = Ret (d', f', Some e).
Proof.
  destruct (C61_after_format_partial new_driver empty_file (128 * 640) demo8 demo_img) as (d'' & H & Hm & _); [reflexivity|lia|apply demo_formats|].
  exists d''. split; [assumption|]. split; [assumption|]. destruct (mount_zero new_driver demo_img) as (a & b & c & X & _); [reflexivity|cbn; lia|eauto].
Qed.

(** ** C62 *)
Theorem C62_flush d f : ready d f -> zlen (fat d) = 128 * SectorsPerFAT (geo d) ->
  exists f', flush8 d f = (f', None) /\ healthy f' /\ zlen (contents f') = zlen (contents f) /\
    fat_copy (geo d) f' 0 = fat d /\ fat_copy (geo d) f' 1 = fat d /\ fat_copy (geo d) f' 2 = fat d /\
    get_fat d f' = Ret (f', inl (fat d)) /\
    (forall p, 0 <= p -> ~ (FATsStart (geo d) <= p / 128 < FATsStart (geo d) + 3 * SectorsPerFAT (geo d)) -> byte_at f' p = byte_at f p).
Proof.
  intros Hr Hz. pose proof (ready_facts d f Hr) as (Hg & Ht & He & Hl & _ & _ & _ & _ & H0 & Hspf & _).
  destruct Hr as (Hh & _ & _).
  eexists. split; [apply flush_spec; auto; lia|].
  assert (Hin : 128 * fat_end (geo d) <= zlen (contents f)) by lia.
  destruct (copies_of_splice (geo d) (contents f) (fat d) (fat d) (fat d) Hg Hz Hz Hz Hin) as (C0 & C1 & C2).
  assert (Hz3 : zlen (fat d ++ fat d ++ fat d) = 3 * (128 * SectorsPerFAT (geo d))) by (rewrite !zlen_app; lia).
  assert (HL : zlen (splice (128 * FATsStart (geo d)) (fat d ++ fat d ++ fat d) (contents f)) = zlen (contents f)).
  { unfold fat_end in Hin; rewrite zlen_splice; lia. }
  split; [reflexivity|]. split; [exact HL|]. split; [exact C0|]. split; [exact C1|]. split; [exact C2|]. split.
  - rewrite get_fat_spec; auto; try reflexivity; try lia.
    + rewrite C0, C1, C2, !beqb_refl. reflexivity.
    + cbn [contents]. rewrite HL. lia.
  - intros p Hp Hn. unfold byte_at. cbn [contents]. unfold fat_end in Hin. rewrite znth_splice by lia.
    destruct ((128 * FATsStart (geo d) <=? p) && (p <? 128 * FATsStart (geo d) + zlen (fat d ++ fat d ++ fat d))) eqn:E; [|reflexivity].
    exfalso. apply Hn. rewrite Hz3 in E. split; [apply Z.div_le_lower_bound; lia|apply Z.div_lt_upper_bound; lia].
Qed.
(* the hypotheses hold for a driver mounted after any history on a working device *)
Theorem C62_reachable d f : reachable_healthy d f -> isMounted d = true ->
  ready d f /\ zlen (fat d) = 128 * SectorsPerFAT (geo d).
Proof.
  intros Hr Hm. destruct (reachable_K d f Hr) as [(_ & _ & _ & HJ) (Hh & HK & HG)].
  destruct (HJ Hm) as (Hg & He & Hz & Hl). specialize (HG Hm). split; [|assumption]. split; [assumption|]. split; [assumption|].
  destruct HK as [Z0 | ->]; [rewrite Z0 in HG; discriminate|lia].
Qed.
Lemma demo_mounted : exists d, reachable_healthy d demo_img /\ isMounted d = true /\ geo d = G640.
Proof.
  destruct (C61_after_format_partial new_driver empty_file (128 * 640) demo8 demo_img) as (d'' & H & Hm & Hg & _); [reflexivity|lia|apply demo_formats|].
  exists d''. split; [|split; [assumption|exact Hg]].
  exists empty_file, [OFormat (128 * 640); OMount]. split; [reflexivity|]. split; [repeat constructor; cbn; lia|].
  cbn [run8 step8]. rewrite demo_formats. cbn [obind fst snd]. cbn [run8 step8]. rewrite H. reflexivity.
Qed.
Example C62_example : exists d f', reachable_healthy d demo_img /\ isMounted d = true /\ flush8 d demo_img = (f', None) /\ get_fat d f' = Ret (f', inl (fat d)).
Proof.
  destruct demo_mounted as (d & Hr & Hm & _). destruct (C62_reachable d _ Hr Hm) as [A B0].
  destruct (C62_flush d _ A B0) as (f' & E & _ & _ & _ & _ & _ & G & _). eauto 6.
Qed.

(** ** C63 *)
(* the device stops at byte [k] of the write of the FATs; [f2] is the image read after a restart *)
Theorem C63_crash d f k rest old f1 e : faults f = Some k :: rest -> get_geometry (TotalBlocks (st8 d)) = inl (geo d) ->
  128 * TotalBlocks (st8 d) <= zlen (contents f) -> zlen (fat d) = 128 * SectorsPerFAT (geo d) ->
  fat_copy (geo d) f 0 = old -> fat_copy (geo d) f 1 = old -> fat_copy (geo d) f 2 = old ->
  flush8 d f = (f1, Some e) ->
  let f2 := mkFile (contents f1) [] in
  zlen (contents f2) = zlen (contents f) /\
  (get_fat d f2 = Ret (f2, inl old) \/ get_fat d f2 = Ret (f2, inl (fat d)) \/ get_fat d f2 = Ret (f2, inr (K ErrFileSystemCorrupted))).
Proof.
  intros Hf Hg Hl Hz H0 H1 H2 E f2.
  assert (Hr : ready d (mkFile (contents f) [])) by (split; [reflexivity|split; assumption]).
  pose proof (ready_facts _ _ Hr) as (Hgood & Ht & He & _). 
  destruct (crash_spec d f f1 k rest e old Hf E Hgood Hz) as [HL Hc]; auto; try lia.
  split; [exact HL|].
  assert (R : get_fat d f2 = Ret (f2, if beqb (fat_copy (geo d) f2 0) (fat_copy (geo d) f2 1) && beqb (fat_copy (geo d) f2 0) (fat_copy (geo d) f2 2)
                        then inl (fat_copy (geo d) f2 0) else inr (K ErrFileSystemCorrupted))).
  { apply get_fat_spec; auto; try reflexivity; try lia. unfold f2. cbn [contents]. lia. }
  assert (C : forall j, fat_copy (geo d) f2 j = fat_copy (geo d) f1 j) by reflexivity. rewrite !C in R. rewrite R.
  destruct (beqb (fat_copy (geo d) f1 0) (fat_copy (geo d) f1 1)) eqn:E1; [|right; right; reflexivity].
  destruct (beqb (fat_copy (geo d) f1 0) (fat_copy (geo d) f1 2)) eqn:E2; [|right; right; reflexivity]. cbn [andb].
  apply beqb_eq in E2. destruct Hc as [Hc|Hc]; [right; left; now rewrite Hc|left; congruence].
Qed.
(* and nothing outside the FATs is touched by the interrupted write *)
Theorem C63_outside_untouched d f k rest f1 e : faults f = Some k :: rest -> get_geometry (TotalBlocks (st8 d)) = inl (geo d) ->
  128 * TotalBlocks (st8 d) <= zlen (contents f) -> zlen (fat d) = 128 * SectorsPerFAT (geo d) ->
  flush8 d f = (f1, Some e) -> forall p, 0 <= p -> ~ (FATsStart (geo d) <= p / 128 < FATsStart (geo d) + 3 * SectorsPerFAT (geo d)) -> byte_at f1 p = byte_at f p.
Proof.
  intros Hf Hg Hl Hz E p Hp Hn.
  assert (Hr : ready d (mkFile (contents f) [])) by (split; [reflexivity|split; assumption]).
  pose proof (ready_facts _ _ Hr) as (Hgood & Ht & He & _ & _ & _ & _ & _ & H0 & Hspf & _).
  assert (Hz3 : zlen (fat d ++ fat d ++ fat d) = 128 * (3 * SectorsPerFAT (geo d))) by (rewrite !zlen_app; lia).
  unfold flush8, write_fat, write_blocks in E. rewrite Hz3 in E.
  replace (Z.rem (128 * (3 * SectorsPerFAT (geo d))) 128) with 0 in E by (rewrite (Z.mul_comm 128), Z.rem_mul; lia).
  replace (Z.quot (128 * (3 * SectorsPerFAT (geo d))) 128) with (3 * SectorsPerFAT (geo d)) in E by (rewrite (Z.mul_comm 128), Z.quot_mul; lia).
  change (0 =? 0) with true in E. cbn [negb] in E. 
  destruct (u64 (FATsStart (geo d) + 3 * SectorsPerFAT (geo d)) >? TotalBlocks (st8 d)); [congruence|].
  assert (Hs : 0 <= FATsStart (geo d) < 2^12) by (unfold fat_end in He; lia).
  rewrite (i64_id8 (FATsStart (geo d))) in E by lia. rewrite i64_id8 in E by lia.
  unfold f_write_at in E. replace (FATsStart (geo d) * 128 <? 0) with false in E by lia.
  destruct (zlen (fat d ++ fat d ++ fat d) =? 0); [congruence|].
  unfold syscall in E. rewrite Hf in E. cbn [contents faults] in E.
  destruct (zlen (slice 0 k (fat d ++ fat d ++ fat d)) =? 0) eqn:Ek.
  - assert (f1 = mkFile (contents f) rest) as -> by congruence. reflexivity.
  - assert (f1 = mkFile (write_bytes (FATsStart (geo d) * 128) (slice 0 k (fat d ++ fat d ++ fat d)) (contents f)) rest) as -> by congruence.
    unfold byte_at. cbn [contents]. rewrite znth_write by lia.
    match goal with |- (if ?b then _ else _) = _ => destruct b eqn:Eb end; [|reflexivity]. exfalso. apply Hn.
    assert (zlen (slice 0 k (fat d ++ fat d ++ fat d)) <= zlen (fat d ++ fat d ++ fat d)).
    { unfold zlen, slice. rewrite firstn_length, skipn_length. lia. }
    split; [apply Z.div_le_lower_bound; lia|apply Z.div_lt_upper_bound; lia].
Qed.
Example C63_example : let d := mkD8 G640 0 (mkFs 128 640 0 0 0 0 0) [] (zrepeat 7 128) true [] in
  let f := mkFile (zrepeat 0 (128 * 640)) [Some 130] in
  get_geometry (TotalBlocks (st8 d)) = inl (geo d) /\ 128 * TotalBlocks (st8 d) <= zlen (contents f) /\ zlen (fat d) = 128 * SectorsPerFAT (geo d) /\
  match flush8 d f with
  | (f1, Some _) => fat_copy G640 f1 0 = zrepeat 7 128 /\ fat_copy G640 f1 1 = [7; 7] ++ zrepeat 0 126 /\ fat_copy G640 f1 2 = zrepeat 0 128 /\
      match get_fat d (mkFile (contents f1) []) with Ret (_, inr (K ErrFileSystemCorrupted)) => True | _ => False end
  | _ => False
  end.
Proof. vm_compute. repeat split; congruence. Qed.

(** ** C64 *)
Theorem C64_differing_reported d f : ready d f ->
  (fat_copy (geo d) f 0 = fat_copy (geo d) f 1 /\ fat_copy (geo d) f 0 = fat_copy (geo d) f 2 -> get_fat d f = Ret (f, inl (fat_copy (geo d) f 0))) /\
  (~ (fat_copy (geo d) f 0 = fat_copy (geo d) f 1 /\ fat_copy (geo d) f 0 = fat_copy (geo d) f 2) -> get_fat d f = Ret (f, inr (K ErrFileSystemCorrupted))).
Proof.
  intros Hr. pose proof (ready_facts d f Hr) as (Hg & Ht & He & Hl & _). destruct Hr as (Hh & _).
  rewrite get_fat_spec; auto; try lia.
  destruct (beqb (fat_copy (geo d) f 0) (fat_copy (geo d) f 1)) eqn:E1; destruct (beqb (fat_copy (geo d) f 0) (fat_copy (geo d) f 2)) eqn:E2; cbn [andb].
  - apply beqb_eq in E1, E2. split; [reflexivity|]. intros Hn. exfalso. auto.
  - split; [|reflexivity]. intros [_ X]. rewrite X, beqb_refl in E2. discriminate.
  - split; [|reflexivity]. intros [X _]. rewrite X, beqb_refl in E1. discriminate.
  - split; [|reflexivity]. intros [X _]. rewrite X, beqb_refl in E1. discriminate.
Qed.
(* Mount, by any driver that can read the FATs of this image *)
Theorem C64_mount d f tb g : healthy f -> isMounted d = false -> zlen (contents f) = 128 * tb -> get_geometry tb = inl g ->
  fat_end g < TotalBlocks (st8 d) < 2^50 ->
  ~ (fat_copy g f 0 = fat_copy g f 1 /\ fat_copy g f 0 = fat_copy g f 2) ->
  exists d', mount8 d f = Ret (d', f, Some (K ErrFileSystemCorrupted)) /\ isMounted d' = false.
Proof.
  intros Hh Hm Hz Hg Ht Hn. pose proof (get_geo_good _ _ Hg) as Hgood.
  assert (Htb : 0 <= tb < 2^12) by (destruct (get_geo_cases _ _ Hg) as [[-> _]|[[-> _]|[-> _]]]; lia).
  exists (with_geo d g). unfold mount8. rewrite Hm. unfold f_size_of, syscall. rewrite Hh, Hz.
  rewrite u64_id by lia. replace (128 * tb / 128) with tb by (rewrite Z.mul_comm, Z.div_mul; lia). rewrite Hg.
  rewrite get_fat_spec; auto; cbn [with_geo geo st8]; try lia.
  - destruct (beqb (fat_copy g f 0) (fat_copy g f 1)) eqn:E1; destruct (beqb (fat_copy g f 0) (fat_copy g f 2)) eqn:E2; cbn [andb]; auto.
    apply beqb_eq in E1, E2. exfalso. auto.
  - destruct (get_geo_cases _ _ Hg) as [[-> ->]|[[-> ->]|[-> ->]]]; unfold fat_end in *; cbn in *; lia.
Qed.
Example C64_example : let f := mkFile (splice (128 * 286) [1] (contents demo_img)) [] in ready demo8 f /\ ~ (fat_copy G640 f 0 = fat_copy G640 f 1 /\ fat_copy G640 f 0 = fat_copy G640 f 2).
Proof. cbv zeta. split; [split; [reflexivity|split; [reflexivity|vm_compute; discriminate]]|]. intros [X _]. vm_compute in X. discriminate. Qed.

(** ** C65 *)
(* WriteAbsoluteCluster multiplies the cluster number by the sectors of a track, not of a
   cluster: cluster [c] lands in cluster [2c-1], or nowhere *)
Theorem C65_write_elsewhere_refuted d f c b : ready d f -> 1 <= c <= TotalClusters (geo d) -> zlen b = BytesPerCluster (geo d) ->
  ((2 * c - 1) * SectorsPerCluster (geo d) <= TotalBlocks (st8 d) ->
     exists f', write_cluster d f c b = (f', None) /\ cluster_of (geo d) f' (2 * c - 1) = b /\
       (forall c', 1 <= c' -> 128 * (c' * SectorsPerCluster (geo d)) <= zlen (contents f) -> c' <> 2 * c - 1 -> cluster_of (geo d) f' c' = cluster_of (geo d) f c')) /\
  (TotalBlocks (st8 d) < (2 * c - 1) * SectorsPerCluster (geo d) -> exists e, write_cluster d f c b = (f, Some e)).
Proof.
  intros Hr Hc Hb. pose proof (ready_facts d f Hr) as (Hg & Ht & He & Hl & Htc & Hspc & Hbpc & _). destruct Hr as (Hh & _ & _).
  pose proof (write_cluster_spec d f c b Hh Hg Hc Hb) as W. cbv zeta in W. specialize (W ltac:(lia) Hl).
  replace (2 * (c - 1) + 1) with (2 * c - 1) in W by lia.
  split; intros Hx.
  - replace ((2 * c - 1) * SectorsPerCluster (geo d) <=? TotalBlocks (st8 d)) with true in W by lia.
    eexists. split; [exact W|]. rewrite Hbpc in Hb. split.
    + rewrite cluster_splice; try lia. now rewrite Z.eqb_refl.
    + intros c' H1 H2 H3. rewrite cluster_splice; try lia. now replace (2 * c - 1 =? c') with false by lia.
  - now replace ((2 * c - 1) * SectorsPerCluster (geo d) <=? TotalBlocks (st8 d)) with false in W by lia.
Qed.
(* the first cluster is the one for which this is right: it reads back, and the others are as before *)
Theorem C65_first_cluster_partial d f b : ready d f -> zlen b = BytesPerCluster (geo d) ->
  exists f', write_cluster d f 1 b = (f', None) /\ read_cluster d f' 1 = Ret (f', inl b) /\
    (forall c, 2 <= c <= TotalClusters (geo d) -> cluster_of (geo d) f' c = cluster_of (geo d) f c).
Proof.
  intros Hr Hb. pose proof (ready_facts d f Hr) as (Hg & Ht & He & Hl & Htc & Hspc & Hbpc & Hcl & _).
  assert (H2 : 2 <= TotalClusters (geo d)) by (destruct Hg as [E | [E | E]]; rewrite E; cbn; lia).
  destruct (C65_write_elsewhere_refuted d f 1 b Hr ltac:(lia) Hb) as [W _].
  destruct (W ltac:(nia)) as (f' & E & Hc & Ho). change (2 * 1 - 1) with 1 in *.
  assert (Hf' : healthy f' /\ zlen (contents f') = zlen (contents f)).
  { pose proof (write_cluster_spec d f 1 b (proj1 Hr) Hg ltac:(lia) Hb ltac:(lia) Hl) as X. cbv zeta in X.
    replace ((2 * (1 - 1) + 1) * SectorsPerCluster (geo d) <=? TotalBlocks (st8 d)) with true in X by nia.
    rewrite E in X. assert (f' = mkFile (splice (128 * ((2 * 1 - 1 - 1) * SectorsPerCluster (geo d))) b (contents f)) []) as -> by congruence.
    split; [reflexivity|]. cbn [contents]. rewrite zlen_splice; nia. }
  destruct Hf' as [Hh' Hz'].
  exists f'. split; [assumption|]. split.
  - rewrite read_cluster_in; auto; try nia. now rewrite Hc.
  - intros c Hcc. apply Ho; try lia. nia.
Qed.
(* what is refused, and that a refusal leaves the image alone *)
Theorem C65_refused d f c b : ~ (1 <= c <= TotalClusters (geo d)) \/ (0 <= BytesPerCluster (geo d) < 2^63 /\ zlen b <> BytesPerCluster (geo d)) ->
  (exists e, write_cluster d f c b = (f, Some e)) /\ (~ (1 <= c <= TotalClusters (geo d)) -> exists e, read_cluster d f c = Ret (f, inr e)).
Proof.
  intros H. unfold write_cluster, read_cluster, valid_cluster.
  destruct ((c >=? 1) && (c <=? TotalClusters (geo d))) eqn:E; cbn [negb].
  - split; [|intros; lia]. destruct H as [H|[H1 H2]]; [lia|]. rewrite i64_id8 by lia. replace (zlen b =? BytesPerCluster (geo d)) with false by lia. cbn [negb]. eauto.
  - split; intros; eauto.
Qed.
Example C65_example : ready demo8 demo_img /\ zlen (zrepeat 9 1024) = BytesPerCluster (geo demo8) /\ (2 * 3 - 1) * SectorsPerCluster (geo demo8) <= TotalBlocks (st8 demo8) /\
  TotalBlocks (st8 demo8) < (2 * 80 - 1) * SectorsPerCluster (geo demo8) /\ 80 <= TotalClusters (geo demo8).
Proof. split; [apply demo_ready|]. vm_compute. intuition congruence. Qed.

(** ** C66 *)
(* WriteDiskBlocks of an arbitrary driver of any history on a working device *)
Theorem C66_write_blocks d f s b : reachable_healthy d f -> uint s -> zlen b < 2^63 ->
  (exists e, write_blocks d f s b = (f, Some e)) \/
  (exists n f', zlen b = 128 * n /\ s + n <= TotalBlocks (st8 d) /\ write_blocks d f s b = (f', None) /\
     zlen (contents f') = zlen (contents f) /\ blocks_of f' s n = b /\
     forall p, 0 <= p -> ~ (s <= p / 128 < s + n) -> byte_at f' p = byte_at f p).
Proof.
  intros Hr Hs Hb. destruct (reachable_K d f Hr) as [HJ (Hh & HK & _)]. pose proof (J_total d f HJ) as Ht.
  assert (Hl : 128 * TotalBlocks (st8 d) <= zlen (contents f)) by (pose proof (zlen_nonneg (contents f)); lia).
  destruct (write_blocks_cases d f s b Hh Hs Hb ltac:(lia) Hl) as [(n & Hn & Hin & E)|(_ & e & E)]; [right|left; eauto].
  pose proof (zlen_nonneg b). unfold uint in Hs.
  exists n. eexists. split; [assumption|]. split; [assumption|]. split; [exact E|]. cbn [contents]. split; [rewrite zlen_splice; lia|]. split.
  - unfold blocks_of. cbn [contents]. rewrite <- Hn. replace (128 * s) with (128 * s + 0) at 1 by lia. rewrite slice_in_splice by lia. apply slice_full. reflexivity.
  - intros p Hp Hnot. unfold byte_at. cbn [contents]. rewrite znth_splice by lia.
    destruct ((128 * s <=? p) && (p <? 128 * s + zlen b)) eqn:Eb; [|reflexivity]. exfalso. apply Hnot.
    split; [apply Z.div_le_lower_bound; lia|apply Z.div_lt_upper_bound; lia].
Qed.
(* it succeeds exactly for whole blocks inside the image *)
Theorem C66_succeeds_iff d f s b : reachable_healthy d f -> uint s -> zlen b < 2^63 ->
  (exists f', write_blocks d f s b = (f', None)) <-> exists n, zlen b = 128 * n /\ s + n <= TotalBlocks (st8 d).
Proof.
  intros Hr Hs Hb. destruct (reachable_K d f Hr) as [HJ (Hh & HK & _)]. pose proof (J_total d f HJ) as Ht.
  assert (Hl : 128 * TotalBlocks (st8 d) <= zlen (contents f)) by (pose proof (zlen_nonneg (contents f)); lia).
  destruct (write_blocks_cases d f s b Hh Hs Hb ltac:(lia) Hl) as [(n & Hn & Hin & E)|(Hno & e & E)].
  - split; eauto.
  - split; [intros [f' X]; congruence|]. intros (n & Hn & Hin). specialize (Hno n Hn). lia.
Qed.
(* blocks that can be written cannot be read back if they reach the end of the image *)
Theorem C66_last_block_refuted d f s n : uint s -> uint n -> s + n = TotalBlocks (st8 d) -> TotalBlocks (st8 d) < 2^64 ->
  exists e, read_blocks d f s n = Ret (f, inr e).
Proof. unfold uint. intros Hs Hn E Ht. unfold read_blocks. rewrite E, u64_id by lia. replace (TotalBlocks (st8 d) >=? TotalBlocks (st8 d)) with true by lia. eauto. Qed.
Theorem C66_read_back_partial d f s b f' : reachable_healthy d f -> uint s -> zlen b < 2^63 -> write_blocks d f s b = (f', None) ->
  s + zlen b / 128 < TotalBlocks (st8 d) -> read_blocks d f' s (zlen b / 128) = Ret (f', inl b).
Proof.
  intros Hr Hs Hb E Hin. pose proof (reachable_K d f Hr) as [HJ (Hh & HK & _)]. pose proof (J_total d f HJ) as Ht.
  destruct (C66_write_blocks d f s b Hr Hs Hb) as [[e X]|(n & f1 & Hn & Hin' & E' & Hz & Hbl & _)]; [congruence|].
  assert (f1 = f') as -> by congruence.
  assert (zlen b / 128 = n) as En by (rewrite Hn, Z.mul_comm, Z.div_mul; lia). rewrite En in *. rewrite <- Hbl.
  assert (Hl : 128 * TotalBlocks (st8 d) <= zlen (contents f)) by (pose proof (zlen_nonneg (contents f)); lia).
  assert (Hf' : healthy f').
  { destruct (write_len d f s b Hh Hs Hb ltac:(lia) Hl) as [X _]. rewrite E in X. exact X. }
  pose proof (zlen_nonneg b). unfold uint in Hs. apply read_blocks_in; auto; lia.
Qed.
Example C66_example : reachable_healthy demo8 demo_img /\ uint 639 /\ (exists f', write_blocks demo8 demo_img 639 (zrepeat 5 128) = (f', None)) /\
  (exists e, write_blocks demo8 demo_img 639 (zrepeat 5 256) = (demo_img, Some e)).
Proof.
  split; [apply demo_reachable|]. split; [unfold uint; lia|]. split.
  - apply C66_succeeds_iff; [apply demo_reachable|unfold uint; lia|vm_compute; reflexivity|]. exists 1. split; [reflexivity|]. cbn. lia.
  - eexists. reflexivity.
Qed.

(** ** C67 *)
Theorem C67_first_mount_partial d f d' f' : reachable_healthy d f -> freeClusters d = [] -> mount8 d f = Ret (d', f', None) ->
  NoDup (freeClusters d') /\
  forall c, 1 <= c <= TotalClusters (geo d') -> In c (freeClusters d') <-> znth 0 (fat_copy (geo d') f 0) (c - 1) = 255.
Proof.
  intros Hr Hf H. destruct (mount_free d f d' f' H) as (E & Hg & Hz). rewrite Hf in E. cbn [app] in E. rewrite E.
  assert (Hfat : fat d' = fat_copy (geo d') f 0) by (eapply mount_fat; eauto).
  assert (Hspf : SectorsPerFAT (geo d') <= 2 /\ TotalClusters (geo d') <= 128 * SectorsPerFAT (geo d') /\ TotalClusters (geo d') < 256)
    by (destruct Hg as [X | [X | X]]; rewrite X; cbn; lia).
  split; [apply (proj1 (free_from_nodup (fat d') 0 ltac:(lia) ltac:(lia)))|].
  intros c Hc. rewrite free_list_valid by lia. rewrite <- Hfat. split; [tauto|]. intros; split; [lia|assumption].
Qed.
(* the list after any successful mount: the one before, followed by the number (i + 1) mod 256 of every entry i of the FAT that is FF *)
Theorem C67_list d f d' f' : mount8 d f = Ret (d', f', None) ->
  freeClusters d' = freeClusters d ++
    map (fun i => (i + 1) mod 256) (filter (fun i => znth 0 (fat d') i =? 255) (map Z.of_nat (seq 0 (Z.to_nat (128 * SectorsPerFAT (geo d')))))).
Proof. intros H. destruct (mount_free _ _ _ _ H) as (E & _ & L). rewrite E, <- L, free_from_map by lia. unfold zlen. rewrite Nat2Z.id. reflexivity. Qed.
(* entries of the FAT that belong to no cluster are listed too, and on the larger disks the
   256th of them as cluster 0: after FormatImage always *)
Theorem C67_beyond_disk_refuted d f size d1 f1 d2 f2 : healthy f -> - 2^63 <= size < 2^63 -> format8 d f size = Ret (d1, f1, None) ->
  mount8 d1 f1 = Ret (d2, f2, None) ->
  (forall c, TotalClusters (geo d2) < c <= 128 * SectorsPerFAT (geo d2) -> c < 256 -> In c (freeClusters d2)) /\
  TotalClusters (geo d2) < 128 * SectorsPerFAT (geo d2) /\
  (size <> 128 * 640 -> In 0 (freeClusters d2)).
Proof.
  intros Hh Hs H Hm. destruct (C61_after_format_partial d f size d1 f1 Hh Hs H) as (d3 & Hm' & _ & Hgeo & Hfat & _).
  assert (d2 = d3) as <- by congruence. destruct (mount_free d1 f1 d2 f2 Hm) as (E & Hg & Hz).
  assert (Hent : forall i, 0 <= i < 128 * SectorsPerFAT (geo d2) -> i <> DirectoryTrackNumber (geo d2) - 1 -> i <> DirectoryTrackNumber (geo d2) -> znth 0 (fat d2) i = 255).
  { intros i Hi N1 N2. pose proof (C60_entries d f size d1 f1 Hh Hs H i) as X. cbv zeta in X. rewrite Hfat. rewrite Hgeo in *. rewrite X by assumption.
    now replace ((i =? DirectoryTrackNumber (geo d1) - 1) || (i =? DirectoryTrackNumber (geo d1))) with false by lia. }
  split; [|split].
  - intros c H1 H2. rewrite E. apply in_or_app. right.
    assert (DirectoryTrackNumber (geo d2) < TotalClusters (geo d2) /\ SectorsPerFAT (geo d2) <= 2 /\ 0 <= TotalClusters (geo d2)) by (destruct Hg as [X | [X | X]]; rewrite X; cbn; lia).
    apply free_list_valid; try lia. split; [lia|]. apply Hent; lia.
  - destruct Hg as [X | [X | X]]; rewrite X; cbn; lia.
  - intros Hn. destruct (C59_image d f size d1 f1 Hh Hs H) as (g & Hgg & Hgd & _). rewrite Hgeo in *. rewrite Hgd in *.
    assert (SectorsPerFAT g = 2 /\ DirectoryTrackNumber g = 35) as [S2 D2].
    { destruct (proj1 (C59_format_iff d f size Hh Hs) (ex_intro _ d1 (ex_intro _ f1 H))) as [_ [X | [X | X]]]; [contradiction| |];
      rewrite X in Hgg; destruct (get_geo_cases _ _ Hgg) as [[A B0]|[[A B0]|[A B0]]]; vm_compute in A; try discriminate; rewrite B0; split; reflexivity. }
    rewrite S2, D2 in *. rewrite E. apply in_or_app. right.
    assert (fat d2 = slice 0 255 (fat d2) ++ [255]) as ->.
    { apply (list_ext 0).
      - rewrite zlen_app, zlen_slice by lia. cbn. lia.
      - intros i Hi. rewrite znth_app by lia. rewrite zlen_slice by lia. destruct (i <? 255) eqn:Ei.
        + rewrite znth_slice by lia. f_equal; lia.
        + assert (i = 255) as -> by lia. rewrite Hent by lia. reflexivity. }
    rewrite free_from_app. apply in_or_app. right. rewrite zlen_slice by lia. left. reflexivity.
Qed.
(* mounting again adds to the list of the first time *)
Theorem C67_remount_duplicates_refuted d f d1 f1 f2 d2 f3 c : mount8 d f = Ret (d1, f1, None) ->
  mount8 (unmount8 d1) f2 = Ret (d2, f3, None) ->
  1 <= c <= TotalClusters (geo d2) -> In c (freeClusters d1) -> znth 0 (fat d2) (c - 1) = 255 -> ~ NoDup (freeClusters d2).
Proof.
  intros H1 H2 Hc Hin Hent Hnd. destruct (mount_free _ _ _ _ H2) as (E & Hg & Hz). cbn [unmount8 freeClusters] in E. rewrite E in Hnd.
  assert (SectorsPerFAT (geo d2) <= 2 /\ TotalClusters (geo d2) <= 128 * SectorsPerFAT (geo d2) /\ TotalClusters (geo d2) < 256)
    by (destruct Hg as [X | [X | X]]; rewrite X; cbn; lia).
  assert (Hin2 : In c (free_from 0 (fat d2))) by (apply free_list_valid; lia).
  clear - Hnd Hin Hin2. induction (freeClusters d1) as [|x l IH]; [contradiction|]. cbn [app] in Hnd. inversion Hnd; subst.
  destruct Hin as [<- | Hin]; [|auto]. apply H1. apply in_or_app. auto.
Qed.
Example C67_example : exists d, reachable_healthy demo8 demo_img /\ freeClusters demo8 = [] /\ mount8 demo8 demo_img = Ret (d, demo_img, None) /\
  In 1 (freeClusters d) /\ ~ In 18 (freeClusters d) /\ In 81 (freeClusters d) /\ TotalClusters (geo d) = 80 /\
  exists d2, mount8 (unmount8 d) demo_img = Ret (d2, demo_img, None) /\ ~ NoDup (freeClusters d2).
Proof.
  exists (mounted_as demo8 G640 demo_img). split; [apply demo_reachable|]. split; [reflexivity|].
  assert (M : mount8 demo8 demo_img = Ret (mounted_as demo8 G640 demo_img, demo_img, None)).
  { apply (mount_ok demo8 demo_img 640 G640); [reflexivity|reflexivity|reflexivity|vm_compute; reflexivity|split; vm_compute; reflexivity|vm_compute; reflexivity|vm_compute; reflexivity]. }
  split; [exact M|].
  assert (F : freeClusters (mounted_as demo8 G640 demo_img) = free_from 0 (new_fat G640)) by (vm_compute; reflexivity).
  rewrite F. split; [vm_compute; auto|]. split; [vm_compute; intuition discriminate|]. split; [vm_compute; auto 200|]. split; [reflexivity|].
  eexists. assert (M2 : mount8 (unmount8 (mounted_as demo8 G640 demo_img)) demo_img = Ret (mounted_as (unmount8 (mounted_as demo8 G640 demo_img)) G640 demo_img, demo_img, None)).
  { apply (mount_ok _ demo_img 640 G640); [reflexivity|reflexivity|reflexivity|vm_compute; reflexivity|split; vm_compute; reflexivity|vm_compute; reflexivity|vm_compute; reflexivity]. }
  split; [exact M2|]. eapply (C67_remount_duplicates_refuted _ _ _ _ _ _ _ 1 M M2); [vm_compute; intuition congruence| |vm_compute; reflexivity].
  rewrite F. vm_compute. auto.
Qed.

(** ** C68 *)
Definition too_long (s : list Z) (e : option (list Z)) : Prop := 6 < zlen s \/ exists x, e = Some x /\ 3 < zlen x.
Definition blanks (n : Z) : list Z := zrepeat 32 n.
Theorem C68_stored name s e : ascii name -> name <> [] -> parts name s e ->
  (too_long s e -> filename_to_bytes name = inr (K ErrNameTooLong)) /\
  (~ too_long s e -> exists raw, filename_to_bytes name = inl raw /\ zlen raw = 9 /\
     raw = map capital (s ++ blanks (6 - zlen s) ++ match e with None => blanks 3 | Some [] => 46 :: blanks 2 | Some x => x ++ blanks (3 - zlen x) end)).
Proof.
  intros _ Hn Hp. rewrite (to_bytes_spec name s e Hp Hn). unfold too_long. split.
  - intros H. replace ((zlen s <=? 6) && (ext_len e <=? 3)) with false; [reflexivity|].
    destruct H as [H|(x & -> & H)]; cbn [ext_len]; lia.
  - intros H. assert (Hs : zlen s <= 6) by lia.
    assert (He : ext_len e <= 3) by (destruct e as [x|]; cbn [ext_len]; [|lia]; destruct (Z_le_gt_dec (zlen x) 3); [assumption|]; exfalso; apply H; right; exists x; split; [reflexivity|lia]).
    replace ((zlen s <=? 6) && (ext_len e <=? 3)) with true by lia. exists (stored s e). split; [reflexivity|]. split; [now apply zlen_stored|].
    unfold stored, to_upper, pad_right, blanks. rewrite <- app_assoc. f_equal. do 2 f_equal.
    destruct e as [[|a x]|]; reflexivity.
Qed.
Theorem C68_empty_name : filename_to_bytes [] = inr (K ErrInvalidArgument).
Proof. reflexivity. Qed.
(* what is on the disk, whatever it is, can be shown *)
Theorem C68_any_entry_shown raw : zlen raw = 9 -> exists name, bytes_to_filename raw = Ret name.
Proof. intros H. unfold bytes_to_filename. replace (zlen raw <? 6) with false by lia. eauto. Qed.
(* the name shown is the name in capitals without the blanks after the stem and the extension *)
Theorem C68_display_partial name s e s' x : ascii name -> name <> [] -> parts name s e -> ~ too_long s e ->
  trimmed s s' -> trimmed (match e with None => [] | Some y => y end) x -> e <> Some [] ->
  exists raw, filename_to_bytes name = inl raw /\ bytes_to_filename raw = Ret (map capital (match x with [] => s' | _ => s' ++ 46 :: x end)).
Proof.
  intros Ha Hn Hp Ht Hs Hx Hne. pose proof (to_bytes_spec name s e Hp Hn) as E.
  assert (Hls : zlen s <= 6) by (unfold too_long in Ht; lia).
  assert (He : ext_len e <= 3) by (destruct e as [y|]; cbn [ext_len]; [|lia]; destruct (Z_le_gt_dec (zlen y) 3); [assumption|]; exfalso; apply Ht; right; exists y; split; [reflexivity|lia]).
  replace ((zlen s <=? 6) && (ext_len e <=? 3)) with true in E by lia. exists (stored s e). split; [assumption|].
  rewrite of_bytes_stored by assumption. unfold shown. rewrite (trim_right_eq _ _ Hs).
  assert (stored_ext e = match e with None => [] | Some y => y end) as -> by (destruct e as [[|a y]|]; [congruence|reflexivity|reflexivity]).
  rewrite (trim_right_eq _ _ Hx). destruct x as [|a x]; [now rewrite app_nil_r|]. change (map capital) with to_upper. now rewrite upper_app.
Qed.
(* the period of "a." becomes the extension: the name shown is "A.." *)
Theorem C68_trailing_period_refuted s s' : ascii s -> ~ In 46 s -> zlen s <= 6 -> trimmed s s' ->
  exists raw, filename_to_bytes (s ++ [46]) = inl raw /\ bytes_to_filename raw = Ret (map capital s' ++ [46; 46]).
Proof.
  intros Ha Hd Hl Hs. assert (Hp : parts (s ++ [46]) s (Some [])) by (constructor; assumption).
  pose proof (to_bytes_spec _ s (Some []) Hp ltac:(now destruct s)) as E. cbn [ext_len] in E.
  replace ((zlen s <=? 6) && (zlen (@nil Z) <=? 3)) with true in E by (rewrite zlen_nil; lia).
  exists (stored s (Some [])). split; [assumption|]. rewrite of_bytes_stored by (cbn [ext_len]; rewrite ?zlen_nil; lia).
  unfold shown. rewrite (trim_right_eq _ _ Hs). reflexivity.
Qed.
(* a name of blanks is stored, but shown as the empty name, which cannot be stored *)
Theorem C68_blank_name_refuted name : blank name -> name <> [] -> zlen name <= 6 ->
  exists raw, filename_to_bytes name = inl raw /\ bytes_to_filename raw = Ret [] /\ filename_to_bytes [] = inr (K ErrInvalidArgument).
Proof.
  intros Hb Hn Hl. assert (Hd : ~ In 46 name) by (intros Hin; pose proof (proj1 (Forall_forall _ _) Hb 46 Hin); discriminate).
  pose proof (to_bytes_spec name name None (parts_none _ Hd) Hn) as E. cbn [ext_len] in E.
  replace ((zlen name <=? 6) && (0 <=? 3)) with true in E by lia. exists (stored name None). split; [assumption|]. split; [|reflexivity].
  rewrite of_bytes_stored by (cbn [ext_len]; lia). unfold shown. cbn [stored_ext].
  assert (trimmed name []) as T by (exists name; split; [reflexivity|]; split; [assumption|]; intros u X; now destruct u).
  now rewrite (trim_right_eq _ _ T).
Qed.
(* every other accepted name: the name shown is stored as the same nine bytes *)
Theorem C68_restore_partial name raw name' : ascii name -> filename_to_bytes name = inl raw -> bytes_to_filename raw = Ret name' -> name' <> [] ->
  filename_to_bytes name' = inl raw.
Proof.
  intros _ H1 H2 Hn. destruct name as [|c0 name0] eqn:En; [discriminate|]. rewrite <- En in *. clear En c0 name0.
  assert (name <> []) as Hne by (intros ->; discriminate).
  pose proof (split_dot_parts name) as P. destruct (split_dot name) as [s e].
  rewrite (to_bytes_spec name s e P Hne) in H1. destruct ((zlen s <=? 6) && (ext_len e <=? 3)) eqn:Eb; [|discriminate].
  assert (raw = stored s e) as -> by congruence. rewrite of_bytes_stored in H2 by lia. assert (name' = shown s e) as -> by congruence.
  apply stored_shown; auto; try lia. destruct P; assumption.
Qed.
Example C68_example : filename_to_bytes (B "foo.c") = inl (B "FOO   C  ") /\ bytes_to_filename (B "FOO   C  ") = Ret (B "FOO.C") /\
  parts (B "foo.c") (B "foo") (Some (B "c")) /\ trimmed (B "ab ") (B "ab") /\ bytes_to_filename (B "FOO   .  ") = Ret (B "FOO..").
Proof.
  split; [reflexivity|]. split; [reflexivity|]. split; [apply (parts_some (B "foo") (B "c")); cbn; intuition discriminate|]. split; [|reflexivity].
  exists (B " "). split; [reflexivity|]. split; [repeat constructor|]. intros u X. assert (Y : last (B "ab") 0 = 98) by reflexivity. rewrite X, last_last in Y. discriminate.
Qed.

(** ** C69 *)
(* the dirents are a map: one entry for a name.  [p] is the path without its slash. *)
Theorem C69_stat d path p info : NoDup (map fst (dirents d)) -> path = p \/ path = 47 :: p -> (forall q, p <> 47 :: q) ->
  In (map capital p, info) (dirents d) -> d_binary info = true -> d_clusters info <> [] -> zlen (d_clusters info) < 2^32 ->
  0 < SectorsPerCluster (geo d) < 2^16 -> 0 <= d_unused info <= SectorsPerCluster (geo d) ->
  exists st, stat_file d path = inl st /\ s_size st = 128 * (zlen (d_clusters info) * SectorsPerCluster (geo d) - d_unused info) /\
    0 <= s_size st /\ s_bsize st = 128 /\ s_nblocks st * 128 = s_size st /\ s_inode st = d_index info /\ s_nlinks st = 1.
Proof.
  intros Hnd Hpath Hns Hin Hb Hc Hl Hspc Hu. unfold stat_file.
  assert (trim_slash (to_upper path) = map capital p) as ->.
  { change (map capital) with to_upper. destruct Hpath as [-> | ->]; [|reflexivity].
    destruct p as [|c p]; [reflexivity|]. cbn [to_upper map trim_slash]. destruct (upper c =? slash) eqn:E; [|reflexivity].
    exfalso. apply (Hns p). f_equal. unfold upper, slash in E. destruct ((97 <=? c) && (c <=? 122)) eqn:E2; lia. }
  rewrite (find_dirent_in _ _ _ Hnd Hin). rewrite Hb.
  assert (0 < zlen (d_clusters info)) by (destruct (d_clusters info); [contradiction|rewrite zlen_cons; pose proof (zlen_nonneg l); lia]).
  assert (0 < zlen (d_clusters info) * SectorsPerCluster (geo d) < 2^48) by nia.
  assert (SectorsPerCluster (geo d) <= zlen (d_clusters info) * SectorsPerCluster (geo d)) by nia.
  rewrite !u64_id by (rewrite ?u64_id; lia). eexists. split; [reflexivity|]. cbn [s_size s_bsize s_nblocks s_inode s_nlinks].
  rewrite !i64_id8 by (rewrite ?i64_id8; lia). repeat split; lia.
Qed.
Theorem C69_not_found d path p : path = p \/ path = 47 :: p -> (forall q, p <> 47 :: q) -> (forall info, ~ In (map capital p, info) (dirents d)) ->
  stat_file d path = inr (K ErrNotFound).
Proof.
  intros Hpath Hns Hn. unfold stat_file.
  assert (trim_slash (to_upper path) = map capital p) as ->.
  { change (map capital) with to_upper. destruct Hpath as [-> | ->]; [|reflexivity].
    destruct p as [|c p]; [reflexivity|]. cbn [to_upper map trim_slash]. destruct (upper c =? slash) eqn:E; [|reflexivity].
    exfalso. apply (Hns p). f_equal. unfold upper, slash in E. destruct ((97 <=? c) && (c <=? 122)) eqn:E2; lia. }
  now rewrite find_dirent_none.
Qed.
(* the size of a text file is never guessed: the call fails *)
Theorem C69_text d path p info : NoDup (map fst (dirents d)) -> path = p \/ path = 47 :: p -> (forall q, p <> 47 :: q) ->
  In (map capital p, info) (dirents d) -> d_binary info = false -> stat_file d path = inr (K ErrNotImplemented).
Proof.
  intros Hnd Hpath Hns Hin Hb. unfold stat_file.
  assert (trim_slash (to_upper path) = map capital p) as ->.
  { change (map capital) with to_upper. destruct Hpath as [-> | ->]; [|reflexivity].
    destruct p as [|c p]; [reflexivity|]. cbn [to_upper map trim_slash]. destruct (upper c =? slash) eqn:E; [|reflexivity].
    exfalso. apply (Hns p). f_equal. unfold upper, slash in E. destruct ((97 <=? c) && (c <=? 122)) eqn:E2; lia. }
  now rewrite (find_dirent_in _ _ _ Hnd Hin), Hb.
Qed.
(* as the code is, nothing ever fills the map: after any history no file is found *)
Theorem C69_nothing_found_refuted d f path : reachable d f -> stat_file d path = inr (K ErrNotFound).
Proof. intros Hr. destruct (reachable_J d f Hr) as ((E & _) & _). unfold stat_file. now rewrite E. Qed.
Example C69_example : let d := mkD8 G640 0 (mkFs 128 640 0 0 0 0 0) [] [] true [(B "A.B", mkDe8 [3; 4] 7 true 5)] in
  stat_file d (B "/a.b") = inl (mkSt8 7 1 511 (128 * 11) 128 11) /\ stat_file d (B "A.b") = stat_file d (B "/a.b") /\ reachable demo8 demo_img.
Proof. cbv zeta. split; [reflexivity|]. split; [reflexivity|]. apply healthy_reachable, demo_reachable. Qed.

(** ** C70 *)
Theorem C70_ranges_partial d f s n : reachable_healthy d f -> uint s -> uint n -> s + n < 2^64 -> 
  (s + n < TotalBlocks (st8 d) -> read_blocks d f s n = Ret (f, inl (blocks_of f s n))) /\
  (TotalBlocks (st8 d) < s + n -> exists e, read_blocks d f s n = Ret (f, inr e)).
Proof.
  intros Hr Hs Hn Hw. destruct (reachable_K d f Hr) as [HJ (Hh & HK & _)]. pose proof (J_total d f HJ) as Ht. unfold uint in *.
  assert (Hl : 128 * TotalBlocks (st8 d) <= zlen (contents f)) by (pose proof (zlen_nonneg (contents f)); lia).
  split; intros H.
  - apply read_blocks_in; auto; lia.
  - unfold read_blocks. rewrite u64_id by lia. replace (s + n >=? TotalBlocks (st8 d)) with true by lia. eauto.
Qed.
(* a range that reaches the end of the image is refused *)
Theorem C70_last_block_refuted d f s n : uint s -> uint n -> s + n = TotalBlocks (st8 d) -> TotalBlocks (st8 d) < 2^64 ->
  exists e, read_blocks d f s n = Ret (f, inr e).
Proof. apply C66_last_block_refuted. Qed.
(* ranges whose end wraps around: blocks elsewhere are read, or the call fails or panics *)
Theorem C70_wrapped_refuted d f s n : reachable_healthy d f -> uint s -> uint n -> 2^64 <= s + n ->
  let first := s mod 2^57 in let last := s + n - 2^64 in
  (TotalBlocks (st8 d) <= last -> exists e, read_blocks d f s n = Ret (f, inr e)) /\
  (last < TotalBlocks (st8 d) -> first <= last -> read_blocks d f s n = Ret (f, inl (blocks_of f first (last - first)))) /\
  (last < TotalBlocks (st8 d) -> last < first <= last + 2^56 -> read_blocks d f s n = Panic) /\
  (last < TotalBlocks (st8 d) -> last + 2^56 < first -> exists e, read_blocks d f s n = Ret (f, inr e)).
Proof.
  intros Hr Hs Hn Hw. destruct (reachable_K d f Hr) as [HJ (Hh & HK & _)]. pose proof (J_total d f HJ) as Ht.
  assert (Hl : 128 * TotalBlocks (st8 d) <= zlen (contents f)) by (pose proof (zlen_nonneg (contents f)); lia).
  unfold uint in *. destruct (wrapped_range d f s n Hh Hs Hn Hw ltac:(lia) Hl) as (A & B0 & C & D). cbv zeta. split; [eauto|]. split; [exact B0|]. split; [exact C|]. eauto.
Qed.
(* absurd ranges: the sum wraps around, nothing is read and no error reported, or it panics *)
Theorem C70_huge_count_refuted d f : 0 < TotalBlocks (st8 d) ->
  read_blocks d f (2^64 - 2^57) (2^57) = Ret (f, inl []) /\ read_blocks d f (2^64 - 2^56) (2^56) = Panic.
Proof.
  intros Ht. unfold read_blocks.
  replace (u64 (2 ^ 64 - 2 ^ 57 + 2 ^ 57)) with 0 by reflexivity. replace (u64 (2 ^ 64 - 2 ^ 56 + 2 ^ 56)) with 0 by reflexivity.
  replace (0 >=? TotalBlocks (st8 d)) with false by lia. split; reflexivity.
Qed.
Theorem C70_clusters_partial d f c : ready d f -> uint c ->
  (1 <= c <= TotalClusters (geo d) -> c * SectorsPerCluster (geo d) < TotalBlocks (st8 d) -> read_cluster d f c = Ret (f, inl (cluster_of (geo d) f c))) /\
  (~ (1 <= c <= TotalClusters (geo d)) -> exists e, read_cluster d f c = Ret (f, inr e)).
Proof.
  intros Hr Hc. pose proof (ready_facts d f Hr) as (Hg & Ht & He & Hl & Htc & Hspc & Hbpc & _). destruct Hr as (Hh & _ & _). split.
  - intros H1 H2. apply read_cluster_in; auto; try lia.
  - intros H. unfold read_cluster, valid_cluster. replace ((c >=? 1) && (c <=? TotalClusters (geo d))) with false by lia. cbn [negb]. eauto.
Qed.
(* the last cluster cannot be read unless the disk has unused tracks behind it *)
Theorem C70_last_cluster_refuted d f : ready d f -> TotalBlocks (st8 d) = 640 \/ TotalBlocks (st8 d) = 1898 ->
  exists e, read_cluster d f (TotalClusters (geo d)) = Ret (f, inr e).
Proof.
  intros Hr Hb. pose proof (ready_facts d f Hr) as (Hg & Ht & He & Hl & Htc & Hspc & Hbpc & Hcl & _). destruct Hr as (_ & HG & _).
  exists err_read_past_end. apply read_cluster_out; auto; try lia.
  destruct (get_geo_cases _ _ HG) as [[A B0]|[[A B0]|[A B0]]]; rewrite A, B0; cbn; lia.
Qed.
(* no other valid cluster is affected *)
Theorem C70_other_clusters_partial d f c : ready d f -> 1 <= c < TotalClusters (geo d) \/ (c = TotalClusters (geo d) /\ TotalBlocks (st8 d) = 2002) ->
  read_cluster d f c = Ret (f, inl (cluster_of (geo d) f c)).
Proof.
  intros Hr Hc. pose proof (ready_facts d f Hr) as (Hg & Ht & He & Hl & Htc & Hspc & Hbpc & Hcl & _).
  apply (proj1 (C70_clusters_partial d f c Hr ltac:(unfold uint; lia))); [lia|].
  destruct Hc as [Hc|[-> E]]; [nia|]. destruct Hr as (_ & HG & _).
  destruct (get_geo_cases _ _ HG) as [[A B0]|[[A B0]|[A B0]]]; rewrite A, ?B0 in *; cbn; try lia; congruence.
Qed.
Example C70_example : ready demo8 demo_img /\ reachable_healthy demo8 demo_img /\ 0 < TotalBlocks (st8 demo8) /\ TotalBlocks (st8 demo8) = 640 /\
  read_blocks demo8 demo_img 284 2 = Ret (demo_img, inl (zrepeat 0 128 ++ new_fat G640)).
Proof.
  split; [apply demo_ready|]. split; [apply demo_reachable|]. split; [reflexivity|]. split; [reflexivity|].
  rewrite (proj1 (C70_ranges_partial demo8 demo_img 284 2 demo_reachable ltac:(unfold uint; lia) ltac:(unfold uint; lia) ltac:(lia))) by (cbn; lia).
  assert (X : blocks_of demo_img 284 2 = zrepeat 0 128 ++ new_fat G640) by (vm_compute; reflexivity). now rewrite X.
Qed.

Example C70_wrapped_example : read_blocks demo8 demo_img (2^64 - 2^57 + 284) (2^57 + 2) = read_blocks demo8 demo_img 284 2.
Proof.
  rewrite (proj1 (C70_ranges_partial demo8 demo_img 284 2 demo_reachable ltac:(unfold uint; lia) ltac:(unfold uint; lia) ltac:(lia))) by (cbn; lia).
  destruct (C70_wrapped_refuted demo8 demo_img (2^64 - 2^57 + 284) (2^57 + 2) demo_reachable ltac:(unfold uint; lia) ltac:(unfold uint; lia) ltac:(lia)) as (_ & H & _).
  apply H; cbn; lia.
Qed.

(** ** C87 *)
(* [de] has cluster [c] at index [i] *)
Theorem C87_reads_other_cluster_refuted d f de i c b f' : ready d f -> 0 <= i < zlen (d_clusters de) -> zlen (d_clusters de) < 2^63 -> znth 0 (d_clusters de) i = c ->
  1 <= c < TotalClusters (geo d) -> (c + 1) * SectorsPerCluster (geo d) < TotalBlocks (st8 d) -> zlen b = BytesPerCluster (geo d) ->
  write_file_cluster d f de i b = Ret (f', None) ->
  cluster_of (geo d) f' (2 * c - 1) = b /\ read_file_cluster d f' de i = Ret (f', inl (cluster_of (geo d) f' (c + 1))) /\
  (c <> 2 -> cluster_of (geo d) f' (c + 1) = cluster_of (geo d) f (c + 1)).
Proof.
  intros Hr Hi Hz Hci Hc Hin Hb H. pose proof (ready_facts d f Hr) as (Hg & Ht & He & Hl & Htc & Hspc & Hbpc & Hcl & _).
  unfold write_file_cluster in H. rewrite i64_id8 in H by lia. replace (i >=? zlen (d_clusters de)) with false in H by lia. replace (i <? 0) with false in H by lia. rewrite Hci in H.
  destruct (C65_write_elsewhere_refuted d f c b Hr ltac:(lia) Hb) as [W1 W2].
  destruct (Z_le_gt_dec ((2 * c - 1) * SectorsPerCluster (geo d)) (TotalBlocks (st8 d))) as [Hle|Hgt].
  2:{ destruct (W2 ltac:(lia)) as [e E]. congruence. }
  destruct (W1 Hle) as (f1 & E & A & Bo). assert (f1 = f') as -> by congruence. split; [exact A|].
  assert (Hf' : healthy f' /\ zlen (contents f') = zlen (contents f)).
  { pose proof (write_cluster_spec d f c b (proj1 Hr) Hg ltac:(lia) Hb ltac:(lia) Hl) as X. cbv zeta in X.
    replace ((2 * (c - 1) + 1) * SectorsPerCluster (geo d) <=? TotalBlocks (st8 d)) with true in X by nia.
    rewrite E in X. assert (f' = mkFile (splice (128 * ((2 * c - 1 - 1) * SectorsPerCluster (geo d))) b (contents f)) []) as -> by congruence.
    split; [reflexivity|]. cbn [contents]. rewrite zlen_splice; nia. }
  destruct Hf' as [Hh' Hz']. split.
  - unfold read_file_cluster. rewrite i64_id8 by lia. replace (i >=? zlen (d_clusters de)) with false by lia. replace (i <? 0) with false by lia. rewrite Hci.
    rewrite u64_id by nia. rewrite read_blocks_in; auto; try nia. unfold cluster_of. now replace (c + 1 - 1) with c by lia.
  - intros Hc2. apply Bo; try lia; nia.
Qed.
(* only for a file's cluster number 2 do the two errors cancel out *)
Theorem C87_second_cluster_partial d f de i b : ready d f -> 0 <= i < zlen (d_clusters de) -> zlen (d_clusters de) < 2^63 -> znth 0 (d_clusters de) i = 2 ->
  zlen b = BytesPerCluster (geo d) ->
  exists f', write_file_cluster d f de i b = Ret (f', None) /\ read_file_cluster d f' de i = Ret (f', inl b).
Proof.
  intros Hr Hi Hz Hci Hb. pose proof (ready_facts d f Hr) as (Hg & Ht & He & Hl & Htc & Hspc & Hbpc & Hcl & _).
  assert (H4 : 4 <= TotalClusters (geo d)) by (destruct Hg as [X | [X | X]]; rewrite X; cbn; lia).
  destruct (C65_write_elsewhere_refuted d f 2 b Hr ltac:(lia) Hb) as [W1 _]. destruct (W1 ltac:(nia)) as (f' & E & _).
  exists f'. assert (E2 : write_file_cluster d f de i b = Ret (f', None)).
  { unfold write_file_cluster. rewrite i64_id8 by lia. replace (i >=? zlen (d_clusters de)) with false by lia. replace (i <? 0) with false by lia. now rewrite Hci, E. }
  split; [exact E2|]. destruct (C87_reads_other_cluster_refuted d f de i 2 b f' Hr Hi Hz Hci ltac:(lia) ltac:(nia) Hb E2) as (A & B0 & _).
  rewrite B0. change (2 * 2 - 1) with (2 + 1) in A. now rewrite A.
Qed.
(* exactly: of the clusters of a file, only number 2 reads back whatever is written to it *)
Theorem C87_exactly d f de i : ready d f -> 0 <= i < zlen (d_clusters de) -> zlen (d_clusters de) < 2^63 ->
  ((forall b, zlen b = BytesPerCluster (geo d) -> exists f', write_file_cluster d f de i b = Ret (f', None) /\ read_file_cluster d f' de i = Ret (f', inl b)) <->
   znth 0 (d_clusters de) i = 2).
Proof.
  intros Hr Hi Hz. split; [|intros Hc b Hb; now apply C87_second_cluster_partial].
  intros HB. destruct (Z.eq_dec (znth 0 (d_clusters de) i) 2) as [E2|E2]; [exact E2|exfalso]. set (c := znth 0 (d_clusters de) i) in *.
  pose proof (ready_facts d f Hr) as (Hg & Ht & He & Hl & Htc & Hspc & Hbpc & Hcl & _).
  set (old := cluster_of (geo d) f (c + 1)). set (x := if znth 0 old 0 =? 1 then 0 else 1).
  assert (Hx : znth 0 old 0 <> x) by (unfold x; destruct (znth 0 old 0 =? 1) eqn:E; lia).
  destruct (HB (zrepeat x (BytesPerCluster (geo d))) ltac:(apply zlen_repeat; lia)) as (f' & W & R).
  assert (Hc : 1 <= c <= TotalClusters (geo d)).
  { unfold write_file_cluster in W. rewrite i64_id8 in W by lia. replace (i >=? zlen (d_clusters de)) with false in W by lia. replace (i <? 0) with false in W by lia. fold c in W.
    unfold write_cluster, valid_cluster in W. destruct ((c >=? 1) && (c <=? TotalClusters (geo d))) eqn:E; [lia|discriminate]. }
  destruct (Z_lt_le_dec ((c + 1) * SectorsPerCluster (geo d)) (TotalBlocks (st8 d))) as [Hin|Hout].
  - assert (Hc' : c < TotalClusters (geo d) \/ c = TotalClusters (geo d)) by lia.
    assert (HC : cluster_of (geo d) f' (c + 1) = old).
    { destruct (C65_write_elsewhere_refuted d f c (zrepeat x (BytesPerCluster (geo d))) Hr Hc ltac:(apply zlen_repeat; lia)) as [W1 W2].
      unfold write_file_cluster in W. rewrite i64_id8 in W by lia. replace (i >=? zlen (d_clusters de)) with false in W by lia. replace (i <? 0) with false in W by lia. fold c in W.
      destruct (Z_le_gt_dec ((2 * c - 1) * SectorsPerCluster (geo d)) (TotalBlocks (st8 d))) as [Hle|Hgt].
      - destruct (W1 Hle) as (f1 & E & _ & Bo). assert (f1 = f') as -> by congruence. apply Bo; lia.
      - destruct (W2 ltac:(lia)) as [e E]. congruence. }
    assert (Hf' : healthy f' /\ zlen (contents f') = zlen (contents f)).
    { pose proof (write_cluster_spec d f c (zrepeat x (BytesPerCluster (geo d))) (proj1 Hr) Hg Hc ltac:(apply zlen_repeat; lia) ltac:(lia) Hl) as X. cbv zeta in X.
      unfold write_file_cluster in W. rewrite i64_id8 in W by lia. replace (i >=? zlen (d_clusters de)) with false in W by lia. replace (i <? 0) with false in W by lia. fold c in W.
      destruct ((2 * (c - 1) + 1) * SectorsPerCluster (geo d) <=? TotalBlocks (st8 d)) eqn:EL; [|destruct X as [e X]; congruence]. rewrite X in W.
      assert (f' = mkFile (splice (128 * ((2 * c - 1 - 1) * SectorsPerCluster (geo d))) (zrepeat x (BytesPerCluster (geo d))) (contents f)) []) as -> by congruence.
      split; [reflexivity|]. cbn [contents]. rewrite zlen_splice; rewrite ?zlen_repeat; nia. }
    destruct Hf' as [Hh' Hz'].
    unfold read_file_cluster in R. rewrite i64_id8 in R by lia. replace (i >=? zlen (d_clusters de)) with false in R by lia. replace (i <? 0) with false in R by lia. fold c in R.
    rewrite u64_id in R by nia. rewrite read_blocks_in in R by (auto; nia).
    assert (Eold : blocks_of f' (c * SectorsPerCluster (geo d)) (SectorsPerCluster (geo d)) = old) by (rewrite <- HC; unfold cluster_of; f_equal; lia).
    rewrite Eold in R. assert (Eo : old = zrepeat x (BytesPerCluster (geo d))) by congruence. apply Hx. rewrite Eo. apply znth_repeat. lia.
  - unfold read_file_cluster in R. rewrite i64_id8 in R by lia. replace (i >=? zlen (d_clusters de)) with false in R by lia. replace (i <? 0) with false in R by lia. fold c in R.
    rewrite u64_id in R by nia. unfold read_blocks in R. rewrite u64_id in R by nia. replace (c * SectorsPerCluster (geo d) + SectorsPerCluster (geo d) >=? TotalBlocks (st8 d)) with true in R by nia. discriminate.
Qed.
Theorem C87_index_refused d f de i b : zlen (d_clusters de) <= i < 2^63 ->
  (exists e, write_file_cluster d f de i b = Ret (f, Some e)) /\ (exists e, read_file_cluster d f de i = Ret (f, inr e)).
Proof.
  intros Hi. pose proof (zlen_nonneg (d_clusters de)). unfold write_file_cluster, read_file_cluster. rewrite i64_id8 by lia.
  replace (i >=? zlen (d_clusters de)) with true by lia. eauto.
Qed.
Example C87_example : let de := mkDe8 [7; 2] 0 true 0 in ready demo8 demo_img /\ znth 0 (d_clusters de) 0 = 7 /\ znth 0 (d_clusters de) 1 = 2 /\
  (7 + 1) * SectorsPerCluster (geo demo8) < TotalBlocks (st8 demo8) /\ zlen (zrepeat 9 1024) = BytesPerCluster (geo demo8) /\
  exists f', write_file_cluster demo8 demo_img de 0 (zrepeat 9 1024) = Ret (f', None).
Proof.
  cbv zeta. split; [apply demo_ready|]. split; [reflexivity|]. split; [reflexivity|]. split; [vm_compute; reflexivity|]. split; [reflexivity|].
  destruct (C65_write_elsewhere_refuted demo8 demo_img 7 (zrepeat 9 1024) demo_ready ltac:(cbn; lia) eq_refl) as [W _].
  destruct W as (f' & E & _); [vm_compute; discriminate|]. exists f'. unfold write_file_cluster. cbn [d_clusters]. change (znth 0 [7; 2] 0) with 7.
  change (i64 0) with 0. change (0 >=? zlen [7; 2]) with false. change (0 <? 0) with false. now rewrite E.
Qed.

(** ** C88 *)
(* [d] still has the FAT of an earlier mount when it formats the image *)
Theorem C88_stale_fat_refuted d f size d1 f1 : healthy f -> - 2^63 <= size < 2^63 -> format8 d f size = Ret (d1, f1, None) ->
  zlen (fat d) = 128 * SectorsPerFAT (geo d1) ->
  isMounted d1 = false /\ exists f2, flush8 d1 f1 = (f2, None) /\ get_fat d1 f2 = Ret (f2, inl (fat d)).
Proof.
  intros Hh Hs H Hz. destruct (format_iff d f size Hh Hs) as [(tb & g & -> & Hg & Hm)|(e & He & _)]; [|congruence].
  destruct (format_contents d f tb g Hh Hm Hg) as (f1' & E & Hr & _).
  rewrite E in H. assert (d1 = formatted d tb g /\ f1 = f1') as [-> ->] by (split; congruence). split; [reflexivity|].
  destruct (C62_flush _ _ Hr Hz) as (f2 & F & _ & _ & _ & _ & _ & G & _). exists f2. split; [exact F|exact G].
Qed.
(* a driver that never mounted anything has no FAT to write *)
Theorem C88_never_mounted_partial f0 os d f : Forall op_ok os -> ~ In OMount os -> run8 new_driver f0 os = Ret (d, f) ->
  isMounted d = false /\ fst (flush8 d f) = f.
Proof.
  intros Ho Hn H. assert (X : isMounted d = false /\ fat d = []).
  { assert (G : forall os d0 f0, ~ In OMount os -> isMounted d0 = false /\ fat d0 = [] -> run8 d0 f0 os = Ret (d, f) -> isMounted d = false /\ fat d = []).
    { clear. induction os as [|o os IH]; intros d0 f0 Hn H0 H; cbn [run8] in H; [assert (d0 = d) as -> by congruence; assumption|].
      destruct (step8 d0 f0 o) as [[d1 f1]| |] eqn:E; try discriminate. cbn [obind fst snd] in H.
      apply (IH d1 f1); auto; [intros Hi; apply Hn; now right|]. clear IH H.
      destruct o; cbn [step8] in E.
      - destruct (format8 d0 f0 size) as [[[d2 f2] e]| |] eqn:F; try discriminate. cbn in E. assert (d2 = d1) as -> by congruence.
        destruct (format_any _ _ _ _ _ _ F) as [(-> & _)|(_ & A & (_ & B0) & _)]; [assumption|]. split; [assumption|]. rewrite B0. apply H0.
      - exfalso. apply Hn. now left.
      - assert (d0 = d1) as -> by congruence. assumption.
      - assert (unmount8 d0 = d1) as <- by congruence. split; [reflexivity|]. apply H0.
      - destruct (read_blocks d0 f0 start count) as [x| |]; try discriminate. cbn in E. assert (d0 = d1) as -> by congruence. assumption.
      - assert (d0 = d1) as -> by congruence. assumption.
      - destruct (read_cluster d0 f0 c) as [x| |]; try discriminate. cbn in E. assert (d0 = d1) as -> by congruence. assumption.
      - assert (d0 = d1) as -> by congruence. assumption.
      - destruct (get_fat d0 f0) as [x| |]; try discriminate. cbn in E. assert (d0 = d1) as -> by congruence. assumption.
      - assert (d0 = d1) as -> by congruence. assumption. }
    apply (G os new_driver f0); auto. }
  destruct X as [X1 X2]. split; [assumption|]. unfold flush8, write_fat. rewrite X2. unfold write_blocks.
  change (zlen ([] ++ [] ++ [])) with 0. change (Z.rem 0 128 =? 0) with true. cbn [negb].
  match goal with |- fst (if ?c then _ else _) = _ => destruct c end; [reflexivity|]. unfold f_write_at. change (zlen ([] ++ [] ++ []) =? 0) with true.
  match goal with |- fst (if ?c then _ else _) = _ => destruct c end; reflexivity.
Qed.
Example C88_example : (* mounted, its FAT changed on disk and mounted again, unmounted, formatted anew *)
  exists d d1 f1, reachable_healthy d demo_img /\ isMounted d = false /\ format8 d demo_img (128 * 640) = Ret (d1, f1, None) /\ zlen (fat d) = 128 * SectorsPerFAT (geo d1).
Proof.
  destruct demo_mounted as (d & Hr & Hm & Hg). destruct (C62_reachable d _ Hr Hm) as [(Hh & _) Hz].
  exists (unmount8 d). do 2 eexists. split; [|split; [reflexivity|split; [apply (format_ok (unmount8 d) demo_img 640 G640); reflexivity|cbn [unmount8 fat formatted geo]; now rewrite Hz, Hg]]].
  destruct Hr as (f0 & os & H1 & H2 & H3). exists f0, (os ++ [OUnmount]). split; [assumption|]. split; [apply Forall_app; split; [assumption|repeat constructor]|].
  clear - H3. revert H3. generalize new_driver f0. induction os as [|o os IH]; intros d0 f; cbn [app run8].
  - intros H. assert (d0 = d /\ f = demo_img) as [-> ->] by (split; congruence). reflexivity.
  - destruct (step8 d0 f o) as [[d1 f1]| |]; try discriminate. cbn [obind fst snd]. apply IH.
Qed.

(** ** C89 *)
(* the operations that panic: reads whose end wraps around to a block of the disk, and whose length in bytes is not an int *)
Theorem C89_exactly d f o : reachable d f -> op_ok o ->
  (step8 d f o = Panic <-> exists s n, o = OReadBlocks s n /\ let last := s + n - 2^64 in 0 <= last < TotalBlocks (st8 d) /\ last < s mod 2^57 <= last + 2^56).
Proof.
  intros Hr Ho. pose proof (reachable_J d f Hr) as HJ. pose proof (J_total d f HJ) as Ht. cbv zeta. split.
  - intros E. assert (HO : (exists s n, o = OReadBlocks s n) \/ match o with OReadBlocks _ c => 0 <= c < 2^50 | _ => True end) by (destruct o; eauto).
    destruct HO as [(s & n & ->)|HO]; [|destruct (step_no_panic d f o HJ HO) as [r E']; congruence]. exists s, n. split; [reflexivity|]. cbn in Ho. unfold uint in Ho. cbn [step8] in E.
    assert (EP : read_blocks d f s n = Panic) by (destruct (read_blocks d f s n); [discriminate|reflexivity|discriminate]).
    apply read_blocks_wraps in EP; lia.
  - intros (s & n & -> & H). cbn in Ho. unfold uint in Ho. cbn [step8].
    replace (read_blocks d f s n) with (@Panic (osfile * (list Z + kerr))); [reflexivity|]. symmetry. apply read_blocks_wraps; lia.
Qed.
Definition sane (o : op8) : Prop := match o with OReadBlocks s c => s + c < 2^64 \/ c < 2^56 | _ => True end.
Theorem C89_no_panic_partial f os : Forall op_ok os -> Forall sane os -> exists d' f', run8 new_driver f os = Ret (d', f').
Proof.
  intros Ho Hs. assert (G : forall os d f, J d f -> Forall op_ok os -> Forall sane os -> exists d' f', run8 d f os = Ret (d', f')).
  { clear. induction os as [|o os IH]; intros d f HJ Ho Hs; cbn [run8]; [eauto|].
    inversion Ho as [|? ? Ho1 Ho2]; inversion Hs as [|? ? Hs1 Hs2]; subst.
    assert (Hstep : exists r, step8 d f o = Ret r).
    { assert (HO : (exists s n, o = OReadBlocks s n) \/ match o with OReadBlocks _ c => 0 <= c < 2^50 | _ => True end) by (destruct o; eauto).
      destruct HO as [(s & n & ->)|HO]; [|apply (step_no_panic d f o HJ HO)]. cbn in Ho1, Hs1. unfold uint in Ho1. pose proof (J_total d f HJ) as Ht. cbn [step8].
      destruct (read_blocks_panic d f s n) as [P1 _]. pose proof (read_blocks_wraps d f s n ltac:(lia) ltac:(lia) ltac:(lia)) as [P2 _].
      destruct (read_blocks d f s n); [cbn; eauto| |contradiction]. exfalso. specialize (P2 eq_refl). pose proof (Z.div_mod s (2^57) ltac:(lia)). pose proof (Z.mod_pos_bound s (2^57) ltac:(lia)).
      assert (s / 2^57 <= 127) by (apply Z.div_le_upper_bound; lia). lia. }
    destruct Hstep as [[d1 f1] E].
    rewrite E. cbn [obind fst snd]. apply IH; auto. exact (step_J d f o d1 f1 Ho1 HJ E). }
  apply G; auto. apply J_new.
Qed.
Theorem C89_huge_read_refuted f size d' f' : healthy f -> - 2^63 <= size < 2^63 -> format8 new_driver f size = Ret (d', f', None) ->
  op_ok (OReadBlocks (2^64 - 2^56) (2^56)) /\ run8 new_driver f [OFormat size; OReadBlocks (2^64 - 2^56) (2^56)] = Panic.
Proof.
  intros Hh Hs H. split; [cbn; unfold uint; lia|]. cbn [run8 step8]. rewrite H. cbn [obind fst snd]. cbn [run8 step8].
  destruct (C59_statistics _ _ _ _ _ Hh Hs H) as (g & _ & _ & _ & A & _ & C & _). unfold fs_stat in *.
  rewrite (proj2 (C70_huge_count_refuted d' f' ltac:(destruct (proj1 (C59_format_iff _ _ _ Hh Hs) (ex_intro _ d' (ex_intro _ f' H))) as [_ V]; destruct (C59_statistics _ _ _ _ _ Hh Hs H) as (_ & _ & Hb & Hmul & _); unfold fs_stat in *; rewrite Hb in Hmul; unfold valid_size in V; lia))).
  reflexivity.
Qed.
Example C89_example : let os := [OFormat (128 * 640); OMount; OWriteCluster 5 [1; 2]; OFlush; OUnmount; OMount; OReadCluster 200] in
  Forall op_ok os /\ Forall sane os /\ exists d f, run8 new_driver (mkFile [1; 2; 3] [None; Some 5; None; None; None]) os = Ret (d, f).
Proof.
  cbv zeta. assert (A : Forall op_ok [OFormat (128 * 640); OMount; OWriteCluster 5 [1; 2]; OFlush; OUnmount; OMount; OReadCluster 200]) by (repeat constructor; cbn; unfold uint; cbn; lia).
  assert (S : Forall sane [OFormat (128 * 640); OMount; OWriteCluster 5 [1; 2]; OFlush; OUnmount; OMount; OReadCluster 200]) by repeat constructor.
  split; [exact A|]. split; [exact S|]. now apply C89_no_panic_partial.
Qed.
Print Assumptions C58_accepted.
Print Assumptions C58_layout.
Print Assumptions C58_figures.
Print Assumptions C58_refused.
Print Assumptions C59_format_iff.
Print Assumptions C59_refused_untouched.
Print Assumptions C59_image.
Print Assumptions C59_statistics.
Print Assumptions C60_entries.
Print Assumptions C60_directory_left_free_refuted.
Print Assumptions C60_two_reserved_partial.
Print Assumptions C61_fresh_driver_refuted.
Print Assumptions C61_well_formed_partial.
Print Assumptions C61_after_format_partial.
Print Assumptions C61_other_sizes_refused.
Print Assumptions C62_flush.
Print Assumptions C62_reachable.
Print Assumptions C63_crash.
Print Assumptions C63_outside_untouched.
Print Assumptions C64_differing_reported.
Print Assumptions C64_mount.
Print Assumptions C65_write_elsewhere_refuted.
Print Assumptions C65_first_cluster_partial.
Print Assumptions C65_refused.
Print Assumptions C66_write_blocks.
Print Assumptions C66_succeeds_iff.
Print Assumptions C66_last_block_refuted.
Print Assumptions C66_read_back_partial.
Print Assumptions C67_first_mount_partial.
Print Assumptions C67_beyond_disk_refuted.
Print Assumptions C67_remount_duplicates_refuted.
Print Assumptions C68_stored.
Print Assumptions C68_empty_name.
Print Assumptions C68_any_entry_shown.
Print Assumptions C68_display_partial.
Print Assumptions C68_trailing_period_refuted.
Print Assumptions C68_blank_name_refuted.
Print Assumptions C68_restore_partial.
Print Assumptions C69_stat.
Print Assumptions C69_text.
Print Assumptions C69_not_found.
Print Assumptions C69_nothing_found_refuted.
Print Assumptions C70_ranges_partial.
Print Assumptions C70_last_block_refuted.
Print Assumptions C70_wrapped_refuted.
Print Assumptions C70_huge_count_refuted.
Print Assumptions C67_list.
Print Assumptions C70_clusters_partial.
Print Assumptions C70_last_cluster_refuted.
Print Assumptions C70_other_clusters_partial.
Print Assumptions C87_reads_other_cluster_refuted.
Print Assumptions C87_second_cluster_partial.
Print Assumptions C87_index_refused.
Print Assumptions C87_exactly.
Print Assumptions C88_stale_fat_refuted.
Print Assumptions C88_never_mounted_partial.
Print Assumptions C89_exactly.
Print Assumptions C89_no_panic_partial.
Print Assumptions C89_huge_read_refuted.

(** ** The parts that hold of claims refuted above, as claims of their own (the examples above are theirs too) *)
Theorem C137_write_blocks d f s b : reachable_healthy d f -> uint s -> zlen b < 2^63 ->
  (exists e, write_blocks d f s b = (f, Some e)) \/
  (exists n f', zlen b = 128 * n /\ s + n <= TotalBlocks (st8 d) /\ write_blocks d f s b = (f', None) /\
     zlen (contents f') = zlen (contents f) /\ blocks_of f' s n = b /\
     forall p, 0 <= p -> ~ (s <= p / 128 < s + n) -> byte_at f' p = byte_at f p).
Proof. apply C66_write_blocks. Qed.
Theorem C137_succeeds_iff d f s b : reachable_healthy d f -> uint s -> zlen b < 2^63 ->
  (exists f', write_blocks d f s b = (f', None)) <-> exists n, zlen b = 128 * n /\ s + n <= TotalBlocks (st8 d).
Proof. apply C66_succeeds_iff. Qed.
Theorem C138_stored name s e : ascii name -> name <> [] -> parts name s e ->
  (too_long s e -> filename_to_bytes name = inr (K ErrNameTooLong)) /\
  (~ too_long s e -> exists raw, filename_to_bytes name = inl raw /\ zlen raw = 9 /\
     raw = map capital (s ++ blanks (6 - zlen s) ++ match e with None => blanks 3 | Some [] => 46 :: blanks 2 | Some x => x ++ blanks (3 - zlen x) end)).
Proof. apply C68_stored. Qed.
Theorem C138_restore name raw name' : ascii name -> filename_to_bytes name = inl raw -> bytes_to_filename raw = Ret name' -> name' <> [] ->
  filename_to_bytes name' = inl raw.
Proof. apply C68_restore_partial. Qed.
Theorem C138_any_entry_shown raw : zlen raw = 9 -> exists name, bytes_to_filename raw = Ret name.
Proof. apply C68_any_entry_shown. Qed.
Theorem C139_no_panic f os : Forall op_ok os -> Forall sane os -> exists d' f', run8 new_driver f os = Ret (d', f').
Proof. apply C89_no_panic_partial. Qed.
Print Assumptions C137_write_blocks.
Print Assumptions C137_succeeds_iff.
Print Assumptions C138_stored.
Print Assumptions C138_restore.
Print Assumptions C138_any_entry_shown.
Print Assumptions C139_no_panic.
