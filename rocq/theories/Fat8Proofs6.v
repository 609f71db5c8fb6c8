From Verif Require Import GoBase ListZ Errors Flags GoPath GoPathProofs OsFile Fat8 Spec_Fat8 Fat8Proofs Fat8Proofs2 Fat8Proofs3 Fat8Proofs4 Fat8Proofs5.

(* a driver that knows its image: after FormatImage, or mounted *)
Lemma ready_facts d f : ready d f -> good_geo (geo d) /\ 0 <= TotalBlocks (st8 d) < 2^12 /\ fat_end (geo d) < TotalBlocks (st8 d) /\
  128 * TotalBlocks (st8 d) <= zlen (contents f) /\ TotalClusters (geo d) * SectorsPerCluster (geo d) <= TotalBlocks (st8 d) /\
  0 < SectorsPerCluster (geo d) <= 13 /\ BytesPerCluster (geo d) = 128 * SectorsPerCluster (geo d) /\ 0 < TotalClusters (geo d) <= 146 /\
  0 <= FATsStart (geo d) /\ 0 < SectorsPerFAT (geo d) <= 2 /\ TotalClusters (geo d) <= 128 * SectorsPerFAT (geo d).
Proof.
  intros (Hh & Hg & Hl). split; [eapply get_geo_good; eauto|]. split; [apply get_geo_cases in Hg; lia|].
  set (tb := TotalBlocks (st8 d)) in *. set (g := geo d) in *. clearbody tb g.
  assert (fat_end g < tb /\ TotalClusters g * SectorsPerCluster g <= tb /\ 0 < SectorsPerCluster g <= 13 /\ BytesPerCluster g = 128 * SectorsPerCluster g /\ 0 < TotalClusters g <= 146 /\
    0 <= FATsStart g /\ 0 < SectorsPerFAT g <= 2 /\ TotalClusters g <= 128 * SectorsPerFAT g) as HX.
  { clear -Hg. apply get_geo_cases in Hg. destruct Hg as [[-> ->]|[[-> ->]|[-> ->]]]; vm_compute; intuition congruence. }
  tauto.
Qed.

Lemma track_slices g : good_geo g ->
  slice 0 (128 * (InfoSectorStart g - DirectoryTrackStart g)) (new_track g) = zrepeat 255 (128 * (InfoSectorStart g - DirectoryTrackStart g)) /\
  slice (128 * (InfoSectorStart g - DirectoryTrackStart g)) 128 (new_track g) = zrepeat 0 128 /\
  (forall k, k = 0 \/ k = 1 \/ k = 2 -> slice (128 * (FATsStart g + k * SectorsPerFAT g - DirectoryTrackStart g)) (128 * SectorsPerFAT g) (new_track g) = new_fat g).
Proof. intros. geos; (split; [vm_compute; reflexivity|]; split; [vm_compute; reflexivity|]; intros k [->|[->| ->]]; vm_compute; reflexivity). Qed.
Lemma format_contents d f tb g : healthy f -> isMounted d = false -> get_geometry tb = inl g ->
  exists f', format8 d f (128 * tb) = Ret (formatted d tb g, f', None) /\ ready (formatted d tb g) f' /\ zlen (contents f') = 128 * tb /\
    blocks_of f' (DirectoryTrackStart g) (InfoSectorStart g - DirectoryTrackStart g) = zrepeat 255 (128 * (InfoSectorStart g - DirectoryTrackStart g)) /\
    blocks_of f' (InfoSectorStart g) 1 = zrepeat 0 128 /\
    (forall k, k = 0 \/ k = 1 \/ k = 2 -> fat_copy g f' k = new_fat g) /\
    (forall p, 0 <= p < 128 * tb -> ~ (128 * DirectoryTrackStart g <= p < 128 * (DirectoryTrackStart g + SectorsPerTrack g)) -> byte_at f' p = byte_at f p).
Proof.
  intros Hh Hm Hg. pose proof (format_ok d f tb g Hh Hm Hg) as E. set (c0 := resized (128 * tb) (contents f)) in E. eexists. split; [exact E|].
  pose proof (geometry_facts tb g Hg) as HF. pose proof (get_geo_good tb g Hg) as HG. assert (0 <= tb < 2^12) as Htb by (apply get_geo_cases in Hg; lia).
  pose proof (zlen_formatted tb g (contents f) Hg) as HL. fold c0 in HL. pose proof (zlen_resized (128 * tb) (contents f) ltac:(lia)) as HL0. fold c0 in HL0.
  pose proof (zlen_new_track g HG) as HN. destruct (track_slices g HG) as (T1 & T2 & T3).
  assert (DirectoryTrackStart g + SectorsPerTrack g <= tb /\ 0 < SectorsPerFAT g) as [HD HS] by (clear -Hg; apply get_geo_cases in Hg; destruct Hg as [[-> ->]|[[-> ->]|[-> ->]]]; vm_compute; intuition congruence).
  unfold fat_end in HF.
  split; [split; [reflexivity|split; [exact Hg|cbn [contents formatted st8 TotalBlocks]; lia]]|]. split; [exact HL|].
  unfold blocks_of, fat_copy, byte_at. cbn [contents]. split; [|split; [|split]].
  - replace (128 * DirectoryTrackStart g) with (128 * DirectoryTrackStart g + 0) at 1 by lia. rewrite slice_in_splice by lia. exact T1.
  - replace (128 * InfoSectorStart g) with (128 * DirectoryTrackStart g + 128 * (InfoSectorStart g - DirectoryTrackStart g)) by lia. rewrite slice_in_splice by lia. exact T2.
  - intros k Hk. unfold blocks_of. cbn [contents]. replace (128 * (FATsStart g + k * SectorsPerFAT g)) with (128 * DirectoryTrackStart g + 128 * (FATsStart g + k * SectorsPerFAT g - DirectoryTrackStart g)) by lia.
    rewrite slice_in_splice by lia. now apply T3.
  - intros p Hp Ho. rewrite znth_splice by lia. rewrite HN. replace ((128 * DirectoryTrackStart g <=? p) && (p <? 128 * DirectoryTrackStart g + 128 * SectorsPerTrack g)) with false by lia.
    unfold c0. now apply znth_resized.
Qed.
Lemma new_fat_entries g i : good_geo g -> 0 <= i < 128 * SectorsPerFAT g -> znth 0 (new_fat g) i = if (i =? DirectoryTrackNumber g - 1) || (i =? DirectoryTrackNumber g) then 254 else 255.
Proof.
  intros HG Hi. unfold new_fat. assert (0 <= DirectoryTrackNumber g - 1 /\ DirectoryTrackNumber g < 128 * SectorsPerFAT g) as [H1 H2] by (clear -HG; geos; vm_compute; intuition congruence).
  set (n := DirectoryTrackNumber g) in *. set (m := 128 * SectorsPerFAT g) in *. assert (zlen (zrepeat 255 m) = m) as L by (apply zlen_repeat; lia).
  assert (zlen (splice (n - 1) [254] (zrepeat 255 m)) = m) as L2 by (rewrite zlen_splice; change (zlen [254]) with 1; lia).
  rewrite !znth_splice by lia. change (zlen [254]) with 1. rewrite znth_repeat by lia.
  destruct ((n <=? i) && (i <? n + 1)) eqn:E1.
  - replace (i - n) with 0 by lia. now replace ((i =? n - 1) || (i =? n)) with true by lia.
  - destruct ((n - 1 <=? i) && (i <? n - 1 + 1)) eqn:E2.
    + replace (i - (n - 1)) with 0 by lia. now replace ((i =? n - 1) || (i =? n)) with true by lia.
    + now replace ((i =? n - 1) || (i =? n)) with false by lia.
Qed.
Lemma mount_free d f d' f' : mount8 d f = Ret (d', f', None) -> freeClusters d' = freeClusters d ++ free_from 0 (fat d') /\ good_geo (geo d') /\ zlen (fat d') = 128 * SectorsPerFAT (geo d').
Proof.
  unfold mount8. destruct (isMounted d); [discriminate|]. destruct (f_size_of f) as [f1 [off|e]]; [|discriminate]. destruct (get_geometry (u64 off / 128)) as [g|] eqn:Hg; [|discriminate].
  destruct (get_fat (with_geo d g) f1) as [[f2 [ft|]]| |] eqn:EF; try discriminate. cbn [with_geo dflags st8 freeClusters dirents].
  destruct (read_blocks _ f2 _ 1) as [[f3 [[|b info]|]]| |]; try discriminate. intros E. injection E as <- _. cbn [freeClusters fat geo]. split; [reflexivity|].
  apply get_geo_good in Hg. apply get_fat_any in EF. destruct EF as (_ & _ & H). destruct (H ft eq_refl Hg) as (H1 & _). split; assumption.
Qed.

Lemma mount_fat d f d' f' : reachable_healthy d f -> mount8 d f = Ret (d', f', None) -> fat d' = fat_copy (geo d') f 0.
Proof.
  intros Hr H. destruct (reachable_K d f Hr) as [HJ (Hh & _)]. pose proof (J_total d f HJ) as Ht.
  unfold mount8 in H. destruct (isMounted d); [congruence|]. unfold f_size_of, syscall in H. rewrite Hh in H.
  destruct (get_geometry (u64 (zlen (contents f)) / 128)) as [g|e] eqn:Eg; [|congruence]. pose proof (get_geo_good _ _ Eg) as Hg.
  destruct (get_fat (with_geo d g) f) as [[f2 [ft|e]]| |] eqn:E; try congruence.
  destruct (get_fat_any _ _ _ _ E) as (_ & _ & X). cbn [with_geo geo] in X. destruct (X ft eq_refl Hg) as (A & B & C). cbn [with_geo st8] in B.
  rewrite get_fat_spec in E; auto; cbn [with_geo geo st8] in *; try lia.
  destruct (beqb (fat_copy g f 0) (fat_copy g f 1) && beqb (fat_copy g f 0) (fat_copy g f 2)); [|congruence].
  assert (ft = fat_copy g f 0) as -> by congruence. clear E X.
  match type of H with match ?m with _ => _ end = _ => destruct m as [[f3 [[|b info]|e]]| |] eqn:E2 end; try congruence.
  assert (d' = mkD8 g b (st8 d) (freeClusters d ++ free_from 0 (fat_copy g f 0)) (fat_copy g f 0) true (dirents d)) as -> by (cbn in H; congruence). reflexivity.
Qed.
Lemma find_dirent_in n info l : NoDup (map fst l) -> In (n, info) l -> find_dirent n l = Some info.
Proof.
  induction l as [|[k v] l IH]; [contradiction|]. cbn [map fst find_dirent]. intros Hnd Hin. inversion Hnd as [|? ? Hx Hl]; subst.
  destruct Hin as [E|Hin]; [assert (k = n /\ v = info) as [-> ->] by (split; congruence); now rewrite beqb_refl|].
  rewrite beqb_neq; [auto|]. intros ->. apply Hx. apply in_map_iff. exists (n, info). auto.
Qed.
Lemma find_dirent_none n l : (forall info, ~ In (n, info) l) -> find_dirent n l = None.
Proof.
  induction l as [|[k v] l IH]; [reflexivity|]. cbn [find_dirent]. intros H. rewrite beqb_neq; [apply IH; intros info Hi; apply (H info); now right|].
  intros ->. apply (H v). now left.
Qed.
