(** * Props_Fat2: C95-C100, the FAT package continued (flags as in Props_Fat.v). *)
From Coq Require Import String.
From Verif Require Import GoBase ListZ Errors Flags GoPath Spec_Path GoPathProofs BlockCache BasicStream Driver FatBoot FatDirent FatDriver Spec_Fat FatProofs FatProofs2 FatProofs3 FatProofs4 Props_Fat FatLayout.

(** ** C95 *)
Theorem C95_panics_refuted a b : SameFile (Sys a) (Sys b) = Panic.
Proof. reflexivity. Qed.
(* given what the assertions expect, it compares first clusters, and so identifies all empty files *)
Theorem C95_clusters_partial a b : SameFile (SysDirent a) (SysDirent b) = Ret (de_first a =? de_first b).
Proof. reflexivity. Qed.
Example C95_ex : SameFile (Sys ex_file) (Sys ex_file) = Panic /\ SameFile (SysDirent (ex_entry "A" 0 0 0)) (SysDirent (ex_entry "B" 0 0 0)) = Ret true.
Proof. split; reflexivity. Qed.

(** ** C96 *)
Theorem C96_never_contents_refuted {F} (fi : fatimpl F) rep fuel path s s' data : (forall fs, 0 < i64 (BytesPerCluster (fi_boot fi fs))) ->
  ReadFile fi rep fuel path s = FDone s' (inl data) -> data = [].
Proof. intros Hb. now apply readfile_none. Qed.
(* the part of ReadFile after the lookup, for an entry of size [de_size d] whose chain is [cs] *)
Theorem C96_contents_partial {F} (fi : fatimpl F) b disk fs next valid eoc d cs e fuel log :
  fi_boot fi fs = b -> disk_is fi fs disk -> fat_is fi fs next valid eoc -> 0 < BytesPerSector (raw b) <= 4096 -> SectorsPerCluster (raw b) = 1 -> BytesPerCluster b = BytesPerSector (raw b) ->
  de_is_dir d = false -> chain next eoc (de_first d) cs e -> Forall (fun x => valid x = true) (cs ++ [e]) -> Forall (in_range b disk) cs -> cs <> [] -> zlen cs < 2^40 -> (length cs < fuel)%nat ->
  (zlen cs - 1) * BytesPerCluster b < de_size d <= zlen cs * BytesPerCluster b ->
  exists log', read_contents fi fuel d (mkFs fs log) = FDone (mkFs fs (log ++ log')) (inl (slice 0 (de_size d) (concat (map (sector_read b disk) cs)))).
Proof.
  intros Hb Hd HF Hbps Hone Hbpc Hdir Hc Hv Hr Hne Hn Hf Hs. apply Forall_app in Hv as [Hv1 Hv2]. apply Forall_inv in Hv2.
  assert (valid (de_first d) = true) as Hv0 by (inversion Hc; subst; [congruence|now apply Forall_inv in Hv1]).
  unfold read_contents. rewrite Hdir. unfold fbind. rewrite (C76_listing_partial fi (mkFs fs log) next valid eoc _ cs e fuel HF Hc Hv0 Hv1 Hv2 Hf). cbn [fst snd].
  destruct (one_sector_clusters fi b disk fs Hb Hd ltac:(lia) ltac:(lia) ltac:(rewrite Hbpc, Hone; lia) ltac:(rewrite Hone; lia) cs Hone (de_size d) [] log Hr Hne ltac:(rewrite Hbpc in Hs; exact Hs) Hn) as [log' E].
  exists log'. exact E.
Qed.
(* clusters of several sectors: only the first sector of each is returned, although the size says otherwise *)
Theorem C96_truncated_refuted {F} (fi : fatimpl F) b disk fs next valid eoc d cs e fuel log :
  fi_boot fi fs = b -> disk_is fi fs disk -> fat_is fi fs next valid eoc -> 0 < BytesPerSector (raw b) <= 4096 -> 1 < SectorsPerCluster (raw b) < 2^8 ->
  BytesPerCluster b = BytesPerSector (raw b) * SectorsPerCluster (raw b) -> BytesPerCluster b <= 32768 ->
  de_is_dir d = false -> chain next eoc (de_first d) cs e -> Forall (fun x => valid x = true) (cs ++ [e]) -> Forall (in_range b disk) cs -> cs <> [] -> zlen cs < 2^40 -> (length cs < fuel)%nat ->
  de_size d = zlen cs * BytesPerCluster b ->
  exists log' data, read_contents fi fuel d (mkFs fs log) = FDone (mkFs fs (log ++ log')) (inl data) /\ zlen data = zlen cs * BytesPerSector (raw b) /\ zlen data < de_size d.
Proof.
  intros Hb Hd HF Hbps Hmany Hbpc Hle Hdir Hc Hv Hr Hne Hn Hf Hs. apply Forall_app in Hv as [Hv1 Hv2]. apply Forall_inv in Hv2.
  assert (valid (de_first d) = true) as Hv0 by (inversion Hc; subst; [congruence|now apply Forall_inv in Hv1]).
  unfold read_contents. rewrite Hdir. unfold fbind. rewrite (C76_listing_partial fi (mkFs fs log) next valid eoc _ cs e fuel HF Hc Hv0 Hv1 Hv2 Hf). cbn [fst snd].
  destruct (whole_clusters fi b disk fs Hb Hd ltac:(lia) ltac:(lia) Hbpc ltac:(nia) cs (de_size d) [] log Hr ltac:(rewrite Hs, Hbpc; reflexivity) Hn) as [log' E].
  exists log', (concat (map (sector_read b disk) cs)). split; [exact E|]. rewrite (sectors_len b disk) by (try assumption; lia). split; [reflexivity|]. rewrite Hs, Hbpc.
  assert (0 < zlen cs) by (destruct cs; [congruence|rewrite zlen_cons; pose proof (zlen_nonneg cs); lia]). nia.
Qed.
(* a file with a spare cluster, as after preallocation: panic *)
Theorem C96_spare_refuted {F} (fi : fatimpl F) b disk fs next valid eoc d cs e fuel log :
  fi_boot fi fs = b -> disk_is fi fs disk -> fat_is fi fs next valid eoc -> 0 < BytesPerSector (raw b) <= 4096 -> 0 < SectorsPerCluster (raw b) < 2^8 ->
  BytesPerCluster b = BytesPerSector (raw b) * SectorsPerCluster (raw b) -> BytesPerCluster b <= 32768 ->
  de_is_dir d = false -> chain next eoc (de_first d) cs e -> Forall (fun x => valid x = true) (cs ++ [e]) -> Forall (in_range b disk) cs -> cs <> [] -> zlen cs < 2^40 -> (length cs < fuel)%nat ->
  0 <= de_size d < (zlen cs - 1) * BytesPerCluster b ->
  exists s', read_contents fi fuel d (mkFs fs log) = FCrash s'.
Proof.
  intros Hb Hd HF Hbps Hmany Hbpc Hle Hdir Hc Hv Hr Hne Hn Hf Hs. apply Forall_app in Hv as [Hv1 Hv2]. apply Forall_inv in Hv2.
  assert (valid (de_first d) = true) as Hv0 by (inversion Hc; subst; [congruence|now apply Forall_inv in Hv1]).
  unfold read_contents. rewrite Hdir. unfold fbind. rewrite (C76_listing_partial fi (mkFs fs log) next valid eoc _ cs e fuel HF Hc Hv0 Hv1 Hv2 Hf). cbn [fst snd].
  assert (1 <= zlen cs) as HP by (destruct cs; [congruence|rewrite zlen_cons; pose proof (zlen_nonneg cs); lia]). assert (0 < BytesPerCluster b) by (rewrite Hbpc; nia).
  assert ((zlen cs - 1) * BytesPerCluster b <= 2^40 * 2^15) by (apply Z.mul_le_mono_nonneg; lia).
  apply (spare_crashes fi b disk fs Hb Hd); try assumption; try lia.
Qed.
Theorem C96_directory_partial {F} (fi : fatimpl F) fuel d s : de_is_dir d = true -> read_contents fi fuel d s = FDone s (inr (K ErrIsADirectory)).
Proof. intros H. unfold read_contents. rewrite H. reflexivity. Qed.
Lemma ex_disk_is valid root disk : disk_is (ex_fi valid root disk) tt disk.
Proof. intros off n _ _ _. reflexivity. Qed.
Example C96_ex : exists s', read_contents (ex_fi ex_valid [ex_file] ex_disk) 9 ex_file ex_s = FDone s' (inl (slice (4 * 512) 1024 ex_disk ++ slice (7 * 512) 76 ex_disk)) /\
  Forall (in_range ex_boot ex_disk) [2; 3; 5] /\ (zlen [2; 3; 5] - 1) * BytesPerCluster ex_boot < de_size ex_file <= zlen [2; 3; 5] * BytesPerCluster ex_boot /\
  exists s2, read_contents (ex_fi ex_valid [ex_file] ex_disk) 9 (ex_entry "F" 0 2 100) ex_s = FCrash s2.
Proof.
  eexists. split; [vm_compute; reflexivity|]. split; [repeat constructor; vm_compute; congruence|]. split; [vm_compute; split; congruence|]. eexists. vm_compute. reflexivity.
Qed.

(** ** C97: the sector read for cluster c *)
Theorem C97_sector_partial {F} (fi : fatimpl F) b disk fs c log : fi_boot fi fs = b -> disk_is fi fs disk -> 0 <= BytesPerSector (raw b) < 2^16 -> 0 <= SectorsPerCluster (raw b) < 2^8 -> in_range b disk c ->
  exists off, readCluster fi c (mkFs fs log) = FDone (mkFs fs (log ++ [FvReadAt off (BytesPerSector (raw b))])) (inl (slice off (BytesPerSector (raw b)) disk)) /\
    off = BytesPerSector (raw b) * (SectorsPerCluster (raw b) * (FirstDataSector b + SectorsPerCluster (raw b) * c)).
Proof. intros Hb Hd H1 H2 H3. exists (code_offset b c). split; [now apply read_cluster_ok|]. unfold code_offset. lia. Qed.
(* one sector per cluster: right only if the FATs happen to take two sectors *)
Theorem C97_location_refuted h spf32 b c : raw_ok h -> 0 <= spf32 < 2^32 -> process_boot h spf32 = Ret (inl b) -> SectorsPerCluster h = 1 ->
  (code_offset b c = BytesPerSector h * vol_cluster_sector h spf32 c <-> vol_fats h spf32 = 2 /\ 32 * RootEntryCount h + BytesPerSector h <= 2^16).
Proof.
  intros H1 H2 H3 Hone. destruct (layout_any h spf32 b H1 H2 H3) as (E1 & _ & _ & E2 & _). destruct (layout_right h spf32 b H1 H2 H3) as ((R1 & R2) & _). rewrite <- E1 in E2. clear E1.
  pose proof (process_accepts _ _ _ H3) as (_ & _ & A & _). destruct (root_gap h spf32 b H1 H2 H3) as [G|G]; [|clear R1 R2];
  apply C72_consistent in H3 as (Er & Hs & _); unfold code_offset, vol_cluster_sector, vol_first_data; rewrite Er, E2, Hone; pose proof (vol_facts h spf32 H1 H2) as [F1 _];
  assert (0 < BytesPerSector h) as Hp by (cbn in Hs; lia).
  - rewrite G. split; [intros X; split; [nia|tauto]|]. intros [X _]. rewrite X. lia.
  - split; [|lia]. intros X. exfalso. rewrite <- Z.mul_assoc in X. apply Z.mul_reg_l in X; lia.
Qed.
(* several sectors per cluster: at most one cluster of the whole volume is read at the right place, and of that only the first sector *)
Theorem C97_locations_refuted h spf32 b c c' : raw_ok h -> 0 <= spf32 < 2^32 -> process_boot h spf32 = Ret (inl b) -> 1 < SectorsPerCluster h ->
  code_offset b c = BytesPerSector h * vol_cluster_sector h spf32 c -> code_offset b c' = BytesPerSector h * vol_cluster_sector h spf32 c' -> c = c'.
Proof.
  intros H1 H2 H3 Hmany X Y. apply C72_consistent in H3 as (Er & Hs & _). unfold code_offset, vol_cluster_sector in *. rewrite Er in *.
  assert (0 < BytesPerSector h) by (cbn in Hs; lia). set (p := BytesPerSector h) in *. set (q := SectorsPerCluster h) in *.
  assert (p * (q * (q - 1) * (c - c')) = 0) as Z0 by nia. assert (q * (q - 1) * (c - c') = 0) as Z1 by (apply Z.mul_eq_0 in Z0 as [|]; lia). apply Z.mul_eq_0 in Z1 as [Z1|Z1]; [nia|lia].
Qed.
(* different clusters are read from different sectors *)
Theorem C97_distinct_partial b c c' : 0 < BytesPerSector (raw b) -> 0 < SectorsPerCluster (raw b) -> c < c' -> code_offset b c + BytesPerSector (raw b) <= code_offset b c'.
Proof.
  intros Hb Hs Hc. unfold code_offset. set (p := BytesPerSector (raw b)) in *. set (q := SectorsPerCluster (raw b)) in *.
  assert (p * 1 <= p * (q * q * (c' - c))) by (apply Z.mul_le_mono_nonneg_l; nia). nia.
Qed.
Example C97_ex : code_offset ex_boot 2 = BytesPerSector ex_raw * vol_cluster_sector ex_raw 0 2 /\ vol_fats ex_raw 0 = 2 /\
  exists b, process_boot ex_raw2 0 = Ret (inl b) /\ code_offset b 2 = 512 * 164 /\ vol_cluster_sector ex_raw2 0 2 = 51.
Proof. split; [reflexivity|]. split; [reflexivity|]. eexists. split; [vm_compute; reflexivity|]. split; reflexivity. Qed.

(** ** C98 *)
Theorem C98_always_panics_refuted bpc r : new_dirent false bpc r = Panic.
Proof. apply new_dirent_asis. Qed.
Theorem C98_decode_partial bpc r n c rest e : 0 < bpc < 2^63 -> 0 <= r_size r < 2^32 -> 0 <= r_high r < 2^16 -> 0 <= r_low r < 2^16 ->
  unpadded (r_name r) n -> unpadded (r_ext r) e -> n = c :: rest -> c <> 0 ->
  exists d, new_dirent true bpc r = Ret (inl d) /\
    de_name d = (first_char (r_cmillis r) c :: rest) ++ (match e with [] => [] | _ => 46 :: e end) /\
    de_attr d = r_attr r /\ de_first d = r_high r * 2^16 + r_low r /\ de_deleted d = (c =? 0xE5) /\ de_size d = r_size r /\ de_mode d = AttrFlagsToFileMode (r_attr r) /\
    f_size (de_stat d) = r_size r /\ f_mode (de_stat d) = AttrFlagsToFileMode (r_attr r) /\ f_ino (de_stat d) = r_high r * 2^16 + r_low r /\ f_bsize (de_stat d) = bpc /\
    f_nblocks (de_stat d) = (r_size r + bpc - 1) / bpc /\ f_deleted (de_stat d) = 0 /\
    TimestampFromParts true (r_mdate r) (r_mtime r) 0 = Ret (f_modified (de_stat d)) /\ DateFromInt true (r_adate r) = Ret (f_accessed (de_stat d)) /\
    (c <> 0xE5 -> TimestampFromParts true (r_cdate r) (r_ctime r) (r_cmillis r) = Ret (f_created (de_stat d))).
Proof. apply new_dirent_ok. Qed.
(* free entries are reported as missing; a blank name (eight spaces) panics *)
Theorem C98_free_partial bpc r : 0 < i64 bpc -> znth 0 (r_name r) 0 = 0 -> r_name r <> [] -> new_dirent true bpc r = Ret (inr (K ErrNotFound)).
Proof.
  intros Hb Hz Hne. pose proof (new_dirent_cases bpc r Hb) as H. destruct (r_name r) as [|c l]; [congruence|]. cbn in Hz. subst c. destruct (trim_head 0 l ltac:(lia)) as [rest E]. rewrite E in H. exact H.
Qed.
Theorem C98_blank_refuted bpc r : 0 < i64 bpc -> (forall j, 0 <= j < zlen (r_name r) -> znth 0 (r_name r) j = 32) -> new_dirent true bpc r = Panic.
Proof. intros Hb H. pose proof (new_dirent_cases bpc r Hb) as HC. now rewrite trim_blank in HC. Qed.
Example C98_ex : unpadded (B "HELLO   ") (B "HELLO") /\ unpadded (B "C  ") (B "C") /\
  exists d, new_dirent true 512 (mkRawDirent (B "HELLO   ") (B "C  ") 32 0 0 0 33 33 1 0 33 2 1025) = Ret (inl d) /\ de_name d = B "HELLO.C" /\ de_first d = 65538 /\ f_nblocks (de_stat d) = 3.
Proof.
  split; [exists 3; split; [reflexivity|right; vm_compute; congruence]|]. split; [exists 2; split; [reflexivity|right; vm_compute; congruence]|].
  eexists. split; [vm_compute; reflexivity|]. vm_compute. auto.
Qed.

(** ** C99: the entries of a directory cluster *)
Theorem C99_always_panics_refuted loc b data : 0 < DirentsPerCluster b -> clusterToDirentSlice loc false b data = Panic.
Proof.
  intros H. unfold clusterToDirentSlice. destruct (Z.to_nat (DirentsPerCluster b)) eqn:E; [lia|]. cbn [dirents_from]. destruct (zlen data <? 0 + 32); [reflexivity|]. rewrite C75_always_panics_refuted. reflexivity.
Qed.
(* all slots before the first free one, in order, deleted ones included *)
Theorem C99_entries_partial b data k : 0 < i64 (BytesPerCluster b) -> 0 <= k <= DirentsPerCluster b -> 32 * DirentsPerCluster b <= zlen data ->
  (forall i, 0 <= i < k -> named data i /\ ~ slot_end data i) -> (k = DirentsPerCluster b \/ k < DirentsPerCluster b /\ slot_end data k) ->
  exists ds, clusterToDirentSlice true true b data = Ret (inl ds) /\ zlen ds = k /\
    forall i d, nth_error ds i = Some d -> exists r, new_raw_dirent true (slot data (Z.of_nat i)) = Ret r /\ new_dirent true (BytesPerCluster b) r = Ret (inl d).
Proof.
  intros Hb Hk HL Hi He. assert (exists ds, zlen ds = k /\ forall i d, nth_error ds i = Some d -> decode_slot (BytesPerCluster b) (slot data (Z.of_nat i)) = Ret (inl d)) as (ds & Hds & Hdec).
  { assert (forall m, (Z.of_nat m <= k) -> exists ds, zlen ds = Z.of_nat m /\ forall i d, nth_error ds i = Some d -> decode_slot (BytesPerCluster b) (slot data (Z.of_nat i)) = Ret (inl d)) as HM.
    { induction m as [|m IH]; intros Hm; [exists []; split; [reflexivity|]; intros [|i] d X; discriminate|]. destruct IH as (ds & L & D); [lia|].
      destruct (slot_cases (BytesPerCluster b) data (Z.of_nat m) Hb ltac:(lia) ltac:(lia)) as (_ & C & _). destruct (Hi (Z.of_nat m) ltac:(lia)) as [N1 N2]. destruct (C N1 N2) as [d Ed].
      exists (ds ++ [d]). rewrite zlen_app. split; [rewrite L; unfold zlen; cbn [length]; lia|]. intros i d' X. destruct (Nat.lt_ge_cases i (length ds)) as [Hlt|Hge].
      - rewrite nth_error_app1 in X by exact Hlt. now apply D.
      - rewrite nth_error_app2 in X by exact Hge. assert (i = length ds) as ->. { assert (i - length ds < 1)%nat by (apply (nth_error_Some [d]); congruence). lia. }
        rewrite Nat.sub_diag in X. injection X as <-. unfold zlen in L. rewrite L. exact Ed. }
    destruct (HM (Z.to_nat k) ltac:(lia)) as (ds & L & D). exists ds. split; [lia|exact D]. }
  exists ds. split; [|split; [exact Hds|]].
  - unfold clusterToDirentSlice. change 0 with (32 * 0) at 1. apply dirents_list; [unfold zlen in Hds; lia|lia|lia|intros i d X; now apply Hdec|].
    destruct He as [-> |[N1 N2]]; [left; unfold zlen in Hds; lia|right]. rewrite Hds. destruct (slot_cases (BytesPerCluster b) data (0 + k) Hb ltac:(lia) ltac:(lia)) as (C & _ & _).
    apply C; [|exact N2]. exists 0. split; [lia|]. rewrite Z.add_0_r. unfold slot_end in N2. cbn [Z.add]. rewrite N2. lia.
  - intros i d X. specialize (Hdec i d X). unfold decode_slot in Hdec. destruct (new_raw_dirent true (slot data (Z.of_nat i))) as [r| |]; try discriminate. exists r. auto.
Qed.
(* a slot with a blank name before the first free one panics *)
Theorem C99_blank_refuted b data k : 0 < i64 (BytesPerCluster b) -> 0 <= k < DirentsPerCluster b -> 32 * DirentsPerCluster b <= zlen data ->
  (forall i, 0 <= i < k -> named data i /\ ~ slot_end data i) -> ~ named data k -> clusterToDirentSlice true true b data = Panic.
Proof.
  intros Hb Hk HL Hi Hn. unfold clusterToDirentSlice. change 0 with (32 * 0) at 1. apply (dirents_blank _ _ (Z.to_nat k)); [lia|lia|lia| |].
  - intros j Hj. destruct (slot_cases (BytesPerCluster b) data (0 + Z.of_nat j) Hb ltac:(lia) ltac:(lia)) as (_ & C & _). destruct (Hi (Z.of_nat j) ltac:(lia)). now apply C.
  - rewrite Z.add_0_l, Z2Nat.id by lia. destruct (slot_cases (BytesPerCluster b) data k Hb ltac:(lia) ltac:(lia)) as (_ & _ & C). now apply C.
Qed.
(* a cluster of several sectors whose first sector is in use throughout: only one sector was read, so this panics *)
Theorem C99_several_sectors_refuted b data k : 0 < i64 (BytesPerCluster b) -> 0 <= k < DirentsPerCluster b -> zlen data = 32 * k ->
  (forall i, 0 <= i < k -> named data i /\ ~ slot_end data i) -> clusterToDirentSlice true true b data = Panic.
Proof.
  intros Hb Hk HL Hi. unfold clusterToDirentSlice. change 0 with (32 * 0) at 1. apply (dirents_short _ _ (Z.to_nat k)); [lia|lia|lia|].
  intros j Hj. destruct (slot_cases (BytesPerCluster b) data (0 + Z.of_nat j) Hb ltac:(lia) ltac:(lia)) as (_ & C & _). destruct (Hi (Z.of_nat j) ltac:(lia)). now apply C.
Qed.
Definition ex_slot (name : string) : list Z := B name ++ zrepeat 0 21.
Definition ex_cluster : list Z := ex_slot "A       TXT" ++ 0xE5 :: tl (ex_slot "BB         ") ++ ex_slot "C       D  " ++ zrepeat 0 (13 * 32).
Example C99_ex : zlen ex_cluster = 512 /\ DirentsPerCluster ex_boot = 16 /\ (forall i, 0 <= i < 3 -> named ex_cluster i /\ ~ slot_end ex_cluster i) /\ slot_end ex_cluster 3 /\
  exists a b c, clusterToDirentSlice true true ex_boot ex_cluster = Ret (inl [a; b; c]) /\ de_name a = B "A.TXT" /\ de_deleted b = true /\ de_name c = B "C.D".
Proof.
  split; [vm_compute; reflexivity|]. split; [reflexivity|]. split.
  { intros i Hi. assert (i = 0 \/ i = 1 \/ i = 2) as [->|[->| ->]] by lia; (split; [exists 0; split; [lia|vm_compute; congruence]|vm_compute; congruence]). }
  split; [vm_compute; reflexivity|]. do 3 eexists. split; [vm_compute; reflexivity|]. vm_compute. auto.
Qed.

(** ** C100: Readdir *)
Theorem C100_never_lists_refuted {F} (fi : fatimpl F) fuel path s s' l : Readdir fi false fuel path s <> FDone s' (inl l).
Proof.
  unfold Readdir, ftry, fbind. destruct (resolvePath fi false fuel path s) as [s1 [d|e]|s1|s1] eqn:R; try discriminate. apply resolve_asis in R as [-> _]. discriminate.
Qed.
(* repaired, for a directory of the root: the entries of its clusters up to the first one with a free slot *)
Theorem C100_lists_partial {F} (fi : fatimpl F) b disk fs0 fs next valid eoc path l1 d l2 pre c post e E fuel log :
  ~ In 58 (clean path) -> fi_root fi fs0 = (fs, inl (l1 ++ d :: l2)) -> Forall (fun x => de_name x <> clean path) (l1 ++ l2) -> de_name d = clean path -> de_is_dir d = true ->
  fi_boot fi fs = b -> disk_is fi fs disk -> fat_is fi fs next valid eoc -> 0 <= BytesPerSector (raw b) < 2^16 -> 0 <= SectorsPerCluster (raw b) < 2^8 ->
  chain next eoc (de_first d) (pre ++ c :: post) e -> Forall (fun x => valid x = true) (pre ++ c :: post) -> Forall (in_range b disk) (pre ++ c :: post) ->
  Forall (fun x => clusterToDirentSlice true true b (sector_read b disk x) = Ret (inl (E x))) (pre ++ c :: post) ->
  Forall (fun x => DirentsPerCluster b <= zlen (E x)) pre -> zlen (E c) < DirentsPerCluster b -> (length pre < fuel)%nat ->
  exists log', Readdir fi true fuel path (mkFs fs0 log) = FDone (mkFs fs (log ++ log')) (inl (concat (map E (pre ++ [c])))).
Proof.
  intros Hp Er Hu Hn Hdir Hb Hd HF H1 H2 Hc Hv Hr HE Hfull Hlast Hf.
  assert (HR : forall lg, exists log', readDirFromDirent fi true fuel d (mkFs fs lg) = FDone (mkFs fs (lg ++ log')) (inl (concat (map E (pre ++ [c]))))).
  { intros lg. unfold readDirFromDirent. rewrite Hdir. cbn [negb].
    assert (Forall (fun x => valid x = true) (tl (pre ++ c :: post))) as Hv' by (destruct (pre ++ c :: post); [constructor|now apply Forall_inv_tail in Hv]).
    destruct (read_dir_at fi b disk fs next valid eoc d (pre ++ c :: post) e E Hb Hd HF H1 H2 Hc ltac:(destruct pre; discriminate) Hv' Hr HE pre (c :: post) O [] lg fuel eq_refl Hfull Hf) as [log' EL].
    exists log'. now apply EL. }
  destruct (HR log) as [lg1 E1]. destruct (HR (log ++ lg1)) as [lg2 E2].
  exists (lg1 ++ lg2). unfold Readdir, ftry, fbind. rewrite (C79_directory_partial fi true fuel path (mkFs fs0 log) fs l1 d l2 _ _ Hp Er Hu Hn E1). rewrite Hdir. cbn [negb]. rewrite E2. now rewrite app_assoc.
Qed.
(* a directory that exactly fills its clusters cannot be listed *)
Theorem C100_full_refuted {F} (fi : fatimpl F) b disk fs next valid eoc d cs e E fuel log : de_is_dir d = true ->
  fi_boot fi fs = b -> disk_is fi fs disk -> fat_is fi fs next valid eoc -> 0 <= BytesPerSector (raw b) < 2^16 -> 0 <= SectorsPerCluster (raw b) < 2^8 ->
  chain next eoc (de_first d) cs e -> cs <> [] -> Forall (fun x => valid x = true) cs -> Forall (in_range b disk) cs ->
  Forall (fun x => clusterToDirentSlice true true b (sector_read b disk x) = Ret (inl (E x))) cs -> Forall (fun x => DirentsPerCluster b <= zlen (E x)) cs -> (length cs < fuel)%nat ->
  exists log', readDirFromDirent fi true fuel d (mkFs fs log) = FDone (mkFs fs (log ++ log')) (inr (K ErrInvalidArgument)).
Proof.
  intros Hdir Hb Hd HF H1 H2 Hc Hne Hv Hr HE Hfull Hf. unfold readDirFromDirent. rewrite Hdir. cbn [negb].
  assert (Forall (fun x => valid x = true) (tl cs)) as Hv' by (destruct cs; [constructor|now apply Forall_inv_tail in Hv]).
  destruct (read_dir_at fi b disk fs next valid eoc d cs e E Hb Hd HF H1 H2 Hc Hne Hv' Hr HE cs [] O [] log fuel) as [log' EL]; [now rewrite app_nil_r|exact Hfull|exact Hf|]. exists log'. exact EL.
Qed.
Theorem C100_not_a_directory {F} (fi : fatimpl F) rep fuel path s s1 d : resolvePath fi rep fuel path s = FDone s1 (inl d) -> de_is_dir d = false ->
  Readdir fi rep fuel path s = FDone s1 (inr (K ErrNotADirectory)).
Proof. intros R Hd. unfold Readdir, ftry, fbind. rewrite R, Hd. reflexivity. Qed.
(* clusters 2, 3 and 5 are read at sectors 4, 5 and 7; sector 4 is full, sector 5 has three entries *)
Definition ex_full : list Z := concat (repeat (ex_slot "X       Y  ") 16).
Definition ex_treedisk : list Z := zrepeat 0 (4 * 512) ++ ex_full ++ ex_cluster ++ zrepeat 0 (4 * 512).
Definition ex_fulldisk : list Z := zrepeat 0 (4 * 512) ++ ex_full ++ ex_full ++ ex_full ++ ex_full.
Example C100_ex : exists s' l, Readdir (ex_fi ex_valid [ex_file; ex_dir] ex_treedisk) true 9 (B "D") ex_s = FDone s' (inl l) /\ zlen l = 19 /\
  exists s'', readDirFromDirent (ex_fi ex_valid [] ex_fulldisk) true 9 ex_dir ex_s = FDone s'' (inr (K ErrInvalidArgument)).
Proof. do 2 eexists. split; [vm_compute; reflexivity|]. split; [vm_compute; reflexivity|]. eexists. vm_compute. reflexivity. Qed.
Print Assumptions C95_panics_refuted.
Print Assumptions C95_clusters_partial.
Print Assumptions C96_never_contents_refuted.
Print Assumptions C96_contents_partial.
Print Assumptions C96_truncated_refuted.
Print Assumptions C96_spare_refuted.
Print Assumptions C96_directory_partial.
Print Assumptions C97_sector_partial.
Print Assumptions C97_location_refuted.
Print Assumptions C97_locations_refuted.
Print Assumptions C97_distinct_partial.
Print Assumptions C98_always_panics_refuted.
Print Assumptions C98_decode_partial.
Print Assumptions C98_free_partial.
Print Assumptions C98_blank_refuted.
Print Assumptions C99_always_panics_refuted.
Print Assumptions C99_entries_partial.
Print Assumptions C99_blank_refuted.
Print Assumptions C99_several_sectors_refuted.
Print Assumptions C100_never_lists_refuted.
Print Assumptions C100_lists_partial.
Print Assumptions C100_full_refuted.
Print Assumptions C100_not_a_directory.
