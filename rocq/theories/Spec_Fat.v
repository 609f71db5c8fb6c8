(** * Spec_Fat: vocabulary for the properties of the FAT package (Microsoft's FAT specification 1.03). *)
From Coq Require Import String.
From Verif Require Import GoBase ListZ Errors Flags GoPath Spec_Path BlockCache BasicStream Driver FatBoot FatDirent FatDriver.

(** ** Layout of a volume *)
(* all fields are unsigned numbers of their widths *)
Definition raw_ok (h : raw_boot) : Prop :=
  0 <= BytesPerSector h < 2^16 /\ 0 <= SectorsPerCluster h < 2^8 /\ 0 <= ReservedSectors h < 2^16 /\ 0 <= NumFATs h < 2^8 /\
  0 <= RootEntryCount h < 2^16 /\ 0 <= totalSectors16 h < 2^16 /\ 0 <= sectorsPerFAT16 h < 2^16 /\ 0 <= totalSectors32 h < 2^32.
(* a number of n bytes, least significant byte first *)
Fixpoint le_bytes (n : nat) (v : Z) : list Z := match n with O => [] | S n' => v mod 256 :: le_bytes n' (v / 256) end.
(* the first 40 bytes of a volume, in the order of the specification (for FAT32, the FAT size is at 36) *)
Definition boot_bytes (h : raw_boot) (spf32 : Z) : list Z :=
  JmpBoot h ++ OEMName h ++ le_bytes 2 (BytesPerSector h) ++ le_bytes 1 (SectorsPerCluster h) ++ le_bytes 2 (ReservedSectors h) ++ le_bytes 1 (NumFATs h) ++
  le_bytes 2 (RootEntryCount h) ++ le_bytes 2 (totalSectors16 h) ++ le_bytes 1 (Media h) ++ le_bytes 2 (sectorsPerFAT16 h) ++ le_bytes 2 (SectorsPerTrack h) ++
  le_bytes 2 (NumHeads h) ++ le_bytes 4 (HiddenSectors h) ++ le_bytes 4 (totalSectors32 h) ++ le_bytes 4 spf32.
Definition header_ok (h : raw_boot) : Prop :=
  raw_ok h /\ zlen (JmpBoot h) = 3 /\ zlen (OEMName h) = 8 /\ 0 <= Media h < 2^8 /\ 0 <= SectorsPerTrack h < 2^16 /\ 0 <= NumHeads h < 2^16 /\ 0 <= HiddenSectors h < 2^32.
Definition vol_fat_size (h : raw_boot) (spf32 : Z) : Z := if sectorsPerFAT16 h =? 0 then spf32 else sectorsPerFAT16 h.
Definition vol_sectors (h : raw_boot) : Z := if totalSectors16 h =? 0 then totalSectors32 h else totalSectors16 h.
Definition vol_fats (h : raw_boot) (spf32 : Z) : Z := NumFATs h * vol_fat_size h spf32.
(* the least number of sectors that holds the root directory's entries of 32 bytes *)
Definition vol_root (h : raw_boot) : Z := (32 * RootEntryCount h + BytesPerSector h - 1) / BytesPerSector h.
Definition vol_first_data (h : raw_boot) (spf32 : Z) : Z := ReservedSectors h + vol_fats h spf32 + vol_root h.
Definition vol_data (h : raw_boot) (spf32 : Z) : Z := vol_sectors h - vol_first_data h spf32.
Definition vol_clusters (h : raw_boot) (spf32 : Z) : Z := vol_data h spf32 / SectorsPerCluster h.
Definition vol_version (clusters : Z) : Z := if clusters <? 4085 then 12 else if clusters <? 65525 then 16 else 32.
(* the first sector of cluster c; the first cluster is number 2 *)
Definition vol_cluster_sector (h : raw_boot) (spf32 : Z) (c : Z) : Z := vol_first_data h spf32 + (c - 2) * SectorsPerCluster h.

(** ** Dates *)
Definition leap_year (y : Z) : bool := if y mod 400 =? 0 then true else if y mod 100 =? 0 then false else y mod 4 =? 0.
Definition days_in_month (y m : Z) : Z :=
  if m =? 2 then (if leap_year y then 29 else 28)
  else if (m =? 4) || (m =? 6) || (m =? 9) || (m =? 11) then 30 else 31.
(* bits 9-15: years since 1980; 5-8: month; 0-4: day *)
Definition stored_date (value y m d : Z) : Prop :=
  value = (y - 1980) * 512 + m * 32 + d /\ 1980 <= y <= 2107 /\ 1 <= m <= 12 /\ 1 <= d <= days_in_month y m.
(* bits 11-15: hours; 5-10: minutes; 0-4: seconds / 2 *)
Definition stored_time (value h m s2 : Z) : Prop :=
  value = h * 2048 + m * 32 + s2 /\ 0 <= h <= 23 /\ 0 <= m <= 59 /\ 0 <= s2 <= 29.

(** ** Cluster chains.  [next] is the FAT, [eoc] recognises end markers. *)
Inductive chain (next : Z -> Z) (eoc : Z -> bool) : Z -> list Z -> Z -> Prop :=
| ch_end c : eoc c = true -> chain next eoc c [] c
| ch_next c cs e : eoc c = false -> chain next eoc (next c) cs e -> chain next eoc c (c :: cs) e.
(* in state fs the implementation answers from these tables, without failures *)
Definition fat_is {F} (fi : fatimpl F) (fs : F) (next : Z -> Z) (valid eoc : Z -> bool) : Prop :=
  (forall c, fi_get fi fs c = (fs, inl (next c))) /\ (forall c, fi_valid fi fs c = valid c) /\ (forall c, fi_eoc fi fs c = eoc c).
Fixpoint iter (next : Z -> Z) (n : nat) (c : Z) : Z := match n with O => c | S n' => next (iter next n' c) end.

(** ** The device: reading works and returns the bytes of [disk] *)
Definition disk_is {F} (fi : fatimpl F) (fs : F) (disk : list Z) : Prop :=
  forall off n, 0 <= off -> 0 <= n -> off + n <= zlen disk -> fi_read_at fi fs off n = (fs, (slice off n disk, n, None)).

(** ** Directory entries: the on-disk fields at their documented offsets *)
Definition disk_attr (data : list Z) : Z := znth 0 data 11.
Definition disk_cluster (data : list Z) : Z := le16 data 26 + 2^16 * le16 data 20.
Definition disk_size (data : list Z) : Z := le32 data 28.
(* a field [l] holds the text [n], padded with spaces *)
Definition unpadded (l n : list Z) : Prop := exists k, l = n ++ zrepeat 32 k /\ (n = [] \/ last n 0 <> 32).
(* the first character: 05 stands for E5, and that of a deleted entry (E5) is kept elsewhere *)
Definition first_char (saved c : Z) : Z := if c =? 0xE5 then saved else if c =? 5 then 0xE5 else c.
(* a chain that breaks: [cs] are its clusters, the last of which is followed by something that is neither a
   valid cluster nor an end marker *)
Inductive broken (next : Z -> Z) (valid eoc : Z -> bool) : Z -> list Z -> Prop :=
| br_last c : eoc c = false -> valid (next c) = false -> eoc (next c) = false -> broken next valid eoc c [c]
| br_next c cs : eoc c = false -> valid (next c) = true -> eoc (next c) = false -> broken next valid eoc (next c) cs -> broken next valid eoc c (c :: cs).

(** ** Timestamps of an entry: what a sequence of setters should leave behind.  [t] is accepted if it is not
    before the epoch. *)
Inductive setter := SetA (t : Z) | SetM (t : Z) | SetC (t : Z) | SetD (t : Z).
Definition run1 (epoch : Z) (o : setter) (d : dirent) : dirent * option kerr :=
  match o with SetA t => SetLastAccessedAt epoch t d | SetM t => SetLastModifiedAt epoch t d | SetC t => SetCreatedAt epoch t d | SetD t => SetDeletedAt epoch t d end.
Definition run (epoch : Z) (os : list setter) (d : dirent) : dirent := fold_left (fun d o => fst (run1 epoch o d)) os d.
(* the last of the accepted times among [ts], or [init] *)
Definition last_set (epoch : Z) (ts : list Z) (init : Z) : Z := last (filter (fun t => epoch <=? t) ts) init.
Definition times_A (os : list setter) : list Z := flat_map (fun o => match o with SetA t => [t] | _ => [] end) os.
Definition times_M (os : list setter) : list Z := flat_map (fun o => match o with SetM t => [t] | _ => [] end) os.
Definition times_C (os : list setter) : list Z := flat_map (fun o => match o with SetC t => [t] | _ => [] end) os.
Definition times_D (os : list setter) : list Z := flat_map (fun o => match o with SetD t => [t] | _ => [] end) os.

(* the setters up to the first accepted SetDeletedAt *)
Fixpoint until_deleted (epoch : Z) (os : list setter) : list setter :=
  match os with
  | [] => []
  | SetD t :: os' => if t <? epoch then SetD t :: until_deleted epoch os' else []
  | o :: os' => o :: until_deleted epoch os'
  end.

(** ** Directory clusters: slot i is 32 bytes; a slot is free from its first byte 0 on *)
Definition slot (data : list Z) (i : Z) : list Z := slice (32 * i) 32 data.
Definition slot_end (data : list Z) (i : Z) : Prop := znth 0 data (32 * i) = 0.
(* the name field is not blank *)
Definition named (data : list Z) (i : Z) : Prop := exists j, 0 <= j < 8 /\ znth 0 data (32 * i + j) <> 32.

(** ** Where the code reads cluster c: one sector at sector number spc * (FirstDataSector + spc * c) *)
Definition code_offset (b : boot) (c : Z) : Z :=
  BytesPerSector (raw b) * SectorsPerCluster (raw b) * (FirstDataSector b + SectorsPerCluster (raw b) * c).
(* that sector exists and its number fits *)
Definition in_range (b : boot) (disk : list Z) (c : Z) : Prop :=
  0 <= c /\ 0 <= FirstDataSector b /\ FirstDataSector b + SectorsPerCluster (raw b) * c < 2^32 /\ code_offset b c + BytesPerSector (raw b) <= zlen disk.
Definition sector_read (b : boot) (disk : list Z) (c : Z) : list Z := slice (code_offset b c) (BytesPerSector (raw b)) disk.

(** ** The file type bits of a Unix mode *)
Definition S_IFMT : Z := 0xF000.
Definition S_IFDIR : Z := 0x4000.
Definition S_IFREG : Z := 0x8000.
