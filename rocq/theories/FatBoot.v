(** * FatBoot: model of file_systems/fat/common.go. *)
From Verif Require Import GoBase ListZ Errors.

(* encoding/binary little-endian reads of l at offset o (l long enough) *)
Definition le16 (l : list Z) (o : Z) : Z := znth 0 l o + 2^8 * znth 0 l (o + 1).
Definition le32 (l : list Z) (o : Z) : Z := le16 l o + 2^16 * le16 l (o + 2).

(* common.go:20-35 *)
Record raw_boot := mkRaw {
  JmpBoot : list Z; OEMName : list Z; BytesPerSector : Z; SectorsPerCluster : Z; ReservedSectors : Z; NumFATs : Z;
  RootEntryCount : Z; totalSectors16 : Z; Media : Z; sectorsPerFAT16 : Z; SectorsPerTrack : Z; NumHeads : Z;
  HiddenSectors : Z; totalSectors32 : Z }.
(* common.go:39-50 *)
Record boot := mkBoot {
  raw : raw_boot; SectorsPerFAT : Z; TotalFATSectors : Z; RootDirSectors : Z; BytesPerCluster : Z; TotalClusters : Z;
  TotalDataSectors : Z; FirstDataSector : Z; FATVersion : Z; DirentsPerCluster : Z }.

(* common.go:54-64 *)
Definition DetermineFATVersion (totalClusters : Z) : Z :=
  if totalClusters <? 4085 then 12 else if totalClusters <? 65525 then 16 else 32.

(* dirent.go:168 *)
Definition DirentSize : Z := 32.

(* binary.Read into a RawFATBootSectorWithBPB: the fields in order, without padding *)
Definition decode_boot (b : list Z) : raw_boot :=
  mkRaw (slice 0 3 b) (slice 3 8 b) (le16 b 11) (znth 0 b 13) (le16 b 14) (znth 0 b 16) (le16 b 17) (le16 b 19) (znth 0 b 21)
    (le16 b 22) (le16 b 24) (le16 b 26) (le32 b 28) (le32 b 32).

(* common.go:85-185, after both reads.  uint is 64 bit; RootEntryCount and BytesPerSector are uint16 *)
Definition process_boot (h : raw_boot) (sectorsPerFAT32 : Z) : outcome (boot + kerr) :=
  let sectorsPerFAT := if negb (sectorsPerFAT16 h =? 0) then sectorsPerFAT16 h else sectorsPerFAT32 in
  let totalSectors := if negb (totalSectors16 h =? 0) then totalSectors16 h else totalSectors32 h in
  if BytesPerSector h =? 0 then Panic else
  let rootDirSectors := u16 (u16 (RootEntryCount h * 32) + u16 (BytesPerSector h - 1)) / BytesPerSector h in
  let totalFATSectors := u64 (NumFATs h * sectorsPerFAT) in
  let dataSectors := u64 (u64 (u64 (totalSectors - ReservedSectors h) + totalFATSectors) + rootDirSectors) in
  if SectorsPerCluster h =? 0 then Panic else
  let totalClusters := dataSectors / SectorsPerCluster h in
  if negb (existsb (Z.eqb (BytesPerSector h)) [512; 1024; 2048; 4096]) then Ret (inr (K ErrFileSystemCorrupted)) else
  if negb (existsb (Z.eqb (SectorsPerCluster h)) [1; 2; 4; 8; 16; 32; 64; 128]) then Ret (inr (K ErrFileSystemCorrupted)) else
  let fatVersion := DetermineFATVersion totalClusters in
  if (fatVersion =? 32) && negb (rootDirSectors =? 0) then Ret (inr (K ErrFileSystemCorrupted)) else
  let bytesPerCluster := u64 (BytesPerSector h * SectorsPerCluster h) in
  if bytesPerCluster >? 32768 then Ret (inr (K ErrFileSystemCorrupted)) else
  Ret (inl (mkBoot h sectorsPerFAT totalFATSectors rootDirSectors bytesPerCluster totalClusters
    (u64 (totalSectors - u64 (u64 (ReservedSectors h + totalFATSectors) + rootDirSectors)))
    (u32 (u64 (ReservedSectors h + rootDirSectors))) fatVersion (i64 bytesPerCluster / DirentSize))).

(* common.go:71-83.  The reader delivers [data] and then ends or fails.  binary.Read reads 36 bytes and
   then sets the fields by reflection, which panics for the unexported fields (totalSectors16,
   sectorsPerFAT16, totalSectors32).  [settable = false] is the code; [true] is the code with these
   fields exported. *)
Definition new_boot (settable : bool) (data : list Z) : outcome (boot + kerr) :=
  if zlen data <? 36 then Ret (inr (K ErrIOFailed))
  else if negb settable then Panic
  else if zlen data <? 40 then Ret (inr (K ErrIOFailed))
  else process_boot (decode_boot data) (le32 data 36).
