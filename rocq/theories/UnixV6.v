(** * UnixV6: model of file_systems/unixv6/dirents.go. *)
From Verif Require Import GoBase Errors Flags BlockCache BasicStream Driver.

(* dirents.go:39-61 *)
Definition FlagIsAllocated : Z := 0x8000.
Definition FileTypeMask : Z := 0x6000.
Definition FileTypeBlockDevice : Z := 0x6000.
Definition FileTypeDirectory : Z := 0x4000.
Definition FileTypeCharDevice : Z := 0x2000.
Definition FlagSetUID : Z := 0x0800.
Definition FlagSetGID : Z := 0x0400.
(* io/fs mode bits *)
Definition ModePerm : Z := 0x1ff.
Definition ModeDevice : Z := 2^26.
Definition ModeSetuid : Z := 2^23.
Definition ModeSetgid : Z := 2^22.
Definition ModeCharDevice : Z := 2^21.

(* dirents.go:63-86; flags is a uint16; the error is always nil *)
Definition ConvertFSFlagsToStandard (flags : Z) : Z :=
  let mode := Z.land flags ModePerm in
  let t := Z.land flags FileTypeMask in
  let mode := if t =? FileTypeBlockDevice then Z.lor mode ModeDevice
              else if t =? FileTypeCharDevice then Z.lor mode ModeCharDevice
              else if t =? FileTypeDirectory then Z.lor mode ModeDir else mode in
  let mode := if has flags FlagSetGID then Z.lor mode ModeSetgid else mode in
  if has flags FlagSetUID then Z.lor mode ModeSetuid else mode.

(* dirents.go:88-118; flags is a uint32; [KExt 0] stands for the fmt.Errorf *)
Definition ConvertStandardFlagsToFS (flags : Z) : Z * option kerr :=
  let mode := Z.lor (Z.land flags ModePerm) FlagIsAllocated in
  let t := Z.land flags ModeType in
  let rest mode :=
    let mode := if has flags ModeSetgid then Z.lor mode FlagSetGID else mode in
    (if has flags ModeSetuid then Z.lor mode FlagSetUID else mode, None) in
  if t =? ModeCharDevice then rest (Z.lor mode FileTypeCharDevice)
  else if t =? ModeDevice then rest (Z.lor mode FileTypeBlockDevice)
  else if t =? ModeDir then rest (Z.lor mode FileTypeDirectory)
  else if t =? 0 then rest mode
  else (mode, Some (KExt 0)).

(* dirents.go:28-37 *)
Record raw_inode := mkInode {
  v_flags : Z; v_nlink : Z; v_uid : Z; v_gid : Z; v_size0 : Z; v_size1 : Z; v_size2 : Z; v_addr : list Z; v_accessed : Z; v_modified : Z }.

(* time.Unix(s, 0) as nanoseconds since 0001-01-01 00:00:00 UTC (as in FatDirent.v) *)
Definition unix_time (s : Z) : Z := (s + 62135596800) * 10^9.

(* dirents.go:120-150; the error is always nil.  uint shifts of at most 16 bits do not overflow *)
Definition RawInodeToStat (inumber : Z) (n : raw_inode) : fstat :=
  let size := Z.lor (Z.lor (v_size0 n) (Z.shiftl (v_size1 n) 8)) (Z.shiftl (v_size2 n) 16) in
  let blocks := size / 512 in
  let blocks := if negb (size mod 512 =? 0) then blocks + 1 else blocks in
  mkFstat 0 inumber (v_nlink n) (ConvertFSFlagsToStandard (v_flags n)) (v_uid n) (v_gid n) 0 size 512 blocks
    0 0 (unix_time (v_accessed n)) (unix_time (v_modified n)) 0.
