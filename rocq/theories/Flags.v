(** * Flags: model of flags.go, of the MountFlags in api.go:16-76 and of the
    FileStat predicates in api.go:456-471. *)
From Verif Require Import GoBase.

(** ** IOFlags, flags.go:47-64 *)
Definition O_RDONLY : Z := 0x0.
Definition O_WRONLY : Z := 0x1.
Definition O_RDWR : Z := 0x2.
Definition O_APPEND : Z := 0x8.
Definition O_CREATE : Z := 0x200.
Definition O_TRUNC : Z := 0x400.
Definition O_EXCL : Z := 0x800.
Definition O_SYNC : Z := 0x2000.
Definition O_NOFOLLOW : Z := 0x100000.
Definition O_ACCMODE : Z := Z.lor (Z.lor O_RDONLY O_RDWR) O_WRONLY.

Definition has (flags bit : Z) : bool := negb (Z.land flags bit =? 0).

(* flags.go:100-136 *)
Definition io_append (f : Z) : bool := has f O_APPEND.
Definition io_read (f : Z) : bool :=
  let masked := Z.land f O_ACCMODE in (masked =? O_RDWR) || (masked =? O_RDONLY).
Definition io_write (f : Z) : bool :=
  let masked := Z.land f O_ACCMODE in (masked =? O_RDWR) || (masked =? O_WRONLY).
Definition io_create (f : Z) : bool := has f O_CREATE.
Definition io_truncate (f : Z) : bool := has f O_TRUNC.
Definition io_exclusive (f : Z) : bool := has f O_EXCL.
Definition io_synchronous (f : Z) : bool := has f O_SYNC.
Definition io_nofollow (f : Z) : bool := has f O_NOFOLLOW.
Definition io_requires_write_perm (f : Z) : bool := io_write f || io_truncate f.

(* The os package's flags are platform constants; the access mode is 0/1/2 on every
   Go platform, the rest is a parameter. *)
Record osconsts := mkOs { os_append : Z; os_create : Z; os_excl : Z; os_trunc : Z; os_sync : Z }.
Definition linux_amd64 : osconsts := mkOs 0x400 0x40 0x80 0x200 0x101000.
Definition os_wronly : Z := 1.
Definition os_rdwr : Z := 2.
Definition os_mode_mask : Z := 3.

(* flags.go:68-96 OSFlagsToIOFlags *)
Definition os_flags_to_io (os : osconsts) (flags : Z) : Z :=
  let m := Z.land flags os_mode_mask in
  let io := if m =? os_wronly then O_WRONLY
            else if m =? os_rdwr then O_RDWR else O_RDONLY in
  let io := if has flags (os_append os) then Z.lor io O_APPEND else io in
  let io := if has flags (os_create os) then Z.lor io O_CREATE else io in
  let io := if has flags (os_excl os) then Z.lor io O_EXCL else io in
  let io := if has flags (os_trunc os) then Z.lor io O_TRUNC else io in
  let io := if has flags (os_sync os) then Z.lor io O_SYNC else io in
  io.

(** ** MountFlags, api.go:16-76 *)
Definition MountFlagsAllowRead : Z := 1.
Definition MountFlagsAllowWrite : Z := 2.
Definition MountFlagsAllowInsert : Z := 4.
Definition MountFlagsAllowDelete : Z := 8.
Definition MountFlagsAllowAdminister : Z := 16.
Definition MountFlagsPreserveTimestamps : Z := 32.
Definition MountFlagsCustomStart : Z := 64.
Definition MountFlagsMask : Z := MountFlagsCustomStart - 1.
Definition MountFlagsAllowAll : Z := 31.
Definition can_read (f : Z) : bool := has f MountFlagsAllowRead.
Definition can_write (f : Z) : bool := has f MountFlagsAllowWrite.
Definition can_delete (f : Z) : bool := has f MountFlagsAllowDelete.

(** ** os.FileMode and FileStat, api.go:456-471 *)
Definition ModeDir : Z := 2^31.
Definition ModeSymlink : Z := 2^27.
Definition ModeType : Z :=
  2^31 + 2^27 + 2^26 + 2^25 + 2^24 + 2^21 + 2^19.
Definition stat_is_dir (mode : Z) : bool := has mode ModeDir.
Definition stat_is_file (mode : Z) : bool := Z.land mode ModeType =? 0.
Definition stat_is_symlink (mode : Z) : bool := Z.land mode ModeType =? ModeSymlink.

(* driver.go:668-669 (Mkdir), 700-701 (MkdirAll): perm &^= ModeType; perm |= ModeDir *)
Definition mkdir_mode (perm : Z) : Z := Z.lor (Z.ldiff perm ModeType) ModeDir.
