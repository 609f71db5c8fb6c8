(** * FatDirent: model of file_systems/fat/dirent.go, and of the parts of Go's time package it uses. *)
From Coq Require Import String.
From Verif Require Import GoBase ListZ Errors Flags GoPath Spec_Path BlockCache BasicStream Driver FatBoot.

(** ** package time.  An instant is the number of nanoseconds since 0001-01-01 00:00:00 UTC; the
    zero time.Time is instant 0. *)
Definition secondNs : Z := 10^9.
Definition dayNs : Z := 86400 * secondNs.
(* time.go daysBefore: days before month m+1 (m = 0..12) in a common year *)
Definition daysBefore (m : Z) : Z := znth 0 [0; 31; 59; 90; 120; 151; 181; 212; 243; 273; 304; 334; 365] m.
Definition isLeap (y : Z) : bool := (y mod 4 =? 0) && (negb (y mod 100 =? 0) || (y mod 400 =? 0)).
(* days from 0001-01-01 to the first of January of year y (time.go daysSinceEpoch counts them by
   cycles of 400, 100, 4 and 1 years; this is the closed form) *)
Definition daysBeforeYear (y : Z) : Z := 365 * (y - 1) + (y - 1) / 4 - (y - 1) / 100 + (y - 1) / 400.
(* time.Date in UTC: every argument may be out of its range and is carried over *)
Definition time_date (year month day hour min sec nsec : Z) : Z :=
  let m := month - 1 in
  let y := year + m / 12 in
  let m := m mod 12 in
  let d := daysBeforeYear y + daysBefore m + (if isLeap y && (m >=? 2) then 1 else 0) + (day - 1) in
  (((d * 24 + hour) * 60 + min) * 60 + sec) * secondNs + nsec.
(* time.go absDate: year, month, day of day number d *)
Definition abs_date (d : Z) : Z * Z * Z :=
  let n := d / 146097 in let y := 400 * n in let d := d - 146097 * n in
  let n := d / 36524 in let n := n - n / 4 in let y := y + 100 * n in let d := d - 36524 * n in
  let n := d / 1461 in let y := y + 4 * n in let d := d - 1461 * n in
  let n := d / 365 in let n := n - n / 4 in let y := y + n in let d := d - 365 * n in
  let year := y + 1 in
  let day := d in
  if isLeap year && (day =? 59) then (year, 2, 29) else
  let day := if isLeap year && (day >? 59) then day - 1 else day in
  let month := day / 31 in
  let end_ := daysBefore (month + 1) in
  if day >=? end_ then (year, month + 2, day - end_ + 1) else (year, month + 1, day - daysBefore month + 1).
Definition t_year (t : Z) : Z := let '(y, _, _) := abs_date (t / dayNs) in y.
Definition t_month (t : Z) : Z := let '(_, m, _) := abs_date (t / dayNs) in m.
Definition t_day (t : Z) : Z := let '(_, _, d) := abs_date (t / dayNs) in d.
Definition t_hour (t : Z) : Z := t mod dayNs / (3600 * secondNs).
Definition t_minute (t : Z) : Z := t mod (3600 * secondNs) / (60 * secondNs).
Definition t_second (t : Z) : Z := t mod (60 * secondNs) / secondNs.
Definition t_nanosecond (t : Z) : Z := t mod secondNs.

(** ** dirent.go *)
(* dirent.go:17-61 *)
Definition AttrReadOnly : Z := 1.
Definition AttrDirectory : Z := 16.
Definition AttrDevice : Z := 64.

(* dirent.go:173-179.  The code passes nil for the location ([loc = false]), for which time.Date panics;
   [loc = true] is the code with time.UTC instead. *)
Definition DateFromInt (loc : bool) (value : Z) : outcome Z :=
  let createDay := Z.land value 0x1f in
  let createMonth := Z.land (Z.shiftr value 5) 0xf in
  let createYear := u16 (1980 + Z.shiftr value 9) in
  if loc then Ret (time_date createYear createMonth createDay 0 0 0 0) else Panic.

(* dirent.go:184-200; timePart is a uint16, hundredths a uint8 *)
Definition TimestampFromParts (loc : bool) (datePart timePart hundredths : Z) : outcome Z :=
  obind (DateFromInt loc datePart) (fun dateDt =>
    let seconds := u16 (Z.land timePart 0x1f * 2) in
    let '(seconds, hundredths) := if hundredths >=? 100 then (seconds + 1, u8 (hundredths - 100)) else (seconds, hundredths) in
    let minutes := Z.land (Z.shiftr timePart 5) 0x3f in
    let hours := Z.shiftr timePart 11 in
    let nanoseconds := u16 (timePart * 10000) in
    if loc then Ret (time_date (t_year dateDt) (t_month dateDt) (t_day dateDt) hours minutes seconds nanoseconds) else Panic).

(* dirent.go:203-223; syscall.S_IFDIR, S_IFCHR, S_IFREG on Linux *)
Definition AttrFlagsToFileMode (flags : Z) : Z :=
  let mode := if negb (Z.land flags AttrReadOnly =? 0) then 0x1ed else 0x1ff in
  if negb (Z.land flags AttrDirectory =? 0) then Z.lor mode 0x4000
  else if negb (Z.land flags AttrDevice =? 0) then Z.lor mode 0x2000
  else Z.lor mode 0x8000.

(* dirent.go:65-79 *)
Record raw_dirent := mkRawDirent {
  r_name : list Z; r_ext : list Z; r_attr : Z; r_nt : Z; r_cmillis : Z; r_ctime : Z; r_cdate : Z; r_adate : Z;
  r_high : Z; r_mtime : Z; r_mdate : Z; r_low : Z; r_size : Z }.

(* dirent.go:227-245.  Uint32 of the three bytes data[29:32] panics; with [lenient = true] these three
   bytes are taken as a number instead.  Slices shorter than 32 bytes: panic (some of the slice
   expressions could reach beyond len(data) up to cap(data); simplified). *)
Definition new_raw_dirent (lenient : bool) (data : list Z) : outcome raw_dirent :=
  if zlen data <? 32 then Panic
  else if negb lenient then Panic
  else Ret (mkRawDirent (slice 0 8 data) (slice 8 3 data) (znth 0 data 12) (znth 0 data 13) (znth 0 data 14)
    (le16 data 15) (le16 data 17) (le16 data 19) (le16 data 21) (le16 data 23) (le16 data 25) (le16 data 27)
    (le16 data 29 + 2^16 * znth 0 data 31)).

(* dirent.go:83-94; the embedded interfaces are nil and not modelled.  The FileStat is the one of Driver.v. *)
Record dirent := mkDe {
  de_name : list Z; de_attr : Z; de_nt : Z; de_first : Z; de_deleted : bool; de_size : Z; de_mode : Z; de_stat : fstat }.
Definition zero_stat : fstat := mkFstat 0 0 0 0 0 0 0 0 0 0 0 0 0 0 0.
Definition zero_dirent : dirent := mkDe [] 0 0 0 false 0 0 zero_stat.

(* dirent.go:96-166.  [epoch] is fatEpoch, 1980-01-01 00:00:00 local time *)
Definition set_times (d : dirent) (deleted : bool) (created accessed modified del : Z) : dirent :=
  let s := de_stat d in
  mkDe (de_name d) (de_attr d) (de_nt d) (de_first d) deleted (de_size d) (de_mode d)
    (mkFstat (f_dev s) (f_ino s) (f_nlinks s) (f_mode s) (f_uid s) (f_gid s) (f_rdev s) (f_size s) (f_bsize s) (f_nblocks s)
       created (f_changed s) accessed modified del).
Definition GetLastAccessedAt (d : dirent) : Z := f_accessed (de_stat d).
Definition SetLastAccessedAt (epoch : Z) (t : Z) (d : dirent) : dirent * option kerr :=
  if t <? epoch then (d, Some (K ErrArgumentOutOfRange))
  else (set_times d (de_deleted d) (f_created (de_stat d)) t (f_modified (de_stat d)) (f_deleted (de_stat d)), None).
Definition GetLastModifiedAt (d : dirent) : Z := f_modified (de_stat d).
Definition SetLastModifiedAt (epoch : Z) (t : Z) (d : dirent) : dirent * option kerr :=
  if t <? epoch then (d, Some (K ErrArgumentOutOfRange))
  else (set_times d (de_deleted d) (f_created (de_stat d)) (f_accessed (de_stat d)) t (f_deleted (de_stat d)), None).
Definition GetCreatedAt (d : dirent) : Z * option kerr :=
  if de_deleted d then (0, Some (K ErrNotFound)) else (f_created (de_stat d), None).
Definition SetCreatedAt (epoch : Z) (t : Z) (d : dirent) : dirent * option kerr :=
  if t <? epoch then (d, Some (K ErrArgumentOutOfRange))
  else if de_deleted d then (d, Some (K ErrNotFound))
  else (set_times d (de_deleted d) t (f_accessed (de_stat d)) (f_modified (de_stat d)) (f_deleted (de_stat d)), None).
Definition GetDeletedAt (d : dirent) : Z * option kerr :=
  if negb (de_deleted d) then (0, Some (K ErrInvalidArgument)) else (f_deleted (de_stat d), None).
Definition SetDeletedAt (epoch : Z) (t : Z) (d : dirent) : dirent * option kerr :=
  if t <? epoch then (d, Some (K ErrArgumentOutOfRange))
  else SetCreatedAt epoch t (set_times d true (f_created (de_stat d)) (f_accessed (de_stat d)) (f_modified (de_stat d)) (f_deleted (de_stat d))).

(* os.FileMode.IsDir: io/fs ModeDir; dirent.go:377-385 *)
Definition de_is_dir (d : dirent) : bool := negb (Z.land (de_mode d) ModeDir =? 0).
(* dirent.go:387 Sys() returns the FileStat *)
Inductive sysval := SysStat (s : fstat) | SysDirent (d : dirent) | SysOther.
Definition Sys (d : dirent) : sysval := SysStat (de_stat d).
(* driverbase.go:247-252; the two type assertions panic unless Sys() returned a Dirent *)
Definition SameFile (a b : sysval) : outcome bool :=
  match a, b with SysDirent x, SysDirent y => Ret (de_first x =? de_first y) | _, _ => Panic end.

(* strings.TrimRight(s, " ") *)
Fixpoint trim_right (l : list Z) : list Z :=
  match l with
  | [] => []
  | c :: l' => match trim_right l' with [] => if c =? 32 then [] else [c] | r => c :: r end
  end.

(* dirent.go:253-326; time.Unix(0,0) is 1970-01-01 *)
Definition unixZero : Z := time_date 1970 1 1 0 0 0 0.
Definition new_dirent (loc : bool) (bpc : Z) (r : raw_dirent) : outcome (dirent + kerr) :=
  obind (TimestampFromParts loc (r_mdate r) (r_mtime r) 0) (fun lastModified =>
  let size := r_size r in
  if i64 bpc =? 0 then Panic else
  let sizeInClusters := Z.quot size (i64 bpc) + (if negb (Z.rem size (i64 bpc) =? 0) then 1 else 0) in
  let mode := AttrFlagsToFileMode (r_attr r) in
  let firstCluster := Z.lor (u32 (Z.shiftl (r_high r) 16)) (r_low r) in
  let isDeleted := znth 0 (r_name r) 0 =? 0xE5 in
  obind (if isDeleted then Ret unixZero else TimestampFromParts loc (r_cdate r) (r_ctime r) (r_cmillis r)) (fun createdAt =>
  obind (DateFromInt loc (r_adate r)) (fun lastAccessed =>
  let st := mkFstat 0 firstCluster 1 mode 0 0 0 size (i64 bpc) sizeInClusters createdAt 0 lastAccessed lastModified 0 in
  let trimmedExt := trim_right (r_ext r) in
  match trim_right (r_name r) with
  | [] => Panic
  | c :: rest =>
      if c =? 0 then Ret (inr (K ErrNotFound))
      else
        let c := if c =? 0xE5 then r_cmillis r else if c =? 0x05 then 0xE5 else c in
        let name := if beqb trimmedExt [] then c :: rest else (c :: rest) ++ [dot] ++ trimmedExt in
        Ret (inl (mkDe name (r_attr r) (r_nt r) firstCluster isDeleted size mode st))
  end))).

(* dirent.go:328-360: [n] entries left, the first one at offset [off]; every error of NewDirentFromRaw
   is a DriverError *)
Fixpoint dirents_from (loc lenient : bool) (bpc : Z) (data : list Z) (off : Z) (n : nat) : outcome (list dirent + kerr) :=
  match n with
  | O => Ret (inl [])
  | S n' =>
      if zlen data <? off + 32 then Panic else
      obind (new_raw_dirent lenient (slice off 32 data)) (fun r =>
      obind (new_dirent loc bpc r) (fun d =>
      match d with
      | inr (K ErrNotFound) => Ret (inl [])
      | inr e => Ret (inr e)
      | inl d =>
          obind (dirents_from loc lenient bpc data (off + 32) n') (fun rest =>
          match rest with inl l => Ret (inl (d :: l)) | inr e => Ret (inr e) end)
      end))
  end.
Definition clusterToDirentSlice (loc lenient : bool) (b : boot) (data : list Z) : outcome (list dirent + kerr) :=
  dirents_from loc lenient (BytesPerCluster b) data 0 (Z.to_nat (DirentsPerCluster b)).
