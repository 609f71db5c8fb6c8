(** * Fat8: model of file_systems/fat8.

    [uint] is 64 bits wide.  Memory is unlimited: make panics only for lengths beyond the
    range of int.  Errors made by fmt.Errorf are numbered [KExt] values. *)
From Verif Require Import GoBase Errors Flags GoPath OsFile.

Definition err_bad_blocks : kerr := KExt 10.       (* common.go:54 *)
Definition err_read_past_end : kerr := KExt 11.    (* iobase.go:14 *)
Definition err_bad_cluster : kerr := KExt 12.      (* iobase.go:61-66 *)
Definition err_wrong_size : kerr := KExt 13.       (* iobase.go:85 *)
Definition err_cluster_index : kerr := KExt 14.    (* iobase.go:140, 156 *)

(* common.go:11-30 *)
Record geometry := mkGeo {
  TotalTracks : Z; TrueTotalTracks : Z; TotalClusters : Z; SectorsPerTrack : Z; SectorsPerFAT : Z;
  SectorsPerCluster : Z; BytesPerCluster : Z; DirectoryTrackNumber : Z;
  DirectoryTrackStart : Z; InfoSectorStart : Z; FATsStart : Z }.
Definition zero_geo : geometry := mkGeo 0 0 0 0 0 0 0 0 0 0 0.

(* common.go:58-82 *)
Definition finish_geometry (tracks trueTracks spt dirTrack : Z) : geometry :=
  let clusters := u64 (tracks * 2) in
  let spc := spt / 2 in
  let spf := u64 (clusters + u64 (- clusters) mod 128) / 128 in
  let dirStart := u64 (u64 (dirTrack - 1) * spt) in
  let fats := u64 (u64 (dirStart + spt) - u64 (spf * 3)) in
  mkGeo tracks trueTracks clusters spt spf spc (u64 (spc * 128)) dirTrack dirStart (u64 (fats - 1)) fats.
(* common.go:32-85 *)
Definition get_geometry (totalBlocks : Z) : geometry + kerr :=
  if totalBlocks =? 640 then inl (finish_geometry 40 40 16 18)
  else if totalBlocks =? 1898 then inl (finish_geometry 73 73 26 35)
  else if totalBlocks =? 2002 then inl (finish_geometry 73 77 26 35)
  else inr err_bad_blocks.

(** ** Names, common.go:87-143, for strings of ASCII characters *)
(* strings.ToUpper *)
Definition upper (c : Z) : Z := if (97 <=? c) && (c <=? 122) then c - 32 else c.
Definition to_upper (s : list Z) : list Z := map upper s.
(* strings.SplitN(name, ".", 2): the first part, and the second if there is a period *)
Fixpoint split_dot (s : list Z) : list Z * option (list Z) :=
  match s with
  | [] => ([], None)
  | c :: s' => if c =? dot then ([], Some s') else let '(a, b) := split_dot s' in (c :: a, b)
  end.
(* fmt.Sprintf("%-ns", s) *)
Definition pad_right (n : Z) (s : list Z) : list Z := s ++ zrepeat 32 (n - zlen s).
(* bytes.TrimRight(s, " ") *)
Fixpoint trim_left (s : list Z) : list Z :=
  match s with 32 :: s' => trim_left s' | _ => s end.
Definition trim_right (s : list Z) : list Z := rev (trim_left (rev s)).

(* common.go:90-127 *)
Definition filename_to_bytes (name : list Z) : list Z + kerr :=
  match name with
  | [] => inr (K ErrInvalidArgument)
  | _ =>
      let '(stem, second) := split_dot name in
      if zlen stem >? 6 then inr (K ErrNameTooLong)
      else
        match second with
        | Some ext =>
            if zlen ext =? 0 then inl (to_upper (pad_right 6 stem ++ pad_right 3 [dot]))
            else if zlen ext >? 3 then inr (K ErrNameTooLong)
            else inl (to_upper (pad_right 6 stem ++ pad_right 3 ext))
        | None => inl (to_upper (pad_right 9 stem))
        end
  end.
(* common.go:132-143; rawName[:6] panics for fewer than six bytes *)
Definition bytes_to_filename (raw : list Z) : outcome (list Z) :=
  if zlen raw <? 6 then Panic
  else
    let stem := trim_right (slice 0 6 raw) in
    let ext := trim_right (slice 6 (zlen raw - 6) raw) in
    Ret (to_upper (if zlen ext >? 0 then stem ++ dot :: ext else stem)).

(** ** The driver *)
(* driver.go:15-25; the flags other than IsBinary are not consulted anywhere *)
Record dirent8 := mkDe8 { d_clusters : list Z; d_index : Z; d_binary : bool; d_unused : Z }.
(* api.go:474-511, the fields set here *)
Record fsstat := mkFs { BlockSize : Z; TotalBlocks : Z; BlocksFree : Z; BlocksAvailable : Z; Files : Z; FilesFree : Z; MaxNameLength : Z }.
Definition zero_stat : fsstat := mkFs 0 0 0 0 0 0 0.
(* driver.go:28-44 *)
Record driver8 := mkD8 {
  geo : geometry; dflags : Z; st8 : fsstat; freeClusters : list Z; fat : list Z;
  isMounted : bool; dirents : list (list Z * dirent8) }.
(* driver.go:46-48 *)
Definition new_driver : driver8 := mkD8 zero_geo 0 zero_stat [] [] false [].

(* iobase.go:12-28 *)
Definition read_blocks (d : driver8) (f : osfile) (start count : Z) : outcome (osfile * (list Z + kerr)) :=
  if u64 (start + count) >=? TotalBlocks (st8 d) then Ret (f, inr err_read_past_end)
  else if u64 (128 * count) >? maxint then Panic
  else Ret (f_read_at f (i64 (i64 start * 128)) (u64 (128 * count))).
(* iobase.go:30-51 *)
Definition write_blocks (d : driver8) (f : osfile) (start : Z) (data : list Z) : osfile * option kerr :=
  if negb (Z.rem (zlen data) 128 =? 0) then (f, Some (K ErrIOFailed))
  else if u64 (start + Z.quot (zlen data) 128) >? TotalBlocks (st8 d) then (f, Some (K ErrIOFailed))
  else f_write_at f (i64 (i64 start * 128)) data.
(* iobase.go:57-59 *)
Definition valid_cluster (d : driver8) (c : Z) : bool := (c >=? 1) && (c <=? TotalClusters (geo d)).
(* iobase.go:70-76 *)
Definition read_cluster (d : driver8) (f : osfile) (c : Z) : outcome (osfile * (list Z + kerr)) :=
  if negb (valid_cluster d c) then Ret (f, inr err_bad_cluster)
  else read_blocks d f (u64 (u64 (c - 1) * SectorsPerCluster (geo d))) (SectorsPerCluster (geo d)).
(* iobase.go:80-93 *)
Definition write_cluster (d : driver8) (f : osfile) (c : Z) (data : list Z) : osfile * option kerr :=
  if negb (valid_cluster d c) then (f, Some err_bad_cluster)
  else if negb (zlen data =? i64 (BytesPerCluster (geo d))) then (f, Some err_wrong_size)
  else write_blocks d f (u64 (u64 (c - 1) * SectorsPerTrack (geo d))) data.

Definition rbind {A} (m : outcome (osfile * (list Z + kerr))) (k : osfile -> list Z -> outcome (osfile * (A + kerr)))
  : outcome (osfile * (A + kerr)) :=
  match m with
  | Ret (f, inl b) => k f b
  | Ret (f, inr e) => Ret (f, inr e)
  | Panic => Panic
  | OutOfFuel => OutOfFuel
  end.
(* iobase.go:95-128 *)
Definition get_fat (d : driver8) (f : osfile) : outcome (osfile * (list Z + kerr)) :=
  let g := geo d in
  rbind (read_blocks d f (FATsStart g) (SectorsPerFAT g)) (fun f1 fat1 =>
  rbind (read_blocks d f1 (u64 (FATsStart g + SectorsPerFAT g)) (SectorsPerFAT g)) (fun f2 fat2 =>
  rbind (read_blocks d f2 (u64 (FATsStart g + u64 (2 * SectorsPerFAT g))) (SectorsPerFAT g)) (fun f3 fat3 =>
  if negb (beqb fat1 fat2) then Ret (f3, inr (K ErrFileSystemCorrupted))
  else if negb (beqb fat1 fat3) then Ret (f3, inr (K ErrFileSystemCorrupted))
  else Ret (f3, inl fat1)))).
(* iobase.go:130-132 *)
Definition write_fat (d : driver8) (f : osfile) : osfile * option kerr :=
  write_blocks d f (FATsStart (geo d)) (fat d ++ fat d ++ fat d).
(* iobase.go:136-150; the index panics only if it is negative as an int *)
Definition read_file_cluster (d : driver8) (f : osfile) (de : dirent8) (cluster : Z) : outcome (osfile * (list Z + kerr)) :=
  if i64 cluster >=? zlen (d_clusters de) then Ret (f, inr err_cluster_index)
  else if i64 cluster <? 0 then Panic
  else
    let c := znth 0 (d_clusters de) cluster in
    read_blocks d f (u64 (c * SectorsPerCluster (geo d))) (SectorsPerCluster (geo d)).
(* iobase.go:152-165 *)
Definition write_file_cluster (d : driver8) (f : osfile) (de : dirent8) (cluster : Z) (data : list Z) : outcome (osfile * option kerr) :=
  if i64 cluster >=? zlen (d_clusters de) then Ret (f, Some err_cluster_index)
  else if i64 cluster <? 0 then Panic
  else Ret (write_cluster d f (znth 0 (d_clusters de) cluster) data).

(* driver.go:80-84 *)
Fixpoint free_from (i : Z) (fat : list Z) : list Z :=
  match fat with
  | [] => []
  | c :: rest => if c =? 255 then u8 (i + 1) :: free_from (i + 1) rest else free_from (i + 1) rest
  end.
Definition with_geo (d : driver8) (g : geometry) : driver8 := mkD8 g (dflags d) (st8 d) (freeClusters d) (fat d) (isMounted d) (dirents d).
(* driver.go:53-96 *)
Definition mount8 (d : driver8) (f : osfile) : outcome (driver8 * osfile * option kerr) :=
  if isMounted d then Ret (d, f, Some (K ErrAlreadyInProgress))
  else
    match f_size_of f with
    | (f1, inr e) => Ret (d, f1, Some e)
    | (f1, inl offset) =>
        match get_geometry (u64 offset / 128) with
        | inr e => Ret (d, f1, Some (KWrap ErrFileSystemCorrupted e))
        | inl g =>
            let d1 := with_geo d g in
            match get_fat d1 f1 with
            | Ret (f2, inr e) => Ret (d1, f2, Some e)
            | Ret (f2, inl ft) =>
                let d2 := mkD8 g (dflags d1) (st8 d1) (freeClusters d1 ++ free_from 0 ft) ft false (dirents d1) in
                match read_blocks d2 f2 (InfoSectorStart g) 1 with
                | Ret (f3, inr e) => Ret (d2, f3, Some e)
                | Ret (f3, inl info) =>
                    match info with
                    | [] => Panic
                    | b :: _ => Ret (mkD8 g b (st8 d2) (freeClusters d2) ft true (dirents d2), f3, None)
                    end
                | Panic => Panic
                | OutOfFuel => OutOfFuel
                end
            | Panic => Panic
            | OutOfFuel => OutOfFuel
            end
        end
    end.
(* driver.go:99-101 *)
Definition flush8 (d : driver8) (f : osfile) : osfile * option kerr := write_fat d f.
(* driver.go:104-107 *)
Definition unmount8 (d : driver8) : driver8 := mkD8 (geo d) (dflags d) (st8 d) (freeClusters d) (fat d) false (dirents d).

(** ** FormatImage, formattingdriver.go:16-96 *)
(* lines 69-74; [n] is the number of sectors left *)
Fixpoint fill_sectors (d : driver8) (f : osfile) (i : Z) (n : nat) : osfile * option kerr :=
  match n with
  | O => (f, None)
  | S n' =>
      match write_blocks d f i (zrepeat 255 128) with
      | (f1, Some e) => (f1, Some e)
      | (f1, None) => fill_sectors d f1 (i + 1) n'
      end
  end.
(* [size] is options.TotalSizeBytes() *)
Definition format8 (d : driver8) (f : osfile) (size : Z) : outcome (driver8 * osfile * option kerr) :=
  if isMounted d then Ret (d, f, Some (K ErrBusy))
  else if negb (Z.rem size 128 =? 0) then Ret (d, f, Some (K ErrInvalidArgument))
  else
    let totalBlocks := u64 size / 128 in
    match get_geometry totalBlocks with
    | inr e => Ret (d, f, Some e)
    | inl g =>
        let available := u64 (u64 (TotalTracks g - 1) * SectorsPerTrack g) in
        let direntSectors := u64 (u64 (SectorsPerTrack g - 1) - u64 (SectorsPerFAT g * 3)) in
        let totalDirents := u64 (direntSectors * 8) in
        let d1 := mkD8 g (dflags d) (mkFs 128 totalBlocks available available 0 totalDirents 10)
                    (freeClusters d) (fat d) (isMounted d) (dirents d) in
        let fileSize := u64 (u64 (128 * TrueTotalTracks g) * SectorsPerTrack g) in
        let '(f1, _) := f_truncate f (i64 fileSize) in
        match fill_sectors d1 f1 (DirectoryTrackStart g) (Z.to_nat (InfoSectorStart g - DirectoryTrackStart g)) with
        | (f2, Some e) => Ret (d1, f2, Some e)
        | (f2, None) =>
            match write_blocks d1 f2 (InfoSectorStart g) (zrepeat 0 128) with
            | (f3, Some e) => Ret (d1, f3, Some e)
            | (f3, None) =>
                let ft := zrepeat 255 (SectorsPerFAT g * 128) in
                let n := DirectoryTrackStart g / SectorsPerTrack g in
                if zlen ft <=? n + 1 then Panic
                else
                  let ft1 := splice (n + 1) [254] (splice n [254] ft) in
                  let '(f4, e) := write_blocks d1 f3 (FATsStart g) (ft1 ++ ft1 ++ ft1) in
                  Ret (d1, f4, e)
            end
        end
    end.

(** ** Stat, readingdriver.go:22-62, for ASCII paths *)
(* api.go:438-454, the fields set here; the others are zero *)
Record stat8 := mkSt8 { s_inode : Z; s_nlinks : Z; s_mode : Z; s_size : Z; s_bsize : Z; s_nblocks : Z }.
Fixpoint find_dirent (n : list Z) (l : list (list Z * dirent8)) : option dirent8 :=
  match l with
  | [] => None
  | (k, v) :: l' => if beqb k n then Some v else find_dirent n l'
  end.
(* strings.TrimPrefix(s, "/") *)
Definition trim_slash (s : list Z) : list Z := match s with c :: s' => if c =? slash then s' else s | [] => [] end.
Definition stat_file (d : driver8) (path : list Z) : stat8 + kerr :=
  match find_dirent (trim_slash (to_upper path)) (dirents d) with
  | None => inr (K ErrNotFound)
  | Some info =>
      let used := u64 (zlen (d_clusters info) * SectorsPerCluster (geo d)) in
      let total := u64 (used - d_unused info) in
      if d_binary info then
        inl (mkSt8 (d_index info) 1 511 (i64 (i64 total * 128)) 128 (i64 (u64 (used - d_unused info))))
      else inr (K ErrNotImplemented)
  end.
(* driver.go:110-112 *)
Definition fs_stat (d : driver8) : fsstat := st8 d.
