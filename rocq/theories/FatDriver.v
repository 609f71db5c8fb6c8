(** * FatDriver: model of file_systems/fat/driverbase.go. *)
From Coq Require Import String.
From Verif Require Import GoBase ListZ Errors Flags GoPath Spec_Path BlockCache BasicStream Driver FatBoot FatDirent.

(* driverbase.go:17-29 FATDriverCommon (the methods this code calls), and the ReaderAt behind
   FATDriver.diskFile.  F is the state of implementation and device; every call may fail.
   fi_read_at off n: the buffer of n bytes afterwards, the count returned and the error. *)
Record fatimpl (F : Type) := mkFat {
  fi_boot : F -> boot;
  fi_get : F -> Z -> F * (Z + kerr);                        (* GetClusterAtIndex *)
  fi_valid : F -> Z -> bool;                                (* IsValidCluster *)
  fi_eoc : F -> Z -> bool;                                  (* IsEndOfChain *)
  fi_root : F -> F * (list dirent + kerr);                  (* ListRootDirectory *)
  fi_free : F -> Z -> F * option kerr;                      (* FreeCluster *)
  fi_update : F -> dirent -> F * option kerr;               (* UpdateDirent *)
  fi_delete : F -> dirent -> dirent -> F * option kerr;     (* DeleteDirent *)
  fi_read_at : F -> Z -> Z -> F * (list Z * Z * option kerr) }.
Arguments mkFat {F}. Arguments fi_boot {F}. Arguments fi_get {F}. Arguments fi_valid {F}. Arguments fi_eoc {F}. Arguments fi_root {F}.
Arguments fi_free {F}. Arguments fi_update {F}. Arguments fi_delete {F}. Arguments fi_read_at {F}.

(* the calls that change something, and device reads *)
Inductive fev := FvFree (c : Z) | FvUpdate (d : dirent) | FvDelete (d parent : dirent) | FvReadAt (off n : Z).
Record fstate (F : Type) := mkFs { x_fs : F; x_log : list fev }.
Arguments mkFs {F}. Arguments x_fs {F}. Arguments x_log {F}.
Inductive fres (F A : Type) := FDone (s : fstate F) (a : A) | FCrash (s : fstate F) | FSpin (s : fstate F).
Arguments FDone {F A}. Arguments FCrash {F A}. Arguments FSpin {F A}.
Definition FM (F A : Type) := fstate F -> fres F A.
Definition fret {F A} (a : A) : FM F A := fun s => FDone s a.
Definition fbind {F A B} (m : FM F A) (k : A -> FM F B) : FM F B := fun s =>
  match m s with FDone s' a => k a s' | FCrash s' => FCrash s' | FSpin s' => FSpin s' end.
(* if err != nil { return err } *)
Definition ftry {F A B} (m : FM F (A + kerr)) (k : A -> FM F (B + kerr)) : FM F (B + kerr) :=
  fbind m (fun r => match r with inl a => k a | inr e => fret (inr e) end).
Definition fspin {F A} : FM F A := fun s => FSpin s.
Definition fcrash {F A} : FM F A := fun s => FCrash s.
Definition lift {F A} (o : outcome A) : FM F A := match o with Ret a => fret a | Panic => fcrash | OutOfFuel => fspin end.
Declare Scope fat_scope.
Notation "x <~ m ;; k" := (fbind m (fun x => k)) (at level 61, m at next level, right associativity) : fat_scope.
Notation "x <~? m ;; k" := (ftry m (fun x => k)) (at level 61, m at next level, right associativity) : fat_scope.
Local Open Scope fat_scope.

Section Code.
Context {F : Type} (fi : fatimpl F).
(* [rep = false]: the code.  [rep = true]: time.UTC instead of nil and a lenient NewRawDirentFromBytes (FatDirent.v) *)
Variable rep : bool.

Definition pureF {A} (f : F -> A) : FM F A := fun s => FDone s (f (x_fs s)).
Definition get_cluster (c : Z) : FM F (Z + kerr) := fun s =>
  let '(fs, r) := fi_get fi (x_fs s) c in FDone (mkFs fs (x_log s)) r.
Definition list_root : FM F (list dirent + kerr) := fun s =>
  let '(fs, r) := fi_root fi (x_fs s) in FDone (mkFs fs (x_log s)) r.
Definition call_ (e : fev) (g : F -> F * option kerr) : FM F (unit + kerr) := fun s =>
  let '(fs, r) := g (x_fs s) in FDone (mkFs fs (x_log s ++ [e])) (match r with None => inl tt | Some e => inr e end).
Definition free_cluster (c : Z) := call_ (FvFree c) (fun fs => fi_free fi fs c).
Definition update_dirent (d : dirent) := call_ (FvUpdate d) (fun fs => fi_update fi fs d).
Definition delete_dirent (d p : dirent) := call_ (FvDelete d p) (fun fs => fi_delete fi fs d p).

(* driverbase.go:36-40; SectorID and ClusterID are uint32 *)
Definition getFirstSectorOfCluster (b : boot) (c : Z) : Z :=
  u32 (FirstDataSector b + u32 (SectorsPerCluster (raw b) * c)).
(* driverbase.go:42-58; [KExt 0] stands for the fmt.Errorf of a short read *)
Definition readAbsoluteSectors (sector num : Z) : FM F (list Z + kerr) := fun s =>
  let b := fi_boot fi (x_fs s) in
  let bps := BytesPerSector (raw b) in
  let off := i64 (i64 (bps * sector) * num) in
  let '(fs, (buf, n, e)) := fi_read_at fi (x_fs s) off bps in
  FDone (mkFs fs (x_log s ++ [FvReadAt off bps]))
    (match e with Some e => inr e | None => if n <? bps then inr (KExt 0) else inl buf end).
(* driverbase.go:61-69 *)
Definition readCluster (c : Z) : FM F (list Z + kerr) := fun s =>
  let b := fi_boot fi (x_fs s) in readAbsoluteSectors (getFirstSectorOfCluster b c) (SectorsPerCluster (raw b)) s.

(* driverbase.go:75-111.  On corruption the clusters so far are returned with the error. *)
Fixpoint chain_loop (fuel : nat) (cur : Z) (chain : list Z) : FM F (list Z * option kerr) :=
  match fuel with
  | O => fspin
  | S f =>
      e <~ pureF (fun fs => fi_eoc fi fs cur) ;;
      if e then fret (chain, None)
      else
        r <~ get_cluster cur ;;
        match r with
        | inr e => fret ([], Some e)
        | inl next =>
            v <~ pureF (fun fs => fi_valid fi fs next) ;;
            if v then chain_loop f next (chain ++ [cur]) else fret (chain ++ [cur], Some (K ErrFileSystemCorrupted))
        end
  end.
Definition listClusters (fuel : nat) (start : Z) : FM F (list Z * option kerr) :=
  v <~ pureF (fun fs => fi_valid fi fs start) ;;
  if v then chain_loop fuel start [] else fret ([], Some (K ErrInvalidArgument)).

(* driverbase.go:116-148: [n] steps left *)
Fixpoint nth_loop (n : nat) (cur : Z) : FM F (Z + kerr) :=
  match n with
  | O => fret (inl cur)
  | S n' =>
      next <~? get_cluster cur ;;
      e <~ pureF (fun fs => fi_eoc fi fs next) ;;
      if e then fret (inr (K ErrInvalidArgument))
      else
        v <~ pureF (fun fs => fi_valid fi fs next) ;;
        if v then nth_loop n' next else fret (inr (K ErrFileSystemCorrupted))
  end.
Definition getClusterInChain (first : Z) (index : nat) : FM F (Z + kerr) := nth_loop index first.

(* driverbase.go:150-156 *)
Definition readClusterOfDirent (d : dirent) (index : nat) : FM F (list Z + kerr) :=
  c <~? getClusterInChain (de_first d) index ;; readCluster c.

(* driverbase.go:202-230 *)
Fixpoint read_dir_loop (fuel : nat) (d : dirent) (i : nat) (acc : list dirent) : FM F (list dirent + kerr) :=
  match fuel with
  | O => fspin
  | S f =>
      data <~? readClusterOfDirent d i ;;
      b <~ pureF (fi_boot fi) ;;
      ds <~? lift (clusterToDirentSlice rep rep b data) ;;
      if zlen ds <? DirentsPerCluster b then fret (inl (acc ++ ds)) else read_dir_loop f d (S i) (acc ++ ds)
  end.
Definition readDirFromDirent (fuel : nat) (d : dirent) : FM F (list dirent + kerr) :=
  if negb (de_is_dir d) then fret (inr (K ErrNotADirectory)) else read_dir_loop fuel d 0 [].

(* filepath.SplitList on Unix: strings.Split(path, ":"), no parts for the empty string *)
Fixpoint split_colon (l : list Z) : list (list Z) :=
  match l with
  | [] => [[]]
  | c :: l' => if c =? 58 then [] :: split_colon l' else match split_colon l' with p :: ps => (c :: p) :: ps | [] => [[c]] end
  end.
Definition SplitList (l : list Z) : list (list Z) := match l with [] => [] | _ => split_colon l end.

(* driverbase.go:184-194: the inner loop runs over the listing current when it began, even if
   currentDirContents is replaced meanwhile *)
Fixpoint match_entries (fuel : nat) (component : list Z) (entries : list dirent) (cur : dirent) (contents : list dirent) : FM F (dirent * list dirent + kerr) :=
  match entries with
  | [] => fret (inl (cur, contents))
  | entry :: rest =>
      if beqb (de_name entry) component then
        contents' <~? readDirFromDirent fuel entry ;; match_entries fuel component rest entry contents'
      else match_entries fuel component rest cur contents
  end.
Fixpoint match_parts (fuel : nat) (parts : list (list Z)) (cur : dirent) (contents : list dirent) : FM F (dirent + kerr) :=
  match parts with
  | [] => fret (inl cur)
  | p :: ps => r <~? match_entries fuel p contents cur contents ;; match_parts fuel ps (fst r) (snd r)
  end.
(* driverbase.go:165-198; filepath.Clean is path.Clean on Unix *)
Definition resolvePath (fuel : nat) (path : list Z) : FM F (dirent + kerr) :=
  match SplitList (clean path) with
  | [] => fret (inr (K ErrInvalidArgument))
  | parts =>
      r <~ list_root ;;
      match r with
      | inr _ => fret (inl zero_dirent)
      | inl contents => match_parts fuel parts zero_dirent contents
      end
  end.

(* driverbase.go:257-276; the result is the entries themselves *)
Definition Readdir (fuel : nat) (path : list Z) : FM F (list dirent + kerr) :=
  d <~? resolvePath fuel path ;;
  if negb (de_is_dir d) then fret (inr (K ErrNotADirectory)) else readDirFromDirent fuel d.

(* driverbase.go:301-326: concatenating the clusters; a slice clusterContents[:bytesRemaining] out of
   range panics *)
Fixpoint read_clusters (cs : list Z) (remaining : Z) (acc : list Z) : FM F (list Z + kerr) :=
  match cs with
  | [] => fret (inl acc)
  | c :: cs' =>
      data <~? readCluster c ;;
      b <~ pureF (fi_boot fi) ;;
      let bpc := i64 (BytesPerCluster b) in
      if remaining <? bpc then
        if (remaining <? 0) || (zlen data <? remaining) then fcrash
        else read_clusters cs' (i64 (remaining - bpc)) (acc ++ slice 0 remaining data)
      else read_clusters cs' (i64 (remaining - bpc)) (acc ++ data)
  end.
(* driverbase.go:287-329, from the directory entry on *)
Definition read_contents (fuel : nat) (d : dirent) : FM F (list Z + kerr) :=
  if de_is_dir d then fret (inr (K ErrIsADirectory)) else
  r <~ listClusters fuel (de_first d) ;;
  match snd r with
  | Some e => fret (inr e)
  | None => read_clusters (fst r) (de_size d) []
  end.
Definition ReadFile (fuel : nat) (path : list Z) : FM F (list Z + kerr) :=
  d <~? resolvePath fuel path ;; read_contents fuel d.

(* driverbase.go:332-347 *)
Definition Stat (fuel : nat) (path : list Z) : FM F (fstat + kerr) := d <~? resolvePath fuel path ;; fret (inl (de_stat d)).

(* driverbase.go:356-374; os.FileMode is 32 bit *)
Definition set_mode (d : dirent) (m : Z) : dirent :=
  let s := de_stat d in
  mkDe (de_name d) (de_attr d) (de_nt d) (de_first d) (de_deleted d) (de_size d) (de_mode d)
    (mkFstat (f_dev s) (f_ino s) (f_nlinks s) m (f_uid s) (f_gid s) (f_rdev s) (f_size s) (f_bsize s) (f_nblocks s)
       (f_created s) (f_changed s) (f_accessed s) (f_modified s) (f_deleted s)).
Definition writeBits : Z := 0x92.
Definition Chmod (fuel : nat) (path : list Z) (mode : Z) : FM F (unit + kerr) :=
  d <~? resolvePath fuel path ;;
  let m := f_mode (de_stat d) in
  update_dirent (set_mode d (if Z.land mode writeBits =? 0 then Z.ldiff m writeBits else Z.lor m writeBits)).

(* driverbase.go:382-391 *)
Definition Chtimes (epoch : Z) (fuel : nat) (path : list Z) (atime mtime : Z) : FM F (unit + kerr) :=
  d <~? resolvePath fuel path ;;
  let d := fst (SetLastAccessedAt epoch atime d) in
  let d := fst (SetLastModifiedAt epoch mtime d) in
  update_dirent d.

(* filepath.Dir: path.Clean of everything up to the last slash *)
Definition dir_of (path : list Z) : list Z := clean (fst (split_path path)).

(* driverbase.go:442-447: FreeCluster(i) for i = n-1, ..., 0 *)
Fixpoint free_loop (n : nat) : FM F (unit + kerr) :=
  match n with
  | O => fret (inl tt)
  | S i => _ <~? free_cluster (u32 (Z.of_nat i)) ;; free_loop i
  end.
(* driverbase.go:409-450 *)
Definition Remove (fuel : nat) (path : list Z) : FM F (unit + kerr) :=
  d <~? resolvePath fuel path ;;
  if de_is_dir d then fret (inr (K ErrIsADirectory)) else
  p <~? resolvePath fuel (dir_of path) ;;
  _ <~? delete_dirent d p ;;
  r <~ listClusters fuel (de_first d) ;;
  match snd r with
  | Some e => fret (inr e)
  | None => free_loop (length (fst r))
  end.
End Code.
