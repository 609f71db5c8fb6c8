(** * DriverFile: model of the rest of driver/file.go, of driver.New and Getwd
    (driver/driver.go) and of driver/nopobject.go. *)
From Verif Require Import GoBase Errors Flags GoPath BlockCache BasicStream Driver.

(* driver.go:28-38 *)
Definition new_driver (mountFlags : Z) : drv := mkDrv mountFlags str_slash.
(* driver.go:797-801; the error is always nil *)
Definition getwd (d : drv) : list Z := cwd d.

(* path.Base (standard library): strip trailing slashes, then everything before the last
   slash; "" gives ".", only slashes give "/" *)
Fixpoint strip_slashes (rp : list Z) : list Z :=          (* on the reversed path *)
  match rp with c :: r => if c =? slash then strip_slashes r else rp | [] => [] end.
Definition path_base (p : list Z) : list Z :=
  match p with
  | [] => str_dot
  | _ =>
      let q := rev (strip_slashes (rev p)) in
      let e := snd (split_path q) in
      match e with [] => str_slash | _ => e end
  end.

(* file.go:18-77 FileInfo: the stat it was made with and the path of the handle *)
Record finfo := mkInfo { in_stat : fstat; in_path : list Z }.
Definition info_name (i : finfo) : list Z := path_base (in_path i).              (* file.go:55-57 *)
Definition info_mode (i : finfo) : Z := f_mode (in_stat i).                      (* file.go:34-36, 61-63 *)
Definition info_size (i : finfo) : Z := f_size (in_stat i).                      (* file.go:38-40 *)
Definition info_mtime (i : finfo) : Z := f_modified (in_stat i).                 (* file.go:45-47 *)
Definition info_is_dir (i : finfo) : bool := has (f_mode (in_stat i)) ModeDir.   (* file.go:65-67 *)
Definition info_sys (i : finfo) : fstat := in_stat i.                            (* file.go:49-51, 77-79 *)
(* driver/dirent.go:24-56 DirectoryEntry: the same for what ReadDir returns *)
Definition de_mode (e : dirent) : Z := f_mode (de_stat e).
Definition de_size (e : dirent) : Z := f_size (de_stat e).
Definition de_mtime (e : dirent) : Z := f_modified (de_stat e).
Definition de_is_dir (e : dirent) : bool := stat_is_dir (f_mode (de_stat e)).

Section File.
Context {F H : Type} (im : impl F H).
(* file.go:256-258 with 133-136: the stat taken when the file was opened *)
Definition fl_info (f : file H) : finfo := mkInfo (fl_stat f) (x_path (fl_obj f)).
(* file.go:166-168 *)
Definition fl_name (f : file H) : M F (list Z) := fun s =>
  if meth (fl_obj f) then Done s (h_name im (d_fs s) (x_h (fl_obj f))) else Crash s.
(* file.go:142-144; returns the new working directory of the owning driver *)
Definition fl_chdir (f : file H) : M F (list Z + kerr) := chdir_to im (fl_obj f).
(* file.go:146-160: like opt_call, but with ErrNotSupported *)
Definition opt_call_ns (x : xh H) (g : F -> H -> option (F * option kerr)) (ev : event) : M F (unit + kerr) := fun s =>
  if opt_meth x then
    match g (d_fs s) (x_h x) with
    | Some r => call_err r ev s
    | None => Done s (inr (K ErrNotSupported))
    end
  else Done s (inr (K ErrNotSupported)).
Definition fl_chmod (f : file H) (mode : Z) : M F (unit + kerr) :=
  opt_call_ns (fl_obj f) (fun fs h => option_map (fun g => g mode) (h_chmod im fs h)) (EvChmod (x_id (fl_obj f)) mode).
Definition fl_chown (f : file H) (uid gid : Z) : M F (unit + kerr) :=
  opt_call_ns (fl_obj f) (fun fs h => option_map (fun g => g uid gid) (h_chown im fs h)) (EvChown (x_id (fl_obj f)) uid gid).
(* file.go:74-76 of basicstream, promoted: Sync *)
Definition fl_sync (f : file H) : M F (file H * option kerr) := fun s =>
  match s_sync (obj_callbacks im (fl_obj f)) s (fl_stream f) with
  | Ret (s', stm, e) => Done s' (with_stream f stm, e)
  | Panic => Crash s
  | OutOfFuel => Spin s
  end.
Definition fl_seek (f : file H) (off whence : Z) : file H * Z * option kerr :=
  let '(stm, p, e) := s_seek (fl_stream f) off whence in (with_stream f stm, p, e).
Definition fl_read_at (f : file H) (buffer : list Z) (off : Z) : M F (file H * list Z * Z * option kerr) := fun s =>
  match s_read_at (obj_callbacks im (fl_obj f)) s (fl_stream f) buffer off with
  | Ret (s', stm, b, n, e) => Done s' (with_stream f stm, b, n, e)
  | Panic => Crash s
  | OutOfFuel => Spin s
  end.
Definition fl_write_at (f : file H) (b : list Z) (off : Z) : M F (file H * Z * option kerr) := fun s =>
  match s_write_at (obj_callbacks im (fl_obj f)) s (fl_stream f) b off with
  | Ret (s', stm, n, e) => Done s' (with_stream f stm, n, e)
  | Panic => Crash s
  | OutOfFuel => Spin s
  end.
End File.

(** ** nopobject.go *)
Definition zero_fstat : fstat := mkFstat 0 0 0 0 0 0 0 0 0 0 0 0 0 0 0.
(* the methods of ObjectHandle and of the optional interfaces, and AbsolutePath *)
Inductive nop_call :=
| NStat | NResize (n : Z) | NReadBlocks (i : Z) (b : list Z) | NWriteBlocks (i : Z) (b : list Z) | NZeroOut (i n : Z)
| NUnlink | NChmod (m : Z) | NChown (u g : Z) | NChtimes (ts : list Z) | NListDir | NName | NAbsolutePath
| NSameAs | NClose.
Inductive nop_res := NRStat (st : fstat) | NRErr (e : kerr) | NRNames (l : list (list Z)) (e : kerr) | NRStr (s : list Z).
(* nopobject.go:14-89.  SameAs and Close are promoted from the embedded interface, which
   is nil in the zero value: calling them panics. *)
Definition nop (c : nop_call) : outcome nop_res :=
  match c with
  | NStat => Ret (NRStat zero_fstat)
  | NResize _ | NReadBlocks _ _ | NWriteBlocks _ _ | NZeroOut _ _ | NUnlink | NChmod _ | NChown _ _ | NChtimes _ =>
      Ret (NRErr (K ErrNotImplemented))
  | NListDir => Ret (NRNames [] (K ErrNotImplemented))
  | NName | NAbsolutePath => Ret (NRStr [])
  | NSameAs | NClose => Panic
  end.
