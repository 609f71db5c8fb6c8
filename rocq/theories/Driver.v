(** * Driver: model of driver/driver.go, driver/fsobject.go, driver/file.go and
    driver/dirent.go.

    A file system implementation (api.go:80-141, 221-352) is any record [impl] over a
    state [F] and a type [H] of handles.  Its calls are assumed not to panic; Stat and
    Name do not change the state.  Every call the driver makes is recorded in a log. *)
From Verif Require Import GoBase Errors Flags GoPath BlockCache BasicStream.

(* api.go:438-454; times are numbers, 0 is UndefinedTimestamp *)
Record fstat := mkFstat {
  f_dev : Z; f_ino : Z; f_nlinks : Z; f_mode : Z; f_uid : Z; f_gid : Z; f_rdev : Z;
  f_size : Z; f_bsize : Z; f_nblocks : Z;
  f_created : Z; f_changed : Z; f_accessed : Z; f_modified : Z; f_deleted : Z }.
(* api.go:457-471 *)
Definition is_dir (st : fstat) : bool := stat_is_dir (f_mode st).
Definition is_file (st : fstat) : bool := stat_is_file (f_mode st).
Definition is_symlink (st : fstat) : bool := stat_is_symlink (f_mode st).

(* api.go:80-141 FileSystemImplementer, 156-173 HardLinkImplementer (optional),
   221-297 ObjectHandle, 301-352 the optional interfaces of handles ([None]: the handle
   does not have the method).  Only the features the driver consults are kept. *)
Record impl (F H : Type) := mkImpl {
  i_root : F -> F * H;
  i_get : F -> list Z -> H -> F * (H + kerr);
  i_create : F -> list Z -> H -> Z -> F * (H + kerr);
  i_link : option (F -> H -> H -> list Z -> F * (H + kerr));
  i_has_symlinks : bool;
  i_has_atime : bool;
  i_has_mtime : bool;
  h_stat : F -> H -> fstat;
  h_resize : F -> H -> Z -> F * option kerr;
  h_read : F -> H -> Z -> list Z -> F * list Z * option kerr;
  h_write : F -> H -> Z -> list Z -> F * option kerr;
  h_unlink : F -> H -> F * option kerr;
  h_name : F -> H -> list Z;
  h_same : F -> H -> H -> bool;
  h_close : F -> H -> F;
  h_listdir : F -> H -> option (F * (list (list Z) + kerr));
  h_chmod : F -> H -> option (Z -> F * option kerr);
  h_chown : F -> H -> option (Z -> Z -> F * option kerr);
  h_chtimes : F -> H -> option (list Z -> F * option kerr)
}.
Arguments i_root {F H}. Arguments i_get {F H}. Arguments i_create {F H}. Arguments i_link {F H}.
Arguments i_has_symlinks {F H}. Arguments i_has_atime {F H}. Arguments i_has_mtime {F H}.
Arguments h_stat {F H}. Arguments h_resize {F H}. Arguments h_read {F H}. Arguments h_write {F H}.
Arguments h_unlink {F H}. Arguments h_name {F H}. Arguments h_same {F H}. Arguments h_close {F H}.
Arguments h_listdir {F H}. Arguments h_chmod {F H}. Arguments h_chown {F H}. Arguments h_chtimes {F H}.

(* The wrapper around handles, fsobject.go.  [AsIs] is the code: line 17-22 never stores
   the handle, the embedded interface is nil and every method but AbsolutePath panics.
   [Embedded] is the code with line 19 repaired in the obvious way: the methods of
   ObjectHandle are forwarded, the optional interfaces are not visible.  [Full] forwards
   everything.  The last two are not the code; they make it possible to state what the
   rest of the driver does. *)
Inductive wmode := AsIs | Embedded | Full.

(* calls made to the implementation; handles are numbered in order of acquisition *)
Inductive event :=
| EvAcquire (id : nat)                            (* a handle was returned to the driver *)
| EvRelease (id : nat)                            (* Close *)
| EvGet (parent : nat) (name : list Z)
| EvCreate (parent : nat) (name : list Z) (mode : Z)
| EvLink (source parent : nat) (name : list Z)
| EvResizeObj (id : nat) (n : Z)
| EvRead (id : nat) (block : Z)
| EvWrite (id : nat) (block : Z) (b : list Z)
| EvUnlink (id : nat)
| EvList (id : nat)
| EvChmod (id : nat) (mode : Z)
| EvChown (id : nat) (uid gid : Z)
| EvChtimes (id : nat) (times : list Z).

(* fsobject.go:5-13: a handle with its path.  Handles of the implementation itself and
   handles supplied by callers of NewFileFromObjectHandle have mode [Full]. *)
Record xh (H : Type) := mkX { x_id : nat; x_path : list Z; x_mode : wmode; x_h : H }.
Arguments mkX {H}. Arguments x_id {H}. Arguments x_path {H}. Arguments x_mode {H}. Arguments x_h {H}.

Record dst (F : Type) := mkD { d_fs : F; d_next : nat; d_log : list event }.
Arguments mkD {F}. Arguments d_fs {F}. Arguments d_next {F}. Arguments d_log {F}.

(* a call returns, panics, or is still running when the fuel is used up *)
Inductive mres (F A : Type) := Done (s : dst F) (a : A) | Crash (s : dst F) | Spin (s : dst F).
Arguments Done {F A}. Arguments Crash {F A}. Arguments Spin {F A}.
Definition M (F A : Type) := dst F -> mres F A.
Definition ret {F A} (a : A) : M F A := fun s => Done s a.
Definition crash {F A} : M F A := fun s => Crash s.
Definition spin {F A} : M F A := fun s => Spin s.
Definition bind {F A C} (m : M F A) (k : A -> M F C) : M F C :=
  fun s => match m s with Done s' a => k a s' | Crash s' => Crash s' | Spin s' => Spin s' end.
(* if err != nil { return ..., err } *)
Definition try {F A C} (m : M F (A + kerr)) (k : A -> M F (C + kerr)) : M F (C + kerr) :=
  bind m (fun r => match r with inl a => k a | inr e => ret (inr e) end).
Notation "x <- m ;; k" := (bind m (fun x => k)) (at level 61, m at next level, right associativity).
Notation "x <-? m ;; k" := (try m (fun x => k)) (at level 61, m at next level, right associativity).
Definition emit {F} (fs : F) (e : event) (s : dst F) : dst F := mkD fs (d_next s) (d_log s ++ [e]).

(* driver.go:18-25 *)
Record drv := mkDrv { mount : Z; cwd : list Z }.
(* driver/dirent.go:10-24 *)
Record dirent := mkDirent { de_name : list Z; de_stat : fstat }.
(* driver/file.go:85-97 *)
Record file (H : Type) := mkFile {
  fl_stream : stream; fl_obj : xh H; fl_stat : fstat; fl_flags : Z;
  fl_last : option (list dirent); fl_ptr : Z }.
Arguments mkFile {H}. Arguments fl_stream {H}. Arguments fl_obj {H}. Arguments fl_stat {H}.
Arguments fl_flags {H}. Arguments fl_last {H}. Arguments fl_ptr {H}.

Definition str_empty : list Z := [].
Definition is_dots (n : list Z) : bool := beqb n str_dot || beqb n str_dotdot.

Section Driver.
Context {F H : Type} (im : impl F H) (wm : wmode) (d : drv).

(** ** Calls to the implementation *)
(* a method of the wrapper: nil embedded interface in mode AsIs *)
Definition meth (x : xh H) : bool := match x_mode x with AsIs => false | _ => true end.
(* a type assertion to an optional interface *)
Definition opt_meth (x : xh H) : bool := match x_mode x with Full => true | _ => false end.

Definition fresh (fs : F) (s : dst F) : nat * dst F :=
  (d_next s, mkD fs (S (d_next s)) (d_log s ++ [EvAcquire (d_next s)])).
(* fsobject.go:16-23 *)
Definition wrap (id : nat) (h : H) (path : list Z) : xh H := mkX id path wm h.
Definition raw (id : nat) (h : H) : xh H := mkX id [] Full h.

Definition get_root : M F (nat * H) := fun s =>
  let '(fs, h) := i_root im (d_fs s) in let '(id, s') := fresh fs s in Done s' (id, h).
Definition stat (x : xh H) : M F fstat := fun s =>
  if meth x then Done s (h_stat im (d_fs s) (x_h x)) else Crash s.
(* GetObject(name, parent).  In mode AsIs the implementation would get an unusable
   parent; every parent has been used (Stat) before, so this case does not arise. *)
Definition get_object (name : list Z) (parent : xh H) : M F ((nat * H) + kerr) := fun s =>
  if meth parent then
    let '(fs, r) := i_get im (d_fs s) name (x_h parent) in
    let s1 := emit fs (EvGet (x_id parent) name) s in
    match r with
    | inl h => let '(id, s2) := fresh fs s1 in Done s2 (inl (id, h))
    | inr e => Done s1 (inr e)
    end
  else Crash s.
Definition create_object (name : list Z) (parent : xh H) (mode : Z) : M F ((nat * H) + kerr) := fun s =>
  if meth parent then
    let '(fs, r) := i_create im (d_fs s) name (x_h parent) mode in
    let s1 := emit fs (EvCreate (x_id parent) name mode) s in
    match r with
    | inl h => let '(id, s2) := fresh fs s1 in Done s2 (inl (id, h))
    | inr e => Done s1 (inr e)
    end
  else Crash s.
Definition close (x : xh H) : M F unit := fun s =>
  if meth x then Done (emit (h_close im (d_fs s) (x_h x)) (EvRelease (x_id x)) s) tt else Crash s.
Definition call_err (r : F * option kerr) (e : event) : M F (unit + kerr) := fun s =>
  let '(fs, err) := r in Done (emit fs e s) (match err with None => inl tt | Some e => inr e end).
Definition unlink (x : xh H) : M F (unit + kerr) := fun s =>
  if meth x then call_err (h_unlink im (d_fs s) (x_h x)) (EvUnlink (x_id x)) s else Crash s.
Definition resize_obj (x : xh H) (n : Z) : M F (unit + kerr) := fun s =>
  if meth x then call_err (h_resize im (d_fs s) (x_h x) n) (EvResizeObj (x_id x) n) s else Crash s.
(* x.(disko.SupportsListDirHandle).ListDir(): the assertion panics if it fails *)
Definition list_dir (x : xh H) : M F (list (list Z) + kerr) := fun s =>
  if opt_meth x then
    match h_listdir im (d_fs s) (x_h x) with
    | Some (fs, r) => Done (emit fs (EvList (x_id x)) s) r
    | None => Crash s
    end
  else Crash s.
(* defer x.Close() around m: also runs when m panics *)
Definition deferring {A} (x : xh H) (m : M F A) : M F A := fun s =>
  match m s with
  | Done s' a => match close x s' with Done s'' _ => Done s'' a | Crash s'' => Crash s'' | Spin s'' => Spin s'' end
  | Crash s' => match close x s' with Done s'' _ => Crash s'' | _ => Crash s' end
  | Spin s' => Spin s'
  end.

(** ** Files *)
(* file.go:106-114.  resizeCb passes the number of blocks on as a number of bytes. *)
Definition obj_callbacks (x : xh H) : callbacks (dst F) :=
  mkCb (dst F)
    (fun s i buf => let '(fs, b, e) := h_read im (d_fs s) (x_h x) i buf in (emit fs (EvRead (x_id x) i) s, b, e))
    (fun s i buf => let '(fs, e) := h_write im (d_fs s) (x_h x) i buf in (emit fs (EvWrite (x_id x) i buf) s, e))
    (fun s n => let '(fs, e) := h_resize im (d_fs s) (x_h x) n in (emit fs (EvResizeObj (x_id x) n) s, e)).
Definition lift {A} (o : dst F -> outcome (dst F * A)) : M F A := fun s =>
  match o s with Ret (s', a) => Done s' a | Panic => Crash s | OutOfFuel => Spin s end.

(* file.go:101-140; a handle whose Stat gives an impossible size makes blockcache.New panic *)
Definition new_file (x : xh H) (flags : Z) : M F (file H + kerr) :=
  st <- stat x ;;
  fun s =>
    if negb (new_fits (u64 (f_bsize st)) (u64 (f_nblocks st))) then Crash s
    else
    match s_new (obj_callbacks x) s (f_size st) (new_cache (u64 (f_bsize st)) (u64 (f_nblocks st))) flags with
    | Ret (s', _, Some e) => Done s' (inr e)
    | Ret (s', Some stm, None) => Done s' (inl (mkFile stm x st flags None 0))
    | Ret (s', None, None) => Crash s'             (* cannot happen *)
    | Panic => Crash s
    | OutOfFuel => Spin s
    end.
(* file.go:162-164 (and Sync, promoted from BasicStream) *)
Definition fl_close (f : file H) : M F (option kerr) := fun s =>
  match s_close (obj_callbacks (fl_obj f)) s (fl_stream f) with
  | Ret (s', _, e) => Done s' e
  | Panic => Crash s
  | OutOfFuel => Spin s
  end.
Definition with_stream (f : file H) (stm : stream) : file H :=
  mkFile stm (fl_obj f) (fl_stat f) (fl_flags f) (fl_last f) (fl_ptr f).
(* promoted methods of the embedded *BasicStream *)
Definition fl_read (f : file H) (buffer : list Z) : M F (file H * list Z * Z * option kerr) := fun s =>
  match s_read (obj_callbacks (fl_obj f)) s (fl_stream f) buffer with
  | Ret (s', stm, b, n, e) => Done s' (with_stream f stm, b, n, e)
  | Panic => Crash s
  | OutOfFuel => Spin s
  end.
Definition fl_write (f : file H) (b : list Z) : M F (file H * Z * option kerr) := fun s =>
  match s_write (obj_callbacks (fl_obj f)) s (fl_stream f) b with
  | Ret (s', stm, n, e) => Done s' (with_stream f stm, n, e)
  | Panic => Crash s
  | OutOfFuel => Spin s
  end.
Definition fl_truncate (f : file H) (n : Z) : M F (file H * option kerr) := fun s =>
  match s_truncate (obj_callbacks (fl_obj f)) s (fl_stream f) n with
  | Ret (s', stm, e) => Done s' (with_stream f stm, e)
  | Panic => Crash s
  | OutOfFuel => Spin s
  end.

(* driver.go:180-197.
   make([]byte, n) panics for a negative n; that is excluded by New (file.go:125). *)
Definition get_contents (x : xh H) : M F (list Z + kerr) :=
  r <- new_file x O_RDONLY ;;
  match r with
  | inr e => ret (inr (KWrap ErrIOFailed e))
  | inl f =>
      st <- stat x ;;
      if f_size st <? 0 then crash
      else
        q <- fl_read f (zrepeat 0 (f_size st)) ;;
        let '(f', b, _, e) := q in
        _ <- fl_close f' ;;
        ret (match e with None => inl b | Some e => inr (KWrap ErrIOFailed e) end)
  end.

(** ** Resolving paths *)
(* driver.go:201-211 *)
Definition get_ext (name : list Z) (parent : xh H) : M F (xh H + kerr) :=
  r <-? get_object name parent ;;
  ret (inl (wrap (fst r) (snd r) (join (x_path parent) name))).
(* driver.go:215-230 *)
Definition create_ext (name : list Z) (parent : xh H) (mode : Z) : M F (xh H + kerr) :=
  r <-? create_object name parent mode ;;
  ret (inl (wrap (fst r) (snd r) (join (x_path parent) name))).

(* The recursion of the Go code has no bound; fuel is the depth allowed to the model. *)
Fixpoint no_follow (fuel : nat) (path : list Z) {struct fuel} : M F (xh H + kerr) :=   (* driver.go:123-151 *)
  match fuel with
  | O => spin
  | S f =>
      if beqb path str_slash || beqb path str_empty then
        r <- get_root ;; ret (inl (wrap (fst r) (snd r) path))
      else
        let '(parentPath, baseName) := split_path path in
        parent <-? following f parentPath ;;
        deferring parent
          (st <- stat parent ;;
           if negb (is_dir st) then ret (inr (K ErrNotADirectory)) else get_ext baseName parent)
  end
with following (fuel : nat) (path : list Z) {struct fuel} : M F (xh H + kerr) :=       (* driver.go:155-162 *)
  match fuel with
  | O => spin
  | S f => obj <-? no_follow f path ;; follow_loop f obj
  end
with follow_loop (fuel : nat) (obj : xh H) {struct fuel} : M F (xh H + kerr) :=         (* driver.go:163-174 *)
  match fuel with
  | O => spin
  | S f =>
      st <- stat obj ;;
      if is_symlink st then
        r <- resolve_symlink f obj ;;
        _ <- close obj ;;
        match r with inr e => ret (inr e) | inl next => follow_loop f next end
      else ret (inl obj)
  end
with resolve_symlink (fuel : nat) (obj : xh H) {struct fuel} : M F (xh H + kerr) :=     (* driver.go:56-71 *)
  match fuel with
  | O => spin
  | S f =>
      st <- stat obj ;;
      if negb (is_symlink st) then ret (inl obj) else link_loop f (x_path obj) obj
  end
(* driver.go:73-115; pathCache only ever contains the original path (line 71) *)
with link_loop (fuel : nat) (original : list Z) (obj : xh H) {struct fuel} : M F (xh H + kerr) :=
  match fuel with
  | O => spin
  | S f =>
      st <- stat obj ;;
      if is_symlink st then
        t <- get_contents obj ;;
        _ <- close obj ;;
        match t with
        | inr e => ret (inr e)
        | inl text =>
            let next := normalize_path (cwd d) text in
            if beqb next original then ret (inr (K ErrLinkCycleDetected))
            else o <-? no_follow f next ;; link_loop f original o
        end
      else ret (inl obj)
  end.

(** ** Operations *)
Variable fuel : nat.
Definition norm (path : list Z) : list Z := normalize_path (cwd d) path.

(* driver.go:233-298 *)
Definition open_file (path : list Z) (flags perm : Z) : M F (file H + kerr) :=
  let absPath := norm path in
  if io_requires_write_perm flags && negb (can_write (mount d)) then ret (inr (K ErrReadOnlyFileSystem))
  else
    r <- following fuel absPath ;;
    obj <-?
      match r with
      | inl o => ret (inl o)
      | inr e =>
          if kerr_is e ErrNotFound && io_create flags then
            let '(parentDir, baseName) := split_path absPath in
            parent <-? following fuel parentDir ;;
            o <- create_ext baseName parent perm ;;
            _ <- close parent ;;
            ret o
          else ret (inr e)
      end ;;
    st <- stat obj ;;
    if negb (is_file st) then ret (inr (K ErrIsADirectory)) else new_file obj flags.

(* driver.go:300-322; returns the new working directory *)
Definition chdir_to (x : xh H) : M F (list Z + kerr) :=
  st <- stat x ;;
  if negb (is_dir st) then ret (inr (K ErrNotADirectory)) else ret (inl (x_path x)).
Definition chdir (path : list Z) : M F (list Z + kerr) :=
  obj <-? following fuel (norm path) ;; deferring obj (chdir_to obj).

(* driver.go:324-400.  No Close. *)
Definition opt_call (x : xh H) (g : F -> H -> option (F * option kerr)) (ev : event) : M F (unit + kerr) := fun s =>
  if opt_meth x then
    match g (d_fs s) (x_h x) with
    | Some r => call_err r ev s
    | None => Done s (inr (K ErrNotImplemented))
    end
  else Done s (inr (K ErrNotImplemented)).
Definition chmod (path : list Z) (mode : Z) : M F (unit + kerr) :=
  obj <-? following fuel (norm path) ;;
  opt_call obj (fun fs h => option_map (fun g => g mode) (h_chmod im fs h)) (EvChmod (x_id obj) mode).
Definition chown (path : list Z) (uid gid : Z) : M F (unit + kerr) :=
  obj <-? following fuel (norm path) ;;
  opt_call obj (fun fs h => option_map (fun g => g uid gid) (h_chown im fs h)) (EvChown (x_id obj) uid gid).
Definition lchown (path : list Z) (uid gid : Z) : M F (unit + kerr) :=
  obj <-? no_follow fuel (norm path) ;;
  opt_call obj (fun fs h => option_map (fun g => g uid gid) (h_chown im fs h)) (EvChown (x_id obj) uid gid).
(* createdAt, lastAccessed, lastModified, lastChanged, deletedAt *)
Definition chtimes (path : list Z) (atime mtime : Z) : M F (unit + kerr) :=
  obj <-? following fuel (norm path) ;;
  let times := [0; if i_has_atime im then atime else 0; if i_has_mtime im then mtime else 0; 0; 0] in
  opt_call obj (fun fs h => option_map (fun g => g times) (h_chtimes im fs h)) (EvChtimes (x_id obj) times).

(* driver.go:402-416 *)
Definition open_ (path : list Z) : M F (file H + kerr) := open_file path O_RDONLY 0.
Definition read_file (path : list Z) : M F (list Z + kerr) :=
  obj <-? following fuel (norm path) ;; deferring obj (get_contents obj).

(* driver.go:424-434 *)
Definition stat_path (path : list Z) : M F (fstat + kerr) :=
  obj <-? following fuel (norm path) ;; deferring obj (st <- stat obj ;; ret (inl st)).

(* driver.go:458-472; on an error the entries read so far are returned with it *)
Fixpoint read_entries (dir : xh H) (names : list (list Z)) (acc : list dirent) : M F (list dirent * option kerr) :=
  match names with
  | [] => ret (acc, None)
  | n :: ns =>
      if is_dots n then read_entries dir ns acc
      else
        r <- get_object n dir ;;
        match r with
        | inr e => ret (acc, Some e)
        | inl (id, h) =>
            fun s =>
              let fs := d_fs s in
              let de := mkDirent (h_name im fs h) (h_stat im fs h) in
              (_ <- close (raw id h) ;; read_entries dir ns (acc ++ [de])) s
        end
  end.
(* driver.go:436-475 *)
Definition read_dir_obj (dir : xh H) : M F (list dirent * option kerr) :=
  r <- list_dir dir ;;
  match r with
  | inr e => ret ([], Some e)
  | inl names => read_entries dir names []
  end.
Definition read_dir (path : list Z) : M F (list dirent * option kerr) :=
  r <- following fuel (norm path) ;;
  match r with
  | inr e => ret ([], Some e)
  | inl dir => deferring dir (read_dir_obj dir)
  end.

(* driver.go:477-507.  Nothing is closed. *)
Definition link (oldname newname : list Z) : M F (unit + kerr) :=
  match i_link im with
  | None => ret (inr (K ErrNotSupported))
  | Some mk =>
      old <-? following fuel (norm oldname) ;;
      r <- following fuel (norm newname) ;;
      match r with
      | inl _ => ret (inr (K ErrExists))
      | inr _ =>
          let '(parentPath, name) := split_path (norm newname) in
          parent <-? following fuel parentPath ;;
          fun s =>
            let '(fs, r) := mk (d_fs s) (x_h old) (x_h parent) name in
            let s1 := emit fs (EvLink (x_id old) (x_id parent) name) s in
            match r with
            | inl h => let '(_, s2) := fresh fs s1 in Done s2 (inl tt)
            | inr e => Done s1 (inr e)
            end
      end
  end.

(* driver.go:509-533 *)
Definition readlink (path : list Z) : M F (list Z + kerr) :=
  if negb (i_has_symlinks im) then ret (inr (K ErrNotSupported))
  else
    obj <-? no_follow fuel (norm path) ;;
    deferring obj
      (st <- stat obj ;;
       if negb (is_symlink st) then ret (inr (K ErrInvalidArgument)) else get_contents obj).

(* driver.go:535-552 *)
Definition lstat (path : list Z) : M F (fstat + kerr) :=
  obj <-? no_follow fuel (norm path) ;;
  deferring obj
    (real <-? resolve_symlink fuel obj ;;
     deferring real (st <- stat real ;; ret (inl st))).

(* driver.go:556-562 *)
Definition create (path : list Z) : M F (file H + kerr) :=
  open_file path (Z.lor (Z.lor O_RDWR O_CREATE) O_EXCL) 0.

(* driver.go:566-590 *)
Definition remove_dots (l : list (list Z)) : list (list Z) := filter (fun n => negb (is_dots n)) l.

(* driver.go:592-626 *)
Definition remove (path : list Z) : M F (unit + kerr) :=
  obj <-? following fuel (norm path) ;;
  deferring obj
    (st <- stat obj ;;
     if is_dir st then
       names <-? list_dir obj ;;
       if zlen (remove_dots names) >? 0 then ret (inr (K ErrDirectoryNotEmpty)) else unlink obj
     else if negb (is_file st) then ret (inr (K ErrInvalidArgument))
     else unlink obj).

(* driver.go:629-642 *)
Definition truncate (path : list Z) : M F (unit + kerr) :=
  obj <-? following fuel (norm path) ;;
  deferring obj
    (st <- stat obj ;;
     if is_dir st then ret (inr (K ErrIsADirectory)) else resize_obj obj 0).

(* driver.go:646-663.  The error of the deferred Close is dropped. *)
Definition write_file (path : list Z) (b : list Z) (perm : Z) : M F (unit + kerr) :=
  f <-? open_file path (Z.lor (Z.lor O_WRONLY O_CREATE) O_TRUNC) perm ;;
  q <- fl_write f b ;;
  let '(f', _, e) := q in
  _ <- fl_close f' ;;
  ret (match e with None => inl tt | Some e => inr e end).

(* driver.go:665-696 *)
Definition mkdir (path : list Z) (perm : Z) : M F (unit + kerr) :=
  let '(parentDir, baseName) := split_path (norm path) in
  parent <-? following fuel parentDir ;;
  deferring parent
    (st <- stat parent ;;
     if negb (is_dir st) then ret (inr (K ErrNotADirectory))
     else
       r <-? create_object baseName parent (mkdir_mode perm) ;;
       _ <- close (raw (fst r) (snd r)) ;;
       ret (inl tt)).

(* driver.go:698-724: when the parent is missing, the recursive call's result is ignored
   and parentObject is nil, so line 717 panics. *)
Fixpoint mkdir_all (n : nat) (path : list Z) (perm : Z) : M F (unit + kerr) :=
  match n with
  | O => spin
  | S n' =>
      let '(parentDir, baseName) := split_path (norm path) in
      r <- following fuel parentDir ;;
      match r with
      | inr e => if kerr_is e ErrNotFound then _ <- mkdir_all n' parentDir (mkdir_mode perm) ;; crash else ret (inr e)
      | inl parent =>
          deferring parent
            (q <-? create_object baseName parent (mkdir_mode perm) ;;
             _ <- close (raw (fst q) (snd q)) ;;
             ret (inl tt))
      end
  end.

(* driver.go:754-795.  Line 777 wraps the (already wrapped) entry again. *)
Fixpoint remove_directory (n : nat) (dir : xh H) {struct n} : M F (unit + kerr) :=
  match n with
  | O => spin
  | S n' =>
      names <-? list_dir dir ;;
      (fix entries (names : list (list Z)) : M F (unit + kerr) :=
         match names with
         | [] => ret (inl tt)
         | nm :: rest =>
             if is_dots nm then entries rest
             else
               ent <-? get_ext nm dir ;;
               st <- stat ent ;;
               r <- (if is_dir st then
                       remove_directory n' (mkX (x_id ent) (join (x_path dir) nm) (x_mode ent) (x_h ent))
                     else ret (inl tt)) ;;
               match r with
               | inr e => _ <- close ent ;; ret (inr e)
               | inl _ =>
                   u <- unlink ent ;;
                   _ <- close ent ;;
                   match u with inr e => ret (inr e) | inl _ => entries rest end
               end
         end) names
  end.
(* driver.go:726-748.  The handle of the root (line 740) is not closed. *)
Definition remove_all (path : list Z) : M F (unit + kerr) :=
  dir <-? following fuel (norm path) ;;
  deferring dir
    (st <- stat dir ;;
     if negb (is_dir st) then ret (inr (K ErrNotADirectory))
     else
       r <- get_root ;;
       fun s =>
         if h_same im (d_fs s) (snd r) (x_h dir) then Done s (inr (K ErrPermissionDenied))
         else remove_directory fuel dir s).

(** ** Methods of File, file.go:142-258 *)
(* file.go:171-213: (file, entries, error) *)
Definition fl_read_dir (f : file H) (n : Z) : M F (file H * list dirent * option kerr) :=
  st <- stat (fl_obj f) ;;
  if negb (is_dir st) then ret (f, [], Some (K ErrNotADirectory))
  else
    q <- match fl_last f with
         | None =>
             r <- read_dir_obj (fl_obj f) ;;
             match r with
             | (_, Some e) => ret (inr e)
             | (es, None) => ret (inl (mkFile (fl_stream f) (fl_obj f) (fl_stat f) (fl_flags f) (Some es) 0, es))
             end
         | Some es => ret (inl (f, es))
         end ;;
    match q with
    | inr e => ret (f, [], Some e)
    | inl (f1, es) =>
        let remaining := zlen es - fl_ptr f1 in
        let k := if (n <=? 0) || (n >? remaining) then remaining else n in
        if remaining =? 0 then
          ret (mkFile (fl_stream f1) (fl_obj f1) (fl_stat f1) (fl_flags f1) None 0, [], Some KEOF)
        else
          ret (mkFile (fl_stream f1) (fl_obj f1) (fl_stat f1) (fl_flags f1) (Some es) (fl_ptr f1 + k),
               slice (fl_ptr f1) k es, None)
    end.
(* file.go:216-236: DirectoryEntry.Info returns the entry itself (dirent.go:38-40) *)
Definition fl_readdir (f : file H) (n : Z) : M F (file H * list dirent * option kerr) :=
  r <- fl_read_dir f n ;;
  let '(f', es, e) := r in
  match e with
  | Some KEOF => ret (f', [], Some KEOF)
  | Some e => ret (f', [], Some e)
  | None => ret (f', es, None)
  end.
(* file.go:239-254 *)
Definition fl_readdirnames (f : file H) (n : Z) : M F (file H * list (list Z) * option kerr) :=
  r <- fl_read_dir f n ;;
  let '(f', es, e) := r in
  match e with
  | Some e => ret (f', [], Some e)
  | None => ret (f', map de_name es, None)
  end.
End Driver.

(* driver.go:418-422: Sys() of a FileInfo or DirectoryEntry made by this package is its
   FileStat (file.go:49-51, dirent.go:54-56); for any other value ([None]) the type
   assertion panics. *)
Definition same_file (fi1 fi2 : option fstat) : outcome bool :=
  match fi1, fi2 with
  | Some s1, Some s2 => Ret (f_ino s1 =? f_ino s2)
  | _, _ => Panic
  end.
