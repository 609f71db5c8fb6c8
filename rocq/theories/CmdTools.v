(** * CmdTools: model of cmd/zipimage/main.go, cmd/unzipimage/main.go, cmd/main.go and of testing/.

    The host file system: [ino] says which file a path leads to (several paths may lead to one file, through
    links), [bytes_of] what a file contains. *)
From Verif Require Import GoBase Errors Rle Image BlockCache.

Record host := mkHost { ino : list Z -> option Z; bytes_of : Z -> list Z }.
(* what the operating system does during one run *)
Record env := mkEnv {
  may_open : list Z -> bool;          (* os.Open of an existing file *)
  may_create : list Z -> bool;        (* os.Create *)
  new_ino : Z;                        (* the file os.Create makes if there is none *)
  read_end : rend;                    (* how reading the input ends *)
  write_plan : list wstep;            (* the writes to the output *)
  close_cut : option Z                (* Close of the output fails and only so many bytes are kept *)
}.
Definition put (h : host) (i : Z) (b : list Z) : host := mkHost (ino h) (fun j => if j =? i then b else bytes_of h j).
Definition link_path (h : host) (p : list Z) (i : Z) : host :=
  mkHost (fun q => if list_eq_dec Z.eq_dec q p then Some i else ino h q) (bytes_of h).

(* cmd/zipimage/main.go:19-37, cmd/unzipimage/main.go:19-37: open the input, create (or truncate) the output.
   inr: the exit code 1 *)
Definition open_both (e : env) (src out : list Z) (h : host) : host * (Z * Z + Z) :=
  match ino h src with
  | Some i =>
      if may_open e src then
        if may_create e out then
          match ino h out with
          | Some o => (put h o [], inl (i, o))
          | None => (put (link_path h out (new_ino e)) (new_ino e) [], inl (i, new_ino e))
          end
        else (h, inr 1)
      else (h, inr 1)
  | None => (h, inr 1)
  end.
(* the deferred Close; its error is dropped.  After os.Exit it does not run and the kernel closes the file. *)
Definition closed (e : env) (b : list Z) : list Z :=
  match close_cut e with None => b | Some k => slice 0 (Z.min k (zlen b)) b end.

(* cmd/zipimage/main.go:10-45.  The input is read after the output has been created; should both be the same
   file, it is empty by then, and the compressor sees its end before it writes anything. *)
Definition zip_main (g : gzip) (e : env) (args : list (list Z)) (h : host) : outcome (Z * host) :=
  match args with
  | [_; src; out] =>
      match open_both e src out h with
      | (h1, inr code) => Ret (code, h1)
      | (h1, inl (i, o)) =>
          match compress_image g (mkReader (bytes_of h1 i) (read_end e)) (mkWriter [] (write_plan e)) with
          | Ret (_, Some _, w) => Ret (2, put h1 o (closed e (wout w)))
          | Ret (_, None, w) => Ret (0, put h1 o (closed e (wout w)))
          | Panic => Panic
          | OutOfFuel => OutOfFuel
          end
      end
  | _ => Ret (1, h)
  end.
(* cmd/unzipimage/main.go:10-45.  Failures to read the input are part of what the gzip reader returns. *)
Definition unzip_main (g : gzip) (e : env) (args : list (list Z)) (h : host) : Z * host :=
  match args with
  | [_; src; out] =>
      match open_both e src out h with
      | (h1, inr code) => (code, h1)
      | (h1, inl (i, o)) =>
          match decompress_image g (bytes_of h1 i) (mkWriter [] (write_plan e)) with
          | (_, Some _, w) => (2, put h1 o (closed e (wout w)))
          | (_, None, w) => (0, put h1 o (closed e (wout w)))
          end
      end
  | _ => (1, h)
  end.
(* cmd/main.go:29-31 formatImage, the action of the command "format" *)
Definition format_image (args : list (list Z)) (h : host) : host * option kerr := (h, None).

(** ** testing/ *)
(* testing/images.go:16-35; None: the test is aborted.  The result is the contents of a stream over a new slice. *)
Definition load_disk_image (g : gzip) (compressed : list Z) (sectorSize totalSectors : Z) : option (list Z) :=
  if zlen compressed >? 0 then
    match decompress_image_to_bytes g compressed with
    | inr _ => None
    | inl b => if u64 (totalSectors * sectorSize) =? u64 (zlen b) then Some b else None
    end
  else None.
(* testing/blockcache.go:50-113.  The state is the backing data and whether t.Error was called.  The backing data
   has at least bytesPerBlock * totalBlocks bytes, as documented (otherwise slicing panics).  New is given no
   resize callback and supplies one that always fails (blockcache.go:84-94). *)
Definition test_cb (bytesPerBlock totalBlocks : Z) (writable : bool) : callbacks (list Z * bool) :=
  mkCb (list Z * bool)
    (fun s i buffer =>
       if i >=? totalBlocks then ((fst s, true), buffer, Some (K ErrIOFailed))
       else (s, gocopy buffer (slice (i * bytesPerBlock) bytesPerBlock (fst s)), None))
    (fun s i buffer =>
       if writable then
         if i >=? totalBlocks then ((fst s, true), Some (K ErrIOFailed))
         else ((splice (i * bytesPerBlock) (slice 0 (Z.min bytesPerBlock (zlen buffer)) buffer) (fst s), snd s), None)
       else ((fst s, true), Some (K ErrReadOnlyFileSystem)))
    (fun s n => (s, Some (K ErrNotSupported))).
