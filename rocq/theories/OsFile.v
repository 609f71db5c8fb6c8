(** * OsFile: the image file ( *os.File) the FAT8 and FAT drivers work on.

    Not code of /repo: the operations of Go's os.File the drivers use, on a regular file
    opened for reading and writing.  The file is its bytes.  [faults] says what the next
    system calls do: [None] works, [Some k] fails after [k] bytes have been transferred (a
    machine that stops in the middle of a write leaves the same bytes).  When the list is
    used up everything works. *)
From Verif Require Import GoBase Errors.

Record osfile := mkFile { contents : list Z; faults : list (option Z) }.

Definition err_negative : kerr := KExt 1.     (* os: negative offset *)
Definition err_device : kerr := KExt 2.       (* what the operating system reports *)

(* the fault of the next system call, and the file afterwards *)
Definition syscall (f : osfile) : option Z * osfile :=
  match faults f with
  | [] => (None, f)
  | x :: rest => (x, mkFile (contents f) rest)
  end.

(* pad with zeros to [n] bytes *)
Definition pad_to (n : Z) (l : list Z) : list Z := l ++ zrepeat 0 (n - zlen l).
(* a write at [off] of at least one byte *)
Definition write_bytes (off : Z) (b l : list Z) : list Z := splice off b (pad_to (off + zlen b) l).

(* (f *File) ReadAt: an error if not all [n] bytes could be read *)
Definition f_read_at (f : osfile) (off n : Z) : osfile * (list Z + kerr) :=
  if off <? 0 then (f, inr err_negative)
  else if n =? 0 then (f, inl [])
  else
    let '(ft, f1) := syscall f in
    match ft with
    | Some _ => (f1, inr err_device)
    | None => if off + n <=? zlen (contents f1) then (f1, inl (slice off n (contents f1))) else (f1, inr KEOF)
    end.

(* (f *File) WriteAt *)
Definition f_write_at (f : osfile) (off : Z) (b : list Z) : osfile * option kerr :=
  if off <? 0 then (f, Some err_negative)
  else if zlen b =? 0 then (f, None)
  else
    let '(ft, f1) := syscall f in
    match ft with
    | Some k =>
        let part := slice 0 k b in
        (mkFile (if zlen part =? 0 then contents f1 else write_bytes off part (contents f1)) (faults f1), Some err_device)
    | None => (mkFile (write_bytes off b (contents f1)) (faults f1), None)
    end.

(* (f *File) Truncate *)
Definition f_truncate (f : osfile) (n : Z) : osfile * option kerr :=
  let '(ft, f1) := syscall f in
  match ft with
  | Some _ => (f1, Some err_device)
  | None =>
      if n <? 0 then (f1, Some err_device)
      else (mkFile (slice 0 n (pad_to n (contents f1))) (faults f1), None)
  end.

(* (f *File) Seek(0, io.SeekEnd) *)
Definition f_size_of (f : osfile) : osfile * (Z + kerr) :=
  let '(ft, f1) := syscall f in
  match ft with
  | Some _ => (f1, inr err_device)
  | None => (f1, inl (zlen (contents f1)))
  end.
