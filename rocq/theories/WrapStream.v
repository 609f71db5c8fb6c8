(** * WrapStream: model of blockcache.WrapStream over any io.ReadWriteSeeker.

    BlockCache.wrap_stream_cb is the special case of a healthy file; see WrapProofs.healthy_same. *)
From Verif Require Import GoBase Errors BlockCache.

(* what Go's io.ReadWriteSeeker can do; [T] is the state of the stream *)
Record rws (T : Type) := mkRws {
  rw_seek : T -> Z -> T * option kerr;                     (* Seek(offset, io.SeekStart) *)
  rw_read : T -> list Z -> T * list Z * Z * option kerr;   (* Read(buffer): new contents of the buffer, count, error *)
  rw_write : T -> list Z -> T * Z * option kerr;           (* Write(buffer): count, error *)
  rw_truncate : option (T -> Z -> T * option kerr);        (* common.Truncator, if implemented *)
  rw_size : T -> T * Z * option kerr                       (* Seek(0, io.SeekEnd) *)
}.
Arguments rw_seek {T}. Arguments rw_read {T}. Arguments rw_write {T}. Arguments rw_truncate {T}. Arguments rw_size {T}.

Section Wrap.
Context {T : Type} (io : rws T).

(* blockcache.go:188-202 seekToBlock; int64(block) * int64(bytesPerBlock) wraps around *)
Definition seek_to_block (t : T) (block totalBlocks bytesPerBlock : Z) : T * option kerr :=
  if block >=? totalBlocks then (t, Some (K ErrArgumentOutOfRange))
  else rw_seek io t (i64 (block * bytesPerBlock)).
(* blockcache.go:132-135: err != nil && err != io.EOF *)
Definition drop_eof (e : option kerr) : option kerr := match e with Some KEOF => None | _ => e end.
(* blockcache.go:120-136 runCb with read = true, 138-140 *)
Definition wrap_fetch (bytesPerBlock totalBlocks : Z) (t : T) (block : Z) (buffer : list Z) : T * list Z * option kerr :=
  match seek_to_block t block totalBlocks bytesPerBlock with
  | (t1, Some e) => (t1, buffer, Some e)
  | (t1, None) => let '(t2, buffer', _, e) := rw_read io t1 buffer in (t2, buffer', drop_eof e)
  end.
(* blockcache.go:120-136 runCb with read = false, 142-144 *)
Definition wrap_flush (bytesPerBlock totalBlocks : Z) (t : T) (block : Z) (buffer : list Z) : T * option kerr :=
  match seek_to_block t block totalBlocks bytesPerBlock with
  | (t1, Some e) => (t1, Some e)
  | (t1, None) => let '(t2, _, e) := rw_write io t1 buffer in (t2, drop_eof e)
  end.
(* blockcache.go:146-165 *)
Definition wrap_resize (bytesPerBlock : Z) (allowResize : bool) (t : T) (n : Z) : T * option kerr :=
  if allowResize then
    match rw_truncate io with
    | Some tr => tr t (i64 (n * bytesPerBlock))
    | None => (t, Some (K ErrNotSupported))
    end
  else (t, Some (K ErrNotPermitted)).
(* blockcache.go:111-168 WrapStream; the cache itself is [new_cache bytesPerBlock totalBlocks] *)
Definition wrap_cb (bytesPerBlock totalBlocks : Z) (allowResize : bool) : callbacks T :=
  mkCb T (wrap_fetch bytesPerBlock totalBlocks) (wrap_flush bytesPerBlock totalBlocks) (wrap_resize bytesPerBlock allowResize).
(* blockcache.go:170-180 WrapStreamWithInferredSize: the number of blocks; errors of Seek are dropped, division by
   zero panics, and so does make (in New) for a size that does not fit *)
Definition inferred_blocks (bytesPerBlock : Z) (t : T) : outcome (T * Z) :=
  let '(t1, eof, _) := rw_size io t in
  if bytesPerBlock =? 0 then Panic
  else
    let n := u64 eof / bytesPerBlock in
    let '(t2, _) := rw_seek io t1 0 in
    if (i64 n <? 0) || (i64 (bytesPerBlock * n) <? 0) then Panic else Ret (t2, n).
End Wrap.
