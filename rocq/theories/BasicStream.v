(** * BasicStream: model of file_systems/common/basicstream/basicstream.go *)
From Verif Require Import GoBase Errors Flags BlockCache.

(* basicstream.go:18-23 *)
Record stream := mkStream { ssize : Z; spos : Z; scache : cache; sflags : Z }.

(* errors built with fmt.Errorf (basicstream.go:41, 185, 190) *)
Definition KBadSize : kerr := KExt 1.
Definition KBadWhence : kerr := KExt 2.
Definition KNegativeSeek : kerr := KExt 3.

(* basicstream.go:65-70: int64 division truncates toward zero, conversions to uint wrap *)
Definition conv_addr (c : cache) (offset : Z) : outcome (Z * Z) :=
  let b := i64 (bpb c) in
  if b =? 0 then Panic else Ret (u64 (Z.quot offset b), u64 (Z.rem offset b)).

(* s[lo:hi] of a slice that starts at byte [base] of an array [arr]; a Go slice may be
   resliced up to its capacity, here the end of the array *)
Definition reslice (arr : list Z) (base lo hi : Z) : outcome (list Z) :=
  if (lo <=? hi) && (base + hi <=? zlen arr) then Ret (slice (base + lo) (hi - lo) arr) else Panic.

Section Stream.
Context {S : Type} (cb : callbacks S).

Definition set_cache (st : stream) (c : cache) : stream := mkStream (ssize st) (spos st) c (sflags st).
Definition set_pos (st : stream) (p : Z) : stream := mkStream (ssize st) p (scache st) (sflags st).
Definition set_size (st : stream) (n : Z) : stream := mkStream n (spos st) (scache st) (sflags st).

(* basicstream.go:88-128: (storage, stream, buffer contents, count, error) *)
Definition s_read_at (s : S) (st : stream) (buffer : list Z) (offset : Z)
  : outcome (S * stream * list Z * Z * option kerr) :=
  if negb (io_read (sflags st)) then Ret (s, st, buffer, 0, Some (K ErrNotPermitted))
  else
    let bufLen := zlen buffer in
    if bufLen =? 0 then Ret (s, st, buffer, 0, None)
    else if offset >=? ssize st then Ret (s, st, buffer, 0, Some KEOF)
    else
      let n := if i64 (offset + bufLen) >=? ssize st then i64 (ssize st - offset) else bufLen in
      match conv_addr (scache st) offset, conv_addr (scache st) (i64 (i64 (offset + n) - 1)) with
      | Ret (first, so), Ret (last, _) =>
          match get_slice cb s (scache st) first (u64 (u64 (last - first) + 1)) with
          | Ret (s', c', inr e) => Ret (s', set_cache st c', buffer, 0, Some e)
          | Ret (s', c', inl _) =>
              match reslice (data c') (u64 (first * bpb c')) so (u64 (so + u64 n)) with
              | Ret src =>
                  Ret (s', set_cache st c', gocopy buffer src, n,
                       if n <? bufLen then Some KEOF else None)
              | _ => Panic
              end
          | Panic => Panic
          | OutOfFuel => OutOfFuel
          end
      | _, _ => Panic
      end.

(* basicstream.go:79-85 *)
Definition s_read (s : S) (st : stream) (buffer : list Z)
  : outcome (S * stream * list Z * Z * option kerr) :=
  match s_read_at s st buffer (spos st) with
  | Ret (s', st', buffer', n, None) => Ret (s', set_pos st' (i64 (spos st' + n)), buffer', n, None)
  | r => r
  end.

(* basicstream.go:174-200: (stream, returned position, error) *)
Definition s_seek (st : stream) (offset whence : Z) : stream * Z * option kerr :=
  let go (abs : Z) :=
    if abs <? 0 then (st, spos st, Some KNegativeSeek) else (set_pos st abs, abs, None) in
  if whence =? 0 then go offset
  else if whence =? 1 then go (i64 (spos st + offset))
  else if whence =? 2 then go (i64 (ssize st + offset))
  else (st, spos st, Some KBadWhence).

(* basicstream.go:74-76, 209-211 *)
Definition s_sync (s : S) (st : stream) : outcome (S * stream * option kerr) :=
  match flush_all cb s (scache st) with
  | Ret (s', c', e) => Ret (s', set_cache st c', e)
  | Panic => Panic
  | OutOfFuel => OutOfFuel
  end.
Definition s_close := s_sync.

(* basicstream.go:221-248.  The test against math.MaxUint (230) can never be true for a
   non-negative int64 on a 64-bit platform. *)
Definition s_truncate (s : S) (st : stream) (n : Z) : outcome (S * stream * option kerr) :=
  if negb (io_write (sflags st)) then Ret (s, st, Some (K ErrNotPermitted))
  else if n <? 0 then Ret (s, st, Some (K ErrInvalidArgument))
  else
    match min_blocks (scache st) (u64 n) with
    | Ret blocks =>
        match resize cb s (scache st) blocks with
        | Ret (s', c', Some e) => Ret (s', set_cache st c', Some e)
        | Ret (s', c', None) =>
            let st' := set_size (set_cache st c') n in
            if io_synchronous (sflags st) then s_sync s' st' else Ret (s', st', None)
        | Panic => Panic
        | OutOfFuel => OutOfFuel
        end
    | Panic => Panic
    | OutOfFuel => OutOfFuel
    end.

(* basicstream.go:275-304 implWriteAt: (storage, stream, count, error) *)
Definition s_impl_write_at (s : S) (st : stream) (buffer : list Z) (offset : Z)
  : outcome (S * stream * Z * option kerr) :=
  if negb (io_write (sflags st)) then Ret (s, st, 0, Some (K ErrNotPermitted))
  else
    let e := i64 (offset + zlen buffer) in
    match conv_addr (scache st) offset, conv_addr (scache st) e with
    | Ret (start, so), Ret (last, _) =>
        let grown :=
          if last >=? total (scache st) then s_truncate s st e else Ret (s, st, None) in
        match grown with
        | Ret (s1, st1, Some e) => Ret (s1, st1, 0, Some e)
        | Ret (s1, st1, None) =>
            match get_slice cb s1 (scache st1) start (u64 (last + 1)) with
            | Ret (s2, c2, inr e) => Ret (s2, set_cache st1 c2, 0, Some e)
            | Ret (s2, c2, inl target) =>
                (* copy(targetSlice[startOffset:], buffer) *)
                if so >? zlen target then Panic
                else
                  let c3 := poke c2 start so (slice 0 (Z.min (zlen target - so) (zlen buffer)) buffer) in
                  let st3 := set_cache st1 c3 in
                  if io_synchronous (sflags st) then
                    match s_sync s2 st3 with
                    | Ret (s4, st4, e) => Ret (s4, st4, zlen buffer, e)
                    | Panic => Panic
                    | OutOfFuel => OutOfFuel
                    end
                  else Ret (s2, st3, zlen buffer, None)
            | Panic => Panic
            | OutOfFuel => OutOfFuel
            end
        | Panic => Panic
        | OutOfFuel => OutOfFuel
        end
    | _, _ => Panic
    end.

(* basicstream.go:308-313 *)
Definition s_write_at (s : S) (st : stream) (buffer : list Z) (offset : Z) :=
  if io_append (sflags st) then Ret (s, st, 0, Some (K ErrNotPermitted))
  else s_impl_write_at s st buffer offset.

(* basicstream.go:251-271 (and 316-318 WriteString) *)
Definition s_write (s : S) (st : stream) (buffer : list Z) : outcome (S * stream * Z * option kerr) :=
  if negb (io_write (sflags st)) then Ret (s, st, 0, Some (K ErrNotPermitted))
  else
    let '(st1, _, e) := if io_append (sflags st) then s_seek st 0 2 else (st, 0, None) in
    match e with
    | Some e => Ret (s, st1, 0, Some e)
    | None =>
        match s_impl_write_at s st1 buffer (spos st1) with
        | Ret (s2, st2, n, e) => Ret (s2, set_pos st2 (i64 (spos st2 + n)), n, e)
        | Panic => Panic
        | OutOfFuel => OutOfFuel
        end
    end.

(* basicstream.go:34-59 New over the cache [c]: the stream (also returned when the
   truncation fails) and the error; nil stream when the size is invalid *)
Definition s_new (s : S) (sz : Z) (c : cache) (flags : Z) : outcome (S * option stream * option kerr) :=
  if (sz <? 0) || (sz >? size c) then Ret (s, None, Some KBadSize)
  else
    let st := mkStream sz 0 c flags in
    if io_truncate flags then
      match s_truncate s st 0 with
      | Ret (s', st', e) => Ret (s', Some st', e)
      | Panic => Panic
      | OutOfFuel => OutOfFuel
      end
    else Ret (s, Some st, None).

(* basicstream.go:131-162 ReadFrom.  The reader is a state with a read function that
   gets the buffer length and delivers at most that many bytes; [blockSize] is 512 or
   the block size of the source stream (lines 138-144).  The loop stops when the reader
   reports an error, so it needs fuel. *)
Fixpoint read_from_loop {R} (rd : R -> Z -> R * list Z * option kerr) (blockSize : Z)
    (fuel : nat) (s : S) (st : stream) (r : R) (acc : Z) : outcome (S * stream * R * Z * option kerr) :=
  match fuel with
  | O => OutOfFuel
  | Datatypes.S fuel' =>
      let '(r', chunk, re) := rd r blockSize in
      let acc' := i64 (acc + zlen chunk) in
      match s_write s st chunk with
      | Ret (s', st', _, we) =>
          match re with
          | Some KEOF => Ret (s', st', r', acc', None)
          | Some e => Ret (s', st', r', acc', Some e)
          | None =>
              match we with
              | Some e => Ret (s', st', r', acc', Some e)
              | None => read_from_loop rd blockSize fuel' s' st' r' acc'
              end
          end
      | Panic => Panic
      | OutOfFuel => OutOfFuel
      end
  end.
Definition s_read_from {R} (rd : R -> Z -> R * list Z * option kerr) (blockSize : Z)
    (fuel : nat) (s : S) (st : stream) (r : R) : outcome (S * stream * R * Z * option kerr) :=
  if negb (io_write (sflags st)) then Ret (s, st, r, 0, Some (K ErrNotPermitted))
  else read_from_loop rd blockSize fuel s st r 0.

(* basicstream.go:321-342 WriteTo.  The writer's result is ignored (331). *)
Fixpoint write_to_loop {W} (wr : W -> list Z -> W * Z * option kerr)
    (fuel : nat) (s : S) (st : stream) (buffer : list Z) (w : W) (acc : Z)
  : outcome (S * stream * W * Z * option kerr) :=
  match fuel with
  | O => OutOfFuel
  | Datatypes.S fuel' =>
      match s_read s st buffer with
      | Ret (s', st', buffer', n, e) =>
          let w' := if n >? 0 then let '(w1, _, _) := wr w (slice 0 n buffer') in w1 else w in
          let acc' := if n >? 0 then i64 (acc + n) else acc in
          match e with
          | Some KEOF => Ret (s', st', w', acc', None)
          | Some e => Ret (s', st', w', acc', Some e)
          | None => write_to_loop wr fuel' s' st' buffer' w' acc'
          end
      | Panic => Panic
      | OutOfFuel => OutOfFuel
      end
  end.
Definition s_write_to {W} (wr : W -> list Z -> W * Z * option kerr) (fuel : nat) (s : S) (st : stream) (w : W) :=
  write_to_loop wr fuel s st (zrepeat 0 (bpb (scache st))) w 0.
End Stream.
