(** * BlockCache: model of file_systems/common/blockcache/blockcache.go

    Storage is an arbitrary state type [S] with three callbacks.  A callback that
    fills a buffer returns the new contents of the buffer. *)
From Verif Require Import GoBase Errors.

Record callbacks (S : Type) := mkCb {
  cb_fetch : S -> Z -> list Z -> S * list Z * option kerr;   (* blockcache.go:25 *)
  cb_flush : S -> Z -> list Z -> S * option kerr;            (* blockcache.go:30 *)
  cb_resize : S -> Z -> S * option kerr                      (* blockcache.go:50 *)
}.
Arguments cb_fetch {S} c.
Arguments cb_flush {S} c.
Arguments cb_resize {S} c.

(* blockcache.go:53-66.  A bitmap.Bitmap is a byte slice; it is modelled as its list
   of bits, whose length is a multiple of 8. *)
Record cache := mkCache {
  bpb : Z;                 (* bytesPerBlock *)
  total : Z;               (* totalBlocks *)
  loaded : list bool;
  dirty : list bool;
  data : list Z
}.

(** ** boljen/go-bitmap *)
(* NewSlice(l): ceil(l/8) bytes *)
Definition bits_for (l : Z) : Z := 8 * ((l + 7) / 8).
Definition bitmap_new (l : Z) : list bool := zrepeat false (bits_for l).
(* Get/Set index the underlying byte slice: out of range panics *)
Definition bget (b : list bool) (i : Z) : outcome bool :=
  if (0 <=? i) && (i <? zlen b) then Ret (znth false b i) else Panic.
Definition bset (b : list bool) (i : Z) (v : bool) : outcome (list bool) :=
  if (0 <=? i) && (i <? zlen b) then Ret (splice i [v] b) else Panic.

(* cache.data[lo:hi] with uint bounds; the slice was made with cap = len *)
Definition data_slice (d : list Z) (lo hi : Z) : outcome (list Z) :=
  if (lo <=? hi) && (hi <=? zlen d) then Ret (slice lo (hi - lo) d) else Panic.

(* blockcache.go:97-99: the conversions to int; make panics for a negative size.  (Memory is unlimited otherwise, and the few negative
   numbers of blocks above -16 that bitmap.NewSlice rounds to a size of 0 or 1 are taken to panic too.) *)
Definition new_fits (bytesPerBlock totalBlocks : Z) : bool := (0 <=? i64 totalBlocks) && (0 <=? i64 (bytesPerBlock * totalBlocks)).
(* blockcache.go:77-106 New when [new_fits] (the callbacks are passed separately to each operation) *)
Definition new_cache (bytesPerBlock totalBlocks : Z) : cache :=
  mkCache bytesPerBlock totalBlocks (bitmap_new totalBlocks) (bitmap_new totalBlocks)
    (zrepeat 0 (u64 (bytesPerBlock * totalBlocks))).
(* blockcache.go:84-94: resizeCb == nil *)
Definition no_resize {S} (s : S) (n : Z) : S * option kerr := (s, Some (K ErrNotSupported)).
(* blockcache.go:77-83,97-105: the callbacks New installs; resizeCb may be nil *)
Definition new_callbacks {S} (fetchCb : S -> Z -> list Z -> S * list Z * option kerr) (flushCb : S -> Z -> list Z -> S * option kerr)
    (resizeCb : option (S -> Z -> S * option kerr)) : callbacks S :=
  mkCb S fetchCb flushCb (match resizeCb with None => no_resize | Some r => r end).

(* blockcache.go:216-218 *)
Definition size (c : cache) : Z := i64 (bpb c * total c).

(* blockcache.go:222-224; division by zero panics *)
Definition min_blocks (c : cache) (sz : Z) : outcome Z :=
  if bpb c =? 0 then Panic else Ret (u64 (u64 (sz + bpb c) - 1) / bpb c).

(* blockcache.go:229-250 *)
Definition check_bounds (c : cache) (start bufferSize : Z) : outcome (option kerr) :=
  match min_blocks c bufferSize with
  | Ret numBlocks =>
      if start >=? total c then Ret (Some (K ErrArgumentOutOfRange))
      else if u64 (start + numBlocks) >? total c then Ret (Some (K ErrArgumentOutOfRange))
      else Ret None
  | Panic => Panic
  | OutOfFuel => OutOfFuel
  end.

Section Ops.
Context {S : Type} (cb : callbacks S).

Definition cres := outcome (S * cache * option kerr).

(* blockcache.go:293-317; [fuel] bounds the number of iterations: every iteration
   either stays inside the bitmap or panics *)
Fixpoint load_loop (fuel : nat) (i stop : Z) (s : S) (c : cache) : cres :=
  match fuel with
  | O => OutOfFuel
  | Datatypes.S fuel' =>
      if i <? stop then
        match bget (loaded c) (i64 i) with
        | Ret true => load_loop fuel' (u64 (i + 1)) stop s c
        | Ret false =>
            let so := u64 (i * bpb c) in
            let eo := u64 (so + bpb c) in
            match data_slice (data c) so eo with
            | Ret buffer =>
                let '(s', buffer', e) := cb_fetch cb s i buffer in
                let d' := splice so buffer' (data c) in
                match e with
                | Some e => Ret (s', mkCache (bpb c) (total c) (loaded c) (dirty c) d', Some (KMsg e))  (* 307-311 *)
                | None =>
                    match bset (loaded c) (i64 i) true, bset (dirty c) (i64 i) false with
                    | Ret l', Ret y' =>
                        load_loop fuel' (u64 (i + 1)) stop s'
                          (mkCache (bpb c) (total c) l' y' d')
                    | _, _ => Panic
                    end
                end
            | _ => Panic
            end
        | _ => Panic
        end
      else Ret (s, c, None)
  end.
Definition loop_fuel (c : cache) : nat := Datatypes.S (length (loaded c)).

(* blockcache.go:287-320 loadBlockRange *)
Definition load_range (s : S) (c : cache) (start count : Z) : cres :=
  match check_bounds c start (u64 (count * bpb c)) with
  | Ret (Some e) => Ret (s, c, Some e)
  | Ret None => load_loop (loop_fuel c) start (u64 (start + count)) s c
  | Panic => Panic
  | OutOfFuel => OutOfFuel
  end.

(* blockcache.go:257-269 GetSlice: the returned slice aliases cache.data; the model
   returns its current contents (see [poke] for writes through it) *)
Definition get_slice (s : S) (c : cache) (start count : Z)
  : outcome (S * cache * (list Z + kerr)) :=
  match load_range s c start count with
  | Ret (s', c', Some e) => Ret (s', c', inr e)
  | Ret (s', c', None) =>
      let so := u64 (start * bpb c') in
      let eo := u64 (so + u64 (count * bpb c')) in
      match data_slice (data c') so eo with
      | Ret b => Ret (s', c', inl b)
      | _ => Panic
      end
  | Panic => Panic
  | OutOfFuel => OutOfFuel
  end.
(* writing [b] at byte offset [off] of a slice obtained for blocks from [start] *)
Definition poke (c : cache) (start off : Z) (b : list Z) : cache :=
  mkCache (bpb c) (total c) (loaded c) (dirty c) (splice (start * bpb c + off) b (data c)).

(* blockcache.go:330-352 *)
Fixpoint flush_loop (fuel : nat) (i stop : Z) (s : S) (c : cache) : cres :=
  match fuel with
  | O => OutOfFuel
  | Datatypes.S fuel' =>
      if u64 i <? stop then
        match bget (dirty c) i with
        | Ret false => flush_loop fuel' (i64 (i + 1)) stop s c
        | Ret true =>
            match get_slice s c (u64 i) 1 with
            | Ret (s', c', inr e) => Ret (s', c', Some e)
            | Ret (s', c', inl buffer) =>
                let '(s'', e) := cb_flush cb s' (u64 i) buffer in
                match e with
                | Some e => Ret (s'', c', Some (KMsg e))             (* 345-347 *)
                | None =>
                    match bset (dirty c') i false with
                    | Ret y' => flush_loop fuel' (i64 (i + 1)) stop s''
                                  (mkCache (bpb c') (total c') (loaded c') y' (data c'))
                    | _ => Panic
                    end
                end
            | Panic => Panic
            | OutOfFuel => OutOfFuel
            end
        | _ => Panic
        end
      else Ret (s, c, None)
  end.

(* blockcache.go:324-355 flushBlockRange *)
Definition flush_range (s : S) (c : cache) (start count : Z) : cres :=
  match check_bounds c start (u64 (count * bpb c)) with
  | Ret (Some e) => Ret (s, c, Some e)
  | Ret None => flush_loop (loop_fuel c) (i64 start) (u64 (start + count)) s c
  | Panic => Panic
  | OutOfFuel => OutOfFuel
  end.

(* blockcache.go:358-366, 277-283 *)
Definition load_all (s : S) (c : cache) : cres := load_range s c 0 (total c).
Definition flush_all (s : S) (c : cache) : cres := flush_range s c 0 (total c).
Definition get_data (s : S) (c : cache) : outcome (S * cache * (list Z + kerr)) :=
  match load_all s c with
  | Ret (s', c', Some e) => Ret (s', c', inr e)
  | Ret (s', c', None) => Ret (s', c', inl (data c'))
  | Panic => Panic
  | OutOfFuel => OutOfFuel
  end.

(* blockcache.go:374-394 ReadAt: (state, buffer contents, count, error) *)
Definition read_at (s : S) (c : cache) (buffer : list Z) (start : Z)
  : outcome (S * cache * list Z * Z * option kerr) :=
  match check_bounds c start (zlen buffer) with
  | Ret (Some e) => Ret (s, c, buffer, 0, Some e)
  | Ret None =>
      match min_blocks c (zlen buffer) with
      | Ret n =>
          match load_range s c start n with
          | Ret (s1, c1, Some e) => Ret (s1, c1, buffer, 0, Some e)
          | Ret (s1, c1, None) =>
              match get_slice s1 c1 start n with
              | Ret (s2, c2, inr e) => Ret (s2, c2, buffer, 0, Some e)
              | Ret (s2, c2, inl src) =>
                  Ret (s2, c2, splice 0 (slice 0 (Z.min (zlen buffer) (zlen src)) src) buffer,
                       zlen src, None)
              | Panic => Panic
              | OutOfFuel => OutOfFuel
              end
          | Panic => Panic
          | OutOfFuel => OutOfFuel
          end
      | Panic => Panic
      | OutOfFuel => OutOfFuel
      end
  | Panic => Panic
  | OutOfFuel => OutOfFuel
  end.

(* blockcache.go:419-423 and 480-485: set a run of bits in both bitmaps.
   [k] counts the remaining iterations. *)
Fixpoint set_bits (fuel : nat) (i stop start : Z) (c : cache) : outcome cache :=
  match fuel with
  | O => OutOfFuel
  | Datatypes.S fuel' =>
      if i <? stop then
        match bset (loaded c) (i64 (start + i)) true, bset (dirty c) (i64 (start + i)) true with
        | Ret l', Ret y' =>
            set_bits fuel' (i + 1) stop start (mkCache (bpb c) (total c) l' y' (data c))
        | _, _ => Panic
        end
      else Ret c
  end.

(* blockcache.go:402-425 WriteAt *)
Definition write_at (s : S) (c : cache) (buffer : list Z) (start : Z)
  : outcome (S * cache * Z * option kerr) :=
  match check_bounds c start (zlen buffer) with
  | Ret (Some e) => Ret (s, c, 0, Some e)
  | Ret None =>
      match min_blocks c (zlen buffer) with
      | Ret n =>
          match get_slice s c start n with
          | Ret (s1, c1, inr e) => Ret (s1, c1, 0, Some e)
          | Ret (s1, c1, inl target) =>
              (* copy(targetByteSlice, buffer) *)
              let c2 := poke c1 start 0 (slice 0 (Z.min (zlen target) (zlen buffer)) buffer) in
              match set_bits (loop_fuel c2) 0 n start c2 with
              | Ret c3 => Ret (s1, c3, zlen buffer, None)
              | Panic => Panic
              | OutOfFuel => OutOfFuel
              end
          | Panic => Panic
          | OutOfFuel => OutOfFuel
          end
      | Panic => Panic
      | OutOfFuel => OutOfFuel
      end
  | Panic => Panic
  | OutOfFuel => OutOfFuel
  end.

(* blockcache.go:471-487 MarkBlockRangeDirty *)
Definition mark_dirty (c : cache) (start count : Z) : outcome (cache * option kerr) :=
  match check_bounds c start (u64 (count * bpb c)) with
  | Ret (Some e) => Ret (c, Some e)
  | Ret None =>
      match set_bits (loop_fuel c) 0 count start c with
      | Ret c' => Ret (c', None)
      | Panic => Panic
      | OutOfFuel => OutOfFuel
      end
  | Panic => Panic
  | OutOfFuel => OutOfFuel
  end.

(* copy(dst, src) *)
Definition gocopy {A} (dst src : list A) : list A :=
  splice 0 (slice 0 (Z.min (zlen dst) (zlen src)) src) dst.

(* blockcache.go:433-467 Resize *)
Definition resize (s : S) (c : cache) (n : Z) : cres :=
  let '(s', e) := cb_resize cb s n in
  match e with
  | Some e => Ret (s', c, Some e)
  | None =>
      let d' := gocopy (zrepeat 0 (u64 (n * bpb c))) (data c) in
      let y' := gocopy (bitmap_new n) (dirty c) in
      let l' := gocopy (bitmap_new n) (loaded c) in
      match set_bits (Datatypes.S (length l')) (total c) n 0 (mkCache (bpb c) n l' y' d') with
      | Ret c' => Ret (s', c', None)
      | Panic => Panic
      | OutOfFuel => OutOfFuel
      end
  end.
End Ops.

(** ** WrapStream and WrapSlice *)

(* blockcache.go:120-136, 188-202 over a stream whose contents are a byte list
   (bytesextra.ReadWriteSeeker over a slice, or an os.File).  [grow] tells whether
   writing past the end extends the stream (file) or fails (slice). *)
Definition file_read (f : list Z) (off : Z) (buffer : list Z) : list Z :=
  let got := slice off (zlen buffer) f in
  splice 0 got buffer.                       (* short reads and EOF are ignored *)
Definition file_write (f : list Z) (off : Z) (b : list Z) : list Z :=
  splice off b (f ++ zrepeat 0 (off + zlen b - zlen f)).
Definition file_truncate (f : list Z) (n : Z) : list Z :=
  slice 0 n f ++ zrepeat 0 (n - zlen f).

(* blockcache.go:111-168 WrapStream over a healthy file-like stream: [total0] is the
   number of blocks at creation, captured by the fetch and flush callbacks. *)
Definition wrap_stream_cb (bytesPerBlock total0 : Z) (allowResize hasTruncate : bool)
  : callbacks (list Z) :=
  mkCb (list Z)
    (fun f block buffer =>
       if block >=? total0 then (f, buffer, Some (K ErrArgumentOutOfRange))
       else (f, file_read f (block * bytesPerBlock) buffer, None))
    (fun f block buffer =>
       if block >=? total0 then (f, Some (K ErrArgumentOutOfRange))
       else (file_write f (block * bytesPerBlock) buffer, None))
    (fun f n =>
       if allowResize && hasTruncate then (file_truncate f (n * bytesPerBlock), None)
       else if allowResize then (f, Some (K ErrNotSupported))
       else (f, Some (K ErrNotPermitted))).

(* blockcache.go:182-185 WrapSlice: the in-memory stream cannot grow and has no
   Truncate; every write is inside the slice because block < total0. *)
Definition wrap_slice_cb (bytesPerBlock : Z) (storage : list Z) : callbacks (list Z) :=
  wrap_stream_cb bytesPerBlock (zlen storage / bytesPerBlock) false false.
Definition wrap_slice (bytesPerBlock : Z) (storage : list Z) : cache :=
  new_cache bytesPerBlock (zlen storage / bytesPerBlock).
