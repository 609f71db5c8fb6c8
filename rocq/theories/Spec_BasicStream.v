(** * Spec_BasicStream: what a stream over a block cache promises. *)
From Verif Require Import GoBase ListZ Errors Flags BlockCache Spec_BlockCache BasicStream.

(* all bytes of the blocks under the stream, and the bytes of the stream proper *)
Definition sblocks {S} (blk : S -> Z -> list Z) (s : S) (st : stream) : list Z := contents blk s (scache st).
Definition sbytes {S} (blk : S -> Z -> list Z) (s : S) (st : stream) : list Z :=
  slice 0 (ssize st) (sblocks blk s st).

(** ** Operations *)
Inductive sop :=
| TReadAt (len off : Z) | TRead (len : Z)
| TWriteAt (b : list Z) (off : Z) | TWrite (b : list Z)
| TSeek (off whence : Z) | TTruncate (n : Z) | TSync.
Inductive sres := TCount (b : list Z) (n : Z) (e : option kerr).

(* arguments: non-negative offsets (C39 treats the others) whose end, rounded up to a
   block, is an addressable number of bytes *)
Definition sop_ok (bs : Z) (st : stream) (o : sop) : Prop :=
  match o with
  | TReadAt len off => 0 <= len /\ 0 <= off /\ off + len < 2^63
  | TRead len => 0 <= len /\ spos st + len < 2^63
  | TWriteAt b off => 0 <= off /\ off + zlen b + bs < 2^63
  | TWrite b => spos st + zlen b + bs < 2^63 /\ ssize st + zlen b + bs < 2^63
  | TSeek off _ => - 2^63 <= off < 2^63
  | TTruncate n => n + bs < 2^63
  | TSync => True
  end.

Section Exec.
Context {S : Type} (cb : callbacks S).
Definition sexec_op (s : S) (st : stream) (o : sop) : outcome (S * stream * sres) :=
  match o with
  | TReadAt len off =>
      match s_read_at cb s st (zrepeat 0 len) off with
      | Ret (s', st', b, n, e) => Ret (s', st', TCount b n e)
      | Panic => Panic | OutOfFuel => OutOfFuel
      end
  | TRead len =>
      match s_read cb s st (zrepeat 0 len) with
      | Ret (s', st', b, n, e) => Ret (s', st', TCount b n e)
      | Panic => Panic | OutOfFuel => OutOfFuel
      end
  | TWriteAt b off =>
      match s_write_at cb s st b off with
      | Ret (s', st', n, e) => Ret (s', st', TCount [] n e)
      | Panic => Panic | OutOfFuel => OutOfFuel
      end
  | TWrite b =>
      match s_write cb s st b with
      | Ret (s', st', n, e) => Ret (s', st', TCount [] n e)
      | Panic => Panic | OutOfFuel => OutOfFuel
      end
  | TSeek off whence =>
      let '(st', p, e) := s_seek st off whence in Ret (s, st', TCount [] p e)
  | TTruncate n =>
      match s_truncate cb s st n with
      | Ret (s', st', e) => Ret (s', st', TCount [] 0 e)
      | Panic => Panic | OutOfFuel => OutOfFuel
      end
  | TSync =>
      match s_sync cb s st with
      | Ret (s', st', e) => Ret (s', st', TCount [] 0 e)
      | Panic => Panic | OutOfFuel => OutOfFuel
      end
  end.

(* states reachable from a stream opened over a fresh cache, with any storage failures *)
Inductive sreach (bs : Z) (nb : S -> Z) : S -> stream -> Prop :=
| sr_new s0 total0 sz flags s st e : 0 < bs < 2^62 -> 0 <= total0 <= nb s0 -> bs * total0 < 2^63 ->
    s_new cb s0 sz (new_cache bs total0) flags = Ret (s, Some st, e) -> sreach bs nb s st
| sr_step s st o s' st' r : sreach bs nb s st -> sop_ok bs st o ->
    sexec_op s st o = Ret (s', st', r) -> sreach bs nb s' st'.
End Exec.

(* nothing but the position and the set of loaded blocks may differ *)
Definition sunchanged {S} (nb : S -> Z) (blk : S -> Z -> list Z) (s : S) (st : stream) (s' : S) (st' : stream)
  : Prop :=
  ssize st' = ssize st /\ sflags st' = sflags st /\ total (scache st') = total (scache st) /\
  sblocks blk s' st' = sblocks blk s st /\
  nb s' = nb s /\ forall j, 0 <= j < nb s -> blk s' j = blk s j.

(* storage that never fails *)
Definition reliable {S} (cb : callbacks S) : Prop :=
  (forall s i b, snd (cb_fetch cb s i b) = None) /\
  (forall s i b, snd (cb_flush cb s i b) = None) /\
  (forall s n, snd (cb_resize cb s n) = None).

(* sequences of operations; [P] restricts the steps *)
Inductive sruns {S} (cb : callbacks S) (bs : Z) (P : stream -> sop -> stream -> Prop)
  : S -> stream -> S -> stream -> Prop :=
| sn_nil s st : sruns cb bs P s st s st
| sn_cons s st o s1 st1 r s2 st2 : sop_ok bs st o -> sexec_op cb s st o = Ret (s1, st1, r) -> P st o st1 ->
    sruns cb bs P s1 st1 s2 st2 -> sruns cb bs P s st s2 st2.
Definition any_step (st : stream) (o : sop) (st' : stream) : Prop := True.

(* the blocks needed for n bytes, and the block array A cut or zero-extended to that many blocks *)
Definition nblocks (bs n : Z) : Z := (n + bs - 1) / bs.
Definition resized (bs : Z) (A : list Z) (n : Z) : list Z :=
  slice 0 (nblocks bs n * bs) A ++ zrepeat 0 (nblocks bs n * bs - zlen A).

(* When does a write of len bytes at off succeed?  The code asks for
   (off+len)/bs + 1 blocks beginning with block off/bs, out of T blocks. *)
Definition write_fits (bs T off len : Z) : bool :=
  (off / bs <? T) && (off / bs + ((off + len) / bs + 1) <=? T).
(* does it make the stream grow first? *)
Definition write_grows (bs T off len : Z) : bool := T <=? (off + len) / bs.

(* calls a writer with each chunk in turn *)
Definition deliver {W} (wr : W -> list Z -> W * Z * option kerr) (w : W) (chunks : list (list Z)) : W :=
  fold_left (fun w c => fst (fst (wr w c))) chunks w.
(* successive successful reads of a reader: the chunks it delivers *)
Inductive reads {R} (rd : R -> Z -> R * list Z * option kerr) (blockSize : Z) : R -> list (list Z) -> R -> Prop :=
| rd_nil r : reads rd blockSize r [] r
| rd_cons r r1 c cs r2 : rd r blockSize = (r1, c, None) -> reads rd blockSize r1 cs r2 ->
    reads rd blockSize r (c :: cs) r2.
(* successive writes, all fully successful *)
Inductive writes {S} (cb : callbacks S) : S -> stream -> list (list Z) -> S -> stream -> Prop :=
| wr_nil s st : writes cb s st [] s st
| wr_cons s st c cs s1 st1 s2 st2 : s_write cb s st c = Ret (s1, st1, zlen c, None) ->
    writes cb s1 st1 cs s2 st2 -> writes cb s st (c :: cs) s2 st2.
