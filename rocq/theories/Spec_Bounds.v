(** * Spec_Bounds: which blocks of the storage an operation may depend on. *)
From Verif Require Import GoBase Errors BlockCache BasicStream Spec_BasicStream.

(* [tot s] is the number of blocks the storage has.  Reading and writing blocks keeps it,
   a successful resize sets it; a buffer handed to the storage keeps its length. *)
Definition tracks {S} (cb : callbacks S) (tot : S -> Z) : Prop :=
  (forall s i b s' b' e, cb_fetch cb s i b = (s', b', e) -> tot s' = tot s /\ zlen b' = zlen b) /\
  (forall s i b s' e, cb_flush cb s i b = (s', e) -> tot s' = tot s) /\
  (forall s n s' e, cb_resize cb s n = (s', e) -> tot s' = match e with None => n | Some _ => tot s end).
(* two storages that behave alike when asked for one whole existing block, and may differ
   in any way when asked for anything else *)
Definition same_inside {S} (cb1 cb2 : callbacks S) (bs : Z) (tot : S -> Z) : Prop :=
  (forall s i b, 0 <= i < tot s -> zlen b = bs ->
     cb_fetch cb1 s i b = cb_fetch cb2 s i b /\ cb_flush cb1 s i b = cb_flush cb2 s i b) /\
  (forall s n, cb_resize cb1 s n = cb_resize cb2 s n).

(* any values a Go program can pass, also negative ones and ones outside the stream *)
Definition sop_go (o : sop) : Prop :=
  match o with
  | TReadAt len off => 0 <= len < 2^63 /\ - 2^63 <= off < 2^63
  | TRead len => 0 <= len < 2^63
  | TWriteAt b off => zlen b < 2^63 /\ - 2^63 <= off < 2^63
  | TWrite b => zlen b < 2^63
  | TSeek off whence => - 2^63 <= off < 2^63
  | TTruncate n => - 2^63 <= n < 2^63
  | TSync => True
  end.
Fixpoint srun {S} (cb : callbacks S) (s : S) (st : stream) (os : list sop) : outcome (S * stream * list sres) :=
  match os with
  | [] => Ret (s, st, [])
  | o :: os' =>
      match sexec_op cb s st o with
      | Ret (s1, st1, r) =>
          match srun cb s1 st1 os' with
          | Ret (s2, st2, rs) => Ret (s2, st2, r :: rs)
          | Panic => Panic | OutOfFuel => OutOfFuel
          end
      | Panic => Panic | OutOfFuel => OutOfFuel
      end
  end.
(* open a stream of [sz] bytes over a fresh cache of all blocks of the storage and use it *)
Definition open_and_run {S} (cb : callbacks S) (bs tot0 sz flags : Z) (s : S) (os : list sop) :=
  match s_new cb s sz (new_cache bs tot0) flags with
  | Ret (s1, Some st, e) =>
      match srun cb s1 st os with Ret (s2, st2, rs) => Ret (s2, Some st2, e, rs) | Panic => Panic | OutOfFuel => OutOfFuel end
  | Ret (s1, None, e) => Ret (s1, None, e, [])
  | Panic => Panic | OutOfFuel => OutOfFuel
  end.

(** The same for users of the cache itself *)
From Verif Require Import Spec_BlockCache.
Definition op_go (bs : Z) (o : op) : Prop :=
  match o with
  | ORead start len => 0 <= start < 2^64 /\ 0 <= len < 2^63
  | OWrite start b => 0 <= start < 2^64 /\ zlen b < 2^63
  | OSlice start count => 0 <= start < 2^64 /\ 0 <= count < 2^64
  | OModify start count off b =>               (* a program cannot write outside the slice it got *)
      0 <= start < 2^64 /\ 0 <= count /\ count * bs < 2^63 /\ 0 <= off /\ off + zlen b <= count * bs
  | OResize n => 0 <= n /\ n * bs < 2^63       (* the new array has to be allocated *)
  | _ => True
  end.
