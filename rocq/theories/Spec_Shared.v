(** * Spec_Shared: several block caches over the same storage, used in any interleaving.
    Cache number k is [p k]. *)
From Verif Require Import GoBase ListZ Errors BlockCache Spec_BlockCache.

Definition pool := nat -> cache.
Definition put (p : pool) (k : nat) (c : cache) : pool := fun j => if Nat.eqb j k then c else p j.
(* run operations, each on the cache it names *)
Fixpoint share {S} (cb : callbacks S) (s : S) (p : pool) (os : list (nat * op)) : outcome (S * pool * list res) :=
  match os with
  | [] => Ret (s, p, [])
  | (k, o) :: os' =>
      match exec_op cb s (p k) o with
      | Ret (s1, c1, r) =>
          match share cb s1 (put p k c1) os' with
          | Ret (s2, p2, rs) => Ret (s2, p2, r :: rs)
          | Panic => Panic | OutOfFuel => OutOfFuel
          end
      | Panic => Panic | OutOfFuel => OutOfFuel
      end
  end.

(* the blocks an operation looks at, and the blocks it changes, in a cache of n blocks *)
Definition touches (bs n : Z) (o : op) (i : Z) : Prop :=
  match o with
  | ORead start len => In i (blocks_of bs start len)
  | OWrite start b => In i (blocks_of bs start (zlen b))
  | OSlice start count | OModify start count _ _ => start <= i < start + count
  | OLoadAll | OData => 0 <= i < n
  | OFlush | OResize _ => False
  end.
Definition changes (bs : Z) (o : op) (i : Z) : Prop :=
  match o with
  | OWrite start b => In i (blocks_of bs start (zlen b))
  | OModify start count _ _ => start <= i < start + count
  | _ => False
  end.
(* [rd k i]: the user lets cache k look at block i; [wr k i]: lets it change block i *)
Definition follows (bs n : Z) (rd wr : nat -> Z -> bool) (ko : nat * op) : Prop :=
  op_ok bs (snd ko) /\ (forall m, snd ko <> OResize m) /\
  (forall i, 0 <= i < n -> touches bs n (snd ko) i -> rd (fst ko) i = true) /\
  (forall i, 0 <= i < n -> changes bs (snd ko) i -> wr (fst ko) i = true).
(* a block that some cache may change is used by that cache only *)
Definition one_writer (rd wr : nat -> Z -> bool) : Prop :=
  forall k i, wr k i = true -> rd k i = true /\ forall j, rd j i = true -> j = k.
