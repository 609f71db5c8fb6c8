(** * StreamFull: io.ReadFull on a stream *)
From Verif Require Import GoBase Errors Flags BlockCache BasicStream Rle Bufio StreamInput.

Section Full.
Context {S : Type} (cb : callbacks S).
(* io.ReadFull = io.ReadAtLeast with min = len(buf) of Go's standard library, on a stream ([stream_read] is
   basicstream.go:79-85): reads until [n] bytes have come ([got] so far) or an error comes; an error with the last bytes
   wanted is dropped, and io.EOF itself (compared with ==) after some bytes becomes io.ErrUnexpectedEOF.  The streams, the
   bytes in the buffer and the error. *)
Fixpoint full_loop (fuel : nat) (t : S * stream) (got : list Z) (n : Z) : outcome (S * stream * list Z * option kerr) :=
  match fuel with
  | O => OutOfFuel
  | Datatypes.S f =>
      if n <=? zlen got then Ret (fst t, snd t, got, None)
      else
        match stream_read cb t (n - zlen got) with
        | Ret (s', st', c, None) => full_loop f (s', st') (got ++ c) n
        | Ret (s', st', c, Some e) =>
            if n <=? zlen (got ++ c) then Ret (s', st', got ++ c, None)
            else Ret (s', st', got ++ c, Some (match e with KEOF => if zlen (got ++ c) >? 0 then KUnexpectedEOF else KEOF | _ => e end))
        | Panic => Panic
        | OutOfFuel => OutOfFuel
        end
  end.
Definition ReadFull (fuel : nat) (s : S) (st : stream) (n : Z) := full_loop fuel (s, st) [] n.
(* one ReadFull after the other, until one returns an error: the records read and that error *)
Fixpoint read_records (fuel : nat) (s : S) (st : stream) (ns : list Z) : outcome (S * stream * list (list Z) * option kerr) :=
  match ns with
  | [] => Ret (s, st, [], None)
  | n :: rest =>
      match ReadFull fuel s st n with
      | Ret (s', st', b, None) =>
          match read_records fuel s' st' rest with
          | Ret (s'', st'', bs, e) => Ret (s'', st'', b :: bs, e)
          | Panic => Panic
          | OutOfFuel => OutOfFuel
          end
      | Ret (s', st', b, Some e) => Ret (s', st', [], Some e)
      | Panic => Panic
      | OutOfFuel => OutOfFuel
      end
  end.
End Full.
