(** * Scanner: model of utilities/compression/rle_grouper.go over any io.ByteScanner
    (Rle.v has GetNextRun over a byte sequence, Bufio.v over a bufio.Reader; this is the function as written). *)
From Verif Require Import GoBase Rle.

(* io.ByteScanner of Go's standard library: ReadByte and UnreadByte, with any state, results, errors and panics.
   The errors that errors.Is finds to be io.EOF are REOF. *)
Record scanner (T : Type) := mkScanner {
  sc_read : T -> outcome (T * (Z + rend));
  sc_unread : T -> T * option Z }.
Arguments mkScanner {T}. Arguments sc_read {T}. Arguments sc_unread {T}.

Section Grouper.
Context {T : Type} (sc : scanner T).
(* rle_grouper.go:56-82, the loop.  The error of UnreadByte (line 75) is dropped. *)
Fixpoint run_loop_sc (fuel : nat) (first runLength : Z) (t : T) : outcome (byterun * gerr * T) :=
  match fuel with
  | O => OutOfFuel
  | S f =>
      if runLength <? maxint then
        obind (sc_read sc t) (fun '(t', r) =>
          match r with
          | inr REOF => Ret (mkRun first runLength, GEOF, t')
          | inr (RFail e) => Ret (mkRun 0 0, GErr e, t')
          | inl c =>
              if negb (c =? first) then Ret (mkRun first runLength, GNil, fst (sc_unread sc t'))
              else run_loop_sc f first (runLength + 1) t'
          end)
      else Ret (mkRun first runLength, GNil, t)
  end.
(* rle_grouper.go:49-57 GetNextRun *)
Definition GetNextRun (fuel : nat) (t : T) : outcome (byterun * gerr * T) :=
  obind (sc_read sc t) (fun '(t', r) =>
    match r with
    | inr e => Ret (mkRun 0 0, end_gerr e, t')
    | inl c => run_loop_sc fuel c 1 t'
    end).
End Grouper.
