(** * Bufio: the codecs of utilities/compression over any io.Reader

    Rle.v takes the input as a byte sequence followed by a terminal error.  Here the input is an io.Reader
    that may split its bytes into reads in any way, and the bufio.Reader that rle_grouper.go:33-35 and
    rle8.go:59 put around it is modelled (Go's standard library, bufio/bufio.go: NewReader, fill, readErr,
    ReadByte, UnreadByte). *)
From Verif Require Import GoBase Rle.

(* io.Reader: one call of Read with a buffer of the given length gives the bytes read and the error, if any *)
Definition ioreader (T : Type) := T -> Z -> T * list Z * option rend.
(* io.ErrNoProgress; it is told apart from the reader's own errors, which have numbers from 0 on *)
Definition ErrNoProgress : rend := RFail (-1).

(* bufio.Reader.  [b_unread] is buf[r:w]; [b_r] is r; [b_last] is lastByte (-1: none).
   defaultBufSize is 4096.  Bytes before r other than the last one read are never looked at again. *)
Record bufio (T : Type) := mkBuf { b_rd : T; b_unread : list Z; b_r : Z; b_err : option rend; b_last : Z }.
Arguments mkBuf {T}. Arguments b_rd {T}. Arguments b_unread {T}. Arguments b_r {T}. Arguments b_err {T}. Arguments b_last {T}.
(* bufio.NewReader *)
Definition new_reader {T} (t : T) : bufio T := mkBuf t [] 0 None (-1).

Section Reader.
Context {T : Type} (read : ioreader T).
(* the loop of fill: at most maxConsecutiveEmptyReads = 100 reads *)
Fixpoint fill_loop (k : nat) (b : bufio T) : bufio T :=
  match k with
  | O => mkBuf (b_rd b) (b_unread b) (b_r b) (Some ErrNoProgress) (b_last b)
  | S k' =>
      let '(t, c, e) := read (b_rd b) (4096 - zlen (b_unread b)) in
      let b' := mkBuf t (b_unread b ++ c) (b_r b) e (b_last b) in
      match e with
      | Some _ => b'
      | None => if zlen c >? 0 then b' else fill_loop k' b'
      end
  end.
(* fill: the unread bytes are moved to the start first.  It panics if the buffer is full. *)
Definition fill (b : bufio T) : outcome (bufio T) :=
  if zlen (b_unread b) >=? 4096 then Panic
  else Ret (fill_loop 100 (mkBuf (b_rd b) (b_unread b) 0 (b_err b) (b_last b))).
(* ReadByte: the loop [for b.r == b.w] *)
Fixpoint read_byte (fuel : nat) (b : bufio T) : outcome (bufio T * (Z + rend)) :=
  match fuel with
  | O => OutOfFuel
  | S f =>
      match b_unread b with
      | c :: u => Ret (mkBuf (b_rd b) u (b_r b + 1) (b_err b) c, inl c)
      | [] =>
          match b_err b with
          | Some e => Ret (mkBuf (b_rd b) [] (b_r b) None (b_last b), inr e)      (* readErr clears the error *)
          | None => obind (fill b) (read_byte f)
          end
      end
  end.
(* UnreadByte; false is ErrInvalidUnreadByte *)
Definition unread_byte (b : bufio T) : bufio T * bool :=
  if (b_last b <? 0) || ((b_r b =? 0) && (zlen (b_unread b) >? 0)) then (b, false)
  else if b_r b >? 0 then (mkBuf (b_rd b) (b_last b :: b_unread b) (b_r b - 1) (b_err b) (-1), true)
  else (mkBuf (b_rd b) [b_last b] 0 (b_err b) (-1), true).

(* rle_grouper.go:59-82, the loop of GetNextRun; the result of UnreadByte is not looked at (line 76) *)
Fixpoint run_loop_b (fuel : nat) (first runLength : Z) (b : bufio T) : outcome (byterun * gerr * bufio T) :=
  match fuel with
  | O => OutOfFuel
  | S f =>
      if runLength <? maxint then
        obind (read_byte 3 b) (fun '(b', r) =>
          match r with
          | inr REOF => Ret (mkRun first runLength, GEOF, b')
          | inr (RFail e) => Ret (mkRun 0 0, GErr e, b')
          | inl c =>
              if negb (c =? first) then Ret (mkRun first runLength, GNil, fst (unread_byte b'))
              else run_loop_b f first (runLength + 1) b'
          end)
      else Ret (mkRun first runLength, GNil, b)
  end.
(* rle_grouper.go:49-57 *)
Definition get_next_run_b (fuel : nat) (b : bufio T) : outcome (byterun * gerr * bufio T) :=
  obind (read_byte 3 b) (fun '(b', r) =>
    match r with
    | inr e => Ret (mkRun 0 0, end_gerr e, b')
    | inl c => run_loop_b fuel c 1 b'
    end).

(* rle8.go:14-56 CompressRLE8 *)
Fixpoint compress_rle8_b (fuel : nat) (b : bufio T) (total : Z) (w : writer) : outcome cresult :=
  match fuel with
  | O => OutOfFuel
  | S fuel' =>
      obind (get_next_run_b (S fuel') b) (fun '(run, ge, b') =>
        match ge with
        | GErr e => Ret (mkRes total (Some (EReader e)) w)
        | _ =>
            obind (emit_groups (S (Z.to_nat (rlen run))) (rbyte run) (rlen run) total w) (fun '(len1, total1, e1, w1) =>
              match e1 with
              | Some e => Ret (mkRes total1 (Some e) w1)
              | None =>
                  let '(w2, e2, total2) :=
                    if len1 =? 1
                    then let '(w', e) := write w1 [rbyte run] in (w', e, i64 (total1 + 1))
                    else (w1, None, total1) in
                  match e2 with
                  | Some e => Ret (mkRes total1 (Some (EWriter e)) w2)
                  | None =>
                      match ge with
                      | GNil => compress_rle8_b fuel' b' total2 w2
                      | _ => Ret (mkRes total2 None w2)
                      end
                  end
              end)
        end)
  end.
(* rle8.go:127-175 CompressRLERecursive *)
Fixpoint compress_recursive_b (fuel : nat) (b : bufio T) (total : Z) (w : writer) : outcome cresult :=
  match fuel with
  | O => OutOfFuel
  | S fuel' =>
      obind (get_next_run_b (S fuel') b) (fun '(run, ge, b') =>
        match ge with
        | GErr e => Ret (mkRes total (Some (EReader e)) w)
        | _ =>
            match write_all (recursive_writes run) total w with
            | (total1, Some e, w1) => Ret (mkRes total1 (Some e) w1)
            | (total1, None, w1) =>
                match ge with
                | GNil => compress_recursive_b fuel' b' total1 w1
                | _ => Ret (mkRes total1 None w1)
                end
            end
        end)
  end.
(* rle8.go:58-108 DecompressRLE8 *)
Fixpoint decompress_rle8_b (fuel : nat) (b : bufio T) (last total : Z) (w : writer) : outcome cresult :=
  match fuel with
  | O => OutOfFuel
  | S f =>
      obind (read_byte 3 b) (fun '(b1, r) =>
        match r with
        | inr REOF => Ret (mkRes total None w)
        | inr (RFail e) => Ret (mkRes total (Some (EReader e)) w)
        | inl cur =>
            if cur =? last then
              obind (read_byte 3 b1) (fun '(b2, r2) =>
                match r2 with
                | inr REOF => Ret (mkRes total (Some EUnexpectedEOF) w)
                | inr (RFail e) => Ret (mkRes total (Some (EReader e)) w)
                | inl rc =>
                    let out := zrepeat cur (rc + 1) in
                    let '(w', e) := write w out in
                    match e with
                    | Some e => Ret (mkRes total (Some (EWriter e)) w')
                    | None => decompress_rle8_b f b2 (-1) (i64 (total + zlen out)) w'
                    end
                end)
            else
              let '(w', e) := write w [cur] in
              match e with
              | Some e => Ret (mkRes total (Some (EWriter e)) w')
              | None => decompress_rle8_b f b1 cur (i64 (total + 1)) w'
              end
        end)
  end.
End Reader.
(* the functions as they are called: a fresh bufio.Reader around the input *)
Definition CompressRLE8 {T} (read : ioreader T) (fuel : nat) (input : T) (w : writer) : outcome cresult :=
  compress_rle8_b read fuel (new_reader input) 0 w.
Definition CompressRLERecursive {T} (read : ioreader T) (fuel : nat) (input : T) (w : writer) : outcome cresult :=
  compress_recursive_b read fuel (new_reader input) 0 w.
Definition DecompressRLE8 {T} (read : ioreader T) (fuel : nat) (input : T) (w : writer) : outcome cresult :=
  decompress_rle8_b read fuel (new_reader input) (-1) 0 w.
