(** * Rle: model of utilities/compression/rle8.go and rle_grouper.go *)
From Verif Require Import GoBase.

(** ** Streams *)

(* How an io.Reader ends: with io.EOF, or with some other error [e] (errors other
   than io.EOF are identified by a number).  An io.Reader wrapped in bufio.Reader
   is, for a consumer that stops at the first error, exactly a byte sequence
   followed by a terminal error. *)
Inductive rend := REOF | RFail (e : Z).
Record reader := mkReader { rdata : list Z; rterm : rend }.

(* One call to an io.Writer's Write either takes everything, or takes only the
   first [k] bytes and fails with error [e].  A writer is what it accepted so far
   plus its behaviour on the next calls (all later calls succeed).  Go's io.Writer
   contract (a short write returns a non-nil error) is built in. *)
Inductive wstep := WOk | WFail (k : nat) (e : Z).
Record writer := mkWriter { wout : list Z; wplan : list wstep }.

Definition write (w : writer) (b : list Z) : writer * option Z :=
  match wplan w with
  | [] => (mkWriter (wout w ++ b) [], None)
  | WOk :: p => (mkWriter (wout w ++ b) p, None)
  | WFail k e :: p => (mkWriter (wout w ++ firstn k b) p, Some e)
  end.

(* errors returned by the codec: the reader's error, the writer's error, or
   io.ErrUnexpectedEOF (all possibly wrapped with a message by fmt.Errorf %w; the
   message text is dropped, errors.Is sees through it). *)
Inductive cerr := EReader (e : Z) | EWriter (e : Z) | EUnexpectedEOF.
Record cresult := mkRes { rcount : Z; rerr : option cerr; rwriter : writer }.

(** ** rle_grouper.go *)

(* error of GetNextRun *)
Inductive gerr := GNil | GEOF | GErr (e : Z).
(* rle_grouper.go:11-19 ByteRun *)
Record byterun := mkRun { rbyte : Z; rlen : Z }.

Definition end_gerr (t : rend) : gerr := match t with REOF => GEOF | RFail e => GErr e end.

(* rle_grouper.go:56-82, the for loop; [runLength < math.MaxInt] is tested first.
   ReadByte at the end of the data yields the terminal error. *)
Fixpoint run_loop (first runLength : Z) (t : rend) (data : list Z)
  : byterun * gerr * list Z :=
  if runLength <? maxint then
    match data with
    | [] => match t with
            | REOF => (mkRun first runLength, GEOF, [])
            | RFail e => (mkRun 0 0, GErr e, [])
            end
    | c :: data' =>
        if negb (c =? first) then (mkRun first runLength, GNil, data)   (* UnreadByte *)
        else run_loop first (runLength + 1) t data'
    end
  else (mkRun first runLength, GNil, data).

(* rle_grouper.go:49-83 *)
Definition get_next_run (r : reader) : byterun * gerr * reader :=
  match rdata r with
  | [] => (mkRun 0 0, end_gerr (rterm r), r)
  | c :: d =>
      let '(run, e, d') := run_loop c 1 (rterm r) d in
      (run, e, mkReader d' (rterm r))
  end.

(** ** rle8.go *)

(* rle8.go:25-39, the inner loop: groups of two bytes and a repeat count.
   Returns the remaining run length. *)
Fixpoint emit_groups (fuel : nat) (b len total : Z) (w : writer)
  : outcome (Z * Z * option cerr * writer) :=
  match fuel with
  | O => OutOfFuel
  | S fuel' =>
      if len >=? 2 then
        let rc := if len >? 257 then 255 else len - 2 in
        let '(w', e) := write w [b; b; u8 rc] in
        match e with
        | Some e => Ret (len, total, Some (EWriter e), w')
        | None => emit_groups fuel' b (len - (rc + 2)) (i64 (total + 3)) w'
        end
      else Ret (len, total, None, w)
  end.

(* rle8.go:14-56 CompressRLE8 *)
Fixpoint compress_rle8_loop (fuel : nat) (r : reader) (total : Z) (w : writer)
  : outcome cresult :=
  match fuel with
  | O => OutOfFuel
  | S fuel' =>
      let '(run, ge, r') := get_next_run r in
      match ge with
      | GErr e => Ret (mkRes total (Some (EReader e)) w)
      | _ =>
          match emit_groups (S (Z.to_nat (rlen run))) (rbyte run) (rlen run) total w with
          | OutOfFuel => OutOfFuel
          | Panic => Panic
          | Ret (_, total1, Some e, w1) => Ret (mkRes total1 (Some e) w1)
          | Ret (len1, total1, None, w1) =>
              let '(w2, e2, total2) :=
                if len1 =? 1
                then let '(w', e) := write w1 [rbyte run] in (w', e, i64 (total1 + 1))
                else (w1, None, total1) in
              match e2 with
              | Some e => Ret (mkRes total1 (Some (EWriter e)) w2)
              | None =>
                  match ge with
                  | GNil => compress_rle8_loop fuel' r' total2 w2
                  | _ => Ret (mkRes total2 None w2)
                  end
              end
          end
      end
  end.
(* every GetNextRun that does not end the loop consumes at least one byte *)
Definition compress_rle8 (r : reader) (w : writer) : outcome cresult :=
  compress_rle8_loop (S (length (rdata r))) r 0 w.

(* rle8.go:58-108 DecompressRLE8; [last] is lastByteRead (-1 = none) *)
Fixpoint decompress_rle8_loop (data : list Z) (t : rend) (last total : Z) (w : writer)
  : cresult :=
  match data with
  | [] => match t with
          | REOF => mkRes total None w
          | RFail e => mkRes total (Some (EReader e)) w
          end
  | cur :: data1 =>
      if cur =? last then
        match data1 with
        | [] => match t with
                | REOF => mkRes total (Some EUnexpectedEOF) w
                | RFail e => mkRes total (Some (EReader e)) w
                end
        | rc :: data2 =>
            let out := zrepeat cur (rc + 1) in
            let '(w', e) := write w out in
            match e with
            | Some e => mkRes total (Some (EWriter e)) w'
            | None => decompress_rle8_loop data2 t (-1) (i64 (total + zlen out)) w'
            end
        end
      else
        let '(w', e) := write w [cur] in
        match e with
        | Some e => mkRes total (Some (EWriter e)) w'
        | None => decompress_rle8_loop data1 t cur (i64 (total + 1)) w'
        end
  end.
Definition decompress_rle8 (r : reader) (w : writer) : cresult :=
  decompress_rle8_loop (rdata r) (rterm r) (-1) 0 w.

(* rle8.go:138-166, one run of CompressRLERecursive: the list of Write calls.
   [bytes.Repeat({255}, n)] may be an empty Write. *)
Definition recursive_writes (run : byterun) : list (list Z) :=
  if rlen run =? 1 then [[rbyte run]]
  else if rlen run >=? 2 then
    [[rbyte run; rbyte run];
     zrepeat 255 ((rlen run - 2) / 255);
     [u8 ((rlen run - 2) mod 255)]]
  else [].

(* the Write calls of one run in order; each adds its length to the total *)
Fixpoint write_all (ws : list (list Z)) (total : Z) (w : writer)
  : Z * option cerr * writer :=
  match ws with
  | [] => (total, None, w)
  | b :: ws' =>
      let '(w', e) := write w b in
      match e with
      | Some e => (total, Some (EWriter e), w')
      | None => write_all ws' (i64 (total + zlen b)) w'
      end
  end.

(* rle8.go:127-175 CompressRLERecursive *)
Fixpoint compress_recursive_loop (fuel : nat) (r : reader) (total : Z) (w : writer)
  : outcome cresult :=
  match fuel with
  | O => OutOfFuel
  | S fuel' =>
      let '(run, ge, r') := get_next_run r in
      match ge with
      | GErr e => Ret (mkRes total (Some (EReader e)) w)
      | _ =>
          match write_all (recursive_writes run) total w with
          | (total1, Some e, w1) => Ret (mkRes total1 (Some e) w1)
          | (total1, None, w1) =>
              match ge with
              | GNil => compress_recursive_loop fuel' r' total1 w1
              | _ => Ret (mkRes total1 None w1)
              end
          end
      end
  end.
Definition compress_recursive (r : reader) (w : writer) : outcome cresult :=
  compress_recursive_loop (S (length (rdata r))) r 0 w.

(* rle8.go:178-226 DecompressRLERecursive.  Its body is, statement by statement,
   the body of CompressRLERecursive (lines 127-175): it compresses again. *)
Definition decompress_recursive (r : reader) (w : writer) : outcome cresult :=
  compress_recursive r w.
