(** * ImageStream: utilities/compression/compression.go over any io.Reader and any io.Writer

    Image.v lets the RLE8 compressor write into gzip without errors and takes gzip's output at the end.  Here
    every Write call goes where it goes in the code: RLE8 -> gzip.Writer -> countingWriter -> output, and the
    input of DecompressRLE8 is the gzip.Reader.  DEFLATE itself stays abstract: what gzip.Writer hands to the
    writer below it, call by call, and what gzip.Reader delivers, are parameters. *)
From Verif Require Import GoBase Rle Bufio Image.

(* io.Writer: the new state, the number of bytes taken and the error, if any *)
Definition iowriter (W : Type) := W -> list Z -> W * Z * option Z.

Section Codecs.
Context {T W : Type} (read : ioreader T) (wr : iowriter W).
(* rle8.go:25-39 *)
Fixpoint emit_groups_s (fuel : nat) (b len total : Z) (w : W) : outcome (Z * Z * option cerr * W) :=
  match fuel with
  | O => OutOfFuel
  | S fuel' =>
      if len >=? 2 then
        let rc := if len >? 257 then 255 else len - 2 in
        let '(w', n, e) := wr w [b; b; u8 rc] in
        match e with
        | Some e => Ret (len, total, Some (EWriter e), w')
        | None => emit_groups_s fuel' b (len - (rc + 2)) (i64 (total + n)) w'
        end
      else Ret (len, total, None, w)
  end.
(* rle8.go:14-56 CompressRLE8 *)
Fixpoint compress_s (fuel : nat) (b : bufio T) (total : Z) (w : W) : outcome (Z * option cerr * W) :=
  match fuel with
  | O => OutOfFuel
  | S fuel' =>
      obind (get_next_run_b read (S fuel') b) (fun '(run, ge, b') =>
        match ge with
        | GErr e => Ret (total, Some (EReader e), w)
        | _ =>
            obind (emit_groups_s (S (Z.to_nat (rlen run))) (rbyte run) (rlen run) total w) (fun '(len1, total1, e1, w1) =>
              match e1 with
              | Some e => Ret (total1, Some e, w1)
              | None =>
                  let '(w2, e2, total2) :=
                    if len1 =? 1
                    then let '(w', n, e) := wr w1 [rbyte run] in (w', e, i64 (total1 + n))
                    else (w1, None, total1) in
                  match e2 with
                  | Some e => Ret (total1, Some (EWriter e), w2)
                  | None =>
                      match ge with
                      | GNil => compress_s fuel' b' total2 w2
                      | _ => Ret (total2, None, w2)
                      end
                  end
              end)
        end)
  end.
(* rle8.go:58-108 DecompressRLE8 *)
Fixpoint decompress_s (fuel : nat) (b : bufio T) (last total : Z) (w : W) : outcome (Z * option cerr * W) :=
  match fuel with
  | O => OutOfFuel
  | S f =>
      obind (read_byte read 3 b) (fun '(b1, r) =>
        match r with
        | inr REOF => Ret (total, None, w)
        | inr (RFail e) => Ret (total, Some (EReader e), w)
        | inl cur =>
            if cur =? last then
              obind (read_byte read 3 b1) (fun '(b2, r2) =>
                match r2 with
                | inr REOF => Ret (total, Some EUnexpectedEOF, w)
                | inr (RFail e) => Ret (total, Some (EReader e), w)
                | inl rc =>
                    let '(w', n, e) := wr w (zrepeat cur (rc + 1)) in
                    match e with
                    | Some e => Ret (total, Some (EWriter e), w')
                    | None => decompress_s f b2 (-1) (i64 (total + n)) w'
                    end
                end)
            else
              let '(w', n, e) := wr w [cur] in
              match e with
              | Some e => Ret (total, Some (EWriter e), w')
              | None => decompress_s f b1 cur (i64 (total + n)) w'
              end
        end)
  end.
Definition CompressRLE8_s (fuel : nat) (input : T) (output : W) := compress_s fuel (new_reader input) 0 output.
Definition DecompressRLE8_s (fuel : nat) (input : T) (output : W) := decompress_s fuel (new_reader input) (-1) 0 output.
End Codecs.

(** ** gzip.Writer (Go's compress/gzip), as far as its errors and calls go *)
(* the compressor: what a Write and the Close hand to the underlying writer, call by call *)
Record gzw (G : Type) := mkGzw { gz_new : G; gz_write : G -> list Z -> G * list (list Z); gz_close : G -> list (list Z) }.
Arguments mkGzw {G}. Arguments gz_new {G}. Arguments gz_write {G}. Arguments gz_close {G}.
Section Gzip.
Context {G W : Type} (g : gzw G) (wr : iowriter W).
(* the calls stop at the first error *)
Fixpoint do_writes (ws : list (list Z)) (w : W) : W * option Z :=
  match ws with
  | [] => (w, None)
  | b :: ws' => let '(w', _, e) := wr w b in match e with Some e => (w', Some e) | None => do_writes ws' w' end
  end.
(* an error is kept and returned by every later call (gzip.go: z.err) *)
Definition gzst : Type := G * option Z * W.
Definition gzip_write : iowriter gzst := fun '(s, err, w) b =>
  match err with
  | Some e => ((s, err, w), 0, Some e)
  | None => let '(s', ws) := gz_write g s b in
            let '(w', e) := do_writes ws w in
            ((s', e, w'), match e with None => zlen b | Some _ => 0 end, e)
  end.
Definition gzip_close (st : gzst) : gzst * option Z :=
  let '(s, err, w) := st in
  match err with
  | Some e => (st, Some e)
  | None => let '(w', e) := do_writes (gz_close g s) w in ((s, e, w'), e)
  end.
End Gzip.

(* compression.go:83-90 countingWriter *)
Definition counting {W} (wr : iowriter W) : iowriter (W * Z) := fun '(w, cnt) b =>
  let '(w', n, e) := wr w b in ((w', match e with None => i64 (cnt + n) | Some _ => cnt end), n, e).

(* compression.go:15-37 CompressImage; gzip.NewWriterLevel does not fail for BestCompression *)
Definition CompressImage {T G W} (g : gzw G) (read : ioreader T) (wr : iowriter W) (fuel : nat) (input : T) (output : W)
  : outcome (Z * option ierr * W) :=
  obind (CompressRLE8_s read (gzip_write g (counting wr)) fuel input (gz_new g, None, (output, 0))) (fun '(_, err, st) =>
    let '((_, _, (w', cnt)), closeErr) := gzip_close g (counting wr) st in
    Ret (cnt, match err with
              | Some e => Some (IRle e)
              | None => match closeErr with Some e => Some (IGzip e) | None => None end
              end, w')).

(* compression.go:45-52 DecompressImage: [opn] is gzip.NewReader, [gread] the Read of the gzip.Reader it returns *)
Definition DecompressImage {T R W} (opn : T -> R + Z) (gread : ioreader R) (wr : iowriter W) (fuel : nat) (input : T) (output : W)
  : outcome (Z * option ierr * W) :=
  match opn input with
  | inr _ => Ret (0, Some IOpen, output)
  | inl r => obind (DecompressRLE8_s gread wr fuel r output) (fun '(n, err, w') => Ret (n, option_map IRle err, w'))
  end.

(** ** bufio.Writer (Go's bufio): a buffer of 4096 bytes *)
Record bwriter (W : Type) := mkBw { bw_buf : list Z; bw_err : option Z; bw_w : W }.
Arguments mkBw {W}. Arguments bw_buf {W}. Arguments bw_err {W}. Arguments bw_w {W}.
Definition ErrShortWrite : Z := -2.        (* io.ErrShortWrite *)
Section Bwriter.
Context {W : Type} (wr : iowriter W).
(* Flush; the error is also kept *)
Definition bw_flush (b : bwriter W) : bwriter W :=
  match bw_err b with
  | Some _ => b
  | None =>
      if zlen (bw_buf b) =? 0 then b
      else
        let '(w', n, e) := wr (bw_w b) (bw_buf b) in
        let e := match e with None => if n <? zlen (bw_buf b) then Some ErrShortWrite else None | _ => e end in
        match e with
        | Some _ => mkBw (slice n (zlen (bw_buf b) - n) (bw_buf b)) e w'
        | None => mkBw [] None w'
        end
  end.
(* Write: the loop [for len(p) > b.Available() && b.err == nil], then the rest is buffered *)
Fixpoint bw_loop (fuel : nat) (b : bwriter W) (p : list Z) (nn : Z) : outcome (bwriter W * Z * option Z) :=
  match bw_err b with
  | Some e => Ret (b, nn, Some e)
  | None =>
      if zlen p >? 4096 - zlen (bw_buf b) then
        match fuel with
        | O => OutOfFuel
        | S f =>
            if zlen (bw_buf b) =? 0 then
              let '(w', n, e) := wr (bw_w b) p in bw_loop f (mkBw [] e w') (slice n (zlen p - n) p) (nn + n)
            else
              let n := Z.min (4096 - zlen (bw_buf b)) (zlen p) in
              bw_loop f (bw_flush (mkBw (bw_buf b ++ slice 0 n p) None (bw_w b))) (slice n (zlen p - n) p) (nn + n)
        end
      else Ret (mkBw (bw_buf b ++ p) None (bw_w b), nn + zlen p, None)
  end.
(* with a writer that takes everything there are at most three turns *)
Definition bw_write (b : bwriter W) (p : list Z) : outcome (bwriter W * Z * option Z) := bw_loop 4 b p 0.
End Bwriter.
(* bytes.Buffer *)
Definition buffer_write : iowriter (list Z) := fun w b => (w ++ b, zlen b, None).
(* the bufio.Writer over a bytes.Buffer as an io.Writer; [bw_write] over a buffer always returns (ImageStreamProofs) *)
Definition bufio_buffer : iowriter (bwriter (list Z)) := fun b p =>
  match bw_write buffer_write b p with Ret r => r | _ => (b, 0, Some (-3)) end.
(* compression.go:58-71 DecompressImageToBytes *)
Definition DecompressImageToBytes {T R} (opn : T -> R + Z) (gread : ioreader R) (fuel : nat) (input : T) : outcome (list Z + ierr) :=
  obind (DecompressImage opn gread bufio_buffer fuel input (mkBw [] None [])) (fun '(_, err, b) =>
    match err with
    | Some e => Ret (inr e)
    | None => Ret (inl (bw_w (bw_flush buffer_write b)))
    end).
