(** * Image: model of utilities/compression/compression.go

    gzip is an oracle: a compressor that turns the sequence of bytes written to it
    into the sequence of Write calls it makes on the underlying writer, and a
    decompressor that turns a byte stream into a byte stream (with its terminal
    error) or fails to open.  What is assumed of it is a premise of the theorems. *)
From Verif Require Import GoBase Rle.

Record gzip := mkGzip {
  gz_encode : list Z -> list (list Z);            (* writes made until Close returns *)
  gz_decode : list Z -> option reader             (* None: gzip.NewReader fails *)
}.

(* errors of CompressImage / DecompressImage *)
Inductive ierr := IRle (e : cerr) | IGzip (e : Z) | IOpen.

(* compression.go:83-90 countingWriter.Write: counts the bytes of successful writes *)
Fixpoint counted_writes (ws : list (list Z)) (count : Z) (w : writer) : Z * option Z * writer :=
  match ws with
  | [] => (count, None, w)
  | b :: ws' =>
      let '(w', e) := write w b in
      match e with
      | Some e => (count, Some e, w')            (* the gzip writer stops at an error *)
      | None => counted_writes ws' (i64 (count + zlen b)) w'
      end
  end.

(* compression.go:15-37 CompressImage.  Simplification: gzip buffers internally, so
   the model lets the RLE8 compressor write into the gzip writer without error and
   performs gzip's own writes when the gzip writer is closed; an error of those
   writes is reported by Close (gzip keeps its first error, so when the real gzip
   writer fails earlier, CompressRLE8 returns that error and the result is an
   error too).  An error of the input makes CompressRLE8 fail; Close still writes
   what was compressed so far. *)
Definition compress_image (g : gzip) (input : reader) (output : writer)
  : outcome (Z * option ierr * writer) :=
  match compress_rle8 input (mkWriter [] []) with
  | Ret r =>
      let '(n, closeErr, w') := counted_writes (gz_encode g (wout (rwriter r))) 0 output in
      let err := match rerr r with
                 | Some e => Some (IRle e)
                 | None => match closeErr with Some e => Some (IGzip e) | None => None end
                 end in
      Ret (n, err, w')
  | Panic => Panic
  | OutOfFuel => OutOfFuel
  end.

(* compression.go:45-52 DecompressImage.  (The input is a complete byte sequence; a
   failing input reader shows up as the gzip reader's terminal error.) *)
Definition decompress_image (g : gzip) (input : list Z) (output : writer)
  : Z * option ierr * writer :=
  match gz_decode g input with
  | None => (0, Some IOpen, output)
  | Some r =>
      let res := decompress_rle8 r output in
      (rcount res, match rerr res with Some e => Some (IRle e) | None => None end, rwriter res)
  end.

(* compression.go:58-71 DecompressImageToBytes: bytes.Buffer behind bufio.Writer
   never fails; the whole content is copied out after Flush. *)
Definition decompress_image_to_bytes (g : gzip) (input : list Z) : list Z + ierr :=
  let '(_, err, w) := decompress_image g input (mkWriter [] []) in
  match err with Some e => inr e | None => inl (wout w) end.
