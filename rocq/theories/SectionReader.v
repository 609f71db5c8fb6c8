(** * SectionReader: io.SectionReader over a stream, for example a partition of a disk image

    A stream is an io.ReaderAt.  io.NewSectionReader(stream, off, n) of Go's standard library reads it with ReadAt. *)
From Verif Require Import GoBase Errors Flags BlockCache BasicStream Rle Bufio StreamInput.

Section Sec.
Context {S : Type} (cb : callbacks S).
(* the stream, the next offset and the limit *)
Definition section : Type := S * stream * Z * Z.
(* NewSectionReader: a limit that would not fit is the largest *)
Definition NewSectionReader (s : S) (st : stream) (off n : Z) : section :=
  (s, st, off, if off <=? 2^63 - 1 - n then i64 (off + n) else 2^63 - 1).
(* its Read: no further than the limit, with ReadAt (basicstream.go:87-127) *)
Definition section_read (t : section) (n : Z) : outcome (section * list Z * option kerr) :=
  let '(s, st, off, limit) := t in
  if off >=? limit then Ret (t, [], Some KEOF)
  else
    let m := if n >? i64 (limit - off) then i64 (limit - off) else n in
    match s_read_at cb s st (zrepeat 0 m) off with
    | Ret (s', st', b, k, e) => Ret ((s', st', i64 (off + k), limit), map u8 (slice 0 k b), e)
    | Panic => Panic
    | OutOfFuel => OutOfFuel
    end.
(* as an [ioreader], see StreamInput.stream_reader *)
Definition section_reader (code : kerr -> Z) : ioreader section := fun t n =>
  match section_read t n with
  | Ret (t', c, e) => (t', c, option_map (fun x => if is_eof x then REOF else RFail (code x)) e)
  | _ => (t, [], Some (RFail (-2)))
  end.
End Sec.
