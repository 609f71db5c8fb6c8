(** * StreamCopy: one stream as the other end of WriteTo and ReadFrom of another

    io.Copy(dst, src) of Go's standard library calls src.WriteTo(dst) if src has that method, as streams have. *)
From Verif Require Import GoBase Errors Flags BlockCache BasicStream StreamInput.

(* basicstream.go:251-271 Write of a stream, as the writer that WriteTo is given.  The error -2 stands for a panic. *)
Definition stream_writer {S} (cb : callbacks S) : S * stream -> list Z -> (S * stream) * Z * option kerr := fun t b =>
  match s_write cb (fst t) (snd t) b with
  | Ret (s', st', n, e) => ((s', st'), n, e)
  | _ => (t, 0, Some (KExt (-2)))
  end.
(* basicstream.go:79-85 Read of a stream, as the reader that ReadFrom is given *)
Definition stream_source {S} (cb : callbacks S) : S * stream -> Z -> (S * stream) * list Z * option kerr := fun t n =>
  match stream_read cb t n with
  | Ret (s', st', c, e) => ((s', st'), c, e)
  | _ => (t, [], Some (KExt (-2)))
  end.
(* io.Copy(dst, src): the streams afterwards, the count and the error *)
Definition io_copy {S1 S2} (cb1 : callbacks S1) (cb2 : callbacks S2) (fuel : nat) (src : S1 * stream) (dst : S2 * stream) :=
  s_write_to cb1 (stream_writer cb2) fuel (fst src) (snd src) dst.
(* dst.ReadFrom(src), basicstream.go:131-162: the buffer has the size of src's blocks *)
Definition read_from_stream {S1 S2} (cb1 : callbacks S1) (cb2 : callbacks S2) (fuel : nat) (src : S1 * stream) (dst : S2 * stream) :=
  s_read_from cb2 (stream_source cb1) (bpb (scache (snd src))) fuel (fst dst) (snd dst) src.
