(** * StreamOutput: a stream as the output of the codecs, for example to restore an image onto a disk *)
From Verif Require Import GoBase Errors Flags BlockCache BasicStream Image ImageStream StreamInput StreamCopy.

(* basicstream.go:251-271 Write, as the io.Writer that CompressImage and DecompressImage (compression.go:15-52) are given.
   Its errors are numbered by [code], as in StreamInput.stream_reader. *)
Definition stream_out {S} (cb : callbacks S) (code : kerr -> Z) : iowriter (S * stream) := fun t b =>
  let '(t', n, e) := stream_writer cb t b in (t', n, option_map code e).
