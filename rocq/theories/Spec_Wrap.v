(** * Spec_Wrap: the documented contracts of io.Reader, io.Writer, io.Seeker and os.File.Truncate. *)
From Verif Require Import GoBase ListZ Errors BlockCache WrapStream.

(* [con t] is what the stream holds and [pos t] where it stands *)
Record go_stream {T} (io : rws T) (con : T -> list Z) (pos : T -> Z) : Prop := {
  g_len : forall t, zlen (con t) < 2^63;                     (* sizes are int64 *)
  (* Seek changes no data; if it succeeds the stream stands there *)
  g_seek : forall t off t' e, 0 <= off -> rw_seek io t off = (t', e) -> con t' = con t /\ (e = None -> pos t' = off);
  (* Go cannot change the length of the caller's buffer *)
  g_buffer : forall t buf t' buf' n e, rw_read io t buf = (t', buf', n, e) -> zlen buf' = zlen buf;
  (* Read delivers n <= len(buffer) bytes from the current position on.  It may use the rest of the buffer as scratch
     space and may deliver fewer bytes than asked for with a nil error.  EOF means that there is nothing after them. *)
  g_read : forall t buf t' buf' n e, 0 <= pos t -> rw_read io t buf = (t', buf', n, e) ->
    con t' = con t /\ 0 <= n <= zlen buf /\ pos t + n <= Z.max (pos t) (zlen (con t)) /\
    slice 0 n buf' = slice (pos t) n (con t) /\ (e = Some KEOF -> zlen (con t) <= pos t + n);
  (* Write stores all of the buffer or fails; if it fails, any of the bytes may have been stored *)
  g_write : forall t buf t' n e, 0 <= pos t -> rw_write io t buf = (t', n, e) ->
    (e = None -> con t' = file_write (con t) (pos t) buf) /\
    (pos t + zlen buf <= zlen (con t) -> zlen (con t') = zlen (con t) /\
       forall i, 0 <= i < pos t \/ pos t + zlen buf <= i -> znth 0 (con t') i = znth 0 (con t) i);
  (* Truncate sets the size, filling with zeros, or fails without effect *)
  g_truncate : forall tr t n t' e, rw_truncate io = Some tr -> 0 <= n -> tr t n = (t', e) ->
    con t' = match e with None => file_truncate (con t) n | Some _ => con t end
}.
(* stronger than the contract: a Read that delivers less than asked for says so *)
Definition full_reads {T} (io : rws T) : Prop := forall t buf t' buf' n e, rw_read io t buf = (t', buf', n, e) -> e = None -> n = zlen buf.
(* nor does the contract forbid a Write to fail with io.EOF *)
Definition no_eof_writes {T} (io : rws T) : Prop := forall t buf t' n e, rw_write io t buf = (t', n, e) -> e <> Some KEOF.
