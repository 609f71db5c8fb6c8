(** * StreamInput: a stream (and so an open file) as the input of the codecs and of io.ReadAll

    basicstream.BasicStream is an io.Reader.  Its Read is [s_read] of BasicStream.v; the codecs take any io.Reader
    (Bufio.v, ImageStream.v). *)
From Verif Require Import GoBase Errors Flags BlockCache BasicStream Rle Bufio.

(* errors.Is(err, io.EOF); fmt.Errorf with %w and Wrap keep the identity of what they wrap *)
Fixpoint is_eof (e : kerr) : bool :=
  match e with
  | KEOF => true
  | KMsg e | KWrap _ e => is_eof e
  | K _ | KUnexpectedEOF | KExt _ => false
  end.
Section Input.
Context {S : Type} (cb : callbacks S).
(* basicstream.go:79-85 Read, seen by its caller: the first n bytes of the buffer, which are bytes by their type, and the
   error *)
Definition stream_read (t : S * stream) (n : Z) : outcome (S * stream * list Z * option kerr) :=
  match s_read cb (fst t) (snd t) (zrepeat 0 n) with
  | Ret (s', st', b, k, e) => Ret (s', st', map u8 (slice 0 k b), e)
  | Panic => Panic
  | OutOfFuel => OutOfFuel
  end.
(* The same as an [ioreader].  The codecs tell errors apart with errors.Is(err, io.EOF) (rle_grouper.go:64, rle8.go:20, 66,
   78, 133, 184); the others are numbered by [code].  A panic would be the error -2, which is no [code] if those are not
   negative (C174 and C175 show that there are no panics). *)
Definition stream_reader (code : kerr -> Z) : ioreader (S * stream) := fun t n =>
  match stream_read t n with
  | Ret (s', st', c, e) => ((s', st'), c, option_map (fun x => if is_eof x then REOF else RFail (code x)) e)
  | _ => (t, [], Some (RFail (-2)))
  end.
(* io.ReadAll of Go's standard library, which compares with ==.  [room k] is cap(b) - len(b) before read number k: the
   growth of the slice is up to append. *)
Fixpoint read_all (fuel : nat) (room : nat -> Z) (k : nat) (t : S * stream) (acc : list Z) : outcome (S * stream * list Z * option kerr) :=
  match fuel with
  | O => OutOfFuel
  | Datatypes.S f =>
      match stream_read t (room k) with
      | Ret (s', st', c, None) => read_all f room (Datatypes.S k) (s', st') (acc ++ c)
      | Ret (s', st', c, Some KEOF) => Ret (s', st', acc ++ c, None)
      | Ret (s', st', c, Some e) => Ret (s', st', acc ++ c, Some e)
      | Panic => Panic
      | OutOfFuel => OutOfFuel
      end
  end.
Definition ReadAll (fuel : nat) (room : nat -> Z) (s : S) (st : stream) := read_all fuel room 0 (s, st) [].
End Input.
