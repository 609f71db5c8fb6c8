(** * Spec_Edit: an open file as an array of bytes in memory *)
From Verif Require Import GoBase Errors Flags BlockCache BasicStream Spec_BasicStream Driver DriverFile Spec_Access.

(* the bytes of all blocks, and the position *)
Record doc := mkDoc { d_text : list Z; d_pos : Z }.
Definition answer : Type := list Z * Z * option kerr.

(* reading [buf] at [off] of the first [size] bytes of [text] *)
Definition look (flags size : Z) (text buf : list Z) (off : Z) : answer :=
  if negb (io_read flags) then (buf, 0, Some (K ErrNotPermitted))
  else if zlen buf =? 0 then (buf, 0, None)
  else if size <=? off then (buf, 0, Some KEOF)
  else let n := Z.min (zlen buf) (size - off) in
       (slice off n text ++ slice n (zlen buf - n) buf, n, if n <? zlen buf then Some KEOF else None).
(* replacing bytes; the call succeeds only near the start (see write_fits, C33) *)
Definition put (bs N : Z) (text b : list Z) (off : Z) : list Z * Z * option kerr :=
  if write_fits bs N off (zlen b) then (splice off b text, zlen b, None) else (text, 0, Some (K ErrArgumentOutOfRange)).
Definition place (flags size : Z) (d : doc) : Z := if io_append flags then size else d_pos d.
Definition target (size : Z) (d : doc) (off whence : Z) : option Z :=
  if whence =? 0 then Some off else if whence =? 1 then Some (d_pos d + off) else if whence =? 2 then Some (size + off) else None.

(* what a call answers and leaves, on a file of N blocks of bs bytes of which the first [size] bytes count *)
Definition expected (flags size bs N : Z) (d : doc) (c : fcall) : doc * answer :=
  match c with
  | CReadAt buf off => (d, look flags size (d_text d) buf off)
  | CRead buf => let '(b, n, e) := look flags size (d_text d) buf (d_pos d) in
                 (mkDoc (d_text d) (match e with None => d_pos d + n | Some _ => d_pos d end), (b, n, e))
  | CWriteAt b off =>
      if io_append flags || negb (io_write flags) then (d, ([], 0, Some (K ErrNotPermitted)))
      else let '(t, n, e) := put bs N (d_text d) b off in (mkDoc t (d_pos d), ([], n, e))
  | CWrite b =>
      if negb (io_write flags) then (d, ([], 0, Some (K ErrNotPermitted)))
      else let q := place flags size d in
           let '(t, n, e) := put bs N (d_text d) b q in (mkDoc t (q + n), ([], n, e))
  | CTruncate n => (d, ([], 0, Some (K (if io_write flags then ErrInvalidArgument else ErrNotPermitted))))
  | CSeek off wh =>
      match target size d off wh with
      | None => (d, ([], d_pos d, Some KBadWhence))
      | Some t => if t <? 0 then (d, ([], d_pos d, Some KNegativeSeek)) else (mkDoc (d_text d) t, ([], t, None))
      end
  | CSync => (d, ([], 0, if 0 <? N then None else Some (K ErrArgumentOutOfRange)))
  end.
(* calls whose numbers are int64, that read no negative offset and write before the last byte of the last
   block (writes that reach it make the file grow), and no Truncate that would be carried out *)
Definition in_place (flags size bs N : Z) (d : doc) (c : fcall) : Prop :=
  match c with
  | CRead buf => size + zlen buf < 2^63
  | CReadAt buf off => size + zlen buf < 2^63 /\ 0 <= off
  | CWrite b => place flags size d + zlen b < bs * N
  | CWriteAt b off => 0 <= off /\ off + zlen b < bs * N
  | CTruncate n => io_write flags = true -> n < 0
  | CSeek off wh => - 2^63 <= off < 2^63 /\ match target size d off wh with Some t => - 2^63 <= t < 2^63 | None => True end
  | CSync => True
  end.

(* the calls made on an open file, with the answers, oldest first; meanwhile others do what they may *)
Inductive session {F H} (im : impl F H) (others : dst F -> dst F -> Prop) (f : file H) (s : dst F) : list (fcall * answer) -> file H -> dst F -> Prop :=
| ss_opened : session im others f s [] f s
| ss_call l f1 s1 c f2 s2 b n e : session im others f s l f1 s1 -> file_call im f1 c s1 = Done s2 (f2, b, n, e) ->
    session im others f s (l ++ [(c, (b, n, e))]) f2 s2
| ss_others l f1 s1 s2 : session im others f s l f1 s1 -> others s1 s2 -> session im others f s l f1 s2.
(* the same calls on the array: the array afterwards and the answers *)
Fixpoint replay (flags size bs N : Z) (d : doc) (cs : list fcall) : doc * list answer :=
  match cs with
  | [] => (d, [])
  | c :: cs => let '(d1, a) := expected flags size bs N d c in let '(d2, l) := replay flags size bs N d1 cs in (d2, a :: l)
  end.
Fixpoint all_in_place (flags size bs N : Z) (d : doc) (cs : list fcall) : Prop :=
  match cs with
  | [] => True
  | c :: cs => in_place flags size bs N d c /\ all_in_place flags size bs N (fst (expected flags size bs N d c)) cs
  end.
