(** * Spec_Access: what a program does with an open file *)
From Verif Require Import GoBase Errors Flags BlockCache Driver DriverFile.

(* the calls on the bytes of an open file (the interface api.go:576-598; WriteString is Write) *)
Inductive fcall :=
| CRead (buf : list Z) | CReadAt (buf : list Z) (off : Z) | CWrite (b : list Z) | CWriteAt (b : list Z) (off : Z)
| CTruncate (n : Z) | CSeek (off whence : Z) | CSync.
(* (file, buffer after the call, number returned, error) *)
Definition file_call {F H} (im : impl F H) (f : file H) (c : fcall) : M F (file H * list Z * Z * option kerr) := fun s =>
  match c with
  | CRead buf => fl_read im f buf s
  | CReadAt buf off => fl_read_at im f buf off s
  | CWrite b => bind (fl_write im f b) (fun r => let '(f', n, e) := r in ret (f', [], n, e)) s
  | CWriteAt b off => bind (fl_write_at im f b off) (fun r => let '(f', n, e) := r in ret (f', [], n, e)) s
  | CTruncate n => bind (fl_truncate im f n) (fun r => let '(f', e) := r in ret (f', [], 0, e)) s
  | CSeek off wh => let '(f', p, e) := fl_seek f off wh in Done s (f', [], p, e)
  | CSync => bind (fl_sync im f) (fun r => let '(f', e) := r in ret (f', [], 0, e)) s
  end.
Definition changes (c : fcall) : bool := match c with CWrite _ | CWriteAt _ _ | CTruncate _ => true | _ => false end.
Definition reads (c : fcall) : bool := match c with CRead _ | CReadAt _ _ => true | _ => false end.
(* the buffer a call is given to fill *)
Definition buffer_of (c : fcall) : list Z := match c with CRead b | CReadAt b _ => b | _ => [] end.

(* f' in state s' is what an opened file f is after any calls on it that satisfy [ok], between which other
   users of the file system do what [others] lets them do *)
Inductive used {F H} (im : impl F H) (ok : fcall -> Prop) (others : dst F -> dst F -> Prop) (f : file H) (s : dst F) : file H -> dst F -> Prop :=
| u_opened : used im ok others f s f s
| u_call f1 s1 c f2 s2 b n e : used im ok others f s f1 s1 -> ok c -> file_call im f1 c s1 = Done s2 (f2, b, n, e) -> used im ok others f s f2 s2
| u_others f1 s1 s2 : used im ok others f s f1 s1 -> others s1 s2 -> used im ok others f s f1 s2.
Definition any_call (c : fcall) : Prop := True.
Definition anything {F} (s s' : dst F) : Prop := True.
(* the others leave the blocks of h alone *)
Definition spare {F H} (h : H) (nb : H -> F -> Z) (blk : H -> F -> Z -> list Z) (s s' : dst F) : Prop :=
  nb h (d_fs s') = nb h (d_fs s) /\ forall j, 0 <= j < nb h (d_fs s) -> blk h (d_fs s') j = blk h (d_fs s) j.
(* arguments that are int64 numbers, no negative offset to read at, and buffers that end before byte 2^63 of
   a file of [size] bytes *)
Definition sane (size : Z) (c : fcall) : Prop :=
  match c with
  | CRead buf => size + zlen buf < 2^63
  | CReadAt buf off => size + zlen buf < 2^63 /\ 0 <= off
  | CSeek off _ => - 2^63 <= off < 2^63
  | _ => True
  end.
(* Seek(0, io.SeekCurrent) reports position p (and moves nothing) *)
Definition stands_at {F H} (im : impl F H) (f : file H) (p : Z) : Prop :=
  forall s, file_call im f (CSeek 0 1) s = Done s (f, [], p, None).
