(** * Spec_ImageStream: what is assumed of writers and of gzip *)
From Verif Require Import GoBase Rle Bufio Image ImageStream Spec_Bufio.

(* io.Writer's contract: Write takes some first part of the bytes, all of them if there is no error; [got] is
   what the writer has taken so far *)
Definition go_writer {W} (wr : iowriter W) (got : W -> list Z) : Prop :=
  forall w b w' n e, wr w b = (w', n, e) -> 0 <= n <= zlen b /\ (e = None -> n = zlen b) /\ got w' = got w ++ slice 0 n b.
Definition never_fails {W} (wr : iowriter W) : Prop := forall w b, snd (wr w b) = None.
(* [failed w]: some Write has failed by now *)
Definition tells_failures {W} (wr : iowriter W) (failed : W -> bool) : Prop :=
  forall w b w' n e, wr w b = (w', n, e) -> failed w' = failed w || match e with Some _ => true | None => false end.

(* the bytes gzip makes of a series of Write calls and the Close *)
Fixpoint gz_calls {G} (g : gzw G) (s : G) (bs : list (list Z)) : list (list Z) :=
  match bs with
  | [] => gz_close g s
  | b :: bs' => let '(s', ws) := gz_write g s b in ws ++ gz_calls g s' bs'
  end.
Definition gz_image {G} (g : gzw G) (bs : list (list Z)) : list Z := concat (gz_calls g (gz_new g) bs).
(* gunzipping gives back what was written, however the input is cut into reads *)
Definition gunzips {G T R} (g : gzw G) (read : ioreader T) (opn : T -> R + Z) (gread : ioreader R) : Prop :=
  forall bs t, Forall bytes bs -> input_is read t (gz_image g bs) REOF ->
    exists r, opn t = inl r /\ input_is gread r (concat bs) REOF.
