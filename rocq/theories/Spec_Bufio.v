(** * Spec_Bufio: what an io.Reader delivers *)
From Verif Require Import GoBase Rle Bufio.

(* io.Reader's contract: no more bytes than asked for, and bytes are bytes (never the -1 used for "none") *)
Definition go_reader {T} (read : ioreader T) : Prop :=
  forall t n t' c e, 0 <= n -> read t n = (t', c, e) -> zlen c <= n /\ Forall is_byte c.

(* Reads of 4096 bytes from t give the bytes D, in pieces of any sizes, and then the error e; bytes that come
   with the error count.  After 100 reads in a row that give nothing (k are left) the reader is given up
   with io.ErrNoProgress. *)
Inductive delivers {T} (read : ioreader T) : nat -> T -> list Z -> rend -> Prop :=
| d_end k t t' c e : read t 4096 = (t', c, Some e) -> delivers read (S k) t c e
| d_more k t t' c D e : read t 4096 = (t', c, None) -> c <> [] -> delivers read 100 t' D e -> delivers read (S k) t (c ++ D) e
| d_nothing k t t' D e : read t 4096 = (t', [], None) -> delivers read k t' D e -> delivers read (S k) t D e
| d_stuck t : delivers read 0 t [] ErrNoProgress.
Definition input_is {T} (read : ioreader T) (t : T) (D : list Z) (e : rend) : Prop := delivers read 100 t D e.

(* a reader that gives its pieces one read at a time (those longer than the buffer in part), then the error,
   together with the last piece if [early]; numbers stand for the bytes they are modulo 256 *)
Definition pieces (early : bool) (fin : rend) : ioreader (list (list Z)) := fun t n =>
  match t with
  | [] => ([], [], Some fin)
  | c :: t' =>
      if zlen c <=? n then (t', map u8 c, match t' with [] => if early then Some fin else None | _ => None end)
      else (slice n (zlen c - n) c :: t', map u8 (slice 0 n c), None)
  end.
