(** * Spec_Driver4: the contents of an object of any file system implementation *)
From Verif Require Import GoBase BlockCache Spec_BlockCache Driver Spec_Driver Errors Spec_Path.

(* the implementation's Stat of h (api.go:438-454) tells the truth about where its bytes are: blocks of
   [bs h] bytes, of which it counts no more than exist, and a size that those blocks can hold *)
Definition stored_as_stat_says {F H} (im : impl F H) (bs : H -> Z) (nb : H -> F -> Z) (fs : F) (h : H) : Prop :=
  let st := h_stat im fs h in
  f_bsize st = bs h /\ 0 <= f_nblocks st <= nb h fs /\ f_bsize st * f_nblocks st < 2^63 /\ 0 <= f_size st <= f_bsize st * f_nblocks st.
(* the first Size bytes of those blocks *)
Definition contents_of {F H} (im : impl F H) (blk : H -> F -> Z -> list Z) (fs : F) (h : H) : list Z :=
  let st := h_stat im fs h in slice 0 (f_size st) (storage_bytes (blk h) fs (f_nblocks st)).

(* what Readlink is to answer for the normalized path q in a tree whose root has the entries es: the text of
   the link there (if it is short enough for its blocks to be addressed), ErrInvalidArgument for anything
   that is no link, ErrNotFound if there is nothing.  (For longer paths it never returns, C46.) *)
Definition readlink_answer (bs : Z) (es : list (list Z * node)) (q : list Z) (r : list Z + kerr) : Prop :=
  (q = render [] /\ r = inr (K ErrInvalidArgument)) \/
  exists n, proper n /\ q = render [n] /\
    match lookup_in n es with
    | None => r = inr (K ErrNotFound)
    | Some (NLink t) => zlen t + bs < 2^63 -> r = inl t
    | Some _ => r = inr (K ErrInvalidArgument)
    end.
