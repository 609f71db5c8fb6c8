(** * Spec_Tools: what the statements of Props_Tools are about. *)
From Verif Require Import GoBase Spec_BlockCache BlockCache CmdTools.

(* os.Create makes a file that no path leads to yet *)
Definition fresh (e : env) (h : host) : Prop := forall q, ino h q <> Some (new_ino e).
(* the files of h' are those of h, except that [out] leads to o, whose contents may have changed *)
Definition only_changes (h h' : host) (out : list Z) (o : Z) : Prop :=
  ino h' out = Some o /\ (forall q, q <> out -> ino h' q = ino h q) /\ (forall j, j <> o -> bytes_of h' j = bytes_of h j).
(* operations of a cache that only read (or flush) *)
Definition reading (o : op) : Prop := match o with ORead _ _ | OSlice _ _ | OLoadAll | OData | OFlush => True | _ => False end.
