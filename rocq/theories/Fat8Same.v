(** * Fat8Same: model of FAT8Driver.SameFile (file_systems/fat8/readingdriver.go:14-16). *)
From Verif Require Import GoBase Errors.

(* strings.EqualFold, for ASCII strings: characters are equal, or one is the capital of the other *)
Fixpoint equal_fold (s t : list Z) : bool :=
  match s, t with
  | [], [] => true
  | c :: s', e :: t' =>
      let lo := Z.min c e in let hi := Z.max c e in
      if (lo =? hi) || ((65 <=? lo) && (lo <=? 90) && (hi =? lo + 32)) then equal_fold s' t' else false
  | _, _ => false
  end.
(* readingdriver.go:14-16; a FileInfo is used only through its Name *)
Definition same_file8 (name1 name2 : list Z) : bool := equal_fold name1 name2.
