(** * Spec_Fat8Same: names that FAT8 stores without changing them (except for case). *)
From Verif Require Import GoBase Spec_Fat8.

(* a name whose stem and extension do not end in a blank, and which does not end in a period or consist of a period as extension *)
Definition tidy_name (n : list Z) : Prop := exists s e, parts n s e /\ (forall u, s <> u ++ [32]) /\
  match e with None => True | Some x => (forall u, x <> u ++ [32]) /\ x <> [] /\ x <> [46] end.
