(** * Spec_Path: what a path means. *)
From Coq Require Import String Ascii.
From Verif Require Import GoBase.

(* string literals as bytes *)
Fixpoint B (s : string) : list Z :=
  match s with
  | EmptyString => []
  | String c s' => Z.of_nat (nat_of_ascii c) :: B s'
  end.

(* the non-empty pieces between slashes *)
Fixpoint fields_acc (cur : list Z) (p : list Z) : list (list Z) :=
  match p with
  | [] => match cur with [] => [] | _ => [cur] end
  | c :: p' =>
      if c =? 47 then match cur with [] => fields_acc [] p' | _ => cur :: fields_acc [] p' end
      else fields_acc (cur ++ [c]) p'
  end.
Definition fields (p : list Z) : list (list Z) := fields_acc [] p.

(* walking from a directory, given as the list of names leading to it *)
Inductive step_to : list (list Z) -> list Z -> list (list Z) -> Prop :=
| st_here d : step_to d (B ".") d
| st_up d n : step_to (d ++ [n]) (B "..") d
| st_up_root : step_to [] (B "..") []
| st_down d n : n <> B "." -> n <> B ".." -> step_to d n (d ++ [n]).
Inductive walk_to : list (list Z) -> list (list Z) -> list (list Z) -> Prop :=
| wt_nil d : walk_to d [] d
| wt_cons d c d1 cs d2 : step_to d c d1 -> walk_to d1 cs d2 -> walk_to d (c :: cs) d2.

(* canonical absolute paths: "/" or "/n1/n2/.../nk" with proper names *)
Definition proper (n : list Z) : Prop :=
  n <> [] /\ n <> B "." /\ n <> B ".." /\ ~ In 47 n.
Definition render (names : list (list Z)) : list Z :=
  match names with [] => [47] | _ => concat (map (fun n => 47 :: n) names) end.
Definition canonical (p : list Z) : Prop := exists names, Forall proper names /\ p = render names.

(* leads every directory to itself, like "." or "a/.." *)
Definition stays (p : list Z) : Prop := forall dir, walk_to dir (fields p) dir.
