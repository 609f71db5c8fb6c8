(** * Spec_FatChain: following the links of the FAT, whatever the implementation answers *)
From Verif Require Import GoBase Errors FatBoot FatDirent FatDriver.

(* from cluster c of state fs, through the clusters cs, to cluster c' of state fs': every link was read, led to a
   valid number, and no cluster of cs is an end marker *)
Inductive trail {F} (fi : fatimpl F) : F -> Z -> list Z -> F -> Z -> Prop :=
| tr_here fs c : trail fi fs c [] fs c
| tr_step fs c fs1 c1 cs fs2 c2 : fi_eoc fi fs c = false -> fi_get fi fs c = (fs1, inl c1) -> fi_valid fi fs1 c1 = true ->
    trail fi fs1 c1 cs fs2 c2 -> trail fi fs c (c :: cs) fs2 c2.
(* n links followed: every one was read and led to a valid number that is no end marker *)
Inductive hops {F} (fi : fatimpl F) : nat -> F -> Z -> F -> Z -> Prop :=
| hp_here fs c : hops fi 0 fs c fs c
| hp_step n fs c fs1 c1 fs2 c2 : fi_get fi fs c = (fs1, inl c1) -> fi_eoc fi fs1 c1 = false -> fi_valid fi fs1 c1 = true ->
    hops fi n fs1 c1 fs2 c2 -> hops fi (S n) fs c fs2 c2.
