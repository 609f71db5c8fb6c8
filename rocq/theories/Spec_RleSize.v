(** * Spec_RleSize: how long the compressed form of an input is *)
From Verif Require Import GoBase Rle.

(* an input as its maximal runs: (byte, length), neighbours differ *)
Fixpoint neighbours_differ (L : list (Z * Z)) : Prop :=
  match L with
  | a :: ((b :: _) as rest) => fst a <> fst b /\ neighbours_differ rest
  | _ => True
  end.
Definition maximal_runs (D : list Z) (L : list (Z * Z)) : Prop :=
  D = concat (map (fun r => zrepeat (fst r) (snd r)) L) /\ Forall (fun r => 1 <= snd r) L /\ neighbours_differ L.
(* doc.go:17-29: three bytes for every 257 bytes of a run; what remains takes nothing, itself, or three bytes *)
Definition size8 (n : Z) : Z := 3 * (n / 257) + match n mod 257 with 0 => 0 | 1 => 1 | _ => 3 end.
(* rle8.go:110-121: the byte twice, 255 as often as it fits in what is left, and the rest *)
Definition sizeR (n : Z) : Z := if n <? 2 then n else 2 + (n - 2) / 255 + 1.
Definition sum (f : Z -> Z) (L : list (Z * Z)) : Z := fold_right (fun r a => f (snd r) + a) 0 L.
Definition compressed8 (D C : list Z) : Prop := exists n, compress_rle8 (mkReader D REOF) (mkWriter [] []) = Ret (mkRes n None (mkWriter C [])).
Definition compressedR (D C : list Z) : Prop := exists n, compress_recursive (mkReader D REOF) (mkWriter [] []) = Ret (mkRes n None (mkWriter C [])).
