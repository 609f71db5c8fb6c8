(** * Spec_Scanner: what an io.ByteScanner holds, what it remembers *)
From Verif Require Import GoBase Rle Scanner.

(* [holds t D e]: from t on the scanner gives the bytes D and then the error e.  The contract of io.ByteScanner:
   ReadByte takes the next byte, and UnreadByte right after that puts it back. *)
Definition byte_scanner {T} (sc : scanner T) (holds : T -> list Z -> rend -> Prop) : Prop :=
  forall t D e, holds t D e ->
  match D with
  | [] => exists t', sc_read sc t = Ret (t', inr e)
  | c :: D' => exists t', sc_read sc t = Ret (t', inl c) /\ holds t' D' e /\
                exists t'', sc_unread sc t' = (t'', None) /\ holds t'' (c :: D') e
  end.

(* calling GetNextRun until it returns an error *)
Fixpoint all_runs {T} (sc : scanner T) (calls fuel : nat) (t : T) : outcome (list (byterun * gerr)) :=
  match calls with
  | O => Ret []
  | S k => obind (GetNextRun sc fuel t) (fun '(run, e, t') =>
      match e with GNil => obind (all_runs sc k fuel t') (fun l => Ret ((run, e) :: l)) | _ => Ret [(run, e)] end)
  end.
Definition spells (rs : list byterun) : list Z := concat (map (fun r => repeat (rbyte r) (Z.to_nat (rlen r))) rs).

(* [failures t]: the errors the scanner's ReadByte and UnreadByte have returned so far *)
Inductive failure := FRead (e : rend) | FUnread (e : Z).
Definition keeps_failures {T} (sc : scanner T) (failures : T -> list failure) : Prop :=
  (forall t t' r, sc_read sc t = Ret (t', r) -> failures t' = failures t ++ match r with inl _ => [] | inr e => [FRead e] end) /\
  (forall t t' r, sc_unread sc t = (t', r) -> failures t' = failures t ++ match r with None => [] | Some e => [FUnread e] end).
(* the scanner, with an UnreadByte that does the same and never says that it failed *)
Definition silenced {T} (sc : scanner T) : scanner T := mkScanner (sc_read sc) (fun t => (fst (sc_unread sc t), None)).
