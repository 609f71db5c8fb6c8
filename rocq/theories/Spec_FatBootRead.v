(** * Spec_FatBootRead: what an io.Reader holds *)
From Verif Require Import GoBase Errors Rle Bufio FatBoot.

(* [holds k t D e]: the reader gives the bytes D, in any pieces no larger than asked for, with at most k empty reads in a
   row, and then the error e, together with the last bytes or after them, and again at every later read *)
Definition byte_source {T} (read : ioreader T) (holds : nat -> T -> list Z -> rend -> Prop) : Prop :=
  forall k t D e n, holds k t D e -> 0 < n ->
  exists t' c D' k', D = c ++ D' /\ zlen c <= n /\ holds k' t' D' e /\
    ((read t n = (t', c, None) /\ (c = [] -> (k' < k)%nat)) \/ (read t n = (t', c, Some e) /\ D' = [])).

(* what is said about an input of the bytes D that ends with e when n bytes are wanted and there are fewer *)
Definition too_short (D : list Z) (e : rend) : kerr :=
  match e with REOF => match D with [] => KEOF | _ => KUnexpectedEOF end | RFail x => KExt x end.
