(** * Spec_Rle: what the RLE8 format means, independently of the code.

    A stream is a sequence of tokens: a literal byte, or a byte written twice
    followed by a repeat count n, standing for n+2 copies. *)
From Verif Require Import GoBase Rle.

Inductive token := Lit (b : Z) | Rep (b n : Z).
Definition tok_byte (t : token) : Z := match t with Lit b => b | Rep b _ => b end.
Definition tok_encode (t : token) : list Z :=
  match t with Lit b => [b] | Rep b n => [b; b; n] end.
Definition tok_expand (t : token) : list Z :=
  match t with Lit b => [b] | Rep b n => repeat b (Z.to_nat (n + 2)) end.
Definition tok_ok (t : token) : Prop :=
  match t with Lit b => is_byte b | Rep b n => is_byte b /\ is_byte n end.

(* no literal b is directly followed by an item starting with b *)
Fixpoint no_false_pair (ts : list token) : Prop :=
  match ts with
  | Lit b :: ((t :: _) as rest) => tok_byte t <> b /\ no_false_pair rest
  | _ :: rest => no_false_pair rest
  | [] => True
  end.
Definition well_formed (ts : list token) : Prop := Forall tok_ok ts /\ no_false_pair ts.
Definition encode (ts : list token) : list Z := concat (map tok_encode ts).
Definition expand (ts : list token) : list Z := concat (map tok_expand ts).

Definition prefix (p l : list Z) : Prop := exists s, l = p ++ s.

(** Grouper: results of calling GetNextRun until it returns an error *)
Fixpoint collect (fuel : nat) (r : reader) : list (byterun * gerr) :=
  match fuel with
  | O => []
  | S fuel' =>
      let '(run, e, r') := get_next_run r in
      (run, e) :: match e with GNil => collect fuel' r' | _ => [] end
  end.
(* consecutive runs differ unless the first has maximum length *)
Fixpoint adjacent_ok (rs : list byterun) : Prop :=
  match rs with
  | a :: ((b :: _) as rest) =>
      (rlen a = maxint \/ rbyte b <> rbyte a) /\ adjacent_ok rest
  | _ => True
  end.

(* D contains, after p and before s, a run of exactly n copies of b that neither side continues *)
Definition maximal_run (D p : list Z) (b : Z) (n : nat) (s : list Z) : Prop :=
  D = p ++ repeat b n ++ s /\ (1 <= n)%nat /\
  (forall p', p <> p' ++ [b]) /\ (forall s', s <> b :: s').
