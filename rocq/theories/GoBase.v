(** * GoBase: the fragment of Go's semantics shared by all models.

    Integers are unbounded [Z]; every operation of the Go code that can wrap is
    wrapped explicitly with the functions below.  The platform is 64 bit. *)
From Coq Require Export List ZArith Lia Bool.
From Coq Require Export ZifyBool ZifyNat.
Export ListNotations.
Global Open Scope Z_scope.

(** ** Fixed-width integers *)
Definition u8  (x : Z) : Z := x mod 2^8.
Definition u16 (x : Z) : Z := x mod 2^16.
Definition u32 (x : Z) : Z := x mod 2^32.
Definition u64 (x : Z) : Z := x mod 2^64.        (* uint, uint64, uintptr *)
Definition i64 (x : Z) : Z := (x + 2^63) mod 2^64 - 2^63.  (* int, int64 *)
Definition i32 (x : Z) : Z := (x + 2^31) mod 2^32 - 2^31.
Definition maxint : Z := 2^63 - 1.               (* math.MaxInt *)

Definition is_byte (b : Z) : Prop := 0 <= b < 256.
Definition bytes (l : list Z) : Prop := Forall is_byte l.

(** ** Results: a Go call returns, panics, or (model only) runs out of fuel. *)
Inductive outcome (A : Type) : Type :=
| Ret (a : A)
| Panic
| OutOfFuel.
Arguments Ret {A} a.
Arguments Panic {A}.
Arguments OutOfFuel {A}.

Definition obind {A B} (m : outcome A) (f : A -> outcome B) : outcome B :=
  match m with Ret a => f a | Panic => Panic | OutOfFuel => OutOfFuel end.

(** ** Byte slices as lists, indexed by [Z] *)
Definition zlen {A} (l : list A) : Z := Z.of_nat (length l).
(* l[off : off+n] *)
Definition slice {A} (off n : Z) (l : list A) : list A :=
  firstn (Z.to_nat n) (skipn (Z.to_nat off) l).
(* copy(l[off:off+len(new)], new) *)
Definition splice {A} (off : Z) (new l : list A) : list A :=
  firstn (Z.to_nat off) l ++ new ++ skipn (Z.to_nat (off + zlen new)) l.
Definition zrepeat {A} (x : A) (n : Z) : list A := repeat x (Z.to_nat n).
Definition znth {A} (d : A) (l : list A) (i : Z) : A := nth (Z.to_nat i) l d.
