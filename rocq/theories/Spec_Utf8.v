(** * Spec_Utf8: UTF-8 (RFC 3629) and the equivalence of characters up to case. *)
From Verif Require Import GoBase.

(* a Unicode scalar value *)
Definition scalar (r : Z) : Prop := 0 <= r < 0xD800 \/ 0xDFFF < r <= 0x10FFFF.
(* its bytes in UTF-8 *)
Definition utf8_char (r : Z) : list Z :=
  if r <? 0x80 then [r]
  else if r <? 0x800 then [0xC0 + r / 2^6; 0x80 + r mod 2^6]
  else if r <? 0x10000 then [0xE0 + r / 2^12; 0x80 + r / 2^6 mod 2^6; 0x80 + r mod 2^6]
  else [0xF0 + r / 2^18; 0x80 + r / 2^12 mod 2^6; 0x80 + r / 2^6 mod 2^6; 0x80 + r mod 2^6].
Definition utf8 (rs : list Z) : list Z := concat (map utf8_char rs).

(* what is used of Unicode's table of capital letters (for characters outside ASCII): the capital of a character is
   a character, and capitals are their own capitals *)
Definition capitals_table (table : Z -> Z) : Prop :=
  forall r, scalar r -> 128 <= r -> scalar (table r) /\ (128 <= table r -> table (table r) = table r) /\ (table r < 128 -> ~ 97 <= table r <= 122).
(* the capital of any character *)
Definition unicode_capital (table : Z -> Z) (r : Z) : Z :=
  if r <? 128 then if (97 <=? r) && (r <=? 122) then r - 32 else r else table r.

(* [next] enumerates the classes of characters that differ by case only ([class] is constant on each class, and only
   there): it goes to the next larger member, and from the largest to the smallest.  Letters of ASCII are in the
   same class if and only if they have the same capital. *)
Definition folds (class next : Z -> Z) : Prop :=
  (forall r, 0 <= r -> 0 <= next r /\ class (next r) = class r /\
     (r < next r /\ (forall x, 0 <= x -> class x = class r -> r < x -> next r <= x) \/
      next r <= r /\ (forall x, 0 <= x -> class x = class r -> next r <= x <= r))) /\
  (forall a b, 0 <= a < 128 -> 0 <= b < 128 -> (class a = class b <-> unicode_capital id a = unicode_capital id b)).
