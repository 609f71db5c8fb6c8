(** * Spec_Misc: vocabulary for C83-C86 and C101-C103. *)
From Verif Require Import GoBase ListZ UnixV6 Disks.

(* the size of a V6 inode according to fs(5) of the sixth edition: size0 is the high byte, size1 the low word *)
Definition v6_manual_size (n : raw_inode) : Z := v_size0 n * 65536 + v_size1 n + v_size2 n * 256.
(* number of bits on a disk *)
Definition geometry_bits (g : geometry) : Z := g_bits g * g_units g * g_sectors g * g_tracks g * g_heads g.
Definition geometry_ok (g : geometry) : Prop :=
  0 <= g_bits g < 2^64 /\ 0 <= g_units g < 2^64 /\ 0 <= g_sectors g < 2^64 /\ 0 <= g_tracks g < 2^64 /\ 0 <= g_heads g < 2^64.
(* the least number of units of size u that hold n things *)
Definition least_holding (u n k : Z) : Prop := n <= u * k /\ forall k', n <= u * k' -> k <= k'.
