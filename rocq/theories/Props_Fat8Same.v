(** * Props_Fat8Same: C127, SameFile on a FAT8 volume. *)
From Coq Require Import String.
From Verif Require Import GoBase ListZ Errors Flags GoPath GoPathProofs Spec_Path OsFile Fat8 Spec_Fat8 Fat8Proofs Fat8Names Fat8Same Spec_Fat8Same Fat8SameProofs.

(* C127: SameFile compares names without regard to case; it is reflexive, symmetric and transitive *)
Theorem C127_equivalence a b c : (same_file8 a b = true <-> map capital a = map capital b) /\ same_file8 a a = true /\
  same_file8 a b = same_file8 b a /\ (same_file8 a b = true -> same_file8 b c = true -> same_file8 a c = true).
Proof.
  assert (forall x y, same_file8 x y = true <-> map capital x = map capital y) as E by exact fold_upper.
  split; [apply E|]. split; [now apply E|]. split.
  - apply eq_true_iff_eq. rewrite !E. split; congruence.
  - rewrite !E. congruence.
Qed.
(* C127: names that are the same file are stored as the same nine bytes, or both refused with the same error *)
Theorem C127_same_is_stored_alike a b : same_file8 a b = true -> filename_to_bytes a = filename_to_bytes b.
Proof. intros E. apply fold_upper in E. rewrite <- (stored_upper a), <- (stored_upper b). now rewrite E. Qed.
(* C127: directory entries whose stem has no period are the same file exactly when their name bytes are the same up to case *)
Theorem C127_entries_partial raw1 raw2 n1 n2 : zlen raw1 = 9 -> zlen raw2 = 9 -> ~ In 46 (slice 0 6 raw1) -> ~ In 46 (slice 0 6 raw2) ->
  bytes_to_filename raw1 = Ret n1 -> bytes_to_filename raw2 = Ret n2 -> (same_file8 n1 n2 = true <-> map capital raw1 = map capital raw2).
Proof. exact (entries_same raw1 raw2 n1 n2). Qed.
(* C127: and for all entries, with stems s1, s2 and extensions e1, e2 (capitals, without the padding): the same bytes up to case,
   or one stem is the other with a period and the other's extension, or the texts around the period are cut at another period *)
Theorem C127_entries_exact raw1 raw2 n1 n2 s1 e1 s2 e2 : zlen raw1 = 9 -> zlen raw2 = 9 ->
  trimmed (map capital (slice 0 6 raw1)) s1 -> trimmed (map capital (slice 6 3 raw1)) e1 -> trimmed (map capital (slice 0 6 raw2)) s2 -> trimmed (map capital (slice 6 3 raw2)) e2 ->
  bytes_to_filename raw1 = Ret n1 -> bytes_to_filename raw2 = Ret n2 -> (same_file8 n1 n2 = true <-> map capital raw1 = map capital raw2 \/
    e1 = [] /\ e2 <> [] /\ s1 = s2 ++ 46 :: e2 \/ e2 = [] /\ e1 <> [] /\ s2 = s1 ++ 46 :: e1 \/
    (e1 <> [] /\ exists y, s1 = s2 ++ 46 :: y /\ e2 = y ++ 46 :: e1) \/ (e2 <> [] /\ exists y, s2 = s1 ++ 46 :: y /\ e1 = y ++ 46 :: e2)).
Proof. exact (entries_exact raw1 raw2 n1 n2 s1 e1 s2 e2). Qed.
(* C127, false in general: an entry with a period inside its stem is the "same file" as the one split there *)
Theorem C127_period_in_stem_refuted s e : ~ In 46 s -> (forall u, s <> u ++ [32]) -> (forall u, e <> u ++ [32]) -> e <> [] -> zlen e <= 3 -> zlen s + 1 + zlen e <= 6 ->
  exists raw1 raw2 n1 n2, zlen raw1 = 9 /\ zlen raw2 = 9 /\ map capital raw1 <> map capital raw2 /\ bytes_to_filename raw1 = Ret n1 /\ bytes_to_filename raw2 = Ret n2 /\ same_file8 n1 n2 = true.
Proof. exact (stem_period s e). Qed.
(* C127: accepted names, neither of them with blanks at the end of stem or extension or ending in a period, are the same file when stored alike *)
Theorem C127_stored_alike_is_same_partial a b raw : tidy_name a -> tidy_name b -> filename_to_bytes a = inl raw -> filename_to_bytes b = inl raw -> same_file8 a b = true.
Proof. exact (alike_same a b raw). Qed.
(* C127, false in general: with trailing blanks, or a final period, names of one stored entry are different files *)
Theorem C127_stored_alike_not_same_refuted s k : s <> [] -> ~ In 46 s -> 0 < k -> zlen s + k <= 6 ->
  exists raw, filename_to_bytes s = inl raw /\ filename_to_bytes (s ++ zrepeat 32 k) = inl raw /\ same_file8 s (s ++ zrepeat 32 k) = false.
Proof. exact (blanks_alike s k). Qed.
Theorem C127_final_period_refuted s : ~ In 46 s -> zlen s <= 6 ->
  exists raw, filename_to_bytes (s ++ [46]) = inl raw /\ filename_to_bytes (s ++ [46; 46]) = inl raw /\ same_file8 (s ++ [46]) (s ++ [46; 46]) = false.
Proof. exact (period_alike s). Qed.

Example C127_example : same_file8 (B "foo.C") (B "FOO.c") = true /\ same_file8 (B "foo.c") (B "foo.d") = false /\ same_file8 (B "a[") (B "a{") = false /\
  tidy_name (B "foo.c") /\ tidy_name (B "README") /\ filename_to_bytes (B "foo.c") = inl (B "FOO   C  ") /\ filename_to_bytes (B "FOO.c") = inl (B "FOO   C  ") /\
  bytes_to_filename (B "A.B      ") = Ret (B "A.B") /\ bytes_to_filename (B "A     B  ") = Ret (B "A.B").
Proof.
  repeat (split; [reflexivity|]). split; [exists (B "foo"), (Some (B "c"))|]. 2: split; [exists (B "README"), None|repeat split; reflexivity].
  - split; [apply (parts_some (B "foo") (B "c")); cbn; intuition discriminate|]. split; [|split; [|split; discriminate]]; intros u E; apply (f_equal (@rev Z)) in E; rewrite rev_app_distr in E; discriminate.
  - split; [apply parts_none; cbn; intuition discriminate|]. split; [|exact I]. intros u E; apply (f_equal (@rev Z)) in E; rewrite rev_app_distr in E; discriminate.
Qed.
(* the fourth case of C127_entries_exact: "A." with extension "B" and "A" with extension ".B" *)
Example C127_cut_example : bytes_to_filename (B "A.    B  ") = Ret (B "A..B") /\ bytes_to_filename (B "A     .B ") = Ret (B "A..B") /\ same_file8 (B "A..B") (B "A..B") = true.
Proof. repeat split. Qed.
Print Assumptions C127_equivalence.
Print Assumptions C127_same_is_stored_alike.
Print Assumptions C127_entries_partial.
Print Assumptions C127_entries_exact.
Print Assumptions C127_period_in_stem_refuted.
Print Assumptions C127_stored_alike_is_same_partial.
Print Assumptions C127_stored_alike_not_same_refuted.
Print Assumptions C127_final_period_refuted.

(** ** The parts that hold of claims refuted above, as claims of their own (the examples above are theirs too) *)
Theorem C152_equivalence a b c : (same_file8 a b = true <-> map capital a = map capital b) /\ same_file8 a a = true /\
  same_file8 a b = same_file8 b a /\ (same_file8 a b = true -> same_file8 b c = true -> same_file8 a c = true).
Proof. apply C127_equivalence. Qed.
Theorem C152_same_is_stored_alike a b : same_file8 a b = true -> filename_to_bytes a = filename_to_bytes b.
Proof. apply C127_same_is_stored_alike. Qed.
Print Assumptions C152_equivalence.
Print Assumptions C152_same_is_stored_alike.
