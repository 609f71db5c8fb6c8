(** * Props_Fat4: C164, the FAT driver reports what its volume and image report (flags as in Props_Fat.v). *)
From Coq Require Import String.
From Verif Require Import GoBase ListZ Errors Flags GoPath Spec_Path BlockCache BasicStream Driver FatBoot FatDirent FatDriver Spec_Fat FatProofs FatProofs2 FatProofs3 Spec_Fat3 Spec_Fat4 FatProofs5 FatProofs6 Props_Fat Props_Fat3.

(* the first failing call ends the operation, with the call's own error; nothing is called after it *)
Theorem C164_reads_partial {F} (fi : fatimpl F) hist rep fuel path s : remembers fi hist ->
  reports hist s (Stat fi rep fuel path s) /\ reports hist s (Readdir fi rep fuel path s) /\ reports hist s (ReadFile fi rep fuel path s).
Proof. intros R. split; [|split]; [apply (hon_stat fi hist R)|apply (hon_readdir fi hist R)|apply (hon_read_file fi hist R)]. Qed.
Theorem C164_changes_partial {F} (fi : fatimpl F) hist rep epoch fuel path mode atime mtime s : remembers fi hist ->
  reports hist s (Chmod fi rep fuel path mode s) /\ reports hist s (Chtimes fi rep epoch fuel path atime mtime s) /\ reports hist s (Remove fi rep fuel path s).
Proof. intros R. split; [|split]; [apply (hon_chmod fi hist R)|apply (hon_chtimes fi hist R)|apply (hon_remove fi hist R)]. Qed.
(* every volume can be watched that way *)
Theorem C164_any_volume {F} (fi : fatimpl F) : remembers (watched fi) snd.
Proof. split; intros; reflexivity. Qed.
(* but if the root directory cannot be listed, Stat succeeds, Chmod and Chtimes update an empty entry, and Readdir and ReadFile report something else *)
Theorem C164_root_refuted {F} (fi : fatimpl F) rep epoch fuel path mode atime mtime s e : snd (fi_root fi (x_fs s)) = inr e ->
  let s1 := mkFs (fst (fi_root fi (x_fs s))) (x_log s) in
  Stat fi rep fuel path s = FDone s1 (inl zero_stat) /\ Readdir fi rep fuel path s = FDone s1 (inr (K ErrNotADirectory)) /\
  ReadFile fi rep fuel path s = read_contents fi fuel zero_dirent s1 /\
  (exists d, Chmod fi rep fuel path mode s = update_dirent fi d s1 /\ de_name d = [] /\ de_first d = 0) /\
  (exists d, Chtimes fi rep epoch fuel path atime mtime s = update_dirent fi d s1 /\ de_name d = [] /\ de_first d = 0).
Proof.
  intros E s1. pose proof (C79_root_error_refuted fi rep fuel path s e E) as R. fold s1 in R.
  split; [|split; [|split; [|split]]]; unfold Stat, Readdir, ReadFile, Chmod, Chtimes, ftry, fbind; rewrite R; try reflexivity.
  - eexists. split; [reflexivity|]. split; reflexivity.
  - eexists. split; [reflexivity|]. unfold SetLastModifiedAt, SetLastAccessedAt. destruct (atime <? epoch), (mtime <? epoch); split; reflexivity.
Qed.
(* a volume whose third sector read fails, or is short; one whose FAT cannot be read past cluster 3; one that cannot update *)
Definition ex_bad (short : bool) : fatimpl nat :=
  mkFat (fun _ => ex_boot) (fun n c => (n, if c =? 5 then inr (KExt 7) else inl (ex_next c))) (fun _ c => ex_valid c) (fun _ c => ex_eoc c) (fun n => (n, inl [ex_dir]))
    (fun n _ => (n, None)) (fun n _ => (n, Some (KExt 8))) (fun n _ _ => (n, None))
    (fun n off k => (S n, if Nat.eqb n 1 then if short then (zrepeat 0 k, k - 1, None) else (zrepeat 0 k, k, Some (KExt 9)) else (zrepeat 0 k, k, None))).
Example C164_ex : (exists s, Readdir (watched (ex_bad false)) true 9 (B "D") (mkFs (0%nat, []) []) = FDone s (inr (KExt 9)) /\ snd (x_fs s) = [None; None; Some (KExt 9)]) /\
  (exists s, Readdir (watched (ex_bad true)) true 9 (B "D") (mkFs (0%nat, []) []) = FDone s (inr (KExt 0)) /\ snd (x_fs s) = [None; None; Some (KExt 0)]) /\
  (exists s, Chmod (watched (ex_bad false)) true 9 (B "D") 0 (mkFs (2%nat, []) []) = FDone s (inr (KExt 8)) /\ snd (x_fs s) = [None; None; Some (KExt 8)]) /\
  (exists s l, Readdir (watched (ex_bad false)) true 9 (B "D") (mkFs (2%nat, []) []) = FDone s (inl l) /\ snd (x_fs s) = [None; None; None]) /\
  (exists s, read_contents (watched (ex_bad false)) 9 ex_file (mkFs (2%nat, []) []) = FDone s (inr (KExt 7)) /\ snd (x_fs s) = [None; None; Some (KExt 7)]).
Proof. repeat split; repeat eexists; vm_compute; reflexivity. Qed.
Print Assumptions C164_reads_partial.
Print Assumptions C164_changes_partial.
Print Assumptions C164_any_volume.
Print Assumptions C164_root_refuted.
