(** * Props_Fat3: C162 and C163, Stat on FAT and which calls change a FAT volume (flags as in Props_Fat.v). *)
From Coq Require Import String.
From Verif Require Import GoBase ListZ Errors Flags GoPath Spec_Path GoPathProofs BlockCache BasicStream Driver FatBoot FatDirent FatDriver Spec_Fat FatProofs FatProofs2 FatProofs3 FatProofs4 Spec_Fat3 FatProofs5 Props_Fat Props_Fat2.

(** ** C162 *)
(* the code as it is: whatever the path, what Stat returns without an error describes nothing *)
Theorem C162_always_empty_refuted {F} (fi : fatimpl F) fuel path s s' st : Stat fi false fuel path s = FDone s' (inl st) -> st = zero_stat.
Proof.
  unfold Stat, ftry, fbind. destruct (resolvePath fi false fuel path s) as [s1 [d|e]|s1|s1] eqn:R; try discriminate.
  intros [= <- <-]. apply resolve_asis in R as [-> _]. reflexivity.
Qed.
(* a name that does not exist is no error, whether or not the decoder is repaired *)
Theorem C162_missing_refuted {F} (fi : fatimpl F) rep fuel path s fs l : ~ In 58 (clean path) -> fi_root fi (x_fs s) = (fs, inl l) ->
  Forall (fun x => de_name x <> clean path) l -> Stat fi rep fuel path s = FDone (mkFs fs (x_log s)) (inl zero_stat).
Proof. intros Hc Er Hn. unfold Stat, ftry, fbind. now rewrite (resolve_missing fi rep fuel path s fs l Hc Er Hn). Qed.
(* nor is a directory that cannot be read *)
Theorem C162_root_error_refuted {F} (fi : fatimpl F) rep fuel path s e : snd (fi_root fi (x_fs s)) = inr e ->
  Stat fi rep fuel path s = FDone (mkFs (fst (fi_root fi (x_fs s))) (x_log s)) (inl zero_stat).
Proof. intros E. unfold Stat, ftry, fbind. now rewrite (C79_root_error_refuted fi rep fuel path s e E). Qed.
(* and a file cannot be described at all *)
Theorem C162_file_refuted {F} (fi : fatimpl F) rep fuel path s fs l1 x l2 : ~ In 58 (clean path) -> fi_root fi (x_fs s) = (fs, inl (l1 ++ x :: l2)) ->
  Forall (fun y => de_name y <> clean path) l1 -> de_name x = clean path -> de_is_dir x = false ->
  Stat fi rep fuel path s = FDone (mkFs fs (x_log s)) (inr (K ErrNotADirectory)).
Proof. intros Hc Er Hn He Hd. unfold Stat, ftry, fbind. now rewrite (resolve_file fi rep fuel path s fs l1 x l2 Hc Er Hn He Hd). Qed.
(* what is true: anything but the empty answer describes a directory of that name in the root *)
Theorem C162_entry_partial {F} (fi : fatimpl F) rep fuel path s s' st fs es : ~ In 58 (clean path) -> fi_root fi (x_fs s) = (fs, inl es) ->
  Stat fi rep fuel path s = FDone s' (inl st) -> st <> zero_stat -> exists d, In d es /\ de_name d = clean path /\ de_is_dir d = true /\ st = de_stat d.
Proof. intros Hc Er E Hn. destruct (stat_entry fi rep fuel path s s' st fs es Hc Er E) as [->|X]; [now destruct Hn|exact X]. Qed.
(* such a directory is described by its entry, if its own entries can be read *)
Theorem C162_directory_partial {F} (fi : fatimpl F) rep fuel path s fs l1 x l2 s1 cont : ~ In 58 (clean path) -> fi_root fi (x_fs s) = (fs, inl (l1 ++ x :: l2)) ->
  Forall (fun y => de_name y <> clean path) (l1 ++ l2) -> de_name x = clean path -> readDirFromDirent fi rep fuel x (mkFs fs (x_log s)) = FDone s1 (inl cont) ->
  Stat fi rep fuel path s = FDone s1 (inl (de_stat x)).
Proof. intros Hc Er Hn He Hd. unfold Stat, ftry, fbind. now rewrite (resolve_dir fi rep fuel path s fs l1 x l2 s1 cont Hc Er Hn He Hd). Qed.
(* but no entry the package itself decodes is one: even with a repaired decoder nothing on a volume is ever described *)
Theorem C162_decoded_refuted {F} (fi : fatimpl F) rep fuel path s s' st fs es : ~ In 58 (clean path) -> fi_root fi (x_fs s) = (fs, inl es) ->
  Forall (fun d => exists loc bpc r, new_dirent loc bpc r = Ret (inl d)) es -> Stat fi rep fuel path s = FDone s' (inl st) -> st = zero_stat.
Proof.
  intros Hc Er Hes E. destruct (stat_entry fi rep fuel path s s' st fs es Hc Er E) as [->|(d & Hin & _ & Hd & _)]; [reflexivity|].
  rewrite Forall_forall in Hes. destruct (Hes d Hin) as (loc & bpc & r & Er'). rewrite (C81_never_a_directory_refuted loc bpc r d Er') in Hd. discriminate.
Qed.
Definition ex_rawdir : raw_dirent := mkRawDirent (B "D       ") (B "   ") 16 0 0 0 33 33 0 0 33 2 0.
Definition ex_decoded : dirent := Eval vm_compute in match new_dirent true 512 ex_rawdir with Ret (inl d) => d | _ => zero_dirent end.
(* the same entry, but marked with os.ModeDir *)
Definition ex_statdir : dirent := mkDe (de_name ex_decoded) 16 0 2 false 0 (Z.lor (de_mode ex_decoded) ModeDir) (de_stat ex_decoded).
Example C162_ex : new_dirent true 512 ex_rawdir = Ret (inl ex_decoded) /\ de_name ex_decoded = B "D" /\
  (exists s1 cont, readDirFromDirent (ex_fi ex_valid [ex_file; ex_statdir] ex_dirdisk) true 9 ex_statdir ex_s = FDone s1 (inl cont)) /\
  (exists s', Stat (ex_fi ex_valid [ex_file; ex_statdir] ex_dirdisk) true 9 (B "D") ex_s = FDone s' (inl (de_stat ex_statdir)) /\ de_stat ex_statdir <> zero_stat) /\
  Stat (ex_fi ex_valid [ex_decoded] ex_dirdisk) true 9 (B "D") ex_s = FDone ex_s (inr (K ErrNotADirectory)) /\
  Stat (ex_fi ex_valid [ex_decoded] ex_dirdisk) true 9 (B "X") ex_s = FDone ex_s (inl zero_stat) /\
  Stat (ex_fi ex_valid [ex_file; ex_statdir] ex_dirdisk) false 9 (B "X") ex_s = FDone ex_s (inl zero_stat) /\
  Stat (ex_fi ex_valid [ex_file; ex_statdir] ex_dirdisk) false 9 (B "F") ex_s = FDone ex_s (inr (K ErrNotADirectory)).
Proof.
  split; [vm_compute; reflexivity|]. split; [reflexivity|].
  split; [do 2 eexists; vm_compute; reflexivity|]. split; [eexists; split; [vm_compute; reflexivity|discriminate]|]. repeat split; vm_compute; reflexivity.
Qed.

(** ** C163 *)
(* reading changes nothing, even if it panics or never ends *)
Theorem C163_reads {F} (fi : fatimpl F) rep fuel path s :
  changes s (Stat fi rep fuel path s) = [] /\ changes s (Readdir fi rep fuel path s) = [] /\ changes s (ReadFile fi rep fuel path s) = [].
Proof. split; [|split]; apply mute_changes; [apply mute_stat|apply mute_readdir|apply mute_read_file]. Qed.
(* Chmod and Chtimes write at most one entry, once, and it is the one the path leads to *)
Theorem C163_updates {F} (fi : fatimpl F) rep epoch fuel path mode atime mtime s :
  (changes s (Chmod fi rep fuel path mode s) = [] \/
   exists s1 d d', resolvePath fi rep fuel path s = FDone s1 (inl d) /\ changes s (Chmod fi rep fuel path mode s) = [FvUpdate d'] /\
     same_but_mode d d') /\
  (changes s (Chtimes fi rep epoch fuel path atime mtime s) = [] \/
   exists s1 d d', resolvePath fi rep fuel path s = FDone s1 (inl d) /\ changes s (Chtimes fi rep epoch fuel path atime mtime s) = [FvUpdate d'] /\
     same_but_times d d').
Proof.
  split; [|apply chtimes_changes]. destruct (chmod_changes fi rep fuel path mode s) as [E|(s1 & d & m & R & E)]; [now left|right].
  exists s1, d, (set_mode d m). split; [exact R|]. split; [exact E|]. unfold same_but_mode, same_entry, set_mode. cbn. auto 25.
Qed.
(* Remove deletes at most one entry, that of the path and not of a directory, before it frees anything; it frees nothing if that fails *)
Theorem C163_remove {F} (fi : fatimpl F) rep fuel path s : changes s (Remove fi rep fuel path s) = [] \/
  exists s1 s2 d pd l, resolvePath fi rep fuel path s = FDone s1 (inl d) /\ resolvePath fi rep fuel (dir_of path) s1 = FDone s2 (inl pd) /\ de_is_dir d = false /\
    changes s (Remove fi rep fuel path s) = FvDelete d pd :: map FvFree l /\ (l <> [] -> snd (fi_delete fi (x_fs s2) d pd) = None).
Proof. apply remove_changes. Qed.
(* the parent it asks to delete the entry from is that of the path without its last name *)
Theorem C163_parent : (forall ns n, Forall proper ns -> proper n -> dir_of (render (ns ++ [n])) = render ns) /\ (forall n, proper n -> dir_of n = B ".").
Proof. split; [apply dir_of_render|apply dir_of_name]. Qed.
Example C163_parent_ex : dir_of (B "/a/b/c.txt") = B "/a/b" /\ dir_of (B "a//b/") = B "a/b" /\ Forall proper [B "a"; B "b"].
Proof. split; [vm_compute; reflexivity|]. split; [vm_compute; reflexivity|]. repeat constructor; cbn; try discriminate; intuition lia. Qed.
Example C163_ex : changes ex_s (Chmod (ex_fi ex_valid [ex_dir] ex_dirdisk) true 9 (B "D") 0x124 ex_s) = [FvUpdate (set_mode ex_dir 0)] /\
  changes ex_s (Remove zero_fi false 9 (B "G") ex_s) = [FvDelete zero_dirent zero_dirent; FvFree 1; FvFree 0] /\
  (exists s', Readdir (ex_fi ex_valid [ex_dir] ex_dirdisk) true 9 (B "D") ex_s = FDone s' (inl []) /\ length (x_log s') = 2%nat).
Proof. split; [vm_compute; reflexivity|]. split; [vm_compute; reflexivity|]. eexists. split; vm_compute; reflexivity. Qed.

(** ** C78 and C100, the consequences for Remove and Readdir *)
(* with or without a repaired decoder, the entry Remove hands to DeleteDirent is the empty one, never that of a file *)
Theorem C78_deletes_nothing_refuted {F} (fi : fatimpl F) rep fuel path s d pd : In (FvDelete d pd) (changes s (Remove fi rep fuel path s)) -> d = zero_dirent.
Proof.
  intros Hin. destruct (remove_changes fi rep fuel path s) as [E|(s1 & s2 & d' & pd' & l & R & _ & Hd & E & _)]; rewrite E in Hin; [destruct Hin|].
  destruct Hin as [X|X]; [|apply in_map_iff in X as (c & X & _); discriminate]. injection X as <- <-.
  apply resolve_found in R as [->|[_ HD]]; [reflexivity|congruence].
Qed.
(* and if the root's entries are decoded by the package, Readdir lists no directory *)
Theorem C100_decoded_refuted {F} (fi : fatimpl F) rep fuel path s s' l fs es : ~ In 58 (clean path) -> fi_root fi (x_fs s) = (fs, inl es) ->
  Forall (fun d => exists loc bpc r, new_dirent loc bpc r = Ret (inl d)) es -> Readdir fi rep fuel path s <> FDone s' (inl l).
Proof.
  intros Hc Er Hes E. unfold Readdir, ftry at 1, fbind at 1 in E. rewrite (resolve_one fi rep fuel path s fs es Hc Er) in E. unfold ftry, fbind in E.
  destruct (match_entries fi rep fuel (clean path) es zero_dirent es (mkFs fs (x_log s))) as [s1 [r|e]|s1|s1] eqn:EM; try discriminate. cbn [fret] in E.
  apply entries_found in EM as [EM|(A & _ & C)].
  - rewrite EM in E. discriminate.
  - rewrite Forall_forall in Hes. destruct (Hes _ A) as (loc & bpc & r0 & Er'). rewrite (C81_never_a_directory_refuted loc bpc r0 _ Er') in C. discriminate.
Qed.
Example C100_decoded_ex : Readdir (ex_fi ex_valid [ex_decoded] ex_dirdisk) true 9 (B "D") ex_s = FDone ex_s (inr (K ErrNotADirectory)) /\ Forall (fun d => exists loc bpc r, new_dirent loc bpc r = Ret (inl d)) [ex_decoded].
Proof. split; [vm_compute; reflexivity|]. constructor; [|constructor]. exists true, 512, ex_rawdir. vm_compute. reflexivity. Qed.
(** ** C141: whatever the setters, nothing but the times and the deletion mark changes *)
Theorem C141_nothing_else epoch os d : same_apart_from_times d (run epoch os d).
Proof.
  unfold run. revert d. induction os as [|o os IH]; intros d; [cbn; unfold same_apart_from_times; tauto|]. cbn [fold_left].
  assert (A : same_apart_from_times d (fst (run1 epoch o d))) by (destruct o as [t|t|t|t]; cbn [run1];
    unfold SetLastAccessedAt, SetLastModifiedAt, SetDeletedAt, SetCreatedAt; destruct (t <? epoch); cbn [fst]; try (unfold same_apart_from_times; cbn; tauto);
    destruct (de_deleted _); cbn [fst]; unfold same_apart_from_times; cbn; tauto).
  specialize (IH (fst (run1 epoch o d))). unfold same_apart_from_times in *. intuition congruence.
Qed.
(* and the deletion mark changes only if an accepted time of deletion is set *)
Theorem C141_deleted epoch os d : de_deleted d = false -> de_deleted (run epoch os d) = existsb (fun t => epoch <=? t) (times_D os).
Proof. intros H. now destruct (run_spec epoch os d H) as (_ & _ & _ & _ & E & _). Qed.

Print Assumptions C162_always_empty_refuted.
Print Assumptions C162_missing_refuted.
Print Assumptions C162_root_error_refuted.
Print Assumptions C162_file_refuted.
Print Assumptions C162_entry_partial.
Print Assumptions C162_directory_partial.
Print Assumptions C162_decoded_refuted.
Print Assumptions C163_reads.
Print Assumptions C163_updates.
Print Assumptions C163_remove.
Print Assumptions C78_deletes_nothing_refuted.
Print Assumptions C100_decoded_refuted.
Print Assumptions C163_parent.
Print Assumptions C141_nothing_else.
Print Assumptions C141_deleted.
