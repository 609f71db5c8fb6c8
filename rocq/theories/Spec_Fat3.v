(** * Spec_Fat3: the calls an operation of the FAT driver makes *)
From Verif Require Import GoBase Errors Driver FatDirent FatDriver.

(* the state when the operation is over, however it ended *)
Definition fend {F A} (r : fres F A) : fstate F := match r with FDone s _ | FCrash s | FSpin s => s end.
(* of the calls made by an operation started in s that ended as r, those that change the file system *)
Definition changing (e : fev) : bool := match e with FvReadAt _ _ => false | FvFree _ | FvUpdate _ | FvDelete _ _ => true end.
Definition changes {F A} (s : fstate F) (r : fres F A) : list fev := filter changing (skipn (length (x_log s)) (x_log (fend r))).

(* two entries that differ in nothing but the mode, in nothing but the times of access and modification *)
Definition same_entry (d d' : dirent) : Prop :=
  de_name d' = de_name d /\ de_attr d' = de_attr d /\ de_nt d' = de_nt d /\ de_first d' = de_first d /\ de_deleted d' = de_deleted d /\ de_size d' = de_size d /\ de_mode d' = de_mode d /\
  let s := de_stat d in let s' := de_stat d' in
  f_dev s' = f_dev s /\ f_ino s' = f_ino s /\ f_nlinks s' = f_nlinks s /\ f_uid s' = f_uid s /\ f_gid s' = f_gid s /\ f_rdev s' = f_rdev s /\ f_size s' = f_size s /\ f_bsize s' = f_bsize s /\
  f_nblocks s' = f_nblocks s /\ f_created s' = f_created s /\ f_changed s' = f_changed s /\ f_deleted s' = f_deleted s.
Definition same_but_mode (d d' : dirent) : Prop :=
  same_entry d d' /\ f_accessed (de_stat d') = f_accessed (de_stat d) /\ f_modified (de_stat d') = f_modified (de_stat d).
Definition same_but_times (d d' : dirent) : Prop := same_entry d d' /\ f_mode (de_stat d') = f_mode (de_stat d).
(* two entries that differ in nothing but the times of creation, access, modification and deletion and whether they are deleted *)
Definition same_apart_from_times (d d' : dirent) : Prop :=
  de_name d' = de_name d /\ de_attr d' = de_attr d /\ de_nt d' = de_nt d /\ de_first d' = de_first d /\ de_size d' = de_size d /\ de_mode d' = de_mode d /\
  let s := de_stat d in let s' := de_stat d' in
  f_dev s' = f_dev s /\ f_ino s' = f_ino s /\ f_nlinks s' = f_nlinks s /\ f_mode s' = f_mode s /\ f_uid s' = f_uid s /\ f_gid s' = f_gid s /\ f_rdev s' = f_rdev s /\
  f_size s' = f_size s /\ f_bsize s' = f_bsize s /\ f_nblocks s' = f_nblocks s /\ f_changed s' = f_changed s.
