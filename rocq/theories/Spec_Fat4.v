(** * Spec_Fat4: volumes that remember how each call ended *)
From Verif Require Import GoBase Errors FatDirent FatDriver Spec_Fat3.

Definition error_of {A} (r : A + kerr) : option kerr := match r with inl _ => None | inr e => Some e end.
(* a read of [wanted] bytes fails if there is an error, or fewer bytes than wanted (reported by the driver as [KExt 0]) *)
Definition read_error (wanted : Z) (r : list Z * Z * option kerr) : option kerr :=
  match snd r with Some e => Some e | None => if snd (fst r) <? wanted then Some (KExt 0) else None end.
(* [hist] tells, in each state of volume and image, how every call so far ended: reading a FAT entry,
   reading a sector, freeing a cluster, updating or deleting an entry.  Listing the root directory is
   always taken as a success. *)
Record remembers {F} (fi : fatimpl F) (hist : F -> list (option kerr)) : Prop := {
  rem_get : forall fs c, hist (fst (fi_get fi fs c)) = hist fs ++ [error_of (snd (fi_get fi fs c))];
  rem_read : forall fs off n, hist (fst (fi_read_at fi fs off n)) = hist fs ++ [read_error n (snd (fi_read_at fi fs off n))];
  rem_free : forall fs c, hist (fst (fi_free fi fs c)) = hist fs ++ [snd (fi_free fi fs c)];
  rem_update : forall fs d, hist (fst (fi_update fi fs d)) = hist fs ++ [snd (fi_update fi fs d)];
  rem_delete : forall fs d p, hist (fst (fi_delete fi fs d p)) = hist fs ++ [snd (fi_delete fi fs d p)];
  rem_root : forall fs, hist (fst (fi_root fi fs)) = hist fs ++ [None] }.
(* any volume, with such a memory added *)
Definition watched {F} (fi : fatimpl F) : fatimpl (F * list (option kerr)) := mkFat
  (fun w => fi_boot fi (fst w))
  (fun w c => let r := fi_get fi (fst w) c in ((fst r, snd w ++ [error_of (snd r)]), snd r))
  (fun w => fi_valid fi (fst w)) (fun w => fi_eoc fi (fst w))
  (fun w => let r := fi_root fi (fst w) in ((fst r, snd w ++ [None]), snd r))
  (fun w c => let r := fi_free fi (fst w) c in ((fst r, snd w ++ [snd r]), snd r))
  (fun w d => let r := fi_update fi (fst w) d in ((fst r, snd w ++ [snd r]), snd r))
  (fun w d p => let r := fi_delete fi (fst w) d p in ((fst r, snd w ++ [snd r]), snd r))
  (fun w off n => let r := fi_read_at fi (fst w) off n in ((fst r, snd w ++ [read_error n (snd r)]), snd r)).
(* an operation started in [s] ended as [r]: either none of its calls failed, or the last one did, and
   its error is the operation's *)
Definition reports {F A} (hist : F -> list (option kerr)) (s : fstate F) (r : fres F (A + kerr)) : Prop :=
  exists n, hist (x_fs (fend r)) = hist (x_fs s) ++ repeat None n \/
  exists e, hist (x_fs (fend r)) = hist (x_fs s) ++ repeat None n ++ [Some e] /\ r = FDone (fend r) (inr e).
