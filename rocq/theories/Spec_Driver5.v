(** * Spec_Driver5: file systems that remember how each call ended *)
From Verif Require Import GoBase Errors Flags BlockCache BasicStream Driver Spec_Driver Spec_Report.

Definition failure {A} (r : A + kerr) : option kerr := match r with inl _ => None | inr e => Some e end.
(* [hist] tells, in each state of the file system, how every call so far ended ([None]: it succeeded).  Looking at
   the root and closing a handle cannot fail and are not counted. *)
Record remembers {F H} (im : impl F H) (hist : F -> list (option kerr)) : Prop := {
  rm_root : forall fs, hist (fst (i_root im fs)) = hist fs;
  rm_close : forall fs h, hist (h_close im fs h) = hist fs;
  rm_get : forall fs n h, hist (fst (i_get im fs n h)) = hist fs ++ [failure (snd (i_get im fs n h))];
  rm_create : forall fs n h m, hist (fst (i_create im fs n h m)) = hist fs ++ [failure (snd (i_create im fs n h m))];
  rm_link : forall mk, i_link im = Some mk -> forall fs a b n, hist (fst (mk fs a b n)) = hist fs ++ [failure (snd (mk fs a b n))];
  rm_resize : forall fs h n, hist (fst (h_resize im fs h n)) = hist fs ++ [snd (h_resize im fs h n)];
  rm_read : forall fs h i b, hist (fst (fst (h_read im fs h i b))) = hist fs ++ [snd (h_read im fs h i b)];
  rm_write : forall fs h i b, hist (fst (h_write im fs h i b)) = hist fs ++ [snd (h_write im fs h i b)];
  rm_unlink : forall fs h, hist (fst (h_unlink im fs h)) = hist fs ++ [snd (h_unlink im fs h)];
  rm_listdir : forall fs h r, h_listdir im fs h = Some r -> hist (fst r) = hist fs ++ [failure (snd r)];
  rm_chmod : forall fs h g, h_chmod im fs h = Some g -> forall m, hist (fst (g m)) = hist fs ++ [snd (g m)];
  rm_chown : forall fs h g, h_chown im fs h = Some g -> forall u v, hist (fst (g u v)) = hist fs ++ [snd (g u v)];
  rm_chtimes : forall fs h g, h_chtimes im fs h = Some g -> forall t, hist (fst (g t)) = hist fs ++ [snd (g t)] }.
(* any file system, with such a memory added *)
Definition noted {F H} (im : impl F H) : impl (F * list (option kerr)) H := mkImpl (F * list (option kerr)) H
  (fun w => let r := i_root im (fst w) in ((fst r, snd w), snd r))
  (fun w n h => let r := i_get im (fst w) n h in ((fst r, snd w ++ [failure (snd r)]), snd r))
  (fun w n h m => let r := i_create im (fst w) n h m in ((fst r, snd w ++ [failure (snd r)]), snd r))
  (match i_link im with
   | None => None
   | Some mk => Some (fun w a b n => let r := mk (fst w) a b n in ((fst r, snd w ++ [failure (snd r)]), snd r))
   end)
  (i_has_symlinks im) (i_has_atime im) (i_has_mtime im)
  (fun w h => h_stat im (fst w) h)
  (fun w h n => let r := h_resize im (fst w) h n in ((fst r, snd w ++ [snd r]), snd r))
  (fun w h i b => let r := h_read im (fst w) h i b in ((fst (fst r), snd w ++ [snd r]), snd (fst r), snd r))
  (fun w h i b => let r := h_write im (fst w) h i b in ((fst r, snd w ++ [snd r]), snd r))
  (fun w h => let r := h_unlink im (fst w) h in ((fst r, snd w ++ [snd r]), snd r))
  (fun w h => h_name im (fst w) h) (fun w a b => h_same im (fst w) a b)
  (fun w h => (h_close im (fst w) h, snd w))
  (fun w h => option_map (fun r => ((fst r, snd w ++ [failure (snd r)]), snd r)) (h_listdir im (fst w) h))
  (fun w h => option_map (fun g m => let r := g m in ((fst r, snd w ++ [snd r]), snd r)) (h_chmod im (fst w) h))
  (fun w h => option_map (fun g u v => let r := g u v in ((fst r, snd w ++ [snd r]), snd r)) (h_chown im (fst w) h))
  (fun w h => option_map (fun g t => let r := g t in ((fst r, snd w ++ [snd r]), snd r)) (h_chtimes im (fst w) h)).

(* the error [e] says [x], or says that input or output failed because of an error that says [x] *)
Definition is_report (x : kerr) (e : option kerr) : Prop := says x e \/ exists y, says x (Some y) /\ e = Some (KWrap ErrIOFailed y).
(* an operation that took the file system from [a] to [b] and returned [e]: of the calls it made, those that failed
   are the last one, and this is what [e] reports, and some that [ok] allows *)
Definition accounted {F} (hist : F -> list (option kerr)) (ok : kerr -> Prop) (a b : F) (e : option kerr) : Prop :=
  exists l, Forall (fun o => match o with None => True | Some x => ok x end) l /\
    (hist b = hist a ++ l \/ exists x, hist b = hist a ++ l ++ [Some x] /\ is_report x e).
Definition strictly (x : kerr) : Prop := False.
Definition not_found (x : kerr) : Prop := kerr_is x ErrNotFound = true.
(* operations that may not create a file, and are not Link *)
Definition strict_op (o : pop) : Prop :=
  match o with POpenFile _ fl _ => io_create fl = false | PCreate _ | PWriteFile _ _ _ | PLink _ _ => False | _ => True end.
