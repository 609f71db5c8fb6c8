(** * Spec_Driver2: more vocabulary for the properties of the driver. *)
From Coq Require Import String.
From Verif Require Import GoBase ListZ Errors Flags GoPath Spec_Path BlockCache BasicStream Driver DriverFile Spec_Driver.

(** ** What each operation is for: the calls it may make.  Looking things up is always allowed. *)
Definition last_name (d : drv) (p n : list Z) : Prop := n = snd (split_path (normalize_path (cwd d) p)).
Definition may {F H} (im : impl F H) (d : drv) (o : pop) (e : event) : Prop :=
  match e with
  | EvAcquire _ | EvRelease _ | EvGet _ _ | EvRead _ _ | EvList _ => True
  | EvCreate _ n m =>
      match o with
      | POpenFile p fl perm => io_create fl = true /\ m = perm /\ last_name d p n
      | PCreate p => m = 0 /\ last_name d p n
      | PWriteFile p _ perm => m = perm /\ last_name d p n
      | PMkdir p perm => m = mkdir_mode perm /\ last_name d p n
      | PMkdirAll _ perm => m = mkdir_mode perm
      | _ => False
      end
  | EvLink _ _ n => match o with PLink _ new => last_name d new n | _ => False end
  | EvResizeObj _ k =>
      match o with
      | POpenFile _ fl _ => io_truncate fl = true /\ k = 0
      | PTruncate _ => k = 0
      | PWriteFile _ _ _ => True
      | _ => False
      end
  | EvWrite _ _ _ => match o with PWriteFile _ _ _ => True | _ => False end
  | EvUnlink _ => match o with PRemove _ | PRemoveAll _ => True | _ => False end
  | EvChmod _ m => match o with PChmod _ m' => m = m' | _ => False end
  | EvChown _ u g => match o with PChown _ u' g' | PLchown _ u' g' => u = u' /\ g = g' | _ => False end
  | EvChtimes _ ts => match o with PChtimes _ a m => ts = [0; if i_has_atime im then a else 0; if i_has_mtime im then m else 0; 0; 0] | _ => False end
  end.
Definition creations (l : list event) : nat :=
  length (filter (fun e => match e with EvCreate _ _ _ => true | _ => false end) l).

(** ** A program using a mounted driver: files it has open and the state after any history.  Anything
    but opening a file and changing the directory is an arbitrary change of the state. *)
Section Session.
Context {F H : Type} (im : impl F H) (wm : wmode).
Inductive session (d0 : drv) : drv -> list (file H) -> dst F -> Prop :=
| ses_start s : session d0 d0 [] s
| ses_other d fs s s' : session d0 d fs s -> session d0 d fs s'
| ses_open d fs s fuel p fl perm s' f : session d0 d fs s ->
    open_file im wm d fuel p fl perm s = Done s' (inl f) -> session d0 d (f :: fs) s'
| ses_chdir d fs s fuel p s' r : session d0 d fs s -> chdir im wm d fuel p s = Done s' r ->
    session d0 (match r with inl w => mkDrv (mount d) w | inr _ => d end) fs s'
| ses_file_chdir d fs s f s' r : session d0 d fs s -> In f fs -> fl_chdir im f s = Done s' r ->
    session d0 (match r with inl w => mkDrv (mount d) w | inr _ => d end) fs s'.
End Session.
