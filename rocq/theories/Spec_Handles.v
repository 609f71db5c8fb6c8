(** * Spec_Handles: what it means to use a handle, and programs that use a mounted driver and its files. *)
From Coq Require Import String.
From Verif Require Import GoBase ListZ Errors Flags GoPath Spec_Path BlockCache BasicStream Driver DriverFile Spec_Driver.

(* event e is a call on handle id (or with handle id as parent or source) other than Close *)
Definition uses (id : nat) (e : event) : Prop :=
  match e with
  | EvAcquire _ | EvRelease _ => False
  | EvGet p _ | EvCreate p _ _ => id = p
  | EvLink s p _ => id = s \/ id = p
  | EvResizeObj i _ | EvRead i _ | EvWrite i _ _ | EvUnlink i | EvList i | EvChmod i _ | EvChown i _ _ | EvChtimes i _ => id = i
  end.
(* once a handle is closed, nothing is called on it any more except Close *)
Definition no_use_after_close (l : list event) : Prop :=
  forall l1 id l2 e, l = l1 ++ EvRelease id :: l2 -> In e l2 -> ~ uses id e.
(* only handles obtained from the implementation are used or closed *)
Definition only_obtained (l : list event) : Prop :=
  forall l1 e l2 id, l = l1 ++ e :: l2 -> uses id e \/ e = EvRelease id -> In (EvAcquire id) l1.
(* no handle number is given twice *)
Definition distinct (l : list event) : Prop := forall id, (acquisitions id l <= 1)%nat.

(** ** Programs *)
Inductive fop :=
| FRead (n : Z) | FReadAt (n off : Z) | FWrite (b : list Z) | FWriteAt (b : list Z) (off : Z) | FTruncate (n : Z)
| FSync | FClose | FReadDir (n : Z) | FChmod (mode : Z) | FChown (uid gid : Z).
Section Run.
Context {F H : Type} (im : impl F H) (wm : wmode).
(* the file afterwards; results are dropped *)
Definition run_fop (o : fop) (f : file H) : M F (file H) :=
  match o with
  | FRead n => bind (fl_read im f (zrepeat 0 n)) (fun r => ret (fst (fst (fst r))))
  | FReadAt n off => bind (fl_read_at im f (zrepeat 0 n) off) (fun r => ret (fst (fst (fst r))))
  | FWrite b => bind (fl_write im f b) (fun r => ret (fst (fst r)))
  | FWriteAt b off => bind (fl_write_at im f b off) (fun r => ret (fst (fst r)))
  | FTruncate n => bind (fl_truncate im f n) (fun r => ret (fst r))
  | FSync => bind (fl_sync im f) (fun r => ret (fst r))
  | FClose => bind (fl_close im f) (fun _ => ret f)
  | FReadDir n => bind (fl_read_dir im f n) (fun r => ret (fst (fst r)))
  | FChmod m => bind (fl_chmod im f m) (fun _ => ret f)
  | FChown u g => bind (fl_chown im f u g) (fun _ => ret f)
  end.
(* the files a program has opened so far (in every state they had) and the state it has reached *)
Inductive program : list (file H) -> dst F -> Prop :=
| pr_start fs : program [] (mkD fs 0%nat [])
| pr_op files s d fuel o s' r : program files s -> run_op im wm d fuel o s = Done s' r -> program files s'
| pr_open files s d fuel p fl perm s' f : program files s -> open_file im wm d fuel p fl perm s = Done s' (inl f) -> program (f :: files) s'
| pr_file files s f o s' f' : program files s -> In f files -> run_fop o f s = Done s' f' -> program (f' :: files) s'.
(* what the implementation has seen of a program, up to and including a last call that may panic or never return *)
Inductive observed : list event -> Prop :=
| ob_now files s : program files s -> observed (d_log s)
| ob_op files s d fuel o : program files s -> observed (d_log (end_state (run_op im wm d fuel o s)))
| ob_open files s d fuel p fl perm : program files s -> observed (d_log (end_state (open_file im wm d fuel p fl perm s)))
| ob_file files s f o : program files s -> In f files -> observed (d_log (end_state (run_fop o f s))).
End Run.
