(** * Spec_Driver: vocabulary for the properties of the driver. *)
From Coq Require Import String.
From Verif Require Import GoBase ListZ Errors Flags GoPath Spec_Path BlockCache BasicStream Driver.

(** ** All operations that take a path *)
Inductive pop :=
| PStat (p : list Z) | PLstat (p : list Z) | PReadFile (p : list Z) | POpenFile (p : list Z) (flags perm : Z)
| PCreate (p : list Z) | PReadDir (p : list Z) | PChdir (p : list Z) | PMkdir (p : list Z) (perm : Z)
| PMkdirAll (p : list Z) (perm : Z) | PRemove (p : list Z) | PRemoveAll (p : list Z) | PTruncate (p : list Z)
| PChmod (p : list Z) (mode : Z) | PChown (p : list Z) (uid gid : Z) | PLchown (p : list Z) (uid gid : Z)
| PChtimes (p : list Z) (atime mtime : Z) | PLink (old new : list Z) | PReadlink (p : list Z)
| PWriteFile (p : list Z) (b : list Z) (perm : Z).

Section Ops.
Context {F H : Type} (im : impl F H) (wm : wmode) (d : drv) (fuel : nat).
(* the error an operation returns (None: nil) *)
Definition outc {A} (m : M F (A + kerr)) : M F (option kerr) :=
  bind m (fun r => ret (match r with inl _ => None | inr e => Some e end)).
Definition run_op (o : pop) : M F (option kerr) :=
  match o with
  | PStat p => outc (stat_path im wm d fuel p)
  | PLstat p => outc (lstat im wm d fuel p)
  | PReadFile p => outc (read_file im wm d fuel p)
  | POpenFile p fl perm => outc (open_file im wm d fuel p fl perm)
  | PCreate p => outc (create im wm d fuel p)
  | PReadDir p => bind (read_dir im wm d fuel p) (fun r => ret (snd r))
  | PChdir p => outc (chdir im wm d fuel p)
  | PMkdir p perm => outc (mkdir im wm d fuel p perm)
  | PMkdirAll p perm => outc (mkdir_all im wm d fuel fuel p perm)
  | PRemove p => outc (remove im wm d fuel p)
  | PRemoveAll p => outc (remove_all im wm d fuel p)
  | PTruncate p => outc (truncate im wm d fuel p)
  | PChmod p m => outc (chmod im wm d fuel p m)
  | PChown p u g => outc (chown im wm d fuel p u g)
  | PLchown p u g => outc (lchown im wm d fuel p u g)
  | PChtimes p a m => outc (chtimes im wm d fuel p a m)
  | PLink o n => outc (link im wm d fuel o n)
  | PReadlink p => outc (readlink im wm d fuel p)
  | PWriteFile p b perm => outc (write_file im wm d fuel p b perm)
  end.
End Ops.
Definition op_path (o : pop) : list Z :=
  match o with
  | PStat p | PLstat p | PReadFile p | POpenFile p _ _ | PCreate p | PReadDir p | PChdir p | PMkdir p _
  | PMkdirAll p _ | PRemove p | PRemoveAll p | PTruncate p | PChmod p _ | PChown p _ _ | PLchown p _ _
  | PChtimes p _ _ | PReadlink p | PWriteFile p _ _ => p
  | PLink p _ => p
  end.
(* operations that are refused before anything is looked up *)
Definition refused {F H} (im : impl F H) (d : drv) (o : pop) : option kerr :=
  match o with
  | POpenFile _ fl _ => if io_requires_write_perm fl && negb (can_write (mount d)) then Some (K ErrReadOnlyFileSystem) else None
  | PCreate _ | PWriteFile _ _ _ => if can_write (mount d) then None else Some (K ErrReadOnlyFileSystem)
  | PLink _ _ => match i_link im with None => Some (K ErrNotSupported) | Some _ => None end
  | PReadlink _ => if i_has_symlinks im then None else Some (K ErrNotSupported)
  | _ => None
  end.

(** ** Reading the log *)
(* calls that change the file system *)
Definition modifies (e : event) : Prop :=
  match e with
  | EvCreate _ _ _ | EvLink _ _ _ | EvResizeObj _ _ | EvWrite _ _ _ | EvUnlink _
  | EvChmod _ _ | EvChown _ _ _ | EvChtimes _ _ => True
  | _ => False
  end.
Definition end_state {F A} (r : mres F A) : dst F := match r with Done s _ | Crash s | Spin s => s end.
(* the calls made by a run that started in state s *)
Definition calls {F A} (s : dst F) (r : mres F A) : list event := skipn (length (d_log s)) (d_log (end_state r)).
Definition releases (id : nat) (l : list event) : nat :=
  length (filter (fun e => match e with EvRelease i => Nat.eqb i id | _ => false end) l).
Definition acquisitions (id : nat) (l : list event) : nat :=
  length (filter (fun e => match e with EvAcquire i => Nat.eqb i id | _ => false end) l).
(* every handle obtained is closed exactly once, and nothing else is closed *)
Definition balanced (l : list event) : Prop :=
  forall id, (acquisitions id l <= 1)%nat /\ releases id l = acquisitions id l.
Definition acquired (id : nat) (l : list event) : Prop := In (EvAcquire id) l.

(** ** A healthy in-memory file system, used as a witness and for the properties whose
    subject is the effect on the stored tree *)
Inductive node := NFile (b : list Z) | NLink (target : list Z) | NDir (es : list (list Z * node)).
Fixpoint lookup_in (n : list Z) (es : list (list Z * node)) : option node :=
  match es with [] => None | (m, x) :: es' => if beqb m n then Some x else lookup_in n es' end.
Fixpoint lookup (t : node) (p : list (list Z)) : option node :=
  match p with
  | [] => Some t
  | n :: p' => match t with NDir es => match lookup_in n es with Some x => lookup x p' | None => None end | _ => None end
  end.
(* replace (Some) or delete (None) the entry n *)
Fixpoint set_in (n : list Z) (v : option node) (es : list (list Z * node)) : list (list Z * node) :=
  match es with
  | [] => []
  | (m, x) :: es' => if beqb m n then match v with Some y => (m, y) :: es' | None => es' end else (m, x) :: set_in n v es'
  end.
Fixpoint update (t : node) (p : list (list Z)) (v : option node) : node :=
  match p with
  | [] => match v with Some y => y | None => t end
  | n :: p' =>
      match t with
      | NDir es =>
          match p' with
          | [] => NDir (set_in n v es)
          | _ => match lookup_in n es with Some x => NDir (set_in n (Some (update x p' v)) es) | None => t end
          end
      | _ => t
      end
  end.
Definition ceil_div (n bs : Z) : Z := (n + bs - 1) / bs.
Definition node_bytes (t : node) : list Z := match t with NFile b => b | NLink t => t | NDir _ => [] end.
Definition node_mode (t : node) : Z := match t with NFile _ => 0 | NLink _ => ModeSymlink | NDir _ => ModeDir end.
Section MemFS.
Variable bs : Z.
Definition mem_node (t : node) (h : list (list Z)) : node := match lookup t h with Some x => x | None => NFile [] end.
Definition mem_stat (t : node) (h : list (list Z)) : fstat :=
  let x := mem_node t h in let n := zlen (node_bytes x) in
  mkFstat 0 0 1 (node_mode x) 0 0 0 n bs (ceil_div n bs) 0 0 0 0 0.
Definition memfs : impl node (list (list Z)) :=
  mkImpl node (list (list Z))
    (fun t => (t, []))
    (fun t n h => (t, match lookup t (h ++ [n]) with Some _ => inl (h ++ [n]) | None => inr (K ErrNotFound) end))
    (fun t n h mode =>
       match mem_node t h with
       | NDir es =>
           (update t h (Some (NDir (es ++ [(n, if stat_is_dir mode then NDir [] else NFile [])]))), inl (h ++ [n]))
       | _ => (t, inr (K ErrNotADirectory))
       end)
    None true false false
    mem_stat
    (fun t h n =>
       match mem_node t h with
       | NFile b => (update t h (Some (NFile (slice 0 n b ++ zrepeat 0 (n - zlen b)))), None)
       | _ => (t, Some (K ErrNotPermitted))
       end)
    (fun t h i buf =>
       let b := node_bytes (mem_node t h) in
       (t, slice (i * bs) bs (b ++ zrepeat 0 (ceil_div (zlen b) bs * bs - zlen b)), None))
    (fun t h i buf =>
       match mem_node t h with
       | NFile b =>
           if i * bs <? zlen b then
             (update t h (Some (NFile (splice (i * bs) (slice 0 (Z.min (zlen buf) (zlen b - i * bs)) buf) b))), None)
           else (t, Some (K ErrArgumentOutOfRange))
       | _ => (t, Some (K ErrNotPermitted))
       end)
    (fun t h => match lookup t h with Some _ => (update t h None, None) | None => (t, Some (K ErrNotFound)) end)
    (fun t h => last h str_slash)
    (fun t a b => if list_eq_dec (list_eq_dec Z.eq_dec) a b then true else false)
    (fun t h => t)
    (fun t h => match mem_node t h with NDir es => Some (t, inl (map fst es)) | _ => None end)
    (fun t h => None) (fun t h => None) (fun t h => None).
End MemFS.
(* a tree whose root is a directory, mounted and about to be used *)
Definition start (t : node) : dst node := mkD t 0%nat [].

(** ** The contract of ObjectHandle.ReadBlocks (api.go:236-243), for handle h with blocks of
    bs bytes: [nb fs] blocks are readable and block i contains [blk fs i].  Reading changes
    no contents; a failed read may leave anything in the buffer. *)
Definition reads_honestly {F H} (im : impl F H) (h : H) (bs : Z) (nb : F -> Z) (blk : F -> Z -> list Z) : Prop :=
  (forall fs i, 0 <= i < nb fs -> zlen (blk fs i) = bs) /\
  forall fs i buf fs' b e, 0 <= i < nb fs -> zlen buf = bs -> h_read im fs h i buf = (fs', b, e) ->
    nb fs' = nb fs /\ (forall j, 0 <= j < nb fs -> blk fs' j = blk fs j) /\ zlen b = bs /\ (e = None -> b = blk fs i).

(** ** Chains of symbolic links in the root directory [es] *)
Inductive at_path (es : list (list Z * node)) : list Z -> option node -> Prop :=
| at_root : at_path es (render []) (Some (NDir es))
| at_entry n : proper n -> at_path es (render [n]) (lookup_in n es).
Inductive chain_end := ToObject (p : list Z) | ToMissing | ToStart.
(* following links one by one from p, for a chain that began with the link at [first]:
   ends at something that is no link, at nothing, or comes back to [first] *)
Inductive leads (es : list (list Z * node)) (cwd first : list Z) : list Z -> chain_end -> Prop :=
| ld_object p x : at_path es p (Some x) -> (forall t, x <> NLink t) -> leads es cwd first p (ToObject p)
| ld_missing p : at_path es p None -> leads es cwd first p ToMissing
| ld_start p t : at_path es p (Some (NLink t)) -> normalize_path cwd t = first -> leads es cwd first p ToStart
| ld_next p t q r : at_path es p (Some (NLink t)) -> normalize_path cwd t = q -> q <> first ->
    leads es cwd first q r -> leads es cwd first p r.
(* link texts the driver can read *)
Definition small_links (bs : Z) (es : list (list Z * node)) : Prop :=
  forall n t, lookup_in n es = Some (NLink t) -> zlen t + bs < 2^63.

(** ** Reading a directory page by page, until the first error *)
Fixpoint read_pages {F H} (im : impl F H) (f : file H) (ks : list Z) : M F (list (list dirent * option kerr)) :=
  match ks with
  | [] => ret []
  | k :: ks' =>
      bind (fl_read_dir im f k) (fun r =>
        let '(f', es, e) := r in
        match e with
        | Some _ => ret [(es, e)]
        | None => bind (read_pages im f' ks') (fun rest => ret ((es, e) :: rest))
        end)
  end.
Definition not_dots (n : list Z) : Prop := n <> B "." /\ n <> B "..".
(* looking up a name yields an object of that name *)
Definition names_right {F H} (im : impl F H) : Prop :=
  forall fs n p fs' h, i_get im fs n p = (fs', inl h) -> h_name im fs' h = n.

(* a tree less than n levels deep in which every directory has distinct proper entry names *)
Fixpoint tree_ok (n : nat) (t : node) : Prop :=
  match n with
  | O => False
  | S n' =>
      match t with
      | NDir es => NoDup (map fst es) /\ Forall (fun e => proper (fst e) /\ tree_ok n' (snd e)) es
      | _ => True
      end
  end.

(** ** Shallow paths *)
(* The object named n in the root directory is not a link: asking for the root gives the
   handle rh, asking for n gives h and leaves the file system in state fs2. *)
Definition entry_of {F H} (im : impl F H) (fs0 : F) (n : list Z) (fs2 : F) (rh h : H) : Prop :=
  exists fs1, i_root im fs0 = (fs1, rh) /\ is_dir (h_stat im fs1 rh) = true /\ is_symlink (h_stat im fs1 rh) = false /\
    i_get im fs1 n rh = (fs2, inl h) /\ is_symlink (h_stat im (h_close im fs2 rh) h) = false.
Definition plain (o : pop) : Prop :=
  match o with PStat _ | PChdir _ | PTruncate _ | PRemove _ | PChmod _ _ | PChown _ _ _ | PChtimes _ _ _ | PMkdir _ _ => True | _ => False end.
(* operations that close what they open *)
Definition tidy (o : pop) : Prop :=
  match o with
  | PStat _ | PReadFile _ | PReadDir _ | PChdir _ | PMkdir _ _ | PMkdirAll _ _ | PRemove _ | PTruncate _ | PReadlink _ => True
  | _ => False
  end.
(* operations that only look *)
Definition looks (o : pop) : Prop :=
  match o with
  | PStat _ | PLstat _ | PReadFile _ | PReadDir _ | PChdir _ | PReadlink _ => True
  | POpenFile _ fl _ => io_create fl = false /\ io_truncate fl = false
  | _ => False
  end.
