(** * Property theorems C104-C113 (statements; proofs in DriverProofs13-15).  For the notation see Props_Driver. *)
From Coq Require Import String.
From Verif Require Import GoBase ListZ Errors Flags GoPath Spec_Path GoPathProofs BlockCache Spec_BlockCache BlockCacheProofs
  BlockCacheProofs2 BasicStream Spec_BasicStream BasicStreamProofs Driver DriverFile Spec_Driver Spec_Driver2 DriverProofs DriverProofs2 DriverProofs3 DriverProofs4
  DriverProofs5 DriverProofs6 DriverProofs7 DriverProofs8 DriverProofs9 DriverProofs10 DriverProofs11 DriverProofs12 DriverProofs13 DriverProofs14 DriverProofs15 Props_Driver2.

(** ** C104 *)
(* in every history of a mounted driver the working directory is "/" or "/n1/.../nk", and the mount flags never change *)
Theorem C104_getwd_canonical {F H} (im : impl F H) wm flags d files s : session im wm (new_driver flags) d files s ->
  (exists names, Forall proper names /\ getwd d = render names) /\ mount d = flags.
Proof.
  intros HS. destruct (session_canonical im wm (new_driver flags) d files s) as (A & B & _); auto. exists []. split; [constructor|reflexivity].
Qed.
(* changing to an entry of the root: its path if it is a directory, ErrNotADirectory if it is not *)
Theorem C104_chdir_partial {F H} (im : impl F H) wm d f p n s fs2 rh h : wm <> AsIs -> proper n -> normalize_path (cwd d) p = render [n] -> entry_of im (d_fs s) n fs2 rh h ->
  exists s', chdir im wm d (S (S (S (S f)))) p s =
    Done s' (if is_dir (h_stat im (h_close im fs2 rh) h) then inl (render [n]) else inr (K ErrNotADirectory)).
Proof. intros Hwm. apply (chdir_entry im wm Hwm). Qed.
(* through a chain of links the working directory is the real directory at its end *)
Theorem C104_chdir_link_partial bs wm d n text m sub es s : 0 < bs < 2^62 -> wm <> AsIs -> small_links bs es -> proper n -> proper m ->
  lookup_in n es = Some (NLink text) -> d_fs s = NDir es -> lookup_in m es = Some (NDir sub) -> leads es (cwd d) (render [n]) (render [n]) (ToObject (render [m])) ->
  exists N s', chdir (memfs bs) wm d N (render [n]) s = Done s' (inl (render [m])) /\ d_fs s' = NDir es.
Proof. apply chdir_link. Qed.
(* once the working directory is not the root, no operation on a plain name returns *)
Theorem C104_relative_refuted {F H} (im : impl F H) wm d fuel o s n : proper n -> getwd d = render [n] -> proper (op_path o) ->
  refused im d o = None -> run_op im wm d fuel o s = Spin s.
Proof.
  intros Hn Ew Hp HR. apply (nested_op im wm d fuel o s [n] (op_path o)); auto; [discriminate|]. unfold getwd in Ew. rewrite Ew. apply norm_name; [constructor; [exact Hn|constructor]|exact Hp].
Qed.
Example C104_example :
  (exists s', chdir (memfs 4) Embedded demo 9 (B "d") (start (NDir tree)) = Done s' (inl (B "/d"))) /\
  (exists s', chdir (memfs 4) Embedded demo 9 (B "f") (start (NDir tree)) = Done s' (inr (K ErrNotADirectory))) /\
  (exists s', stat_path (memfs 4) Embedded (mkDrv MountFlagsAllowAll (B "/d")) 60 (B "g") (start (NDir tree)) = Spin s') /\
  (exists s', session (memfs 4) Embedded (new_driver MountFlagsAllowAll) (mkDrv MountFlagsAllowAll (B "/d")) [] s').
Proof.
  split; [eexists; vm_compute; reflexivity|]. split; [eexists; vm_compute; reflexivity|]. split; [eexists; vm_compute; reflexivity|].
  eexists. change (mkDrv MountFlagsAllowAll (B "/d")) with (match @inl (list Z) kerr (B "/d") with inl w => mkDrv (mount (new_driver MountFlagsAllowAll)) w | inr _ => new_driver MountFlagsAllowAll end).
  eapply ses_chdir; [apply (ses_start _ _ _ (start (NDir tree)))|]. instantiate (3 := 9%nat). instantiate (2 := B "d"). vm_compute. reflexivity.
Qed.

(** ** C105 *)
(* [may] (Spec_Driver2) lists, per operation, the calls with an effect it may make and their arguments *)
Theorem C105_only_its_calls {F H} (im : impl F H) wm d fuel o s : Forall (may im d o) (calls s (run_op im wm d fuel o s)).
Proof. apply ext_calls, op_may. Qed.
Theorem C105_looking_changes_nothing {F H} (im : impl F H) wm d fuel o s : looks o -> Forall (fun e => ~ modifies e) (calls s (run_op im wm d fuel o s)).
Proof.
  intros Hl. eapply Forall_impl; [|apply C105_only_its_calls]. intros e He. destruct e; cbn in He |- *; try tauto; destruct o; cbn in Hl; try tauto;
    destruct Hl as [Hc Ht]; destruct He as [He1 He2]; congruence.
Qed.
Example C105_example : calls (start (NDir tree)) (run_op (memfs 4) Full demo 9 (PRemove (B "z")) (start (NDir tree))) =
    [EvAcquire 0; EvGet 0 (B "z"); EvAcquire 1; EvRelease 0; EvList 1; EvUnlink 1; EvRelease 1] /\
  ~ may (memfs 4) demo (PStat (B "z")) (EvUnlink 1) /\ ~ may (memfs 4) demo (PChmod (B "z") 7) (EvChmod 1 8).
Proof. split; [vm_compute; reflexivity|]. split; [exact (fun x => x)|cbn; discriminate]. Qed.

(** ** C106 *)
Theorem C106_at_most_one {F H} (im : impl F H) wm d fuel p fl perm b s :
  (creations (calls s (open_file im wm d fuel p fl perm s)) <= 1)%nat /\
  (creations (calls s (create im wm d fuel p s)) <= 1)%nat /\
  (creations (calls s (write_file im wm d fuel p b perm s)) <= 1)%nat.
Proof. split; [|split]; apply mc_calls; [apply open_creates_once|apply open_creates_once|apply write_creates_once]. Qed.
(* what is created is the last component of the path, with the given permissions, and only if the caller
   asked for it and Stat of the path reports ErrNotFound at that moment *)
Theorem C106_only_missing {F H} (im : impl F H) wm d fuel p fl perm s i n m : In (EvCreate i n m) (calls s (open_file im wm d fuel p fl perm s)) ->
  io_create fl = true /\ m = perm /\ last_name d p n /\ exists s' e, stat_path im wm d fuel p s = Done s' (inr e) /\ kerr_is e ErrNotFound = true.
Proof. apply open_creates_missing. Qed.
(* permissions with the directory bit: a directory is made and left behind, and the call fails *)
Theorem C106_leaves_directory_refuted bs wm d f n fl perm es s : 0 < bs < 2^62 -> wm <> AsIs -> proper n -> d_fs s = NDir es -> lookup_in n es = None -> can_write (mount d) = true ->
  io_create fl = true -> stat_is_dir perm = true ->
  exists s', open_file (memfs bs) wm d (S (S (S (S f)))) (render [n]) fl perm s = Done s' (inr (K ErrIsADirectory)) /\ d_fs s' = NDir (es ++ [(n, NDir [])]).
Proof. apply open_dir_perm. Qed.
Example C106_example :
  (exists s', open_file (memfs 4) Full demo 9 (B "new") (Z.lor O_RDWR O_CREATE) (ModeDir + 511) (start (NDir tree)) = Done s' (inr (K ErrIsADirectory)) /\
    lookup (d_fs s') [B "new"] = Some (NDir [])) /\
  (exists s' f, open_file (memfs 4) Full demo 9 (B "new") (Z.lor O_RDWR O_CREATE) 511 (start (NDir tree)) = Done s' (inl f) /\
    lookup (d_fs s') [B "new"] = Some (NFile []) /\ creations (d_log s') = 1%nat) /\
  (exists s' f, open_file (memfs 4) Full demo 9 (B "f") (Z.lor O_RDWR O_CREATE) 511 (start (NDir tree)) = Done s' (inl f) /\ creations (d_log s') = 0%nat).
Proof.
  split; [eexists; split; [vm_compute; reflexivity|reflexivity]|]. split; eexists; eexists; (split; [vm_compute; reflexivity|]); repeat split.
Qed.

(** ** C107 *)
(* Close of a File makes only block reads and writes; the handle is never released, whatever happened before *)
Theorem C107_close_keeps_handle_refuted {F H} (im : impl F H) f s id : releases id (calls s (fl_close im f s)) = 0%nat.
Proof. apply io_only_no_release, close_io_only. Qed.
Theorem C107_open_close_leaks_refuted {F H} (im : impl F H) wm d f p n fl perm s fs2 rh h s1 fl' s2 e : wm <> AsIs -> proper n -> normalize_path (cwd d) p = render [n] ->
  entry_of im (d_fs s) n fs2 rh h -> io_truncate fl = false ->
  open_file im wm d (S (S (S (S f)))) p fl perm s = Done s1 (inl fl') -> fl_close im fl' s1 = Done s2 e ->
  exists l, d_log s2 = d_log s ++ l /\ acquisitions (x_id (fl_obj fl')) l = 1%nat /\ releases (x_id (fl_obj fl')) l = 0%nat.
Proof. intros Hwm. apply (open_close_leaks im wm d Hwm). Qed.
Example C107_example : exists s1 f s2, open_file (memfs 4) Full demo 9 (B "f") O_RDONLY 0 (start (NDir tree)) = Done s1 (inl f) /\
  fl_close (memfs 4) f s1 = Done s2 None /\ d_log s2 = [EvAcquire 0; EvGet 0 (B "f"); EvAcquire 1; EvRelease 0].
Proof. eexists. eexists. eexists. split; [vm_compute; reflexivity|]. split; vm_compute; reflexivity. Qed.

(** ** C108 *)
(* whatever the final flush reports, WriteFile returns nil *)
Theorem C108_flush_error_dropped_refuted {F H} (im : impl F H) wm d fuel p b perm s s1 f s2 f' n s3 r :
  open_file im wm d fuel p (Z.lor (Z.lor O_WRONLY O_CREATE) O_TRUNC) perm s = Done s1 (inl f) ->
  fl_write im f b s1 = Done s2 (f', n, None) -> fl_close im f' s2 = Done s3 r -> write_file im wm d fuel p b perm s = Done s3 (inl tt).
Proof. apply write_file_drops. Qed.
(* memfs on a medium that rejects every write *)
Definition baddisk (bs : Z) : impl node (list (list Z)) :=
  let m := memfs bs in
  mkImpl node (list (list Z)) (i_root m) (i_get m) (i_create m) (i_link m) true true true (h_stat m) (h_resize m) (h_read m)
    (fun t _ _ _ => (t, Some (K ErrIOFailed))) (h_unlink m) (h_name m) (h_same m) (h_close m) (h_listdir m) (h_chmod m) (h_chown m) (h_chtimes m).
Example C108_example :
  (exists s1 f s2 f' s3, open_file (baddisk 4) Full demo 9 (B "f") (Z.lor (Z.lor O_WRONLY O_CREATE) O_TRUNC) 511 (start (NDir tree)) = Done s1 (inl f) /\
    fl_write (baddisk 4) f (B "bytes") s1 = Done s2 (f', 5, None) /\ fl_close (baddisk 4) f' s2 = Done s3 (Some (KMsg (K ErrIOFailed)))) /\
  (exists s', write_file (baddisk 4) Full demo 9 (B "f") (B "bytes") 511 (start (NDir tree)) = Done s' (inl tt) /\ lookup (d_fs s') [B "f"] = Some (NFile [0; 0])).
Proof.
  split; [|eexists; split; [vm_compute; reflexivity|reflexivity]].
  eexists. eexists. eexists. eexists. eexists. split; [vm_compute; reflexivity|]. split; [vm_compute; reflexivity|]. vm_compute. reflexivity.
Qed.

(** ** C109 *)
(* ReadDir does not look at the type: a file (no ListDir method) panics, and with the wrapper every directory too *)
Theorem C109_read_dir_panics_refuted {F H} (im : impl F H) wm d f p n s fs2 rh h : wm <> AsIs -> proper n -> normalize_path (cwd d) p = render [n] -> entry_of im (d_fs s) n fs2 rh h ->
  (wm = Full -> h_listdir im (h_close im fs2 rh) h = None) -> exists s', read_dir im wm d (S (S (S (S f)))) p s = Crash s'.
Proof. intros Hwm. apply (read_dir_crash im wm d Hwm). Qed.
(* the method of File does look *)
Theorem C109_file_read_dir {F H} (im : impl F H) f n s : meth (fl_obj f) = true -> is_dir (h_stat im (d_fs s) (x_h (fl_obj f))) = false ->
  fl_read_dir im f n s = Done s (f, [], Some (K ErrNotADirectory)).
Proof. intros Hm Hd. unfold fl_read_dir. rewrite bind_stat by exact Hm. now rewrite Hd. Qed.
Example C109_example :
  (exists s', read_dir (memfs 4) Full demo 9 (B "f") (start (NDir tree)) = Crash s') /\
  (exists s', read_dir (memfs 4) Embedded demo 9 (B "d") (start (NDir tree)) = Crash s') /\
  (exists s' l, read_dir (memfs 4) Full demo 9 (B "d") (start (NDir tree)) = Done s' (l, None) /\ map de_name l = [B "g"; B "e"]).
Proof. split; [eexists; vm_compute; reflexivity|]. split; [eexists; vm_compute; reflexivity|]. eexists. eexists. split; vm_compute; reflexivity. Qed.

(** ** C110 *)
(* created, accessed, modified, changed, deleted *)
Theorem C110_unsupported_times_undefined {F H} (im : impl F H) wm d fuel o s i ts : In (EvChtimes i ts) (calls s (run_op im wm d fuel o s)) ->
  exists p at_ mt, o = PChtimes p at_ mt /\ length ts = 5%nat /\
  (i_has_atime im = false -> nth 1 ts 1 = 0) /\ (i_has_mtime im = false -> nth 2 ts 1 = 0) /\
  (i_has_atime im = true -> nth 1 ts 0 = at_) /\ (i_has_mtime im = true -> nth 2 ts 0 = mt) /\
  nth 0 ts 1 = 0 /\ nth 3 ts 1 = 0 /\ nth 4 ts 1 = 0.
Proof.
  intros Hin. pose proof (C105_only_its_calls im wm d fuel o s) as HF. rewrite Forall_forall in HF. specialize (HF _ Hin). cbn in HF.
  destruct o; try contradiction. subst ts. exists p, atime, mtime. split; [reflexivity|]. split; [reflexivity|]. cbn. destruct (i_has_atime im), (i_has_mtime im); intuition congruence.
Qed.
Example C110_example : calls (start (NDir tree)) (run_op (attrfs 4) Full demo 9 (PChtimes (B "f") 7 8) (start (NDir tree))) =
  lookup_calls 0 (B "f") ++ [EvChtimes 1 [0; 7; 8; 0; 0]].
Proof. vm_compute. reflexivity. Qed.

(** ** C111: guarantees documented for implementations (api.go:103-120, 160-165, 328-331) *)
(* CreateObject is called for objects that exist *)
Theorem C111_create_existing_refuted {F H} (im : impl F H) wm d f p perm n s fs2 rh h : wm <> AsIs -> proper n -> normalize_path (cwd d) p = render [n] ->
  entry_of im (d_fs s) n fs2 rh h -> In (EvCreate (d_next s) n (mkdir_mode perm)) (calls s (mkdir im wm d (S (S (S (S f)))) p perm s)).
Proof. intros Hwm Hn Ep (fs1 & E1 & E2 & E3 & _). eapply (mkdir_calls im wm d Hwm); eauto. Qed.
(* GetObject is called for objects that do not exist *)
Theorem C111_get_missing_refuted {F H} (im : impl F H) wm d f p n s fs1 rh fs2 e : wm <> AsIs -> proper n -> normalize_path (cwd d) p = render [n] ->
  i_root im (d_fs s) = (fs1, rh) -> is_dir (h_stat im fs1 rh) = true -> is_symlink (h_stat im fs1 rh) = false -> i_get im fs1 n rh = (fs2, inr e) ->
  exists s', stat_path im wm d (S (S (S (S f)))) p s = Done s' (inr e) /\ d_log s' = d_log s ++ [EvAcquire (d_next s); EvGet (d_next s) n; EvRelease (d_next s)].
Proof. intros Hwm. apply (missing_calls im wm d Hwm). Qed.
(* CreateHardLink is called with a directory as source *)
Theorem C111_link_directory_refuted {F H} (im : impl F H) wm d f po pn o n s mk fs2 rh h fs3 rh3 fs4 e fs5 rh5 : wm <> AsIs -> i_link im = Some mk -> proper o -> proper n ->
  normalize_path (cwd d) po = render [o] -> normalize_path (cwd d) pn = render [n] -> entry_of im (d_fs s) o fs2 rh h -> is_dir (h_stat im (h_close im fs2 rh) h) = true ->
  i_root im (h_close im fs2 rh) = (fs3, rh3) -> is_dir (h_stat im fs3 rh3) = true -> is_symlink (h_stat im fs3 rh3) = false ->
  i_get im fs3 n rh3 = (fs4, inr e) ->
  i_root im (h_close im fs4 rh3) = (fs5, rh5) -> is_dir (h_stat im fs5 rh5) = true -> is_symlink (h_stat im fs5 rh5) = false ->
  In (EvLink (S (d_next s)) (S (S (S (d_next s)))) n) (calls s (link im wm d (S (S (S (S f)))) po pn s)).
Proof.
  intros Hwm Em Ho Hn Eo En He _ A1 A2 A3 A4 A5 A6 A7.
  destruct (link_missing im wm d Hwm f po pn o n s mk fs2 rh h fs3 rh3 fs4 e fs5 rh5 Em Ho Hn Eo En He A1 A2 A3 A4 A5 A6 A7) as (s' & _ & _ & HI). exact HI.
Qed.
(* Chmod passes type bits on to the implementation *)
Theorem C111_chmod_type_bits_refuted {F H} (im : impl F H) d f p n mode s fs2 rh h g : proper n -> normalize_path (cwd d) p = render [n] -> entry_of im (d_fs s) n fs2 rh h ->
  h_chmod im (h_close im fs2 rh) h = Some g -> In (EvChmod (S (d_next s)) mode) (calls s (chmod im Full d (S (S (S (S f)))) p mode s)).
Proof.
  intros Hn Ep He Eg. pose proof (C90_chmod_partial im d f p n mode s fs2 rh h Hn Ep He) as HA. cbv zeta in HA. rewrite Eg in HA.
  destruct HA as (s' & _ & _ & ->). apply in_or_app. right. now left.
Qed.
(* OpenFile, Create and WriteFile do ask first *)
Theorem C111_open_asks_first_partial {F H} (im : impl F H) wm d fuel p fl perm s st s' : stat_path im wm d fuel p s = Done s' (inl st) ->
  creations (calls s (open_file im wm d fuel p fl perm s)) = 0%nat.
Proof. apply open_existing_no_create. Qed.
Example C111_example :
  In (EvCreate 0 (B "d") (ModeDir + 511)) (d_log (end_state (mkdir (memfs 4) Full demo 9 (B "d") 511 (start (NDir tree))))) /\
  In (EvLink 1 3 (B "new")) (d_log (end_state (link (attrfs 4) Full demo 9 (B "d") (B "new") (start (NDir tree))))) /\
  In (EvGet 0 (B "nope")) (d_log (end_state (stat_path (attrfs 4) Full demo 9 (B "nope") (start (NDir tree))))) /\
  In (EvChmod 1 (ModeDir + 511)) (d_log (end_state (chmod (attrfs 4) Full demo 9 (B "f") (ModeDir + 511) (start (NDir tree))))).
Proof. vm_compute. repeat split; tauto. Qed.

(** ** C112 *)
(* every method of the stub that fails says "not implemented" and has no other result ... *)
Theorem C112_not_implemented_partial c r : nop c = Ret r ->
  match c with
  | NStat => r = NRStat (mkFstat 0 0 0 0 0 0 0 0 0 0 0 0 0 0 0)
  | NName | NAbsolutePath => r = NRStr []
  | NListDir => r = NRNames [] (K ErrNotImplemented)
  | _ => r = NRErr (K ErrNotImplemented)
  end.
Proof. destruct c; intros [= <-]; reflexivity. Qed.
(* ... but two methods of the interface are missing and panic *)
Theorem C112_missing_methods_refuted c : nop c = Panic <-> c = NSameAs \/ c = NClose.
Proof. destruct c; cbn; split; try discriminate; auto; intros [E|E]; discriminate E. Qed.

(** ** C113 *)
(* Stat of an open file always reports what the file was like when it was opened *)
Theorem C113_stat_frozen_refuted {F H} (im : impl F H) f s s' f' :
  (forall b n e, fl_write im f b s = Done s' (f', n, e) -> fl_info f' = fl_info f) /\
  (forall n e, fl_truncate im f n s = Done s' (f', e) -> fl_info f' = fl_info f) /\
  (forall b off n e, fl_write_at im f b off s = Done s' (f', n, e) -> fl_info f' = fl_info f) /\
  (forall e, fl_sync im f s = Done s' (f', e) -> fl_info f' = fl_info f).
Proof. apply info_frozen. Qed.
(* it is right at that moment, and its name is the last component of the path *)
Theorem C113_stat_at_open_partial {F H} (im : impl F H) wm d f p n fl perm s fs2 rh h s' f' : wm <> AsIs -> proper n -> normalize_path (cwd d) p = render [n] ->
  entry_of im (d_fs s) n fs2 rh h -> io_truncate fl = false -> open_file im wm d (S (S (S (S f)))) p fl perm s = Done s' (inl f') ->
  info_sys (fl_info f') = h_stat im (d_fs s') h /\ info_name (fl_info f') = n /\ fl_name im f' s' = Done s' (h_name im (d_fs s') h).
Proof. intros Hwm. apply (info_at_open im wm d Hwm). Qed.
Theorem C113_name ns st : Forall proper ns -> info_name (mkInfo st (render ns)) = match ns with [] => B "/" | _ => last ns [] end.
Proof. apply info_name_last. Qed.
Example C113_example : exists s1 f s2 f', open_file (memfs 1) Full demo 9 (B "f") O_RDWR 0 (start (NDir tree)) = Done s1 (inl f) /\
  info_size (fl_info f) = 5 /\ info_name (fl_info f) = B "f" /\
  fl_truncate (memfs 1) f 2 s1 = Done s2 (f', None) /\ lookup (d_fs s2) [B "f"] = Some (NFile (B "he")) /\ info_size (fl_info f') = 5.
Proof.
  eexists. eexists. eexists. eexists. split; [vm_compute; reflexivity|]. split; [reflexivity|]. split; [reflexivity|]. split; [vm_compute; reflexivity|]. split; reflexivity.
Qed.
Print Assumptions C104_getwd_canonical.
Print Assumptions C104_chdir_partial.
Print Assumptions C104_chdir_link_partial.
Print Assumptions C104_relative_refuted.
Print Assumptions C105_only_its_calls.
Print Assumptions C105_looking_changes_nothing.
Print Assumptions C106_at_most_one.
Print Assumptions C106_only_missing.
Print Assumptions C106_leaves_directory_refuted.
Print Assumptions C107_close_keeps_handle_refuted.
Print Assumptions C107_open_close_leaks_refuted.
Print Assumptions C108_flush_error_dropped_refuted.
Print Assumptions C109_read_dir_panics_refuted.
Print Assumptions C109_file_read_dir.
Print Assumptions C110_unsupported_times_undefined.
Print Assumptions C111_create_existing_refuted.
Print Assumptions C111_get_missing_refuted.
Print Assumptions C111_link_directory_refuted.
Print Assumptions C111_chmod_type_bits_refuted.
Print Assumptions C111_open_asks_first_partial.
Print Assumptions C112_not_implemented_partial.
Print Assumptions C112_missing_methods_refuted.
Print Assumptions C113_stat_frozen_refuted.
Print Assumptions C113_stat_at_open_partial.
Print Assumptions C113_name.

(** ** The parts that hold of claims refuted above, as claims of their own (the examples above are theirs too) *)
Theorem C142_getwd_canonical {F H} (im : impl F H) wm flags d files s : session im wm (new_driver flags) d files s ->
  (exists names, Forall proper names /\ getwd d = render names) /\ mount d = flags.
Proof. apply C104_getwd_canonical. Qed.
Theorem C143_at_most_one {F H} (im : impl F H) wm d fuel p fl perm b s :
  (creations (calls s (open_file im wm d fuel p fl perm s)) <= 1)%nat /\
  (creations (calls s (create im wm d fuel p s)) <= 1)%nat /\
  (creations (calls s (write_file im wm d fuel p b perm s)) <= 1)%nat.
Proof. apply C106_at_most_one. Qed.
Theorem C143_only_missing {F H} (im : impl F H) wm d fuel p fl perm s i n m : In (EvCreate i n m) (calls s (open_file im wm d fuel p fl perm s)) ->
  io_create fl = true /\ m = perm /\ last_name d p n /\ exists s' e, stat_path im wm d fuel p s = Done s' (inr e) /\ kerr_is e ErrNotFound = true.
Proof. apply C106_only_missing. Qed.
Print Assumptions C142_getwd_canonical.
Print Assumptions C143_at_most_one.
Print Assumptions C143_only_missing.
