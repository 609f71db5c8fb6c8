(** * Props_FileAttr: Stat, Chmod, Chown and Chdir of an open file *)
From Coq Require Import String.
From Verif Require Import GoBase ListZ Errors Flags GoPath Spec_Path BlockCache BasicStream Driver DriverFile Spec_Driver Spec_Driver4 Spec_Access
  DriverProofs DriverProofs2 DriverProofs5 DriverProofs16 AccessProofs AccessProofs2 AccessProofs4 Props_Driver2.

(** ** C113, for every path *)
(* after any use of a file opened without O_TRUNC, Stat still reports size, mode and time of modification the object
   had when it was opened, which was a regular file; a directory is never opened *)
Theorem C113_info {F H} (im : impl F H) wm d fuel p flags perm s s1 f f' s' :
  open_file im wm d fuel p flags perm s = Done s1 (inl f) -> io_truncate flags = false -> used im any_call anything f s1 f' s' ->
  let st := h_stat im (d_fs s1) (x_h (fl_obj f)) in let i := fl_info f' in
  info_sys i = st /\ info_size i = f_size st /\ info_mode i = f_mode st /\ info_mtime i = f_modified st /\
  is_file st = true /\ info_is_dir i = false.
Proof.
  intros E Ht U. apply open_inv in E as (s0 & x & _ & HF & E & _). apply new_file_inv in E as (_ & Ex & _ & Est & _ & HN).
  destruct (HN Ht) as (-> & _). apply used_keeps in U as (_ & _ & Es). rewrite Est in Es. cbv zeta. rewrite Ex. unfold info_sys, info_size, info_mode, info_mtime, info_is_dir, fl_info.
  cbn [in_stat]. rewrite Es. pose proof (file_not_dir _ HF). auto 10.
Qed.
(** ** C159 *)
(* if handles were passed through with their optional methods: exactly one call, with the values given, to the
   object that was opened, and its error is the answer; ErrNotSupported if the object has no such method *)
Theorem C159_chmod_partial {F H} (im : impl F H) d fuel p flags perm s s1 f f' s' :
  open_file im Full d fuel p flags perm s = Done s1 (inl f) -> used im any_call anything f s1 f' s' ->
  let h := x_h (fl_obj f) in
  (forall mode, match h_chmod im (d_fs s') h with
   | None => fl_chmod im f' mode s' = Done s' (inr (K ErrNotSupported))
   | Some g => exists s2, fl_chmod im f' mode s' = Done s2 (match snd (g mode) with None => inl tt | Some e => inr e end) /\
       d_fs s2 = fst (g mode) /\ calls s' (fl_chmod im f' mode s') = [EvChmod (x_id (fl_obj f)) mode]
   end) /\
  (forall uid gid, match h_chown im (d_fs s') h with
   | None => fl_chown im f' uid gid s' = Done s' (inr (K ErrNotSupported))
   | Some g => exists s2, fl_chown im f' uid gid s' = Done s2 (match snd (g uid gid) with None => inl tt | Some e => inr e end) /\
       d_fs s2 = fst (g uid gid) /\ calls s' (fl_chown im f' uid gid s') = [EvChown (x_id (fl_obj f)) uid gid]
   end).
Proof.
  intros E U h. apply open_mode in E. apply used_keeps in U as (Eo & _ & _). subst h. rewrite <- Eo in *.
  split; intros; unfold fl_chmod, fl_chown, opt_call_ns, opt_meth; rewrite E; [destruct (h_chmod _ _ _)|destruct (h_chown _ _ _)]; cbn [option_map]; try reflexivity;
    unfold call_err; match goal with |- context [let '(_, _) := ?q in _] => destruct q as [fs1 e1] eqn:E1 end; (eexists; split; [reflexivity|]); (split; [reflexivity|]);
    unfold calls; cbn [end_state emit d_log]; rewrite skipn_app, skipn_all, Nat.sub_diag; reflexivity.
Qed.
(* "Chmod and Chown of an open file change the object if its implementation can" is false: the wrapper around the
   handles hides the optional methods, so both always fail and call nothing *)
Theorem C159_never_supported_refuted {F H} (im : impl F H) d fuel p flags perm s s1 f f' s' :
  open_file im Embedded d fuel p flags perm s = Done s1 (inl f) -> used im any_call anything f s1 f' s' ->
  (forall mode, fl_chmod im f' mode s' = Done s' (inr (K ErrNotSupported))) /\
  (forall uid gid, fl_chown im f' uid gid s' = Done s' (inr (K ErrNotSupported))).
Proof.
  intros E U. apply open_mode in E. apply used_keeps in U as (Eo & _ & _). rewrite <- Eo in E.
  split; intros; unfold fl_chmod, fl_chown, opt_call_ns, opt_meth; rewrite E; reflexivity.
Qed.
(* Chdir of an open file: no directory can be opened, so it fails as long as the object stays what it was, and
   does nothing; should the object have become a directory, its path becomes the working directory *)
Theorem C159_chdir {F H} (im : impl F H) wm d fuel p flags perm s s1 f f' s' :
  open_file im wm d fuel p flags perm s = Done s1 (inl f) -> used im any_call anything f s1 f' s' ->
  let h := x_h (fl_obj f) in
  fl_chdir im f' s' = Done s' (if is_dir (h_stat im (d_fs s') h) then inl (x_path (fl_obj f)) else inr (K ErrNotADirectory)) /\
  (io_truncate flags = false -> fl_chdir im f s1 = Done s1 (inr (K ErrNotADirectory))).
Proof.
  intros E U h. pose proof E as E0. apply open_inv in E as (s0 & x & Hm & HF & E & _). apply new_file_inv in E as (_ & Ex & _ & _ & _ & HN).
  apply used_keeps in U as (Eo & _ & _). subst h. unfold fl_chdir, chdir_to, bind, stat. rewrite Eo, Ex, Hm. split.
  - now destruct (is_dir _).
  - intros Ht. destruct (HN Ht) as (-> & _). now rewrite (file_not_dir _ HF).
Qed.
(* with the wrapper repaired: one call; with a file system that has no such method: ErrNotSupported *)
Example C159_example :
  (exists s1 f s2, open_file (attrfs 4) Full demo 9 (B "f") O_RDWR 0 (start (NDir tree)) = Done s1 (inl f) /\
     fl_chmod (attrfs 4) f 0x1a4 s1 = Done s2 (inl tt) /\ calls s1 (fl_chmod (attrfs 4) f 0x1a4 s1) = [EvChmod (x_id (fl_obj f)) 0x1a4]) /\
  (exists s1 f, open_file (memfs 4) Full demo 9 (B "l") O_RDWR 0 (start (NDir tree)) = Done s1 (inl f) /\
     fl_chown (memfs 4) f 1 2 s1 = Done s1 (inr (K ErrNotSupported)) /\ fl_chdir (memfs 4) f s1 = Done s1 (inr (K ErrNotADirectory)) /\
     info_size (fl_info f) = 5) /\
  (exists s1 f, open_file (attrfs 4) Embedded demo 9 (B "f") O_RDWR 0 (start (NDir tree)) = Done s1 (inl f) /\
     fl_chmod (attrfs 4) f 0x1a4 s1 = Done s1 (inr (K ErrNotSupported)) /\ used (attrfs 4) any_call anything f s1 f s1).
Proof.
  split; [|split].
  - do 3 eexists. split; [vm_compute; reflexivity|]. split; vm_compute; reflexivity.
  - do 2 eexists. split; [vm_compute; reflexivity|]. split; [vm_compute; reflexivity|]. split; vm_compute; reflexivity.
  - do 2 eexists. split; [vm_compute; reflexivity|]. split; [vm_compute; reflexivity|constructor].
Qed.

(** ** C160 *)
(* ReadDir: the names the directory lists, without "." and "..", in that order, each with name, size, mode and time
   of modification of the object found under it, up to the first that cannot be found, whose error is reported.
   P is anything that looking up and closing does not affect, such as "the file system is fs" *)
Theorem C160_listing {F H} (im : impl F H) wm d fuel p s s' es e (P : F -> Prop) :
  (forall fs n dh, P fs -> P (fst (i_get im fs n dh))) -> (forall fs h, P fs -> P (h_close im fs h)) ->
  (forall fs dh fs' r, P fs -> h_listdir im fs dh = Some (fs', r) -> P fs') ->
  read_dir im wm d fuel p s = Done s' (es, e) -> (forall s1 x, following im wm d fuel (normalize_path (cwd d) p) s = Done s1 (inl x) -> P (d_fs s1)) ->
  (exists er, following im wm d fuel (normalize_path (cwd d) p) s = Done s' (inr er) /\ es = [] /\ e = Some er) \/
  (exists s1 x fs r, following im wm d fuel (normalize_path (cwd d) p) s = Done s1 (inl x) /\ h_listdir im (d_fs s1) (x_h x) = Some (fs, r) /\
     match r with
     | inr er => es = [] /\ e = Some er
     | inl names => exists listed rest,
         filter (fun n => if list_eq_dec Z.eq_dec n (B ".") then false else if list_eq_dec Z.eq_dec n (B "..") then false else true) names = listed ++ rest /\
         Forall2 (fun n en => exists fs0 fs1 h, P fs0 /\ P fs1 /\ i_get im fs0 n (x_h x) = (fs1, inl h) /\
           let st := h_stat im fs1 h in
           de_name en = h_name im fs1 h /\ de_size en = f_size st /\ de_mode en = f_mode st /\ de_mtime en = f_modified st /\ de_is_dir en = is_dir st) listed es /\
         match e with
         | None => rest = []
         | Some er => exists n ns fs0, rest = n :: ns /\ P fs0 /\ snd (i_get im fs0 n (x_h x)) = inr er
         end
     end).
Proof.
  intros Pget Pclose Plist E HP. unfold read_dir, bind in E. fold (norm d p) in *.
  destruct (following im wm d fuel (norm d p) s) as [s1 [x|er]|s1|s1] eqn:E1; try discriminate.
  2:{ left. injection E as <- <- <-. eauto. }
  right. apply defer_inv in E as (Hm & s2 & E & _). specialize (HP s1 x eq_refl). unfold read_dir_obj, bind, list_dir in E. destruct (opt_meth x); [|discriminate].
  destruct (h_listdir im (d_fs s1) (x_h x)) as [[fs r]|] eqn:EL; [|discriminate]. exists s1, x, fs, r. split; [reflexivity|]. split; [exact EL|].
  destruct r as [names|er]; [|injection E as _ <- <-; auto].
  eapply (entries_described im P (x_h x)) in E; eauto.
  destruct E as (ns1 & ns2 & new & E2 & -> & E3 & E4). exists ns1, ns2. split; [|split].
  - rewrite <- E2. apply filter_ext. intros n. destruct (list_eq_dec Z.eq_dec n (B ".")) as [->|N1]; [reflexivity|]. destruct (list_eq_dec Z.eq_dec n (B "..")) as [->|N2]; [reflexivity|].
    symmetry. apply Bool.negb_true_iff, is_dots_spec. split; assumption.
  - cbn [app]. clear - E3. induction E3 as [|n en l l' (fs0 & fs1 & h & A1 & A2 & A3 & A4 & A5) E3 IH]; constructor; [|exact IH].
    exists fs0, fs1, h. cbv zeta. unfold de_size, de_mode, de_mtime, de_is_dir. rewrite A5. auto 10.
  - destruct e as [er|]; [|exact E4]. destruct E4 as (n & r & fs0 & fs1 & A1 & A2 & A3). exists n, r, fs0. rewrite A3. auto.
Qed.
Example C160_example : exists s' es, read_dir (memfs 4) Full demo 9 (B "/") (start (NDir tree)) = Done s' (es, None) /\
  map (fun e => (de_name e, de_size e, de_is_dir e)) es = [(B "f", 5, false); (B "d", 0, true); (B "z", 0, true); (B "l", 1, false)] /\
  let P := eq (NDir tree) in
  (forall fs n dh, P fs -> P (fst (i_get (memfs 4) fs n dh))) /\ (forall fs h, P fs -> P (h_close (memfs 4) fs h)) /\
  (forall fs dh fs' r, P fs -> h_listdir (memfs 4) fs dh = Some (fs', r) -> P fs').
Proof.
  do 2 eexists. split; [vm_compute; reflexivity|]. split; [vm_compute; reflexivity|]. cbv zeta. split; [|split].
  - intros fs n dh <-. cbn. reflexivity.
  - intros fs h <-. reflexivity.
  - intros fs dh fs' r <-. cbn [h_listdir memfs]. destruct (mem_node (NDir tree) dh); try discriminate; intros [= <- _]; reflexivity.
Qed.
Print Assumptions C113_info.
Print Assumptions C159_chmod_partial.
Print Assumptions C159_never_supported_refuted.
Print Assumptions C159_chdir.
Print Assumptions C160_listing.
