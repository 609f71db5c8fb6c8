(** * Props_Driver5: C166, operations of the driver report the failures of the implementation; C108, what WriteFile returns.  For the notation see Props_Driver. *)
From Coq Require Import String.
From Verif Require Import GoBase ListZ Errors Flags GoPath Spec_Path BlockCache BasicStream Driver Spec_Driver Spec_Report ReportProofs DriverProofs Spec_Driver5 DriverProofs18 Props_Driver2 Props_Driver3.

(** ** C166 *)
(* operations that may not create a file: at most one call fails, the last, and it is reported *)
Theorem C166_reported {F H} (im : impl F H) wm d fuel hist o s s' e : remembers im hist -> strict_op o -> run_op im wm d fuel o s = Done s' e ->
  accounted hist strictly (d_fs s) (d_fs s') e.
Proof. intros HR Ho E. exact (run_op_tells im wm d hist HR fuel strictly o Ho s s' e E). Qed.
(* so: if no error is returned, no call failed *)
Theorem C166_success {F} (hist : F -> list (option kerr)) a b : accounted hist strictly a b None <-> exists n, hist b = hist a ++ repeat None n.
Proof.
  split.
  - intros (l & Hl & [E|(x & _ & [[X|X]|(y & _ & X)])]); [|discriminate|discriminate|discriminate]. exists (length l). rewrite E. f_equal.
    clear E. induction Hl as [|o l Ho Hl IH]; [reflexivity|]. cbn. destruct o; [contradiction|]. now f_equal.
  - intros (n & E). exists (repeat None n). split; [|now left]. apply Forall_forall. intros x Hx. apply repeat_spec in Hx. now subst.
Qed.
(* with O_CREATE, an error that says "not found" is an answer; any other failure is reported *)
Theorem C166_create_partial {F H} (im : impl F H) wm d fuel hist p fl perm s s' r : remembers im hist -> open_file im wm d fuel p fl perm s = Done s' r ->
  accounted hist not_found (d_fs s) (d_fs s') (failure r).
Proof. intros HR E. exact (tells_open im wm d hist HR fuel not_found p fl perm (or_intror (fun x H => H)) s s' r E). Qed.
(* Link ignores whatever looking up the new name reports, and nothing else *)
Theorem C166_link_partial {F H} (im : impl F H) wm d fuel hist old new s s' r : remembers im hist -> link im wm d fuel old new s = Done s' r ->
  accounted hist strictly (d_fs s) (d_fs s') (failure r) \/
  exists s1 s2 e, accounted hist strictly (d_fs s) (d_fs s1) None /\ following im wm d fuel (norm d new) s1 = Done s2 (inr e) /\ accounted hist strictly (d_fs s2) (d_fs s') (failure r).
Proof. intros HR E. exact (link_parts im wm d hist HR fuel strictly old new s s' r E). Qed.
(* WriteFile reports what opening and writing report, and ignores what closing reports *)
Theorem C166_write_file_partial {F H} (im : impl F H) wm d fuel hist p b perm s s' r : remembers im hist -> write_file im wm d fuel p b perm s = Done s' r ->
  accounted hist not_found (d_fs s) (d_fs s') (failure r) \/
  exists s1 f s2 f' n e s3 c, open_file im wm d fuel p (Z.lor (Z.lor O_WRONLY O_CREATE) O_TRUNC) perm s = Done s1 (inl f) /\ accounted hist not_found (d_fs s) (d_fs s1) None /\
    fl_write im f b s1 = Done s2 (f', n, e) /\ accounted hist not_found (d_fs s1) (d_fs s2) e /\ fl_close im f' s2 = Done s3 c /\ accounted hist not_found (d_fs s2) (d_fs s3) c /\ s' = s3 /\
    r = match e with None => inl tt | Some e => inr e end.
Proof. intros HR E. exact (write_file_parts im wm d hist HR fuel not_found p b perm s s' r (fun x H => H) E). Qed.
(* open files *)
Theorem C166_files {F H} (im : impl F H) hist f s : remembers im hist ->
  (forall buf s' f' b n e, fl_read im f buf s = Done s' (f', b, n, e) -> accounted hist strictly (d_fs s) (d_fs s') e) /\
  (forall b s' f' n e, fl_write im f b s = Done s' (f', n, e) -> accounted hist strictly (d_fs s) (d_fs s') e) /\
  (forall n s' f' e, fl_truncate im f n s = Done s' (f', e) -> accounted hist strictly (d_fs s) (d_fs s') e) /\
  (forall s' e, fl_close im f s = Done s' e -> accounted hist strictly (d_fs s) (d_fs s') e) /\
  (forall n s' f' es e, fl_read_dir im f n s = Done s' (f', es, e) -> accounted hist strictly (d_fs s) (d_fs s') e).
Proof.
  intros HR. pose proof (obj_recalls im hist HR (fl_obj f)) as HC. repeat apply conj.
  - intros buf s' f' b n e E. unfold fl_read in E. destruct (s_read _ _ _ _) as [[[[[s4 st4] b4] n4] e4]| |] eqn:ES; try discriminate. injection E as -> _ _ _ ->. apply told_acc. eapply s_read_told; eassumption.
  - intros b s' f' n e E. unfold fl_write in E. destruct (s_write _ _ _ _) as [[[[s4 st4] n4] e4]| |] eqn:ES; try discriminate. injection E as -> _ _ ->. apply told_acc. eapply s_write_told; eassumption.
  - intros n s' f' e E. unfold fl_truncate in E. destruct (s_truncate _ _ _ _) as [[[s4 st4] e4]| |] eqn:ES; try discriminate. injection E as -> _ ->. apply told_acc. eapply s_truncate_told; eassumption.
  - intros s' e E. unfold fl_close in E. destruct (s_close _ _ _) as [[[s4 st4] e4]| |] eqn:ES; try discriminate. injection E as -> ->. apply told_acc. eapply s_sync_told; eassumption.
  - intros n s' f' es e E. unfold fl_read_dir, bind in E. destruct (stat im (fl_obj f) s) as [s1 st| |] eqn:ES; try discriminate. apply (still_stat im hist) in ES.
    destruct (negb _); [injection E as <- _ _ <-; now apply acc_same|]. destruct (fl_last f) as [l|].
    + unfold ret in E. destruct (_ =? 0); injection E as <- _ _ <-; now apply acc_same.
    + destruct (read_dir_obj im (fl_obj f) s1) as [s2 [l [x|]]| |] eqn:ER; try discriminate; apply (tells_read_dir_obj im hist HR strictly) in ER; cbn [snd] in ER; unfold ret in E.
      * injection E as <- _ _ <-. eapply acc_eq_l; [exact ES|exact ER].
      * destruct (_ =? 0); injection E as <- _ _ <-; (eapply acc_eq_l; [exact ES|]); now apply acc_ok.
Qed.
(* any file system can be given a memory *)
Theorem C166_noted {F H} (im : impl F H) : remembers (noted im) snd.
Proof. apply noted_remembers. Qed.

(* memfs that cannot look up the name "new", and in which no file can be removed *)
Definition grumpy (bs : Z) : impl node (list (list Z)) :=
  let m := memfs bs in
  mkImpl node (list (list Z)) (i_root m) (fun t n h => if beqb n (B "new") then (t, inr (KExt 5)) else i_get m t n h) (i_create m) (Some (fun t a b n => (t, inl a))) true true true (h_stat m) (h_resize m) (h_read m)
    (h_write m) (fun t h => (t, Some (KExt 6))) (h_name m) (h_same m) (h_close m) (h_listdir m) (h_chmod m) (h_chown m) (h_chtimes m).
Definition noted_start (t : node) : dst (node * list (option kerr)) := mkD (t, []) 0 [].
(* the lookup failed with an error that is not "not found"; the link is made nevertheless *)
Theorem C166_link_refuted : exists F H (im : impl F H) hist s s', remembers im hist /\ run_op im Full demo 9 (PLink (B "f") (B "new")) s = Done s' None /\
  In (Some (KExt 5)) (hist (d_fs s')) /\ ~ In (Some (KExt 5)) (hist (d_fs s)).
Proof.
  eexists _, _, (noted (grumpy 4)), snd, (noted_start (NDir tree)). eexists. split; [apply noted_remembers|]. split; [vm_compute; reflexivity|]. split; [vm_compute; auto|intros []].
Qed.
(* the blocks of a file cannot be written; WriteFile reports success *)
Theorem C166_write_file_refuted : exists F H (im : impl F H) hist s s', remembers im hist /\ run_op im Full demo 9 (PWriteFile (B "f") (B "bytes") 511) s = Done s' None /\
  In (Some (K ErrIOFailed)) (hist (d_fs s')) /\ ~ In (Some (K ErrIOFailed)) (hist (d_fs s)).
Proof.
  eexists _, _, (noted (baddisk 4)), snd, (noted_start (NDir tree)). eexists. split; [apply noted_remembers|]. split; [vm_compute; reflexivity|]. split; [vm_compute; auto 10|intros []].
Qed.
Example C166_ex : exists s', run_op (noted (grumpy 4)) Full demo 9 (PRemove (B "f")) (noted_start (NDir tree)) = Done s' (Some (KExt 6)) /\ snd (d_fs s') = [None; Some (KExt 6)] /\ strict_op (PRemove (B "f")).
Proof. eexists. split; [vm_compute; reflexivity|]. split; [vm_compute; reflexivity|exact I]. Qed.

(** ** C108, exactly *)
(* WriteFile is OpenFile, Write and Close; nil is returned exactly when the first two return nil *)
Theorem C108_reported_partial {F H} (im : impl F H) wm d fuel p b perm s s' r : write_file im wm d fuel p b perm s = Done s' r <->
  (exists e, open_file im wm d fuel p (Z.lor (Z.lor O_WRONLY O_CREATE) O_TRUNC) perm s = Done s' (inr e) /\ r = inr e) \/
  (exists s1 f s2 f' n e c, open_file im wm d fuel p (Z.lor (Z.lor O_WRONLY O_CREATE) O_TRUNC) perm s = Done s1 (inl f) /\ fl_write im f b s1 = Done s2 (f', n, e) /\
     fl_close im f' s2 = Done s' c /\ r = match e with None => inl tt | Some e => inr e end).
Proof.
  unfold write_file, try, bind. destruct (open_file im wm d fuel p _ perm s) as [s1 [f|e]| |] eqn:EO.
  - destruct (fl_write im f b s1) as [s2 [[f' n] e]| |] eqn:EW.
    + destruct (fl_close im f' s2) as [s3 c| |] eqn:EC.
      * split.
        -- intros [= <- <-]. right. exists s1, f, s2, f', n, e, c. repeat split; auto.
        -- intros [(e0 & X & _)|(s1' & g & s2' & g' & n' & e' & c' & X & Y & W & ->)]; [discriminate|]. injection X as <- <-. rewrite EW in Y. injection Y as <- <- <- <-. rewrite EC in W. now injection W as <- <-.
      * split; [discriminate|]. intros [(e0 & X & _)|(s1' & g & s2' & g' & n' & e' & c' & X & Y & W & _)]; [discriminate|]. injection X as <- <-. rewrite EW in Y. injection Y as <- <- <- <-. congruence.
      * split; [discriminate|]. intros [(e0 & X & _)|(s1' & g & s2' & g' & n' & e' & c' & X & Y & W & _)]; [discriminate|]. injection X as <- <-. rewrite EW in Y. injection Y as <- <- <- <-. congruence.
    + split; [discriminate|]. intros [(e0 & X & _)|(s1' & g & s2' & g' & n' & e' & c' & X & Y & W & _)]; [discriminate|]. injection X as <- <-. congruence.
    + split; [discriminate|]. intros [(e0 & X & _)|(s1' & g & s2' & g' & n' & e' & c' & X & Y & W & _)]; [discriminate|]. injection X as <- <-. congruence.
  - split.
    + intros [= <- <-]. left. eauto.
    + intros [(e0 & X & ->)|(s1' & g & s2' & g' & n' & e' & c' & X & _)]; [now injection X as <- <-|discriminate].
  - split; [discriminate|]. intros [(e0 & X & _)|(s1' & g & s2' & g' & n' & e' & c' & X & _)]; discriminate.
  - split; [discriminate|]. intros [(e0 & X & _)|(s1' & g & s2' & g' & n' & e' & c' & X & _)]; discriminate.
Qed.
Print Assumptions C166_reported.
Print Assumptions C166_success.
Print Assumptions C166_create_partial.
Print Assumptions C166_link_partial.
Print Assumptions C166_write_file_partial.
Print Assumptions C166_files.
Print Assumptions C166_noted.
Print Assumptions C166_link_refuted.
Print Assumptions C166_write_file_refuted.
Print Assumptions C108_reported_partial.
