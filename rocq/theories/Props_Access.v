(** * Props_Access: a file obeys the access it was opened with *)
From Coq Require Import String.
From Verif Require Import GoBase ListZ Errors Flags GoPath Spec_Path BlockCache Spec_BlockCache BasicStream Driver DriverFile Spec_Driver Spec_Driver4 Spec_Access
  BasicStreamProofs DriverProofs DriverProofs2 DriverProofs3 DriverProofs4 DriverProofs7 DriverProofs8 DriverProofs16 AccessProofs AccessProofs2 Props_Driver2.

(** ** C157 *)
(* opened without write access: whatever is done with the file and by others, every call that would change it
   is refused and changes nothing *)
Theorem C157_not_writable {F H} (im : impl F H) wm d fuel p flags perm s s1 f f' s' c :
  open_file im wm d fuel p flags perm s = Done s1 (inl f) -> io_write flags = false ->
  used im any_call anything f s1 f' s' -> changes c = true ->
  file_call im f' c s' = Done s' (f', [], 0, Some (K ErrNotPermitted)).
Proof.
  intros E Hw U Hc. apply open_inv in E as (s0 & x & _ & _ & E & _). apply new_file_inv in E as (_ & _ & Hfl & _).
  apply used_keeps in U as (_ & B & _). apply call_refused; [exact Hc|]. congruence.
Qed.
(* opened without read access: no call reveals anything *)
Theorem C157_not_readable {F H} (im : impl F H) wm d fuel p flags perm s s1 f f' s' c :
  open_file im wm d fuel p flags perm s = Done s1 (inl f) -> io_read flags = false ->
  used im any_call anything f s1 f' s' -> reads c = true ->
  file_call im f' c s' = Done s' (f', buffer_of c, 0, Some (K ErrNotPermitted)).
Proof.
  intros E Hw U Hc. apply open_inv in E as (s0 & x & _ & _ & E & _). apply new_file_inv in E as (_ & _ & Hfl & _).
  apply used_keeps in U as (_ & B & _). apply read_refused; [exact Hc|]. congruence.
Qed.
(* without write access (or as long as nothing is written) the implementation is asked for nothing but blocks
   of that very object, and closing the file asks for nothing *)
Theorem C157_only_reads {F H} (im : impl F H) wm d fuel p flags perm s s1 f f' s' c s2 r :
  open_file im wm d fuel p flags perm s = Done s1 (inl f) -> io_truncate flags = false \/ io_write flags = false ->
  used im (fun c => changes c = true -> io_write flags = false) anything f s1 f' s' -> (changes c = true -> io_write flags = false) ->
  file_call im f' c s' = Done s2 r ->
  Forall (fun e => exists i, e = EvRead (x_id (fl_obj f)) i) (calls s' (file_call im f' c s')) /\
  (forall s3 s4 e, fl_close im f' s3 = Done s4 e -> s4 = s3).
Proof.
  intros E Ht U Hc Ec. apply open_inv in E as (s0 & x & _ & _ & E & _). apply new_file_inv in E as (_ & Ex & Hfl & _ & Ht' & HN).
  assert (io_truncate flags = false) as Ht2 by (destruct Ht; auto). destruct (HN Ht2) as (-> & Hst & _).
  assert (clean_bits (dirty (scache (fl_stream f)))) as Hcl by (rewrite Hst; apply clean_new).
  assert (used im (quiet_call (sflags (fl_stream f))) anything f s0 f' s') as U2 by (rewrite Hfl; exact U).
  pose proof (used_clean im _ _ _ _ _ Hcl U2) as Hcl'. apply used_keeps in U as (Eo & Ef & _). destruct r as [[[f2 b] n] e].
  split.
  - apply ext_calls. rewrite Ec. cbn [end_state]. destruct (call_quiet im f' c s' s2 f2 b n e Hcl') as [HE _]; [rewrite Ef, Hfl; exact Hc|exact Ec|].
    rewrite Eo in HE. exact HE.
  - intros s3 s4 e3. now apply close_quiet.
Qed.
(* with read access, ReadAt gives exactly the bytes the object had when it was opened, for as long as nobody
   changes its blocks: every offset, every buffer, every earlier use of the file *)
Theorem C157_read {F H} (im : impl F H) wm d fuel p flags perm s s1 f f' s' buf off (bs : H -> Z) (nb : H -> F -> Z) (blk : H -> F -> Z -> list Z) :
  (forall h, 0 < bs h < 2^62 /\ reads_honestly im h (bs h) (nb h) (blk h)) ->
  open_file im wm d fuel p flags perm s = Done s1 (inl f) -> io_truncate flags = false -> io_read flags = true ->
  let h := x_h (fl_obj f) in let size := f_size (h_stat im (d_fs s1) h) in
  stored_as_stat_says im bs nb (d_fs s1) h ->
  used im (fun c => sane size c /\ (changes c = true -> io_write flags = false)) (spare h nb blk) f s1 f' s' ->
  0 < zlen buf -> size + zlen buf < 2^63 -> 0 <= off ->
  let n := Z.max 0 (Z.min (zlen buf) (size - off)) in
  exists s2 f2, 
    (* the bytes there are, and EOF exactly if there are not enough *)
    file_call im f' (CReadAt buf off) s' =
      Done s2 (f2, slice off n (contents_of im blk (d_fs s1) h) ++ slice n (zlen buf - n) buf, n, if off + zlen buf <=? size then None else Some KEOF) \/
    (* or a block could not be read: nothing is delivered *)
    exists e, file_call im f' (CReadAt buf off) s' = Done s2 (f2, buf, 0, Some e) /\ ~ (forall fs i b, snd (h_read im fs h i b) = None).
Proof.
  intros HR E Ht Hr h size Hst U Hb Hl Ho. apply open_inv in E as (s0 & x & Hm & _ & E & _). apply new_file_inv in E as (_ & Ex & Hfl & Est & _ & HN).
  destruct (HN Ht) as (-> & Hs & _). subst h. subst size. rewrite Ex in *. set (size := f_size (h_stat im (d_fs s0) (x_h x))) in *. intros n. destruct (HR (x_h x)) as [Hbs Hrd]. destruct Hst as (Eb & HN1 & Hf & Hsz).
  rewrite Eb in Hf, Hsz. pose proof (fun s st s' => rinv_others im x (bs (x_h x)) (nb (x_h x)) (blk (x_h x)) Hm s0 s st s') as HOth.
  assert (RInv im x (bs (x_h x)) (nb (x_h x)) (blk (x_h x)) s0 s0 (fl_stream f)) as I0.
  { rewrite Hs, Est. apply rinv_new; auto. }
  assert (RInv im x (bs (x_h x)) (nb (x_h x)) (blk (x_h x)) s0 s' (fl_stream f') /\ fl_obj f' = x /\ sflags (fl_stream f') = flags) as (I & Ex' & Hfl').
  { clear Hb Hl Ho n. induction U as [|f1 s1 c f2 s2 b n e U IH [Hok1 Hok2] Ec|f1 s1 s2 U IH [O1 O2]]; auto.
    - destruct IH as (I & Ex1 & Hfl1). pose proof (call_keeps im _ _ _ _ _ _ _ _ Ec) as (K1 & K2 & _).
      split; [|split; congruence]. eapply (rinv_call im x (bs (x_h x)) (nb (x_h x)) (blk (x_h x)) Hm Hrd Hbs s0 HN1 Hf Hsz f1 c s1); eauto.
      unfold quiet_call. now rewrite Hfl1.
    - destruct IH as (I & Ex1 & Hfl1). split; [|auto]. eapply HOth; eauto. }
  destruct (rd_at im x (bs (x_h x)) (nb (x_h x)) (blk (x_h x)) Hm Hrd Hbs s0 HN1 Hf Hsz s' (fl_stream f') buf off I) as [[Hge E]|(Hlt & s2 & st2 & e & _ & _ & _ & E & Hrel)];
    try assumption; [congruence| |]; fold size in E.
  - assert (n = 0) as -> by (subst n; fold size in Hge; lia). replace (off + zlen buf <=? size) with false by (fold size in Hge; lia).
    exists s', (with_stream f' (fl_stream f')). left. cbn [file_call]. unfold fl_read_at. rewrite Ex', E. do 4 f_equal. rewrite Z.sub_0_r.
    unfold slice. cbn [Z.to_nat firstn skipn app]. symmetry. apply firstn_all2. unfold zlen. lia.
  - exists s2, (with_stream f' st2). fold size in Hlt. assert (n = Z.min (zlen buf) (size - off)) as En by (subst n; lia). rewrite <- En in E.
    destruct e as [e|].
    + right. exists e. split; [cbn [file_call]; unfold fl_read_at; now rewrite Ex', E|]. intros Hx. specialize (Hrel Hx). discriminate.
    + left. cbn [file_call]. unfold fl_read_at. rewrite Ex', E.
      replace (slice off n (contents_of im blk (d_fs s0) (x_h x))) with (slice off n (text im x (blk (x_h x)) s0)).
      * replace (off + zlen buf <=? size) with (negb (n <? zlen buf)) by lia. now destruct (n <? zlen buf).
      * unfold contents_of. cbn zeta. fold size. symmetry. apply slice_slice; lia.
Qed.
(* a file starts at 0; Seek moves it; Read is ReadAt where the file stands, which it moves past what it read
   unless there is an error or the end of the file *)
Theorem C157_position {F H} (im : impl F H) :
  (forall wm d fuel p flags perm s s1 f, io_truncate flags = false -> open_file im wm d fuel p flags perm s = Done s1 (inl f) -> stands_at im f 0) /\
  (forall f p s, 0 <= p < 2^63 -> exists f', file_call im f (CSeek p 0) s = Done s (f', [], p, None) /\ stands_at im f' p) /\
  (forall f p s buf, stands_at im f p -> p + zlen buf < 2^63 ->
     match file_call im f (CReadAt buf p) s with
     | Done s2 (f2, b, n, e) => exists f3, file_call im f (CRead buf) s = Done s2 (f3, b, n, e) /\
         stands_at im f3 (if e then p else p + n) /\ (e = None -> n = zlen buf)
     | Crash s2 => file_call im f (CRead buf) s = Crash s2
     | Spin s2 => file_call im f (CRead buf) s = Spin s2
     end).
Proof.
  split; [|split].
  - intros wm d fuel p flags perm s s1 f Ht E. apply open_inv in E as (s0 & x & _ & _ & E & _). apply new_file_inv in E as (_ & _ & _ & _ & _ & HN).
    destruct (HN Ht) as (_ & Hs & _). apply (stands_iff im f 0 s). rewrite Hs. split; [reflexivity|lia].
  - intros f p s Hp. cbn [file_call]. unfold fl_seek, s_seek. change (0 =? 0) with true. cbv iota. replace (p <? 0) with false by lia.
    eexists. split; [reflexivity|]. apply (stands_iff im _ p s). split; [reflexivity|lia].
  - intros f p s buf Hs Hl. apply (stands_iff im f p s) in Hs as [Hs Hp]. destruct (read_moves im f s buf p Hs (proj1 Hp) Hl) as [HM HN].
    destruct (file_call im f (CReadAt buf p) s) as [s2 [[[f2 b] n] e]|s2|s2] eqn:E; try exact HM. destruct HM as (f3 & E3 & Hs3).
    exists f3. split; [exact E3|]. assert (e = None -> n = zlen buf) as Hn by (intros ->; eapply HN; reflexivity). split; [|exact Hn].
    apply (stands_iff im f3 _ s). split; [exact Hs3|]. destruct e; [exact Hp|]. rewrite (Hn eq_refl). unfold zlen in *. lia.
Qed.
(* Open: the object the path leads to, for reading only, whatever the mount allows *)
Theorem C157_open {F H} (im : impl F H) wm d fuel p s :
  (forall m, open_ im wm d fuel p s = open_ im wm (mkDrv m (cwd d)) fuel p s) /\
  forall s1 f, open_ im wm d fuel p s = Done s1 (inl f) ->
    (exists x, following im wm d fuel (normalize_path (cwd d) p) s = Done s1 (inl x) /\ fl_obj f = x) /\
    (forall f' s' c, used im any_call anything f s1 f' s' -> changes c = true ->
       file_call im f' c s' = Done s' (f', [], 0, Some (K ErrNotPermitted))) /\
    (forall f' s' c s2 r, used im any_call anything f s1 f' s' -> file_call im f' c s' = Done s2 r ->
       Forall (fun e => exists i, e = EvRead (x_id (fl_obj f)) i) (calls s' (file_call im f' c s'))) /\
    forall (bs : H -> Z) (nb : H -> F -> Z) (blk : H -> F -> Z -> list Z), (forall h, 0 < bs h < 2^62 /\ reads_honestly im h (bs h) (nb h) (blk h)) ->
      let h := x_h (fl_obj f) in let size := f_size (h_stat im (d_fs s1) h) in
      stored_as_stat_says im bs nb (d_fs s1) h -> (forall fs i b, snd (h_read im fs h i b) = None) -> 2 * size < 2^63 -> 0 < size ->
      exists s2 f2, file_call im f (CRead (zrepeat 0 size)) s1 = Done s2 (f2, contents_of im blk (d_fs s1) h, size, None).
Proof.
  split; [intros m; reflexivity|]. intros s1 f E. split; [|split; [|split]].
  - pose proof E as E0. apply open_inv in E as (s0 & x & _ & _ & E & HF). apply new_file_inv in E as (_ & Ex & _ & _ & _ & HN).
    destruct (HN eq_refl) as (-> & _). exists x. split; [now apply HF|exact Ex].
  - intros f' s' c U Hc. now apply (C157_not_writable im wm d fuel p O_RDONLY 0 s s1 f f' s' c E eq_refl U Hc).
  - intros f' s' c s2 r U Ec. refine (proj1 (C157_only_reads im wm d fuel p O_RDONLY 0 s s1 f f' s' c s2 r E (or_introl eq_refl) _ (fun _ => eq_refl) Ec)).
    clear Ec. induction U; [constructor|eapply u_call; eauto; reflexivity|eapply u_others; eauto].
  - intros bs nb blk HR h size Hst Hrel Hsz Hsz0.
    assert (zlen (zrepeat 0 size) = size) as El by (apply zlen_repeat; lia).
    destruct (C157_position im) as (P0 & _ & PR). pose proof (P0 wm d fuel p O_RDONLY 0 s s1 f eq_refl E) as H0.
    specialize (PR f 0 s1 (zrepeat 0 size) H0). rewrite El in PR. specialize (PR ltac:(lia)).
    destruct (C157_read im wm d fuel p O_RDONLY 0 s s1 f f s1 (zrepeat 0 size) 0 bs nb blk HR E eq_refl eq_refl Hst) as (s2 & f2 & [Er|(e & _ & Hn)]).
    + constructor.
    + lia.
    + rewrite El. fold h. fold size. lia.
    + lia.
    + rewrite El in Er. fold h in Er. fold size in Er. rewrite Z.sub_0_r, Z.min_id, Z.max_r, Z.add_0_l, Z.leb_refl in Er by lia.
      rewrite Er in PR. destruct PR as (f3 & E3 & _). exists s2, f3. rewrite E3. do 4 f_equal. rewrite Z.sub_diag.
      change (slice size 0 (zrepeat 0 size)) with (@nil Z). rewrite app_nil_r. unfold contents_of. cbn zeta. fold h. fold size.
      apply slice_slice; lia.
    + exfalso. now apply Hn.
Qed.
(* a file of the tree, opened with Open: it is read, written to in vain, sought and read again *)
Example C157_example : exists s1 f s2 f2 s3 f3, open_ (memfs 4) Embedded demo 9 (B "l") (start (NDir tree)) = Done s1 (inl f) /\
  file_call (memfs 4) f (CRead [0;0;0]) s1 = Done s2 (f2, B "hel", 3, None) /\
  file_call (memfs 4) f2 (CWrite [1]) s2 = Done s2 (f2, [], 0, Some (K ErrNotPermitted)) /\
  file_call (memfs 4) f2 (CRead [0;0;0]) s2 = Done s3 (f3, B "lo" ++ [0], 2, Some KEOF) /\
  stored_as_stat_says (memfs 4) (fun _ => 4) (mnb 4) (d_fs s1) (x_h (fl_obj f)) /\
  used (memfs 4) any_call anything f s1 f2 s2 /\
  used (memfs 4) (fun c => sane 5 c /\ (changes c = true -> io_write O_RDONLY = false)) (spare (x_h (fl_obj f)) (mnb 4) (mblk 4)) f s1 f2 s2 /\
  (forall h, 0 < 4 < 2^62 /\ reads_honestly (memfs 4) h 4 (mnb 4 h) (mblk 4 h)).
Proof.
  do 6 eexists. split; [vm_compute; reflexivity|]. split; [vm_compute; reflexivity|]. split; [vm_compute; reflexivity|]. split; [vm_compute; reflexivity|].
  split; [apply memfs_fits; vm_compute; auto|]. split; [|split].
  - eapply (u_call _ _ _ _ _ _ _ (CRead [0;0;0])); [apply u_opened|exact I|vm_compute; reflexivity].
  - eapply (u_call _ _ _ _ _ _ _ (CRead [0;0;0])); [apply u_opened|split; [reflexivity|discriminate]|vm_compute; reflexivity].
  - intros h. now apply memfs_storage.
Qed.
(* opened for writing only: nothing can be read *)
Example C157_write_only_example : exists s1 f, open_file (memfs 4) Embedded demo 9 (B "f") O_WRONLY 0 (start (NDir tree)) = Done s1 (inl f) /\
  file_call (memfs 4) f (CReadAt [0;0] 1) s1 = Done s1 (f, [0;0], 0, Some (K ErrNotPermitted)) /\ io_read O_WRONLY = false.
Proof. do 2 eexists. split; [vm_compute; reflexivity|]. split; vm_compute; reflexivity. Qed.

Print Assumptions C157_not_writable.
Print Assumptions C157_not_readable.
Print Assumptions C157_only_reads.
Print Assumptions C157_read.
Print Assumptions C157_position.
Print Assumptions C157_open.
