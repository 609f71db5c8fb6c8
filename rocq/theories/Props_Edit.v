(** * Props_Edit: editing an open file *)
From Coq Require Import String.
From Verif Require Import GoBase ListZ Errors Flags GoPath Spec_Path BlockCache Spec_BlockCache BasicStream Driver DriverFile Spec_Driver Spec_Driver4 Spec_Access Spec_Edit
  BasicStreamProofs DriverProofs DriverProofs2 DriverProofs3 DriverProofs4 DriverProofs7 DriverProofs8 DriverProofs16 AccessProofs AccessProofs2 AccessProofs3 Props_Driver2.

(** ** C158 *)
(* whatever calls are made on an open file, in whatever order, if none of them makes it grow or shrink, they get
   exactly the answers an array of bytes in memory gives, and the next such call is answered too *)
Theorem C158_array_partial {F H} (im : impl F H) wm d fuel p flags perm s s1 f l f' s' (bs : H -> Z) (nb : H -> F -> Z) (blk : H -> F -> Z -> list Z) :
  (forall h, 0 < bs h < 2^62 /\ reads_honestly im h (bs h) (nb h) (blk h)) ->
  open_file im wm d fuel p flags perm s = Done s1 (inl f) -> io_truncate flags = false ->
  let h := x_h (fl_obj f) in let st := h_stat im (d_fs s1) h in
  stored_as_stat_says im bs nb (d_fs s1) h -> bs h * f_nblocks st + bs h < 2^63 -> (forall fs i b, snd (h_read im fs h i b) = None) ->
  session im (spare h nb blk) f s1 l f' s' ->
  let doc0 := mkDoc (storage_bytes (blk h) (d_fs s1) (f_nblocks st)) 0 in
  all_in_place flags (f_size st) (bs h) (f_nblocks st) doc0 (map fst l) ->
  let '(d, answers) := replay flags (f_size st) (bs h) (f_nblocks st) doc0 (map fst l) in
  map snd l = answers /\
  forall c, in_place flags (f_size st) (bs h) (f_nblocks st) d c ->
    let '(b, n, e) := snd (expected flags (f_size st) (bs h) (f_nblocks st) d c) in
    exists s2 f2, file_call im f' c s' = Done s2 (f2, b, n, e).
Proof.
  intros HR E Ht h st Hst Hf Hrel U doc0 Hi.
  destruct (edit_start im wm d fuel p flags perm s s1 f l f' s' bs nb blk HR E Ht Hst Hf Hrel U Hi) as (Hm & Hsz & EI & Ha & Ex).
  fold h in EI, Ha. fold st in EI, Ha. fold doc0 in EI, Ha. destruct (replay _ _ _ _ _ _) as [d1 as1]. cbn [fst snd] in *. split; [exact Ha|].
  intros c Hc. destruct (expected _ _ _ _ d1 c) as [d2 [[b n] e]] eqn:Hx. cbn [snd]. destruct (HR h) as [Hbs Hrd].
  destruct (e_call im (fl_obj f) (bs h) (nb h) (blk h) Hm Hrd Hbs Hrel s1 flags (f_size st) (f_nblocks st) Hsz Hf f' c s' d1 d2 b n e Ex EI Hc Hx) as (s2 & f2 & E2 & _). eauto.
Qed.
(* "What is written is stored once Sync or Close has succeeded" is false: in every such session the implementation
   is never asked to write anything; Sync and Close make no call at all and still report success *)
Theorem C158_stored_refuted {F H} (im : impl F H) wm d fuel p flags perm s s1 f l f' s' (bs : H -> Z) (nb : H -> F -> Z) (blk : H -> F -> Z -> list Z) :
  (forall h, 0 < bs h < 2^62 /\ reads_honestly im h (bs h) (nb h) (blk h)) ->
  open_file im wm d fuel p flags perm s = Done s1 (inl f) -> io_truncate flags = false ->
  let h := x_h (fl_obj f) in let st := h_stat im (d_fs s1) h in
  stored_as_stat_says im bs nb (d_fs s1) h -> bs h * f_nblocks st + bs h < 2^63 -> (forall fs i b, snd (h_read im fs h i b) = None) ->
  session im (spare h nb blk) f s1 l f' s' ->
  let doc0 := mkDoc (storage_bytes (blk h) (d_fs s1) (f_nblocks st)) 0 in
  all_in_place flags (f_size st) (bs h) (f_nblocks st) doc0 (map fst l) ->
  let d := fst (replay flags (f_size st) (bs h) (f_nblocks st) doc0 (map fst l)) in
  let done : option kerr := if 0 <? f_nblocks st then None else Some (K ErrArgumentOutOfRange) in
  (* the blocks are those the file was opened on *)
  nb h (d_fs s') = nb h (d_fs s1) /\ (forall j, 0 <= j < nb h (d_fs s1) -> blk h (d_fs s') j = blk h (d_fs s1) j) /\
  (* any further call reads blocks, no more *)
  (forall c s2 r, in_place flags (f_size st) (bs h) (f_nblocks st) d c -> file_call im f' c s' = Done s2 r ->
     Forall (fun e => exists i, e = EvRead (x_id (fl_obj f)) i) (calls s' (file_call im f' c s'))) /\
  (* Sync and Close *)
  file_call im f' CSync s' = Done s' (f', [], 0, done) /\ fl_close im f' s' = Done s' done.
Proof.
  intros HR E Ht h st Hst Hf Hrel U doc0 Hi d1 dn.
  destruct (edit_start im wm d fuel p flags perm s s1 f l f' s' bs nb blk HR E Ht Hst Hf Hrel U Hi) as (Hm & Hsz & EI & Ha & Ex).
  fold h in EI, Ha. fold st in EI, Ha. fold doc0 in EI, Ha. fold d1 in EI. destruct (HR h) as [Hbs Hrd].
  pose proof EI as (_ & _ & _ & _ & _ & _ & _ & S1 & S2). split; [exact S1|]. split; [exact S2|]. split; [|split].
  - intros c s2 [[[f2 b] n] e] Hc E2. apply ext_calls. rewrite E2. cbn [end_state].
    exact (e_quiet im (fl_obj f) (bs h) (nb h) (blk h) Hm Hbs Hrel s1 flags (f_size st) (f_nblocks st) Hsz Hf f' c s' d1 s2 f2 b n e Ex EI Hc E2).
  - cbn [file_call]. unfold bind, ret, fl_sync. rewrite Ex, (sync_clean im (fl_obj f) (bs h) (nb h) (blk h) Hm Hrd Hbs Hrel s1 flags (f_size st) (f_nblocks st) Hsz Hf s' _ d1 EI).
    destruct f'; reflexivity.
  - unfold fl_close, s_close. rewrite Ex, (sync_clean im (fl_obj f) (bs h) (nb h) (blk h) Hm Hrd Hbs Hrel s1 flags (f_size st) (f_nblocks st) Hsz Hf s' _ d1 EI). reflexivity.
Qed.
(* "hello" in blocks of 4: overwritten in place, read back, synced and closed without an error: still "hello".
   The write that would end in the last block is refused *)
Definition edited : list fcall := [CWriteAt (B "HE") 0; CReadAt [0;0;0;0;0] 0; CWrite (B "a"); CRead [0;0]; CSeek (-1) 2; CRead [0]; CWriteAt (B "x") 4; CSync].
Example C158_example : exists s1 f l f' s', open_file (memfs 4) Embedded demo 9 (B "f") O_RDWR 0 (start (NDir tree)) = Done s1 (inl f) /\
  session (memfs 4) (spare (x_h (fl_obj f)) (mnb 4) (mblk 4)) f s1 l f' s' /\
  map fst l = edited /\
  map snd l = [([], 2, None); (B "HEllo", 5, None); ([], 1, None); (B "El", 2, None); ([], 4, None); (B "o", 1, None); ([], 0, Some (K ErrArgumentOutOfRange)); ([], 0, None)] /\
  all_in_place O_RDWR 5 4 2 (mkDoc (storage_bytes (mblk 4 (x_h (fl_obj f))) (d_fs s1) 2) 0) (map fst l) /\
  f_size (h_stat (memfs 4) (d_fs s1) (x_h (fl_obj f))) = 5 /\ f_nblocks (h_stat (memfs 4) (d_fs s1) (x_h (fl_obj f))) = 2 /\
  stored_as_stat_says (memfs 4) (fun _ => 4) (mnb 4) (d_fs s1) (x_h (fl_obj f)) /\
  (forall fs i b, snd (h_read (memfs 4) fs (x_h (fl_obj f)) i b) = None) /\
  (forall h, 0 < 4 < 2^62 /\ reads_honestly (memfs 4) h 4 (mnb 4 h) (mblk 4 h)) /\
  fl_close (memfs 4) f' s' = Done s' None /\
  (exists s2, read_file (memfs 4) Embedded demo 9 (B "f") s' = Done s2 (inl (B "hello"))).
Proof.
  do 5 eexists. split; [vm_compute; reflexivity|].
  split; [eapply (perform_session _ _ _ _ edited); [apply ss_opened|vm_compute; reflexivity]|].
  split; [vm_compute; reflexivity|]. split; [vm_compute; reflexivity|].
  split; [vm_compute; intuition congruence|split; [vm_compute; reflexivity|split; [vm_compute; reflexivity|split; [apply memfs_fits; vm_compute; auto|split; [reflexivity|split; [intros h; now apply memfs_storage|split]]]]]].
  - vm_compute. reflexivity.
  - eexists. vm_compute. reflexivity.
Qed.
Print Assumptions C158_array_partial.
Print Assumptions C158_stored_refuted.
