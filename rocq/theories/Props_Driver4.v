(** * Props_Driver4: ReadFile and Readlink for every implementation and every path *)
From Coq Require Import String.
From Verif Require Import GoBase ListZ Errors Flags GoPath Spec_Path BlockCache Spec_BlockCache Driver Spec_Driver Spec_Driver4
  GoPathProofs DriverProofs DriverProofs2 DriverProofs3 DriverProofs4 DriverProofs7 DriverProofs8 DriverProofs16 DriverProofs17 Props_Driver2.

(** ** C56 *)
(* The bytes ReadFile returns are exactly the first Size bytes of the blocks of the object that the path
   leads to, the same object whose size and blocks Stat reports: for every implementation that reads blocks
   honestly, every path, every working directory and every state, whether or not links are followed *)
Theorem C56_read_file_exact {F H} (im : impl F H) wm d fuel p s s' b (bs : H -> Z) (nb : H -> F -> Z) (blk : H -> F -> Z -> list Z) :
  (forall h, 0 < bs h < 2^62 /\ reads_honestly im h (bs h) (nb h) (blk h)) ->
  read_file im wm d fuel p s = Done s' (inl b) ->
  exists s1 x, following im wm d fuel (normalize_path (cwd d) p) s = Done s1 (inl x) /\
    (exists s2, stat_path im wm d fuel p s = Done s2 (inl (h_stat im (d_fs s1) (x_h x)))) /\
    (stored_as_stat_says im bs nb (d_fs s1) (x_h x) -> b = contents_of im blk (d_fs s1) (x_h x) /\ zlen b = f_size (h_stat im (d_fs s1) (x_h x))).
Proof.
  intros HR E. destruct (read_file_any im wm d bs nb blk HR _ _ _ _ _ E) as [(e & _ & X)|(s1 & x & E1 & Hm & HX)]; [discriminate|].
  exists s1, x. split; [exact E1|]. split; [now apply stat_of_found|]. intros Hst. destruct (HX Hst) as [[Hb|[e0 Hb]] _]; [|discriminate].
  injection Hb as ->. split; [reflexivity|]. destruct Hst as (Hb & HN & Hf & Hsz). unfold contents_of. cbn zeta.
  destruct (HR (x_h x)) as [Hbs [HL _]]. apply zlen_slice; [lia|lia|].
  rewrite (storage_bytes_len _ (d_fs s1) (bs (x_h x)) (f_nblocks (h_stat im (d_fs s1) (x_h x)))); [rewrite <- Hb; lia|lia|].
  intros i Hi. apply HL. lia.
Qed.
(* and it gives no error that Stat of the same path does not give, except that blocks could not be read *)
Theorem C56_errors {F H} (im : impl F H) wm d fuel p s s' e (bs : H -> Z) (nb : H -> F -> Z) (blk : H -> F -> Z -> list Z) :
  (forall h, 0 < bs h < 2^62 /\ reads_honestly im h (bs h) (nb h) (blk h)) ->
  read_file im wm d fuel p s = Done s' (inr e) ->
  stat_path im wm d fuel p s = Done s' (inr e) \/
  exists s1 x, following im wm d fuel (normalize_path (cwd d) p) s = Done s1 (inl x) /\
    (stored_as_stat_says im bs nb (d_fs s1) (x_h x) -> (exists e0, e = KWrap ErrIOFailed e0) /\ ~ (forall fs i b, snd (h_read im fs (x_h x) i b) = None)).
Proof.
  intros HR E. destruct (read_file_any im wm d bs nb blk HR _ _ _ _ _ E) as [(e' & E1 & X)|(s1 & x & E1 & Hm & HX)].
  - injection X as <-. left. now apply stat_of_missing.
  - right. exists s1, x. split; [exact E1|]. intros Hst. destruct (HX Hst) as [[Hb|[e0 Hb]] HY]; [discriminate|]. injection Hb as ->.
    split; [eauto|]. intros Hr. specialize (HY Hr). discriminate.
Qed.
(* the in-memory file system of Spec_Driver meets the hypotheses: there ReadFile gives the contents of the node *)
Theorem C56_memory bs wm d fuel p s s' r : 0 < bs < 2^62 -> read_file (memfs bs) wm d fuel p s = Done s' (inl r) ->
  exists s1 x, following (memfs bs) wm d fuel (normalize_path (cwd d) p) s = Done s1 (inl x) /\
    (zlen (node_bytes (mem_node (d_fs s1) (x_h x))) + bs < 2^63 -> r = node_bytes (mem_node (d_fs s1) (x_h x))).
Proof.
  intros Hbs E. apply try_inv in E as [(s1 & x & E1 & E2)|(e & _ & X)]; [|discriminate]. exists s1, x. split; [exact E1|]. intros Hl.
  apply defer_inv in E2 as (Hm & s2 & E2 & _). destruct (mem_contents bs Hbs x s1 Hm Hl) as (s3 & E3 & _). rewrite E3 in E2. congruence.
Qed.
(* through a link; the storage is honest and says the truth about itself *)
Example C56_any_path_example :
  (exists s', read_file (memfs 4) Embedded demo 9 (B "l") (start (NDir tree)) = Done s' (inl (B "hello"))) /\
  (forall h, 0 < 4 < 2^62 /\ reads_honestly (memfs 4) h 4 (mnb 4 h) (mblk 4 h)) /\
  stored_as_stat_says (memfs 4) (fun _ => 4) (mnb 4) (NDir tree) [B "f"] /\ contents_of (memfs 4) (mblk 4) (NDir tree) [B "f"] = B "hello".
Proof.
  split; [eexists; vm_compute; reflexivity|]. split; [intros h; now apply memfs_storage|]. split; [apply memfs_fits; vm_compute; auto|vm_compute; reflexivity].
Qed.

(** ** C92 *)
(* every implementation with links, every path: what Readlink returns is the stored text of a link *)
Theorem C92_readlink_exact {F H} (im : impl F H) wm d fuel p s s' r (bs : H -> Z) (nb : H -> F -> Z) (blk : H -> F -> Z -> list Z) :
  (forall h, 0 < bs h < 2^62 /\ reads_honestly im h (bs h) (nb h) (blk h)) -> i_has_symlinks im = true ->
  readlink im wm d fuel p s = Done s' r ->
  (exists e, no_follow im wm d fuel (normalize_path (cwd d) p) s = Done s' (inr e) /\ r = inr e) \/
  (exists s1 x, no_follow im wm d fuel (normalize_path (cwd d) p) s = Done s1 (inl x) /\
     if is_symlink (h_stat im (d_fs s1) (x_h x)) then
       stored_as_stat_says im bs nb (d_fs s1) (x_h x) ->
        (r = inl (contents_of im blk (d_fs s1) (x_h x)) \/ (exists e, r = inr (KWrap ErrIOFailed e))) /\
        ((forall fs i b, snd (h_read im fs (x_h x) i b) = None) -> r = inl (contents_of im blk (d_fs s1) (x_h x)))
     else r = inr (K ErrInvalidArgument)).
Proof. intros HR Hs E. now apply (readlink_any im wm d bs nb blk HR fuel p s s' r Hs). Qed.
(* without links it is not supported *)
Theorem C92_unsupported {F H} (im : impl F H) wm d fuel p s : i_has_symlinks im = false -> readlink im wm d fuel p s = Done s (inr (K ErrNotSupported)).
Proof. intros E. unfold readlink. now rewrite E. Qed.
(* on the in-memory file system, for every path that Readlink returns from, completely *)
Theorem C92_every_path bs wm d fuel p es s s' r : 0 < bs < 2^62 -> canonical (cwd d) -> d_fs s = NDir es ->
  readlink (memfs bs) wm d fuel p s = Done s' r -> d_fs s' = NDir es /\ readlink_answer bs es (normalize_path (cwd d) p) r.
Proof. intros. eapply readlink_mem_any; eauto. Qed.
Example C92_every_path_example :
  (exists s', readlink (memfs 4) Embedded demo 9 (B "d/../l") (start (NDir tree)) = Done s' (inl (B "f"))) /\
  (exists s', readlink (memfs 4) Embedded demo 9 (B "/") (start (NDir tree)) = Done s' (inr (K ErrInvalidArgument))) /\
  (exists s', readlink (memfs 4) Embedded demo 9 (B "nothing") (start (NDir tree)) = Done s' (inr (K ErrNotFound))) /\
  canonical (cwd demo).
Proof. split; [|split; [|split]]; try (eexists; vm_compute; reflexivity). exists []. split; [constructor|reflexivity]. Qed.
(** ** C154: Create and OpenFile(O_CREATE) make the missing file *)
Theorem C154_create bs wm d f n es s : 0 < bs < 2^62 -> wm <> AsIs -> proper n -> d_fs s = NDir es -> lookup_in n es = None -> can_write (mount d) = true ->
  exists s' fl, create (memfs bs) wm d (S (S (S (S f)))) (render [n]) s = Done s' (inl fl) /\
    (* the directory has one entry more: an empty file of that name *)
    d_fs s' = NDir (es ++ [(n, NFile [])]) /\
    (* the file may be read (there is nothing to read yet) and changed *)
    (forall buf, 0 < zlen buf -> fl_read (memfs bs) fl buf s' = Done s' (fl, buf, 0, Some KEOF)) /\
    (exists s2 fl2, fl_truncate (memfs bs) fl 0 s' = Done s2 (fl2, None) /\ d_fs s2 = d_fs s').
Proof.
  intros Hbs Hwm Hn Hs El Hw.
  destruct (open_missing bs Hbs wm d Hwm f n (Z.lor (Z.lor O_RDWR O_CREATE) O_EXCL) 0 es s) as (s' & x & st & E & Hd & Hx & Hm); auto.
  eexists. eexists. split; [exact E|]. split; [exact Hd|]. split; [intros buf Hb; exact (fresh_read bs _ x st s' buf Hb)|].
  assert (lookup_in n (es ++ [(n, NFile [])]) = Some (NFile [])) as El1 by (rewrite lookup_in_app, El; cbn; now rewrite beqb_refl).
  destruct (fresh_truncate bs Hbs (Z.lor (Z.lor O_RDWR O_CREATE) O_EXCL) x st s' _ n Hd El1 Hx Hm eq_refl) as (s2 & f2 & E2 & H2).
  exists s2, f2. split; [exact E2|]. now rewrite Hd.
Qed.
Theorem C154_open bs wm d f n fl perm es s : 0 < bs < 2^62 -> wm <> AsIs -> proper n -> d_fs s = NDir es -> lookup_in n es = None ->
  io_truncate fl = false -> (io_requires_write_perm fl = true -> can_write (mount d) = true) -> stat_is_dir perm = false ->
  exists s' r, open_file (memfs bs) wm d (S (S (S (S f)))) (render [n]) fl perm s = Done s' r /\
    if io_create fl then
      d_fs s' = NDir (es ++ [(n, NFile [])]) /\
      exists f', r = inl f' /\ forall buf, 0 < zlen buf -> fl_read (memfs bs) f' buf s' = Done s' (f', buf, 0, Some (if io_read fl then KEOF else K ErrNotPermitted))
    else d_fs s' = NDir es /\ r = inr (K ErrNotFound).
Proof.
  intros Hbs Hwm Hn Hs El Ht Hw Hp. destruct (io_create fl) eqn:Hc.
  - destruct (open_missing bs Hbs wm d Hwm f n fl perm es s) as (s' & x & st & E & Hd & Hx & Hm); auto.
    do 2 eexists. split; [exact E|]. split; [exact Hd|]. eexists. split; [reflexivity|]. intros buf Hb. exact (fresh_read bs _ x st s' buf Hb).
  - unfold open_file.
    replace (io_requires_write_perm fl && negb (can_write (mount d))) with false by (destruct (io_requires_write_perm fl); [rewrite Hw|]; reflexivity).
    unfold norm. rewrite norm_one by exact Hn.
    destruct (mem_following bs wm d Hwm f n es s Hn Hs) as (s1 & id & Hs1 & E); [intros; congruence|].
    erewrite bind_done by exact E. rewrite El, Hc. do 2 eexists. split; [reflexivity|]. auto.
Qed.
Example C154_example : exists s' fl, create (memfs 4) Full demo 4 (B "new") (start (NDir tree)) = Done s' (inl fl) /\ d_fs s' = NDir (tree ++ [(B "new", NFile [])]) /\ lookup_in (B "new") tree = None.
Proof. eexists. eexists. split; [vm_compute; reflexivity|]. split; reflexivity. Qed.

Print Assumptions C56_read_file_exact.
Print Assumptions C56_errors.
Print Assumptions C56_memory.
Print Assumptions C92_readlink_exact.
Print Assumptions C92_unsupported.
Print Assumptions C92_every_path.
Print Assumptions C154_create.
Print Assumptions C154_open.
