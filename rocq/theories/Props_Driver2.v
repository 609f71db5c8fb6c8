(** * Property theorems C90-C94 (statements; proofs in DriverProofs12).  For the notation see Props_Driver. *)
From Coq Require Import String.
From Verif Require Import GoBase ListZ Errors Flags GoPath Spec_Path GoPathProofs BlockCache Spec_BlockCache BlockCacheProofs
  BlockCacheProofs2 BasicStream Spec_BasicStream BasicStreamProofs Driver Spec_Driver DriverProofs DriverProofs2 DriverProofs3 DriverProofs4
  DriverProofs5 DriverProofs6 DriverProofs7 DriverProofs8 DriverProofs9 DriverProofs10 DriverProofs11 DriverProofs12.

Definition demo : drv := mkDrv MountFlagsAllowAll (B "/").
Definition tree : list (list Z * node) :=
  [(B "f", NFile (B "hello")); (B "d", NDir [(B "g", NFile (B "x")); (B "e", NDir [])]); (B "z", NDir []); (B "l", NLink (B "f"))].
(* memfs with the optional methods; an attribute change overwrites the contents with the values *)
Definition attrfs (bs : Z) : impl node (list (list Z)) :=
  let m := memfs bs in
  mkImpl node (list (list Z)) (i_root m) (i_get m) (i_create m)
    (Some (fun t a b n => match mem_node t b with
                          | NDir es => (update t b (Some (NDir (es ++ [(n, mem_node t a)]))), inl (b ++ [n]))
                          | _ => (t, inr (K ErrNotADirectory)) end))
    true true true (h_stat m) (h_resize m) (h_read m) (h_write m) (h_unlink m) (h_name m) (h_same m) (h_close m) (h_listdir m)
    (fun t h => Some (fun mode => (update t h (Some (NFile [mode])), None)))
    (fun t h => Some (fun u g => (update t h (Some (NFile [u; g])), None)))
    (fun t h => Some (fun ts => (update t h (Some (NFile ts)), None))).

(** ** C90 *)
(* looking up an entry of the root: the calls made *)
Definition lookup_calls (k : nat) (n : list Z) : list event := [EvAcquire k; EvGet k n; EvAcquire (S k); EvRelease k].
(* the implementation's method is called once, on the object's handle, with the caller's values; its error is returned *)
Theorem C90_chmod_partial {F H} (im : impl F H) d f p n mode s fs2 rh h : proper n -> normalize_path (cwd d) p = render [n] -> entry_of im (d_fs s) n fs2 rh h ->
  let fs := h_close im fs2 rh in
  let r := chmod im Full d (S (S (S (S f)))) p mode s in
  match h_chmod im fs h with
  | None => exists s', r = Done s' (inr (K ErrNotImplemented)) /\ d_fs s' = fs
  | Some g => exists s', r = Done s' (match snd (g mode) with None => inl tt | Some e => inr e end) /\ d_fs s' = fst (g mode) /\
      calls s r = lookup_calls (d_next s) n ++ [EvChmod (S (d_next s)) mode]
  end.
Proof.
  intros Hn Ep He. cbv zeta. pose proof (attr_entry im d f p n s fs2 rh h (fun fs h => option_map (fun g => g mode) (h_chmod im fs h)) (fun i => EvChmod i mode) Hn Ep He) as HA.
  cbv beta zeta in HA. unfold chmod. revert HA. destruct (h_chmod im (h_close im fs2 rh) h) as [g|]; cbn [option_map]; intros HA.
  - destruct (g mode) as [fs' e]. exact HA.
  - destruct HA as (s' & A & B & _). eauto.
Qed.
Theorem C90_chown_partial {F H} (im : impl F H) d f p n uid gid s fs2 rh h : proper n -> normalize_path (cwd d) p = render [n] -> entry_of im (d_fs s) n fs2 rh h ->
  let fs := h_close im fs2 rh in
  let r := chown im Full d (S (S (S (S f)))) p uid gid s in
  match h_chown im fs h with
  | None => exists s', r = Done s' (inr (K ErrNotImplemented)) /\ d_fs s' = fs
  | Some g => exists s', r = Done s' (match snd (g uid gid) with None => inl tt | Some e => inr e end) /\ d_fs s' = fst (g uid gid) /\
      calls s r = lookup_calls (d_next s) n ++ [EvChown (S (d_next s)) uid gid]
  end.
Proof.
  intros Hn Ep He. cbv zeta. pose proof (attr_entry im d f p n s fs2 rh h (fun fs h => option_map (fun g => g uid gid) (h_chown im fs h)) (fun i => EvChown i uid gid) Hn Ep He) as HA.
  cbv beta zeta in HA. unfold chown. revert HA. destruct (h_chown im (h_close im fs2 rh) h) as [g|]; cbn [option_map]; intros HA.
  - destruct (g uid gid) as [fs' e]. exact HA.
  - destruct HA as (s' & A & B & _). eauto.
Qed.
(* the five times are: created, accessed, modified, changed, deleted; 0 leaves a time alone *)
Theorem C90_chtimes_partial {F H} (im : impl F H) d f p n atime mtime s fs2 rh h : proper n -> normalize_path (cwd d) p = render [n] -> entry_of im (d_fs s) n fs2 rh h ->
  let fs := h_close im fs2 rh in
  let r := chtimes im Full d (S (S (S (S f)))) p atime mtime s in
  forall ts, ts = [0; if i_has_atime im then atime else 0; if i_has_mtime im then mtime else 0; 0; 0] ->
  match h_chtimes im fs h with
  | None => exists s', r = Done s' (inr (K ErrNotImplemented)) /\ d_fs s' = fs
  | Some g => exists s', r = Done s' (match snd (g ts) with None => inl tt | Some e => inr e end) /\ d_fs s' = fst (g ts) /\
      calls s r = lookup_calls (d_next s) n ++ [EvChtimes (S (d_next s)) ts]
  end.
Proof.
  intros Hn Ep He. cbv zeta. intros ts Ets. pose proof (attr_entry im d f p n s fs2 rh h (fun fs h => option_map (fun g => g ts) (h_chtimes im fs h)) (fun i => EvChtimes i ts) Hn Ep He) as HA.
  cbv beta zeta in HA. unfold chtimes. cbn zeta. rewrite <- Ets. revert HA. destruct (h_chtimes im (h_close im fs2 rh) h) as [g|]; cbn [option_map]; intros HA.
  - destruct (g ts) as [fs' e]. exact HA.
  - destruct HA as (s' & A & B & _). eauto.
Qed.
(* the handle wrapper embeds the ObjectHandle interface, so the optional methods are never found *)
Theorem C90_never_supported_refuted {F H} (im : impl F H) d f p n s fs2 rh h : proper n -> normalize_path (cwd d) p = render [n] -> entry_of im (d_fs s) n fs2 rh h ->
  (forall mode, exists s', chmod im Embedded d (S (S (S (S f)))) p mode s = Done s' (inr (K ErrNotImplemented))) /\
  (forall uid gid, exists s', chown im Embedded d (S (S (S (S f)))) p uid gid s = Done s' (inr (K ErrNotImplemented))) /\
  (forall atime mtime, exists s', chtimes im Embedded d (S (S (S (S f)))) p atime mtime s = Done s' (inr (K ErrNotImplemented))).
Proof.
  intros Hn Ep He. split; [|split]; intros.
  - exact (attr_embedded im d f p n s fs2 rh h (fun fs h => option_map (fun g => g mode) (h_chmod im fs h)) (fun i => EvChmod i mode) Hn Ep He).
  - exact (attr_embedded im d f p n s fs2 rh h (fun fs h => option_map (fun g => g uid gid) (h_chown im fs h)) (fun i => EvChown i uid gid) Hn Ep He).
  - exact (attr_embedded im d f p n s fs2 rh h (fun fs h => option_map (fun g => g [0; if i_has_atime im then atime else 0; if i_has_mtime im then mtime else 0; 0; 0]) (h_chtimes im fs h)) (fun i => EvChtimes i _) Hn Ep He).
Qed.
Example C90_example : entry_of (attrfs 4) (NDir tree) (B "f") (NDir tree) [] [B "f"] /\
  (exists s', chtimes (attrfs 4) Full demo 9 (B "f") 7 8 (start (NDir tree)) = Done s' (inl tt) /\ lookup (d_fs s') [B "f"] = Some (NFile [0; 7; 8; 0; 0])) /\
  (exists s', chmod (attrfs 4) Full demo 9 (B "f") 7 (start (NDir tree)) = Done s' (inl tt) /\ lookup (d_fs s') [B "f"] = Some (NFile [7])) /\
  (exists s', chown (attrfs 4) Full demo 9 (B "f") 7 8 (start (NDir tree)) = Done s' (inl tt) /\ lookup (d_fs s') [B "f"] = Some (NFile [7; 8])) /\
  (exists s', chown (attrfs 4) Embedded demo 9 (B "f") 7 8 (start (NDir tree)) = Done s' (inr (K ErrNotImplemented))).
Proof.
  split; [|split; [|split; [|split]]].
  - exists (NDir tree). vm_compute. repeat split.
  - eexists. split; [vm_compute; reflexivity|reflexivity].
  - eexists. split; [vm_compute; reflexivity|reflexivity].
  - eexists. split; [vm_compute; reflexivity|reflexivity].
  - eexists. vm_compute. reflexivity.
Qed.

(** ** C91 *)
Theorem C91_existing_partial {F H} (im : impl F H) wm d f po pn o n s mk fs2 rh h fs3 rh' h' : wm <> AsIs -> i_link im = Some mk -> proper o -> proper n ->
  normalize_path (cwd d) po = render [o] -> normalize_path (cwd d) pn = render [n] ->
  entry_of im (d_fs s) o fs2 rh h -> entry_of im (h_close im fs2 rh) n fs3 rh' h' ->
  let r := link im wm d (S (S (S (S f)))) po pn s in
  exists s', r = Done s' (inr (K ErrExists)) /\ d_fs s' = h_close im fs3 rh' /\ Forall (fun e => ~ modifies e) (calls s r).
Proof.
  intros Hwm Em Ho Hn Eo En He He'. destruct (link_existing im wm d Hwm f po pn o n s mk fs2 rh h fs3 rh' h' Em Ho Hn Eo En He He') as (s' & E & Hs & Hc).
  exists s'. split; [exact E|]. split; [exact Hs|]. rewrite Hc. repeat constructor; cbn; tauto.
Qed.
(* any failure of the lookup of the new name, even an I/O error, counts as "does not exist": the link is made *)
Theorem C91_lookup_error_ignored_refuted {F H} (im : impl F H) wm d f po pn o n s mk fs2 rh h fs3 rh3 fs4 e fs5 rh5 : wm <> AsIs -> i_link im = Some mk -> proper o -> proper n ->
  normalize_path (cwd d) po = render [o] -> normalize_path (cwd d) pn = render [n] -> entry_of im (d_fs s) o fs2 rh h ->
  i_root im (h_close im fs2 rh) = (fs3, rh3) -> is_dir (h_stat im fs3 rh3) = true -> is_symlink (h_stat im fs3 rh3) = false ->
  i_get im fs3 n rh3 = (fs4, inr e) ->
  i_root im (h_close im fs4 rh3) = (fs5, rh5) -> is_dir (h_stat im fs5 rh5) = true -> is_symlink (h_stat im fs5 rh5) = false ->
  let r := link im wm d (S (S (S (S f)))) po pn s in
  exists s', r = Done s' (match snd (mk fs5 h rh5 n) with inl _ => inl tt | inr e => inr e end) /\ d_fs s' = fst (mk fs5 h rh5 n) /\
    In (EvLink (S (d_next s)) (S (S (S (d_next s)))) n) (calls s r).
Proof. intros Hwm. apply (link_missing im wm d Hwm). Qed.
(* attrfs whose lookups of "f2" fail with an I/O error although f2 exists *)
Definition flaky (bs : Z) : impl node (list (list Z)) :=
  let m := attrfs bs in
  mkImpl node (list (list Z)) (i_root m) (fun t n h => if beqb n (B "z") then (t, inr (K ErrIOFailed)) else i_get m t n h) (i_create m) (i_link m)
    true true true (h_stat m) (h_resize m) (h_read m) (h_write m) (h_unlink m) (h_name m) (h_same m) (h_close m) (h_listdir m) (h_chmod m) (h_chown m) (h_chtimes m).
Example C91_example :
  (exists s', link (attrfs 4) Full demo 9 (B "f") (B "z") (start (NDir tree)) = Done s' (inr (K ErrExists)) /\ d_fs s' = NDir tree) /\
  (exists s', link (attrfs 4) Full demo 9 (B "f") (B "new") (start (NDir tree)) = Done s' (inl tt) /\ lookup (d_fs s') [B "new"] = Some (NFile (B "hello"))) /\
  (* z exists, the medium fails, a second entry z is made *)
  (exists s', link (flaky 4) Full demo 9 (B "f") (B "z") (start (NDir tree)) = Done s' (inl tt) /\ d_fs s' = NDir (tree ++ [(B "z", NFile (B "hello"))])).
Proof. split; [|split]; eexists; (split; [vm_compute; reflexivity|reflexivity]). Qed.

(** ** C92 *)
Theorem C92_readlink_partial bs wm d f n es s : 0 < bs < 2^62 -> wm <> AsIs -> proper n -> d_fs s = NDir es ->
  exists s', d_fs s' = NDir es /\
  match lookup_in n es with
  | None => readlink (memfs bs) wm d (S (S (S f))) (render [n]) s = Done s' (inr (K ErrNotFound))
  | Some (NLink text) => zlen text + bs < 2^63 -> readlink (memfs bs) wm d (S (S (S f))) (render [n]) s = Done s' (inl text)
  | Some _ => readlink (memfs bs) wm d (S (S (S f))) (render [n]) s = Done s' (inr (K ErrInvalidArgument))
  end.
Proof. intros. now apply readlink_mem. Qed.
Example C92_example : exists s', readlink (memfs 4) Embedded demo 9 (B "/l") (start (NDir tree)) = Done s' (inl (B "f")).
Proof. eexists. vm_compute. reflexivity. Qed.

(** ** C93 *)
(* an entry of the root that is no link: a directory with entries other than "." and ".." is refused and
   nothing changes, anything else is deleted and the other entries stay *)
Theorem C93_remove_partial bs d f n es s x : proper n -> d_fs s = NDir es -> lookup_in n es = Some x -> (forall text, x <> NLink text) ->
  exists s' r, remove (memfs bs) Full d (S (S (S (S f)))) (render [n]) s = Done s' r /\
  ((exists sub m, x = NDir sub /\ In m (map fst sub) /\ not_dots m) -> r = inr (K ErrDirectoryNotEmpty) /\ d_fs s' = NDir es) /\
  ((forall sub, x = NDir sub -> forall m, In m (map fst sub) -> m = B "." \/ m = B "..") -> r = inl tt /\ d_fs s' = NDir (set_in n None es)).
Proof.
  intros Hn Hs El Hx. destruct (remove_entry bs d f n es s x Hn Hs El Hx) as (s' & r & E & H). exists s', r. split; [exact E|].
  assert (HD : forall m, is_dots m = true <-> m = B "." \/ m = B "..").
  { intros m. unfold is_dots. rewrite orb_true_iff, !beqb_eq. reflexivity. }
  split.
  - intros (sub & m & -> & Hin & Hnd). cbn [remove_dots] in H.
    assert (Hz : In m (remove_dots (map fst sub))).
    { apply filter_In. split; [exact Hin|]. destruct (is_dots m) eqn:ED; [|reflexivity]. destruct Hnd as [N1 N2]. apply HD in ED. tauto. }
    destruct (remove_dots (map fst sub)) as [|a l] eqn:EL; [destruct Hz|]. pose proof (zlen_nonneg l). rewrite zlen_cons in H.
    destruct (_ >? 0) eqn:EZ; [exact H|lia].
  - intros Hd. destruct x as [b|text|sub]; [exact H|now destruct (Hx text)|].
    assert (remove_dots (map fst sub) = []) as EL.
    { unfold remove_dots. destruct (filter _ _) as [|a l] eqn:EF; [reflexivity|]. assert (In a (a :: l)) as Ha by now left. rewrite <- EF in Ha. apply filter_In in Ha as [Ha Hb].
      apply (Hd sub eq_refl) in Ha. apply HD in Ha. rewrite Ha in Hb. discriminate. }
    rewrite EL in H. exact H.
Qed.
(* Remove of a link deletes the file at the end of the chain; the link stays and dangles *)
Theorem C93_remove_link_refuted bs d n text m es s b : 0 < bs < 2^62 -> small_links bs es -> proper n -> proper m ->
  lookup_in n es = Some (NLink text) -> d_fs s = NDir es -> lookup_in m es = Some (NFile b) -> leads es (cwd d) (render [n]) (render [n]) (ToObject (render [m])) ->
  exists N s', remove (memfs bs) Full d N (render [n]) s = Done s' (inl tt) /\ d_fs s' = NDir (set_in m None es).
Proof. intros Hbs Hsm Hn Hm El Hs Em Hl. eapply remove_link; eauto. Qed.
Example C93_example :
  (exists s', remove (memfs 4) Full demo 9 (B "d") (start (NDir tree)) = Done s' (inr (K ErrDirectoryNotEmpty)) /\ d_fs s' = NDir tree) /\
  (exists s', remove (memfs 4) Full demo 9 (B "z") (start (NDir tree)) = Done s' (inl tt) /\ lookup (d_fs s') [B "z"] = None) /\
  (exists s', remove (memfs 4) Full demo 9 (B "l") (start (NDir tree)) = Done s' (inl tt) /\ lookup (d_fs s') [B "l"] = Some (NLink (B "f")) /\ lookup (d_fs s') [B "f"] = None) /\
  small_links 4 tree /\ leads tree (B "/") (B "/l") (B "/l") (ToObject (B "/f")).
Proof.
  split; [|split; [|split; [|split]]].
  - eexists. split; [vm_compute; reflexivity|reflexivity].
  - eexists. split; [vm_compute; reflexivity|reflexivity].
  - eexists. split; [vm_compute; reflexivity|split; reflexivity].
  - intros n t E. unfold tree in E. cbn [lookup_in] in E. repeat (destruct (beqb _ n) in E; [try discriminate E; injection E as <-; reflexivity|]). discriminate E.
  - eapply ld_next; [apply (at_entry tree (B "l"))|reflexivity|discriminate|]. { unfold proper; cbn; repeat split; try discriminate; intuition discriminate. }
    apply (ld_object tree (B "/") (B "/l") (B "/f") (NFile (B "hello"))); [apply (at_entry tree (B "f"))|discriminate].
    unfold proper; cbn; repeat split; try discriminate; intuition discriminate.
Qed.

(** ** C94 *)
(* a directory that already exists: the implementation is asked to create it again, and its refusal is the answer *)
Theorem C94_existing_refuted {F H} (im : impl F H) wm d f p perm n s fs1 rh fs2 h fs3 e : wm <> AsIs -> proper n -> normalize_path (cwd d) p = render [n] ->
  i_root im (d_fs s) = (fs1, rh) -> is_dir (h_stat im fs1 rh) = true -> is_symlink (h_stat im fs1 rh) = false ->
  i_get im fs1 n rh = (fs2, inl h) -> is_dir (h_stat im fs2 h) = true ->
  i_create im fs1 n rh (mkdir_mode perm) = (fs3, inr e) ->
  exists s', mkdir_all im wm d (S (S (S (S f)))) (S f) p perm s = Done s' (inr e).
Proof.
  intros Hwm Hn Ep Er Hd Hl _ _ Ec. destruct (mkdir_all_entry im wm d Hwm f p perm n s fs1 rh Hn Ep Er Hd Hl) as (s' & E & _). rewrite Ec in E. eauto.
Qed.
(* two or more components: never returns *)
Theorem C94_nested_refuted {F H} (im : impl F H) wm d fuel p perm s ns n : ns <> [] -> Forall proper ns -> proper n ->
  normalize_path (cwd d) p = render (ns ++ [n]) -> run_op im wm d fuel (PMkdirAll p perm) s = Spin s.
Proof. intros Hns Hf Hn E. exact (nested_op im wm d fuel (PMkdirAll p perm) s ns n Hns Hn E eq_refl). Qed.
(* one component: CreateObject is called in the root with the directory bit set, and the new handle is closed *)
Theorem C94_single_partial {F H} (im : impl F H) wm d f p perm n s fs1 rh : wm <> AsIs -> proper n -> normalize_path (cwd d) p = render [n] ->
  i_root im (d_fs s) = (fs1, rh) -> is_dir (h_stat im fs1 rh) = true -> is_symlink (h_stat im fs1 rh) = false ->
  exists s', mkdir_all im wm d (S (S (S (S f)))) (S f) p perm s = Done s' (match snd (i_create im fs1 n rh (mkdir_mode perm)) with inl _ => inl tt | inr e => inr e end) /\
    d_fs s' = match i_create im fs1 n rh (mkdir_mode perm) with (fs, inl h) => h_close im (h_close im fs h) rh | (fs, inr _) => h_close im fs rh end.
Proof. intros Hwm. apply (mkdir_all_entry im wm d Hwm). Qed.
Theorem C94_makes_directory_partial bs wm d f n es perm s : wm <> AsIs -> proper n -> d_fs s = NDir es ->
  exists s', mkdir_all (memfs bs) wm d (S (S (S (S f)))) (S f) (render [n]) perm s = Done s' (inl tt) /\ d_fs s' = NDir (es ++ [(n, NDir [])]).
Proof.
  intros Hwm Hn Hs. destruct (mkdir_all_entry (memfs bs) wm d Hwm f (render [n]) perm n s (NDir es) []) as (s' & E & Hs'); auto.
  - now apply norm_one.
  - cbn. now rewrite Hs.
  - cbn [memfs i_create mem_node lookup fst snd update h_close] in E, Hs'. exists s'. split; [exact E|]. rewrite Hs'. unfold mem_node. cbn [lookup].
    assert (stat_is_dir (mkdir_mode perm) = true) as ->. 2: reflexivity.
    unfold stat_is_dir, has, mkdir_mode. apply negb_true_iff, Z.eqb_neq. intros EQ. enough (ModeDir = 0) by discriminate. rewrite <- EQ. apply Z.bits_inj'. intros i Hi. rewrite Z.land_spec, Z.lor_spec. destruct (Z.testbit ModeDir i); [now rewrite orb_true_r|now rewrite andb_false_r].
Qed.
Example C94_example :
  (exists s', mkdir_all (memfs 4) Full demo 9 9 (B "new") 511 (start (NDir tree)) = Done s' (inl tt) /\ lookup (d_fs s') [B "new"] = Some (NDir [])) /\
  run_op (memfs 4) Full demo 60 (PMkdirAll (B "d/new") 511) (start (NDir tree)) = Spin (start (NDir tree)).
Proof. split; [eexists; split; [vm_compute; reflexivity|reflexivity]|reflexivity]. Qed.

Print Assumptions C90_chmod_partial.
Print Assumptions C90_chown_partial.
Print Assumptions C90_chtimes_partial.
Print Assumptions C90_never_supported_refuted.
Print Assumptions C91_existing_partial.
Print Assumptions C91_lookup_error_ignored_refuted.
Print Assumptions C92_readlink_partial.
Print Assumptions C93_remove_partial.
Print Assumptions C93_remove_link_refuted.
Print Assumptions C94_existing_refuted.
Print Assumptions C94_nested_refuted.
Print Assumptions C94_single_partial.
Print Assumptions C94_makes_directory_partial.
