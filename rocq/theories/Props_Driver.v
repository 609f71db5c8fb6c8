(** * Property theorems C43-C57 (statements; proofs in GoPathProofs and DriverProofs 2 to 11).

    [im] is any file system implementation, [d] any mounted driver (mount flags and working
    directory), [s] any state.  [run_op im wm d fuel o s] runs the driver operation [o]: it
    returns ([Done], with the error or None), panics ([Crash]) or is still running when
    recursion deeper than [fuel] is needed ([Spin]).  [wm = AsIs] is the code; the other
    modes repair the handle wrapper (see Driver.v). *)
From Coq Require Import String.
From Verif Require Import GoBase ListZ Errors Flags GoPath Spec_Path GoPathProofs BlockCache Spec_BlockCache BlockCacheProofs
  BlockCacheProofs2 BasicStream Spec_BasicStream BasicStreamProofs Driver Spec_Driver DriverProofs DriverProofs2 DriverProofs3 DriverProofs4
  DriverProofs5 DriverProofs6 DriverProofs7 DriverProofs8 DriverProofs9 DriverProofs10 DriverProofs11 LstatAny.

Definition demo : drv := mkDrv MountFlagsAllowAll (B "/").
Definition demo_ro : drv := mkDrv MountFlagsAllowRead (B "/").
(* a small tree: a file, a directory with a file, links *)
Definition tree : list (list Z * node) :=
  [(B "f", NFile (B "hello")); (B "d", NDir [(B "g", NFile (B "x")); (B "e", NDir [])]); (B "l", NLink (B "f"));
   (B "a", NLink (B "b")); (B "b", NLink (B "c")); (B "c", NLink (B "b")); (B "me", NLink (B "/me"))].

(** ** C43 *)
Theorem C43_normalize_canonical cwd p : canonical cwd ->
  canonical (normalize_path cwd p) /\ normalize_path cwd (normalize_path cwd p) = normalize_path cwd p.
Proof.
  intros Hc. split; [now apply normalize_canonical|]. destruct (normalize_canonical cwd p Hc) as (ns & Hns & ->). now apply norm_canon.
Qed.
Theorem C43_working_directory {F H} (im : impl F H) wm d fuel path s s' p :
  canonical (cwd d) -> chdir im wm d fuel path s = Done s' (inl p) -> canonical p.
Proof. intros. eapply chdir_canonical; eauto. Qed.
Theorem C43_absolute cwd p : exists r, walk_to [] (fields p) r /\ normalize_path cwd (47 :: p) = render r.
Proof. apply absolute_walk. Qed.
Example C43_example : canonical (B "/a/b") /\ normalize_path (B "/a/b") (B "..//./c/") = B "/a/c".
Proof.
  split; [|reflexivity]. exists [B "a"; B "b"]. split; [|reflexivity].
  repeat (constructor; [unfold proper; cbn; repeat split; try discriminate; intuition discriminate|]). constructor.
Qed.

(** ** C44 *)
(* a relative path that leads every directory to itself ("." or "a/..") is taken to be the root *)
Theorem C44_dot_is_root_refuted ns p : (forall q, p <> 47 :: q) -> stays p -> normalize_path (render ns) p = B "/".
Proof. apply relative_dot. Qed.
Theorem C44_relative_partial ns p : Forall proper ns -> (forall q, p <> 47 :: q) -> ~ stays p ->
  exists r, walk_to ns (fields p) r /\ normalize_path (render ns) p = render r.
Proof. apply relative_walk. Qed.
Example C44_example : stays (B "x/..") /\ normalize_path (B "/a") (B "x/..") = B "/" /\ ~ stays (B "../b") /\ normalize_path (B "/a/c") (B "../b") = B "/a/b".
Proof.
  split; [|split; [reflexivity|split; [|reflexivity]]].
  - intros dir. change (fields (B "x/..")) with [B "x"; B ".."]. econstructor; [apply st_down; discriminate|]. econstructor; [apply st_up|]. constructor.
  - intros Hs. specialize (Hs []). change (fields (B "../b")) with [B ".."; B "b"] in Hs. inversion Hs as [|? ? ? ? ? H1 H2]; subst.
    inversion H2 as [|? ? ? ? ? H3 H4]; subst. inversion H4; subst. inversion H3; subst. now destruct d1.
Qed.

(** ** C45 *)
(* as the code is, no operation ever returns nil, and the only calls that reach the
   implementation ask for the root directory *)
Theorem C45_nothing_succeeds_refuted {F H} (im : impl F H) d fuel o s :
  match run_op im AsIs d fuel o s with
  | Done s' v => v <> None /\ (refused im d o = v \/ v = Some (K ErrNotImplemented))
  | _ => True
  end /\
  Forall (fun e => exists id, e = EvAcquire id) (calls s (run_op im AsIs d fuel o s)).
Proof.
  assert (forall r : mres F (option kerr), ext only_acq s (end_state r) -> Forall (fun e => exists id, e = EvAcquire id) (calls s r)) as HE.
  { intros r He. apply ext_calls in He. eapply Forall_impl; [|exact He]. intros []; cbn; try tauto. eauto. }
  destruct (refused im d o) as [e|] eqn:ER.
  - rewrite (refused_op im AsIs d fuel o e s ER). split; [|apply HE, ext_refl]. split; [discriminate|auto].
  - pose proof (asis_op im d fuel o s ER) as HA. destruct o;
      try (destruct (run_op im AsIs d fuel _ s) as [s' v|s'|s']; [contradiction|split; [exact I|apply HE; exact HA]|split; [exact I|apply HE; exact HA]]).
    destruct (run_op im AsIs d fuel _ s) as [s' v|s'|s']; [destruct HA as [-> HA]|..]; (split; [|apply HE; exact HA]); try exact I. split; [discriminate|auto].
Qed.
(* with the wrapper repaired, operations on an entry of the root reach that entry *)
Theorem C45_stat_partial {F H} (im : impl F H) wm d f p n s fs2 rh h : wm <> AsIs -> proper n ->
  normalize_path (cwd d) p = render [n] -> entry_of im (d_fs s) n fs2 rh h ->
  exists s', stat_path im wm d (S (S (S (S f)))) p s = Done s' (inl (h_stat im (h_close im fs2 rh) h)).
Proof. intros. now apply (stat_entry im wm d H0 f p n s fs2 rh h). Qed.
Theorem C45_truncate_partial {F H} (im : impl F H) wm d f p n s fs2 rh h : wm <> AsIs -> proper n ->
  normalize_path (cwd d) p = render [n] -> entry_of im (d_fs s) n fs2 rh h -> is_dir (h_stat im (h_close im fs2 rh) h) = false ->
  exists s', truncate im wm d (S (S (S (S f)))) p s =
      Done s' (match snd (h_resize im (h_close im fs2 rh) h 0) with None => inl tt | Some e => inr e end) /\
    d_fs s' = h_close im (fst (h_resize im (h_close im fs2 rh) h 0)) h.
Proof. intros. now apply (truncate_entry im wm d H0 f p n s fs2 rh h). Qed.
Theorem C45_mkdir_partial {F H} (im : impl F H) wm d f p perm n s fs1 rh : wm <> AsIs -> proper n ->
  normalize_path (cwd d) p = render [n] -> i_root im (d_fs s) = (fs1, rh) ->
  is_dir (h_stat im fs1 rh) = true -> is_symlink (h_stat im fs1 rh) = false ->
  exists s', mkdir im wm d (S (S (S (S f)))) p perm s =
      Done s' (match snd (i_create im fs1 n rh (mkdir_mode perm)) with inl _ => inl tt | inr e => inr e end) /\
    d_fs s' = match i_create im fs1 n rh (mkdir_mode perm) with
              | (fs, inl h) => h_close im (h_close im fs h) rh
              | (fs, inr _) => h_close im fs rh
              end.
Proof. intros. now apply (mkdir_entry im wm d H0 f p perm n s fs1 rh). Qed.
Example C45_example :
  run_op (memfs 4) AsIs demo 9 (PStat (B "/f")) (start (NDir tree)) = Crash (mkD (NDir tree) 1 [EvAcquire 0]) /\
  entry_of (memfs 4) (NDir tree) (B "f") (NDir tree) [] [B "f"].
Proof. split; [reflexivity|]. exists (NDir tree). repeat split; reflexivity. Qed.

(** ** C46 *)
(* no operation on a path with two or more components ever returns, unless it is refused at once *)
Theorem C46_nested_never_returns_refuted {F H} (im : impl F H) wm d fuel o s ns n :
  ns <> [] -> Forall proper ns -> proper n -> normalize_path (cwd d) (op_path o) = render (ns ++ [n]) ->
  run_op im wm d fuel o s = match refused im d o with Some e => Done s (Some e) | None => Spin s end.
Proof.
  intros Hns _ Hn E. destruct (refused im d o) eqn:ER; [now apply refused_op|]. now apply (nested_op im wm d fuel o s ns n).
Qed.
Theorem C46_shallow_returns_partial {F H} (im : impl F H) wm d f o n s : wm <> AsIs -> plain o -> proper n ->
  normalize_path (cwd d) (op_path o) = render [n] -> (exists fs2 rh h, entry_of im (d_fs s) n fs2 rh h) ->
  forall s', run_op im wm d (S (S (S (S f)))) o s <> Spin s'.
Proof. intros Hwm Hp Hn E He. now apply (plain_returns im wm d Hwm f o n s). Qed.
(* [Spin] means just that: what does not spin is independent of the fuel *)
Theorem C46_fuel_irrelevant {F H} (im : impl F H) wm d f f' o s : (f <= f')%nat ->
  (forall s', run_op im wm d f o s <> Spin s') -> run_op im wm d f' o s = run_op im wm d f o s.
Proof. apply run_op_fuel. Qed.
Example C46_example :
  normalize_path (B "/") (op_path (PStat (B "d/g"))) = render ([B "d"] ++ [B "g"]) /\
  run_op (memfs 4) Full demo 50 (PStat (B "d/g")) (start (NDir tree)) = Spin (start (NDir tree)) /\
  exists s', run_op (memfs 4) Full demo 4 (PStat (B "d")) (start (NDir tree)) = Done s' None.
Proof. split; [reflexivity|]. split; [reflexivity|]. eexists. vm_compute. reflexivity. Qed.

(** ** C47 *)
(* a link that leads into a cycle it is not itself part of: never detected, never returns *)
Theorem C47_cycle_undetected_refuted bs wm d es (C : list Z -> Prop) n text p : 0 < bs < 2^62 -> wm <> AsIs -> small_links bs es ->
  proper n -> normalize_path (cwd d) p = render [n] -> lookup_in n es = Some (NLink text) ->
  C (normalize_path (cwd d) text) -> ~ C (render [n]) ->
  (forall p, C p -> exists text, at_path es p (Some (NLink text)) /\ C (normalize_path (cwd d) text)) ->
  forall fuel, exists s', stat_path (memfs bs) wm d fuel p (start (NDir es)) = Spin s'.
Proof.
  intros Hbs Hwm Hsm Hn Ep El H1 H2 HC fuel. destruct (following_spins bs Hbs wm d es Hwm Hsm C n text Hn El H1 H2 HC fuel (start (NDir es)) eq_refl) as [s' E].
  exists s'. unfold stat_path, norm, try, bind. rewrite Ep, E. reflexivity.
Qed.
(* every chain of links that ends or comes back to its first link is resolved correctly *)
Theorem C47_chain_partial bs wm d es n text p r : 0 < bs < 2^62 -> wm <> AsIs -> small_links bs es ->
  proper n -> normalize_path (cwd d) p = render [n] -> lookup_in n es = Some (NLink text) -> leads es (cwd d) (render [n]) (render [n]) r ->
  exists N s', match r with
  | ToObject q => exists x, at_path es q (Some x) /\ (forall t, x <> NLink t) /\
      stat_path (memfs bs) wm d N p (start (NDir es)) =
        Done s' (inl (mkFstat 0 0 1 (node_mode x) 0 0 0 (zlen (node_bytes x)) bs (ceil_div (zlen (node_bytes x)) bs) 0 0 0 0 0))
  | ToMissing => stat_path (memfs bs) wm d N p (start (NDir es)) = Done s' (inr (K ErrNotFound))
  | ToStart => stat_path (memfs bs) wm d N p (start (NDir es)) = Done s' (inr (K ErrLinkCycleDetected))
  end.
Proof.
  intros Hbs Hwm Hsm Hn Ep El Hl. destruct (following_ends bs Hbs wm d es Hwm Hsm n text r (start (NDir es)) Hn El Hl eq_refl) as (N & s1 & v & E & Hs1 & Hv).
  pose proof (leads_object d es _ _ _ Hl) as HO. unfold stat_path, norm. rewrite Ep. exists N. destruct r as [q| |].
  - destruct HO as (x & Hx & Hnl). destruct Hv as (id & h & -> & Hh).
    erewrite try_done by exact E. erewrite defer_done; [|apply meth_wm; exact Hwm|rewrite bind_stat by (apply meth_wm; exact Hwm); reflexivity].
    eexists. exists x. split; [exact Hx|]. split; [exact Hnl|]. cbn [x_h memfs h_stat]. unfold mem_stat. rewrite Hs1, (at_path_hof es q h x Hh Hx). reflexivity.
  - exists s1. cbn in Hv. subst v. erewrite try_err by exact E. reflexivity.
  - exists s1. cbn in Hv. subst v. erewrite try_err by exact E. reflexivity.
Qed.
Example C47_example : small_links 4 tree /\ leads tree (B "/") (B "/l") (B "/l") (ToObject (B "/f")) /\ leads tree (B "/") (B "/me") (B "/me") ToStart /\
  (let C p := p = B "/b" \/ p = B "/c" in
   C (normalize_path (B "/") (B "b")) /\ ~ C (render [B "a"]) /\
   (forall p, C p -> exists text, at_path tree p (Some (NLink text)) /\ C (normalize_path (B "/") text))).
Proof.
  split; [|split; [|split]].
  - intros n t E. unfold tree in E. cbn [lookup_in] in E. repeat (destruct (beqb _ n) in E; [try discriminate E; injection E as <-; reflexivity|]). discriminate E.
  - eapply ld_next; [apply (at_entry tree (B "l"))|reflexivity|discriminate|]. { unfold proper; cbn; repeat split; try discriminate; intuition discriminate. }
    apply (ld_object tree (B "/") (B "/l") (B "/f") (NFile (B "hello"))); [apply (at_entry tree (B "f"))|discriminate].
    unfold proper; cbn; repeat split; try discriminate; intuition discriminate.
  - eapply ld_start; [apply (at_entry tree (B "me"))|reflexivity]. unfold proper; cbn; repeat split; try discriminate; intuition discriminate.
  - split; [now left|]. split; [intros [X|X]; discriminate|]. intros p [-> | ->].
    + exists (B "c"). split; [apply (at_entry tree (B "b")); unfold proper; cbn; repeat split; try discriminate; intuition discriminate|now right].
    + exists (B "b"). split; [apply (at_entry tree (B "c")); unfold proper; cbn; repeat split; try discriminate; intuition discriminate|now left].
Qed.

(** ** C48 *)
(* Remove deletes on a mount without write permission (wrapper repaired; the file system is healthy) *)
Theorem C48_remove_refuted bs d f n es b : can_write (mount d) = false -> proper n -> lookup_in n es = Some (NFile b) ->
  let r := run_op (memfs bs) Full d (S (S (S (S f)))) (PRemove (render [n])) (start (NDir es)) in
  (exists s', r = Done s' None /\ d_fs s' = NDir (set_in n None es)) /\ exists id, In (EvUnlink id) (calls (start (NDir es)) r).
Proof.
  intros _ Hn El r. destruct (remove_ro bs d f n es (start (NDir es)) b Hn eq_refl El) as (s' & E & Hd & Hi). split; [exists s'; auto|exact Hi].
Qed.
Theorem C48_as_is_partial {F H} (im : impl F H) d fuel o s : Forall (fun e => ~ modifies e) (calls s (run_op im AsIs d fuel o s)).
Proof.
  destruct (C45_nothing_succeeds_refuted im d fuel o s) as [_ HE]. eapply Forall_impl; [|exact HE]. intros e (id & ->). cbn. tauto.
Qed.
Theorem C48_write_open_partial {F H} (im : impl F H) wm d fuel o s : can_write (mount d) = false ->
  match o with POpenFile _ fl _ => io_requires_write_perm fl = true | PCreate _ | PWriteFile _ _ _ => True | _ => False end ->
  run_op im wm d fuel o s = Done s (Some (K ErrReadOnlyFileSystem)).
Proof.
  intros Hw Ho. apply refused_op. destruct o; try contradiction; cbn; rewrite Hw; [|reflexivity|reflexivity]. now rewrite Ho.
Qed.
Theorem C48_looking_partial {F H} (im : impl F H) wm d fuel o s : looks o -> Forall (fun e => ~ modifies e) (calls s (run_op im wm d fuel o s)).
Proof. apply looks_quiet. Qed.
Example C48_example : can_write (mount demo_ro) = false /\ proper (B "f") /\ lookup_in (B "f") tree = Some (NFile (B "hello")) /\
  (* O_RDONLY|O_CREATE is not counted as a write either *)
  exists s', run_op (memfs 4) Full demo_ro 4 (POpenFile (B "new") (Z.lor O_RDONLY O_CREATE) 0) (start (NDir tree)) = Done s' None /\
    d_fs s' = NDir (tree ++ [(B "new", NFile [])]).
Proof.
  split; [reflexivity|]. split; [unfold proper; cbn; repeat split; try discriminate; intuition discriminate|]. split; [reflexivity|].
  eexists. split; [vm_compute; reflexivity|]. reflexivity.
Qed.

(** ** C49 *)
Theorem C49_create_existing_refuted bs wm d f n es b : 0 < bs < 2^62 -> wm <> AsIs -> proper n -> lookup_in n es = Some (NFile b) ->
  zlen b + bs < 2^63 -> can_write (mount d) = true ->
  exists s' fl, create (memfs bs) wm d (S (S (S (S f)))) (render [n]) (start (NDir es)) = Done s' (inl fl) /\ d_fs s' = NDir es.
Proof. intros Hbs Hwm Hn El Hb Hw. now apply (create_existing bs Hbs wm d Hwm f n es (start (NDir es)) b). Qed.
Theorem C49_leaves_alone_partial {F H} (im : impl F H) wm d fuel p s s1 x : following im wm d fuel (normalize_path (cwd d) p) s = Done s1 (inl x) ->
  Forall (fun e => ~ modifies e) (calls s (create im wm d fuel p s)).
Proof. apply create_leaves. Qed.
Example C49_example : exists s' fl, create (memfs 4) Embedded demo 4 (B "f") (start (NDir tree)) = Done s' (inl fl) /\ d_fs s' = NDir tree.
Proof. eexists. eexists. split; [vm_compute; reflexivity|]. reflexivity. Qed.

(** ** C50 *)
Theorem C50_pages {F H} (im : impl F H) f es s s1 ks : meth (fl_obj f) = true -> fl_last f = None -> fl_ptr f = 0 ->
  is_dir (h_stat im (d_fs s) (x_h (fl_obj f))) = true -> read_dir_obj im (fl_obj f) s = Done s1 (es, None) ->
  is_dir (h_stat im (d_fs s1) (x_h (fl_obj f))) = true -> ks <> [] -> Forall (fun k => 0 < k) ks ->
  exists out, read_pages im f ks s = Done s1 out /\
    (* together the pages are a first part of the listing, all of it once EOF was reported *)
    (exists rest, es = concat (map fst out) ++ rest /\ ((exists o, In (o, Some KEOF) out) -> rest = [])) /\
    (length es < length ks -> exists o, In (o, Some KEOF) out)%nat /\
    (* a page is non-empty and not longer than asked for, or the last one, empty with EOF *)
    (forall i o e, nth_error out i = Some (o, e) -> (e = None /\ 0 < zlen o <= nth i ks 0) \/ (e = Some KEOF /\ o = [] /\ S i = length out)).
Proof.
  intros Hm Hl Hp Hd E Hd1 Hne Hk. assert (f = reset f None 0) as Ef. { unfold reset. destruct f. cbn in *. now subst. }
  destruct (pages_mid im f es Hm ks s1 0 Hd1 ltac:(pose proof (zlen_nonneg es); lia) Hk) as (out & E1 & H1 & H2 & H3).
  exists out. split.
  - destruct ks as [|k ks]; [congruence|]. cbn [read_pages] in *. rewrite Ef. unfold bind at 1. rewrite (page_first im f es k s s1 Hm Hd E), Hd1. exact E1.
  - cbn [Z.to_nat skipn] in *. rewrite Nat.sub_0_r in H2. auto.
Qed.
(* the listing is the names the implementation gives, without "." and ".." *)
Theorem C50_names {F H} (im : impl F H) x s s1 es : names_right im -> read_dir_obj im x s = Done s1 (es, None) ->
  exists fs names, h_listdir im (d_fs s) (x_h x) = Some (fs, inl names) /\
    map de_name es = filter (fun n => if list_eq_dec Z.eq_dec n (B ".") then false else if list_eq_dec Z.eq_dec n (B "..") then false else true) names.
Proof.
  intros HN E. destruct (read_dir_obj_names im x s s1 es HN E) as (fs & names & H1 & H2). exists fs, names. split; [exact H1|]. rewrite H2.
  apply filter_ext. intros n. destruct (list_eq_dec Z.eq_dec n (B ".")) as [->|N1]; [reflexivity|]. destruct (list_eq_dec Z.eq_dec n (B "..")) as [->|N2]; [reflexivity|].
  rewrite (proj2 (is_dots_spec n) (conj N1 N2)). reflexivity.
Qed.
Theorem C50_same_sequence {F H} (im : impl F H) f n s :
  match fl_read_dir im f n s with
  | Done s' (f', es, e) =>
      fl_readdir im f n s = Done s' (f', match e with None => es | Some _ => [] end, e) /\
      fl_readdirnames im f n s = Done s' (f', match e with None => map de_name es | Some _ => [] end, e)
  | Crash s' => fl_readdir im f n s = Crash s' /\ fl_readdirnames im f n s = Crash s'
  | Spin s' => fl_readdir im f n s = Spin s' /\ fl_readdirnames im f n s = Spin s'
  end.
Proof.
  unfold fl_readdir, fl_readdirnames, bind. destruct (fl_read_dir im f n s) as [s' [[f' es] [[]|]]|s'|s']; auto.
Qed.
Example C50_example : let f := mkFile (mkStream 0 0 (new_cache 4 0) 0) (mkX 0 (B "/d") Full [B "d"]) (mem_stat 4 (NDir tree) [B "d"]) 0 None 0 in
  names_right (memfs 4) /\
  match read_pages (memfs 4) f [1; 5; 1] (start (NDir tree)) with
  | Done _ out => map (fun p => map de_name (fst p)) out = [[B "g"]; [B "e"]; []] /\ map snd out = [None; None; Some KEOF]
  | _ => False
  end.
Proof.
  split; [|vm_compute; auto]. intros fs n p fs' h. cbn. destruct (lookup fs (p ++ [n])); [|discriminate]. intros [= <- <-]. now rewrite last_last.
Qed.

(** ** C51 *)
Theorem C51_same_file a b c :
  (same_file (Some a) (Some b) = Ret true <-> f_ino a = f_ino b) /\
  (exists r, same_file (Some a) (Some b) = Ret r /\ same_file (Some b) (Some a) = Ret r) /\
  same_file (Some a) (Some a) = Ret true /\
  (same_file (Some a) (Some b) = Ret true -> same_file (Some b) (Some c) = Ret true -> same_file (Some a) (Some c) = Ret true).
Proof.
  unfold same_file. repeat split.
  - intros [= E]. lia.
  - intros ->. now rewrite Z.eqb_refl.
  - exists (f_ino a =? f_ino b). split; [reflexivity|]. now rewrite Z.eqb_sym.
  - now rewrite Z.eqb_refl.
  - intros [= E1] [= E2]. f_equal. lia.
Qed.
Example C51_example : same_file (Some (mem_stat 4 (NDir tree) [])) (Some (mem_stat 4 (NDir tree) [B "f"])) = Ret true.
Proof. reflexivity. Qed.

(** ** C52 *)
(* the object is resized to the number of blocks, taken as a number of bytes *)
Theorem C52_truncate_blocks_refuted {F H} (im : impl F H) x flags s0 s f n bs s' f' e :
  new_file im x flags s0 = Done s (inl f) -> f_bsize (h_stat im (d_fs s0) (x_h x)) = bs -> 0 < bs < 2^62 -> io_write flags = true ->
  0 <= n < 2^63 -> fl_truncate im f n s = Done s' (f', e) ->
  exists rest, calls s (fl_truncate im f n s) = EvResizeObj (x_id x) ((n + bs - 1) / bs) :: rest /\
    Forall (fun ev => forall i k, ev <> EvResizeObj i k) rest /\
    (2 <= bs -> 2 <= n -> (n + bs - 1) / bs < n).
Proof.
  intros EN Hb Hbs Hw Hn E. destruct (new_file_bpb im x flags s0 s f bs EN Hb Hbs) as (H1 & H2 & H3).
  destruct (truncate_calls im f n s s' f' e bs E H1 Hbs) as (rest & Hr & Hq); [now rewrite H3|lia|lia|]. exists rest. rewrite Hr, H2. split; [reflexivity|]. split.
  - eapply Forall_impl; [|exact Hq]. intros [] Hx i k; try contradiction; discriminate.
  - intros B2 N2. apply Z.div_lt_upper_bound; nia.
Qed.
Theorem C52_truncate_bytes_partial {F H} (im : impl F H) x flags s0 s f n s' f' e :
  new_file im x flags s0 = Done s (inl f) -> f_bsize (h_stat im (d_fs s0) (x_h x)) = 1 -> io_write flags = true ->
  0 <= n < 2^63 -> fl_truncate im f n s = Done s' (f', e) ->
  exists rest, calls s (fl_truncate im f n s) = EvResizeObj (x_id x) n :: rest.
Proof.
  intros EN Hb Hw Hn E. destruct (C52_truncate_blocks_refuted im x flags s0 s f n 1 s' f' e EN Hb ltac:(lia) Hw Hn E) as (rest & Hr & _).
  exists rest. rewrite Hr. now rewrite Z.div_1_r, Z.add_simpl_r.
Qed.
Example C52_example : exists s f s' f', new_file (memfs 4) (mkX 0 (B "/f") Full [B "f"]) O_RDWR (start (NDir tree)) = Done s (inl f) /\
  fl_truncate (memfs 4) f 5 s = Done s' (f', None) /\ lookup (d_fs s') [B "f"] = Some (NFile (B "he")).
Proof. do 4 eexists. split; [vm_compute; reflexivity|]. split; vm_compute; reflexivity. Qed.

(** ** C53 *)
(* RemoveAll never unlinks the directory itself *)
Theorem C53_top_remains_refuted {F H} (im : impl F H) wm d fuel path s s1 x :
  following im wm d fuel (normalize_path (cwd d) path) s = Done s1 (inl x) ->
  ~ In (EvUnlink (x_id x)) (calls s1 (remove_all im wm d fuel path s)).
Proof. apply remove_all_top. Qed.
(* everything below it is gone, nothing else *)
Theorem C53_descendants_partial bs d f n sub es : proper n -> lookup_in n es = Some (NDir sub) -> tree_ok (S (S (S (S f)))) (NDir sub) ->
  exists s', remove_all (memfs bs) Full d (S (S (S (S f)))) (render [n]) (start (NDir es)) = Done s' (inl tt) /\
    exists es', d_fs s' = NDir es' /\ lookup_in n es' = Some (NDir []) /\ forall m, m <> n -> lookup_in m es' = lookup_in m es.
Proof.
  intros Hn El Hok. destruct (remove_all_mem bs d f n sub es (start (NDir es)) Hn eq_refl El Hok) as (s' & E & Hd). exists s'. split; [exact E|].
  eexists. split; [exact Hd|]. split; [apply set_in_get; congruence|]. intros m Hm. now apply lookup_in_set.
Qed.
Example C53_example : tree_ok 4 (NDir [(B "g", NFile (B "x")); (B "e", NDir [])]) /\
  match remove_all (memfs 4) Full demo 4 (B "/d") (start (NDir tree)) with Done s' _ => lookup (d_fs s') [B "d"] = Some (NDir []) | _ => False end.
Proof.
  split; [|vm_compute; reflexivity]. cbn. split.
  - constructor; [intros [X|[]]; discriminate|]. constructor; [intros []|constructor].
  - assert (forall c, c <> 47 -> c <> 46 -> proper [c]) as HP.
    { intros c H1 H2. unfold proper. cbn. split; [discriminate|]. split; [intros [= X]; exact (H2 X)|]. split; [discriminate|]. intros [X|[]]. exact (H1 X). }
    constructor; [split; [apply HP; discriminate|exact I]|]. constructor; [split; [apply HP; discriminate|]|constructor]. split; constructor.
Qed.

(** ** C54 *)
(* Lstat never describes a symbolic link *)
Theorem C54_never_a_link_refuted {F H} (im : impl F H) wm d fuel p s s' st :
  lstat im wm d fuel p s = Done s' (inl st) -> is_symlink st = false.
Proof. apply lstat_nonlink. Qed.
Theorem C54_non_link_partial {F H} (im : impl F H) wm d f p n s fs2 rh h : wm <> AsIs -> proper n ->
  normalize_path (cwd d) p = render [n] -> entry_of im (d_fs s) n fs2 rh h ->
  exists s', lstat im wm d (S (S (S (S f)))) p s = Done s' (inl (h_stat im (h_close im fs2 rh) h)).
Proof. intros Hwm Hn E He. destruct (lstat_entry im wm d Hwm f p n s fs2 rh h Hn E He) as (s' & E1 & _). eauto. Qed.
(* For every path, in every state: what Lstat says is what the object the path names says of
   itself whenever that object is no link, and an error on the way to it is returned; when the
   path names a link, the answer is about the object at the end of the chain of links. *)
Theorem C54_any_path_partial {F H} (im : impl F H) wm d f p s s1 r : wm <> AsIs ->
  no_follow im wm d (S f) (normalize_path (cwd d) p) s = Done s1 r ->
  match r with
  | inr e => lstat im wm d (S f) p s = Done s1 (inr e)
  | inl x => is_symlink (h_stat im (d_fs s1) (x_h x)) = false ->
      exists s', lstat im wm d (S f) p s = Done s' (inl (h_stat im (d_fs s1) (x_h x)))
  end.
Proof. intros Hwm. now apply lstat_any. Qed.
Theorem C54_link_followed {F H} (im : impl F H) wm d f p s s' st : lstat im wm d f p s = Done s' (inl st) ->
  exists s1 x s2 y, no_follow im wm d f (normalize_path (cwd d) p) s = Done s1 (inl x) /\
    resolve_symlink im wm d f x s1 = Done s2 (inl y) /\ st = h_stat im (d_fs s2) (x_h y).
Proof. apply lstat_link. Qed.
Example C54_example : exists s', lstat (memfs 4) Full demo 9 (B "/l") (start (NDir tree)) = Done s' (inl (mem_stat 4 (NDir tree) [B "f"])).
Proof. eexists. vm_compute. reflexivity. Qed.

(** ** C55 *)
(* even as the code is, Lchown of the root returns and leaves its handle open *)
Theorem C55_lchown_leaks_refuted {F H} (im : impl F H) wm d f p u g s : normalize_path (cwd d) p = B "/" ->
  let r := run_op im wm d (S f) (PLchown p u g) s in
  (exists s' v, r = Done s' v) /\ acquisitions (d_next s) (calls s r) = 1%nat /\ releases (d_next s) (calls s r) = 0%nat.
Proof. apply lchown_leak. Qed.
(* Lstat closes the same handle twice *)
Theorem C55_lstat_closes_twice_refuted {F H} (im : impl F H) wm d f p n s fs2 rh h : wm <> AsIs -> proper n ->
  normalize_path (cwd d) p = render [n] -> entry_of im (d_fs s) n fs2 rh h ->
  releases (S (d_next s)) (calls s (lstat im wm d (S (S (S (S f)))) p s)) = 2%nat.
Proof. intros Hwm Hn E He. now destruct (lstat_entry im wm d Hwm f p n s fs2 rh h Hn E He) as (s' & _ & E2). Qed.
(* on file systems without symbolic links these operations close every handle exactly once *)
Theorem C55_balanced_partial {F H} (im : impl F H) wm d fuel o s s' r : (forall fs h, is_symlink (h_stat im fs h) = false) -> tidy o ->
  run_op im wm d fuel o s = Done s' r -> balanced (calls s (run_op im wm d fuel o s)).
Proof. intros HN Ht E. eapply tidy_balanced; eauto. Qed.
(* the in-memory file system with every link shown as a file *)
Definition nolinks (bs : Z) : impl node (list (list Z)) :=
  let m := memfs bs in
  mkImpl _ _ (i_root m) (i_get m) (i_create m) (i_link m) (i_has_symlinks m) (i_has_atime m) (i_has_mtime m)
    (fun t h => let st := mem_stat bs t h in
       mkFstat 0 0 1 (if stat_is_symlink (f_mode st) then 0 else f_mode st) 0 0 0 (f_size st) bs (f_nblocks st) 0 0 0 0 0)
    (h_resize m) (h_read m) (h_write m) (h_unlink m) (h_name m) (h_same m) (h_close m) (h_listdir m) (h_chmod m) (h_chown m) (h_chtimes m).
Example C55_example : (forall fs h, is_symlink (h_stat (nolinks 4) fs h) = false) /\ tidy (PReadDir (B "d")) /\
  match run_op (nolinks 4) Full demo 5 (PReadDir (B "d")) (start (NDir tree)) with Done s' r => r = None /\ length (d_log s') = 12%nat | _ => False end.
Proof.
  split; [|split; [exact I|vm_compute; auto]]. intros fs h. unfold is_symlink. cbn. destruct (stat_is_symlink (node_mode (mem_node fs h))) eqn:E; [reflexivity|exact E].
Qed.

(** ** C56 *)
Theorem C56_read_file_exact_partial {F H} (im : impl F H) wm d f p n s fs2 rh h bs nb blk : wm <> AsIs -> proper n ->
  normalize_path (cwd d) p = render [n] -> entry_of im (d_fs s) n fs2 rh h ->
  let fs := h_close im fs2 rh in let st := h_stat im fs h in
  reads_honestly im h bs nb blk -> 0 < bs < 2^62 -> f_bsize st = bs -> 0 <= f_nblocks st <= nb fs -> bs * f_nblocks st < 2^63 ->
  0 <= f_size st <= bs * f_nblocks st ->
  exists s' r, read_file im wm d (S (S (S (S f)))) p s = Done s' r /\
    (r = inl (slice 0 (f_size st) (storage_bytes blk fs (f_nblocks st))) \/ (exists e, r = inr (KWrap ErrIOFailed e))) /\
    ((forall fs i b, snd (h_read im fs h i b) = None) -> exists b, r = inl b).
Proof. intros Hwm Hn E He fs st. now apply (read_entry im wm d Hwm f p n s fs2 rh h bs nb blk). Qed.
(* a healthy file system returns the contents *)
Theorem C56_healthy_partial bs wm d f n es b : 0 < bs < 2^62 -> wm <> AsIs -> proper n -> lookup_in n es = Some (NFile b) -> zlen b + bs < 2^63 ->
  exists s', read_file (memfs bs) wm d (S (S (S (S f)))) (render [n]) (start (NDir es)) = Done s' (inl b).
Proof.
  intros Hbs Hwm Hn El Hb. destruct (read_file_mem bs Hbs wm d Hwm f n es (start (NDir es)) b Hn eq_refl El Hb) as (s' & _ & E). eauto.
Qed.
Example C56_example : exists s', read_file (memfs 4) Embedded demo 4 (B "f") (start (NDir tree)) = Done s' (inl (B "hello")).
Proof. eexists. vm_compute. reflexivity. Qed.

(** ** C57 *)
(* WriteFile on a healthy file system, exactly: data whose length is a multiple of the block
   size is refused and lost; of other data only the first ceil(length / block size) bytes arrive *)
Theorem C57_write_file_refuted bs wm d f n D perm es : 0 < bs < 2^62 -> wm <> AsIs -> proper n -> can_write (mount d) = true -> stat_is_dir perm = false ->
  (forall x, lookup_in n es = Some x -> exists b, x = NFile b /\ zlen b + bs < 2^63) -> zlen D + bs < 2^62 ->
  let N := (zlen D + bs - 1) / bs in
  exists s' es', d_fs s' = NDir es' /\ (forall m, m <> n -> lookup_in m es' = lookup_in m es) /\
  if zlen D mod bs =? 0 then
    write_file (memfs bs) wm d (S (S (S (S f)))) (render [n]) D perm (start (NDir es)) = Done s' (inr (K ErrArgumentOutOfRange)) /\
    lookup_in n es' = Some (NFile (zrepeat 0 N))
  else
    write_file (memfs bs) wm d (S (S (S (S f)))) (render [n]) D perm (start (NDir es)) = Done s' (inl tt) /\
    lookup_in n es' = Some (NFile (slice 0 N D)).
Proof. intros Hbs Hwm Hn Hw Hp Hold HD. exact (write_file_mem bs Hbs wm d Hwm f n D perm es (start (NDir es)) Hn eq_refl Hw Hp Hold HD). Qed.
(* a single byte, with blocks of at least two bytes, can be read back *)
Theorem C57_one_byte_partial bs wm d f n c perm es : 2 <= bs < 2^62 - 1 -> wm <> AsIs -> proper n -> can_write (mount d) = true -> stat_is_dir perm = false ->
  (forall x, lookup_in n es = Some x -> exists b, x = NFile b /\ zlen b + bs < 2^63) ->
  exists s' s'', write_file (memfs bs) wm d (S (S (S (S f)))) (render [n]) [c] perm (start (NDir es)) = Done s' (inl tt) /\
    read_file (memfs bs) wm d (S (S (S (S f)))) (render [n]) s' = Done s'' (inl [c]).
Proof.
  intros Hbs Hwm Hn Hw Hp Hold.
  destruct (C57_write_file_refuted bs wm d f n [c] perm es ltac:(lia) Hwm Hn Hw Hp Hold ltac:(change (zlen [c]) with 1; lia)) as (s' & es' & Hd & _ & HW).
  change (zlen [c]) with 1 in HW. rewrite Z.mod_1_l in HW by lia. cbn [Z.eqb] in HW. replace ((1 + bs - 1) / bs) with 1 in HW.
  2:{ replace (1 + bs - 1) with (1 * bs) by lia. now rewrite Z.div_mul by lia. }
  destruct HW as [E El]. change (slice 0 1 [c]) with [c] in El.
  destruct (read_file_mem bs ltac:(lia) wm d Hwm f n es' s' [c] Hn Hd El ltac:(change (zlen [c]) with 1; lia)) as (s'' & _ & E2). eauto.
Qed.
Example C57_example : (exists s', write_file (memfs 4) Full demo 4 (B "new") (B "hello") 0 (start (NDir tree)) = Done s' (inl tt) /\
    lookup (d_fs s') [B "new"] = Some (NFile (B "he"))) /\
  (exists s', write_file (memfs 4) Full demo 4 (B "f") (B "good") 0 (start (NDir tree)) = Done s' (inr (K ErrArgumentOutOfRange)) /\
    lookup (d_fs s') [B "f"] = Some (NFile [0])).
Proof. split; eexists; (split; [vm_compute; reflexivity|]); reflexivity. Qed.

Print Assumptions C43_normalize_canonical.
Print Assumptions C43_working_directory.
Print Assumptions C43_absolute.
Print Assumptions C44_dot_is_root_refuted.
Print Assumptions C44_relative_partial.
Print Assumptions C45_nothing_succeeds_refuted.
Print Assumptions C45_stat_partial.
Print Assumptions C45_truncate_partial.
Print Assumptions C45_mkdir_partial.
Print Assumptions C46_nested_never_returns_refuted.
Print Assumptions C46_shallow_returns_partial.
Print Assumptions C46_fuel_irrelevant.
Print Assumptions C47_cycle_undetected_refuted.
Print Assumptions C47_chain_partial.
Print Assumptions C48_remove_refuted.
Print Assumptions C48_as_is_partial.
Print Assumptions C48_write_open_partial.
Print Assumptions C48_looking_partial.
Print Assumptions C49_create_existing_refuted.
Print Assumptions C49_leaves_alone_partial.
Print Assumptions C50_pages.
Print Assumptions C50_names.
Print Assumptions C50_same_sequence.
Print Assumptions C51_same_file.
Print Assumptions C52_truncate_blocks_refuted.
Print Assumptions C52_truncate_bytes_partial.
Print Assumptions C53_top_remains_refuted.
Print Assumptions C53_descendants_partial.
Print Assumptions C54_never_a_link_refuted.
Print Assumptions C54_any_path_partial.
Print Assumptions C54_link_followed.
Print Assumptions C54_non_link_partial.
Print Assumptions C55_lchown_leaks_refuted.
Print Assumptions C55_lstat_closes_twice_refuted.
Print Assumptions C55_balanced_partial.
Print Assumptions C56_read_file_exact_partial.
Print Assumptions C56_healthy_partial.
Print Assumptions C57_write_file_refuted.
Print Assumptions C57_one_byte_partial.
