(** * DriverProofs11: remaining facts for Props_Driver *)
From Coq Require Import String.
From Verif Require Import GoBase ListZ Errors Flags GoPath Spec_Path GoPathProofs BlockCache Spec_BlockCache BlockCacheProofs
  BlockCacheProofs2 BasicStream Spec_BasicStream BasicStreamProofs Driver Spec_Driver DriverProofs DriverProofs2 DriverProofs3 DriverProofs4 DriverProofs6 DriverProofs8 DriverProofs9.

(** ** Relative paths *)
Lemma stays_dot p : is_abs p = false -> stays p <-> clean p = str_dot.
Proof.
  intros Ha. rewrite (clean_dot_iff p Ha). unfold stays. split.
  - intros Hs. destruct (uw (O, []) (fields p)) as [k st] eqn:E.
    assert (forall s0, wk s0 (fields p) = st ++ skipn k s0) as HW.
    { intros s0. pose proof (wk_rel (fields p) O [] s0) as HR. cbn [app skipn] in HR. rewrite E in HR. exact HR. }
    assert (forall s0, wk s0 (fields p) = s0) as HI.
    { intros s0. specialize (Hs (rev s0)). apply wk_walk in Hs. apply (f_equal (@rev _)) in Hs. now rewrite !rev_involutive in Hs. }
    pose proof (HW []) as H0. rewrite HI, skipn_nil, app_nil_r in H0. subst st.
    pose proof (HW [[]]) as H1. rewrite HI in H1. cbn in H1. destruct k; [reflexivity|]. cbn in H1. rewrite skipn_nil in H1. discriminate.
  - intros E dir. rewrite <- (rev_involutive dir). apply wk_walk. pose proof (wk_rel (fields p) O [] (rev dir)) as HR. cbn [app skipn] in HR. rewrite E in HR.
    cbn [app skipn] in HR. now rewrite HR.
Qed.
Lemma relative_dot ns p : (forall q, p <> 47 :: q) -> stays p -> normalize_path (render ns) p = [47].
Proof.
  intros Hr Hs. apply normalize_dot. apply stays_dot; [|exact Hs]. destruct p as [|c p]; [reflexivity|]. cbn. unfold slash. destruct (c =? 47) eqn:E; [|reflexivity].
  assert (c = 47) as -> by lia. now destruct (Hr p).
Qed.
Lemma relative_walk ns p : Forall proper ns -> (forall q, p <> 47 :: q) -> ~ stays p ->
  exists r, walk_to ns (fields p) r /\ normalize_path (render ns) p = render r.
Proof.
  intros Hns Hr Hs. assert (is_abs p = false) as Ha.
  { destruct p as [|c p]; [reflexivity|]. cbn. unfold slash. destruct (c =? 47) eqn:E; [|reflexivity]. assert (c = 47) as -> by lia. now destruct (Hr p). }
  exists (rev (wk (rev ns) (fields p))). split; [|].
  - rewrite <- (rev_involutive ns) at 1. now apply wk_walk.
  - apply normalize_rel; [eapply Forall_impl; [|exact Hns]; intros; now apply name_proper|exact Ha|]. intros E. apply Hs. now apply stays_dot.
Qed.
Lemma absolute_walk w p : exists r, walk_to [] (fields p) r /\ normalize_path w (47 :: p) = render r.
Proof.
  exists (rev (wk [] (fields p))). split; [apply (wk_walk (fields p) [])  ; reflexivity|].
  unfold normalize_path. destruct (clean_rooted p) as [-> Hf]. destruct (render_abs (rev (wk [] (fields p)))) as (q & -> & _). reflexivity.
Qed.

(** ** Shallow paths, any implementation *)
Section Shallow2.
Context {F H : Type} (im : impl F H) (wm : wmode) (d : drv).
Hypothesis Hwm : wm <> AsIs.
Lemma entry_following f p n s fs2 rh h : proper n -> normalize_path (cwd d) p = render [n] -> entry_of im (d_fs s) n fs2 rh h ->
  following im wm d (S (S (S (S f)))) (norm d p) s =
    Done (mkD (h_close im fs2 rh) (S (S (d_next s))) (d_log s ++ [EvAcquire (d_next s); EvGet (d_next s) n; EvAcquire (S (d_next s)); EvRelease (d_next s)]))
         (inl (mkX (S (d_next s)) (render [n]) wm h)).
Proof.
  intros Hn Ep (fs1 & Er & Hd & Hl & Eg & Hl2). unfold norm. rewrite Ep. rewrite (following_one im wm d Hwm f n s).
  - unfold entry_res, entry_call. rewrite Er. cbn [fst snd]. rewrite Eg. reflexivity.
  - unfold root_ok. rewrite Er. auto.
  - now apply name_proper.
  - unfold entry_res, entry_call. rewrite Er. cbn [fst snd]. rewrite Eg. cbn [fst snd]. intros s' x [= <- <-]. exact Hl2.
Qed.
Lemma meth_wm id p (h : H) : meth (mkX id p wm h) = true.
Proof. unfold meth. cbn. now destruct wm. Qed.
Lemma stat_entry f p n s fs2 rh h : proper n -> normalize_path (cwd d) p = render [n] -> entry_of im (d_fs s) n fs2 rh h ->
  exists s', stat_path im wm d (S (S (S (S f)))) p s = Done s' (inl (h_stat im (h_close im fs2 rh) h)).
Proof.
  intros Hn Ep He. unfold stat_path. erewrite try_done by (eapply entry_following; eauto).
  erewrite defer_done; [eexists; reflexivity|apply meth_wm|]. rewrite bind_stat by apply meth_wm. reflexivity.
Qed.
Lemma truncate_entry f p n s fs2 rh h : proper n -> normalize_path (cwd d) p = render [n] -> entry_of im (d_fs s) n fs2 rh h ->
  is_dir (h_stat im (h_close im fs2 rh) h) = false ->
  exists s', truncate im wm d (S (S (S (S f)))) p s = Done s' (match snd (h_resize im (h_close im fs2 rh) h 0) with None => inl tt | Some e => inr e end) /\
    d_fs s' = h_close im (fst (h_resize im (h_close im fs2 rh) h 0)) h.
Proof.
  intros Hn Ep He Hd. unfold truncate. erewrite try_done by (eapply entry_following; eauto).
  destruct (h_resize im (h_close im fs2 rh) h 0) as [fs e] eqn:E.
  erewrite defer_done; [eexists; split; [reflexivity|]|apply meth_wm|].
  2:{ rewrite bind_stat by apply meth_wm. cbn [d_fs x_h]. rewrite Hd. unfold resize_obj. rewrite meth_wm. cbn [d_fs x_h]. rewrite E. reflexivity. }
  reflexivity.
Qed.
Lemma mkdir_entry f p perm n s fs1 rh : proper n -> normalize_path (cwd d) p = render [n] ->
  i_root im (d_fs s) = (fs1, rh) -> is_dir (h_stat im fs1 rh) = true -> is_symlink (h_stat im fs1 rh) = false ->
  exists s', mkdir im wm d (S (S (S (S f)))) p perm s = Done s' (match snd (i_create im fs1 n rh (mkdir_mode perm)) with inl _ => inl tt | inr e => inr e end) /\
    d_fs s' = match i_create im fs1 n rh (mkdir_mode perm) with (fs, inl h) => h_close im (h_close im fs h) rh | (fs, inr _) => h_close im fs rh end.
Proof.
  intros Hn Ep Er Hd Hl. unfold mkdir, norm. rewrite Ep, split_one by now apply name_proper.
  erewrite try_done. 2:{ apply following_root; [exact Hwm|]. unfold root_ok. rewrite Er. auto. }
  destruct (i_create im fs1 n rh (mkdir_mode perm)) as [fs r] eqn:E.
  assert (exists s', (st <- stat im (root_h im wm s);; (if negb (is_dir st) then ret (inr (K ErrNotADirectory)) else
     r <-? create_object im n (root_h im wm s) (mkdir_mode perm);; (_ <- close im (raw (fst r) (snd r));; ret (inl tt)))) (root_state im s)
     = Done s' (match r with inl _ => inl tt | inr e => inr e end) /\ d_fs s' = match r with inl h => h_close im fs h | inr _ => fs end) as (s' & E2 & H2).
  { rewrite bind_stat by now apply meth_root_h. unfold root_state, root_h. rewrite Er. cbn [fst snd d_fs x_h]. rewrite Hd. cbn [negb].
    unfold try, bind, create_object. rewrite meth_wm. cbn [d_fs x_h x_id]. rewrite E. destruct r as [h|e]; cbn; eexists; split; reflexivity. }
  erewrite defer_done; [eexists; split; [reflexivity|]|now apply meth_root_h|exact E2].
  cbn [emit d_fs root_h x_h]. rewrite Er, H2. cbn [snd]. destruct r; reflexivity.
Qed.
Lemma read_entry f p n s fs2 rh h (bs : Z) nb blk : proper n -> normalize_path (cwd d) p = render [n] -> entry_of im (d_fs s) n fs2 rh h ->
  let fs := h_close im fs2 rh in let st := h_stat im fs h in
  reads_honestly im h bs nb blk -> 0 < bs < 2^62 -> f_bsize st = bs -> 0 <= f_nblocks st <= nb fs -> bs * f_nblocks st < 2^63 ->
  0 <= f_size st <= bs * f_nblocks st ->
  exists s' r, read_file im wm d (S (S (S (S f)))) p s = Done s' r /\
    (r = inl (slice 0 (f_size st) (storage_bytes blk fs (f_nblocks st))) \/ (exists e, r = inr (KWrap ErrIOFailed e))) /\
    ((forall fs i b, snd (h_read im fs h i b) = None) -> exists b, r = inl b).
Proof.
  intros Hn Ep He fs st HR Hbs Hb Hnb Hf Hsz. unfold read_file. erewrite try_done by (eapply entry_following; eauto).
  set (x := mkX (S (d_next s)) (render [n]) wm h).
  match goal with |- context [deferring im x (get_contents im x) ?s0] => set (s1 := s0) end.
  destruct (contents_spec im x bs nb blk (meth_wm _ _ _) HR Hbs s1) as (s2 & r & E & _ & _ & _ & Hr & Hrel); auto.
  erewrite defer_done; [exists (emit (h_close im (d_fs s2) (x_h x)) (EvRelease (x_id x)) s2), r; split; [reflexivity|]|apply meth_wm|exact E].
  split; [exact Hr|exact Hrel].
Qed.
Definition nospin {A} (r : mres F A) : Prop := forall s, r <> Spin s.
Lemma ns_bind {A C} (m : M F A) (k : A -> M F C) s : nospin (m s) -> (forall a s', nospin (k a s')) -> nospin (bind m k s).
Proof. intros Hm Hk. unfold bind. destruct (m s) as [s' a|s'|s']; [apply Hk|discriminate|now destruct (Hm s')]. Qed.
Lemma ns_try {A C} (m : M F (A + kerr)) (k : A -> M F (C + kerr)) s : nospin (m s) -> (forall a s', nospin (k a s')) -> nospin (try m k s).
Proof. intros Hm Hk. apply ns_bind; [exact Hm|]. intros [a|e] s'; [apply Hk|discriminate]. Qed.
Lemma ns_close x s : nospin (close im x s). Proof. unfold close. destruct (meth x); discriminate. Qed.
Lemma ns_defer {A} x (m : M F A) s : nospin (m s) -> nospin (deferring im x m s).
Proof.
  intros Hm. unfold deferring. destruct (m s) as [s' a|s'|s']; [| |now destruct (Hm s')]; pose proof (ns_close x s') as Hc; destruct (close im x s') as [? ?|?|s3]; try discriminate; now destruct (Hc s3).
Qed.
Lemma ns_stat x s : nospin (stat im x s). Proof. unfold stat. destruct (meth x); discriminate. Qed.
Lemma ns_opt x g e s : nospin (@opt_call F H x g e s).
Proof. unfold opt_call. destruct (opt_meth x); [|discriminate]. destruct (g _ _) as [r|]; [|discriminate]. unfold call_err. destruct r; discriminate. Qed.
Lemma plain_returns f o n s : plain o -> proper n -> normalize_path (cwd d) (op_path o) = render [n] ->
  (exists fs2 rh h, entry_of im (d_fs s) n fs2 rh h) -> nospin (run_op im wm d (S (S (S (S f)))) o s).
Proof.
  intros Hp Hn Ep (fs2 & rh & h & He). assert (nospin (following im wm d (S (S (S (S f)))) (norm d (op_path o)) s)) as HF
    by (erewrite entry_following by eauto; discriminate).
  destruct o; try contradiction; cbn [run_op op_path] in *; apply ns_bind; try (intros; discriminate); try (apply ns_try; [exact HF|]; intros x s'); try apply ns_opt.
  - apply ns_defer, ns_bind; [apply ns_stat|discriminate].
  - apply ns_defer, ns_bind; [apply ns_stat|]. intros st s2. destruct (negb _); discriminate.
  - destruct He as (fs1 & Er & Hd & Hl & _). destruct (mkdir_entry f p perm n s fs1 rh) as (s' & E & _); auto. rewrite E. discriminate.
  - apply ns_defer, ns_bind; [apply ns_stat|]. intros st s2. destruct (is_dir st).
    + apply ns_try. { unfold list_dir. destruct (opt_meth x); [|discriminate]. destruct (h_listdir im _ _) as [[? ?]|]; discriminate. }
      intros names s3. destruct (_ >? 0); [discriminate|]. unfold unlink. destruct (meth x); [|discriminate]. unfold call_err. destruct (h_unlink _ _ _); discriminate.
    + destruct (negb _); [discriminate|]. unfold unlink. destruct (meth x); [|discriminate]. unfold call_err. destruct (h_unlink _ _ _); discriminate.
  - apply ns_defer, ns_bind; [apply ns_stat|]. intros st s2. destruct (is_dir st); [discriminate|]. unfold resize_obj. destruct (meth x); [|discriminate].
    unfold call_err. destruct (h_resize _ _ _ _); discriminate.
Qed.
Lemma lstat_entry f p n s fs2 rh h : proper n -> normalize_path (cwd d) p = render [n] -> entry_of im (d_fs s) n fs2 rh h ->
  exists s', lstat im wm d (S (S (S (S f)))) p s = Done s' (inl (h_stat im (h_close im fs2 rh) h)) /\
    releases (S (d_next s)) (calls s (lstat im wm d (S (S (S (S f)))) p s)) = 2%nat.
Proof.
  intros Hn Ep (fs1 & Er & Hd & Hl & Eg & Hl2). unfold lstat, norm. rewrite Ep.
  erewrite try_done. 2:{ rewrite (no_follow_one im wm d Hwm (S f) n s); [|unfold root_ok; rewrite Er; auto|now apply name_proper].
    unfold entry_res, entry_call. rewrite Er. cbn [fst snd]. rewrite Eg. reflexivity. }
  set (x := mkX (S (d_next s)) (render [n]) wm h). set (s1 := mkD _ _ _).
  erewrite defer_done. 2: apply meth_wm.
  2:{ erewrite try_done. 2:{ rewrite resolve_symlink_S, bind_stat by apply meth_wm. cbn [x x_h s1 d_fs]. cbn [fst]. rewrite Hl2. reflexivity. }
      erewrite defer_done; [reflexivity|apply meth_wm|]. rewrite bind_stat by apply meth_wm. reflexivity. }
  eexists. split; [reflexivity|]. unfold calls. cbn [end_state emit d_log s1]. rewrite <- !app_assoc, skipn_app, skipn_all, Nat.sub_diag. cbn [app skipn].
  unfold releases. cbn [filter length x_id x]. assert (Nat.eqb (d_next s) (S (d_next s)) = false) as -> by (apply Nat.eqb_neq; lia). rewrite Nat.eqb_refl. reflexivity.
Qed.
End Shallow2.
Lemma lchown_leak {F H} (im : impl F H) wm d f p u g s : normalize_path (cwd d) p = [47] ->
  let r := run_op im wm d (S f) (PLchown p u g) s in
  (exists s' v, r = Done s' v) /\ acquisitions (d_next s) (calls s r) = 1%nat /\ releases (d_next s) (calls s r) = 0%nat.
Proof.
  intros Ep r. unfold r. cbn [run_op]. unfold outc, lchown, norm. rewrite Ep.
  assert (exists s' v ev, bind (try (no_follow im wm d (S f) [47]) (fun obj => opt_call obj (fun fs h => option_map (fun g0 => g0 u g) (h_chown im fs h)) (EvChown (x_id obj) u g)))
     (fun r0 => ret match r0 with inl _ => None | inr e => Some e end) s = Done s' v /\ d_log s' = d_log s ++ EvAcquire (d_next s) :: ev /\ Forall (fun e => exists a b c, e = EvChown a b c) ev) as (s' & v & ev & E & Hl & He).
  { unfold bind at 1. erewrite try_done by apply no_follow_root. unfold opt_call. destruct (opt_meth _).
    - destruct (option_map _ _) as [[fs e]|].
      + unfold call_err. cbn [ret]. do 3 eexists. split; [reflexivity|]. split; [cbn; rewrite <- app_assoc; reflexivity|]. repeat constructor. eauto.
      + do 2 eexists. exists []. split; [reflexivity|]. split; [reflexivity|constructor].
    - do 2 eexists. exists []. split; [reflexivity|]. split; [reflexivity|constructor]. }
  rewrite E. split; [eauto|]. unfold calls. cbn [end_state]. rewrite Hl, skipn_app, skipn_all, Nat.sub_diag. cbn [app skipn].
  unfold acquisitions, releases. cbn [filter]. rewrite Nat.eqb_refl. cbn [length].
  assert (forall f0, (forall a b c, f0 (EvChown a b c) = false) -> filter f0 ev = []) as HF.
  { intros f0 Hf0. clear - He Hf0; induction He as [|e ev (a & b & c & ->) _ IH]; [reflexivity|]. cbn. rewrite Hf0. apply IH. }
  rewrite !HF by reflexivity. auto.
Qed.

Lemma looks_quiet {F H} (im : impl F H) wm d fuel o s : looks o -> Forall (fun e => ~ modifies e) (calls s (run_op im wm d fuel o s)).
Proof.
  intros Ho. apply ext_calls.
  assert (forall A (m : M F (A + kerr)), mok (fun e => ~ modifies e) m -> mok (fun e => ~ modifies e) (outc m)) as HO.
  { intros A m Hm. apply mok_bind; [exact Hm|]. intros. apply mok_ret. }
  destruct o; try contradiction; cbn [run_op];
    [apply HO, mok_stat_path|apply HO, mok_lstat|apply HO, mok_read_file|apply HO, mok_open|apply mok_bind; [apply mok_read_dir|intros; apply mok_ret]|apply HO, mok_chdir|apply HO, mok_readlink];
    try (intros; cbn; tauto); apply Ho.
Qed.
Lemma create_leaves {F H} (im : impl F H) wm d fuel p s s1 x : following im wm d fuel (normalize_path (cwd d) p) s = Done s1 (inl x) ->
  Forall (fun e => ~ modifies e) (calls s (create im wm d fuel p s)).
Proof.
  intros E. apply ext_calls.
  assert (ext (fun e => ~ modifies e) s s1) as H1.
  { pose proof (mok_following im wm d (fun e => ~ modifies e) ltac:(intros; cbn; tauto) ltac:(intros; cbn; tauto) ltac:(intros; cbn; tauto) ltac:(intros; cbn; tauto) fuel (normalize_path (cwd d) p) s) as HF.
    rewrite E in HF. exact HF. }
  unfold create, open_file, norm. cbn zeta. destruct (_ && _); [apply ext_refl|]. erewrite bind_done by exact E.
  eapply ext_trans; [exact H1|]. erewrite try_done by reflexivity. unfold bind, stat. destruct (meth x); [|apply ext_refl].
  destruct (negb _); [apply ext_refl|]. apply mok_new_file. reflexivity.
Qed.
Section MemMisc.
Variable bs : Z.
Hypothesis Hbs : 0 < bs < 2^62.
Variables (wm : wmode) (d : drv).
Hypothesis Hwm : wm <> AsIs.
Lemma create_existing f n es s b : proper n -> d_fs s = NDir es -> lookup_in n es = Some (NFile b) -> zlen b + bs < 2^63 -> can_write (mount d) = true ->
  exists s' fl, create (memfs bs) wm d (S (S (S (S f)))) (render [n]) s = Done s' (inl fl) /\ d_fs s' = NDir es.
Proof.
  intros Hn Hs El Hb Hw. pose proof (zlen_nonneg b) as Hz. unfold create, open_file, norm. rewrite norm_one by exact Hn. cbn zeta. rewrite Hw. rewrite andb_false_r.
  destruct (mem_following bs wm d Hwm f n es s Hn Hs ltac:(intros; congruence)) as (s1 & id & Hs1 & E). rewrite El in E.
  erewrite bind_done by exact E. set (x := mkX id (render [n]) wm [n]). assert (meth x = true) as Hm by (unfold x, meth; cbn; now destruct wm).
  erewrite try_done by reflexivity. rewrite bind_stat by exact Hm.
  assert (mem_node (d_fs s1) (x_h x) = NFile b) as EN by (rewrite Hs1; unfold mem_node; cbn; now rewrite El).
  rewrite mem_is_file, EN. cbn [negb]. unfold new_file. rewrite bind_stat by exact Hm. cbn [memfs h_stat]. unfold mem_stat. rewrite EN. cbn [node_bytes f_size f_bsize f_nblocks].
  assert (0 <= ceil_div (zlen b) bs * bs - zlen b < bs) as HC.
  { unfold ceil_div. pose proof (Z.div_mod (zlen b + bs - 1) bs ltac:(lia)). pose proof (Z.mod_pos_bound (zlen b + bs - 1) bs ltac:(lia)). nia. }
  assert (0 <= ceil_div (zlen b) bs < 2^63) as HC2 by (split; nia).
  rewrite !u64_small by lia. assert (new_fits bs (ceil_div (zlen b) bs) = true) as -> by (unfold new_fits; rewrite !i64_id by lia; lia). cbn [negb].
  unfold s_new, size, new_cache. cbn [bpb total].
  assert ((zlen b <? 0) || (zlen b >? i64 (bs * ceil_div (zlen b) bs)) = false) as ->. { rewrite i64_id by lia. apply orb_false_iff. split; lia. }
  change (io_truncate _) with false. cbv iota. do 2 eexists. split; [reflexivity|]. exact Hs1.
Qed.
End MemMisc.
Lemma remove_ro bs d f n es s b : proper n -> d_fs s = NDir es -> lookup_in n es = Some (NFile b) ->
  exists s', run_op (memfs bs) Full d (S (S (S (S f)))) (PRemove (render [n])) s = Done s' None /\ d_fs s' = NDir (set_in n None es) /\
    exists id, In (EvUnlink id) (calls s (run_op (memfs bs) Full d (S (S (S (S f)))) (PRemove (render [n])) s)).
Proof.
  intros Hn Hs El. cbn [run_op]. unfold outc, remove, norm. rewrite norm_one by exact Hn.
  destruct (mem_following bs Full d ltac:(discriminate) f n es s Hn Hs ltac:(intros; congruence)) as (s1 & id & Hs1 & E). rewrite El in E.
  assert (mem_node (d_fs s1) [n] = NFile b) as EN by (rewrite Hs1; unfold mem_node; cbn; now rewrite El).
  pose proof (mok_following (memfs bs) Full d (fun _ => True) (fun _ => I) (fun _ => I) (fun _ _ => I) (fun _ _ => I) (S (S (S (S f)))) (render [n]) s) as [(l & Hl & _) _]. rewrite E in Hl. cbn [end_state] in Hl.
  assert (deferring (memfs bs) (mkX id (render [n]) Full [n])
     (st <- stat (memfs bs) (mkX id (render [n]) Full [n]);; (if is_dir st then names <-? list_dir (memfs bs) (mkX id (render [n]) Full [n]);; (if zlen (remove_dots names) >? 0 then ret (inr (K ErrDirectoryNotEmpty)) else unlink (memfs bs) (mkX id (render [n]) Full [n]))
       else if negb (is_file st) then ret (inr (K ErrInvalidArgument)) else unlink (memfs bs) (mkX id (render [n]) Full [n]))) s1
     = Done (emit (NDir (set_in n None es)) (EvRelease id) (emit (NDir (set_in n None es)) (EvUnlink id) s1)) (inl tt)) as ED.
  { rewrite (defer_done (memfs bs) (mkX id (render [n]) Full [n]) _ s1 (emit (NDir (set_in n None es)) (EvUnlink id) s1) (inl tt)); [reflexivity|reflexivity|]. rewrite bind_stat by reflexivity. rewrite mem_is_dir, mem_is_file. cbn [x_h]. rewrite EN. cbn [negb].
    unfold unlink. cbn [meth x_mode x_h memfs h_unlink]. rewrite Hs1. cbn [lookup]. rewrite El. reflexivity. }
  unfold bind at 1. unfold bind at 2. erewrite !try_done by exact E. rewrite ED. eexists. split; [reflexivity|]. split; [reflexivity|].
  exists id. unfold calls. cbn [ret end_state emit d_log]. rewrite Hl, <- !app_assoc, skipn_app, skipn_all, Nat.sub_diag. cbn [app skipn].
  apply in_or_app. right. now left.
Qed.
