(** * DriverProofs12: Chmod, Chown, Chtimes, Link, Readlink, Remove, MkdirAll on entries of the root *)
From Coq Require Import String.
From Verif Require Import GoBase ListZ Errors Flags GoPath Spec_Path GoPathProofs BlockCache Spec_BlockCache BlockCacheProofs
  BlockCacheProofs2 BasicStream Spec_BasicStream BasicStreamProofs Driver Spec_Driver DriverProofs DriverProofs2 DriverProofs3 DriverProofs4 DriverProofs6 DriverProofs8 DriverProofs9 DriverProofs11.

(* the four calls made to find entry n of the root *)
Definition look_calls (k : nat) (n : list Z) : list event := [EvAcquire k; EvGet k n; EvAcquire (S k); EvRelease k].

Section Attr.
Context {F H : Type} (im : impl F H) (d : drv).
Lemma calls_app {A} (s s' : dst F) (a : A) l : d_log s' = d_log s ++ l -> calls s (Done s' a) = l.
Proof. intros E. unfold calls. cbn [end_state]. rewrite E. rewrite skipn_app, skipn_all, Nat.sub_diag. reflexivity. Qed.
(* an optional method of the object, called with the log entry ev *)
Lemma attr_entry f p n s fs2 rh h (g : F -> H -> option (F * option kerr)) (ev : nat -> event) : proper n -> normalize_path (cwd d) p = render [n] -> entry_of im (d_fs s) n fs2 rh h ->
  let fs := h_close im fs2 rh in
  let r := (obj <-? following im Full d (S (S (S (S f)))) (norm d p) ;; opt_call obj g (ev (x_id obj))) s in
  match g fs h with
  | None => exists s', r = Done s' (inr (K ErrNotImplemented)) /\ d_fs s' = fs /\ calls s r = look_calls (d_next s) n
  | Some (fs', e) => exists s', r = Done s' (match e with None => inl tt | Some e => inr e end) /\ d_fs s' = fs' /\
      calls s r = look_calls (d_next s) n ++ [ev (S (d_next s))]
  end.
Proof.
  intros Hn Ep He fs r. subst r. erewrite try_done by (eapply (entry_following im Full d ltac:(discriminate)); eauto).
  unfold opt_call. cbn [opt_meth x_mode d_fs x_h x_id]. change (h_close im fs2 rh) with fs. destruct (g fs h) as [[fs' e]|].
  - unfold call_err. eexists. split; [reflexivity|]. split; [reflexivity|]. apply calls_app. unfold emit. cbn [d_log]. now rewrite <- app_assoc.
  - eexists. split; [reflexivity|]. split; [reflexivity|]. now apply calls_app.
Qed.
Lemma attr_embedded f p n s fs2 rh h (g : F -> H -> option (F * option kerr)) (ev : nat -> event) : proper n -> normalize_path (cwd d) p = render [n] -> entry_of im (d_fs s) n fs2 rh h ->
  exists s', (obj <-? following im Embedded d (S (S (S (S f)))) (norm d p) ;; opt_call obj g (ev (x_id obj))) s = Done s' (inr (K ErrNotImplemented)).
Proof.
  intros Hn Ep He. erewrite try_done by (eapply (entry_following im Embedded d ltac:(discriminate)); eauto).
  unfold opt_call. cbn [opt_meth x_mode]. eexists. reflexivity.
Qed.
End Attr.

Section Link.
Context {F H : Type} (im : impl F H) (wm : wmode) (d : drv).
Hypothesis Hwm : wm <> AsIs.
Lemma link_existing f po pn o n s mk fs2 rh h fs3 rh' h' : i_link im = Some mk -> proper o -> proper n ->
  normalize_path (cwd d) po = render [o] -> normalize_path (cwd d) pn = render [n] ->
  entry_of im (d_fs s) o fs2 rh h -> entry_of im (h_close im fs2 rh) n fs3 rh' h' ->
  let r := link im wm d (S (S (S (S f)))) po pn s in
  exists s', r = Done s' (inr (K ErrExists)) /\ d_fs s' = h_close im fs3 rh' /\ calls s r = look_calls (d_next s) o ++ look_calls (S (S (d_next s))) n.
Proof.
  intros Em Ho Hn Eo En He He' r. subst r. unfold link. rewrite Em.
  erewrite try_done by (eapply (entry_following im wm d Hwm); [exact Ho|exact Eo|exact He]).
  erewrite bind_done.
  2:{ eapply (entry_following im wm d Hwm); [exact Hn|exact En|exact He']. }
  eexists. split; [reflexivity|]. split; [reflexivity|]. apply calls_app. cbn [d_log d_next]. now rewrite <- app_assoc.
Qed.
Lemma link_missing f po pn o n s mk fs2 rh h fs3 rh3 fs4 e fs5 rh5 : i_link im = Some mk -> proper o -> proper n ->
  normalize_path (cwd d) po = render [o] -> normalize_path (cwd d) pn = render [n] -> entry_of im (d_fs s) o fs2 rh h ->
  i_root im (h_close im fs2 rh) = (fs3, rh3) -> is_dir (h_stat im fs3 rh3) = true -> is_symlink (h_stat im fs3 rh3) = false ->
  i_get im fs3 n rh3 = (fs4, inr e) ->
  i_root im (h_close im fs4 rh3) = (fs5, rh5) -> is_dir (h_stat im fs5 rh5) = true -> is_symlink (h_stat im fs5 rh5) = false ->
  let r := link im wm d (S (S (S (S f)))) po pn s in
  exists s', r = Done s' (match snd (mk fs5 h rh5 n) with inl _ => inl tt | inr e => inr e end) /\ d_fs s' = fst (mk fs5 h rh5 n) /\
    In (EvLink (S (d_next s)) (S (S (S (d_next s)))) n) (calls s r).
Proof.
  intros Em Ho Hn Eo En He E3 Hd3 Hl3 E4 E5 Hd5 Hl5 r. subst r. unfold link. rewrite Em.
  erewrite try_done by (eapply (entry_following im wm d Hwm); [exact Ho|exact Eo|exact He]).
  match goal with |- context [bind _ _ ?s0] => set (s1 := s0) end.
  assert (Ef : following im wm d (S (S (S (S f)))) (norm d pn) s1 = Done (mkD (h_close im fs4 rh3) (S (d_next s1)) (d_log s1 ++ [EvAcquire (d_next s1); EvGet (d_next s1) n; EvRelease (d_next s1)])) (inr e)).
  { unfold norm. rewrite En. rewrite (following_one im wm d Hwm f n s1).
    - unfold entry_res, entry_call. unfold s1. cbn [d_fs d_next d_log]. rewrite E3. cbn [fst snd]. rewrite E4. reflexivity.
    - unfold root_ok, s1. cbn [d_fs]. rewrite E3. auto.
    - now apply name_proper.
    - unfold entry_res, entry_call. unfold s1. cbn [d_fs]. rewrite E3. cbn [fst snd]. rewrite E4. cbn [fst snd]. discriminate. }
  rewrite (bind_done _ _ _ _ _ Ef). cbv beta iota. unfold norm. rewrite En, split_one by now apply name_proper.
  erewrite try_done by (apply following_root; [exact Hwm|]; unfold root_ok; cbn [d_fs]; rewrite E5; auto).
  unfold root_state, root_h. cbn [d_fs d_next d_log x_h x_id]. rewrite E5. cbn [fst snd].
  destruct (mk fs5 h rh5 n) as [fs6 [h6|e6]]; cbn [fst snd fresh emit d_next d_log d_fs].
  - eexists. split; [reflexivity|]. split; [reflexivity|]. unfold s1. cbn [d_next d_log].
    erewrite calls_app; [|cbn [d_log]; rewrite <- !app_assoc; reflexivity]. cbn. auto 20.
  - eexists. split; [reflexivity|]. split; [reflexivity|]. unfold s1. cbn [d_next d_log].
    erewrite calls_app; [|cbn [d_log emit]; rewrite <- !app_assoc; reflexivity]. cbn. auto 20.
Qed.
Lemma mkdir_all_entry f p perm n s fs1 rh : proper n -> normalize_path (cwd d) p = render [n] ->
  i_root im (d_fs s) = (fs1, rh) -> is_dir (h_stat im fs1 rh) = true -> is_symlink (h_stat im fs1 rh) = false ->
  exists s', mkdir_all im wm d (S (S (S (S f)))) (S f) p perm s = Done s' (match snd (i_create im fs1 n rh (mkdir_mode perm)) with inl _ => inl tt | inr e => inr e end) /\
    d_fs s' = match i_create im fs1 n rh (mkdir_mode perm) with (fs, inl h) => h_close im (h_close im fs h) rh | (fs, inr _) => h_close im fs rh end.
Proof.
  intros Hn Ep Er Hd Hl. cbn [mkdir_all]. unfold norm. rewrite Ep, split_one by now apply name_proper.
  erewrite bind_done. 2:{ apply following_root; [exact Hwm|]. unfold root_ok. rewrite Er. auto. } cbv beta iota.
  destruct (i_create im fs1 n rh (mkdir_mode perm)) as [fs r] eqn:E.
  assert (exists s', (r <-? create_object im n (root_h im wm s) (mkdir_mode perm);; (_ <- close im (raw (fst r) (snd r));; ret (inl tt))) (root_state im s)
     = Done s' (match r with inl _ => inl tt | inr e => inr e end) /\ d_fs s' = match r with inl h => h_close im fs h | inr _ => fs end) as (s' & E2 & H2).
  { unfold root_state, root_h. rewrite Er. cbn [fst snd d_fs x_h].
    unfold try, bind, create_object. rewrite meth_wm by exact Hwm. cbn [d_fs x_h x_id]. rewrite E. destruct r as [h|e]; cbn; eexists; split; reflexivity. }
  erewrite defer_done; [eexists; split; [reflexivity|]|now apply meth_root_h|exact E2].
  cbn [emit d_fs root_h x_h]. rewrite Er, H2. cbn [snd]. destruct r; reflexivity.
Qed.
End Link.

Section MemOps.
Variable bs : Z.
Hypothesis Hbs : 0 < bs < 2^62.
Variables (wm : wmode) (d : drv).
Hypothesis Hwm : wm <> AsIs.
Let fs := memfs bs.
Lemma readlink_mem f n es s : proper n -> d_fs s = NDir es ->
  exists s', d_fs s' = NDir es /\
  match lookup_in n es with
  | None => readlink fs wm d (S (S (S f))) (render [n]) s = Done s' (inr (K ErrNotFound))
  | Some (NLink t) => zlen t + bs < 2^63 -> readlink fs wm d (S (S (S f))) (render [n]) s = Done s' (inl t)
  | Some _ => readlink fs wm d (S (S (S f))) (render [n]) s = Done s' (inr (K ErrInvalidArgument))
  end.
Proof.
  intros Hn Hs. unfold readlink. cbn [negb i_has_symlinks fs memfs]. unfold norm. rewrite norm_one by exact Hn.
  assert (Hnm : name n) by now apply name_proper.
  assert (E : no_follow fs wm d (S (S (S f))) (render [n]) s = entry_res fs wm n s) by (apply no_follow_one; [exact Hwm|rewrite Hs; split; reflexivity|exact Hnm]).
  unfold entry_res, entry_call in E. rewrite Hs in E. cbn [i_get i_root fs memfs fst snd lookup app h_close] in E.
  destruct (lookup_in n es) as [x|] eqn:El; cbn [fst snd] in E.
  2:{ eexists. split; [|apply (try_err _ _ _ _ _ E)]. reflexivity. }
  set (ob := mkX (S (d_next s)) (render [n]) wm [n]) in *. assert (Hm : meth ob = true) by (unfold ob, meth; cbn; now destruct wm).
  match type of E with _ = Done ?st _ => set (s1 := st) in * end.
  assert (Hs1 : d_fs s1 = NDir es) by reflexivity.
  assert (Hnode : mem_node (d_fs s1) (x_h ob) = x) by (rewrite Hs1; unfold mem_node; cbn [lookup x_h ob]; now rewrite El).
  assert (Hsym : is_symlink (h_stat fs (d_fs s1) (x_h ob)) = match x with NLink _ => true | _ => false end) by (rewrite <- Hnode; apply mem_is_symlink).
  destruct x as [b|t|sub].
  - eexists. split; [|erewrite (try_done _ _ _ _ _ E); apply defer_done; [exact Hm|]; rewrite bind_stat by exact Hm; rewrite Hsym; reflexivity]. reflexivity.
  - destruct (Z_lt_ge_dec (zlen t + bs) (2^63)) as [Hlt|Hge]; [|exists s1; split; [reflexivity|intros; lia]].
    destruct (mem_contents bs Hbs ob s1 Hm) as (s2 & E2 & Hs2 & _); [rewrite Hnode; exact Hlt|]. rewrite Hnode in E2. cbn [node_bytes] in E2.
    exists (emit (h_close fs (d_fs s2) (x_h ob)) (EvRelease (x_id ob)) s2). split; [cbn [d_fs emit h_close fs memfs]; now rewrite Hs2|]. intros _.
    erewrite (try_done _ _ _ _ _ E). apply defer_done; [exact Hm|]. rewrite bind_stat by exact Hm. rewrite Hsym. exact E2.
  - eexists. split; [|erewrite (try_done _ _ _ _ _ E); apply defer_done; [exact Hm|]; rewrite bind_stat by exact Hm; rewrite Hsym; reflexivity]. reflexivity.
Qed.
End MemOps.
Section RemoveMem.
Variables (bs : Z) (d : drv).
Notation fs := (memfs bs).
(* what Remove does to the tree once the object is found *)
Definition removed (t : node) (h : list (list Z)) : node * option kerr :=
  match mem_node t h with
  | NFile _ => (update t h None, None)
  | NLink _ => (t, Some (K ErrInvalidArgument))
  | NDir sub => if zlen (remove_dots (map fst sub)) >? 0 then (t, Some (K ErrDirectoryNotEmpty)) else (update t h None, None)
  end.
Lemma remove_found fuel p s s1 id q h : following fs Full d fuel (norm d p) s = Done s1 (inl (mkX id q Full h)) -> lookup (d_fs s1) h <> None ->
  exists s', remove fs Full d fuel p s = Done s' (match snd (removed (d_fs s1) h) with None => inl tt | Some e => inr e end) /\ d_fs s' = fst (removed (d_fs s1) h).
Proof.
  intros E Hl. unfold remove. erewrite try_done by exact E. set (x := mkX id q Full h).
  assert (HM : lookup (d_fs s1) h = Some (mem_node (d_fs s1) h)) by (unfold mem_node; destruct (lookup (d_fs s1) h); congruence).
  assert (exists s2, (st <- stat fs x;; (if is_dir st then names <-? list_dir fs x;; (if zlen (remove_dots names) >? 0 then ret (inr (K ErrDirectoryNotEmpty)) else unlink fs x)
       else if negb (is_file st) then ret (inr (K ErrInvalidArgument)) else unlink fs x)) s1
     = Done s2 (match snd (removed (d_fs s1) h) with None => inl tt | Some e => inr e end) /\ d_fs s2 = fst (removed (d_fs s1) h)) as (s2 & E2 & H2).
  { rewrite bind_stat by reflexivity. rewrite mem_is_dir, mem_is_file. cbn [x x_h]. unfold removed. destruct (mem_node (d_fs s1) h) as [b|t|sub] eqn:EN; cbn [negb].
    - unfold unlink. cbn [meth x_mode x_h x memfs h_unlink]. rewrite HM. eexists. split; reflexivity.
    - eexists. split; reflexivity.
    - unfold try, bind, list_dir. cbn [opt_meth x_mode x x_h memfs h_listdir]. rewrite EN.
      destruct (zlen (remove_dots (map fst sub)) >? 0).
      + eexists. split; reflexivity.
      + unfold unlink. cbn [meth x_mode x_h x memfs h_unlink emit d_fs]. rewrite HM. eexists. split; reflexivity. }
  erewrite defer_done; [|reflexivity|exact E2]. eexists. split; [reflexivity|]. cbn [emit d_fs memfs h_close]. exact H2.
Qed.
Lemma remove_entry f n es s x : proper n -> d_fs s = NDir es -> lookup_in n es = Some x -> (forall t, x <> NLink t) ->
  exists s' r, remove fs Full d (S (S (S (S f)))) (render [n]) s = Done s' r /\
  match x with
  | NDir sub => if zlen (remove_dots (map fst sub)) >? 0 then r = inr (K ErrDirectoryNotEmpty) /\ d_fs s' = NDir es
                else r = inl tt /\ d_fs s' = NDir (set_in n None es)
  | _ => r = inl tt /\ d_fs s' = NDir (set_in n None es)
  end.
Proof.
  intros Hn Hs El Hx.
  destruct (mem_following bs Full d ltac:(discriminate) f n es s Hn Hs ltac:(intros; congruence)) as (s1 & id & Hs1 & E). rewrite El in E.
  destruct (remove_found (S (S (S (S f)))) (render [n]) s s1 id (render [n]) [n]) as (s' & E' & Hs').
  - unfold norm. rewrite norm_one by exact Hn. exact E.
  - rewrite Hs1. cbn. rewrite El. discriminate.
  - exists s'. eexists. split; [exact E'|]. unfold removed, mem_node in *. rewrite Hs1 in *. cbn [lookup update] in *. rewrite El in *.
    destruct x as [b|t|sub]; [now split|now destruct (Hx t)|]. destruct (_ >? 0); now split.
Qed.
Hypothesis Hbs : 0 < bs < 2^62.
Lemma remove_link n text m es s b : small_links bs es -> proper n -> proper m -> lookup_in n es = Some (NLink text) -> d_fs s = NDir es ->
  lookup_in m es = Some (NFile b) -> leads es (cwd d) (render [n]) (render [n]) (ToObject (render [m])) ->
  exists N s', remove fs Full d N (render [n]) s = Done s' (inl tt) /\ d_fs s' = NDir (set_in m None es).
Proof.
  intros Hsm Hn Hm El Hs Em Hl.
  destruct (following_ends bs Hbs Full d es ltac:(discriminate) Hsm n text _ s Hn El Hl Hs) as (N & s1 & v & E & Hs1 & Hv).
  destruct Hv as (id & h & -> & Hh). exists N.
  assert (h = [m]) as ->.
  { destruct Hh as [[E1 _]|(m' & _ & E1 & ->)]; cbn in E1; rewrite ?app_nil_r in E1.
    - destruct Hm as (Hm0 & _). destruct m; [congruence|discriminate].
    - injection E1 as ->. reflexivity. }
  destruct (remove_found N (render [n]) s s1 id (render [m]) [m]) as (s' & E' & Hs').
  - unfold norm. rewrite norm_one by exact Hn. exact E.
  - rewrite Hs1. cbn. rewrite Em. discriminate.
  - exists s'. unfold removed, mem_node in *. rewrite Hs1 in *. cbn [lookup update] in *. rewrite Em in *. now split.
Qed.
End RemoveMem.
