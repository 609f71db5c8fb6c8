(** * DriverProofs14: working directory, creation of files, closing, guarantees to implementations. *)
From Verif Require Import GoBase ListZ Errors Flags GoPath Spec_Path GoPathProofs BlockCache BlockCacheProofs BasicStream Driver DriverFile Spec_Driver Spec_Driver2
  DriverProofs DriverProofs2 DriverProofs4 DriverProofs8 DriverProofs10 DriverProofs11 DriverProofs12 DriverProofs13.

(** ** The working directory stays canonical *)
Section Wd.
Context {F H : Type} (im : impl F H) (wm : wmode).
Lemma new_file_obj x flags s s' f : new_file im x flags s = Done s' (inl f) -> fl_obj f = x.
Proof.
  unfold new_file, bind, stat. destruct (meth x); [|discriminate]. destruct (negb (new_fits _ _)); [discriminate|]. destruct (s_new _ _ _ _ _) as [[[s1 [st|]] [e|]]| |]; try discriminate. now intros [= <- <-].
Qed.
Lemma new_file_stat x flags s s' f : new_file im x flags s = Done s' (inl f) -> fl_stat f = h_stat im (d_fs s) (x_h x).
Proof.
  unfold new_file, bind, stat. destruct (meth x); [|discriminate]. destruct (negb (new_fits _ _)); [discriminate|]. destruct (s_new _ _ _ _ _) as [[[s1 [st|]] [e|]]| |]; try discriminate. now intros [= <- <-].
Qed.
Lemma open_canonical d fuel p fl perm s s' f : canonical (cwd d) -> open_file im wm d fuel p fl perm s = Done s' (inl f) -> canonical (x_path (fl_obj f)).
Proof.
  intros Hc. unfold open_file. cbn zeta. destruct (_ && _); [discriminate|].
  destruct (goodx_resolution im wm d Hc fuel) as (_ & G & _).
  assert (forall q s, rooted q -> goodx (following im wm d fuel q s)) as Gf by (intros; now apply G).
  assert (rooted (norm d p)) as Hr by (apply canonical_rooted, normalize_canonical, Hc).
  unfold bind at 1. pose proof (Gf _ s Hr) as G1. destruct (following im wm d fuel (norm d p) s) as [s1 r|s1|s1]; try discriminate.
  match goal with |- try ?m ?k s1 = _ -> _ => assert (goodx (m s1)) as G2 end.
  { destruct r as [x|e0]; [exact G1|]. destruct (_ && _); [|exact I].
    destruct (split_path (norm d p)) as [pp bn] eqn:ES. apply (goodx_try _ _ (fun x => canonical (x_path x))).
    - apply Gf. replace pp with (fst (split_path (norm d p))) by now rewrite ES. now apply split_rooted.
    - intros x s2 Hx. apply (goodx_bindP _ _ (fun r => match r with inl y => canonical (x_path y) | inr _ => True end)).
      + unfold create_ext, try, bind. destruct (create_object im bn x perm s2) as [s3 [q|e]|s3|s3]; cbn; auto. now apply join_canonical.
      + intros r s3 Hr3. unfold bind. destruct (close im x s3); cbn; auto. }
  unfold try at 1, bind at 1.
  match type of G2 with goodx ?m => destruct m as [s2 [x|e]|s2|s2] end; try discriminate. cbn in G2.
  unfold bind, stat. destruct (meth x); [|discriminate]. destruct (negb _); [discriminate|]. intros E. apply new_file_obj in E. now rewrite E.
Qed.
Lemma session_canonical d0 d fs s : canonical (cwd d0) -> session im wm d0 d fs s -> canonical (cwd d) /\ mount d = mount d0 /\ Forall (fun f => canonical (x_path (fl_obj f))) fs.
Proof.
  intros Hc. induction 1 as [s|d fs s s' HS IH|d fs s fuel p fl perm s' f HS IH E|d fs s fuel p s' r HS IH E|d fs s f s' r HS IH Hin E].
  - auto.
  - auto.
  - destruct IH as (IH1 & IH2 & IH3). split; [exact IH1|]. split; [exact IH2|]. constructor; [|exact IH3]. eapply open_canonical; eauto.
  - destruct IH as (IH1 & IH2 & IH3). destruct r as [w|e]; [|auto]. cbn. split; [eapply (chdir_canonical im wm d IH1); eauto|auto].
  - destruct IH as (IH1 & IH2 & IH3). destruct r as [w|e]; [|auto]. cbn. split; [|auto].
    rewrite Forall_forall in IH3. specialize (IH3 f Hin). unfold fl_chdir, chdir_to, bind, stat in E. destruct (meth _); [|discriminate].
    destruct (negb _); [discriminate|]. injection E as _ <-. exact IH3.
Qed.
Hypothesis Hwm : wm <> AsIs.
Lemma chdir_entry d f p n s fs2 rh h : proper n -> normalize_path (cwd d) p = render [n] -> entry_of im (d_fs s) n fs2 rh h ->
  exists s', chdir im wm d (S (S (S (S f)))) p s = Done s' (if is_dir (h_stat im (h_close im fs2 rh) h) then inl (render [n]) else inr (K ErrNotADirectory)).
Proof.
  intros Hn Ep He. unfold chdir. erewrite try_done by (eapply entry_following; eauto).
  erewrite defer_done; [eexists; reflexivity|apply meth_wm; exact Hwm|]. unfold chdir_to. rewrite bind_stat by (apply meth_wm; exact Hwm). cbn [d_fs x_h x_path].
  destruct (is_dir _); reflexivity.
Qed.
End Wd.
Lemma chdir_link bs wm d n text m sub es s : 0 < bs < 2^62 -> wm <> AsIs -> small_links bs es -> proper n -> proper m ->
  lookup_in n es = Some (NLink text) -> d_fs s = NDir es -> lookup_in m es = Some (NDir sub) -> leads es (cwd d) (render [n]) (render [n]) (ToObject (render [m])) ->
  exists N s', chdir (memfs bs) wm d N (render [n]) s = Done s' (inl (render [m])) /\ d_fs s' = NDir es.
Proof.
  intros Hbs Hwm Hsm Hn Hm El Hs Em Hl.
  destruct (following_ends bs Hbs wm d es Hwm Hsm n text _ s Hn El Hl Hs) as (N & s1 & v & E & Hs1 & id & h & -> & Hh).
  assert (mem_node (NDir es) h = NDir sub) as EN by (eapply at_path_hof; [exact Hh|rewrite <- Em; now constructor]).
  exists N. unfold chdir, norm. rewrite norm_one by exact Hn. erewrite try_done by exact E.
  erewrite defer_done; [eexists; split; [reflexivity|]|unfold meth; cbn; now destruct wm|].
  2:{ unfold chdir_to. rewrite bind_stat by (unfold meth; cbn; now destruct wm). unfold is_dir. cbn [memfs h_stat mem_stat f_mode x_h]. rewrite Hs1, EN. reflexivity. }
  cbn. exact Hs1.
Qed.

(** ** Creation of files *)
Section Create.
Context {F H : Type} (im : impl F H) (wm : wmode) (d : drv).
Definition nocreate (e : event) : Prop := match e with EvCreate _ _ _ => False | _ => True end.
Lemma creations_app l1 l2 : creations (l1 ++ l2) = (creations l1 + creations l2)%nat.
Proof. unfold creations. now rewrite filter_app, app_length. Qed.
Lemma creations_none l : Forall nocreate l -> creations l = 0%nat.
Proof. induction 1 as [|e l He _ IH]; [reflexivity|]. unfold creations in *. destruct e; cbn in *; auto. destruct He. Qed.
Definition mc {A} (k : nat) (m : M F A) : Prop := forall s, exists l, d_log (end_state (m s)) = d_log s ++ l /\ (creations l <= k)%nat.
Lemma mc_mok {A} (m : M F A) : mok nocreate m -> mc 0 m.
Proof. intros Hm s. destruct (Hm s) as [(l & E & Hl) _]. exists l. split; [exact E|]. rewrite creations_none by exact Hl. lia. Qed.
Lemma mc_bind {A C} (m : M F A) (k : A -> M F C) a b : mc a m -> (forall x, mc b (k x)) -> mc (a + b) (bind m k).
Proof.
  intros Hm Hk s. unfold bind. destruct (Hm s) as (l & E & Hl). destruct (m s) as [s1 x|s1|s1]; cbn [end_state] in *; try (exists l; split; [exact E|lia]).
  destruct (Hk x s1) as (l2 & E2 & Hl2). exists (l ++ l2). rewrite E2, E, app_assoc. split; [reflexivity|]. rewrite creations_app. lia.
Qed.
Lemma mc_weak {A} (m : M F A) a b : (a <= b)%nat -> mc a m -> mc b m.
Proof. intros Hab Hm s. destruct (Hm s) as (l & E & Hl). exists l. split; [exact E|lia]. Qed.
Lemma mc_try {A C} (m : M F (A + kerr)) (k : A -> M F (C + kerr)) a b : mc a m -> (forall x, mc b (k x)) -> mc (a + b) (try m k).
Proof. intros Hm Hk. apply mc_bind; [exact Hm|]. intros [x|e]; [apply Hk|]. apply (mc_weak _ 0); [lia|]. apply mc_mok, mok_ret. Qed.
Lemma mc_create n x md : mc 1 (create_object im n x md).
Proof.
  intros s. unfold create_object. destruct (meth x).
  - destruct (i_create im _ _ _ _) as [fs [h|e]]; cbn; [exists [EvCreate (x_id x) n md; EvAcquire (d_next s)]; rewrite <- app_assoc|exists [EvCreate (x_id x) n md]]; split; reflexivity || (cbn; lia).
  - exists []. rewrite app_nil_r. split; [reflexivity|cbn; lia].
Qed.
Lemma nocreate_base : (forall i, nocreate (EvAcquire i)) /\ (forall i, nocreate (EvRelease i)) /\ (forall i n, nocreate (EvGet i n)) /\ (forall i n, nocreate (EvRead i n)) /\ (forall i, nocreate (EvList i)) /\ (forall i n, nocreate (EvResizeObj i n)) /\ (forall i n b, nocreate (EvWrite i n b)).
Proof. repeat split. Qed.
Lemma open_creates_once fuel p fl perm : mc 1 (open_file im wm d fuel p fl perm).
Proof.
  destruct nocreate_base as (Q1 & Q2 & Q3 & Q4 & Q5 & Q6 & Q7). assert (forall q, mc 0 (following im wm d fuel q)) as Hf by (intros; apply mc_mok, mok_following; auto).
  unfold open_file. cbn zeta. destruct (_ && _); [apply (mc_weak _ 0); [lia|]; apply mc_mok, mok_ret|].
  change 1%nat with (0 + (1 + 0))%nat. apply mc_bind; [apply Hf|]. intros r. apply mc_try.
  - assert (forall v, mc 1 (@ret F (xh H + kerr) v)) as HR by (intros v; apply (mc_weak _ 0); [lia|]; apply mc_mok, mok_ret).
    destruct r as [x|e]; [apply HR|]. destruct (_ && _); [|apply HR]. destruct (split_path _) as [pp bn].
    change 1%nat with (0 + (1 + 0))%nat. apply mc_try; [apply Hf|]. intros x. apply mc_bind.
    + unfold create_ext. change 1%nat with (1 + 0)%nat. apply mc_try; [apply mc_create|]. intros. apply mc_mok, mok_ret.
    + intros o. apply mc_mok, mok_bind; [apply mok_close; auto|intros; apply mok_ret].
  - intros x. apply mc_mok, mok_stat_bind. intros st. destruct (negb _); [apply mok_ret|apply mok_new_file_trunc; auto].
Qed.
Lemma write_creates_once fuel p b perm : mc 1 (write_file im wm d fuel p b perm).
Proof.
  destruct nocreate_base as (Q1 & Q2 & Q3 & Q4 & Q5 & Q6 & Q7). unfold write_file. change 1%nat with (1 + 0)%nat. apply mc_try; [apply open_creates_once|].
  intros f. apply mc_mok, mok_bind; [apply mok_fl_write; auto|]. intros [[f' n] e]. apply mok_bind; [apply mok_fl_close; auto|]. intros. apply mok_ret.
Qed.
(* if the path resolves, or fails in another way than ErrNotFound, nothing is created *)
Lemma open_no_create fuel p fl perm s : (forall s1 e, following im wm d fuel (norm d p) s = Done s1 (inr e) -> kerr_is e ErrNotFound = false) ->
  ext nocreate s (end_state (open_file im wm d fuel p fl perm s)).
Proof.
  intros HN. destruct nocreate_base as (Q1 & Q2 & Q3 & Q4 & Q5 & Q6 & Q7). unfold open_file. cbn zeta. destruct (_ && _); [apply ext_refl|].
  pose proof (mok_following im wm d nocreate Q1 Q2 Q3 Q4 fuel (norm d p) s) as HF. unfold bind at 1.
  destruct (following im wm d fuel (norm d p) s) as [s1 r|s1|s1]; cbn [end_state] in *; try exact HF. eapply ext_trans; [exact HF|].
  assert (mok nocreate (obj <-? match r with inl o => ret (inl o) | inr e => ret (inr e) end;;
     (st <- stat im obj;; (if negb (is_file st) then ret (inr (K ErrIsADirectory)) else new_file im obj fl)))) as HM.
  { apply mok_try; [destruct r as [x|e]; apply mok_ret|]. intros x. apply mok_stat_bind. intros st. destruct (negb _); [apply mok_ret|apply mok_new_file_trunc; auto]. }
  destruct r as [x|e]; [exact (HM s1)|]. rewrite (HN s1 e eq_refl). exact (HM s1).
Qed.
End Create.
Lemma open_dir_perm bs wm d f n fl perm es s : 0 < bs < 2^62 -> wm <> AsIs -> proper n -> d_fs s = NDir es -> lookup_in n es = None -> can_write (mount d) = true ->
  io_create fl = true -> stat_is_dir perm = true ->
  exists s', open_file (memfs bs) wm d (S (S (S (S f)))) (render [n]) fl perm s = Done s' (inr (K ErrIsADirectory)) /\ d_fs s' = NDir (es ++ [(n, NDir [])]).
Proof.
  intros Hbs Hwm Hn Hs El Hw Hc Hp. unfold open_file. rewrite Hw, andb_false_r. unfold norm. rewrite norm_one by exact Hn. cbv zeta.
  destruct (mem_following bs wm d Hwm f n es s Hn Hs) as (s1 & id & Hs1 & E); [intros; congruence|]. rewrite El in E.
  erewrite bind_done by exact E. rewrite Hc. rewrite split_one by now apply name_proper.
  pose proof (following_root (memfs bs) wm d Hwm (S (S f)) s1 (mem_root_ok bs es s1 Hs1)) as ER.
  set (x := mkX (S (d_next s1)) (render [n]) wm [n]). set (es1 := es ++ [(n, NDir [])]).
  assert (meth x = true) as Hm by (unfold x, meth; cbn; now destruct wm).
  assert (exists s2, (p <-? following (memfs bs) wm d (S (S (S (S f)))) [47];; o <- create_ext (memfs bs) wm n p perm;; (_ <- close (memfs bs) p;; ret o)) s1 = Done s2 (inl x) /\ d_fs s2 = NDir es1) as (s2 & E2 & H2).
  { erewrite try_done by exact ER. unfold bind at 1, create_ext, try, bind at 1, create_object.
    rewrite (meth_root_h (memfs bs) wm Hwm s1). cbn [root_state root_h memfs i_create i_root fst snd d_fs x_h]. rewrite Hs1. cbn [mem_node lookup]. rewrite Hp.
    unfold mem_node. cbn [lookup update].
    unfold fresh, ret. cbn [emit d_next d_log root_state d_fs x_path root_h fst snd].
    assert (join [47] n = render [n]) as EJ by (change [47] with (render []); apply (join_name [] n); [constructor|now apply name_proper]).
    rewrite EJ. unfold bind. rewrite close_eq by (unfold meth; cbn; now destruct wm). eexists. split; [reflexivity|]. reflexivity. }
  erewrite try_done by exact E2. rewrite bind_stat by exact Hm. rewrite mem_is_file. unfold mem_node. rewrite H2. cbn [x x_h lookup es1].
  assert (lookup_in n es1 = Some (NDir [])) as El1 by (unfold es1; rewrite lookup_in_app, El; cbn; now rewrite beqb_refl).
  fold es1. rewrite El1. cbn [negb]. exists s2. split; [reflexivity|exact H2].
Qed.

(** ** Closing *)
Section Closing.
Context {F H : Type} (im : impl F H) (wm : wmode) (d : drv).
Lemma close_ext f s : ext io_only s (end_state (fl_close im f s)).
Proof.
  unfold fl_close, s_close. destruct (s_sync _ _ _) as [[[s1 st1] e1]| |] eqn:E; [|apply ext_refl|apply ext_refl].
  eapply (s_sync_pres3 (obj_callbacks im (fl_obj f)) (ext io_only s)); [| |apply ext_refl|exact E].
  - intros s0 i b s' b' e HE. cbn. destruct (h_read im _ _ _ _) as [[fs b1] e2]. intros [= <- <- <-]. eapply ext_trans; [exact HE|apply ext_emit; exact I].
  - intros s0 i b s' e HE. cbn. destruct (h_write im _ _ _ _) as [fs e2]. intros [= <- <-]. eapply ext_trans; [exact HE|apply ext_emit; exact I].
Qed.
Lemma close_io_only f s : Forall io_only (calls s (fl_close im f s)).
Proof. apply ext_calls, close_ext. Qed.
Lemma io_only_no_release l id : Forall io_only l -> releases id l = 0%nat.
Proof. unfold releases. induction 1 as [|e l He _ IH]; [reflexivity|]. destruct e; try destruct He; exact IH. Qed.
Lemma write_file_drops fuel p b perm s s1 f s2 f' n s3 r :
  open_file im wm d fuel p (Z.lor (Z.lor O_WRONLY O_CREATE) O_TRUNC) perm s = Done s1 (inl f) ->
  fl_write im f b s1 = Done s2 (f', n, None) -> fl_close im f' s2 = Done s3 r -> write_file im wm d fuel p b perm s = Done s3 (inl tt).
Proof. intros E1 E2 E3. unfold write_file. erewrite try_done by exact E1. erewrite bind_done by exact E2. cbv beta iota. erewrite bind_done by exact E3. reflexivity. Qed.

Hypothesis Hwm : wm <> AsIs.
Lemma open_entry f p n fl perm s fs2 rh h s' fl' : proper n -> normalize_path (cwd d) p = render [n] -> entry_of im (d_fs s) n fs2 rh h -> io_truncate fl = false ->
  open_file im wm d (S (S (S (S f)))) p fl perm s = Done s' (inl fl') ->
  d_log s' = d_log s ++ look_calls (d_next s) n /\ fl_obj fl' = mkX (S (d_next s)) (render [n]) wm h /\ fl_stat fl' = h_stat im (d_fs s') h.
Proof.
  intros Hn Ep He Ht. unfold open_file. cbv zeta. destruct (_ && _); [discriminate|]. erewrite bind_done by (eapply entry_following; eauto).
  erewrite try_done by reflexivity. rewrite bind_stat by (apply meth_wm; exact Hwm). destruct (negb _); [discriminate|].
  intros E. match type of E with new_file im ?x fl ?s1 = _ => pose proof (new_file_quiet im x fl s1 Ht) as HN; pose proof (new_file_stat im x fl s1 s' fl' E) as HS end.
  rewrite E in HN. destruct HN as (-> & Eo & _). rewrite Eo. split; [reflexivity|]. split; [reflexivity|]. rewrite HS. reflexivity.
Qed.
Lemma read_dir_crash f p n s fs2 rh h : proper n -> normalize_path (cwd d) p = render [n] -> entry_of im (d_fs s) n fs2 rh h ->
  (wm = Full -> h_listdir im (h_close im fs2 rh) h = None) -> exists s', read_dir im wm d (S (S (S (S f)))) p s = Crash s'.
Proof.
  intros Hn Ep He HL. unfold read_dir. erewrite bind_done by (eapply entry_following; eauto).
  cbv beta iota. match goal with |- exists s', deferring im ?x ?m ?q = _ => assert (m q = Crash q) as EC end.
  { unfold read_dir_obj, bind, list_dir, opt_meth. cbn [x_mode d_fs x_h]. destruct wm; [congruence|reflexivity|]. rewrite HL by reflexivity. reflexivity. }
  unfold deferring. rewrite EC. match goal with |- context [close im ?x ?q] => destruct (close im x q) end; eauto.
Qed.
Lemma mkdir_calls f p perm n s fs1 rh : proper n -> normalize_path (cwd d) p = render [n] ->
  i_root im (d_fs s) = (fs1, rh) -> is_dir (h_stat im fs1 rh) = true -> is_symlink (h_stat im fs1 rh) = false ->
  In (EvCreate (d_next s) n (mkdir_mode perm)) (calls s (mkdir im wm d (S (S (S (S f)))) p perm s)).
Proof.
  intros Hn Ep Er Hd Hl. unfold mkdir, norm. rewrite Ep, split_one by now apply name_proper.
  erewrite try_done. 2:{ apply following_root; [exact Hwm|]. unfold root_ok. rewrite Er. auto. }
  unfold deferring. rewrite bind_stat by now apply meth_root_h. unfold root_state, root_h. rewrite Er. cbn [fst snd d_fs x_h]. rewrite Hd. cbn [negb].
  unfold try, bind, create_object. rewrite meth_wm by exact Hwm. cbn [d_fs x_h x_id].
  destruct (i_create im fs1 n rh (mkdir_mode perm)) as [fs [h|e]]; cbn; rewrite ?close_eq by (apply meth_wm; exact Hwm); unfold calls; cbn [end_state emit d_log];
    rewrite <- !app_assoc, skipn_app, skipn_all, Nat.sub_diag; cbn; auto.
Qed.
Lemma missing_calls f p n s fs1 rh fs2 e : proper n -> normalize_path (cwd d) p = render [n] ->
  i_root im (d_fs s) = (fs1, rh) -> is_dir (h_stat im fs1 rh) = true -> is_symlink (h_stat im fs1 rh) = false -> i_get im fs1 n rh = (fs2, inr e) ->
  exists s', stat_path im wm d (S (S (S (S f)))) p s = Done s' (inr e) /\ d_log s' = d_log s ++ [EvAcquire (d_next s); EvGet (d_next s) n; EvRelease (d_next s)].
Proof.
  intros Hn Ep Er Hd Hl Eg. unfold stat_path, norm. rewrite Ep.
  erewrite try_err. 2:{ rewrite (following_one im wm d Hwm f n s).
    - unfold entry_res, entry_call. rewrite Er. cbn [fst snd]. rewrite Eg. reflexivity.
    - unfold root_ok. rewrite Er. auto.
    - now apply name_proper.
    - unfold entry_res, entry_call. rewrite Er. cbn [fst snd]. rewrite Eg. discriminate. }
  eexists. split; [reflexivity|]. reflexivity.
Qed.
End Closing.
