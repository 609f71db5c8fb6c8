(** * DriverProofs4: symbolic links at the root of the in-memory file system *)
From Verif Require Import GoBase ListZ Errors Flags GoPath Spec_Path GoPathProofs BlockCache Spec_BlockCache BlockCacheProofs
  BlockCacheProofs2 BasicStream Spec_BasicStream BasicStreamProofs Driver Spec_Driver DriverProofs DriverProofs2 DriverProofs3.

Section Pres.
Context {F H : Type} (im : impl F H) (x : xh H) (P : dst F -> Prop).
Hypothesis HP : forall s i b s' b' e, P s -> cb_fetch (obj_callbacks im x) s i b = (s', b', e) -> P s'.
Lemma contents_pres s : P s -> P (end_state (get_contents im x s)).
Proof.
  intros Hs. unfold get_contents. unfold bind at 1. pose proof (new_file_quiet im x O_RDONLY s eq_refl) as HN.
  destruct (new_file im x O_RDONLY s) as [s1 [f|e]|s1|s1]; cbn [end_state] in *; try (rewrite HN; exact Hs).
  destruct HN as (-> & Ex & Hc). unfold bind at 1, stat. destruct (meth x); [|exact Hs].
  destruct (_ <? 0); [exact Hs|]. unfold bind at 1, fl_read. rewrite Ex.
  destruct (s_read (obj_callbacks im x) s (fl_stream f) _) as [[[[[s2 st2] b2] n2] e2]| |] eqn:ER; cbn [end_state]; try exact Hs.
  destruct (s_read_pres (obj_callbacks im x) P HP _ _ _ _ _ _ _ _ Hs Hc ER) as [H1 H2].
  unfold bind, fl_close. cbn [with_stream fl_obj fl_stream]. rewrite Ex. unfold s_close, s_sync.
  destruct (flush_all (obj_callbacks im x) s2 (scache st2)) as [[[s3 c3] e3]| |] eqn:EF; cbn [end_state ret]; auto.
  apply flush_all_clean in EF as [-> _]; auto.
Qed.
End Pres.

Section Mem.
Variable bs : Z.
Hypothesis Hbs : 0 < bs < 2^62.
Notation fs := (memfs bs).
Definition mpad (b : list Z) : list Z := b ++ zrepeat 0 (ceil_div (zlen b) bs * bs - zlen b).
Lemma mpad_len b : zlen (mpad b) = ceil_div (zlen b) bs * bs.
Proof.
  unfold mpad, ceil_div. pose proof (cdiv_ge bs (zlen b) ltac:(lia)). rewrite zlen_app, zlen_repeat by lia. lia.
Qed.
Definition mnb (h : list (list Z)) (t : node) : Z := ceil_div (zlen (node_bytes (mem_node t h))) bs.
Definition mblk (h : list (list Z)) (t : node) (i : Z) : list Z := slice (i * bs) bs (mpad (node_bytes (mem_node t h))).
Lemma mblk_len h t i : 0 <= i < mnb h t -> zlen (mblk h t i) = bs.
Proof. intros Hi. unfold mnb, mblk in *. apply zlen_slice; try nia. rewrite mpad_len. nia. Qed.
Lemma mem_reads h : reads_honestly fs h bs (mnb h) (mblk h).
Proof.
  split; [intros; now apply mblk_len|]. intros t i buf t' b e Hi Hb [= <- <- <-].
  repeat (split; [auto; fail|]). split; [now apply mblk_len|reflexivity].
Qed.
Lemma mem_storage h t k : Z.of_nat k <= mnb h t ->
  storage_bytes (mblk h) t (Z.of_nat k) = slice 0 (Z.of_nat k * bs) (mpad (node_bytes (mem_node t h))).
Proof.
  intros Hk. pose proof (mpad_len (node_bytes (mem_node t h))) as HL. unfold mnb in Hk. induction k as [|k IH]; [reflexivity|].
  replace (Z.of_nat (S k)) with (Z.of_nat k + 1) by lia. rewrite storage_bytes_snoc by lia. rewrite IH by lia. unfold mblk.
  replace ((Z.of_nat k + 1) * bs) with (Z.of_nat k * bs + bs) by lia. rewrite (slice_split 0 (Z.of_nat k * bs) bs) by nia. now rewrite Z.add_0_l.
Qed.
Lemma mem_contents x s : meth x = true -> let b := node_bytes (mem_node (d_fs s) (x_h x)) in
  zlen b + bs < 2^63 ->
  exists s', get_contents fs x s = Done s' (inl b) /\ d_fs s' = d_fs s /\ quiet x s s'.
Proof.
  intros Hm b Hsz. pose proof (zlen_nonneg b) as Hz. pose proof (cdiv_ge bs (zlen b) ltac:(lia)) as C1.
  pose proof (cdiv_lt bs (zlen b) ltac:(lia)) as C2. pose proof (cdiv_nonneg bs (zlen b) ltac:(lia) ltac:(lia)) as C3.
  destruct (contents_spec fs x bs (mnb (x_h x)) (mblk (x_h x)) Hm (mem_reads _) Hbs s) as (s' & r & E & Hq & _ & _ & Hr & Hrel).
  - reflexivity.
  - cbn [h_stat memfs mem_stat f_nblocks]. unfold mnb, ceil_div. fold b. lia.
  - cbn [h_stat memfs mem_stat f_nblocks]. fold b. unfold ceil_div. lia.
  - cbn [h_stat memfs mem_stat f_nblocks f_size]. fold b. unfold ceil_div. lia.
  - destruct (Hrel ltac:(reflexivity)) as [b' ->]. exists s'. split; [|split; [|exact Hq]].
    + rewrite E. f_equal. destruct Hr as [Hr|[e Hr]]; [|discriminate]. rewrite Hr. f_equal. cbn [h_stat memfs mem_stat f_nblocks f_size]. fold b.
      pose proof (mem_storage (x_h x) (d_fs s) (Z.to_nat (ceil_div (zlen b) bs))) as HS. unfold ceil_div in *.
      rewrite Z2Nat.id in HS by lia. unfold mnb, ceil_div in HS. fold b in HS. rewrite HS by lia.
      rewrite slice_slice by lia. unfold mpad. rewrite slice_app_l by lia. now apply slice_full.
    + pose proof (contents_pres fs x (fun s1 => d_fs s1 = d_fs s) ltac:(intros ? ? ? ? ? ? Hd [= <- <- <-]; exact Hd) s eq_refl) as HD.
      rewrite E in HD. exact HD.
Qed.

(** ** Resolving shallow paths *)
Variables (wm : wmode) (d : drv) (es : list (list Z * node)).
Hypothesis Hwm : wm <> AsIs.
Hypothesis Hsmall : small_links bs es.
Let t := NDir es.
(* the handle for a path *)
Definition hof (p : list Z) (h : list (list Z)) : Prop := (p = render [] /\ h = []) \/ exists n, proper n /\ p = render [n] /\ h = [n].
Lemma mem_root_ok s : d_fs s = t -> root_ok fs (d_fs s).
Proof. intros ->. split; reflexivity. Qed.
Lemma mem_no_follow f p o s : d_fs s = t -> at_path es p o -> exists s', d_fs s' = t /\
  match o with
  | Some _ => exists id h, no_follow fs wm d (S (S (S f))) p s = Done s' (inl (mkX id p wm h)) /\ hof p h
  | None => no_follow fs wm d (S (S (S f))) p s = Done s' (inr (K ErrNotFound))
  end.
Proof.
  intros Hs Ha. destruct Ha as [|n Hn].
  - change (render []) with [47]. rewrite no_follow_root. eexists. split; [|do 2 eexists; split; [reflexivity|left; split; reflexivity]].
    cbn. exact Hs.
  - apply name_proper in Hn. rewrite (no_follow_one fs wm d Hwm f n s (mem_root_ok s Hs) Hn). unfold entry_res, entry_call.
    cbn [memfs i_root i_get fst snd h_close]. rewrite Hs. cbn [t lookup app].
    destruct (lookup_in n es) eqn:EL; [|eexists; split; [|reflexivity]; reflexivity].
    eexists. split; [|do 2 eexists; split; [reflexivity|]]; [reflexivity|]. right. exists n. split; [now apply name_proper|auto].
Qed.
Lemma hof_node p h o : hof p h -> at_path es p o -> match o with Some x => mem_node t h = x | None => True end.
Proof.
  intros Hh Ha. destruct Ha as [|n Hn].
  - destruct Hh as [[_ ->]|(m & Hm & E & ->)]; [reflexivity|]. exfalso. cbn in E. rewrite app_nil_r in E. destruct m; [now destruct Hm|discriminate].
  - destruct Hh as [[E ->]|(m & Hm & E & ->)].
    + exfalso. cbn in E. rewrite app_nil_r in E. destruct n; [now destruct Hn|discriminate].
    + cbn in E. rewrite !app_nil_r in E. injection E as ->. unfold mem_node. cbn. destruct (lookup_in m es); reflexivity.
Qed.
Lemma mem_is_symlink x s : is_symlink (h_stat fs (d_fs s) (x_h x)) = match mem_node (d_fs s) (x_h x) with NLink _ => true | _ => false end.
Proof. unfold is_symlink. cbn. destruct (mem_node (d_fs s) (x_h x)); reflexivity. Qed.

(* one step of the loop at a link *)
Lemma link_step o x s p text : d_fs s = t -> hof p (x_h x) -> meth x = true -> at_path es p (Some (NLink text)) ->
  exists s', d_fs s' = t /\ forall f,
    link_loop fs wm d (S f) o x s =
      (if beqb (normalize_path (cwd d) text) o then ret (inr (K ErrLinkCycleDetected))
       else y <-? no_follow fs wm d f (normalize_path (cwd d) text) ;; link_loop fs wm d f o y) s'.
Proof.
  intros Hs Hh Hm Ha. pose proof (hof_node p (x_h x) _ Hh Ha) as Hn. cbn in Hn.
  destruct (mem_contents x s Hm) as (s1 & E & Hd & _).
  { rewrite Hs, Hn. cbn [node_bytes]. inversion Ha as [|n Hp E1 E2]. eapply Hsmall. exact E2. }
  rewrite Hs, Hn in E. cbn [node_bytes] in E.
  exists (emit (h_close fs (d_fs s1) (x_h x)) (EvRelease (x_id x)) s1). split; [cbn; now rewrite Hd|]. intros f.
  rewrite link_loop_S, bind_stat by exact Hm. rewrite mem_is_symlink, Hs, Hn.
  erewrite bind_done by exact E. erewrite bind_done by now apply close_eq. reflexivity.
Qed.
Lemma meth_mk id p (h : list (list Z)) : meth (mkX id p wm h) = true.
Proof. unfold meth. cbn. now destruct wm. Qed.
Definition endv (r : chain_end) (v : xh (list (list Z)) + kerr) : Prop :=
  match r with
  | ToObject q => exists id h, v = inl (mkX id q wm h) /\ hof q h
  | ToMissing => v = inr (K ErrNotFound)
  | ToStart => v = inr (K ErrLinkCycleDetected)
  end.
Lemma at_path_fun p a b : at_path es p a -> at_path es p b -> a = b.
Proof.
  intros Ha Hb. assert (forall n, proper n -> render [] <> render [n]) as HN.
  { intros n (Hn & _) E. cbn in E. rewrite app_nil_r in E. destruct n; [congruence|discriminate]. }
  remember p as q eqn:Eq. rewrite Eq in Ha. symmetry in Eq.
  destruct Ha as [|n Hn]; destruct Hb as [|m Hm]; auto.
  - now apply HN in Eq.
  - symmetry in Eq. now apply HN in Eq.
  - cbn in Eq. rewrite !app_nil_r in Eq. injection Eq as ->. reflexivity.
Qed.
Lemma link_loop_more N N' o x s s' v : (N <= N')%nat -> link_loop fs wm d N o x s = Done s' v -> link_loop fs wm d N' o x s = Done s' v.
Proof.
  intros Hle E. pose proof (le_ge (fun f => link_loop fs wm d f o x) (fun f => proj2 (proj2 (proj2 (proj2 (le_resolution fs wm d f)))) o x) N N' Hle s) as HL.
  cbv beta in HL. rewrite E in HL. exact HL.
Qed.
Lemma no_follow_more N N' p s s' v : (N <= N')%nat -> no_follow fs wm d N p s = Done s' v -> no_follow fs wm d N' p s = Done s' v.
Proof.
  intros Hle E. pose proof (le_ge (fun f => no_follow fs wm d f p) (fun f => proj1 (le_resolution fs wm d f) p) N N' Hle s) as HL.
  cbv beta in HL. rewrite E in HL. exact HL.
Qed.
Lemma link_loop_ends o p r : leads es (cwd d) o p r -> forall x s, d_fs s = t -> x_path x = p -> x_mode x = wm -> hof p (x_h x) ->
  (forall q, at_path es p q -> q <> None) ->
  exists N s' v, link_loop fs wm d N o x s = Done s' v /\ d_fs s' = t /\ endv r v.
Proof.
  induction 1 as [p n Ha Hn|p Ha|p text Ha Hst|p text q r Ha Hq Hne Hl IH]; intros x s Hs Hp Hxm Hh Hex;
    assert (meth x = true) as Hm by (unfold meth; rewrite Hxm; now destruct wm).
  - exists 1%nat, s, (inl x). rewrite link_loop_S, bind_stat by exact Hm. rewrite mem_is_symlink, Hs.
    pose proof (hof_node p (x_h x) _ Hh Ha) as E. cbn in E. rewrite E. split; [destruct n; try reflexivity; now destruct (Hn target)|].
    split; [auto|]. exists (x_id x), (x_h x). split; [|exact Hh]. f_equal. rewrite <- Hp, <- Hxm. now destruct x.
  - now destruct (Hex None Ha).
  - destruct (link_step o x s p text Hs Hh Hm Ha) as (s' & Hs' & E). exists 1%nat, s', (inr (K ErrLinkCycleDetected)).
    rewrite E. rewrite Hst, beqb_refl. split; [reflexivity|]. split; [exact Hs'|reflexivity].
  - assert (exists ob, at_path es q ob) as [ob Hob] by (destruct Hl; eauto).
    destruct (link_step o x s p text Hs Hh Hm Ha) as (s1 & Hs1 & E). rewrite Hq, beqb_neq in E by exact Hne.
    destruct (mem_no_follow O q ob s1 Hs1 Hob) as (s2 & Hs2 & E2). destruct ob as [y|].
    + destruct E2 as (id & h & E2 & Hh2).
      destruct (IH (mkX id q wm h) s2 Hs2 eq_refl eq_refl Hh2) as (N & s3 & v & E3 & Hs3 & Hv).
      { intros ob' Ha' ->. pose proof (at_path_fun _ _ _ Ha' Hob). discriminate. }
      exists (S (N + 3)), s3, v. split; [|auto]. rewrite E. erewrite try_done.
      * apply (link_loop_more N (N + 3)%nat); [lia|exact E3].
      * apply (no_follow_more 3 (N + 3)%nat); [lia|exact E2].
    + assert (r = ToMissing) as -> by (destruct Hl as [? ? Hx ?|? Hx|? ? Hx ?|? ? ? ? Hx ? ? ?]; try reflexivity;
        pose proof (at_path_fun _ _ _ Hx Hob); discriminate).
      exists 4%nat, s2, (inr (K ErrNotFound)). split; [|split; [exact Hs2|reflexivity]]. rewrite E. now apply try_err.
Qed.
(* a set of links closed under following *)
Lemma link_loop_spins (C : list Z -> Prop) o : ~ C o ->
  (forall p, C p -> exists text, at_path es p (Some (NLink text)) /\ C (normalize_path (cwd d) text)) ->
  forall f x s, d_fs s = t -> C (x_path x) -> meth x = true -> hof (x_path x) (x_h x) -> exists s', link_loop fs wm d f o x s = Spin s'.
Proof.
  intros Ho HC. induction f as [|f IH]; intros x s Hs Hp Hm Hh; [eexists; reflexivity|].
  destruct (HC _ Hp) as (text & Ha & Hq). set (q := normalize_path (cwd d) text) in *.
  destruct (link_step o x s _ text Hs Hh Hm Ha) as (s1 & Hs1 & E). rewrite E. fold q.
  rewrite beqb_neq by (intros X; rewrite X in Hq; auto).
  destruct (HC _ Hq) as (text2 & Ha2 & _). destruct (mem_no_follow f q _ s1 Hs1 Ha2) as (s2 & Hs2 & id & h & E2 & Hh2).
  pose proof (le_ge (fun f => no_follow fs wm d f q) (fun f => proj1 (le_resolution fs wm d f) q) f (S (S (S f))) ltac:(lia) s1) as HL. cbv beta in HL.
  unfold try, bind. destruct (no_follow fs wm d f q s1) as [s3 v|s3|s3]; [| |eexists; reflexivity].
  - rewrite HL in E2. injection E2 as <- ->. apply IH; auto. apply meth_mk.
  - rewrite HL in E2. discriminate.
Qed.
(** ** Paths that name a link *)
Lemma at_path_hof p h x : hof p h -> at_path es p (Some x) -> mem_node t h = x.
Proof. intros Hh Ha. exact (hof_node p h _ Hh Ha). Qed.
Lemma follow_loop_more N N' x s s' v : (N <= N')%nat -> follow_loop fs wm d N x s = Done s' v -> follow_loop fs wm d N' x s = Done s' v.
Proof.
  intros Hle E. pose proof (le_ge (fun f => follow_loop fs wm d f x) (fun f => proj1 (proj2 (proj2 (le_resolution fs wm d f))) x) N N' Hle s) as HL.
  cbv beta in HL. rewrite E in HL. exact HL.
Qed.
Lemma following_more N N' p s s' v : (N <= N')%nat -> following fs wm d N p s = Done s' v -> following fs wm d N' p s = Done s' v.
Proof.
  intros Hle E. pose proof (le_ge (fun f => following fs wm d f p) (fun f => proj1 (proj2 (le_resolution fs wm d f)) p) N N' Hle s) as HL.
  cbv beta in HL. rewrite E in HL. exact HL.
Qed.
Lemma leads_object o p r : leads es (cwd d) o p r -> match r with ToObject q => exists x, at_path es q (Some x) /\ forall t, x <> NLink t | _ => True end.
Proof. induction 1; auto. eauto. Qed.
Lemma following_ends n text r s : proper n -> lookup_in n es = Some (NLink text) -> leads es (cwd d) (render [n]) (render [n]) r -> d_fs s = t ->
  exists N s' v, following fs wm d N (render [n]) s = Done s' v /\ d_fs s' = t /\ endv r v.
Proof.
  intros Hn El Hl Hs. assert (at_path es (render [n]) (Some (NLink text))) as Ha by (rewrite <- El; now constructor).
  destruct (mem_no_follow O _ _ s Hs Ha) as (s1 & Hs1 & id & h & E1 & Hh). set (x := mkX id (render [n]) wm h) in *.
  assert (meth x = true) as Hm by apply meth_mk.
  destruct (link_loop_ends _ _ _ Hl x s1 Hs1 eq_refl eq_refl Hh) as (N & s2 & v & E2 & Hs2 & Hv).
  { intros q Hq ->. pose proof (at_path_fun _ _ _ Hq Ha). discriminate. }
  assert (is_symlink (h_stat fs (d_fs s1) (x_h x)) = true) as Hsl.
  { rewrite mem_is_symlink, Hs1. cbn [x x_h]. now rewrite (at_path_hof _ _ _ Hh Ha). }
  exists (S (S (S (N + 3)))), (emit (h_close fs (d_fs s2) (x_h x)) (EvRelease (x_id x)) s2), v.
  split; [|split; [cbn; exact Hs2|exact Hv]].
  rewrite following_S. erewrite try_done by (apply (no_follow_more 3); [lia|exact E1]).
  rewrite follow_loop_S, bind_stat by exact Hm. rewrite Hsl.
  erewrite bind_done. 2:{ rewrite resolve_symlink_S, bind_stat by exact Hm. rewrite Hsl. cbn [negb]. apply (link_loop_more N); [lia|exact E2]. }
  erewrite bind_done by now apply close_eq. destruct v as [y|e]; [|reflexivity].
  pose proof (leads_object _ _ _ Hl) as HO. destruct r as [q| |]; try discriminate. destruct HO as (z & Hz & Hnl).
  destruct Hv as (id2 & h2 & [= ->] & Hh2). apply follow_loop_nolink; [apply meth_mk|]. rewrite mem_is_symlink. cbn. rewrite Hs2.
  rewrite (at_path_hof _ _ _ Hh2 Hz). destruct z; auto. now destruct (Hnl target).
Qed.
Lemma following_spins (C : list Z -> Prop) n text : proper n -> lookup_in n es = Some (NLink text) ->
  C (normalize_path (cwd d) text) -> ~ C (render [n]) ->
  (forall p, C p -> exists text, at_path es p (Some (NLink text)) /\ C (normalize_path (cwd d) text)) ->
  forall f s, d_fs s = t -> exists s', following fs wm d f (render [n]) s = Spin s'.
Proof.
  intros Hn El Hc Ho HC f s Hs. assert (at_path es (render [n]) (Some (NLink text))) as Ha by (rewrite <- El; now constructor).
  destruct f as [|f]; [eexists; reflexivity|]. rewrite following_S.
  destruct (mem_no_follow f _ _ s Hs Ha) as (s1 & Hs1 & id & h & E1 & Hh). set (x := mkX id (render [n]) wm h) in *.
  assert (meth x = true) as Hm by apply meth_mk.
  pose proof (le_ge (fun f => no_follow fs wm d f (render [n])) (fun f => proj1 (le_resolution fs wm d f) _) f (S (S (S f))) ltac:(lia) s) as HL. cbv beta in HL.
  unfold try, bind at 1. destruct (no_follow fs wm d f (render [n]) s) as [s3 v|s3|s3]; [| |eexists; reflexivity]; rewrite HL in E1; [|discriminate].
  injection E1 as -> ->. 
  assert (is_symlink (h_stat fs (d_fs s1) (x_h x)) = true) as Hsl.
  { rewrite mem_is_symlink, Hs1. cbn [x x_h]. now rewrite (at_path_hof _ _ _ Hh Ha). }
  destruct f as [|f]; [eexists; reflexivity|]. rewrite follow_loop_S, bind_stat by exact Hm. rewrite Hsl.
  destruct f as [|f]; [eexists; reflexivity|].
  rewrite resolve_symlink_S. unfold bind at 1. rewrite bind_stat by exact Hm. rewrite Hsl. cbn [negb]. change (x_path x) with (render [n]).
  destruct f as [|f]; [eexists; reflexivity|].
  destruct (link_step (render [n]) x s1 (render [n]) text Hs1 Hh Hm Ha) as (s4 & Hs4 & E4). rewrite E4.
  rewrite beqb_neq by (intros X; rewrite X in Hc; auto).
  destruct (HC _ Hc) as (text2 & Ha2 & _). destruct (mem_no_follow f _ _ s4 Hs4 Ha2) as (s5 & Hs5 & id5 & h5 & E5 & Hh5).
  pose proof (le_ge (fun f => no_follow fs wm d f (normalize_path (cwd d) text)) (fun f => proj1 (le_resolution fs wm d f) _) f (S (S (S f))) ltac:(lia) s4) as HL5. cbv beta in HL5.
  unfold try, bind at 1. destruct (no_follow fs wm d f _ s4) as [s6 v6|s6|s6]; [| |eexists; reflexivity]; rewrite HL5 in E5; [|discriminate].
  injection E5 as -> ->. destruct (link_loop_spins C (render [n]) Ho HC f (mkX id5 (normalize_path (cwd d) text) wm h5) s5 Hs5 Hc (meth_mk _ _ _) Hh5) as [s7 E7].
  rewrite E7. eexists; reflexivity.
Qed.
End Mem.
