(** * DriverProofs16: ReadFile and Readlink on every path *)
From Verif Require Import GoBase ListZ Errors Flags GoPath Spec_Path GoPathProofs BlockCache Spec_BlockCache BlockCacheProofs
  BlockCacheProofs2 BasicStream Spec_BasicStream BasicStreamProofs Driver Spec_Driver Spec_Driver4 DriverProofs DriverProofs2 DriverProofs3 DriverProofs4 DriverProofs6 DriverProofs8 DriverProofs9 DriverProofs11 DriverProofs12.

Lemma storage_bytes_len {F} (blk : F -> Z -> list Z) fs bs n : 0 <= n -> (forall i, 0 <= i < n -> zlen (blk fs i) = bs) ->
  zlen (storage_bytes blk fs n) = bs * n.
Proof.
  intros Hn. rewrite <- (Z2Nat.id n Hn). induction (Z.to_nat n) as [|k IH]; intros HL; [cbn; lia|].
  replace (Z.of_nat (S k)) with (Z.of_nat k + 1) by lia. rewrite storage_bytes_snoc by lia.
  rewrite zlen_app, IH, HL by (intros; try apply HL; lia). lia.
Qed.
Section Gen.
Context {F H : Type} (im : impl F H) (wm : wmode) (d : drv).
Lemma try_inv {A C} (m : M F (A + kerr)) (k : A -> M F (C + kerr)) s s' r : try m k s = Done s' r ->
  (exists s1 a, m s = Done s1 (inl a) /\ k a s1 = Done s' r) \/ (exists e, m s = Done s' (inr e) /\ r = inr e).
Proof.
  unfold try, bind. destruct (m s) as [s1 [a|e]|s1|s1] eqn:E; intros Hr; try discriminate.
  - left. eauto.
  - right. injection Hr as <- <-. eauto.
Qed.
Lemma defer_inv {A} (x : xh H) (m : M F A) s s' r : deferring im x m s = Done s' r -> meth x = true /\ exists s1, m s = Done s1 r /\
   s' = emit (h_close im (d_fs s1) (x_h x)) (EvRelease (x_id x)) s1.
Proof.
  unfold deferring. destruct (m s) as [s1 a|s1|s1] eqn:E; unfold close; destruct (meth x); try discriminate.
  intros [= <- <-]. split; [reflexivity|]. exists s1. auto.
Qed.
Context (bs : H -> Z) (nb : H -> F -> Z) (blk : H -> F -> Z -> list Z).
Hypothesis HR : forall h, 0 < bs h < 2^62 /\ reads_honestly im h (bs h) (nb h) (blk h).
Lemma contents_exact x s : meth x = true -> stored_as_stat_says im bs nb (d_fs s) (x_h x) ->
  exists s' r, get_contents im x s = Done s' r /\ (r = inl (contents_of im blk (d_fs s) (x_h x)) \/ (exists e, r = inr (KWrap ErrIOFailed e))) /\
    ((forall fs i b, snd (h_read im fs (x_h x) i b) = None) -> r = inl (contents_of im blk (d_fs s) (x_h x))).
Proof.
  intros Hm (Hb & HN & Hf & Hsz). destruct (HR (x_h x)) as [Hbs Hrd].
  destruct (contents_spec im x _ _ _ Hm Hrd Hbs s) as (s' & r & E & _ & _ & _ & Hr & Hrel); auto; [now rewrite <- Hb|rewrite <- Hb; lia|].
  exists s', r. split; [exact E|]. split; [exact Hr|]. intros Hx. destruct (Hrel Hx) as [b ->]. destruct Hr as [Hr|[e Hr]]; [exact Hr|discriminate].
Qed.
Lemma read_file_any fuel p s s' r : read_file im wm d fuel p s = Done s' r ->
  (exists e, following im wm d fuel (norm d p) s = Done s' (inr e) /\ r = inr e) \/
  (exists s1 x, following im wm d fuel (norm d p) s = Done s1 (inl x) /\ meth x = true /\
     (stored_as_stat_says im bs nb (d_fs s1) (x_h x) ->
        (r = inl (contents_of im blk (d_fs s1) (x_h x)) \/ (exists e, r = inr (KWrap ErrIOFailed e))) /\
        ((forall fs i b, snd (h_read im fs (x_h x) i b) = None) -> r = inl (contents_of im blk (d_fs s1) (x_h x))))).
Proof.
  intros E. apply try_inv in E as [(s1 & x & E1 & E2)|(e & E1 & ->)]; [right|left; eauto].
  exists s1, x. split; [exact E1|]. apply defer_inv in E2 as (Hm & s2 & E2 & _). split; [exact Hm|]. intros Hst.
  destruct (contents_exact x s1 Hm Hst) as (s3 & r3 & E3 & Hr & Hrel). rewrite E3 in E2. injection E2 as -> ->. auto.
Qed.
Lemma stat_of_found fuel p s s1 x : following im wm d fuel (norm d p) s = Done s1 (inl x) -> meth x = true ->
  exists s2, stat_path im wm d fuel p s = Done s2 (inl (h_stat im (d_fs s1) (x_h x))).
Proof.
  intros E Hm. unfold stat_path. erewrite try_done by exact E. erewrite defer_done; [eexists; reflexivity|exact Hm|].
  rewrite bind_stat by exact Hm. reflexivity.
Qed.
Lemma stat_of_missing fuel p s s1 e : following im wm d fuel (norm d p) s = Done s1 (inr e) -> stat_path im wm d fuel p s = Done s1 (inr e).
Proof. intros E. unfold stat_path. now apply try_err. Qed.
Lemma readlink_any fuel p s s' r : i_has_symlinks im = true -> readlink im wm d fuel p s = Done s' r ->
  (exists e, no_follow im wm d fuel (norm d p) s = Done s' (inr e) /\ r = inr e) \/
  (exists s1 x, no_follow im wm d fuel (norm d p) s = Done s1 (inl x) /\
     if is_symlink (h_stat im (d_fs s1) (x_h x)) then
       stored_as_stat_says im bs nb (d_fs s1) (x_h x) ->
        (r = inl (contents_of im blk (d_fs s1) (x_h x)) \/ (exists e, r = inr (KWrap ErrIOFailed e))) /\
        ((forall fs i b, snd (h_read im fs (x_h x) i b) = None) -> r = inl (contents_of im blk (d_fs s1) (x_h x)))
     else r = inr (K ErrInvalidArgument)).
Proof.
  intros Hs E. unfold readlink in E. rewrite Hs in E. cbn [negb] in E.
  apply try_inv in E as [(s1 & x & E1 & E2)|(e & E1 & ->)]; [right|left; eauto].
  exists s1, x. split; [exact E1|]. apply defer_inv in E2 as (Hm & s2 & E2 & _). rewrite bind_stat in E2 by exact Hm.
  destruct (is_symlink _); cbn [negb] in E2; [|injection E2 as <- <-; reflexivity]. intros Hst.
  destruct (contents_exact x s1 Hm Hst) as (s3 & r3 & E3 & Hr & Hrel). rewrite E3 in E2. injection E2 as -> ->. auto.
Qed.
End Gen.

Section Mem.
Variable bs : Z.
Hypothesis Hbs : 0 < bs < 2^62.
Variables (wm : wmode) (d : drv).
Lemma memfs_storage h : 0 < bs < 2^62 /\ reads_honestly (memfs bs) h bs (mnb bs h) (mblk bs h).
Proof. split; [exact Hbs|now apply mem_reads]. Qed.
Lemma memfs_fits t h : zlen (node_bytes (mem_node t h)) + bs < 2^63 -> stored_as_stat_says (memfs bs) (fun _ => bs) (mnb bs) t h.
Proof.
  intros Hb. set (b := node_bytes (mem_node t h)) in *. pose proof (zlen_nonneg b) as Hz. pose proof (cdiv_ge bs (zlen b) ltac:(lia)) as C1.
  pose proof (cdiv_lt bs (zlen b) ltac:(lia)) as C2. pose proof (cdiv_nonneg bs (zlen b) ltac:(lia) ltac:(lia)) as C3.
  unfold stored_as_stat_says, mnb. cbn [h_stat memfs mem_stat f_bsize f_nblocks f_size]. fold b. unfold ceil_div in *. repeat split; lia.
Qed.
Lemma few_fuel {F H} (im : impl F H) f n s : proper n -> (f < 3)%nat -> no_follow im wm d f (render [n]) s = Spin s.
Proof.
  intros Hn Hf. assert (Hnm : name n) by now apply name_proper.
  destruct f as [|f]; [reflexivity|]. rewrite no_follow_S. replace (_ || _) with false.
  - rewrite split_one by exact Hnm. apply spin_try. destruct f as [|f]; [reflexivity|]. rewrite following_S.
    destruct f as [|f]; [reflexivity|lia].
  - symmetry. destruct Hnm as [Hne Hns]. apply orb_false_iff. split; apply beqb_neq; destruct n; cbn; try discriminate; congruence.
Qed.
Lemma asis_readlink fuel p s s' r : wm = AsIs -> readlink (memfs bs) wm d fuel p s <> Done s' r.
Proof.
  intros -> E. pose proof (asis_op (memfs bs) d fuel (PReadlink p) s eq_refl) as HD. cbn [run_op] in HD.
  unfold outc, bind in HD. rewrite E in HD. exact HD.
Qed.
Lemma mem_contents_pres x s t : d_fs s = t -> d_fs (end_state (get_contents (memfs bs) x s)) = t.
Proof.
  apply (contents_pres (memfs bs) x (fun s => d_fs s = t)). intros s0 i b s1 b1 e Hs. cbn. intros [= <- _ _]. exact Hs.
Qed.
Lemma readlink_mem_any fuel p es s s' r : canonical (cwd d) -> d_fs s = NDir es -> readlink (memfs bs) wm d fuel p s = Done s' r ->
  d_fs s' = NDir es /\ readlink_answer bs es (normalize_path (cwd d) p) r.
Proof.
  intros Hc Hs E. assert (wm <> AsIs) as Hwm by (intros X; now apply (asis_readlink _ _ _ _ _ X) in E).
  destruct (normalize_canonical _ p Hc) as (ns & Hns & Eq). rewrite Eq.
  destruct ns as [|n ns] using rev_ind; [|clear IHns].
  - unfold readlink in E. cbn [negb i_has_symlinks memfs] in E. unfold norm in E. rewrite Eq in E. destruct fuel as [|f]; [discriminate|].
    change (render []) with [47] in E. rewrite (try_done _ _ _ _ _ (no_follow_root (memfs bs) wm d f s)) in E.
    apply defer_inv in E as (Hm & s1 & E & ->). rewrite bind_stat in E by exact Hm. rewrite mem_is_symlink in E.
    unfold root_state, root_h in E. cbn [d_fs x_h memfs i_root fst snd] in E. rewrite Hs in E. cbn in E. injection E as <- <-.
    split; [reflexivity|left; now split].
  - apply Forall_app in Hns as [Hns Hn]. inversion Hn as [|? ? Hp _]; subst. destruct ns as [|m ns].
    + cbn [app] in *. destruct (le_lt_dec 3 fuel) as [H3|H3].
      2:{ unfold readlink in E. cbn [negb i_has_symlinks memfs] in E. unfold norm in E. rewrite Eq in E. rewrite (spin_try _ _ _ (few_fuel _ fuel n s Hp H3)) in E. discriminate. }
      destruct fuel as [|[|[|f]]]; try lia. clear H3.
      assert (E' : readlink (memfs bs) wm d (S (S (S f))) (render [n]) s = Done s' r).
      { rewrite <- E. unfold readlink, norm. rewrite Eq, norm_one by exact Hp. reflexivity. }
      destruct (readlink_mem bs Hbs wm d Hwm f n es s Hp Hs) as (s2 & Hs2 & HR).
      assert (forall r2, readlink (memfs bs) wm d (S (S (S f))) (render [n]) s = Done s2 r2 -> s' = s2 /\ r = r2) as HX by (intros r2 X; rewrite X in E'; injection E' as <- <-; auto).
      assert ((forall t, lookup_in n es = Some (NLink t) -> zlen t + bs < 2^63) \/ exists t, lookup_in n es = Some (NLink t) /\ ~ zlen t + bs < 2^63) as HT.
      { destruct (lookup_in n es) as [[b|t|sub]|]; try (left; intros ? ?; discriminate).
        destruct (Z_lt_ge_dec (zlen t + bs) (2^63)); [left; intros t' [= <-]; auto|right; exists t; split; [reflexivity|lia]]. }
      destruct HT as [HT|(t & El & Hbig)].
      * split.
        -- destruct (lookup_in n es) as [[b|t|sub]|] eqn:El; try (apply HX in HR as [-> _]; exact Hs2).
           specialize (HR (HT t eq_refl)). apply HX in HR as [-> _]; exact Hs2.
        -- right. exists n. split; [exact Hp|]. split; [reflexivity|].
           destruct (lookup_in n es) as [[b|t|sub]|] eqn:El; try (now apply HX in HR). intros Ht. specialize (HR Ht). now apply HX in HR.
      * split; [|right; exists n; split; [exact Hp|]; split; [reflexivity|]; rewrite El; intros; contradiction].
        unfold readlink in E'. cbn [negb i_has_symlinks memfs] in E'. unfold norm in E'. rewrite norm_one in E' by exact Hp.
        apply try_inv in E' as [(s1 & x & E1 & E2)|(e & E1 & _)].
        -- rewrite (no_follow_one (memfs bs) wm d Hwm f n s) in E1; [|rewrite Hs; split; reflexivity|now apply name_proper].
           unfold entry_res, entry_call in E1. rewrite Hs in E1. cbn [i_get i_root memfs fst snd lookup app h_close] in E1. rewrite El in E1. cbn [fst snd] in E1.
           injection E1 as <- <-. apply defer_inv in E2 as (Hm & s3 & E3 & ->). rewrite bind_stat in E3 by exact Hm.
           cbn [emit d_fs memfs h_close]. destruct (negb _); [injection E3 as <- <-; reflexivity|].
           match type of E3 with get_contents _ ?x ?s0 = _ => pose proof (mem_contents_pres x s0 (NDir es) eq_refl) as HC end. rewrite E3 in HC. exact HC.
        -- rewrite (no_follow_one (memfs bs) wm d Hwm f n s) in E1; [|rewrite Hs; split; reflexivity|now apply name_proper].
           unfold entry_res, entry_call in E1. rewrite Hs in E1. cbn [i_get i_root memfs fst snd lookup app h_close] in E1. rewrite El in E1. discriminate.
    + exfalso. pose proof (nested_op (memfs bs) wm d fuel (PReadlink p) s (m :: ns) n ltac:(discriminate) Hp Eq eq_refl) as HN.
      cbn [run_op] in HN. unfold outc, bind in HN. rewrite E in HN. discriminate.
Qed.
End Mem.
