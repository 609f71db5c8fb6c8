(** * DriverProofs3: contents of objects *)
From Verif Require Import GoBase ListZ Errors Flags GoPath Spec_Path GoPathProofs BlockCache Spec_BlockCache BlockCacheProofs
  BlockCacheProofs2 BasicStream Spec_BasicStream BasicStreamProofs Driver Spec_Driver DriverProofs DriverProofs2.

Section Same.
Context {S : Type} (cb cb' : callbacks S).
Hypothesis HF : cb_fetch cb = cb_fetch cb'.
Lemma load_loop_same fuel : forall i stop s c, load_loop cb fuel i stop s c = load_loop cb' fuel i stop s c.
Proof.
  induction fuel as [|f IH]; intros i stop s c; cbn [load_loop]; [reflexivity|]. destruct (i <? stop); [|reflexivity].
  destruct (bget (loaded c) (i64 i)) as [[|]| |]; auto. destruct (data_slice _ _ _) as [b| |]; auto. rewrite HF.
  destruct (cb_fetch cb' s i b) as [[s1 b1] [e1|]]; auto. destruct (bset (loaded c) _ _); auto. destruct (bset (dirty c) _ _); auto.
Qed.
Lemma get_slice_same s c a n : get_slice cb s c a n = get_slice cb' s c a n.
Proof. unfold get_slice, load_range. destruct (check_bounds _ _ _) as [[e|]| |]; auto. now rewrite load_loop_same. Qed.
Lemma s_read_same s st b : s_read cb s st b = s_read cb' s st b.
Proof.
  unfold s_read, s_read_at. destruct (negb _); auto. cbn zeta. destruct (_ =? 0); auto. destruct (_ >=? _); auto.
  destruct (conv_addr _ _) as [[x y]| |]; auto. destruct (conv_addr _ _) as [[x1 y1]| |]; auto. now rewrite get_slice_same.
Qed.
Lemma flush_loop_same fuel : forall i stop s c, clean_bits (dirty c) -> flush_loop cb fuel i stop s c = flush_loop cb' fuel i stop s c.
Proof.
  induction fuel as [|f IH]; intros i stop s c Hc; cbn [flush_loop]; [reflexivity|]. destruct (_ <? stop); [|reflexivity].
  destruct (bget (dirty c) i) as [[|]| |] eqn:E; auto. apply bget_clean in E; [discriminate|exact Hc].
Qed.
Lemma flush_all_same s c : clean_bits (dirty c) -> flush_all cb s c = flush_all cb' s c.
Proof. intros Hc. unfold flush_all, flush_range. destruct (check_bounds _ _ _) as [[e|]| |]; auto. now rewrite flush_loop_same. Qed.
End Same.

Section Contents.
Context {F H : Type} (im : impl F H) (x : xh H) (bs : Z) (nb : F -> Z) (blk : F -> Z -> list Z).
Hypothesis Hm : meth x = true.
Hypothesis HR : reads_honestly im (x_h x) bs nb blk.
Hypothesis Hbs : 0 < bs < 2^62.
Definition rd_cb : callbacks (dst F) :=
  mkCb (dst F) (cb_fetch (obj_callbacks im x)) (fun s _ _ => (s, Some KEOF)) (fun s _ => (s, Some KEOF)).
Notation nb' := (fun s : dst F => nb (d_fs s)).
Notation blk' := (fun s : dst F => blk (d_fs s)).
Lemma rd_honest : honest rd_cb bs nb' blk'.
Proof.
  destruct HR as [HL HF]. constructor.
  - intros s i Hi. now apply HL.
  - intros s i buf s' b e Hi Hb. unfold rd_cb, obj_callbacks. cbn.
    destruct (h_read im (d_fs s) (x_h x) i buf) as [[fs b1] e1] eqn:E. intros [= <- <- <-]. cbn. eapply HF; eauto.
  - intros s i buf s' e Hi Hb [= <- <-]. repeat split; auto. discriminate.
  - intros s n s' e Hn _ [= <- <-]. auto.
Qed.
(* only reads are logged *)
Definition only_reads (e : event) : Prop := exists i, e = EvRead (x_id x) i.
Definition quiet (s s' : dst F) : Prop := ext only_reads s s' /\ d_next s' = d_next s.
Lemma quiet_fetch s0 s i b s' b' e : quiet s0 s -> cb_fetch (obj_callbacks im x) s i b = (s', b', e) -> quiet s0 s'.
Proof.
  intros [HE HN]. cbn. destruct (h_read im (d_fs s) (x_h x) i b) as [[fs b1] e1]. intros [= <- <- <-].
  split; [|exact HN]. eapply ext_trans; [exact HE|]. apply ext_emit. eexists; reflexivity.
Qed.
Lemma fetch_reliable : (forall fs i b, snd (h_read im fs (x_h x) i b) = None) ->
  forall evs s s', accesses rd_cb s evs s' -> forall i, ~ In (EvFetch i false) evs.
Proof.
  intros Hr evs s s' Hac. induction Hac as [|s i b s1 b1 e evs s2 E Hac IH|s i b s1 e evs s2 E Hac IH|s n s1 e evs s2 E Hac IH]; intros j;
    [intros []| | |]; (intros [X|X]; [|now apply (IH j)]); try discriminate X. revert E X. cbn.
  specialize (Hr (d_fs s) i b). destruct (h_read im (d_fs s) (x_h x) i b) as [[fs b2] e2]. cbn in Hr. subst e2.
  intros [= <- <- <-]. discriminate.
Qed.
Lemma contents_spec s : let st := h_stat im (d_fs s) (x_h x) in
  f_bsize st = bs -> 0 <= f_nblocks st <= nb (d_fs s) -> bs * f_nblocks st < 2^63 -> 0 <= f_size st <= bs * f_nblocks st ->
  exists s' r, get_contents im x s = Done s' r /\ quiet s s' /\
    nb (d_fs s') = nb (d_fs s) /\ (forall j, 0 <= j < nb (d_fs s) -> blk (d_fs s') j = blk (d_fs s) j) /\
    (r = inl (slice 0 (f_size st) (storage_bytes blk (d_fs s) (f_nblocks st))) \/ (exists e, r = inr (KWrap ErrIOFailed e))) /\
    ((forall fs i b, snd (h_read im fs (x_h x) i b) = None) -> exists b, r = inl b).
Proof.
  intros st Eb HN Hf Hsz. pose proof rd_honest as HH. set (N := f_nblocks st) in *. set (sz := f_size st) in *.
  assert (0 <= N < 2^63) as HN63 by nia.
  unfold get_contents. unfold bind at 1. unfold new_file at 1. rewrite bind_stat by exact Hm. fold st. rewrite Eb. fold N sz.
  rewrite (u64_small bs), (u64_small N) by lia. assert (new_fits bs N = true) as -> by (unfold new_fits; rewrite !i64_id by nia; nia). cbn [negb]. unfold s_new. change (io_truncate O_RDONLY) with false. unfold size. cbn [bpb total new_cache].
  rewrite i64_id by nia. replace ((sz <? 0) || (sz >? bs * N)) with false by lia. cbv iota.
  set (stm := mkStream sz 0 (new_cache bs N) O_RDONLY).
  assert (SInv bs nb' blk' s stm) as I.
  { split; [apply (new_winv (Q := False) bs nb' blk'); lia|]. cbn [stm ssize spos scache new_cache total]. lia. }
  rewrite bind_stat by exact Hm. fold st. fold sz. replace (sz <? 0) with false by lia.
  assert (clean_bits (dirty (scache stm))) as Hcl by apply clean_new.
  assert (exists s' stm' b n e, s_read (obj_callbacks im x) s stm (zrepeat 0 sz) = Ret (s', stm', b, n, e) /\ SInv bs nb' blk' s' stm' /\
     nb (d_fs s') = nb (d_fs s) /\ (forall j, 0 <= j < nb (d_fs s) -> blk (d_fs s') j = blk (d_fs s) j) /\
     (e = None -> b = slice 0 sz (storage_bytes blk (d_fs s) N)) /\
     ((forall fs i b, snd (h_read im fs (x_h x) i b) = None) -> e = None)) as (s1 & stm1 & b & n & e & ER & I1 & Hnb & Hblk & Hok & Hrel).
  { rewrite (s_read_same (obj_callbacks im x) rd_cb eq_refl). unfold s_read. change (spos stm) with 0.
    assert (zlen (zrepeat 0 sz) = sz) as El by (apply zlen_repeat; lia).
    destruct (Z.eq_dec sz 0) as [E0|N0].
    - unfold s_read_at. change (negb (io_read (sflags stm))) with false. cbv iota zeta. rewrite El, E0. cbn [Z.eqb].
      do 5 eexists. split; [reflexivity|]. split; [|split; [reflexivity|split; [auto|split; [reflexivity|auto]]]].
      apply set_pos_inv; [exact I|cbn; lia].
    - destruct (read_at_spec rd_cb bs nb' blk' HH Hbs s stm (zrepeat 0 sz) 0 I eq_refl ltac:(lia) ltac:(lia) ltac:(lia) ltac:(cbn [stm ssize]; lia))
        as (s1 & c1 & e & evs & (W1 & Ht1 & HC & Hd1 & Hnb & Hblk) & Hac & [He1 He2] & E).
      rewrite E. cbn [stm ssize] in *. rewrite El in *.
      assert (SInv bs nb' blk' s1 (set_cache stm c1)) as I1.
      { split; [exact W1|]. cbn [set_cache scache ssize spos stm] in *. rewrite Ht1. cbn [new_cache total]. lia. }
      destruct e as [e|].
      + do 5 eexists. split; [reflexivity|]. split; [exact I1|]. split; [exact Hnb|]. split; [exact Hblk|]. split; [discriminate|].
        intros Hr. exfalso. destruct (He1) as [_ HX]. enough (Some e = None) by discriminate. apply HX. intros i Hin.
        clear - Hac Hin Hr. exact (fetch_reliable Hr _ _ _ Hac i Hin).
      + replace (Z.min sz (sz - 0)) with sz by lia. replace (sz <? sz) with false by lia.
        do 5 eexists. split; [reflexivity|]. split; [apply set_pos_inv; [exact I1|rewrite i64_id; cbn; lia]|].
        split; [exact Hnb|]. split; [exact Hblk|]. split; [|auto]. intros _.
        assert (sblocks blk' s stm = storage_bytes blk (d_fs s) N) as ->.
        { unfold sblocks. symmetry. eapply wrep_unique; [exact HH|lia|apply I|].
          pose proof (new_rep rd_cb bs nb' blk' HH ltac:(lia) s N HN Hf) as Rp. exact Rp. }
        pose proof (new_rep rd_cb bs nb' blk' HH ltac:(lia) s N HN Hf) as [Rl _]. cbn [new_cache total] in Rl.
        assert (zlen (slice 0 sz (storage_bytes blk (d_fs s) N)) = sz) as E1 by (apply zlen_slice; [lia|lia|]; change (storage_bytes blk (d_fs s) N) with (storage_bytes blk' s N); lia).
        unfold splice. rewrite E1. replace (Z.to_nat (0 + sz)) with (length (zrepeat 0 sz)) by (unfold zlen in El; lia).
        rewrite skipn_all. cbn [Z.to_nat firstn app]. apply app_nil_r. }
  destruct (s_read_pres (obj_callbacks im x) (quiet s) (fun s1 i b s' b' e => quiet_fetch s s1 i b s' b' e) _ _ _ _ _ _ _ _
              (conj (ext_refl only_reads s) eq_refl) Hcl ER) as [Hq Hcl1].
  unfold bind at 1. unfold fl_read. cbn [fl_obj fl_stream]. rewrite ER. cbv iota beta.
  unfold bind, fl_close. cbn [with_stream fl_obj fl_stream]. unfold s_close, s_sync.
  rewrite (flush_all_same (obj_callbacks im x) rd_cb) by exact Hcl1.
  destruct (sync_ret rd_cb bs nb' blk' HH Hbs s1 stm1 I1) as (s2 & stm2 & e2 & E2 & _). unfold s_sync in E2.
  destruct (flush_all rd_cb s1 (scache stm1)) as [[[s3 c3] e3]| |] eqn:EF; try discriminate.
  apply flush_all_clean in EF as [-> _]; [|exact Hcl1]. unfold ret. do 2 eexists. split; [reflexivity|].
  split; [exact Hq|]. split; [exact Hnb|]. split; [exact Hblk|]. split.
  - destruct e; [right; eauto|left; now rewrite Hok].
  - intros Hr. rewrite (Hrel Hr). eauto.
Qed.
End Contents.
