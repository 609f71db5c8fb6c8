(** * AccessProofs2: reading an open file *)
From Verif Require Import GoBase ListZ Errors Flags GoPath Spec_Path GoPathProofs BlockCache Spec_BlockCache BlockCacheProofs
  BlockCacheProofs2 BasicStream Spec_BasicStream BasicStreamProofs BasicStreamProofs3 Driver DriverFile Spec_Driver Spec_Driver4 Spec_Access
  DriverProofs DriverProofs2 DriverProofs3 DriverProofs16 AccessProofs.

Lemma s_read_at_same {S} (cb cb' : callbacks S) : cb_fetch cb = cb_fetch cb' -> forall s st b off, s_read_at cb s st b off = s_read_at cb' s st b off.
Proof.
  intros HF s st b off. unfold s_read_at. destruct (negb _); auto. cbn zeta. destruct (_ =? 0); auto. destruct (_ >=? _); auto.
  destruct (conv_addr _ _) as [[x y]| |]; auto. destruct (conv_addr _ _) as [[x1 y1]| |]; auto. now rewrite (get_slice_same cb cb' HF).
Qed.
Section Rd.
Context {F H : Type} (im : impl F H) (x : xh H) (bs : Z) (nb : F -> Z) (blk : F -> Z -> list Z).
Hypothesis Hm : meth x = true.
Hypothesis HR : reads_honestly im (x_h x) bs nb blk.
Hypothesis Hbs : 0 < bs < 2^62.
Notation nb' := (fun s : dst F => nb (d_fs s)).
Notation blk' := (fun s : dst F => blk (d_fs s)).
Variable s0 : dst F.
Notation st := (h_stat im (d_fs s0) (x_h x)).
Notation sz := (f_size st).
Notation N := (f_nblocks st).
Hypothesis Hb : f_bsize st = bs.
Hypothesis HN : 0 <= N <= nb (d_fs s0).
Hypothesis Hf : bs * N < 2^63.
Hypothesis Hsz : 0 <= sz <= bs * N.
Definition text : list Z := storage_bytes blk (d_fs s0) N.
Definition same_store (s : dst F) : Prop := nb (d_fs s) = nb (d_fs s0) /\ forall j, 0 <= j < nb (d_fs s0) -> blk (d_fs s) j = blk (d_fs s0) j.
Definition RInv (s : dst F) (stm : stream) : Prop :=
  SInv bs nb' blk' s stm /\ clean_bits (dirty (scache stm)) /\ sblocks blk' s stm = text /\ ssize stm = sz /\ same_store s.
Lemma HH : honest (rd_cb im x) bs nb' blk'. Proof. now apply rd_honest. Qed.

Lemma rinv_new flags : RInv s0 (mkStream sz 0 (new_cache (u64 (f_bsize st)) (u64 N)) flags).
Proof.
  assert (0 <= N < 2^63) as HN63 by nia. rewrite Hb, (u64_small bs), (u64_small N) by lia.
  assert (SInv bs nb' blk' s0 (mkStream sz 0 (new_cache bs N) flags)) as I.
  { split; [apply (new_winv (Q := False) bs nb' blk'); lia|]. cbn [ssize spos scache new_cache total]. lia. }
  split; [exact I|]. split; [apply clean_new|]. split; [|split; [reflexivity|split; [reflexivity|auto]]].
  unfold sblocks. symmetry. eapply wrep_unique; [exact HH|lia|apply I|].
  exact (new_rep (rd_cb im x) bs nb' blk' HH ltac:(lia) s0 N HN Hf).
Qed.
Lemma rinv_pos s stm p : RInv s stm -> 0 <= p < 2^63 -> RInv s (set_pos stm p).
Proof. intros (I & C & T & Z & SS) Hp. split; [now apply set_pos_inv|]. auto. Qed.
Lemma rinv_others s stm s1 : RInv s stm -> nb (d_fs s1) = nb (d_fs s) -> (forall j, 0 <= j < nb (d_fs s) -> blk (d_fs s1) j = blk (d_fs s) j) -> RInv s1 stm.
Proof.
  intros (I & C & T & Z & SS) En Eb. destruct I as (W & I2 & I3). pose proof (i_total _ _ _ _ _ W) as Ht.
  split; [|split; [exact C|split; [|split; [exact Z|]]]].
  - split; [|auto]. destruct W. constructor; auto; [rewrite En; auto|intros []].
  - rewrite <- T. unfold sblocks, contents. f_equal. apply map_ext_in. intros k Hk. apply in_seq in Hk. unfold content_block.
    destruct (znth _ _ _); [reflexivity|]. apply Eb. lia.
  - destruct SS as [S1 S2]. split; [congruence|]. intros j Hj. rewrite Eb by (rewrite S1; lia). auto.
Qed.
(* one ReadAt *)
Lemma text_len : zlen text = bs * N.
Proof. apply storage_bytes_len; [lia|]. intros i Hi. apply HR. lia. Qed.
Lemma rd_at s stm buf off : RInv s stm -> io_read (sflags stm) = true -> 0 <= off -> sz + zlen buf < 2^63 -> 0 < zlen buf ->
  let n := Z.min (zlen buf) (sz - off) in
  (sz <= off /\ s_read_at (obj_callbacks im x) s stm buf off = Ret (s, stm, buf, 0, Some KEOF)) \/
  (off < sz /\ exists s' stm' e, RInv s' stm' /\ spos stm' = spos stm /\ sflags stm' = sflags stm /\
     s_read_at (obj_callbacks im x) s stm buf off =
       match e with Some e => Ret (s', stm', buf, 0, Some e)
       | None => Ret (s', stm', slice off n text ++ slice n (zlen buf - n) buf, n, if n <? zlen buf then Some KEOF else None) end /\
     ((forall fs i b, snd (h_read im fs (x_h x) i b) = None) -> e = None)).
Proof.
  intros (I & C & T & Z & SS) Hr Ho Hl Hbuf n. destruct (Z_lt_ge_dec off sz) as [Hlt|Hge].
  2:{ left. split; [lia|]. unfold s_read_at. rewrite Hr. cbn [negb]. cbn zeta. replace (zlen buf =? 0) with false by lia. rewrite Z. replace (off >=? sz) with true by lia. reflexivity. }
  right. split; [exact Hlt|]. rewrite (s_read_at_same (obj_callbacks im x) (rd_cb im x) eq_refl).
  destruct (read_at_spec (rd_cb im x) bs nb' blk' HH Hbs s stm buf off I Hr Ho ltac:(lia) Hbuf ltac:(lia))
    as (s1 & c1 & e & evs & KP & Hac & [He1 He2] & E).
  pose proof KP as (W1 & Ht1 & HC & Hd1 & Hnb & Hblk). rewrite Z in E. fold n in E.
  exists s1, (set_cache stm c1), e. split; [|split; [reflexivity|split; [reflexivity|split]]].
  - split; [eapply kept_sinv; eauto|]. split; [cbn [set_cache scache]; now rewrite Hd1|]. split; [unfold sblocks in *; cbn [set_cache scache]; now rewrite HC|].
    split; [exact Z|]. destruct SS as [S1 S2]. split; [congruence|]. intros j Hj. rewrite Hblk by (rewrite S1; lia). auto.
  - rewrite E. destruct e; [reflexivity|]. rewrite T. do 3 f_equal. unfold splice. cbn [Z.to_nat firstn app]. f_equal. pose proof text_len.
    assert (0 <= n <= zlen buf) as Hnb0 by (subst n; lia). rewrite (zlen_slice off n text) by (subst n; lia). clearbody n. rewrite Z.add_0_l.
    assert (slice n (zlen buf - n) buf = skipn (Z.to_nat n) buf) as ->; [|reflexivity]. unfold slice. apply firstn_all2. rewrite skipn_length. unfold zlen in *. lia.
  - intros Hrel. destruct He1 as [_ HX]. destruct e as [e|]; [|reflexivity]. apply HX. intros i Hin. exact (fetch_reliable im x Hrel _ _ _ Hac i Hin).
Qed.
Lemma rinv_call f c s s' f' b n e : fl_obj f = x -> RInv s (fl_stream f) -> sane sz c -> quiet_call (sflags (fl_stream f)) c ->
  file_call im f c s = Done s' (f', b, n, e) -> RInv s' (fl_stream f').
Proof.
  intros Ex I Hs Hq E. destruct (changes c) eqn:Hch.
  { rewrite (call_refused im f c s Hch (Hq Hch)) in E. injection E as <- <- _ _ _. exact I. }
  assert (forall buf off s1 st1 b1 n1 e1, sz + zlen buf < 2^63 -> 0 <= off -> s_read_at (obj_callbacks im x) s (fl_stream f) buf off = Ret (s1, st1, b1, n1, e1) ->
    RInv s1 st1 /\ spos st1 = spos (fl_stream f) /\ 0 <= n1 /\ (n1 = 0 \/ off + n1 <= sz)) as HA.
  { intros buf off s1 st1 b1 n1 e1 Hl Ho ER. destruct (io_read (sflags (fl_stream f))) eqn:Hr.
    2:{ unfold s_read_at in ER. rewrite Hr in ER. injection ER as <- <- _ <- _. auto 6 with zarith. }
    destruct (Z.eq_dec (zlen buf) 0) as [E0|N0].
    { unfold s_read_at in ER. rewrite Hr, E0 in ER. cbn in ER. injection ER as <- <- _ <- _. auto 6 with zarith. }
    assert (0 < zlen buf) as Hb0 by (unfold zlen in *; lia).
    destruct (rd_at s (fl_stream f) buf off I Hr Ho Hl Hb0) as [[_ E1]|(Hlt & s2 & st2 & e2 & I2 & Hp & _ & E1 & _)]; rewrite E1 in ER.
    - injection ER as <- <- _ <- _. auto 6 with zarith.
    - destruct e2; injection ER as <- <- _ <- _; (split; [exact I2|]); (split; [exact Hp|]); lia. }
  destruct c; try discriminate Hch; cbn [file_call sane] in *; unfold bind, ret, fl_read, fl_read_at, fl_sync, fl_seek in E; rewrite ?Ex in E.
  - unfold s_read in E. destruct I as (I & IR). pose proof I as (_ & _ & Hp).
    destruct (s_read_at _ _ _ _ _) as [[[[[s1 st1] b1] n1] e1]| |] eqn:ER; try discriminate.
    destruct (HA _ _ _ _ _ _ _ Hs (proj1 Hp) ER) as (I1 & Hp1 & Hn1 & Hn2). destruct e1; injection E as <- <- _ _ _; [exact I1|].
    cbn [with_stream fl_stream]. apply rinv_pos; [exact I1|]. rewrite i64_id; lia.
  - destruct (s_read_at _ _ _ _ _) as [[[[[s1 st1] b1] n1] e1]| |] eqn:ER; try discriminate.
    destruct Hs as [Hs1 Hs2]. destruct (HA _ _ _ _ _ _ _ Hs1 Hs2 ER) as (I1 & _). injection E as <- <- _ _ _. exact I1.
  - destruct (s_seek _ _ _) as [[st1 p1] e1] eqn:ER. injection E as <- <- _ _ _. cbn [with_stream fl_stream].
    destruct I as (I & C & T & Z & SS). split; [eapply seek_inv; eauto|]. clear - ER C T Z SS.
    revert ER. unfold s_seek. repeat (destruct (_ =? _)); cbn zeta; try destruct (_ <? 0); intros [= <- <- <-]; auto.
  - unfold s_sync in E. destruct (flush_all _ _ _) as [[[s1 c1] e1]| |] eqn:ER; try discriminate. injection E as <- <- _ _ _.
    apply flush_all_clean in ER as [-> ->]; [|apply I]. cbn [with_stream fl_stream]. destruct (fl_stream f). exact I.
Qed.
End Rd.
(** ** The position *)
Section Pos.
Context {F H : Type} (im : impl F H).
Lemma stands_iff (f : file H) p (s0 : dst F) : stands_at im f p <-> spos (fl_stream f) = p /\ 0 <= p < 2^63.
Proof.
  unfold stands_at. cbn [file_call]. unfold fl_seek, s_seek. change (1 =? 0) with false. change (1 =? 1) with true. cbv iota. rewrite Z.add_0_r. split.
  - intros E. specialize (E s0). destruct (_ <? 0) eqn:El; [discriminate|]. injection E as E1 E2. pose proof (i64_range (spos (fl_stream f))).
    rewrite E2 in *. split; [|lia]. rewrite <- E1. cbn. reflexivity.
  - intros [<- Hp] s. rewrite i64_id by lia. replace (_ <? 0) with false by lia. destruct f as [[] ? ? ? ? ?]. reflexivity.
Qed.
Lemma read_moves (f : file H) s buf p : spos (fl_stream f) = p -> 0 <= p -> p + zlen buf < 2^63 ->
  match file_call im f (CReadAt buf p) s with
  | Done s2 (f2, b, n, e) => exists f3, file_call im f (CRead buf) s = Done s2 (f3, b, n, e) /\ spos (fl_stream f3) = if e then p else p + n
  | Crash s2 => file_call im f (CRead buf) s = Crash s2
  | Spin s2 => file_call im f (CRead buf) s = Spin s2
  end /\
  forall s2 f2 b n, file_call im f (CReadAt buf p) s = Done s2 (f2, b, n, None) -> n = zlen buf.
Proof.
  intros Ep Hp Hl. cbn [file_call]. unfold fl_read, fl_read_at, s_read. rewrite Ep.
  destruct (s_read_at (obj_callbacks im (fl_obj f)) s (fl_stream f) buf p) as [[[[[s1 st1] b1] n1] e1]| |] eqn:E; [|split; [reflexivity|discriminate]..].
  assert (spos st1 = p /\ (e1 = None -> n1 = zlen buf)) as [Hs Hn].
  { revert E. unfold s_read_at. destruct (negb _); [intros [= <- <- <- <- <-]; split; [exact Ep|discriminate]|]. cbn zeta.
    destruct (zlen buf =? 0) eqn:E0; [intros [= <- <- <- <- <-]; split; [exact Ep|lia]|].
    destruct (p >=? ssize (fl_stream f)) eqn:E1; [intros [= <- <- <- <- <-]; split; [exact Ep|discriminate]|].
    destruct (conv_addr _ _) as [[f1 so]| |]; try discriminate. destruct (conv_addr _ _) as [[l1 so1]| |]; try discriminate.
    destruct (get_slice _ s _ _ _) as [[[s2 c2] [r|r]]| |]; try discriminate; [|intros [= <- <- <- <- <-]; split; [exact Ep|discriminate]].
    destruct (reslice _ _ _ _); try discriminate. intros [= <- <- <- <- <-]. split; [exact Ep|].
    assert (0 <= zlen buf) as Hb by (unfold zlen; lia). rewrite (i64_id (p + zlen buf)) by lia.
    destruct (p + zlen buf >=? ssize (fl_stream f)) eqn:E2; [|reflexivity].
    rewrite i64_id by lia. destruct (_ <? _) eqn:E3; [discriminate|]. lia. }
  split.
  - destruct e1 as [e1|]; eexists; (split; [reflexivity|]); cbn [with_stream fl_stream set_pos spos]; [exact Hs|]. rewrite (Hn eq_refl), Hs. rewrite i64_id; [reflexivity|].
    unfold zlen in *. lia.
  - intros s2 f2 b n [= <- <- <- <- ->]. auto.
Qed.
End Pos.
