(** * AccessProofs3: editing an open file in place *)
From Verif Require Import GoBase ListZ Errors Flags GoPath Spec_Path GoPathProofs BlockCache Spec_BlockCache BlockCacheProofs
  BlockCacheProofs2 BasicStream Spec_BasicStream BasicStreamProofs BasicStreamProofs2 BasicStreamProofs3 Driver DriverFile Spec_Driver Spec_Driver4 Spec_Access Spec_Edit
  DriverProofs DriverProofs2 DriverProofs3 DriverProofs13 DriverProofs16 AccessProofs AccessProofs2.

Lemma flush_loop_none {S} (cb : callbacks S) fuel : forall i stop s c s' c' e, clean_bits (dirty c) ->
  flush_loop cb fuel i stop s c = Ret (s', c', e) -> e = None.
Proof.
  induction fuel as [|f IH]; intros i stop s c s' c' e Hc E; cbn [flush_loop] in E; [discriminate|].
  destruct (u64 i <? stop); [|now injection E as <- <- <-].
  destruct (bget (dirty c) i) as [[|]| |] eqn:EB; try discriminate; [|eapply IH; eauto].
  apply bget_clean in EB; [discriminate|exact Hc].
Qed.
Section Ed.
Context {F H : Type} (im : impl F H) (x : xh H) (bs : Z) (nb : F -> Z) (blk : F -> Z -> list Z).
Hypothesis Hm : meth x = true.
Hypothesis HR : reads_honestly im (x_h x) bs nb blk.
Hypothesis Hbs : 0 < bs < 2^62.
Hypothesis Hrel : forall fs i b, snd (h_read im fs (x_h x) i b) = None.
Notation nb' := (fun s : dst F => nb (d_fs s)).
Notation blk' := (fun s : dst F => blk (d_fs s)).
Notation rd := (rd_cb im x).
Notation ob := (obj_callbacks im x).
Variables (s0 : dst F) (flags sz N : Z).
Hypothesis Hsz : 0 <= sz <= bs * N.
Hypothesis Hf : bs * N + bs < 2^63.
Let HH : honest rd bs nb' blk' := rd_honest im x bs nb blk HR.
Definition EInv (s : dst F) (stm : stream) (d : doc) : Prop :=
  SInv bs nb' blk' s stm /\ clean_bits (dirty (scache stm)) /\ sblocks blk' s stm = d_text d /\ ssize stm = sz /\ total (scache stm) = N /\
  spos stm = d_pos d /\ sflags stm = flags /\ same_store nb blk s0 s.

Lemma sync_clean s stm d : EInv s stm d -> s_sync ob s stm = Ret (s, stm, if 0 <? N then None else Some (K ErrArgumentOutOfRange)).
Proof.
  intros (I & C & _ & _ & Ht & _). unfold s_sync. rewrite (flush_all_same ob rd) by exact C.
  pose proof (sync_spec rd bs nb' blk' HH Hbs s stm I) as Sy. rewrite Ht in Sy. destruct (0 <? N) eqn:HN0.
  - destruct Sy as (s' & c' & e & evs & E & _). unfold s_sync in E. destruct (flush_all rd s (scache stm)) as [[[s1 c1] e1]| |] eqn:EF; try discriminate.
    pose proof EF as EF0. apply flush_all_clean in EF as [-> ->]; [|exact C].
    assert (e1 = None) as ->; [|destruct stm; reflexivity].
    unfold flush_all, flush_range in EF0. pose proof I as (W & _). pose proof (i_bpb _ _ _ _ _ W) as Hb. rewrite Hb, Ht in EF0.
    rewrite (u64_small (N * bs)) in EF0 by nia. rewrite (check_bounds_ok bs nb' blk' ltac:(lia) s (scache stm) 0 (N * bs) W ltac:(lia)) in EF0 by nia.
    rewrite Ht in EF0. replace ((N * bs + bs - 1) / bs) with N in EF0.
    2:{ replace (N * bs + bs - 1) with (N * bs + (bs - 1)) by lia. rewrite Z.div_add_l by lia. rewrite (Z.div_small (bs - 1) bs) by lia. lia. }
    rewrite HN0 in EF0. replace (0 + N <=? N) with true in EF0 by lia. cbn [andb] in EF0. eapply flush_loop_none; eauto.
  - unfold s_sync in Sy. exact Sy.
Qed.
Lemma sz_text s stm d : EInv s stm d -> zlen (d_text d) = bs * N.
Proof. intros (I & _ & T & _ & Ht & _). rewrite <- T, <- Ht. exact (sblocks_len rd bs nb' blk' HH Hbs s stm I). Qed.

Lemma e_pos s stm d p : EInv s stm d -> 0 <= p < 2^63 -> EInv s (set_pos stm p) (mkDoc (d_text d) p).
Proof. intros (I & C & T & Z1 & Ht & P & Fl & SS) Hp. split; [now apply set_pos_inv|]. auto 10. Qed.
Lemma e_look s stm d buf off : EInv s stm d -> 0 <= off -> sz + zlen buf < 2^63 ->
  let '(b, n, e) := look flags sz (d_text d) buf off in
  exists s' stm', s_read_at ob s stm buf off = Ret (s', stm', b, n, e) /\ EInv s' stm' d /\ 0 <= n /\ (e = None -> n = zlen buf /\ (0 < n -> off + n <= sz)).
Proof.
  intros EI Ho Hl. pose proof (zlen_nonneg buf) as Hz. pose proof (sz_text _ _ _ EI) as HT. pose proof EI as (I & C & T & Z1 & Ht & P & Fl & SS).
  unfold look. destruct (negb (io_read flags)) eqn:Hr.
  { do 2 eexists. split; [unfold s_read_at; rewrite Fl, Hr; reflexivity|]. split; [exact EI|]. split; [lia|discriminate]. }
  destruct (zlen buf =? 0) eqn:E0.
  { do 2 eexists. split; [unfold s_read_at; rewrite Fl, Hr; cbn zeta; rewrite E0; reflexivity|]. split; [exact EI|]. split; [lia|]. intros _. lia. }
  destruct (sz <=? off) eqn:E1.
  { do 2 eexists. split; [unfold s_read_at; rewrite Fl, Hr; cbn zeta; rewrite E0, Z1; replace (off >=? sz) with true by lia; reflexivity|]. split; [exact EI|]. split; [lia|discriminate]. }
  cbn zeta. set (n := Z.min (zlen buf) (sz - off)). rewrite (s_read_at_same ob rd eq_refl).
  destruct (read_at_spec rd bs nb' blk' HH Hbs s stm buf off I) as (s1 & c1 & e & evs & KP & Hac & [He1 He2] & E); try lia.
  { rewrite Fl. now apply Bool.negb_false_iff in Hr. }
  pose proof KP as (W1 & Ht1 & HC & Hd1 & Hnb & Hblk). rewrite Z1 in E. fold n in E.
  assert (e = None) as -> by (destruct He1 as [_ HX]; apply HX; intros i Hin; exact (fetch_reliable im x Hrel _ _ _ Hac i Hin)).
  exists s1, (set_cache stm c1). split; [|split].
  - rewrite E, T. do 3 f_equal. unfold splice. cbn [Z.to_nat firstn app]. f_equal.
    assert (0 <= n <= zlen buf) as Hn by (subst n; lia). rewrite (zlen_slice off n (d_text d)) by (subst n; lia). clearbody n. rewrite Z.add_0_l.
    assert (slice n (zlen buf - n) buf = skipn (Z.to_nat n) buf) as ->; [|reflexivity]. unfold slice. apply firstn_all2. rewrite skipn_length. unfold zlen in *. lia.
  - split; [eapply kept_sinv; eauto|]. cbn [set_cache scache ssize spos sflags]. split; [now rewrite Hd1|]. split; [unfold sblocks in *; cbn [set_cache scache]; now rewrite HC|].
    split; [exact Z1|]. split; [congruence|]. split; [exact P|]. split; [exact Fl|]. destruct SS as [S1 S2]. split; [congruence|]. intros j Hj. rewrite Hblk by (rewrite S1; lia). auto.
  - split; [subst n; lia|]. destruct (n <? zlen buf) eqn:E3; [discriminate|]. intros _. subst n. lia.
Qed.
Lemma impl_write_same s stm b off : SInv bs nb' blk' s stm -> clean_bits (dirty (scache stm)) -> total (scache stm) = N -> 0 <= off -> off + zlen b < bs * N ->
  s_impl_write_at ob s stm b off = s_impl_write_at rd s stm b off.
Proof.
  intros I C Ht Ho Hl. pose proof (zlen_nonneg b) as Hz. unfold s_impl_write_at. destruct (negb _); [reflexivity|]. cbn zeta.
  pose proof I as (W & _). pose proof (i_bpb _ _ _ _ _ W) as Hb. rewrite (i64_id (off + zlen b)) by lia.
  rewrite !(conv_ok bs Hbs (scache stm)) by (auto; lia). rewrite Ht.
  assert ((off + zlen b) / bs < N) as Hdv by (apply Z.div_lt_upper_bound; lia). replace ((off + zlen b) / bs >=? N) with false by lia.
  rewrite (get_slice_same ob rd eq_refl). destruct (get_slice rd s (scache stm) _ _) as [[[s2 c2] [t|e]]| |] eqn:EG; auto.
  destruct (_ >? _); [reflexivity|]. destruct (io_synchronous _); [|reflexivity]. unfold s_sync.
  destruct (get_slice_pres rd (fun _ => True) (fun _ _ _ _ _ _ _ _ => Logic.I) _ _ _ _ _ _ _ Logic.I C EG) as [_ C2].
  now rewrite (flush_all_same ob rd) by exact C2.
Qed.
Lemma e_put s stm d b off : EInv s stm d -> io_write flags = true -> 0 <= off -> off + zlen b < bs * N ->
  let '(t, n, e) := put bs N (d_text d) b off in
  exists s' stm', s_impl_write_at ob s stm b off = Ret (s', stm', n, e) /\ EInv s' stm' (mkDoc t (d_pos d)) /\ 0 <= n /\ (n = 0 \/ n = zlen b).
Proof.
  intros EI Hw Ho Hl. pose proof (zlen_nonneg b) as Hz. pose proof EI as (I & C & T & Z1 & Ht & P & Fl & SS).
  unfold put. rewrite (impl_write_same s stm b off) by auto.
  rewrite (impl_write_unfold rd bs nb' blk' Hbs) by (auto; try lia; now rewrite Fl). rewrite Ht.
  assert ((off + zlen b) / bs < N) as Hdv by (apply Z.div_lt_upper_bound; lia). replace ((off + zlen b) / bs >=? N) with false by lia.
  rewrite Bool.eqb_reflx. pose proof (write_tail_spec rd bs nb' blk' HH Hbs s stm b off I Ho ltac:(lia)) as W. rewrite Ht in W.
  destruct (write_fits bs N off (zlen b)) eqn:WF.
  2:{ do 2 eexists. split; [exact W|]. split; [destruct d; exact EI|]. lia. }
  destruct W as (s2 & c2 & e & evs & KP & Hac & [He1 _] & W).
  assert (e = None) as -> by (apply He1; intros i Hin; exact (fetch_reliable im x Hrel _ _ _ Hac i Hin)).
  destruct W as (c3 & W3 & Ht3 & Hd3 & HC3 & _ & SI3 & E). pose proof KP as (_ & _ & _ & _ & Hnb & Hblk).
  assert (EInv s2 (set_cache stm c3) (mkDoc (splice off b (d_text d)) (d_pos d))) as EI3.
  { split; [exact SI3|]. cbn [set_cache scache ssize spos sflags d_text d_pos]. split; [now rewrite Hd3|]. split; [unfold sblocks in *; cbn [set_cache scache]; now rewrite HC3, T|].
    split; [exact Z1|]. split; [exact Ht3|]. split; [exact P|]. split; [exact Fl|]. destruct SS as [S1 S2]. split; [congruence|]. intros j Hj. rewrite Hblk by (rewrite S1; lia). auto. }
  exists s2, (set_cache stm c3). rewrite E. split; [|split; [exact EI3|lia]].
  destruct (io_synchronous (sflags stm)); [|reflexivity].
  pose proof (sync_clean _ _ _ EI3) as Sy. unfold s_sync in Sy. rewrite (flush_all_same ob rd) in Sy by (cbn [set_cache scache]; rewrite Hd3; exact C).
  unfold s_sync. cbn [set_cache scache] in *. destruct (flush_all rd s2 c3) as [[[? ?] ?]| |]; try discriminate.
  injection Sy as Y1 Y2 Y3. rewrite Y1, Y2, Y3. replace (0 <? N) with true by nia. reflexivity.
Qed.
Lemma e_call f c s d d2 b n e : fl_obj f = x -> EInv s (fl_stream f) d -> in_place flags sz bs N d c -> expected flags sz bs N d c = (d2, (b, n, e)) ->
  exists s' f', file_call im f c s = Done s' (f', b, n, e) /\ EInv s' (fl_stream f') d2 /\ fl_obj f' = x.
Proof.
  intros Ex EI Hi Hx. pose proof EI as (I & C & T & Z1 & Ht & P & Fl & SS). pose proof I as (_ & _ & Hp). rewrite P in Hp.
  destruct c; cbn [file_call in_place expected] in *; unfold bind, ret, fl_read, fl_read_at, fl_write, fl_write_at, fl_truncate, fl_sync, fl_seek; rewrite ?Ex.
  - pose proof (e_look s _ d buf (d_pos d) EI (proj1 Hp) Hi) as L. destruct (look _ _ _ _ _) as [[b1 n1] e1]. destruct L as (s1 & st1 & E & EI1 & Hn & He).
    injection Hx as <- <- <- <-. unfold s_read. rewrite P, E. pose proof EI1 as (_ & _ & _ & _ & _ & P1 & _). destruct e1 as [e1|].
    + do 2 eexists. split; [reflexivity|]. split; [destruct d; exact EI1|exact Ex].
    + do 2 eexists. split; [reflexivity|]. destruct (He eq_refl) as [He1 He2]. split; [|exact Ex]. cbn [with_stream fl_stream]. rewrite P1. pose proof (zlen_nonneg buf).
      rewrite i64_id by lia. apply (e_pos _ _ d); [exact EI1|]. lia.
  - pose proof (e_look s _ d buf off EI (proj2 Hi) (proj1 Hi)) as L. destruct (look _ _ _ _ _) as [[b1 n1] e1]. destruct L as (s1 & st1 & E & EI1 & _).
    injection Hx as <- <- <- <-. rewrite E. do 2 eexists. split; [reflexivity|]. split; [exact EI1|exact Ex].
  - unfold s_write. rewrite Fl. destruct (io_write flags) eqn:Hw; cbn [negb] in *.
    2:{ injection Hx as <- <- <- <-. do 2 eexists. split; [reflexivity|]. split; [exact EI|exact Ex]. }
    unfold place in *. pose proof (zlen_nonneg b0) as Hz.
    assert (forall st1, EInv s st1 (mkDoc (d_text d) (if io_append flags then sz else d_pos d)) ->
      exists s' f', match s_impl_write_at ob s st1 b0 (spos st1) with
        | Ret (s2, st2, n0, e0) => Ret (s2, set_pos st2 (i64 (spos st2 + n0)), n0, e0) | Panic => Panic | OutOfFuel => OutOfFuel end = Ret (s', f', n, e) /\ EInv s' f' d2 /\ b = []) as HP.
    { set (q := if io_append flags then sz else d_pos d) in *. assert (0 <= q) as Hq by (subst q; destruct (io_append flags); lia). clearbody q. intros st1 EI1.
      pose proof EI1 as (_ & _ & _ & _ & _ & P1 & _). cbn [d_pos] in P1. rewrite P1.
      pose proof (e_put s st1 _ b0 q EI1 Hw Hq Hi) as W. cbn [d_text d_pos] in W. destruct (put _ _ _ _ _) as [[t1 n1] e1]. destruct W as (s2 & st2 & E & EI2 & Hn & Hn').
      injection Hx as <- <- <- <-. rewrite E. pose proof EI2 as (_ & _ & _ & _ & _ & P2 & _). cbn [d_pos] in P2. rewrite P2.
      rewrite i64_id by lia. do 2 eexists. split; [reflexivity|]. split; [|reflexivity]. apply (e_pos _ _ _ _ EI2). lia. }
    destruct (io_append flags) eqn:Ha.
    + unfold s_seek. change (2 =? 0) with false. change (2 =? 1) with false. change (2 =? 2) with true. cbv iota zeta. rewrite Z.add_0_r, Z1, (i64_id sz) by lia.
      replace (sz <? 0) with false by lia. cbv iota. destruct (HP _ (e_pos s _ d sz EI ltac:(lia))) as (s' & f' & E & EI' & ->). rewrite E.
      do 2 eexists. split; [reflexivity|]. split; [exact EI'|exact Ex].
    + cbv iota. destruct (HP (fl_stream f)) as (s' & f' & E & EI' & ->); [destruct d; exact EI|]. rewrite E. do 2 eexists. split; [reflexivity|]. split; [exact EI'|exact Ex].
  - unfold s_write_at. rewrite Fl. destruct (io_append flags) eqn:Ha; cbn [orb] in Hx.
    { injection Hx as <- <- <- <-. do 2 eexists. split; [reflexivity|]. split; [exact EI|exact Ex]. }
    destruct (io_write flags) eqn:Hw; cbn [negb] in Hx.
    2:{ unfold s_impl_write_at. rewrite Fl, Hw. injection Hx as <- <- <- <-. do 2 eexists. split; [reflexivity|]. split; [exact EI|exact Ex]. }
    pose proof (e_put s _ _ b0 off EI Hw (proj1 Hi) (proj2 Hi)) as W. destruct (put _ _ _ _ _) as [[t1 n1] e1]. destruct W as (s2 & st2 & E & EI2 & _).
    injection Hx as <- <- <- <-. rewrite E. do 2 eexists. split; [reflexivity|]. split; [exact EI2|exact Ex].
  - unfold s_truncate. rewrite Fl. injection Hx as <- <- <- <-. destruct (io_write flags); cbn [negb].
    + replace (n0 <? 0) with true by (specialize (Hi eq_refl); lia). do 2 eexists. split; [reflexivity|]. split; [exact EI|exact Ex].
    + do 2 eexists. split; [reflexivity|]. split; [exact EI|exact Ex].
  - unfold s_seek, target in *. rewrite P, Z1. destruct Hi as [Ho Hi].
    repeat match type of Hx with context [if ?q =? ?z then _ else _] => destruct (q =? z) end; cbn zeta; try rewrite (i64_id _ Hi);
      try (destruct (_ <? 0) eqn:El); injection Hx as <- <- <- <-; do 2 eexists; (split; [reflexivity|]); (split; [|exact Ex]); try exact EI; cbn [with_stream fl_stream];
      apply e_pos; auto; lia.
  - rewrite (sync_clean _ _ _ EI). injection Hx as <- <- <- <-. do 2 eexists. split; [reflexivity|]. split; [exact EI|exact Ex].
Qed.
Lemma e_others s stm d s1 : EInv s stm d -> nb (d_fs s1) = nb (d_fs s) -> (forall j, 0 <= j < nb (d_fs s) -> blk (d_fs s1) j = blk (d_fs s) j) -> EInv s1 stm d.
Proof.
  intros (I & C & T & Z1 & Ht & P & Fl & SS) En Eb. destruct I as (W & I2 & I3). pose proof (i_total _ _ _ _ _ W) as Htt.
  split; [|split; [exact C|split; [|split; [exact Z1|split; [exact Ht|split; [exact P|split; [exact Fl|]]]]]]].
  - split; [|auto]. destruct W. constructor; auto; [rewrite En; auto|intros []].
  - rewrite <- T. unfold sblocks, contents. f_equal. apply map_ext_in. intros k Hk. apply in_seq in Hk. unfold content_block.
    destruct (znth _ _ _); [reflexivity|]. apply Eb. lia.
  - destruct SS as [S1 S2]. split; [congruence|]. intros j Hj. rewrite Eb by (rewrite S1; lia). auto.
Qed.
(* such a session asks for blocks and nothing else *)
Lemma e_quiet f c s d s' f' b n e : fl_obj f = x -> EInv s (fl_stream f) d -> in_place flags sz bs N d c ->
  file_call im f c s = Done s' (f', b, n, e) -> ext (only_read x) s s'.
Proof.
  intros Ex EI Hi E. pose proof EI as (I & C & T & Z1 & Ht & P & Fl & SS). pose proof I as (_ & _ & Hp). rewrite P in Hp.
  assert (changes c = false \/ io_write flags = false \/ (changes c = true /\ io_write flags = true)) as [Hc|[Hw|[Hc Hw]]] by (destruct (changes c), (io_write flags); auto).
  - rewrite <- Ex. apply (call_quiet im f c s s' f' b n e C); [|exact E]. intros Hc'. congruence.
  - rewrite <- Ex. apply (call_quiet im f c s s' f' b n e C); [|exact E]. intros Hc'. now rewrite Fl.
  - assert (forall st1 q b0 s2 st2 n2 e2, EInv s st1 (mkDoc (d_text d) (d_pos d)) \/ (exists q', EInv s st1 (mkDoc (d_text d) q')) -> 0 <= q -> q + zlen b0 < bs * N ->
      s_impl_write_at ob s st1 b0 q = Ret (s2, st2, n2, e2) -> ext (only_read x) s s2) as HW.
    { intros st1 q b0 s2 st2 n2 e2 HI Hq Hl E1. assert (SInv bs nb' blk' s st1 /\ clean_bits (dirty (scache st1)) /\ total (scache st1) = N) as (I1 & C1 & T1).
      { destruct HI as [HI|(q' & HI)]; destruct HI as (A1 & A2 & _ & _ & A3 & _); auto. }
      rewrite (impl_write_same s st1 b0 q I1 C1 T1 Hq Hl) in E1. eapply (s_impl_write_pres3 rd (ext (only_read x) s)); [| | |apply ext_refl|exact E1].
      - intros s1 i b1 s3 b3 e3 A B. exact (fetch_only im x s s1 i b1 s3 b3 e3 A B).
      - intros s1 i b1 s3 e3 A B. injection B as <- _. exact A.
      - intros s1 i s3 e3 A B. injection B as <- _. exact A. }
    assert (EInv s (fl_stream f) (mkDoc (d_text d) (d_pos d))) as EI0 by (destruct d; exact EI).
    destruct c; try discriminate Hc; cbn [file_call in_place] in *; unfold bind, ret, fl_write, fl_write_at, fl_truncate in E; rewrite ?Ex in E.
    + unfold s_write in E. rewrite Fl, Hw in E. cbn [negb] in E. unfold place in Hi. destruct (io_append flags).
      * unfold s_seek in E. change (2 =? 0) with false in E. change (2 =? 1) with false in E. change (2 =? 2) with true in E. cbv iota zeta in E. pose proof (zlen_nonneg b0) as Hz.
        rewrite Z.add_0_r, Z1, (i64_id sz) in E by lia. replace (sz <? 0) with false in E by lia. cbv iota in E. cbn [set_pos spos] in E.
        destruct (s_impl_write_at _ _ _ _ _) as [[[[s2 st2] n2] e2]| |] eqn:E2; try discriminate. injection E as <- _ _ _ _. eapply HW; [right; eexists; apply (e_pos s _ d sz EI); lia| | |exact E2]; auto; lia.
      * cbv iota in E. destruct (s_impl_write_at _ _ _ _ _) as [[[[s2 st2] n2] e2]| |] eqn:E2; try discriminate. injection E as <- _ _ _ _. rewrite P in E2. eapply HW; [left; exact EI0| | |exact E2]; lia.
    + unfold s_write_at in E. destruct (io_append _); [injection E as <- _ _ _ _; apply ext_refl|].
      destruct (s_impl_write_at _ _ _ _ _) as [[[[s2 st2] n2] e2]| |] eqn:E2; try discriminate. injection E as <- _ _ _ _. eapply HW; [left; exact EI0| | |exact E2]; lia.
    + unfold s_truncate in E. rewrite Fl, Hw in E. cbn [negb] in E. replace (n0 <? 0) with true in E by (specialize (Hi Hw); lia). injection E as <- _ _ _ _. apply ext_refl.
Qed.
Lemma replay_snoc d cs c : replay flags sz bs N d (cs ++ [c]) =
  let '(d1, l) := replay flags sz bs N d cs in let '(d2, a) := expected flags sz bs N d1 c in (d2, l ++ [a]).
Proof.
  revert d. induction cs as [|c0 cs IH]; intros d; cbn [app replay].
  - destruct (expected flags sz bs N d c). reflexivity.
  - destruct (expected flags sz bs N d c0) as [d1 a]. rewrite IH. destruct (replay _ _ _ _ d1 cs) as [d2 l]. destruct (expected flags sz bs N d2 c). reflexivity.
Qed.
Lemma in_place_snoc d cs c : all_in_place flags sz bs N d (cs ++ [c]) <-> all_in_place flags sz bs N d cs /\ in_place flags sz bs N (fst (replay flags sz bs N d cs)) c.
Proof.
  revert d. induction cs as [|c0 cs IH]; intros d; cbn [app replay all_in_place]; [cbn [fst]; tauto|]. rewrite IH.
  destruct (expected flags sz bs N d c0) as [d1 a]. cbn [fst]. destruct (replay _ _ _ _ d1 cs) as [d2 l]. cbn [fst]. tauto.
Qed.
Lemma e_session (others : dst F -> dst F -> Prop) f s d l f' s' :
  (forall a b, others a b -> nb (d_fs b) = nb (d_fs a) /\ forall j, 0 <= j < nb (d_fs a) -> blk (d_fs b) j = blk (d_fs a) j) ->
  fl_obj f = x -> EInv s (fl_stream f) d -> session im others f s l f' s' -> all_in_place flags sz bs N d (map fst l) ->
  EInv s' (fl_stream f') (fst (replay flags sz bs N d (map fst l))) /\ map snd l = snd (replay flags sz bs N d (map fst l)) /\ fl_obj f' = x.
Proof.
  intros HO Ex EI Hs. induction Hs as [|l f1 s1 c f2 s2 b n e Hs IH E|l f1 s1 s2 Hs IH Ho]; intros Hp.
  - auto.
  - rewrite !map_app in *. cbn [map fst snd] in *. apply in_place_snoc in Hp as [Hp Hi]. destruct (IH Hp) as (EI1 & Ha & Ex1). rewrite replay_snoc.
    destruct (replay flags sz bs N d (map fst l)) as [d1 as1]. cbn [fst snd] in *. destruct (expected flags sz bs N d1 c) as [d2 [[b2 n2] e2]] eqn:Hx. cbn [fst snd].
    destruct (e_call f1 c s1 d1 d2 b2 n2 e2 Ex1 EI1 Hi Hx) as (s3 & f3 & E3 & EI3 & Ex3). rewrite E in E3. injection E3 as <- <- -> -> ->. rewrite Ha. auto.
  - destruct (IH Hp) as (EI1 & Ha & Ex1). split; [|auto]. destruct (HO _ _ Ho) as [O1 O2]. eapply e_others; eauto.
Qed.
End Ed.
Lemma edit_start {F H} (im : impl F H) wm d fuel p flags perm s s1 f l f' s' (bs : H -> Z) (nb : H -> F -> Z) (blk : H -> F -> Z -> list Z) :
  (forall h, 0 < bs h < 2^62 /\ reads_honestly im h (bs h) (nb h) (blk h)) ->
  open_file im wm d fuel p flags perm s = Done s1 (inl f) -> io_truncate flags = false ->
  let h := x_h (fl_obj f) in let st := h_stat im (d_fs s1) h in
  stored_as_stat_says im bs nb (d_fs s1) h -> bs h * f_nblocks st + bs h < 2^63 -> (forall fs i b, snd (h_read im fs h i b) = None) ->
  session im (spare h nb blk) f s1 l f' s' ->
  let doc0 := mkDoc (storage_bytes (blk h) (d_fs s1) (f_nblocks st)) 0 in
  all_in_place flags (f_size st) (bs h) (f_nblocks st) doc0 (map fst l) ->
  meth (fl_obj f) = true /\ 0 <= f_size st <= bs h * f_nblocks st /\
  EInv (bs h) (nb h) (blk h) s1 flags (f_size st) (f_nblocks st) s' (fl_stream f') (fst (replay flags (f_size st) (bs h) (f_nblocks st) doc0 (map fst l))) /\
  map snd l = snd (replay flags (f_size st) (bs h) (f_nblocks st) doc0 (map fst l)) /\ fl_obj f' = fl_obj f.
Proof.
  intros HR E Ht h st Hst Hf Hrel U doc0 Hi. apply open_inv in E as (s0 & x & Hm & _ & E & _). apply new_file_inv in E as (_ & Ex & Hfl & Est & _ & HN).
  destruct (HN Ht) as (-> & Hs & _). subst h st doc0. rewrite Ex in *. destruct (HR (x_h x)) as [Hbs Hrd]. destruct Hst as (Eb & HN1 & Hf1 & Hsz). rewrite Eb in Hf1, Hsz.
  split; [exact Hm|]. split; [exact Hsz|]. eapply (e_session im x (bs (x_h x)) (nb (x_h x)) (blk (x_h x))); try eassumption.
  - intros a b [O1 O2]. auto.
  - pose proof (rinv_new im x (bs (x_h x)) (nb (x_h x)) (blk (x_h x)) Hm Hrd Hbs s0 Eb HN1 Hf1 Hsz flags) as (I & C & T & Z1 & SS).
    rewrite Hs, Est. split; [exact I|]. split; [exact C|]. split; [exact T|]. split; [exact Z1|]. split; [|split; [reflexivity|split; [reflexivity|exact SS]]].
    cbn [scache new_cache total]. apply u64_small. nia.
Qed.

(* to build sessions in examples *)
Fixpoint perform {F H} (im : impl F H) (f : file H) (s : dst F) (l : list (fcall * answer)) (cs : list fcall) : option (list (fcall * answer) * file H * dst F) :=
  match cs with
  | [] => Some (l, f, s)
  | c :: cs => match file_call im f c s with Done s' (f', b, n, e) => perform im f' s' (l ++ [(c, (b, n, e))]) cs | _ => None end
  end.
Lemma perform_session {F H} (im : impl F H) others f0 s0 cs : forall f s l l' f' s',
  session im others f0 s0 l f s -> perform im f s l cs = Some (l', f', s') -> session im others f0 s0 l' f' s'.
Proof.
  induction cs as [|c cs IH]; intros f s l l' f' s' Hs; cbn [perform]; [intros [= <- <- <-]; exact Hs|].
  destruct (file_call im f c s) as [s1 [[[f1 b] n] e]| |] eqn:E; try discriminate. apply IH. eapply ss_call; eauto.
Qed.
