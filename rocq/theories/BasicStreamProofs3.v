(** * BasicStreamProofs3: which blocks reach the storage; WriteTo and ReadFrom. *)
From Verif Require Import GoBase ListZ Errors Flags BlockCache Spec_BlockCache
  BlockCacheProofs BlockCacheProofs2 BlockCacheProofs3 BlockCacheProofs4 BasicStream Spec_BasicStream
  BasicStreamProofs BasicStreamProofs2.

Section P3.
Context {S : Type} (cb : callbacks S) (bs : Z) (nb : S -> Z) (blk : S -> Z -> list Z).
Hypothesis H : honest cb bs nb blk.
Hypothesis Hbs : 0 < bs < 2^62.
Let Hbs0 : 0 < bs := proj1 Hbs.
Notation SInv := (SInv bs nb blk).
Notation Kept := (Kept bs nb blk).

Definition dirtyb (c : cache) (v : bool) : Prop := forall i, 0 <= i < total c -> znth false (dirty c) i = v.
Definition keep (n : Z) (s s' : S) : Prop := forall j, 0 <= j < n -> blk s' j = blk s j.
Lemma keep_trans n m s s1 s2 : keep n s s1 -> keep m s1 s2 -> m <= n -> keep m s s2.
Proof. intros A B L j Hj. rewrite B by lia. apply A. lia. Qed.

Lemma flushes_none A P l ok evs : (forall i, In i l -> P i = false) -> flushes bs A P l ok evs -> evs = [] /\ ok = true.
Proof.
  intros HP F. unfold flushes in F. replace (filter P l) with (@nil Z) in F.
  2:{ clear F. induction l as [|a l IH]; [reflexivity|]. cbn. rewrite (HP a) by now left.
      apply IH. intros; apply HP; now right. }
  destruct ok; [cbn in F; auto|]. destruct F as (l1 & j & l2 & E & _). destruct l1; discriminate.
Qed.
Lemma sync_clean s st : SInv s st -> dirtyb (scache st) false ->
  exists c' e, s_sync cb s st = Ret (s, set_cache st c', e) /\ total c' = total (scache st) /\ dirtyb c' false /\
    contents blk s c' = sblocks blk s st /\ WI bs nb blk s c' /\ (0 < total (scache st) -> e = None).
Proof.
  intros I D. pose proof (sync_spec cb bs nb blk H Hbs s st I) as F. destruct (0 <? total (scache st)) eqn:ET.
  - destruct F as (s' & c' & e & evs & E & W' & Ht & HC & Hnb & Hac & Hf & Hcl).
    apply flushes_none in Hf. 2:{ intros i Hi. apply In_zrange in Hi. apply D. lia. }
    destruct Hf as [-> Hok]. inversion Hac; subst s'. destruct e; [discriminate|].
    exists c', None. split; [exact E|]. split; [exact Ht|]. split; [exact (Hcl eq_refl)|]. auto.
  - exists (scache st), (Some (K ErrArgumentOutOfRange)). split; [rewrite F; destruct st; reflexivity|].
    destruct I as (W & _). split; [reflexivity|]. split; [exact D|]. split; [reflexivity|]. split; [exact W|]. lia.
Qed.
Lemma trunc_clean s st n s' st' e : SInv s st -> dirtyb (scache st) false -> n + bs < 2^63 ->
  s_truncate cb s st n = Ret (s', st', e) -> total (scache st') <= total (scache st) ->
  dirtyb (scache st') false /\ keep (total (scache st')) s s'.
Proof.
  intros I D Hf E Hle.
  destruct (io_write (sflags st)) eqn:Hw.
  2:{ unfold s_truncate in E. rewrite Hw in E. cbn [negb] in E. injection E as <- <- <-. split; [exact D|intros j _; reflexivity]. }
  destruct (Z_lt_le_dec n 0) as [Hn|Hn].
  { unfold s_truncate in E. rewrite Hw in E. cbn [negb] in E. replace (n <? 0) with true in E by lia.
    injection E as <- <- <-. split; [exact D|intros j _; reflexivity]. }
  pose proof (truncate_spec cb bs nb blk H Hbs s st n I Hw Hn Hf) as T. cbn zeta in T.
  pose proof I as (W & Hsz & Hp). pose proof (i_total _ _ _ _ _ W) as HT.
  destruct (snd (cb_resize cb s ((n + bs - 1) / bs))) as [er|] eqn:ER.
  - destruct T as (E1 & _ & U). rewrite E1 in E. injection E as <- <- <-. split; [exact D|].
    destruct U as (_ & _ & _ & _ & _ & U). intros j Hj. apply U. lia.
  - destruct T as (s1 & c1 & W1 & Ht & _ & _ & Hold & I1 & Es1 & E1). rewrite E1 in E.
    assert (keep ((n + bs - 1) / bs) s s1 \/ total (scache st) < (n + bs - 1) / bs) as HK.
    { destruct (Z_lt_le_dec (total (scache st)) ((n + bs - 1) / bs)); [now right|left].
      destruct (cb_resize cb s ((n + bs - 1) / bs)) as [sx ex] eqn:EC. cbn in ER, Es1. subst.
      destruct (h_resize _ _ _ _ H _ _ _ _ (cdiv_nonneg bs n Hbs0 Hn) (ltac:(pose proof (cdiv_lt bs n Hbs0); lia)) EC) as [_ Q]. intros j Hj. apply Q; lia. }
    destruct (io_synchronous (sflags st)).
    + destruct (Z_lt_le_dec (total (scache st)) ((n + bs - 1) / bs)) as [L|L].
      { exfalso. destruct (sync_ret cb bs nb blk H Hbs _ _ I1) as (s2 & st2 & e2 & E2 & _ & _ & _ & Ht2 & _).
        rewrite E2 in E. injection E as <- <- <-. cbn [set_size set_cache scache] in Ht2. lia. }
      destruct HK as [HK|]; [|lia].
      destruct (sync_clean s1 _ I1) as (c2 & e2 & E2 & Ht2 & D2 & _).
      { intros i Hi. cbn [set_size set_cache scache] in *. rewrite Hold by lia. apply D. lia. }
      rewrite E2 in E. injection E as <- <- <-. cbn [set_size set_cache scache] in *. split; [exact D2|].
      rewrite Ht2, Ht. exact HK.
    + injection E as <- <- <-. cbn [set_size set_cache scache] in *. destruct HK as [HK|]; [|lia]. split.
      * intros i Hi. rewrite Hold by lia. apply D. lia.
      * rewrite Ht. exact HK.
Qed.
Lemma kept_keep s c s' c' : WI bs nb blk s c -> Kept s c s' c' -> keep (total c) s s'.
Proof. intros W (_ & _ & _ & _ & _ & Q) j Hj. apply Q. pose proof (i_total _ _ _ _ _ W). lia. Qed.
Lemma kept_dirty s c s' c' v : Kept s c s' c' -> dirtyb c v -> dirtyb c' v.
Proof. intros (_ & Ht & _ & Hd & _) D i Hi. rewrite Hd. apply D. lia. Qed.
Lemma tail_clean s st b off s' st' n e : SInv s st -> dirtyb (scache st) false -> 0 <= off -> off + zlen b + bs < 2^63 ->
  write_tail cb bs s st b off = Ret (s', st', n, e) ->
  dirtyb (scache st') false /\ keep (total (scache st')) s s' /\ total (scache st') = total (scache st).
Proof.
  intros I D Ho Hf E. pose proof (write_tail_spec cb bs nb blk H Hbs s st b off I Ho Hf) as T. pose proof I as (W & _).
  destruct (write_fits _ _ _ _).
  - destruct T as (s2 & c2 & e2 & evs & HK & _ & _ & T). pose proof (kept_keep _ _ _ _ W HK) as KK. destruct e2 as [e2|].
    + rewrite T in E. injection E as <- <- <- <-. cbn [set_cache scache]. split; [eapply kept_dirty; eauto|].
      destruct HK as (_ & Ht & _). rewrite Ht. auto.
    + destruct T as (c3 & W3 & Ht3 & Hd3 & _ & _ & I3 & E3). rewrite E3 in E.
      assert (dirtyb c3 false) as D3 by (intros i Hi; rewrite Hd3; apply D; lia).
      destruct (io_synchronous _).
      * destruct (sync_clean s2 _ I3 D3) as (c4 & e4 & E4 & Ht4 & D4 & _). rewrite E4 in E. injection E as <- <- <- <-.
        cbn [set_cache scache] in *. rewrite Ht4, Ht3. auto.
      * injection E as <- <- <- <-. cbn [set_cache scache]. rewrite Ht3. auto.
  - rewrite T in E. injection E as <- <- <- <-. split; [exact D|]. split; [intros j _; reflexivity|reflexivity].
Qed.
Lemma impl_clean s st b off s' st' n e : SInv s st -> dirtyb (scache st) false -> 0 <= off -> off + zlen b + bs < 2^63 ->
  s_impl_write_at cb s st b off = Ret (s', st', n, e) -> total (scache st') <= total (scache st) ->
  dirtyb (scache st') false /\ keep (total (scache st')) s s'.
Proof.
  intros I D Ho Hf E Hle.
  destruct (io_write (sflags st)) eqn:Hw.
  2:{ unfold s_impl_write_at in E. rewrite Hw in E. cbn [negb] in E. injection E as <- <- <- <-. split; [exact D|intros j _; reflexivity]. }
  rewrite (impl_write_unfold cb bs nb blk Hbs) in E by auto. destruct (_ >=? _) eqn:EG.
  - destruct (truncate_ret cb bs nb blk H Hbs s st (off + zlen b) I ltac:(lia)) as (s1 & st1 & e1 & E1 & I1 & [F1 F2]).
    rewrite E1 in E. destruct e1 as [e1|].
    + injection E as <- <- <- <-. eapply trunc_clean; eauto; lia.
    + rewrite F1, Bool.eqb_reflx in E.
      destruct (tail_cases cb bs nb blk H Hbs s1 st1 b off I1 Ho Hf) as (x1 & x2 & x3 & x4 & X & _ & _ & _ & Ht & _).
      rewrite E in X. injection X as <- <- <- <-.
      destruct (trunc_clean s st (off + zlen b) s1 st1 None I D ltac:(lia) E1 ltac:(lia)) as [D1 K1].
      destruct (tail_clean s1 st1 b off s' st' n e I1 D1 Ho Hf E) as (D2 & K2 & Ht2). split; [exact D2|].
      eapply keep_trans; eauto. lia.
  - rewrite Bool.eqb_reflx in E. destruct (tail_clean s st b off s' st' n e I D Ho Hf E) as (D2 & K2 & _). auto.
Qed.

(* position of the next Write *)
Definition wpos (st : stream) : Z := if io_append (sflags st) then ssize st else spos st.
Lemma write_unfold s st b : SInv s st -> io_write (sflags st) = true ->
  s_write cb s st b =
    match s_impl_write_at cb s (set_pos st (wpos st)) b (wpos st) with
    | Ret (s2, st2, n, e) => Ret (s2, set_pos st2 (i64 (spos st2 + n)), n, e)
    | Panic => Panic
    | OutOfFuel => OutOfFuel
    end.
Proof.
  intros I Hw. pose proof I as (W & Hsz & Hp). unfold s_write. rewrite Hw. cbn [negb].
  assert ((if io_append (sflags st) then s_seek st 0 2 else (st, 0, None)) =
          (set_pos st (wpos st), if io_append (sflags st) then ssize st else 0, None)) as ES.
  { unfold wpos. destruct (io_append (sflags st)); [|destruct st; reflexivity].
    unfold s_seek. change (2 =? 0) with false. change (2 =? 1) with false. change (2 =? 2) with true. cbv beta iota zeta.
    pose proof (winv_small cb bs nb blk H Hbs _ _ W) as (_ & HF & _).
    rewrite Z.add_0_r, i64_id by lia. replace (ssize st <? 0) with false by lia. reflexivity. }
  rewrite ES. reflexivity.
Qed.
Lemma wpos_range s st : SInv s st -> 0 <= wpos st < 2^63.
Proof.
  intros (W & Hsz & Hp). pose proof (winv_small cb bs nb blk H Hbs _ _ W). unfold wpos. destruct (io_append _); lia.
Qed.

Lemma step_clean s st o s' st' r : SInv s st -> dirtyb (scache st) false -> sop_ok bs st o ->
  sexec_op cb s st o = Ret (s', st', r) -> total (scache st') <= total (scache st) ->
  dirtyb (scache st') false /\ keep (total (scache st')) s s'.
Proof.
  intros I D Hok E Hle. pose proof I as (W & Hsz & Hp).
  assert (forall (len off : Z) x1 x2 x3 x4 x5, 0 <= len -> 0 <= off -> off + len < 2^63 ->
    s_read_at cb s st (zrepeat 0 len) off = Ret (x1, x2, x3, x4, x5) ->
    dirtyb (scache x2) false /\ keep (total (scache x2)) s x1) as HR.
  { intros len off x1 x2 x3 x4 x5 A B C X.
    destruct (read_at_ret cb bs nb blk H Hbs s st (zrepeat 0 len) off I B) as (s1 & c1 & b & n & e & E1 & HK & _); [rewrite zlen_repeat; lia|].
    rewrite E1 in X. injection X as <- <- <- <- <-. cbn [set_cache scache]. split; [eapply kept_dirty; eauto|].
    pose proof (kept_keep _ _ _ _ W HK). destruct HK as (_ & Ht & _). now rewrite Ht. }
  destruct o as [len off|len|b off|b|off w|n|]; cbn [sexec_op sop_ok] in *.
  - destruct (s_read_at cb s st (zrepeat 0 len) off) as [[[[[x1 x2] x3] x4] x5]| |] eqn:ER; try discriminate.
    injection E as <- <- <-. eapply HR; eauto; lia.
  - unfold s_read in E.
    destruct (s_read_at cb s st (zrepeat 0 len) (spos st)) as [[[[[x1 x2] x3] x4] [x5|]]| |] eqn:ER; try discriminate;
      injection E as <- <- <-; apply (HR len (spos st) x1 x2 x3 x4 _ ltac:(lia) ltac:(lia) ltac:(lia) ER).
  - unfold s_write_at in E. destruct (io_append _).
    + injection E as <- <- <-. split; [exact D|intros j _; reflexivity].
    + destruct (s_impl_write_at cb s st b off) as [[[[x1 x2] x3] x4]| |] eqn:ER; try discriminate.
      injection E as <- <- <-. eapply impl_clean; eauto; lia.
  - destruct (io_write (sflags st)) eqn:Hw.
    2:{ unfold s_write in E. rewrite Hw in E. cbn [negb] in E. injection E as <- <- <-. split; [exact D|intros j _; reflexivity]. }
    rewrite write_unfold in E by auto. pose proof (wpos_range s st I) as HWP.
    destruct (s_impl_write_at cb s (set_pos st (wpos st)) b (wpos st)) as [[[[x1 x2] x3] x4]| |] eqn:ER; try discriminate.
    injection E as <- <- <-. cbn [set_pos scache] in *.
    eapply (impl_clean s (set_pos st (wpos st))); eauto; try lia.
    + apply set_pos_inv; [exact I|lia].
    + unfold wpos. destruct (io_append _); lia.
  - destruct (s_seek st off w) as [[x1 x2] x3] eqn:ES. injection E as <- <- <-.
    assert (scache x1 = scache st) as ->.
    { unfold s_seek in ES. repeat match type of ES with (if ?c then _ else _) = _ => destruct c end; injection ES as <- _ _; reflexivity. }
    split; [exact D|intros j _; reflexivity].
  - destruct (s_truncate cb s st n) as [[[x1 x2] x3]| |] eqn:ER; try discriminate. injection E as <- <- <-.
    eapply trunc_clean; eauto; lia.
  - destruct (sync_clean s st I D) as (c' & e & E1 & Ht & D' & _). rewrite E1 in E. injection E as <- <- <-.
    split; [exact D'|intros j _; reflexivity].
Qed.

(** ** Streams all of whose blocks are pending *)
Lemma trunc_dirty s st n s' st' e : SInv s st -> dirtyb (scache st) true -> io_synchronous (sflags st) = false -> n + bs < 2^63 ->
  s_truncate cb s st n = Ret (s', st', e) -> dirtyb (scache st') true.
Proof.
  intros I D Hy Hf E.
  destruct (io_write (sflags st)) eqn:Hw.
  2:{ unfold s_truncate in E. rewrite Hw in E. cbn [negb] in E. injection E as <- <- <-. exact D. }
  destruct (Z_lt_le_dec n 0) as [Hn|Hn].
  { unfold s_truncate in E. rewrite Hw in E. cbn [negb] in E. replace (n <? 0) with true in E by lia.
    injection E as <- <- <-. exact D. }
  pose proof (truncate_spec cb bs nb blk H Hbs s st n I Hw Hn Hf) as T. cbn zeta in T.
  destruct (snd (cb_resize cb s ((n + bs - 1) / bs))) as [er|] eqn:ER.
  - destruct T as (E1 & _ & _). rewrite E1 in E. injection E as <- <- <-. exact D.
  - destruct T as (s1 & c1 & W1 & Ht & _ & Hnew & Hold & I1 & Es1 & E1). rewrite E1, Hy in E.
    injection E as <- <- <-. cbn [set_size set_cache scache]. intros i Hi.
    destruct (Z_lt_le_dec i (total (scache st))); [rewrite Hold by lia; apply D; lia|apply Hnew; lia].
Qed.
Lemma tail_dirty s st b off s' st' n e : SInv s st -> dirtyb (scache st) true -> io_synchronous (sflags st) = false ->
  0 <= off -> off + zlen b + bs < 2^63 ->
  write_tail cb bs s st b off = Ret (s', st', n, e) -> dirtyb (scache st') true.
Proof.
  intros I D Hy Ho Hf E. pose proof (write_tail_spec cb bs nb blk H Hbs s st b off I Ho Hf) as T.
  destruct (write_fits _ _ _ _).
  - destruct T as (s2 & c2 & e2 & evs & HK & _ & _ & T). destruct e2 as [e2|].
    + rewrite T in E. injection E as <- <- <- <-. eapply kept_dirty; eauto.
    + destruct T as (c3 & W3 & Ht3 & Hd3 & _ & _ & I3 & E3). rewrite E3, Hy in E. injection E as <- <- <- <-.
      cbn [set_cache scache]. intros i Hi. rewrite Hd3. apply D. lia.
  - rewrite T in E. injection E as <- <- <- <-. exact D.
Qed.
Lemma impl_dirty s st b off s' st' n e : SInv s st -> dirtyb (scache st) true -> io_synchronous (sflags st) = false ->
  0 <= off -> off + zlen b + bs < 2^63 ->
  s_impl_write_at cb s st b off = Ret (s', st', n, e) -> dirtyb (scache st') true.
Proof.
  intros I D Hy Ho Hf E.
  destruct (io_write (sflags st)) eqn:Hw.
  2:{ unfold s_impl_write_at in E. rewrite Hw in E. cbn [negb] in E. injection E as <- <- <- <-. exact D. }
  rewrite (impl_write_unfold cb bs nb blk Hbs) in E by auto. destruct (_ >=? _) eqn:EG.
  - destruct (truncate_ret cb bs nb blk H Hbs s st (off + zlen b) I ltac:(lia)) as (s1 & st1 & e1 & E1 & I1 & [F1 F2]).
    rewrite E1 in E. pose proof (trunc_dirty s st (off + zlen b) s1 st1 e1 I D Hy ltac:(lia) E1) as D1. destruct e1 as [e1|].
    + injection E as <- <- <- <-. exact D1.
    + rewrite F1, Bool.eqb_reflx in E. eapply tail_dirty; eauto. now rewrite F1.
  - rewrite Bool.eqb_reflx in E. eapply tail_dirty; eauto.
Qed.
Lemma step_dirty s st o s' st' r : SInv s st -> dirtyb (scache st) true -> io_synchronous (sflags st) = false ->
  sop_ok bs st o -> o <> TSync -> sexec_op cb s st o = Ret (s', st', r) -> dirtyb (scache st') true.
Proof.
  intros I D Hy Hok Hns E. pose proof I as (W & Hsz & Hp).
  assert (forall (len off : Z) x1 x2 x3 x4 x5, 0 <= len -> 0 <= off -> off + len < 2^63 ->
    s_read_at cb s st (zrepeat 0 len) off = Ret (x1, x2, x3, x4, x5) -> dirtyb (scache x2) true) as HR.
  { intros len off x1 x2 x3 x4 x5 A B C X.
    destruct (read_at_ret cb bs nb blk H Hbs s st (zrepeat 0 len) off I B) as (s1 & c1 & b & n & e & E1 & HK & _); [rewrite zlen_repeat; lia|].
    rewrite E1 in X. injection X as <- <- <- <- <-. eapply kept_dirty; eauto. }
  destruct o as [len off|len|b off|b|off w|n|]; cbn [sexec_op sop_ok] in *.
  - destruct (s_read_at cb s st (zrepeat 0 len) off) as [[[[[x1 x2] x3] x4] x5]| |] eqn:ER; try discriminate.
    injection E as <- <- <-. eapply HR; eauto; lia.
  - unfold s_read in E.
    destruct (s_read_at cb s st (zrepeat 0 len) (spos st)) as [[[[[x1 x2] x3] x4] [x5|]]| |] eqn:ER; try discriminate;
      injection E as <- <- <-; apply (HR len (spos st) x1 x2 x3 x4 _ ltac:(lia) ltac:(lia) ltac:(lia) ER).
  - unfold s_write_at in E. destruct (io_append _).
    + injection E as <- <- <-. exact D.
    + destruct (s_impl_write_at cb s st b off) as [[[[x1 x2] x3] x4]| |] eqn:ER; try discriminate.
      injection E as <- <- <-. eapply impl_dirty; eauto; lia.
  - destruct (io_write (sflags st)) eqn:Hw.
    2:{ unfold s_write in E. rewrite Hw in E. cbn [negb] in E. injection E as <- <- <-. exact D. }
    rewrite write_unfold in E by auto. pose proof (wpos_range s st I) as HWP.
    destruct (s_impl_write_at cb s (set_pos st (wpos st)) b (wpos st)) as [[[[x1 x2] x3] x4]| |] eqn:ER; try discriminate.
    injection E as <- <- <-. cbn [set_pos scache] in *.
    eapply (impl_dirty s (set_pos st (wpos st))); eauto; try lia.
    + apply set_pos_inv; [exact I|lia].
    + unfold wpos. destruct (io_append _); lia.
  - destruct (s_seek st off w) as [[x1 x2] x3] eqn:ES. injection E as <- <- <-.
    assert (scache x1 = scache st) as ->.
    { unfold s_seek in ES. repeat match type of ES with (if ?c then _ else _) = _ => destruct c end; injection ES as <- _ _; reflexivity. }
    exact D.
  - destruct (s_truncate cb s st n) as [[[x1 x2] x3]| |] eqn:ER; try discriminate. injection E as <- <- <-.
    eapply trunc_dirty; eauto; lia.
  - congruence.
Qed.
Lemma sync_dirty s st s' st' : SInv s st -> dirtyb (scache st) true -> s_sync cb s st = Ret (s', st', None) ->
  storage_bytes blk s' (total (scache st')) = sblocks blk s st /\ sblocks blk s' st' = sblocks blk s st.
Proof.
  intros (W & _) D E. unfold s_sync in E. destruct (flush_all cb s (scache st)) as [[[x1 c1] x3]| |] eqn:EF; try discriminate.
  injection E as <- <- ->.
  assert (@WInv True S bs nb blk s (scache st)) as W1.
  { destruct W as [A1 A2 A3 A4 A5 A6 A7 A8]. constructor; auto. intros _ i Hi Hl Hd.
    specialize (D i Hi). congruence. }
  destruct (flush_ok_clean cb bs nb blk H s _ _ _ Hbs0 W1 EF) as (_ & Ht & HC & _ & HS & _).
  cbn [set_cache scache]. rewrite Ht. split; [exact HS|exact HC].
Qed.

(** ** Runs *)
Lemma runs_inv P s st s' st' : SInv s st -> sruns cb bs P s st s' st' -> SInv s' st' /\ sflags st' = sflags st.
Proof.
  intros I R. induction R as [|s st o s1 st1 r s2 st2 Hok E _ _ IH]; [auto|].
  destruct (step_ret cb bs nb blk H Hbs s st o I Hok) as (x & y & z & E' & I' & F).
  rewrite E in E'. injection E' as <- <- <-. destruct (IH I') as [A B]. split; [exact A|congruence].
Qed.
Lemma new_clean total0 : 0 <= total0 -> dirtyb (new_cache bs total0) false.
Proof. intros Ht i Hi. cbn [new_cache dirty]. apply bitmap_new_false. Qed.
End P3.

(** ** WriteTo *)
Section WT.
Context {S : Type} (cb : callbacks S) (bs : Z) (nb : S -> Z) (blk : S -> Z -> list Z).
Hypothesis H : honest cb bs nb blk.
Hypothesis Hbs : 0 < bs < 2^62.
Let Hbs0 : 0 < bs := proj1 Hbs.
Notation SInv := (SInv bs nb blk).

Lemma kept_unch s st s' c' p : SInv s st -> Kept bs nb blk s (scache st) s' c' ->
  sunchanged nb blk s st s' (set_pos (set_cache st c') p).
Proof.
  intros _ (_ & Ht & HC & _ & Hnb & Hb). repeat (split; [reflexivity|]). split; [exact Ht|]. split; [exact HC|]. auto.
Qed.
Lemma unch_trans s st s1 st1 s2 st2 : sunchanged nb blk s st s1 st1 -> sunchanged nb blk s1 st1 s2 st2 ->
  sunchanged nb blk s st s2 st2.
Proof.
  intros (A1 & A2 & A3 & A4 & A5 & A6) (B1 & B2 & B3 & B4 & B5 & B6).
  split; [congruence|]. split; [congruence|]. split; [congruence|]. split; [congruence|]. split; [congruence|].
  intros j Hj. rewrite B6 by congruence. auto.
Qed.
Lemma unch_sbytes s st s1 st1 : sunchanged nb blk s st s1 st1 -> sbytes blk s1 st1 = sbytes blk s st.
Proof. intros (A1 & _ & _ & A4 & _). unfold sbytes. now rewrite A1, A4. Qed.
Lemma sbytes_len s st : SInv s st -> zlen (sbytes blk s st) = ssize st.
Proof.
  intros I. pose proof (sblocks_len cb bs nb blk H Hbs s st I) as L. destruct I as (_ & Hsz & _).
  unfold sbytes. apply zlen_slice; lia.
Qed.
Lemma sbytes_slice s st off n : SInv s st -> 0 <= off -> 0 <= n -> off + n <= ssize st ->
  slice off n (sblocks blk s st) = slice off n (sbytes blk s st).
Proof. intros I Ho Hn Hl. unfold sbytes. rewrite slice_slice by lia. f_equal. Qed.

(* one Read when there are bytes left, or not *)
Lemma read_spec s st buf : SInv s st -> io_read (sflags st) = true -> 0 < zlen buf -> ssize st + zlen buf < 2^63 ->
  let n := Z.max 0 (Z.min (zlen buf) (ssize st - spos st)) in
  exists s' c' e evs, Kept bs nb blk s (scache st) s' c' /\ accesses cb s evs s' /\
    erep cb e evs /\
    s_read cb s st buf =
      match e with
      | Some e => Ret (s', set_cache st c', buf, 0, Some e)
      | None => Ret (s', set_pos (set_cache st c') (if n <? zlen buf then spos st else spos st + n),
                     splice 0 (slice (spos st) n (sbytes blk s st)) buf, n,
                     if n <? zlen buf then Some KEOF else None)
      end.
Proof.
  intros I Hr Hb Hf n. pose proof I as (W & Hsz & Hp). unfold s_read.
  destruct (Z_lt_le_dec (spos st) (ssize st)) as [L|G].
  - destruct (read_at_spec cb bs nb blk H Hbs s st buf (spos st) I Hr ltac:(lia) ltac:(lia) Hb L) as (s' & c' & e & evs & HK & Hac & He & E).
    cbn zeta in E. exists s', c', e, evs. do 3 (split; [assumption|]). rewrite E.
    replace (Z.min (zlen buf) (ssize st - spos st)) with n by lia. destruct e as [e|]; [reflexivity|].
    rewrite (sbytes_slice s st (spos st) n) by (auto; lia).
    destruct (n <? zlen buf) eqn:EN; [destruct st; reflexivity|]. cbn [set_cache spos]. rewrite i64_id by lia. reflexivity.
  - unfold s_read_at. rewrite Hr. cbn [negb]. replace (zlen buf =? 0) with false by lia.
    replace (spos st >=? ssize st) with true by lia.
    assert (n = 0) as -> by lia. exists s, (scache st), None, []. split; [repeat (split; [auto|]); auto|].
    split; [constructor|]. split; [split; [split; auto|discriminate]|]. replace (0 <? zlen buf) with true by lia.
    unfold slice. cbn [Z.to_nat firstn]. unfold splice. cbn [Z.to_nat firstn zlen length app]. rewrite skipn_O. destruct st; reflexivity.
Qed.

Lemma write_to_spec {W} (wr : W -> list Z -> W * Z * option kerr) : forall fuel s st buf w acc,
  SInv s st -> io_read (sflags st) = true -> zlen buf = bs -> ssize st + bs < 2^63 ->
  let rem := Z.max 0 (ssize st - spos st) in
  0 <= acc -> acc + rem < 2^63 -> (Z.to_nat (rem / bs) < fuel)%nat ->
  exists s' st' chunks e, write_to_loop cb wr fuel s st buf w acc =
      Ret (s', st', deliver wr w chunks, acc + zlen (concat chunks), e) /\
    SInv s' st' /\ sunchanged nb blk s st s' st' /\
    concat chunks = slice (spos st) (zlen (concat chunks)) (sbytes blk s st) /\ zlen (concat chunks) <= rem /\
    Forall (fun c => 0 < zlen c <= bs) chunks /\
    (e = None -> zlen (concat chunks) = rem) /\
    ((forall s i b, snd (cb_fetch cb s i b) = None) -> e = None /\ zlen (concat chunks) = rem /\
        spos st' = spos st + bs * (rem / bs)).
Proof.
  induction fuel as [|fuel IH]; intros s st buf w acc I Hr Hb Hf rem Ha Har Hfu; [lia|].
  cbn [write_to_loop]. pose proof I as (WW & Hsz & Hp).
  destruct (read_spec s st buf I Hr ltac:(lia) ltac:(lia)) as (s1 & c1 & e & evs & HK & Hac & He & E).
  cbn zeta in E. rewrite E. rewrite Hb in *. set (n := Z.max 0 (Z.min bs (ssize st - spos st))) in *.
  pose proof (sbytes_len s st I) as HL. pose proof (Z.div_pos rem bs ltac:(lia) Hbs0) as Hdp.
  assert (0 <= rem) as Hrem by lia.
  destruct e as [e|].
  - (* the fetch failed *)
    cbn [Z.gtb Z.compare]. exists s1, (set_cache st c1), [],
      (match e with KEOF => None | _ => Some e end).
    split; [cbn [deliver fold_left concat]; rewrite zlen_nil, Z.add_0_r; destruct e; reflexivity|].
    split; [eapply kept_sinv; eauto|].
    split. { replace (set_cache st c1) with (set_pos (set_cache st c1) (spos st)) by (destruct st; reflexivity). apply kept_unch; auto. }
    cbn [concat]. rewrite zlen_nil. split; [reflexivity|]. split; [exact Hrem|]. split; [constructor|].
    assert ((forall s i b, snd (cb_fetch cb s i b) = None) -> False) as HNF.
    { intros Hok. assert (forall i, ~ In (EvFetch i false) evs) as A.
      { clear - Hac Hok. induction Hac as [|x i buf x1 buf' e evs x2 E _ IH|x i buf x1 e evs x2 E _ IH|x n x1 e evs x2 E _ IH];
        intros i0 Hin; cbn in Hin; [tauto|..]; destruct Hin as [X|Hin]; try discriminate; try (eapply IH; eassumption).
        inversion X; subst. specialize (Hok x i0 buf). rewrite E in Hok. cbn in Hok. subst. discriminate. }
      apply (proj1 He) in A. discriminate. }
    split; [|intros Hok; exfalso; auto].
    intros EN. exfalso. destruct (proj2 He _ eq_refl) as (x1 & x2 & x3 & y & _ & ->). discriminate.
  - destruct (n <? bs) eqn:En.
    + (* short read: the end *)
      assert (n = rem) as Enr by (unfold rem; lia).
      destruct (n >? 0) eqn:En0.
      * exists s1, (set_pos (set_cache st c1) (spos st)), [slice (spos st) n (sbytes blk s st)], None.
        assert (zlen (slice (spos st) n (sbytes blk s st)) = n) as Hl by (apply zlen_slice; lia).
        assert (slice 0 n (splice 0 (slice (spos st) n (sbytes blk s st)) buf) = slice (spos st) n (sbytes blk s st)) as ES.
        { rewrite <- Hl at 1. apply slice_splice_same; lia. }
        rewrite ES. destruct (wr w (slice (spos st) n (sbytes blk s st))) as [[w1 wn] we] eqn:EW.
        cbn [deliver fold_left concat]. rewrite EW. cbn [fst]. rewrite app_nil_r, Hl. rewrite i64_id by lia.
        split; [reflexivity|]. split; [apply set_pos_inv; [eapply kept_sinv; eauto|lia]|]. split; [apply kept_unch; auto|].
        split; [reflexivity|]. split; [lia|]. split; [constructor; [lia|constructor]|]. split; [auto|].
        intros _. split; [reflexivity|]. split; [exact Enr|]. cbn [set_pos spos]. rewrite Z.div_small by lia. lia.
      * exists s1, (set_pos (set_cache st c1) (spos st)), [], None. cbn [deliver fold_left concat]. rewrite zlen_nil, Z.add_0_r.
        split; [reflexivity|]. split; [apply set_pos_inv; [eapply kept_sinv; eauto|lia]|]. split; [apply kept_unch; auto|].
        split; [reflexivity|]. split; [lia|]. split; [constructor|]. split; [intros; lia|].
        intros _. split; [reflexivity|]. split; [lia|]. cbn [set_pos spos]. rewrite Z.div_small by lia. lia.
    + (* a full block *)
      assert (n = bs) as Enb by lia. assert (bs <= rem) as Hbr by lia. rewrite Enb in *.
      replace (bs >? 0) with true by lia.
      assert (zlen (slice (spos st) bs (sbytes blk s st)) = bs) as Hl by (apply zlen_slice; lia).
      assert (slice 0 bs (splice 0 (slice (spos st) bs (sbytes blk s st)) buf) = slice (spos st) bs (sbytes blk s st)) as ES.
      { rewrite <- Hl at 1. apply slice_splice_same; lia. }
      rewrite ES. destruct (wr w (slice (spos st) bs (sbytes blk s st))) as [[w1 wn] we] eqn:EW. rewrite i64_id by lia.
      assert (SInv s1 (set_pos (set_cache st c1) (spos st + bs))) as I1 by (apply set_pos_inv; [eapply kept_sinv; eauto|lia]).
      assert (rem = ssize st - spos st) as Erem by lia.
      assert (Z.max 0 (ssize st - (spos st + bs)) = rem - bs) as Erem1 by lia.
      assert ((rem - bs) / bs = rem / bs - 1) as Ediv.
      { replace (rem - bs) with (rem + (-1) * bs) by lia. rewrite Z.div_add by lia. lia. }
      assert (1 <= rem / bs) by (apply Z.div_le_lower_bound; lia).
      destruct (IH s1 (set_pos (set_cache st c1) (spos st + bs)) (splice 0 (slice (spos st) bs (sbytes blk s st)) buf) w1 (acc + bs) I1)
        as (s' & st' & chunks & e & E' & I' & U' & Hc & Hcl & HF & HE1 & HE2); cbn [set_pos set_cache sflags ssize spos];
        rewrite ?Erem1, ?Ediv; try assumption; try (rewrite zlen_splice; lia); try lia.
      pose proof (kept_unch s st s1 c1 (spos st + bs) I HK) as U1. rewrite (unch_sbytes _ _ _ _ U1) in Hc.
      cbn [set_pos set_cache sflags ssize spos] in Hc, Hcl, HE1, HE2. rewrite Erem1 in *. rewrite Ediv in HE2.
      exists s', st', (slice (spos st) bs (sbytes blk s st) :: chunks), e. cbn [deliver fold_left concat]. rewrite EW. cbn [fst].
      rewrite zlen_app, Hl. split; [rewrite E'; unfold deliver; rewrite Z.add_assoc; reflexivity|]. split; [exact I'|].
      split; [eapply unch_trans; eauto|]. pose proof (zlen_nonneg (concat chunks)).
      split. { rewrite Hc at 1. symmetry. apply slice_split; lia. }
      split; [lia|]. split; [constructor; [lia|exact HF]|]. split.
      * intros B. specialize (HE1 B). lia.
      * intros A. destruct (HE2 A) as (B1 & B2 & B3). split; [exact B1|]. split; [lia|]. lia.
Qed.
End WT.

(** ** ReadFrom *)
Lemma write_none {S} (cb : callbacks S) s st b s' st' n : s_write cb s st b = Ret (s', st', n, None) -> n = zlen b.
Proof.
  unfold s_write, s_impl_write_at. intros E. destruct (negb _); [discriminate|].
  destruct (if io_append (sflags st) then s_seek st 0 2 else (st, 0, None)) as [[st1 p] [e|]]; [discriminate|].
  destruct (negb _); [discriminate|].
  destruct (conv_addr _ _) as [[x y]| |]; try discriminate. destruct (conv_addr _ _) as [[x' y']| |]; try discriminate.
  destruct (if x' >=? total (scache st1) then _ else _) as [[[s2 st2] [e|]]| |]; try discriminate.
  destruct (get_slice _ _ _ _ _) as [[[s3 c3] [tg|e]]| |]; try discriminate.
  destruct (y >? zlen tg); [discriminate|]. destruct (io_synchronous _).
  - destruct (s_sync _ _ _) as [[[s4 st4] e4]| |]; try discriminate. injection E as _ _ <- _. reflexivity.
  - injection E as _ _ <-. reflexivity.
Qed.
Lemma i64_add a b : i64 (i64 a + b) = i64 (a + b).
Proof.
  unfold i64. pose proof (Z.div_mod (a + 2^63) (2^64) ltac:(lia)).
  replace ((a + 2 ^ 63) mod 2 ^ 64 - 2 ^ 63 + b + 2 ^ 63) with (a + b + 2^63 + (- ((a + 2 ^ 63) / 2 ^ 64)) * 2^64) by lia.
  rewrite Z.mod_add by lia. reflexivity.
Qed.
Lemma read_from_spec {S R} (cb : callbacks S) (rd : R -> Z -> R * list Z * option kerr) bsz :
  (forall r r' c, rd r bsz = (r', c, Some KEOF) -> c = []) ->
  forall fuel s st r acc s' st' r' n, read_from_loop cb rd bsz fuel s st r acc = Ret (s', st', r', n, None) ->
  exists chunks r1 s1 st1 k we, reads rd bsz r chunks r1 /\ writes cb s st chunks s1 st1 /\
    rd r1 bsz = (r', [], Some KEOF) /\ s_write cb s1 st1 [] = Ret (s', st', k, we) /\ n = i64 (acc + zlen (concat chunks)).
Proof.
  intros HC. induction fuel as [|fuel IH]; intros s st r acc s' st' r' n E; cbn [read_from_loop] in E; [discriminate|].
  destruct (rd r bsz) as [[r1 c] re] eqn:ER.
  destruct (s_write cb s st c) as [[[[s1 st1] k] we]| |] eqn:EW; try discriminate.
  destruct re as [re|].
  - destruct re; try discriminate. injection E as <- <- <- <-. pose proof (HC _ _ _ ER). subst c.
    exists [], r, s, st, k, we. cbn [concat]. rewrite zlen_nil. split; [constructor|]. split; [constructor|]. auto.
  - destruct we as [we|]; [discriminate|].
    destruct (IH _ _ _ _ _ _ _ _ E) as (chunks & r2 & s2 & st2 & k2 & we2 & A & B & C & D & F).
    exists (c :: chunks), r2, s2, st2, k2, we2. split; [econstructor; eauto|]. split.
    { econstructor; [|exact B]. rewrite EW. rewrite (write_none _ _ _ _ _ _ _ EW). reflexivity. }
    split; [exact C|]. split; [exact D|]. rewrite F, i64_add. cbn [concat]. rewrite zlen_app. f_equal. lia.
Qed.
