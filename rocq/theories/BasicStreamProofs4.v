(** * BasicStreamProofs4: lemmas behind C32-C42. *)
From Verif Require Import GoBase ListZ Errors Flags BlockCache Spec_BlockCache
  BlockCacheProofs BlockCacheProofs2 BlockCacheProofs3 BlockCacheProofs4 BasicStream Spec_BasicStream
  BasicStreamProofs BasicStreamProofs2 BasicStreamProofs3.

Section P4.
Context {S : Type} (cb : callbacks S) (bs : Z) (nb : S -> Z) (blk : S -> Z -> list Z).
Hypothesis H : honest cb bs nb blk.
Hypothesis Hbs : 0 < bs < 2^62.
Let Hbs0 : 0 < bs := proj1 Hbs.
Notation SInv := (SInv bs nb blk).

Lemma no_failed_fetch evs s s' : (forall s i b, snd (cb_fetch cb s i b) = None) -> accesses cb s evs s' ->
  forall i, ~ In (EvFetch i false) evs.
Proof.
  intros Hok Ha. induction Ha as [|x i buf x1 buf' e evs x2 E _ IH|x i buf x1 e evs x2 E _ IH|x n x1 e evs x2 E _ IH];
    intros i0 Hin; cbn in Hin; [tauto|..]; destruct Hin as [X|Hin]; try discriminate; try (eapply IH; eassumption).
  inversion X; subst. specialize (Hok x i0 buf). rewrite E in Hok. cbn in Hok. subst. discriminate.
Qed.
Lemma unch_refl s st st' : ssize st' = ssize st -> sflags st' = sflags st -> scache st' = scache st -> sunchanged nb blk s st s st'.
Proof. intros A B C. split; [exact A|]. split; [exact B|]. unfold sblocks. rewrite C. repeat (split; [reflexivity|]). auto. Qed.

(** ** Streams that are not open for writing *)
Lemma ro_refuse s st : io_write (sflags st) = false -> forall b off n,
  s_write cb s st b = Ret (s, st, 0, Some (K ErrNotPermitted)) /\
  s_write_at cb s st b off = Ret (s, st, 0, Some (K ErrNotPermitted)) /\
  s_truncate cb s st n = Ret (s, st, Some (K ErrNotPermitted)).
Proof.
  intros Hw b off n. unfold s_write, s_write_at, s_impl_write_at, s_truncate. rewrite Hw. cbn [negb].
  destruct (io_append _); auto.
Qed.
Lemma ro_step s st o s' st' r : SInv s st -> dirtyb (scache st) false -> io_write (sflags st) = false -> sop_ok bs st o ->
  sexec_op cb s st o = Ret (s', st', r) -> sunchanged nb blk s st s' st' /\ dirtyb (scache st') false.
Proof.
  intros I D Hw Hok E.
  assert (forall (len off : Z) x1 x2 x3 x4 x5 p, 0 <= len -> 0 <= off -> off + len < 2^63 ->
    s_read_at cb s st (zrepeat 0 len) off = Ret (x1, x2, x3, x4, x5) ->
    sunchanged nb blk s st x1 (set_pos x2 p) /\ dirtyb (scache x2) false /\ x2 = set_pos x2 (spos st)) as HR.
  { intros len off x1 x2 x3 x4 x5 p A B C X.
    destruct (read_at_ret cb bs nb blk H Hbs s st (zrepeat 0 len) off I B) as (s1 & c1 & b & n & e & E1 & HK & _); [rewrite zlen_repeat; lia|].
    rewrite E1 in X. injection X as <- <- <- <- <-. split; [apply (kept_unch bs); auto|].
    split; [exact (kept_dirty bs nb blk _ _ _ _ _ HK D)|destruct st; reflexivity]. }
  pose proof I as (W & Hsz & Hp).
  destruct o as [len off|len|b off|b|off w|n|]; cbn [sexec_op sop_ok] in *.
  - destruct (s_read_at cb s st (zrepeat 0 len) off) as [[[[[x1 x2] x3] x4] x5]| |] eqn:ER; try discriminate.
    injection E as <- <- <-.
    destruct (HR len off x1 x2 x3 x4 x5 (spos st) ltac:(lia) ltac:(lia) ltac:(lia) ER) as (A & B & C). rewrite <- C in A. auto.
  - unfold s_read in E.
    destruct (s_read_at cb s st (zrepeat 0 len) (spos st)) as [[[[[x1 x2] x3] x4] [x5|]]| |] eqn:ER; try discriminate;
      injection E as <- <- <-.
    + destruct (HR len (spos st) x1 x2 x3 x4 _ (spos st) ltac:(lia) ltac:(lia) ltac:(lia) ER) as (A & B & C). rewrite <- C in A. auto.
    + destruct (HR len (spos st) x1 x2 x3 x4 _ (i64 (spos x2 + x4)) ltac:(lia) ltac:(lia) ltac:(lia) ER) as (A & B & C). auto.
  - destruct (ro_refuse s st Hw b off 0) as (_ & A & _). rewrite A in E. injection E as <- <- <-.
    split; [apply unch_refl; reflexivity|exact D].
  - destruct (ro_refuse s st Hw b 0 0) as (A & _). rewrite A in E. injection E as <- <- <-.
    split; [apply unch_refl; reflexivity|exact D].
  - destruct (s_seek st off w) as [[x1 x2] x3] eqn:ES. injection E as <- <- <-.
    assert (ssize x1 = ssize st /\ sflags x1 = sflags st /\ scache x1 = scache st) as (A & B & C).
    { unfold s_seek in ES. repeat match type of ES with (if ?c then _ else _) = _ => destruct c end; injection ES as <- _ _; auto. }
    split; [apply unch_refl; auto|]. rewrite C. exact D.
  - destruct (ro_refuse s st Hw [] 0 n) as (_ & _ & A). rewrite A in E. injection E as <- <- <-.
    split; [apply unch_refl; reflexivity|exact D].
  - destruct (sync_clean cb bs nb blk H Hbs s st I D) as (c' & e & E1 & Ht & D' & HC & _). rewrite E1 in E. injection E as <- <- <-.
    split; [|exact D']. split; [reflexivity|]. split; [reflexivity|]. split; [exact Ht|]. split; [exact HC|]. auto.
Qed.
Lemma ro_runs P s st s' st' : SInv s st -> dirtyb (scache st) false -> io_write (sflags st) = false ->
  sruns cb bs P s st s' st' -> sunchanged nb blk s st s' st'.
Proof.
  intros I D Hw R. induction R as [|s st o s1 st1 r s2 st2 Hok E _ _ IH]; [apply unch_refl; reflexivity|].
  destruct (ro_step s st o s1 st1 r I D Hw Hok E) as [U D1].
  destruct (step_ret cb bs nb blk H Hbs s st o I Hok) as (x & y & z & E' & I' & F). rewrite E in E'. injection E' as <- <- <-.
  eapply unch_trans; [exact U|]. apply IH; auto. now rewrite F.
Qed.

(** ** Runs that do not add blocks *)
Lemma nogrow_runs s st s' st' : SInv s st -> dirtyb (scache st) false ->
  sruns cb bs (fun st o st' => total (scache st') <= total (scache st)) s st s' st' ->
  dirtyb (scache st') false /\ keep blk (total (scache st')) s s' /\ total (scache st') <= total (scache st).
Proof.
  intros I D R. induction R as [|s st o s1 st1 r s2 st2 Hok E HP _ IH]; [split; [exact D|split; [intros j _; reflexivity|lia]]|].
  destruct (step_clean cb bs nb blk H Hbs s st o s1 st1 r I D Hok E HP) as [D1 K1].
  destruct (step_ret cb bs nb blk H Hbs s st o I Hok) as (x & y & z & E' & I' & F). rewrite E in E'. injection E' as <- <- <-.
  destruct (IH I' D1) as (D2 & K2 & L). split; [exact D2|]. split; [|lia]. eapply keep_trans; eauto.
Qed.
Lemma dirty_runs s st s' st' : SInv s st -> dirtyb (scache st) true -> io_synchronous (sflags st) = false ->
  sruns cb bs (fun _ o _ => o <> TSync) s st s' st' -> dirtyb (scache st') true.
Proof.
  intros I D Hy R. induction R as [|s st o s1 st1 r s2 st2 Hok E HP _ IH]; [exact D|].
  pose proof (step_dirty cb bs nb blk H Hbs s st o s1 st1 r I D Hy Hok HP E) as D1.
  destruct (step_ret cb bs nb blk H Hbs s st o I Hok) as (x & y & z & E' & I' & F). rewrite E in E'. injection E' as <- <- <-.
  apply IH; auto. now rewrite F.
Qed.

(** ** Appending *)
Lemma append_step s st o s' st' r : SInv s st -> io_append (sflags st) = true -> sop_ok bs st o -> (forall n, o <> TTruncate n) ->
  sexec_op cb s st o = Ret (s', st', r) ->
  ssize st <= ssize st' /\ forall j, 0 <= j < ssize st -> znth 0 (sblocks blk s' st') j = znth 0 (sblocks blk s st) j.
Proof.
  intros I Ha Hok Hnt E. pose proof I as (W & Hsz & Hp).
  assert (forall (len off : Z) x1 x2 x3 x4 x5, 0 <= len -> 0 <= off -> off + len < 2^63 ->
    s_read_at cb s st (zrepeat 0 len) off = Ret (x1, x2, x3, x4, x5) ->
    ssize x2 = ssize st /\ sblocks blk x1 x2 = sblocks blk s st) as HR.
  { intros len off x1 x2 x3 x4 x5 A B C X.
    destruct (read_at_ret cb bs nb blk H Hbs s st (zrepeat 0 len) off I B) as (s1 & c1 & b & n & e & E1 & HK & _); [rewrite zlen_repeat; lia|].
    rewrite E1 in X. injection X as <- <- <- <- <-. split; [reflexivity|]. now destruct HK as (_ & _ & HC & _). }
  destruct o as [len off|len|b off|b|off w|n|]; cbn [sexec_op sop_ok] in *.
  - destruct (s_read_at cb s st (zrepeat 0 len) off) as [[[[[x1 x2] x3] x4] x5]| |] eqn:ER; try discriminate.
    injection E as <- <- <-. destruct (HR len off x1 x2 x3 x4 x5 ltac:(lia) ltac:(lia) ltac:(lia) ER) as [A B].
    rewrite A, B. split; [lia|reflexivity].
  - unfold s_read in E.
    destruct (s_read_at cb s st (zrepeat 0 len) (spos st)) as [[[[[x1 x2] x3] x4] [x5|]]| |] eqn:ER; try discriminate;
      injection E as <- <- <-; destruct (HR len (spos st) x1 x2 x3 x4 _ ltac:(lia) ltac:(lia) ltac:(lia) ER) as [A B].
    + rewrite A, B. split; [lia|reflexivity].
    + cbn [set_pos ssize]. unfold sblocks in *. cbn [set_pos scache]. rewrite A, B. split; [lia|reflexivity].
  - unfold s_write_at in E. rewrite Ha in E. injection E as <- <- <-. split; [lia|reflexivity].
  - destruct (io_write (sflags st)) eqn:Hw.
    2:{ destruct (ro_refuse s st Hw b 0 0) as (A & _). rewrite A in E. injection E as <- <- <-. split; [lia|reflexivity]. }
    rewrite (write_unfold cb bs nb blk H Hbs) in E by auto.
    assert (wpos st = ssize st) as EWP by (unfold wpos; now rewrite Ha). rewrite EWP in E.
    pose proof (winv_small cb bs nb blk H Hbs _ _ W) as (_ & HF & _).
    assert (SInv s (set_pos st (ssize st))) as I1 by (apply set_pos_inv; [exact I|lia]).
    destruct (impl_write_cases cb bs nb blk H Hbs s (set_pos st (ssize st)) b (ssize st) I1 Hw ltac:(lia) ltac:(lia))
      as (x1 & x2 & x3 & x4 & E1 & _ & _ & _ & Hss & _ & Hpre & _).
    rewrite E1 in E. injection E as <- <- <-. cbn [set_pos ssize scache] in Hss, Hpre |- *. pose proof (zlen_nonneg b).
    split; [destruct Hss as [->|[_ ->]]; lia|]. intros j Hj. apply Hpre; [lia|]. unfold outside. lia.
  - destruct (s_seek st off w) as [[x1 x2] x3] eqn:ES. injection E as <- <- <-.
    assert (ssize x1 = ssize st /\ scache x1 = scache st) as (A & C).
    { unfold s_seek in ES. repeat match type of ES with (if ?c then _ else _) = _ => destruct c end; injection ES as <- _ _; auto. }
    unfold sblocks. rewrite A, C. split; [lia|reflexivity].
  - exfalso. now apply (Hnt n).
  - destruct (sync_ret cb bs nb blk H Hbs s st I) as (x1 & x2 & x3 & E1 & _ & _ & A & _ & B & _). rewrite E1 in E.
    injection E as <- <- <-. rewrite A, B. split; [lia|reflexivity].
Qed.
Lemma append_runs s st s' st' : SInv s st -> io_append (sflags st) = true ->
  sruns cb bs (fun _ o _ => forall n, o <> TTruncate n) s st s' st' ->
  ssize st <= ssize st' /\ forall j, 0 <= j < ssize st -> znth 0 (sblocks blk s' st') j = znth 0 (sblocks blk s st) j.
Proof.
  intros I Ha R. induction R as [|s st o s1 st1 r s2 st2 Hok E HP _ IH]; [split; [lia|reflexivity]|].
  destruct (append_step s st o s1 st1 r I Ha Hok HP E) as [L1 P1].
  destruct (step_ret cb bs nb blk H Hbs s st o I Hok) as (x & y & z & E' & I' & F). rewrite E in E'. injection E' as <- <- <-.
  destruct (IH I') as [L2 P2]; [now rewrite F|]. split; [lia|]. intros j Hj. rewrite P2 by lia. apply P1. lia.
Qed.

(** ** Negative offsets *)
Lemma conv_neg c off : bpb c = bs -> - bs < off < 0 -> conv_addr c off = Ret (0, 2^64 + off).
Proof.
  intros Hb Ho. unfold conv_addr. rewrite Hb, i64_id by lia. replace (bs =? 0) with false by lia.
  assert (Z.quot off bs = 0) as -> by (apply Z.quot_small_iff; lia).
  assert (Z.rem off bs = off) as -> by (apply Z.rem_small_iff; lia).
  f_equal. f_equal. unfold u64. replace off with (2^64 + off + (-1) * 2^64) by lia. rewrite Z.mod_add by lia.
  rewrite Z.mod_small by lia. lia.
Qed.
(* the block of the last byte *)
Lemma conv_any c e T : bpb c = bs -> - bs < e < bs * T -> bs * T < 2^63 ->
  exists l o, conv_addr c e = Ret (l, o) /\ 0 <= l /\ (l < T \/ l = 0).
Proof.
  intros Hb He HT. destruct (Z_lt_le_dec e 0) as [L|G].
  - rewrite conv_neg by (auto; lia). exists 0, (2^64 + e). split; [reflexivity|]. lia.
  - rewrite (conv_ok bs Hbs) by (auto; lia). do 2 eexists. split; [reflexivity|].
    split; [apply Z.div_pos; lia|]. left. apply Z.div_lt_upper_bound; lia.
Qed.
Lemma read_at_negative s st buf off : SInv s st -> io_read (sflags st) = true -> 0 < ssize st -> 0 < zlen buf < 2^62 ->
  (forall s i b, snd (cb_fetch cb s i b) = None) -> - bs < off < 0 -> ssize st + bs < 2^63 ->
  s_read_at cb s st buf off = Panic.
Proof.
  intros (I & Hsz & Hp) Hrd Hs Hb Hok Ho Hf. pose proof (i_bpb _ _ _ _ _ I) as Hbpb.
  destruct (winv_small cb bs nb blk H Hbs s _ I) as (Ht & Hft & HC).
  unfold s_read_at. rewrite Hrd. cbn [negb]. replace (zlen buf =? 0) with false by lia.
  replace (off >=? ssize st) with false by lia.
  set (n := if i64 (off + zlen buf) >=? ssize st then i64 (ssize st - off) else zlen buf).
  assert (1 <= n /\ off + n <= ssize st) as [Hn1 Hn2].
  { unfold n. rewrite !i64_id by lia. destruct (off + zlen buf >=? ssize st) eqn:E; lia. }
  rewrite conv_neg by auto. rewrite (i64_id (off + n)) by lia. rewrite (i64_id (off + n - 1)) by lia.
  destruct (conv_any (scache st) (off + n - 1) (total (scache st)) Hbpb ltac:(lia) Hft) as (l & o & -> & Hl0 & Hl).
  assert (0 < total (scache st)) as HT by nia. assert (l < total (scache st)) as HlT by lia.
  rewrite (u64_small (l - 0)) by lia. rewrite (u64_small (l - 0 + 1)) by lia.
  pose proof (gs cb bs nb blk H Hbs s (scache st) 0 (l - 0 + 1) I ltac:(lia) ltac:(lia)) as G.
  assert ((l - 0 + 1) * bs <= 2^63) as Hsm by nia. specialize (G Hsm).
  unfold in_range in G. replace ((0 <? total (scache st)) && (0 + (l - 0 + 1) <=? total (scache st))) with true in G by lia.
  destruct G as (s' & c' & e & evs & HK & Hac & He & Hsl & ->).
  pose proof (no_failed_fetch _ _ _ Hok Hac) as A. apply (proj1 He) in A. subst e.
  destruct HK as (I' & Ht' & _). pose proof (i_data _ _ _ _ _ I') as Hdl. rewrite Ht' in Hdl.
  unfold reslice. change (u64 (0 * bpb c')) with 0.
  replace ((2^64 + off <=? u64 (2^64 + off + u64 n)) && (0 + u64 (2^64 + off + u64 n) <=? zlen (data c'))) with false; [reflexivity|].
  rewrite (u64_small n) by lia. rewrite Hdl.
  destruct (Z_lt_le_dec (off + n) 0).
  - rewrite u64_small by lia. lia.
  - unfold u64. replace (2^64 + off + n) with (off + n + 1 * 2^64) by lia. rewrite Z.mod_add by lia. rewrite Z.mod_small by lia. lia.
Qed.
Lemma write_at_negative s st b off : SInv s st -> io_write (sflags st) = true -> io_append (sflags st) = false ->
  (forall s i b, snd (cb_fetch cb s i b) = None) -> - bs < off < 0 -> 0 < total (scache st) -> off + zlen b < bs * total (scache st) ->
  s_write_at cb s st b off = Panic.
Proof.
  intros (I & Hsz & Hp) Hw Ha Hok Ho HT Hl. pose proof (i_bpb _ _ _ _ _ I) as Hbpb. pose proof (zlen_nonneg b) as Hb.
  destruct (winv_small cb bs nb blk H Hbs s _ I) as (Ht & Hft & HC).
  unfold s_write_at, s_impl_write_at. rewrite Ha, Hw. cbn [negb]. rewrite i64_id by lia. rewrite conv_neg by auto.
  destruct (conv_any (scache st) (off + zlen b) (total (scache st)) Hbpb ltac:(lia) Hft) as (l & o & -> & Hl0 & Hll).
  assert (l < total (scache st)) as HlT by lia. replace (l >=? total (scache st)) with false by lia.
  rewrite (u64_small (l + 1)) by lia.
  pose proof (gs cb bs nb blk H Hbs s (scache st) 0 (l + 1) I ltac:(lia) ltac:(lia)) as G.
  assert ((l + 1) * bs <= 2^63) as Hsm by nia. specialize (G Hsm).
  unfold in_range in G. replace ((0 <? total (scache st)) && (0 + (l + 1) <=? total (scache st))) with true in G by lia.
  destruct G as (s' & c' & e & evs & HK & Hac & He & Hsl & ->).
  pose proof (no_failed_fetch _ _ _ Hok Hac) as A. apply (proj1 He) in A. subst e.
  rewrite zlen_slice by nia. replace (2^64 + off >? (l + 1) * bs) with true by lia. reflexivity.
Qed.
End P4.
