(** * StreamCopyProofs: lemmas behind C176 *)
From Verif Require Import GoBase ListZ Errors Flags BlockCache Spec_BlockCache BlockCacheProofs BlockCacheProofs2 BlockCacheProofs3 BlockCacheProofs4
  BasicStream Spec_BasicStream BasicStreamProofs BasicStreamProofs2 BasicStreamProofs3 Rle Bufio Spec_Bufio BufioProofs StreamInput StreamInputProofs StreamCopy.

Lemma splice_app o (a b l : list Z) : 0 <= o -> o + zlen a + zlen b <= zlen l -> splice (o + zlen a) b (splice o a l) = splice o (a ++ b) l.
Proof.
  intros Ho Hl. pose proof (zlen_nonneg a). pose proof (zlen_nonneg b).
  assert (zlen (splice o a l) = zlen l) as L1 by (apply zlen_splice; lia).
  assert (zlen (splice (o + zlen a) b (splice o a l)) = zlen l) as L2 by (rewrite zlen_splice; lia).
  assert (zlen (splice o (a ++ b) l) = zlen l) as L3 by (apply zlen_splice; rewrite ?zlen_app; lia).
  apply (list_ext 0); [lia|]. intros i Hi. rewrite L2 in Hi. rewrite !znth_splice by (rewrite ?L1, ?zlen_app; lia). rewrite zlen_app.
  destruct ((o + zlen a <=? i) && (i <? o + zlen a + zlen b)) eqn:E1.
  - replace ((o <=? i) && (i <? o + (zlen a + zlen b))) with true by lia. rewrite znth_app by lia. replace (i - o <? zlen a) with false by lia. f_equal. lia.
  - destruct ((o <=? i) && (i <? o + zlen a)) eqn:E2.
    + replace ((o <=? i) && (i <? o + (zlen a + zlen b))) with true by lia. rewrite znth_app by lia. replace (i - o <? zlen a) with true by lia. reflexivity.
    + replace ((o <=? i) && (i <? o + (zlen a + zlen b))) with false by lia. reflexivity.
Qed.

(* [l] in pieces of [bs] bytes, the last one may be shorter *)
Fixpoint cut (bs : Z) (n : nat) (l : list Z) : list (list Z) :=
  match n with O => [] | Datatypes.S m => slice 0 bs l :: cut bs m (slice bs (zlen l - bs) l) end.
Lemma cut_concat bs n : 0 < bs -> forall l, zlen l <= Z.of_nat n * bs -> concat (cut bs n l) = l.
Proof.
  intros Hb. induction n as [|n IH]; intros l Hl; cbn [cut concat].
  - destruct l; [reflexivity|rewrite zlen_cons in Hl; pose proof (zlen_nonneg l); lia].
  - destruct (Z_lt_le_dec (zlen l) bs) as [L|G].
    + assert (slice 0 bs l = l) as -> by (unfold slice, zlen in *; cbn [Z.to_nat skipn]; apply firstn_all2; lia).
      rewrite IH; [|unfold slice, zlen in *; rewrite firstn_length, skipn_length; lia].
      assert (slice bs (zlen l - bs) l = []) as ->; [|apply app_nil_r]. unfold slice. now replace (Z.to_nat (zlen l - bs)) with O by lia.
    + rewrite IH by (rewrite zlen_slice; lia). rewrite <- slice_split by lia. rewrite <- (slice_all l) at 3. f_equal; lia.
Qed.
Lemma cut_app bs n m : 0 < bs -> forall l, Z.of_nat n * bs <= zlen l -> cut bs (n + m) l = cut bs n l ++ cut bs m (slice (Z.of_nat n * bs) (zlen l - Z.of_nat n * bs) l).
Proof.
  intros Hb. induction n as [|n IH]; intros l Hl.
  - cbn [Nat.add cut app]. change (Z.of_nat 0 * bs) with 0. rewrite Z.sub_0_r. now rewrite slice_all.
  - cbn [Nat.add cut app]. f_equal. rewrite IH by (rewrite zlen_slice; lia). f_equal. f_equal. rewrite zlen_slice by lia. rewrite slice_slice by lia. f_equal; lia.
Qed.
Lemma cut_lens bs n : 0 < bs -> forall l, zlen l = Z.of_nat n * bs -> Forall (fun c => zlen c = bs) (cut bs n l).
Proof.
  intros Hb. induction n as [|n IH]; intros l Hl; cbn [cut]; constructor; [apply zlen_slice; lia|]. apply IH. rewrite zlen_slice; lia.
Qed.
Section Src.
Context {S : Type} (cb : callbacks S) (bs : Z) (nb : S -> Z) (blk : S -> Z -> list Z).
Hypothesis H : honest cb bs nb blk.
Hypothesis Hbs : 0 < bs < 2^62.
Hypothesis Hok : forall s i b, snd (cb_fetch cb s i b) = None.
(* WriteTo hands the rest of the stream to the writer block by block *)
Lemma write_to_exact {W} (wr : W -> list Z -> W * Z * option kerr) : forall fuel s st buf w acc,
  SInv bs nb blk s st -> io_read (sflags st) = true -> ssize st + bs < 2^63 -> zlen buf = bs -> 0 <= acc -> acc + Z.max 0 (ssize st - spos st) < 2^63 ->
  (Z.to_nat (Z.max 0 (ssize st - spos st) / bs) < fuel)%nat ->
  exists s' st', write_to_loop cb wr fuel s st buf w acc =
    Ret (s', st', deliver wr w (cut bs (Z.to_nat (nblocks bs (zlen (rest_of blk s st)))) (rest_of blk s st)), acc + zlen (rest_of blk s st), None) /\
    sunchanged nb blk s st s' st'.
Proof.
  induction fuel as [|f IH]; intros s st buf w acc I Hr Hf Hb Ha Hacc Hfu; [lia|]. cbn [write_to_loop]. pose proof I as (WW & Hsz & Hp).
  pose proof (rest_len cb bs nb blk H Hbs s st I) as HRL.
  destruct (read_spec cb bs nb blk H Hbs s st buf I Hr ltac:(lia) ltac:(lia)) as (s1 & c1 & e & evs & HK & Hac & He & E).
  cbv zeta in E. rewrite Hb in E. set (m := Z.max 0 (Z.min bs (ssize st - spos st))) in *.
  pose proof (sbytes_len cb bs nb blk H Hbs s st I) as HL.
  destruct e as [x|]; [exfalso; destruct (proj2 He _ eq_refl) as (a & i & b & y & X & _); rewrite Hok in X; discriminate|].
  rewrite E. pose proof (kept_unch bs nb blk s st s1 c1 (if m <? bs then spos st else spos st + m) I HK) as U.
  set (st1 := set_pos (set_cache st c1) (if m <? bs then spos st else spos st + m)) in *.
  set (buf1 := splice 0 (slice (spos st) m (sbytes blk s st)) buf) in *.
  assert (slice 0 m buf1 = slice (spos st) m (sbytes blk s st) /\ zlen buf1 = bs) as [EC Hb1].
  { destruct (Z_lt_le_dec (spos st) (ssize st)) as [L|G].
    - assert (zlen (slice (spos st) m (sbytes blk s st)) = m) as Hm by (apply zlen_slice; lia). split; [rewrite <- Hm at 1; apply slice_splice_same; lia|]. unfold buf1. rewrite zlen_splice; lia.
    - assert (m = 0) as E0 by lia. unfold buf1. rewrite E0. rewrite !slice_nil, splice_nil by lia. auto. }
  rewrite EC. destruct (m <? bs) eqn:EM.
  - (* the last, short read *)
    assert (slice (spos st) m (sbytes blk s st) = rest_of blk s st) as ER by (unfold rest_of; f_equal; lia).
    assert (zlen (rest_of blk s st) = m) as HRm by lia. rewrite ER. exists s1, st1. split; [|exact U].
    destruct (m >? 0) eqn:E0.
    + destruct (wr w (rest_of blk s st)) as [[w1 n1] e1] eqn:EW. rewrite i64_id by lia. rewrite HRm.
      assert (nblocks bs m = 1) as -> by (unfold nblocks; replace (m + bs - 1) with ((m - 1) + 1 * bs) by lia; rewrite Z.div_add, Z.div_small by lia; lia).
      change (Z.to_nat 1) with 1%nat. cbn [cut deliver fold_left].
      assert (slice 0 bs (rest_of blk s st) = rest_of blk s st) as -> by (unfold slice, zlen in *; cbn [Z.to_nat skipn]; apply firstn_all2; lia).
      unfold deliver. cbn [fold_left]. rewrite EW. reflexivity.
    + assert (m = 0) as -> by lia. rewrite HRm. assert (nblocks bs 0 = 0) as -> by (unfold nblocks; apply Z.div_small; lia). cbn [Z.to_nat cut deliver fold_left]. rewrite Z.add_0_r. reflexivity.
  - assert (m = bs /\ bs <= ssize st - spos st) as [Em Hle] by lia. replace (m >? 0) with true by lia.
    assert (rest_of blk s st = slice (spos st) bs (sbytes blk s st) ++ rest_of blk s1 st1) as ER.
    { unfold rest_of. rewrite (unch_sbytes nb blk s st s1 st1 U). unfold st1. cbn [set_pos set_cache ssize spos]. rewrite Em.
      replace (Z.max 0 (ssize st - spos st)) with (bs + Z.max 0 (ssize st - (spos st + bs))) by lia. now rewrite slice_split by lia. }
    assert (SInv bs nb blk s1 st1) as I1 by (apply set_pos_inv; [eapply kept_sinv; eauto|lia]).
    pose proof (rest_len cb bs nb blk H Hbs s1 st1 I1) as HRL1.
    assert (zlen (slice (spos st) m (sbytes blk s st)) = bs) as Hc by (rewrite zlen_slice; lia).
    destruct (wr w (slice (spos st) m (sbytes blk s st))) as [[w1 n1] e1] eqn:EW. rewrite i64_id by lia.
    assert (spos st1 = spos st + bs /\ ssize st1 = ssize st) as [Hp1 Hs1] by (unfold st1; cbn [set_pos set_cache ssize spos]; lia).
    destruct (IH s1 st1 buf1 w1 (acc + m) I1) as (s2 & st2 & E2 & U2).
    + exact Hr.
    + lia.
    + exact Hb1.
    + lia.
    + lia.
    + replace (Z.max 0 (ssize st - spos st)) with (Z.max 0 (ssize st1 - spos st1) + 1 * bs) in Hfu by lia. rewrite Z.div_add in Hfu by lia.
      assert (0 <= Z.max 0 (ssize st1 - spos st1) / bs) by (apply Z.div_pos; lia). lia.
    + rewrite E2. exists s2, st2. split; [|eapply unch_trans; eauto]. rewrite ER, zlen_app. rewrite Em in *. rewrite Hc.
      assert (nblocks bs (bs + zlen (rest_of blk s1 st1)) = 1 + nblocks bs (zlen (rest_of blk s1 st1))) as EN.
      { unfold nblocks. replace (bs + zlen (rest_of blk s1 st1) + bs - 1) with (zlen (rest_of blk s1 st1) + bs - 1 + 1 * bs) by lia. rewrite Z.div_add by lia. lia. }
      rewrite EN. assert (0 <= nblocks bs (zlen (rest_of blk s1 st1))) by (unfold nblocks; apply Z.div_pos; lia).
      replace (Z.to_nat (1 + nblocks bs (zlen (rest_of blk s1 st1)))) with (Datatypes.S (Z.to_nat (nblocks bs (zlen (rest_of blk s1 st1))))) by lia.
      cbn [cut]. unfold deliver. cbn [fold_left].
      assert (slice 0 bs (slice (spos st) bs (sbytes blk s st) ++ rest_of blk s1 st1) = slice (spos st) bs (sbytes blk s st)) as ->.
      { rewrite slice_app_l by lia. rewrite <- Hc at 1. apply slice_all. }
      rewrite EW. cbn [fst]. rewrite Z.add_assoc. do 4 f_equal. f_equal. f_equal. rewrite zlen_app, Hc.
      rewrite slice_app_r by lia. rewrite Hc, Z.sub_diag. symmetry. replace (bs + zlen (rest_of blk s1 st1) - bs) with (zlen (rest_of blk s1 st1)) by lia. apply slice_all.
Qed.
End Src.

Section Dst.
Context {S : Type} (cb : callbacks S) (bs : Z) (nb : S -> Z) (blk : S -> Z -> list Z).
Hypothesis H : honest cb bs nb blk.
Hypothesis Hbs : 0 < bs < 2^62.
Hypothesis Hok : reliable cb.
Lemma set_pos_id st : set_pos st (spos st) = st. Proof. now destruct st. Qed.
(* a write that fits and does not grow the stream *)
Lemma writer_fits s st b : SInv bs nb blk s st -> io_write (sflags st) = true -> io_append (sflags st) = false -> spos st + zlen b + bs < 2^63 ->
  write_grows bs (total (scache st)) (spos st) (zlen b) = false -> write_fits bs (total (scache st)) (spos st) (zlen b) = true ->
  exists s' st', stream_writer cb (s, st) b = ((s', st'), zlen b, None) /\ SInv bs nb blk s' st' /\ sflags st' = sflags st /\ spos st' = spos st + zlen b /\
    ssize st' = ssize st /\ total (scache st') = total (scache st) /\ sblocks blk s' st' = splice (spos st) b (sblocks blk s st).
Proof.
  intros I Hw Ha Hf Hg Hfit. pose proof I as (WW & Hsz & Hp). pose proof (zlen_nonneg b).
  destruct (impl_write_cases cb bs nb blk H Hbs s st b (spos st) I Hw ltac:(lia) Hf) as (s' & st' & n & e & E & I' & [F1 F2] & _ & _ & _ & _ & HN & HR & _).
  cbv zeta in *. rewrite Hg in *. specialize (HR Hok). rewrite Hfit in HR. subst e. destruct (HN eq_refl) as (-> & _ & Hs & Ht & _ & HB).
  exists s', (set_pos st' (spos st + zlen b)). unfold stream_writer. cbn [fst snd]. unfold s_write. rewrite Hw, Ha. cbn [negb]. rewrite E, F2, i64_id by lia.
  split; [reflexivity|]. split; [apply set_pos_inv; [exact I'|lia]|]. split; [exact F1|]. split; [reflexivity|]. split; [exact Hs|]. split; [exact Ht|].
  change (sblocks blk s' (set_pos st' (spos st + zlen b))) with (sblocks blk s' st'). rewrite HB. unfold grown_blocks. rewrite Hg. reflexivity.
Qed.
Lemma deliver_fits : forall cs s st, SInv bs nb blk s st -> io_write (sflags st) = true -> io_append (sflags st) = false -> spos st + zlen (concat cs) + bs < 2^63 ->
  2 * ((spos st + zlen (concat cs)) / bs) + 1 <= total (scache st) ->
  exists s' st', deliver (stream_writer cb) (s, st) cs = (s', st') /\ SInv bs nb blk s' st' /\ sflags st' = sflags st /\ spos st' = spos st + zlen (concat cs) /\
    ssize st' = ssize st /\ total (scache st') = total (scache st) /\ sblocks blk s' st' = splice (spos st) (concat cs) (sblocks blk s st).
Proof.
  induction cs as [|c cs IH]; intros s st I Hw Ha Hf Ht; pose proof I as (WW & Hsz & Hp).
  - exists s, st. cbn [deliver fold_left concat]. rewrite zlen_nil, Z.add_0_r. split; [reflexivity|]. split; [exact I|]. repeat (split; [reflexivity|]).
    rewrite splice_nil by lia. reflexivity.
  - cbn [concat] in Hf, Ht. rewrite zlen_app in Hf, Ht. pose proof (zlen_nonneg c) as Hc. pose proof (zlen_nonneg (concat cs)) as Hcs.
    assert (spos st / bs <= (spos st + zlen c) / bs) as D1 by (apply Z.div_le_mono; lia).
    assert ((spos st + zlen c) / bs <= (spos st + (zlen c + zlen (concat cs))) / bs) as D2 by (apply Z.div_le_mono; lia).
    assert (0 <= spos st / bs) as D0 by (apply Z.div_pos; lia).
    destruct (writer_fits s st c I Hw Ha ltac:(lia)) as (s1 & st1 & E1 & I1 & F1 & P1 & S1 & T1 & B1).
    + unfold write_grows. lia.
    + unfold write_fits. lia.
    + destruct (IH s1 st1 I1) as (s2 & st2 & E2 & I2 & F2 & P2 & S2 & T2 & B2); rewrite ?F1, ?P1, ?T1; auto; try lia.
      { rewrite <- Z.add_assoc. lia. }
      exists s2, st2. unfold deliver. cbn [fold_left]. rewrite E1. cbn [fst]. split; [exact E2|]. split; [exact I2|]. split; [congruence|]. cbn [concat]. rewrite zlen_app.
      split; [lia|]. split; [congruence|]. split; [congruence|]. rewrite B2, P1, B1. apply splice_app; [lia|].
      pose proof (sblocks_len cb bs nb blk H Hbs s st I) as HL. rewrite HL.
      set (e := spos st + (zlen c + zlen (concat cs))) in *. assert (e < bs * (e / bs + 1)) by (pose proof (Z.mul_div_le e bs ltac:(lia)); pose proof (Z.mod_pos_bound e bs ltac:(lia)); pose proof (Z.div_mod e bs ltac:(lia)); lia).
      assert (e / bs + 1 <= total (scache st)) by (assert (0 <= e / bs) by (apply Z.div_pos; lia); lia). assert (bs * (e / bs + 1) <= bs * total (scache st)) by (apply Z.mul_le_mono_nonneg_l; lia). lia.
Qed.
(* bytes in terms of the blocks *)
Lemma sbytes_splice s st s' st' q b : SInv bs nb blk s st -> ssize st' = ssize st -> sblocks blk s' st' = splice q b (sblocks blk s st) -> 0 <= q -> q + zlen b <= ssize st ->
  sbytes blk s' st' = splice q b (sbytes blk s st).
Proof.
  intros I Hs HB Hq Hl. pose proof (sblocks_len cb bs nb blk H Hbs s st I) as HL. pose proof (sbytes_len cb bs nb blk H Hbs s st I) as HL2. pose proof I as (WW & Hsz & Hp). pose proof (zlen_nonneg b).
  unfold sbytes in *. rewrite HB, Hs.
  assert (zlen (splice q b (sblocks blk s st)) = zlen (sblocks blk s st)) as L1 by (apply zlen_splice; lia).
  assert (zlen (slice 0 (ssize st) (splice q b (sblocks blk s st))) = ssize st) as L2 by (apply zlen_slice; lia).
  apply (list_ext 0); [rewrite zlen_splice; lia|]. intros i Hi. rewrite L2 in Hi. rewrite znth_slice by lia. rewrite !znth_splice by lia. rewrite Z.add_0_l. rewrite znth_slice by lia. rewrite Z.add_0_l. reflexivity.
Qed.
(* writes that do not fit: nothing happens *)
Lemma writer_stuck s st b : SInv bs nb blk s st -> io_write (sflags st) = true -> io_append (sflags st) = false -> io_synchronous (sflags st) = false -> spos st + zlen b + bs < 2^63 ->
  ssize st = bs * total (scache st) -> zlen b = bs -> spos st mod bs = 0 -> spos st < ssize st -> write_fits bs (total (scache st)) (spos st) bs = false ->
  exists s' st', stream_writer cb (s, st) b = ((s', st'), 0, Some (K ErrArgumentOutOfRange)) /\ SInv bs nb blk s' st' /\ sflags st' = sflags st /\ spos st' = spos st /\
    ssize st' = ssize st /\ total (scache st') = total (scache st) /\ sblocks blk s' st' = sblocks blk s st.
Proof.
  intros I Hw Ha Hsy Hf Hsz0 Hb Hm Hlt Hfit. pose proof I as (WW & Hsz & Hp). pose proof (sblocks_len cb bs nb blk H Hbs s st I) as HL.
  destruct (impl_write_cases cb bs nb blk H Hbs s st b (spos st) I Hw ltac:(lia) Hf) as (s' & st' & n & e & E & I' & [F1 F2] & _ & _ & _ & _ & _ & _ & HX).
  cbv zeta in *. rewrite Hb in *. set (T := total (scache st)) in *.
  pose proof (Z.div_mod (spos st) bs ltac:(lia)) as DM. rewrite Hm in DM. set (k := spos st / bs) in *.
  assert ((spos st + bs) / bs = k + 1) as EK by (replace (spos st + bs) with (spos st + 1 * bs) by lia; rewrite Z.div_add by lia; reflexivity).
  assert (k < T) as Hk. { apply (Z.mul_lt_mono_pos_l bs); lia. }
  assert (write_grows bs T (spos st) bs = true -> nblocks bs (spos st + bs) = T /\ spos st + bs = ssize st) as HG.
  { unfold write_grows. rewrite EK. intros G. assert (T = k + 1) by lia. assert (spos st + bs = bs * T) by nia. split; [|lia].
    unfold nblocks. rewrite H1. replace (bs * T + bs - 1) with (bs - 1 + T * bs) by lia. rewrite Z.div_add, Z.div_small by lia. lia. }
  assert ((if write_grows bs T (spos st) bs then nblocks bs (spos st + bs) else T) = T) as ET by (destruct (write_grows _ _ _ _); [now apply HG|reflexivity]).
  rewrite ET in HX. destruct (HX (proj2 (proj2 Hok) s T) Hsy Hfit) as (-> & -> & Ht & Hs & HB).
  exists s', st'. unfold stream_writer. cbn [fst snd]. unfold s_write. rewrite Hw, Ha. cbn [negb]. rewrite E, F2, Z.add_0_r, i64_id by lia. rewrite <- F2, set_pos_id.
  split; [reflexivity|]. split; [exact I'|]. split; [exact F1|]. split; [reflexivity|]. split.
  { rewrite Hs. destruct (write_grows bs T (spos st) bs); [now rewrite (proj2 (HG eq_refl))|reflexivity]. }
  split; [exact Ht|]. rewrite HB. unfold grown_blocks. destruct (write_grows bs T (spos st) bs) eqn:G; [|reflexivity].
  unfold resized. destruct (HG eq_refl) as [-> _]. rewrite HL. replace (T * bs - bs * T) with 0 by lia. change (zrepeat 0 0) with (@nil Z). rewrite app_nil_r. apply slice_full. lia.
Qed.
Lemma deliver_stuck : forall cs s st, SInv bs nb blk s st -> io_write (sflags st) = true -> io_append (sflags st) = false -> io_synchronous (sflags st) = false -> spos st + bs + bs < 2^63 ->
  ssize st = bs * total (scache st) -> Forall (fun c => zlen c = bs) cs -> spos st mod bs = 0 -> spos st < ssize st -> write_fits bs (total (scache st)) (spos st) bs = false ->
  exists s' st', deliver (stream_writer cb) (s, st) cs = (s', st') /\ SInv bs nb blk s' st' /\ sflags st' = sflags st /\ spos st' = spos st /\
    ssize st' = ssize st /\ total (scache st') = total (scache st) /\ sblocks blk s' st' = sblocks blk s st.
Proof.
  induction cs as [|c cs IH]; intros s st I Hw Ha Hsy Hf Hsz0 Hall Hm Hlt Hfit.
  - exists s, st. split; [reflexivity|]. split; [exact I|]. repeat (split; [reflexivity|]). reflexivity.
  - apply Forall_cons_iff in Hall as [Hc Hcs]. destruct (writer_stuck s st c I Hw Ha Hsy ltac:(lia) Hsz0 Hc Hm Hlt Hfit) as (s1 & st1 & E1 & I1 & F1 & P1 & S1 & T1 & B1).
    destruct (IH s1 st1 I1) as (s2 & st2 & E2 & I2 & F2 & P2 & S2 & T2 & B2); rewrite ?F1, ?P1, ?T1, ?S1; auto.
    exists s2, st2. unfold deliver. cbn [fold_left]. rewrite E1. cbn [fst]. split; [exact E2|]. split; [exact I2|]. repeat (split; [congruence|]). congruence.
Qed.
(* blocks of the stream's own size: the first ones fit *)
Lemma deliver_blocks : forall cs s st, SInv bs nb blk s st -> io_write (sflags st) = true -> io_append (sflags st) = false -> ssize st + bs < 2^63 ->
  ssize st = bs * total (scache st) -> Forall (fun c => zlen c = bs) cs -> spos st mod bs = 0 -> 2 * (spos st / bs + zlen cs) <= total (scache st) ->
  exists s' st', deliver (stream_writer cb) (s, st) cs = (s', st') /\ SInv bs nb blk s' st' /\ sflags st' = sflags st /\ spos st' = spos st + bs * zlen cs /\
    ssize st' = ssize st /\ total (scache st') = total (scache st) /\ sblocks blk s' st' = splice (spos st) (concat cs) (sblocks blk s st).
Proof.
  induction cs as [|c cs IH]; intros s st I Hw Ha Hf Hsz0 Hall Hm Ht; pose proof I as (WW & Hsz & Hp).
  - exists s, st. cbn [deliver fold_left concat]. rewrite zlen_nil, Z.mul_0_r, Z.add_0_r. split; [reflexivity|]. split; [exact I|]. repeat (split; [reflexivity|]). rewrite splice_nil by lia. reflexivity.
  - apply Forall_cons_iff in Hall as [Hc Hcs]. rewrite zlen_cons in Ht. pose proof (zlen_nonneg cs).
    pose proof (Z.div_mod (spos st) bs ltac:(lia)) as DM. rewrite Hm in DM. set (k := spos st / bs) in *. assert (0 <= k) by (apply Z.div_pos; lia).
    assert ((spos st + bs) / bs = k + 1) as EK by (replace (spos st + bs) with (spos st + 1 * bs) by lia; rewrite Z.div_add by lia; reflexivity).
    assert (bs * (k + 1 + zlen cs) <= bs * total (scache st)) as HM by (apply Z.mul_le_mono_nonneg_l; lia).
    assert (0 <= bs * zlen cs) as HZ by (apply Z.mul_nonneg_nonneg; lia).
    destruct (writer_fits s st c I Hw Ha) as (s1 & st1 & E1 & I1 & F1 & P1 & S1 & T1 & B1).
    + lia.
    + unfold write_grows. rewrite Hc, EK. lia.
    + unfold write_fits. rewrite Hc, EK. fold k. lia.
    + destruct (IH s1 st1 I1) as (s2 & st2 & E2 & I2 & F2 & P2 & S2 & T2 & B2); rewrite ?F1, ?P1, ?T1, ?S1, ?Hc; auto.
      { replace (spos st + bs) with (spos st + 1 * bs) by lia. rewrite Z_mod_plus_full. exact Hm. }
      { rewrite EK. lia. }
      exists s2, st2. unfold deliver. cbn [fold_left]. rewrite E1. cbn [fst]. split; [exact E2|]. split; [exact I2|]. split; [congruence|]. cbn [concat]. rewrite zlen_cons.
      split; [lia|]. split; [congruence|]. split; [congruence|]. rewrite B2, P1, B1. apply splice_app; [lia|].
      assert (zlen (concat cs) = bs * zlen cs) as ->. { clear - Hcs. induction Hcs as [|x l Hx _ IHl]; [change (zlen (concat (@nil (list Z)))) with 0; change (zlen (@nil (list Z))) with 0; lia|]. cbn [concat]. rewrite zlen_app, zlen_cons. lia. }
      rewrite (sblocks_len cb bs nb blk H Hbs s st I). lia.
Qed.
(* a writer that is not open for writing *)
Lemma deliver_refused s st cs : io_write (sflags st) = false -> deliver (stream_writer cb) (s, st) cs = (s, st).
Proof.
  intros Hw. induction cs as [|c cs IH]; [reflexivity|]. unfold deliver in *. cbn [fold_left]. unfold stream_writer at 2. cbn [fst snd]. unfold s_write. rewrite Hw. cbn [negb]. exact IH.
Qed.
End Dst.

Section Both.
Context {S1 S2 : Type} (cb1 : callbacks S1) (bs1 : Z) (nb1 : S1 -> Z) (blk1 : S1 -> Z -> list Z) (cb2 : callbacks S2) (bs2 : Z) (nb2 : S2 -> Z) (blk2 : S2 -> Z -> list Z).
Hypothesis H1 : honest cb1 bs1 nb1 blk1.
Hypothesis Hbs1 : 0 < bs1 < 2^62.
Hypothesis Hok1 : forall s i b, snd (cb_fetch cb1 s i b) = None.
Hypothesis H2 : honest cb2 bs2 nb2 blk2.
Hypothesis Hbs2 : 0 < bs2 < 2^62.
Hypothesis Hok2 : reliable cb2.
Lemma source_read s st n : SInv bs1 nb1 blk1 s st -> io_read (sflags st) = true -> bytes (sbytes blk1 s st) -> 0 < n -> ssize st + n < 2^63 ->
  exists s' st' c e, stream_source cb1 (s, st) n = ((s', st'), c, e) /\ SInv bs1 nb1 blk1 s' st' /\ sunchanged nb1 blk1 s st s' st' /\
    ((e = None /\ zlen c = n /\ spos st' = spos st + n /\ spos st' <= ssize st /\ rest_of blk1 s st = c ++ rest_of blk1 s' st') \/ (e = Some KEOF /\ c = rest_of blk1 s st)).
Proof.
  intros I Hr HB Hn Hf. destruct (one_read cb1 bs1 nb1 blk1 H1 Hbs1 s st n I Hr HB Hn Hf) as (s' & st' & c & e & E & I' & U & HC).
  exists s', st', c, e. unfold stream_source. rewrite E. split; [reflexivity|]. split; [exact I'|]. split; [exact U|].
  destruct HC as [HC|[HC|(_ & a & i & b & x & X & _)]]; [left; exact HC|right; exact HC|rewrite Hok1 in X; discriminate].
Qed.
Lemma writer_is s st b s' st' n : stream_writer cb2 (s, st) b = ((s', st'), n, None) -> s_write cb2 s st b = Ret (s', st', n, None).
Proof. unfold stream_writer. cbn [fst snd]. destruct (s_write cb2 s st b) as [[[[a c] d] e]| |]; intros [= <- <- <- <-] || intros E; try congruence; try discriminate. Qed.
(* the copy of [R] bytes to position [q] ends in the first half of the [T] blocks *)
Definition first_half (q R T : Z) : Prop := 2 * ((q + R) / bs2) + 1 <= T.
Lemma half_write q n R T : 0 <= q -> 0 <= n <= R -> first_half q R T ->
  write_grows bs2 T q n = false /\ write_fits bs2 T q n = true /\ first_half (q + n) (R - n) T /\ q + R <= bs2 * T.
Proof.
  intros Hq Hn Hh. unfold first_half in *. assert (q / bs2 <= (q + n) / bs2) as D1 by (apply Z.div_le_mono; lia).
  assert ((q + n) / bs2 <= (q + R) / bs2) as D2 by (apply Z.div_le_mono; lia). assert (0 <= q / bs2) as D0 by (apply Z.div_pos; lia).
  split; [unfold write_grows; lia|]. split; [unfold write_fits; lia|]. split; [replace (q + n + (R - n)) with (q + R) by lia; exact Hh|].
  set (x := q + R) in *. assert (x / bs2 + 1 <= T) as L by lia. clear Hh D2 D0 D1. apply (Z.mul_le_mono_nonneg_l _ _ bs2) in L; [|lia].
  pose proof (Z.div_mod x bs2 ltac:(lia)). pose proof (Z.mod_pos_bound x bs2 ltac:(lia)). lia.
Qed.
Lemma read_from_exact : forall fuel s1 st1 s2 st2 acc, SInv bs1 nb1 blk1 s1 st1 -> io_read (sflags st1) = true -> bytes (sbytes blk1 s1 st1) -> ssize st1 + bs1 < 2^63 ->
  SInv bs2 nb2 blk2 s2 st2 -> io_write (sflags st2) = true -> io_append (sflags st2) = false -> forall R, R = zlen (rest_of blk1 s1 st1) ->
  spos st2 + R + bs2 < 2^63 -> first_half (spos st2) R (total (scache st2)) -> 0 <= acc -> acc + R < 2^63 -> R < Z.of_nat fuel ->
  exists s1' st1' s2' st2', read_from_loop cb2 (stream_source cb1) bs1 fuel s2 st2 (s1, st1) acc = Ret (s2', st2', (s1', st1'), acc + R, None) /\
    sunchanged nb1 blk1 s1 st1 s1' st1' /\ SInv bs2 nb2 blk2 s2' st2' /\ sflags st2' = sflags st2 /\ spos st2' = spos st2 + R /\
    ssize st2' = ssize st2 /\ total (scache st2') = total (scache st2) /\ sblocks blk2 s2' st2' = splice (spos st2) (rest_of blk1 s1 st1) (sblocks blk2 s2 st2).
Proof.
  induction fuel as [|f IH]; intros s1 st1 s2 st2 acc I1 Hr HB Hf1 I2 Hw Ha R HR Hf2 Ht Hacc HaR Hfu; [pose proof (zlen_nonneg (rest_of blk1 s1 st1)); lia|]. cbn [read_from_loop].
  pose proof I1 as (_ & Hsz1 & Hp1). pose proof I2 as (_ & Hsz2 & Hp2).
  destruct (source_read s1 st1 bs1 I1 Hr HB ltac:(lia) ltac:(lia)) as (s1' & st1' & c & e & E & I1' & U & HC). rewrite E.
  assert (zlen c <= R) as Hle by (destruct HC as [(_ & _ & _ & _ & ER)|(_ & ->)]; [rewrite HR, ER, zlen_app; pose proof (zlen_nonneg (rest_of blk1 s1' st1')); lia|lia]).
  pose proof (zlen_nonneg c) as Hc0. destruct (half_write (spos st2) (zlen c) R _ ltac:(lia) ltac:(lia) Ht) as (HG & HF & Ht' & Hend).
  destruct (writer_fits cb2 bs2 nb2 blk2 H2 Hbs2 Hok2 s2 st2 c I2 Hw Ha ltac:(lia) HG HF) as (s2' & st2' & EW & I2' & F2 & P2 & Z2 & T2 & B2).
  apply writer_is in EW. rewrite EW. rewrite i64_id by lia.
  destruct HC as [(-> & Hn & HP & HP2 & ER)|(-> & ->)].
  - pose proof U as (U1 & U2 & U3 & _). assert (R - zlen c = zlen (rest_of blk1 s1' st1')) as HR' by (rewrite HR, ER, zlen_app; lia).
    destruct (IH s1' st1' s2' st2' (acc + zlen c) I1') with (R := R - zlen c) as (s1a & st1a & s2a & st2a & EL & UL & IL & FL & PL & ZL & TL & BL);
      rewrite ?U1, ?U2, ?F2, ?P2, ?T2, ?(unch_sbytes nb1 blk1 s1 st1 s1' st1' U); auto; try lia.
    exists s1a, st1a, s2a, st2a. split; [rewrite EL; replace (acc + zlen c + (R - zlen c)) with (acc + R) by lia; reflexivity|]. split; [eapply unch_trans; eauto|]. split; [exact IL|]. split; [congruence|]. split; [rewrite PL, P2; lia|]. split; [congruence|]. split; [congruence|].
    rewrite BL, P2, B2, ER. apply splice_app; [lia|]. rewrite (sblocks_len cb2 bs2 nb2 blk2 H2 Hbs2 s2 st2 I2). lia.
  - exists s1', st1', s2', st2'. rewrite <- HR in P2 |- *. split; [reflexivity|]. split; [exact U|]. auto 10.
Qed.
End Both.
