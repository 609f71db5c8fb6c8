(** * Props_StreamCopy: C176, copying one stream into another *)
From Verif Require Import GoBase ListZ Errors Flags BlockCache Spec_BlockCache BlockCacheProofs BlockCacheProofs2 BlockCacheProofs3 BlockCacheProofs4
  BasicStream Spec_BasicStream BasicStreamProofs BasicStreamProofs2 BasicStreamProofs3 Props_BasicStream StreamInput StreamInputProofs StreamCopy StreamCopyProofs.

(** ** C176: io.Copy(dst, src) and dst.ReadFrom(src) copy the rest of src over dst from its position on, or say that they did not *)
(* What holds: inside the first half of the blocks of a destination that was opened for writing.  [rest] is what lies between
   the position of the source and its end *)
Theorem C176_copy_partial : forall S1 (cb1 : callbacks S1) bs1 nb1 blk1 S2 (cb2 : callbacks S2) bs2 nb2 blk2,
  honest cb1 bs1 nb1 blk1 -> (forall s i b, snd (cb_fetch cb1 s i b) = None) -> honest cb2 bs2 nb2 blk2 -> reliable cb2 ->
  forall s1 st1 s2 st2 fuel, sreach cb1 bs1 nb1 s1 st1 -> io_read (sflags st1) = true -> ssize st1 + bs1 < 2^63 ->
  sreach cb2 bs2 nb2 s2 st2 -> io_write (sflags st2) = true -> io_append (sflags st2) = false ->
  let rest := slice (spos st1) (Z.max 0 (ssize st1 - spos st1)) (sbytes blk1 s1 st1) in
  spos st2 + zlen rest <= ssize st2 -> 2 * ((spos st2 + zlen rest) / bs2) + 1 <= total (scache st2) -> ssize st2 + bs2 < 2^63 -> (length rest < fuel)%nat ->
  exists s1' st1' s2' st2', io_copy cb1 cb2 fuel (s1, st1) (s2, st2) = Ret (s1', st1', (s2', st2'), zlen rest, None) /\ sunchanged nb1 blk1 s1 st1 s1' st1' /\
    sbytes blk2 s2' st2' = splice (spos st2) rest (sbytes blk2 s2 st2) /\ ssize st2' = ssize st2 /\ spos st2' = spos st2 + zlen rest.
Proof.
  intros S1 cb1 bs1 nb1 blk1 S2 cb2 bs2 nb2 blk2 H1 Hok1 H2 Hok2 s1 st1 s2 st2 fuel Hr1 Hrd Hf1 Hr2 Hw Ha rest Hin Hhalf Hf2 Hfu. open_reach H1 Hr1 Hb1 I1. open_reach H2 Hr2 Hb2 I2.
  pose proof I1 as (W1 & Hsz1 & Hp1). pose proof I2 as (W2 & Hsz2 & Hp2). destruct W1 as [Eb1 _ _ _ _ _ _ _].
  pose proof (rest_len cb1 bs1 nb1 blk1 H1 Hb1 s1 st1 I1) as HL. change (rest_of blk1 s1 st1) with rest in HL.
  assert (Z.of_nat (length rest) = zlen rest) as EL by reflexivity.
  destruct (write_to_exact cb1 bs1 nb1 blk1 H1 Hb1 Hok1 (stream_writer cb2) fuel s1 st1 (zrepeat 0 bs1) (s2, st2) 0 I1 Hrd Hf1) as (s1' & st1' & E & U); try lia.
  { apply zlen_repeat; lia. }
  { rewrite <- HL. assert (zlen rest / bs1 <= zlen rest) by (apply Z.div_le_upper_bound; [lia|]; pose proof (zlen_nonneg rest); nia). lia. }
  change (rest_of blk1 s1 st1) with rest in E. set (cs := cut bs1 (Z.to_nat (nblocks bs1 (zlen rest))) rest) in *.
  assert (concat cs = rest) as EC.
  { apply cut_concat; [lia|]. pose proof (zlen_nonneg rest). unfold nblocks. set (x := zlen rest + bs1 - 1). assert (0 <= x / bs1) by (apply Z.div_pos; lia).
    rewrite Z2Nat.id by lia. pose proof (Z.div_mod x bs1 ltac:(lia)). pose proof (Z.mod_pos_bound x bs1 ltac:(lia)). lia. }
  destruct (deliver_fits cb2 bs2 nb2 blk2 H2 Hb2 Hok2 cs s2 st2 I2 Hw Ha) as (s2' & st2' & E2 & I2' & F2 & P2 & Z2 & T2 & B2); rewrite ?EC; [lia|lia|].
  rewrite EC in *. exists s1', st1', s2', st2'. unfold io_copy. cbn [fst snd]. unfold s_write_to. rewrite Eb1, E, E2. split; [reflexivity|]. split; [exact U|]. split; [|auto].
  eapply sbytes_splice; eauto; lia.
Qed.

Theorem C176_read_from_partial : forall S1 (cb1 : callbacks S1) bs1 nb1 blk1 S2 (cb2 : callbacks S2) bs2 nb2 blk2,
  honest cb1 bs1 nb1 blk1 -> (forall s i b, snd (cb_fetch cb1 s i b) = None) -> honest cb2 bs2 nb2 blk2 -> reliable cb2 ->
  forall s1 st1 s2 st2 fuel, sreach cb1 bs1 nb1 s1 st1 -> io_read (sflags st1) = true -> bytes (sbytes blk1 s1 st1) -> ssize st1 + bs1 < 2^63 ->
  sreach cb2 bs2 nb2 s2 st2 -> io_write (sflags st2) = true -> io_append (sflags st2) = false ->
  let rest := slice (spos st1) (Z.max 0 (ssize st1 - spos st1)) (sbytes blk1 s1 st1) in
  spos st2 + zlen rest <= ssize st2 -> 2 * ((spos st2 + zlen rest) / bs2) + 1 <= total (scache st2) -> ssize st2 + bs2 < 2^63 -> (length rest < fuel)%nat ->
  exists s1' st1' s2' st2', read_from_stream cb1 cb2 fuel (s1, st1) (s2, st2) = Ret (s2', st2', (s1', st1'), zlen rest, None) /\ sunchanged nb1 blk1 s1 st1 s1' st1' /\
    sbytes blk2 s2' st2' = splice (spos st2) rest (sbytes blk2 s2 st2) /\ ssize st2' = ssize st2 /\ spos st2' = spos st2 + zlen rest.
Proof.
  intros S1 cb1 bs1 nb1 blk1 S2 cb2 bs2 nb2 blk2 H1 Hok1 H2 Hok2 s1 st1 s2 st2 fuel Hr1 Hrd HB Hf1 Hr2 Hw Ha rest Hin Hhalf Hf2 Hfu. open_reach H1 Hr1 Hb1 I1. open_reach H2 Hr2 Hb2 I2.
  pose proof I1 as (W1 & Hsz1 & Hp1). pose proof I2 as (W2 & Hsz2 & Hp2). destruct W1 as [Eb1 _ _ _ _ _ _ _].
  pose proof (rest_len cb1 bs1 nb1 blk1 H1 Hb1 s1 st1 I1) as HL. change (rest_of blk1 s1 st1) with rest in HL. pose proof (zlen_nonneg rest) as Hnn.
  assert (Z.of_nat (length rest) = zlen rest) as EL by reflexivity.
  destruct (read_from_exact cb1 bs1 nb1 blk1 cb2 bs2 nb2 blk2 H1 Hb1 Hok1 H2 Hb2 Hok2 fuel s1 st1 s2 st2 0 I1 Hrd HB Hf1 I2 Hw Ha (zlen rest) eq_refl) as (s1' & st1' & s2' & st2' & E & U & I2' & F2 & P2 & Z2 & T2 & B2);
    [lia|exact Hhalf|lia|lia|lia|]. change (rest_of blk1 s1 st1) with rest in B2.
  exists s1', st1', s2', st2'. unfold read_from_stream, s_read_from. cbn [fst snd]. rewrite Hw, Eb1. cbn [negb]. split; [exact E|]. split; [exact U|]. split; [|auto].
  eapply sbytes_splice; eauto; lia.
Qed.
(* REFUTED: io.Copy into a stream that was not opened for writing returns the full count and no error; nothing is copied *)
Theorem C176_not_writable_refuted : forall S1 (cb1 : callbacks S1) bs1 nb1 blk1 S2 (cb2 : callbacks S2),
  honest cb1 bs1 nb1 blk1 -> (forall s i b, snd (cb_fetch cb1 s i b) = None) ->
  forall s1 st1 s2 st2 fuel, sreach cb1 bs1 nb1 s1 st1 -> io_read (sflags st1) = true -> ssize st1 + bs1 < 2^63 -> io_write (sflags st2) = false ->
  let rest := slice (spos st1) (Z.max 0 (ssize st1 - spos st1)) (sbytes blk1 s1 st1) in (length rest < fuel)%nat ->
  exists s1' st1', io_copy cb1 cb2 fuel (s1, st1) (s2, st2) = Ret (s1', st1', (s2, st2), zlen rest, None).
Proof.
  intros S1 cb1 bs1 nb1 blk1 S2 cb2 H1 Hok1 s1 st1 s2 st2 fuel Hr1 Hrd Hf1 Hw rest Hfu. open_reach H1 Hr1 Hb1 I1.
  pose proof I1 as (W1 & Hsz1 & Hp1). destruct W1 as [Eb1 _ _ _ _ _ _ _].
  pose proof (rest_len cb1 bs1 nb1 blk1 H1 Hb1 s1 st1 I1) as HL. change (rest_of blk1 s1 st1) with rest in HL. pose proof (zlen_nonneg rest) as Hnn.
  assert (Z.of_nat (length rest) = zlen rest) as EL by reflexivity.
  destruct (write_to_exact cb1 bs1 nb1 blk1 H1 Hb1 Hok1 (stream_writer cb2) fuel s1 st1 (zrepeat 0 bs1) (s2, st2) 0 I1 Hrd Hf1) as (s1' & st1' & E & U); try lia.
  { apply zlen_repeat; lia. }
  { rewrite <- HL. assert (zlen rest / bs1 <= zlen rest) by (apply Z.div_le_upper_bound; [lia|]; nia). lia. }
  exists s1', st1'. unfold io_copy. cbn [fst snd]. unfold s_write_to. rewrite Eb1, E, deliver_refused by exact Hw. reflexivity.
Qed.
(* ReadFrom says so *)
Theorem C176_read_from_not_writable S1 (cb1 : callbacks S1) S2 (cb2 : callbacks S2) fuel src s2 st2 : io_write (sflags st2) = false ->
  read_from_stream cb1 cb2 fuel src (s2, st2) = Ret (s2, st2, src, 0, Some (K ErrNotPermitted)).
Proof. intros Hw. unfold read_from_stream, s_read_from. cbn [fst snd]. rewrite Hw. reflexivity. Qed.
(* REFUTED: copying an image of N blocks over another one of N blocks, from the beginning, copies only the first half of
   the blocks (rounded down; nothing at all for one block), and returns the full count and no error *)
Theorem C176_half_refuted : forall S1 (cb1 : callbacks S1) nb1 blk1 S2 (cb2 : callbacks S2) nb2 blk2 bs,
  honest cb1 bs nb1 blk1 -> (forall s i b, snd (cb_fetch cb1 s i b) = None) -> honest cb2 bs nb2 blk2 -> reliable cb2 ->
  forall s1 st1 s2 st2 fuel N, sreach cb1 bs nb1 s1 st1 -> io_read (sflags st1) = true -> spos st1 = 0 -> ssize st1 = N * bs ->
  sreach cb2 bs nb2 s2 st2 -> io_write (sflags st2) = true -> io_append (sflags st2) = false -> io_synchronous (sflags st2) = false -> spos st2 = 0 -> ssize st2 = N * bs ->
  total (scache st2) = N -> 0 < N -> N * bs + bs + bs < 2^63 -> (Z.to_nat (N * bs) < fuel)%nat ->
  exists s1' st1' s2' st2', io_copy cb1 cb2 fuel (s1, st1) (s2, st2) = Ret (s1', st1', (s2', st2'), N * bs, None) /\
    sbytes blk2 s2' st2' = slice 0 (N / 2 * bs) (sbytes blk1 s1 st1) ++ slice (N / 2 * bs) (N * bs - N / 2 * bs) (sbytes blk2 s2 st2).
Proof.
  intros S1 cb1 nb1 blk1 S2 cb2 nb2 blk2 bs H1 Hok1 H2 Hok2 s1 st1 s2 st2 fuel N Hr1 Hrd Hq1 Hs1 Hr2 Hw Ha Hsy Hq2 Hs2 HT HN Hf Hfu. open_reach H1 Hr1 Hb1 I1. open_reach H2 Hr2 Hb2 I2.
  pose proof I1 as (W1 & Hsz1 & Hp1). pose proof I2 as (W2 & Hsz2 & Hp2). destruct W1 as [Eb1 _ _ _ _ _ _ _].
  pose proof (rest_len cb1 bs nb1 blk1 H1 Hb1 s1 st1 I1) as HL. pose proof (sbytes_len cb1 bs nb1 blk1 H1 Hb1 s1 st1 I1) as HL1. pose proof (sbytes_len cb2 bs nb2 blk2 H2 Hb2 s2 st2 I2) as HL2.
  assert (rest_of blk1 s1 st1 = sbytes blk1 s1 st1) as ER by (unfold rest_of; rewrite Hq1; apply slice_full; lia). rewrite ER in HL.
  destruct (write_to_exact cb1 bs nb1 blk1 H1 Hb1 Hok1 (stream_writer cb2) fuel s1 st1 (zrepeat 0 bs) (s2, st2) 0 I1 Hrd ltac:(lia)) as (s1' & st1' & E & U); try lia.
  { apply zlen_repeat; lia. }
  { assert (Z.max 0 (ssize st1 - spos st1) / bs <= N * bs) by (apply Z.div_le_upper_bound; [lia|]; nia). lia. }
  rewrite ER in E. set (A := sbytes blk1 s1 st1) in *.
  assert (nblocks bs (zlen A) = N) as EN by (unfold nblocks; rewrite HL1, Hs1; replace (N * bs + bs - 1) with (bs - 1 + N * bs) by lia; rewrite Z.div_add, Z.div_small by lia; lia).
  rewrite EN in E. set (h := N / 2) in *. pose proof (Z.div_mod N 2 ltac:(lia)) as DN. pose proof (Z.mod_pos_bound N 2 ltac:(lia)) as MN. fold h in DN.
  assert (h * bs <= N * bs) as Hhb by (apply Z.mul_le_mono_nonneg_r; lia). assert (0 <= h * bs) as Hh0 by (apply Z.mul_nonneg_nonneg; lia).
  assert (h * bs < N * bs) as Hhlt by (apply Z.mul_lt_mono_pos_r; lia).
  replace (Z.to_nat N) with (Z.to_nat h + Z.to_nat (N - h))%nat in E by lia. rewrite cut_app in E by lia. rewrite Z2Nat.id in E by lia.
  set (c1 := cut bs (Z.to_nat h) A) in *. set (c2 := cut bs (Z.to_nat (N - h)) _) in *.
  assert (c1 = cut bs (Z.to_nat h) (slice 0 (h * bs) A)) as Ec1.
  { unfold c1. clear -HL1 Hs1 Hhb Hb1 DN MN HN Hh0. assert (Z.of_nat (Z.to_nat h) * bs <= zlen A) as X by lia. replace (h * bs) with (Z.of_nat (Z.to_nat h) * bs) by lia. clear - X Hb1.
    revert X. generalize A. induction (Z.to_nat h) as [|n IH]; intros l Hl; [reflexivity|]. cbn [cut]. f_equal; [rewrite slice_slice by lia; reflexivity|].
    rewrite IH by (rewrite zlen_slice; lia). rewrite (zlen_slice 0) by lia. f_equal. rewrite !slice_slice by lia. f_equal; lia. }
  assert (zlen (slice 0 (h * bs) A) = h * bs) as HLs by (apply zlen_slice; lia).
  assert (Forall (fun c => zlen c = bs) c1) as HF1 by (rewrite Ec1; apply cut_lens; lia).
  assert (concat c1 = slice 0 (h * bs) A) as EC1 by (rewrite Ec1; apply cut_concat; lia).
  assert (Forall (fun c => zlen c = bs) c2) as HF2 by (apply cut_lens; [lia|]; rewrite zlen_slice by lia; lia).
  assert (zlen c1 = h) as Hc1. { unfold c1. clear - DN MN HN. assert (forall n l, length (cut bs n l) = n) as X by (induction n; intros; cbn [cut length]; auto). unfold zlen. rewrite X. lia. }
  assert (ssize st2 = bs * total (scache st2)) as Hst by (rewrite HT, Hs2; lia).
  destruct (deliver_blocks cb2 bs nb2 blk2 H2 Hb2 Hok2 c1 s2 st2 I2 Hw Ha) as (s2' & st2' & E2 & I2' & F2 & P2 & Z2 & T2 & B2); auto; try lia.
  { rewrite Hq2. apply Z.mod_0_l. lia. }
  assert (h * bs / bs = h) as Hhd by (apply Z.div_mul; lia). assert (spos st2' = h * bs) as P2' by lia.
  destruct (deliver_stuck cb2 bs nb2 blk2 H2 Hb2 Hok2 c2 s2' st2' I2') as (s3 & st3 & E3 & I3 & F3 & P3 & Z3 & T3 & B3); rewrite ?F2, ?Z2, ?T2, ?P2'; auto; try lia.
  { unfold write_fits. replace (h * bs + bs) with ((h + 1) * bs) by lia. rewrite Hhd, Z.div_mul by lia. lia. }
  exists s1', st1', s3, st3. unfold io_copy. cbn [fst snd]. unfold s_write_to. rewrite Eb1, E. unfold deliver in *. rewrite fold_left_app, E2, E3. rewrite HL1, Hs1. split; [reflexivity|].
  assert (sbytes blk2 s3 st3 = splice 0 (slice 0 (h * bs) A) (sbytes blk2 s2 st2)) as ->.
  { apply (sbytes_splice cb2 bs nb2 blk2 H2 Hb2 s2 st2 s3 st3); [exact I2|lia| |lia|lia]. rewrite B3, B2, EC1, Hq2. reflexivity. }
  unfold splice. cbn [Z.to_nat firstn app]. f_equal. rewrite Z.add_0_l, HLs. unfold slice. rewrite firstn_all2; [reflexivity|]. rewrite skipn_length. unfold zlen in HL2. lia.
Qed.
(* REFUTED: dst.ReadFrom(src) drops the error of its last write: a source shorter than one block, copied over the second
   half of the blocks of the destination, is not copied, and the full count and no error are returned *)
Theorem C176_short_refuted : forall S1 (cb1 : callbacks S1) bs1 nb1 blk1 S2 (cb2 : callbacks S2) bs2 nb2 blk2,
  honest cb1 bs1 nb1 blk1 -> (forall s i b, snd (cb_fetch cb1 s i b) = None) -> honest cb2 bs2 nb2 blk2 -> reliable cb2 ->
  forall s1 st1 s2 st2 fuel, sreach cb1 bs1 nb1 s1 st1 -> io_read (sflags st1) = true -> bytes (sbytes blk1 s1 st1) -> ssize st1 + bs1 < 2^63 ->
  sreach cb2 bs2 nb2 s2 st2 -> io_write (sflags st2) = true -> io_append (sflags st2) = false -> io_synchronous (sflags st2) = false ->
  let rest := slice (spos st1) (Z.max 0 (ssize st1 - spos st1)) (sbytes blk1 s1 st1) in
  zlen rest < bs1 -> spos st2 + zlen rest < ssize st2 -> total (scache st2) < 2 * (spos st2 / bs2) + 1 -> ssize st2 + bs2 < 2^63 ->
  exists s1' st1' s2' st2', read_from_stream cb1 cb2 (Datatypes.S fuel) (s1, st1) (s2, st2) = Ret (s2', st2', (s1', st1'), zlen rest, None) /\
    sbytes blk2 s2' st2' = sbytes blk2 s2 st2 /\ spos st2' = spos st2.
Proof.
  intros S1 cb1 bs1 nb1 blk1 S2 cb2 bs2 nb2 blk2 H1 Hok1 H2 Hok2 s1 st1 s2 st2 fuel Hr1 Hrd HB Hf1 Hr2 Hw Ha Hsy rest Hsh Hin Hhalf Hf2. open_reach H1 Hr1 Hb1 I1. open_reach H2 Hr2 Hb2 I2.
  pose proof I1 as (W1 & Hsz1 & Hp1). pose proof I2 as (W2 & Hsz2 & Hp2). destruct W1 as [Eb1 _ _ _ _ _ _ _].
  pose proof (rest_len cb1 bs1 nb1 blk1 H1 Hb1 s1 st1 I1) as HL. change (rest_of blk1 s1 st1) with rest in HL. pose proof (zlen_nonneg rest) as Hnn.
  destruct (source_read cb1 bs1 nb1 blk1 H1 Hb1 Hok1 s1 st1 bs1 I1 Hrd HB ltac:(lia) ltac:(lia)) as (s1' & st1' & c & e & E & I1' & U & [(_ & Hn & HP & HP2 & _)|(-> & ->)]); [exfalso; lia|].
  change (rest_of blk1 s1 st1) with rest in E.
  destruct (impl_write_cases cb2 bs2 nb2 blk2 H2 Hb2 s2 st2 rest (spos st2) I2 Hw ltac:(lia) ltac:(lia)) as (s' & st' & n & x & EW & I' & [F1 F2] & _ & _ & _ & _ & _ & _ & HX).
  cbv zeta in HX. assert (spos st2 / bs2 <= (spos st2 + zlen rest) / bs2) as D1 by (apply Z.div_le_mono; lia).
  assert (write_grows bs2 (total (scache st2)) (spos st2) (zlen rest) = false) as HG. { unfold write_grows. apply Z.leb_gt. apply Z.div_lt_upper_bound; lia. }
  unfold grown_blocks in HX. rewrite HG in HX.
  destruct (HX (proj2 (proj2 Hok2) _ _) Hsy) as (-> & -> & Ht & Hs & HBk); [unfold write_fits; lia|].
  exists s1', st1', s', (set_pos st' (spos st2)). split; [|split; [|reflexivity]].
  - unfold read_from_stream. cbn [fst snd]. rewrite Eb1. eapply C40_write_error_swallowed_refuted; [exact Hw|exact E|lia|].
    unfold s_write. rewrite Hw, Ha. cbn [negb]. rewrite EW, F2, Z.add_0_r, i64_id by lia. reflexivity.
  - unfold sbytes. cbn [set_pos ssize]. rewrite Hs. change (sblocks blk2 s' (set_pos st' (spos st2))) with (sblocks blk2 s' st'). now rewrite HBk.
Qed.
(* the streams of the examples are reachable: a source of 5 bytes, and destinations of 16, 6 and 8 bytes *)
Example C176_reachable :
  sreach (ideal 2) 2 (inb 2) [1;2;3;4;5;6] (mkStream 5 0 (new_cache 2 3) O_RDONLY) /\
  sreach (ideal 2) 2 (inb 2) (zrepeat 0 16) (mkStream 16 0 (new_cache 2 8) O_WRONLY) /\
  sreach (ideal 2) 2 (inb 2) [11;12;13;14;15;16] (mkStream 6 0 (new_cache 2 3) O_RDWR) /\
  sreach (ideal 2) 2 (inb 2) (zrepeat 9 8) (mkStream 8 6 (new_cache 2 4) O_RDWR) /\ sreach (ideal 2) 2 (inb 2) [1;2;3;4;5;6] (mkStream 5 4 (new_cache 2 3) O_RDONLY).
Proof.
  split; [eapply (sr_new (ideal 2) 2 (inb 2) [1;2;3;4;5;6] 3 5 O_RDONLY); try lia; [vm_compute; split; discriminate|vm_compute; reflexivity]|].
  split; [eapply (sr_new (ideal 2) 2 (inb 2) (zrepeat 0 16) 8 16 O_WRONLY); try lia; [vm_compute; split; discriminate|vm_compute; reflexivity]|].
  split; [eapply (sr_new (ideal 2) 2 (inb 2) [11;12;13;14;15;16] 3 6 O_RDWR); try lia; [vm_compute; split; discriminate|vm_compute; reflexivity]|].
  split.
  - eapply (sr_step (ideal 2) 2 (inb 2) (zrepeat 9 8) (mkStream 8 0 (new_cache 2 4) O_RDWR) (TSeek 6 0)); [|vm_compute; repeat split; (discriminate || reflexivity)|vm_compute; reflexivity].
    eapply (sr_new (ideal 2) 2 (inb 2) (zrepeat 9 8) 4 8 O_RDWR); try lia; [vm_compute; split; discriminate|vm_compute; reflexivity].
  - eapply (sr_step (ideal 2) 2 (inb 2) [1;2;3;4;5;6] (mkStream 5 0 (new_cache 2 3) O_RDONLY) (TSeek 4 0)); [|vm_compute; repeat split; (discriminate || reflexivity)|vm_compute; reflexivity].
    eapply (sr_new (ideal 2) 2 (inb 2) [1;2;3;4;5;6] 3 5 O_RDONLY); try lia; [vm_compute; split; discriminate|vm_compute; reflexivity].
Qed.
Example C176_example : let src := ([1;2;3;4;5;6], mkStream 5 0 (new_cache 2 3) O_RDONLY) in
  (* all copied, both ways *)
  (exists s1 t1 s2 t2, io_copy (ideal 2) (ideal 2) 9 src (zrepeat 0 16, mkStream 16 0 (new_cache 2 8) O_WRONLY) = Ret (s1, t1, (s2, t2), 5, None) /\
     sbytes (fblk 2) s2 t2 = [1;2;3;4;5] ++ zrepeat 0 11) /\
  (exists s1 t1 s2 t2, read_from_stream (ideal 2) (ideal 2) 9 src (zrepeat 0 16, mkStream 16 0 (new_cache 2 8) O_WRONLY) = Ret (s2, t2, (s1, t1), 5, None) /\
     sbytes (fblk 2) s2 t2 = [1;2;3;4;5] ++ zrepeat 0 11) /\
  (* one block of three copied, and no error *)
  (exists s1 t1 s2 t2, io_copy (ideal 2) (ideal 2) 9 ([1;2;3;4;5;6], mkStream 6 0 (new_cache 2 3) O_RDONLY) ([11;12;13;14;15;16], mkStream 6 0 (new_cache 2 3) O_RDWR) = Ret (s1, t1, (s2, t2), 6, None) /\
     sbytes (fblk 2) s2 t2 = [1;2;13;14;15;16]) /\
  (* a destination that is open for reading only *)
  (exists s1 t1 s2 t2, io_copy (ideal 2) (ideal 2) 9 src ([11;12;13;14;15;16], mkStream 6 0 (new_cache 2 3) O_RDONLY) = Ret (s1, t1, (s2, t2), 5, None) /\
     sbytes (fblk 2) s2 t2 = [11;12;13;14;15;16]) /\
  (* one byte, not copied over the last block, and no error *)
  (exists s1 t1 s2 t2, read_from_stream (ideal 2) (ideal 2) 9 ([1;2;3;4;5;6], mkStream 5 4 (new_cache 2 3) O_RDONLY) (zrepeat 9 8, mkStream 8 6 (new_cache 2 4) O_RDWR) = Ret (s2, t2, (s1, t1), 1, None) /\
     sbytes (fblk 2) s2 t2 = zrepeat 9 8).
Proof. cbv zeta. repeat split; do 4 eexists; (split; [vm_compute; reflexivity|]); vm_compute; reflexivity. Qed.

Print Assumptions C176_copy_partial.
Print Assumptions C176_read_from_partial.
Print Assumptions C176_not_writable_refuted.
Print Assumptions C176_read_from_not_writable.
Print Assumptions C176_half_refuted.
Print Assumptions C176_short_refuted.
