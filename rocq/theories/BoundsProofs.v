(** * BoundsProofs: operations depend only on existing whole blocks. *)
From Verif Require Import GoBase ListZ Errors Flags BlockCache BlockCacheProofs BasicStream Spec_BlockCache Spec_BasicStream Spec_Bounds.

Section Same.
Context {S : Type} (cb1 cb2 : callbacks S) (bs : Z) (tot : S -> Z).
Hypothesis Hbs : 0 < bs < 2^59.
Hypothesis Ht1 : tracks cb1 tot.
Hypothesis Hs : same_inside cb1 cb2 bs tot.
Definition shape (s : S) (c : cache) : Prop :=
  bpb c = bs /\ total c = tot s /\ 0 <= total c /\ total c * bs < 2^63 + bs /\ zlen (data c) = total c * bs /\
  zlen (loaded c) = bits_for (total c) /\ zlen (dirty c) = bits_for (total c).
Definition shaped {A} (f1 f2 : outcome (S * cache * A)) : Prop :=
  f1 = f2 /\ forall s c a, f1 = Ret (s, c, a) -> shape s c.
Lemma u64_range x : 0 <= u64 x < 2^64.
Proof. unfold u64. apply Z.mod_pos_bound. lia. Qed.
Lemma bits_for_le l : 0 <= l -> l <= bits_for l <= l + 7.
Proof. intros Hl. unfold bits_for. pose proof (Z.div_mod (l + 7) 8 ltac:(lia)). pose proof (Z.mod_pos_bound (l + 7) 8 ltac:(lia)). lia. Qed.
Lemma bget_inv b i r : bget b i = Ret r -> 0 <= i < zlen b.
Proof. unfold bget. destruct (_ && _) eqn:E; [lia|discriminate]. Qed.
Lemma bset_inv b i v r : bset b i v = Ret r -> 0 <= i < zlen b /\ zlen r = zlen b.
Proof. unfold bset. destruct (_ && _) eqn:E; [|discriminate]. intros [= <-]. split; [lia|]. apply zlen_set. lia. Qed.
Lemma i64_cases i : 0 <= i < 2^64 -> i64 i = i \/ i64 i < 0.
Proof.
  intros Hi. unfold i64. destruct (Z_lt_le_dec i (2^63)); [left; rewrite Z.mod_small by lia; lia|right].
  replace (i + 2^63) with (i - 2^63 + 1 * 2^64) by lia. rewrite Z.mod_add by lia. rewrite Z.mod_small by lia. lia.
Qed.
Lemma i64_inv i : 0 <= i < 2^64 -> 0 <= i64 i -> i64 i = i.
Proof. intros Hi H0. pose proof (i64_cases i Hi). lia. Qed.
(* a block index the bitmaps accept does not overflow *)
Lemma index_small s c i : shape s c -> 0 <= i < bits_for (total c) -> u64 (i * bs) = i * bs /\ u64 (i * bs + bs) = i * bs + bs.
Proof.
  intros (_ & _ & H0 & H1 & _) Hi. pose proof (bits_for_le (total c) H0) as HB.
  assert (i * bs <= (total c + 7) * bs) by (apply Z.mul_le_mono_nonneg_r; lia). rewrite !u64_small; lia.
Qed.
Lemma slice_inside s c i buf : shape s c -> 0 <= i < bits_for (total c) ->
  data_slice (data c) (u64 (i * bs)) (u64 (u64 (i * bs) + bs)) = Ret buf -> 0 <= i < tot s /\ zlen buf = bs.
Proof.
  intros HS Hi. destruct (index_small s c i HS Hi) as [E1 E2]. rewrite E1, E2. destruct HS as (_ & Et & H0 & H1 & Hd & _).
  unfold data_slice. destruct (_ && _) eqn:E; [|discriminate]. intros [= <-].
  assert ((i + 1) * bs <= total c * bs) as HM by lia. apply Z.mul_le_mono_pos_r in HM; [|lia]. split; [lia|].
  rewrite zlen_slice by lia. lia.
Qed.
Lemma load_loop_same fuel : forall i stop s c, shape s c -> 0 <= i < 2^64 -> shaped (load_loop cb1 fuel i stop s c) (load_loop cb2 fuel i stop s c).
Proof.
  induction fuel as [|fuel IH]; intros i stop s c HS Hi; [split; [reflexivity|discriminate]|]. cbn [load_loop].
  destruct (i <? stop); [|split; [reflexivity|intros ? ? ? [= <- <- <-]; exact HS]].
  pose proof HS as (Eb & Et & H0 & H1 & Hd & Hl & Hy).
  destruct (bget (loaded c) (i64 i)) as [b| |] eqn:EG; [|split; [reflexivity|discriminate]..].
  pose proof (bget_inv _ _ _ EG) as HR. rewrite (i64_inv i Hi) in * by lia.
  destruct b; [apply IH; [exact HS|apply u64_range]|]. rewrite Eb.
  destruct (data_slice _ _ _) as [buf| |] eqn:ED; [|split; [reflexivity|discriminate]..].
  destruct (slice_inside s c i buf HS ltac:(lia) ED) as [Hin HL].
  destruct (proj1 Hs s i buf Hin HL) as [EF _]. rewrite <- EF. destruct (cb_fetch cb1 s i buf) as [[s' b'] e] eqn:EFe.
  destruct (proj1 Ht1 _ _ _ _ _ _ EFe) as [Et' HL'].
  destruct (index_small s c i HS ltac:(lia)) as [E1 _]. rewrite E1.
  assert (zlen (splice (i * bs) b' (data c)) = total c * bs) as HD.
  { rewrite <- Hd. apply zlen_splice; [lia|]. rewrite HL', HL, Hd. assert ((i + 1) * bs <= total c * bs) by (apply Z.mul_le_mono_nonneg_r; lia). lia. }
  destruct e as [e|].
  - split; [reflexivity|]. intros ? ? ? [= <- <- <-]. red. cbn [bpb total loaded dirty data]. rewrite Et'. repeat split; auto; lia.
  - destruct (bset (loaded c) i true) as [l'| |] eqn:EL; [|split; [reflexivity|discriminate]..].
    destruct (bset (dirty c) i false) as [y'| |] eqn:EY; [|split; [reflexivity|discriminate]..].
    apply bset_inv in EL as [_ EL]. apply bset_inv in EY as [_ EY]. apply IH; [|apply u64_range].
    red. cbn [bpb total loaded dirty data]. rewrite Et'. repeat split; auto; lia.
Qed.
Lemma load_range_same s c start count : shape s c -> 0 <= start < 2^64 -> shaped (load_range cb1 s c start count) (load_range cb2 s c start count).
Proof.
  intros HS H0. unfold load_range. destruct (check_bounds _ _ _) as [[e|]| |]; [|apply load_loop_same; auto|split; [reflexivity|discriminate]..].
  split; [reflexivity|]. intros ? ? ? [= <- <- <-]. exact HS.
Qed.
Lemma get_slice_same s c start count : shape s c -> 0 <= start < 2^64 -> shaped (get_slice cb1 s c start count) (get_slice cb2 s c start count).
Proof.
  intros HS H0. unfold get_slice. destruct (load_range_same s c start count HS H0) as [<- HF].
  destruct (load_range cb1 s c start count) as [[[s' c'] [e|]]| |]; try (split; [reflexivity|discriminate]).
  - split; [reflexivity|]. intros ? ? ? [= <- <- <-]. eauto.
  - destruct (data_slice _ _ _); (split; [reflexivity|]); try discriminate. intros ? ? ? [= <- <- <-]. eauto.
Qed.
Lemma flush_loop_same fuel : forall i stop s c, shape s c -> shaped (flush_loop cb1 fuel i stop s c) (flush_loop cb2 fuel i stop s c).
Proof.
  induction fuel as [|fuel IH]; intros i stop s c HS; [split; [reflexivity|discriminate]|]. cbn [flush_loop].
  destruct (_ <? stop); [|split; [reflexivity|intros ? ? ? [= <- <- <-]; exact HS]].
  destruct (bget (dirty c) i) as [b| |] eqn:EG; [|split; [reflexivity|discriminate]..].
  pose proof (bget_inv _ _ _ EG) as HR. destruct b; [|apply IH; exact HS].
  destruct (get_slice_same s c (u64 i) 1 HS (u64_range i)) as [<- HF].
  destruct (get_slice cb1 s c (u64 i) 1) as [[[s' c'] [buf|e]]| |] eqn:EGS; try (split; [reflexivity|discriminate]).
  2:{ split; [reflexivity|]. intros ? ? ? [= <- <- <-]. eauto. }
  pose proof (HF _ _ _ eq_refl) as HS'.
  assert (total c' = total c /\ zlen buf = bs /\ 0 <= u64 i < tot s') as (ET & HL & Hin).
  { pose proof HS as (Eb & Et & H0 & H1 & Hd & Hl & Hy). pose proof HS' as (Eb' & Et' & _).
    assert (total c' = total c) as ET.
    { clear -EGS. unfold get_slice, load_range in EGS. destruct (check_bounds _ _ _) as [[e|]| |]; try discriminate.
      destruct (load_loop _ _ _ _ _ _) as [[[s1 c1] [e|]]| |] eqn:E; try discriminate. destruct (data_slice _ _ _); try discriminate. injection EGS as _ <- _.
      revert E. generalize (loop_fuel c) as fu. intros fu. generalize (u64 i) at 1 as k. generalize (u64 (u64 i + 1)) as stop. intros stop k. revert k s c s1 c1.
      induction fu as [|fu IH]; intros k s c s1 c1; cbn [load_loop]; [discriminate|]. destruct (k <? stop); [|intros [= _ <-]; reflexivity].
      destruct (bget _ _) as [[]| |]; try discriminate; [apply IH|]. destruct (data_slice _ _ _); try discriminate. destruct (cb_fetch _ _ _ _) as [[s2 b2] [e|]]; [discriminate|].
      destruct (bset _ _ _); try discriminate. destruct (bset _ _ _); try discriminate. intros E. apply IH in E. exact E. }
    pose proof (bits_for_le (total c) H0) as HB.
    assert (total c <= 2^63 + 2^59) as HT.
    { assert (total c * 1 <= total c * bs) by (apply Z.mul_le_mono_nonneg_l; lia). lia. }
    split; [exact ET|]. assert (u64 i = i) as EI by (apply u64_small; lia). rewrite EI in *.
    unfold get_slice in EGS. destruct (load_range cb1 s c i 1) as [[[s1 c1] [e|]]| |]; try discriminate.
    destruct (data_slice (data c1) _ _) as [b1| |] eqn:ED; try discriminate. injection EGS as <- <- <-.
    rewrite Eb' in ED. rewrite Z.mul_1_l in ED. rewrite (u64_small bs) in ED by lia.
    destruct (slice_inside s1 c1 i b1 HS' ltac:(rewrite ET; lia) ED). auto. }
  destruct (proj1 Hs s' (u64 i) buf Hin HL) as [_ EF]. rewrite <- EF. destruct (cb_flush cb1 s' (u64 i) buf) as [s'' e] eqn:EFe.
  pose proof (proj1 (proj2 Ht1) _ _ _ _ _ EFe) as Et''. destruct HS' as (Eb' & Et' & H0' & H1' & Hd' & Hl' & Hy').
  destruct e as [e|].
  - split; [reflexivity|]. intros ? ? ? [= <- <- <-]. red. rewrite Et''. repeat split; auto.
  - destruct (bset (dirty c') i false) as [y'| |] eqn:EY; [|split; [reflexivity|discriminate]..]. apply bset_inv in EY as [_ EY].
    apply IH. red. cbn [bpb total loaded dirty data]. rewrite Et''. repeat split; auto; lia.
Qed.
Lemma flush_all_same s c : shape s c -> shaped (flush_all cb1 s c) (flush_all cb2 s c).
Proof.
  intros HS. unfold flush_all, flush_range. destruct (check_bounds _ _ _) as [[e|]| |]; [|apply flush_loop_same; auto|split; [reflexivity|discriminate]..].
  split; [reflexivity|]. intros ? ? ? [= <- <- <-]. exact HS.
Qed.
Lemma set_bits_shape fuel : forall i stop start c c', set_bits fuel i stop start c = Ret c' ->
  bpb c' = bpb c /\ total c' = total c /\ data c' = data c /\ zlen (loaded c') = zlen (loaded c) /\ zlen (dirty c') = zlen (dirty c).
Proof.
  induction fuel as [|fuel IH]; intros i stop start c c'; cbn [set_bits]; [discriminate|]. destruct (i <? stop); [|intros [= <-]; auto].
  destruct (bset (loaded c) _ _) as [l| |] eqn:E1; try discriminate. destruct (bset (dirty c) _ _) as [y| |] eqn:E2; try discriminate.
  intros E. apply IH in E. cbn [bpb total loaded dirty data] in E. apply bset_inv in E1 as [_ E1]. apply bset_inv in E2 as [_ E2]. intuition congruence.
Qed.
Lemma resize_same s c n : shape s c -> 0 <= n -> n * bs < 2^63 + bs -> shaped (resize cb1 s c n) (resize cb2 s c n).
Proof.
  intros HS Hn Hnb. unfold resize. rewrite <- (proj2 Hs s n). destruct (cb_resize cb1 s n) as [s' e] eqn:ER.
  pose proof (proj2 (proj2 Ht1) _ _ _ _ ER) as Et'. pose proof HS as (Eb & Et & H0 & H1 & Hd & Hl & Hy).
  destruct e as [e|].
  - split; [reflexivity|]. intros ? ? ? [= <- <- <-]. red. rewrite Et'. repeat split; auto.
  - destruct (set_bits _ _ _ _ _) as [c'| |] eqn:EB; (split; [reflexivity|]); try discriminate. intros ? ? ? [= <- <- <-].
    apply set_bits_shape in EB. cbn [bpb total loaded dirty data] in EB. destruct EB as (B1 & B2 & B3 & B4 & B5). pose proof (bits_for_le n Hn) as HB. red. rewrite B1, B2, B3, B4, B5, Et', !zlen_gocopy.
    unfold bitmap_new. rewrite !(zlen_repeat false) by lia. rewrite zlen_repeat by apply u64_range. rewrite Eb, u64_small by lia. cbn [total]. repeat split; auto; lia.
Qed.

(** ** Streams *)
Definition sshaped {A} (f1 f2 : outcome (S * stream * A)) : Prop :=
  f1 = f2 /\ forall s st a, f1 = Ret (s, st, a) -> shape s (scache st).
Lemma s_sync_same s st : shape s (scache st) -> sshaped (s_sync cb1 s st) (s_sync cb2 s st).
Proof.
  intros HS. unfold s_sync. destruct (flush_all_same s (scache st) HS) as [<- HF]. destruct (flush_all cb1 s (scache st)) as [[[s' c'] e]| |]; (split; [reflexivity|]); try discriminate.
  intros ? ? ? [= <- <- <-]. cbn. eauto.
Qed.
Lemma blocks_small c n b : bpb c = bs -> 0 <= n < 2^63 -> min_blocks c (u64 n) = Ret b -> 0 <= b /\ b * bs < 2^63 + bs.
Proof.
  intros Eb Hn. unfold min_blocks. rewrite Eb. destruct (bs =? 0) eqn:E; [lia|]. rewrite (u64_small n) by lia. rewrite (u64_small (n + bs)) by lia. rewrite u64_small by lia.
  intros [= <-]. pose proof (cdiv_nonneg bs n ltac:(lia) ltac:(lia)). pose proof (cdiv_lt bs n ltac:(lia)). lia.
Qed.
Lemma s_truncate_same s st n : shape s (scache st) -> n < 2^63 -> sshaped (s_truncate cb1 s st n) (s_truncate cb2 s st n).
Proof.
  intros HS Hn. unfold s_truncate. destruct (negb _); [split; [reflexivity|intros ? ? ? [= <- <- <-]; exact HS]|].
  destruct (n <? 0) eqn:EN; [split; [reflexivity|intros ? ? ? [= <- <- <-]; exact HS]|].
  destruct (min_blocks _ _) as [b| |] eqn:EM; [|split; [reflexivity|discriminate]..].
  destruct (blocks_small _ n b ltac:(apply HS) ltac:(lia) EM) as [B0 B1].
  destruct (resize_same s (scache st) b HS B0 B1) as [<- HF].
  destruct (resize cb1 s (scache st) b) as [[[s' c'] [e|]]| |]; try (split; [reflexivity|discriminate]).
  - split; [reflexivity|]. intros ? ? ? [= <- <- <-]. cbn. eauto.
  - pose proof (HF _ _ _ eq_refl). destruct (io_synchronous _); [apply s_sync_same; auto|]. split; [reflexivity|]. intros ? ? ? [= <- <- <-]. auto.
Qed.
Lemma conv_range c o a b : conv_addr c o = Ret (a, b) -> 0 <= a < 2^64 /\ 0 <= b.
Proof. unfold conv_addr. destruct (_ =? 0); [discriminate|]. intros [= <- <-]. split; apply u64_range. Qed.
Lemma get_slice_where s c start count s' c' t : shape s c -> 0 <= start < 2^64 -> get_slice cb1 s c start count = Ret (s', c', inl t) ->
  start * bs + zlen t <= zlen (data c').
Proof.
  intros HS H0 EG. pose proof (proj2 (get_slice_same s c start count HS H0) _ _ _ EG) as HS'. unfold get_slice in EG.
  assert (start < total c) as HT.
  { unfold load_range, check_bounds in EG. destruct (min_blocks _ _); try discriminate. destruct (start >=? total c) eqn:E; [discriminate|]. lia. }
  destruct (load_range cb1 s c start count) as [[[s1 c1] [e|]]| |]; try discriminate. destruct (data_slice _ _ _) as [t1| |] eqn:ED; try discriminate. injection EG as <- <- <-.
  destruct HS as (Eb & Et & T0 & T1 & Hd & _). destruct HS' as (Eb' & _ & _ & _ & Hd' & _). rewrite Eb' in ED.
  assert (start * bs <= total c * bs) by (apply Z.mul_le_mono_nonneg_r; lia). rewrite (u64_small (start * bs)) in ED by lia.
  unfold data_slice in ED. destruct (_ && _) eqn:E; [|discriminate]. injection ED as <-. rewrite zlen_slice by lia. lia.
Qed.
Lemma i64_lt x : i64 x < 2^63.
Proof. unfold i64. pose proof (Z.mod_pos_bound (x + 2^63) (2^64) ltac:(lia)). lia. Qed.
Lemma s_impl_write_same s st b off : shape s (scache st) ->
  s_impl_write_at cb1 s st b off = s_impl_write_at cb2 s st b off /\ forall s' st' n e, s_impl_write_at cb1 s st b off = Ret (s', st', n, e) -> shape s' (scache st').
Proof.
  intros HS. unfold s_impl_write_at. destruct (negb _); [split; [reflexivity|intros ? ? ? ? [= <- <- <- <-]; exact HS]|]. cbv zeta.
  destruct (conv_addr _ off) as [[start so]| |] eqn:E1; [|split; [reflexivity|discriminate]..].
  destruct (conv_addr _ (i64 _)) as [[last x]| |] eqn:E2; [|split; [reflexivity|discriminate]..].
  apply conv_range in E1 as [E1 Eso].
  set (g1 := if last >=? total (scache st) then s_truncate cb1 s st (i64 (off + zlen b)) else Ret (s, st, None)).
  set (g2 := if last >=? total (scache st) then s_truncate cb2 s st (i64 (off + zlen b)) else Ret (s, st, None)).
  assert (sshaped g1 g2) as [<- HG].
  { unfold g1, g2. destruct (last >=? _); [apply s_truncate_same; [exact HS|apply i64_lt]|]. split; [reflexivity|intros ? ? ? [= <- <- <-]; exact HS]. }
  clearbody g1. destruct g1 as [[[s1 st1] [e|]]| |]; try (split; [reflexivity|discriminate]).
  { split; [reflexivity|]. intros ? ? ? ? [= <- <- <- <-]. eauto. }
  pose proof (HG _ _ _ eq_refl) as HS1. destruct (get_slice_same s1 (scache st1) start (u64 (last + 1)) HS1 E1) as [<- HF].
  destruct (get_slice cb1 s1 (scache st1) start (u64 (last + 1))) as [[[s2 c2] [t|e]]| |] eqn:EG; try (split; [reflexivity|discriminate]).
  2:{ split; [reflexivity|]. intros ? ? ? ? [= <- <- <- <-]. cbn. eauto. }
  pose proof (HF _ _ _ eq_refl) as HS2. destruct (so >? zlen t) eqn:ES; [split; [reflexivity|discriminate]|].
  set (c3 := poke c2 start so _).
  assert (shape s2 c3) as HS3.
  { destruct HS2 as (Eb & Et & H0 & H1 & Hd & Hl & Hy). unfold c3, poke. red. cbn [bpb total loaded dirty data]. repeat split; auto. rewrite <- Hd. pose proof (get_slice_where _ _ _ _ _ _ _ HS1 E1 EG) as HW. rewrite Eb.
    pose proof (zlen_nonneg b). assert (0 <= start * bs) by (apply Z.mul_nonneg_nonneg; lia).
    apply zlen_splice; [lia|]. rewrite zlen_slice by lia. lia. }
  destruct (io_synchronous _).
  - destruct (s_sync_same s2 (set_cache st1 c3) HS3) as [<- HY]. destruct (s_sync cb1 s2 (set_cache st1 c3)) as [[[s4 st4] e4]| |]; (split; [reflexivity|]); try discriminate.
    intros ? ? ? ? [= <- <- <- <-]. eauto.
  - split; [reflexivity|]. intros ? ? ? ? [= <- <- <- <-]. exact HS3.
Qed.
Lemma s_read_at_same s st b off : shape s (scache st) ->
  s_read_at cb1 s st b off = s_read_at cb2 s st b off /\ forall s' st' b' n e, s_read_at cb1 s st b off = Ret (s', st', b', n, e) -> shape s' (scache st').
Proof.
  intros HS. unfold s_read_at. destruct (negb _); [split; [reflexivity|intros ? ? ? ? ? [= <- <- <- <- <-]; exact HS]|]. cbv zeta.
  destruct (zlen b =? 0); [split; [reflexivity|intros ? ? ? ? ? [= <- <- <- <- <-]; exact HS]|].
  destruct (off >=? ssize st); [split; [reflexivity|intros ? ? ? ? ? [= <- <- <- <- <-]; exact HS]|].
  destruct (conv_addr _ off) as [[first so]| |] eqn:E1; [|split; [reflexivity|discriminate]..].
  destruct (conv_addr _ (i64 _)) as [[last x]| |] eqn:E2; [|split; [reflexivity|discriminate]..].
  apply conv_range in E1 as [E1 _]. destruct (get_slice_same s (scache st) first (u64 (u64 (last - first) + 1)) HS E1) as [<- HF].
  destruct (get_slice cb1 s (scache st) first _) as [[[s2 c2] [t|e]]| |]; try (split; [reflexivity|discriminate]).
  - destruct (reslice _ _ _ _); (split; [reflexivity|]); try discriminate. intros ? ? ? ? ? [= <- <- <- <- <-]. cbn. eauto.
  - split; [reflexivity|]. intros ? ? ? ? ? [= <- <- <- <- <-]. cbn. eauto.
Qed.
Lemma sexec_same s st o : shape s (scache st) -> sop_go o -> sshaped (sexec_op cb1 s st o) (sexec_op cb2 s st o).
Proof.
  intros HS Ho. destruct o as [len off|len|b off|b|off whence|n|]; cbn [sexec_op].
  - destruct (s_read_at_same s st (zrepeat 0 len) off HS) as [<- HF]. destruct (s_read_at cb1 s st _ off) as [[[[[s1 st1] b1] n1] e1]| |]; (split; [reflexivity|]); try discriminate.
    intros ? ? ? [= <- <- <-]. eauto.
  - unfold s_read. destruct (s_read_at_same s st (zrepeat 0 len) (spos st) HS) as [<- HF].
    destruct (s_read_at cb1 s st _ (spos st)) as [[[[[s1 st1] b1] n1] [e1|]]| |]; (split; [reflexivity|]); try discriminate; intros ? ? ? [= <- <- <-]; cbn; eauto.
  - unfold s_write_at. destruct (io_append _); [split; [reflexivity|intros ? ? ? [= <- <- <-]; exact HS]|].
    destruct (s_impl_write_same s st b off HS) as [<- HF]. destruct (s_impl_write_at cb1 s st b off) as [[[[s1 st1] n1] e1]| |]; (split; [reflexivity|]); try discriminate.
    intros ? ? ? [= <- <- <-]. eauto.
  - unfold s_write. destruct (negb _); [split; [reflexivity|intros ? ? ? [= <- <- <-]; exact HS]|].
    assert (forall st1 p e1, (if io_append (sflags st) then s_seek st 0 2 else (st, 0, None)) = (st1, p, e1) -> scache st1 = scache st) as HK.
    { intros st1 p e1. destruct (io_append _); [|now intros [= <- _ _]]. unfold s_seek. cbn [Z.eqb Pos.eqb]. cbv iota zeta. match goal with |- context [?a <? 0] => destruct (a <? 0) end; intros E; inversion E; reflexivity. }
    destruct (if io_append (sflags st) then s_seek st 0 2 else (st, 0, None)) as [[st1 p] e1]. specialize (HK _ _ _ eq_refl).
    assert (shape s (scache st1)) as HS1 by (rewrite HK; exact HS).
    destruct e1 as [e1|]; [split; [reflexivity|intros ? ? ? [= <- <- <-]; exact HS1]|].
    destruct (s_impl_write_same s st1 b (spos st1) HS1) as [<- HF]. destruct (s_impl_write_at cb1 s st1 b (spos st1)) as [[[[s2 st2] n2] e2]| |]; (split; [reflexivity|]); try discriminate.
    intros ? ? ? [= <- <- <-]. cbn. eauto.
  - destruct (s_seek st off whence) as [[st1 p] e] eqn:E. split; [reflexivity|]. intros ? ? ? [= <- <- <-].
    assert (scache st1 = scache st) as ->; [|exact HS]. revert E. unfold s_seek. destruct (whence =? 0); [destruct (off <? 0); intros X; inversion X; reflexivity|].
    destruct (whence =? 1); [destruct (_ <? 0); intros X; inversion X; reflexivity|]. destruct (whence =? 2); [destruct (_ <? 0); intros X; inversion X; reflexivity|]. intros X; inversion X; reflexivity.
  - cbn in Ho. destruct (s_truncate_same s st n HS ltac:(lia)) as [<- HF]. destruct (s_truncate cb1 s st n) as [[[s1 st1] e1]| |]; (split; [reflexivity|]); try discriminate.
    intros ? ? ? [= <- <- <-]. eauto.
  - destruct (s_sync_same s st HS) as [<- HF]. destruct (s_sync cb1 s st) as [[[s1 st1] e1]| |]; (split; [reflexivity|]); try discriminate. intros ? ? ? [= <- <- <-]. eauto.
Qed.
Lemma srun_same os : forall s st, shape s (scache st) -> Forall sop_go os -> srun cb1 s st os = srun cb2 s st os.
Proof.
  induction os as [|o os IH]; intros s st HS Hf; [reflexivity|]. inversion Hf; subst. cbn [srun].
  destruct (sexec_same s st o HS) as [<- HF]; [assumption|]. destruct (sexec_op cb1 s st o) as [[[s1 st1] r]| |]; try reflexivity.
  rewrite (IH s1 st1) by eauto. reflexivity.
Qed.
Lemma new_shape s T : 0 <= T -> T * bs < 2^63 + bs -> tot s = T -> shape s (new_cache bs T).
Proof.
  intros H0 H1 E. pose proof (bits_for_le T H0). unfold new_cache, bitmap_new. red. cbn [bpb total loaded dirty data]. rewrite !(zlen_repeat false) by lia. rewrite zlen_repeat by apply u64_range.
  rewrite u64_small by lia. repeat split; auto; lia.
Qed.
Lemma open_run_same s T sz fl os : 0 <= T -> T * bs < 2^63 -> tot s = T -> Forall sop_go os ->
  open_and_run cb1 bs T sz fl s os = open_and_run cb2 bs T sz fl s os.
Proof.
  intros H0 H1 E Hf. unfold open_and_run, s_new. destruct (_ || _); [reflexivity|]. pose proof (new_shape s T H0 ltac:(lia) E) as HS.
  set (st := mkStream sz 0 (new_cache bs T) fl). destruct (io_truncate fl).
  - destruct (s_truncate_same s st 0 HS ltac:(lia)) as [<- HF]. destruct (s_truncate cb1 s st 0) as [[[s1 st1] e1]| |]; try reflexivity.
    rewrite (srun_same os s1 st1) by eauto. reflexivity.
  - rewrite (srun_same os s st HS Hf). reflexivity.
Qed.

(** ** Caches *)
Lemma get_slice_len s c start count s' c' t : shape s c -> get_slice cb1 s c start count = Ret (s', c', inl t) -> 0 <= start < 2^64 -> 0 <= count -> count * bs < 2^63 -> zlen t = count * bs.
Proof.
  intros HS EG H0 Hc Hcb. pose proof (proj2 (get_slice_same s c start count HS H0) _ _ _ EG) as HS'. unfold get_slice in EG.
  assert (start < total c) as HT.
  { unfold load_range, check_bounds in EG. destruct (min_blocks _ _); try discriminate. destruct (start >=? total c) eqn:E; [discriminate|]. lia. }
  destruct (load_range cb1 s c start count) as [[[s1 c1] [e|]]| |]; try discriminate. destruct (data_slice _ _ _) as [t1| |] eqn:ED; try discriminate. injection EG as <- <- <-.
  destruct HS as (Eb & Et & T0 & T1 & Hd & _). destruct HS' as (Eb' & _ & _ & _ & Hd' & _). rewrite Eb' in ED.
  assert (start * bs <= total c * bs) by (apply Z.mul_le_mono_nonneg_r; lia). assert (0 <= count * bs) by (apply Z.mul_nonneg_nonneg; lia).
  rewrite (u64_small (start * bs)), (u64_small (count * bs)) in ED by lia. assert (total c * bs < 2^63 + bs) by lia.
  unfold data_slice in ED. destruct (_ && _) eqn:E; [|discriminate]. injection ED as <-.
  assert (start * bs + count * bs < 2^64) as HU.
  { assert ((start + 1) * bs <= total c * bs) by (apply Z.mul_le_mono_nonneg_r; lia). lia. }
  rewrite (u64_small (start * bs + count * bs)) in * by lia. rewrite zlen_slice by lia. lia.
Qed.
Lemma mark_same s c start count : shape s c -> forall c' e, mark_dirty c start count = Ret (c', e) -> shape s c'.
Proof.
  intros HS c' e. unfold mark_dirty. destruct (check_bounds _ _ _) as [[e1|]| |]; try discriminate; [intros [= <- <-]; exact HS|].
  destruct (set_bits _ _ _ _ _) as [c1| |] eqn:EB; try discriminate. intros [= <- <-]. apply set_bits_shape in EB as (B1 & B2 & B3 & B4 & B5).
  unfold shape in *. rewrite B1, B2, B3, B4, B5. exact HS.
Qed.
Lemma poke_shape s c start off b : shape s c -> 0 <= start -> 0 <= off -> start * bs + off + zlen b <= zlen (data c) -> shape s (poke c start off b).
Proof.
  intros (Eb & Et & H0 & H1 & Hd & Hl & Hy) Hst Ho Hb. unfold poke. red. cbn [bpb total loaded dirty data]. repeat split; auto. rewrite <- Hd, Eb.
  assert (0 <= start * bs) by (apply Z.mul_nonneg_nonneg; lia). apply zlen_splice; lia.
Qed.
Lemma exec_op_same s c o : shape s c -> op_go bs o -> shaped (exec_op cb1 s c o) (exec_op cb2 s c o).
Proof.
  intros HS Ho. destruct o as [start len|start b|start count|start count off b| | | |n]; cbn [exec_op op_go] in *.
  - unfold read_at. destruct (check_bounds _ _ _) as [[e|]| |]; [split; [reflexivity|intros ? ? ? [= <- <- <-]; exact HS]| |split; [reflexivity|discriminate]..].
    destruct (min_blocks _ _) as [n| |]; [|split; [reflexivity|discriminate]..].
    destruct (load_range_same s c start n HS ltac:(lia)) as [<- HF]. destruct (load_range cb1 s c start n) as [[[s1 c1] [e|]]| |]; try (split; [reflexivity|discriminate]).
    + split; [reflexivity|]. intros ? ? ? [= <- <- <-]. eauto.
    + pose proof (HF _ _ _ eq_refl) as HS1. destruct (get_slice_same s1 c1 start n HS1 ltac:(lia)) as [<- HG].
      destruct (get_slice cb1 s1 c1 start n) as [[[s2 c2] [t|e]]| |]; (split; [reflexivity|]); try discriminate; intros ? ? ? [= <- <- <-]; eauto.
  - unfold write_at. destruct (check_bounds _ _ _) as [[e|]| |]; [split; [reflexivity|intros ? ? ? [= <- <- <-]; exact HS]| |split; [reflexivity|discriminate]..].
    destruct (min_blocks _ _) as [n| |]; [|split; [reflexivity|discriminate]..].
    destruct (get_slice_same s c start n HS ltac:(lia)) as [<- HG]. destruct (get_slice cb1 s c start n) as [[[s2 c2] [t|e]]| |] eqn:EG; try (split; [reflexivity|discriminate]).
    2:{ split; [reflexivity|]. intros ? ? ? [= <- <- <-]. eauto. }
    pose proof (HG _ _ _ eq_refl) as HS2. pose proof (get_slice_where s c start n s2 c2 t HS ltac:(lia) EG) as HW.
    destruct (set_bits _ _ _ _ _) as [c3| |] eqn:EB; (split; [reflexivity|]); try discriminate. intros ? ? ? [= <- <- <-].
    apply set_bits_shape in EB as (B1 & B2 & B3 & B4 & B5). pose proof (zlen_nonneg t). pose proof (zlen_nonneg b).
    assert (shape s2 (poke c2 start 0 (slice 0 (Z.min (zlen t) (zlen b)) b))) as HP by (apply poke_shape; [exact HS2|lia|lia|rewrite zlen_slice by lia; lia]).
    unfold shape in *. rewrite B1, B2, B3, B4, B5. exact HP.
  - destruct (get_slice_same s c start count HS ltac:(lia)) as [<- HG]. destruct (get_slice cb1 s c start count) as [[[s2 c2] [t|e]]| |]; (split; [reflexivity|]); try discriminate; intros ? ? ? [= <- <- <-]; eauto.
  - destruct (get_slice_same s c start count HS ltac:(lia)) as [<- HG]. destruct (get_slice cb1 s c start count) as [[[s2 c2] [t|e]]| |] eqn:EG; try (split; [reflexivity|discriminate]).
    2:{ split; [reflexivity|]. intros ? ? ? [= <- <- <-]. eauto. }
    pose proof (HG _ _ _ eq_refl) as HS2. pose proof (get_slice_where s c start count s2 c2 t HS ltac:(lia) EG) as HW. pose proof (get_slice_len s c start count s2 c2 t HS EG ltac:(lia) ltac:(lia) ltac:(lia)) as HLt.
    assert (shape s2 (poke c2 start off b)) as HP by (apply poke_shape; [exact HS2|lia|lia|lia]).
    pose proof (mark_same s2 _ start count HP) as HM. destruct (mark_dirty _ _ _) as [[c3 e3]| |]; (split; [reflexivity|]); try discriminate. intros ? ? ? [= <- <- <-]. eauto.
  - unfold load_all. destruct (load_range_same s c 0 (total c) HS ltac:(lia)) as [<- HF]. destruct (load_range cb1 s c 0 (total c)) as [[[s1 c1] e]| |]; (split; [reflexivity|]); try discriminate.
    intros ? ? ? [= <- <- <-]. eauto.
  - unfold get_data, load_all. destruct (load_range_same s c 0 (total c) HS ltac:(lia)) as [<- HF]. destruct (load_range cb1 s c 0 (total c)) as [[[s1 c1] [e|]]| |]; (split; [reflexivity|]); try discriminate;
      intros ? ? ? [= <- <- <-]; eauto.
  - destruct (flush_all_same s c HS) as [<- HF]. destruct (flush_all cb1 s c) as [[[s1 c1] e]| |]; (split; [reflexivity|]); try discriminate. intros ? ? ? [= <- <- <-]. eauto.
  - destruct (resize_same s c n HS ltac:(lia) ltac:(lia)) as [<- HF]. destruct (resize cb1 s c n) as [[[s1 c1] e]| |]; (split; [reflexivity|]); try discriminate. intros ? ? ? [= <- <- <-]. eauto.
Qed.
Lemma exec_same os : forall s c, shape s c -> Forall (op_go bs) os -> exec cb1 s c os = exec cb2 s c os.
Proof.
  induction os as [|o os IH]; intros s c HS Hf; [reflexivity|]. inversion Hf; subst. cbn [exec].
  destruct (exec_op_same s c o HS) as [<- HF]; [assumption|]. destruct (exec_op cb1 s c o) as [[[s1 c1] r]| |]; try reflexivity.
  rewrite (IH s1 c1) by eauto. reflexivity.
Qed.
End Same.
