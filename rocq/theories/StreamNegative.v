(** * StreamNegative: exactly which ReadAt / WriteAt calls at negative or very large offsets
    panic (C39). *)
From Verif Require Import GoBase ListZ Errors Flags BlockCache Spec_BlockCache
  BlockCacheProofs BlockCacheProofs2 BlockCacheProofs3 BlockCacheProofs4 BasicStream Spec_BasicStream
  BasicStreamProofs BasicStreamProofs2 BasicStreamProofs3 BasicStreamProofs4.

Section Neg.
Context {S : Type} (cb : callbacks S) (bs : Z) (nb : S -> Z) (blk : S -> Z -> list Z).
Hypothesis H : honest cb bs nb blk.
Hypothesis Hbs : 0 < bs < 2^62.
Let Hbs0 : 0 < bs := proj1 Hbs.
Notation SInv := (SInv bs nb blk).
Notation OOR := (K ErrArgumentOutOfRange).

Lemma conv_total c off : bpb c = bs -> exists l o, conv_addr c off = Ret (l, o).
Proof. intros Hb. unfold conv_addr. rewrite Hb, i64_id by lia. replace (bs =? 0) with false by lia. eauto. Qed.
Lemma conv_low c off : bpb c = bs -> - 2^63 <= off <= - bs -> exists l o, conv_addr c off = Ret (l, o) /\ 2^63 <= l.
Proof.
  intros Hb Ho. unfold conv_addr. rewrite Hb, i64_id by lia. replace (bs =? 0) with false by lia.
  do 2 eexists. split; [reflexivity|].
  replace off with (- (- off)) by lia. rewrite Z.quot_opp_l by lia. rewrite Z.quot_div_nonneg by lia.
  set (q := - off / bs). assert (1 <= q <= - off) as Hq.
  { unfold q. split; [apply Z.div_le_lower_bound; lia|apply Z.div_le_upper_bound; nia]. }
  clearbody q. unfold u64. replace (- q) with (2^64 - q + (-1) * 2^64) by lia. rewrite Z.mod_add by lia. rewrite Z.mod_small by lia. lia.
Qed.
Lemma gs_reject s c start count : bpb c = bs -> total c <= start -> get_slice cb s c start count = Ret (s, c, inr OOR).
Proof.
  intros Hb Ht. unfold get_slice, load_range, check_bounds, min_blocks. rewrite Hb. replace (bs =? 0) with false by lia.
  replace (start >=? total c) with true by lia. reflexivity.
Qed.
Lemma set_cache_id st : set_cache st (scache st) = st.
Proof. now destruct st. Qed.

Lemma read_negative s st buf off : SInv s st -> io_read (sflags st) = true -> 0 < zlen buf < 2^62 ->
  (forall s i b, snd (cb_fetch cb s i b) = None) -> - 2^63 <= off < 0 -> ssize st + bs < 2^63 ->
  s_read_at cb s st buf off =
    if (- bs <? off) && (0 <? total (scache st)) then Panic else Ret (s, st, buf, 0, Some OOR).
Proof.
  intros (I & Hsz & Hp) Hrd Hb Hok Ho Hf. pose proof (i_bpb _ _ _ _ _ I) as Hbpb.
  destruct (winv_small cb bs nb blk H Hbs s _ I) as (Ht & Hft & HC).
  unfold s_read_at. rewrite Hrd. cbn [negb]. replace (zlen buf =? 0) with false by lia.
  replace (off >=? ssize st) with false by lia.
  set (n := if i64 (off + zlen buf) >=? ssize st then i64 (ssize st - off) else zlen buf).
  assert (1 <= n <= zlen buf /\ off + n <= ssize st) as [Hn1 Hn2].
  { unfold n. rewrite (i64_id (off + zlen buf)) by lia. destruct (off + zlen buf >=? ssize st) eqn:E; [rewrite i64_id by lia|]; lia. }
  clearbody n.
  rewrite (i64_id (off + n)) by lia.
  destruct (- bs <? off) eqn:EO; cbn [andb].
  2:{ destruct (conv_low (scache st) off Hbpb ltac:(lia)) as (l & o & -> & Hl).
      destruct (conv_total (scache st) (i64 (off + n - 1)) Hbpb) as (l2 & o2 & ->).
      rewrite gs_reject by (auto; lia). now rewrite set_cache_id. }
  rewrite (conv_neg bs Hbs) by (auto; lia). rewrite (i64_id (off + n - 1)) by lia.
  destruct (0 <? total (scache st)) eqn:ET.
  2:{ destruct (conv_total (scache st) (off + n - 1) Hbpb) as (l2 & o2 & ->).
      rewrite gs_reject by (auto; lia). now rewrite set_cache_id. }
  destruct (conv_any bs Hbs (scache st) (off + n - 1) (total (scache st)) Hbpb ltac:(lia) Hft) as (l & o & -> & Hl0 & Hl).
  assert (l < total (scache st)) as HlT by lia.
  rewrite (u64_small (l - 0)) by lia. rewrite (u64_small (l - 0 + 1)) by lia.
  pose proof (gs cb bs nb blk H Hbs s (scache st) 0 (l - 0 + 1) I ltac:(lia) ltac:(lia)) as G.
  assert ((l - 0 + 1) * bs <= 2^63) as Hsm by nia. specialize (G Hsm).
  unfold in_range in G. replace ((0 <? total (scache st)) && (0 + (l - 0 + 1) <=? total (scache st))) with true in G by lia.
  destruct G as (s' & c' & e & evs & HK & Hac & He & Hsl & ->).
  pose proof (no_failed_fetch _ _ _ _ Hok Hac) as A. apply (proj1 He) in A. subst e.
  destruct HK as (I' & Ht' & _). pose proof (i_data _ _ _ _ _ I') as Hdl. rewrite Ht' in Hdl.
  unfold reslice. change (u64 (0 * bpb c')) with 0.
  replace ((2^64 + off <=? u64 (2^64 + off + u64 n)) && (0 + u64 (2^64 + off + u64 n) <=? zlen (data c'))) with false; [reflexivity|].
  rewrite (u64_small n) by lia. rewrite Hdl.
  destruct (Z_lt_le_dec (off + n) 0).
  - rewrite u64_small by lia. lia.
  - unfold u64. replace (2^64 + off + n) with (off + n + 1 * 2^64) by lia. rewrite Z.mod_add by lia. rewrite Z.mod_small by lia. lia.
Qed.

Lemma trunc_neg s st n : io_write (sflags st) = true -> n < 0 -> s_truncate cb s st n = Ret (s, st, Some (K ErrInvalidArgument)).
Proof. intros Hw Hn. unfold s_truncate. rewrite Hw. cbn [negb]. replace (n <? 0) with true by lia. reflexivity. Qed.

(* a write just below zero reaches the cache with a huge offset into the slice *)
Lemma write_hits s c so last : SInv s c -> (forall s i b, snd (cb_fetch cb s i b) = None) -> 0 <= last < total (scache c) -> so > bs * total (scache c) ->
  exists s2 c2 t, get_slice cb s (scache c) 0 (last + 1) = Ret (s2, c2, inl t) /\ (so >? zlen t) = true.
Proof.
  intros (I & Hsz & Hp) Hok Hl Hso. destruct (winv_small cb bs nb blk H Hbs s _ I) as (Ht & Hft & HC).
  pose proof (gs cb bs nb blk H Hbs s (scache c) 0 (last + 1) I ltac:(lia) ltac:(lia) ltac:(nia)) as G.
  unfold in_range in G. replace ((0 <? total (scache c)) && (0 + (last + 1) <=? total (scache c))) with true in G by lia.
  destruct G as (s' & c' & e & evs & HK & Hac & He & Hsl & E).
  pose proof (no_failed_fetch _ _ _ _ Hok Hac) as A. apply (proj1 He) in A. subst e.
  do 3 eexists. split; [exact E|]. rewrite zlen_slice by nia. nia.
Qed.

Lemma write_negative s st b off : SInv s st -> io_write (sflags st) = true -> io_append (sflags st) = false ->
  reliable cb -> - 2^63 <= off < 0 -> zlen b < 2^62 ->
  let e := off + zlen b in let T := total (scache st) in
  if (- bs <? off) && ((e <? 0) && (0 <? T) || (0 <=? e) && ((e <? bs * T) || negb (e mod bs =? 0)))
  then s_write_at cb s st b off = Panic
  else exists s' st' x, s_write_at cb s st b off = Ret (s', st', 0, Some x) /\ SInv s' st'.
Proof.
  intros Inv Hw Ha R Ho Hb e T. pose proof Inv as (I & Hsz & Hp). pose proof (i_bpb _ _ _ _ _ I) as Hbpb. pose proof (zlen_nonneg b) as Hb0.
  destruct R as (Rf & Rw & Rr).
  destruct (winv_small cb bs nb blk H Hbs s _ I) as (Ht & Hft & HC). fold T in Ht, Hft, HC.
  unfold s_write_at, s_impl_write_at. rewrite Ha, Hw. cbn [negb]. fold e. rewrite (i64_id e) by (unfold e; lia).
  destruct (- bs <? off) eqn:EO; cbn [andb].
  - assert (- bs < e) as He0 by (unfold e; lia).
    rewrite (conv_neg bs Hbs) by (auto; lia). fold T.
    destruct (e <? 0) eqn:EN; cbn [andb orb].
    + replace (0 <=? e) with false by lia. cbn [andb]. rewrite orb_false_r.
      rewrite (conv_neg bs Hbs) by (auto; lia).
      destruct (0 <? T) eqn:ET.
      * replace (0 >=? T) with false by lia. change (u64 (0 + 1)) with (0 + 1).
        destruct (write_hits s st (2^64 + off) 0 Inv Rf ltac:(fold T; lia) ltac:(fold T; lia)) as (s2 & c2 & t & -> & ->). reflexivity.
      * replace (0 >=? T) with true by lia. rewrite trunc_neg by (auto; lia). do 3 eexists. split; [reflexivity|exact Inv].
    + replace (0 <=? e) with true by lia. cbn [andb].
      rewrite (conv_ok bs Hbs) by (auto; unfold e; lia).
      assert (0 <= e / bs) as Hq0 by (apply Z.div_pos; lia).
      pose proof (Z.div_mod e bs ltac:(lia)) as DM. pose proof (Z.mod_pos_bound e bs ltac:(lia)) as MB.
      assert (e < 2^62) as He62 by (unfold e; lia).
      assert (e / bs <= e) as Hqe by (apply Z.div_le_upper_bound; nia).
      rewrite (u64_small (e / bs + 1)) by lia.
      destruct (e <? bs * T) eqn:ES; cbn [orb].
      * assert (e / bs < T) as HlT by (apply Z.div_lt_upper_bound; lia).
        replace (e / bs >=? T) with false by lia.
        destruct (write_hits s st (2^64 + off) (e / bs) Inv Rf ltac:(fold T; lia) ltac:(fold T; lia)) as (s2 & c2 & t & -> & ->). reflexivity.
      * assert (T <= e / bs) as HlT by (apply Z.div_le_lower_bound; lia).
        replace (e / bs >=? T) with true by lia.
        destruct (trunc_cases cb bs nb blk H Hbs s st e Inv Hw ltac:(lia) ltac:(lia)) as (s1 & st1 & x & -> & I1 & [F1 F2] & HX).
        rewrite Rr in HX. destruct HX as (Hs1 & Ht1 & _ & HX1 & HX2).
        assert (nblocks bs e = if e mod bs =? 0 then e / bs else e / bs + 1) as HN.
        { unfold nblocks. destruct (e mod bs =? 0) eqn:EM.
          - symmetry. apply Z.div_unique with (r := bs - 1); lia.
          - symmetry. apply Z.div_unique with (r := e mod bs - 1); lia. }
        destruct (e mod bs =? 0) eqn:EM; cbn [negb].
        -- destruct x as [x|]; [do 3 eexists; split; [reflexivity|exact I1]|].
           pose proof I1 as (W1 & Hz1 & Hp1).
           pose proof (gs cb bs nb blk H Hbs s1 (scache st1) 0 (e / bs + 1) W1 ltac:(lia) ltac:(lia) ltac:(nia)) as G.
           unfold in_range in G. replace ((0 <? total (scache st1)) && (0 + (e / bs + 1) <=? total (scache st1))) with false in G by lia.
           rewrite G. do 3 eexists. split; [reflexivity|]. now rewrite set_cache_id.
        -- assert (x = None) as ->.
           { destruct (io_synchronous (sflags st)) eqn:Ey; [|auto]. rewrite (HX2 (conj Rf (conj Rw Rr)) eq_refl).
             replace (0 <? nblocks bs e) with true by lia. reflexivity. }
           destruct (write_hits s1 st1 (2^64 + off) (e / bs) I1 Rf ltac:(lia) ltac:(nia)) as (s2 & c2 & t & -> & ->). reflexivity.
  - destruct (conv_low (scache st) off Hbpb ltac:(lia)) as (l & o & -> & Hl).
    destruct (conv_total (scache st) e Hbpb) as (l2 & o2 & E2). rewrite E2. fold T.
    destruct (l2 >=? T) eqn:EL.
    + destruct (Z_lt_le_dec e 0) as [Hn|Hn].
      * rewrite trunc_neg by auto. do 3 eexists. split; [reflexivity|exact Inv].
      * destruct (trunc_cases cb bs nb blk H Hbs s st e Inv Hw Hn ltac:(unfold e in *; lia)) as (s1 & st1 & [x|] & -> & I1 & _); [do 3 eexists; split; [reflexivity|exact I1]|].
        pose proof I1 as (W1 & Hz1 & Hp1). pose proof (i_bpb _ _ _ _ _ W1). destruct (winv_small cb bs nb blk H Hbs s1 _ W1) as (Ht1 & _ & _).
        rewrite gs_reject by (auto; lia). do 3 eexists. split; [reflexivity|]. now rewrite set_cache_id.
    + rewrite gs_reject by (auto; lia). do 3 eexists. split; [reflexivity|]. now rewrite set_cache_id.
Qed.

(** ** Offsets that are not negative *)
Lemma read_nonneg s st buf off : SInv s st -> 0 <= off -> ssize st + zlen buf < 2^63 ->
  exists s' st' b n e, s_read_at cb s st buf off = Ret (s', st', b, n, e).
Proof.
  intros I Ho Hf. pose proof (zlen_nonneg buf) as Hb. pose proof I as (_ & Hsz & _).
  destruct (Z_lt_le_dec off (ssize st)) as [L|G].
  - destruct (read_at_ret cb bs nb blk H Hbs s st buf off I Ho ltac:(lia)) as (s1 & c1 & b & n & e & E & _). eauto 8.
  - unfold s_read_at. destruct (io_read (sflags st)); cbn [negb]; [|eauto 8]. destruct (zlen buf =? 0); [eauto 8|].
    replace (off >=? ssize st) with true by lia. eauto 8.
Qed.
Lemma impl_write_huge s st b off : SInv s st -> 0 <= off < 2^63 -> 2^63 <= off + zlen b -> bs * total (scache st) + zlen b < 2^63 ->
  exists e, s_impl_write_at cb s st b off = Ret (s, st, 0, Some e).
Proof.
  intros Inv Ho He Hf. pose proof (zlen_nonneg b) as Hb. pose proof Inv as (I & Hsz & Hp). pose proof (i_bpb _ _ _ _ _ I) as Hbpb.
  unfold s_impl_write_at. destruct (io_write (sflags st)) eqn:Hw; cbn [negb]; [|eauto].
  rewrite (conv_ok bs Hbs) by (auto; lia).
  assert (i64 (off + zlen b) = off + zlen b - 2^64) as ->.
  { unfold i64. replace (off + zlen b + 2^63) with (off + zlen b - 2^63 + 1 * 2^64) by lia. rewrite Z.mod_add by lia. rewrite Z.mod_small by lia. lia. }
  destruct (winv_small cb bs nb blk H Hbs s _ I) as (Ht & Hft & HC).
  destruct (conv_total (scache st) (off + zlen b - 2^64) Hbpb) as (l & o & ->).
  destruct (l >=? total (scache st)).
  - rewrite trunc_neg by (auto; lia). eauto.
  - rewrite gs_reject; [rewrite set_cache_id; eauto|exact Hbpb|]. apply Z.div_le_lower_bound; lia.
Qed.
Lemma write_nonneg s st b off : SInv s st -> 0 <= off < 2^63 -> bs * total (scache st) + zlen b < 2^63 ->
  off + zlen b + bs < 2^63 \/ 2^63 <= off + zlen b ->
  exists s' st' n e, s_impl_write_at cb s st b off = Ret (s', st', n, e).
Proof.
  intros Inv Ho Hf [C|C].
  - destruct (io_write (sflags st)) eqn:Hw.
    + destruct (impl_write_cases cb bs nb blk H Hbs s st b off Inv Hw ltac:(lia) C) as (x1 & x2 & x3 & x4 & E & _). eauto.
    + unfold s_impl_write_at. rewrite Hw. cbn [negb]. eauto.
  - destruct (impl_write_huge s st b off Inv Ho C Hf) as [e E]. eauto.
Qed.
End Neg.
