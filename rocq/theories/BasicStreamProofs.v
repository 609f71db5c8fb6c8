(** * BasicStreamProofs: lemmas behind C28-C42. *)
From Verif Require Import GoBase ListZ Errors Flags BlockCache Spec_BlockCache
  BlockCacheProofs BlockCacheProofs2 BlockCacheProofs3 BlockCacheProofs4 BasicStream Spec_BasicStream.

Lemma i64_id x : - 2^63 <= x < 2^63 -> i64 x = x.
Proof. intros. unfold i64. rewrite Z.mod_small; lia. Qed.

(* x is an error of the storage, with a message in front *)
Definition prov {S} (cb : callbacks S) (x : kerr) : Prop :=
  exists s i b y, snd (cb_fetch cb s i b) = Some y /\ x = KMsg y.
Lemma load_loop_err {S} (cb : callbacks S) : forall fuel i stop s c s' c' x,
  load_loop cb fuel i stop s c = Ret (s', c', Some x) -> prov cb x.
Proof.
  induction fuel as [|fuel IH]; intros i stop s c s' c' x E; cbn [load_loop] in E; [discriminate|].
  destruct (i <? stop); [|discriminate]. destruct (bget _ _) as [[|]| |]; try discriminate; [eapply IH; eauto|].
  destruct (data_slice _ _ _) as [buf| |]; try discriminate.
  destruct (cb_fetch cb s i buf) as [[s1 b1] [e|]] eqn:EF.
  - injection E as _ _ <-. exists s, i, buf, e. now rewrite EF.
  - destruct (bset _ _ _); try discriminate. destruct (bset _ _ _); try discriminate. eapply IH; eauto.
Qed.
Lemma get_slice_err {S} (cb : callbacks S) s c start count s' c' x :
  check_bounds c start (u64 (count * bpb c)) = Ret None ->
  get_slice cb s c start count = Ret (s', c', inr x) -> prov cb x.
Proof.
  unfold get_slice, load_range. intros -> E.
  destruct (load_loop _ _ _ _ _ _) as [[[s1 c1] [e|]]| |] eqn:EL; try discriminate.
  - injection E as _ _ <-. eapply load_loop_err; eauto.
  - destruct (data_slice _ _ _); discriminate.
Qed.
(* a load fails exactly when one of its fetches does, and with its error *)
Definition erep {S} (cb : callbacks S) (e : option kerr) (evs : list event) : Prop :=
  (e = None <-> forall i, ~ In (EvFetch i false) evs) /\ (forall x, e = Some x -> prov cb x).

Section P.
Context {S : Type} (cb : callbacks S) (bs : Z) (nb : S -> Z) (blk : S -> Z -> list Z).
Hypothesis H : honest cb bs nb blk.
Hypothesis Hbs : 0 < bs < 2^62.
Let Hbs0 : 0 < bs := proj1 Hbs.

Definition WI := @WInv False S bs nb blk.
Definition SInv (s : S) (st : stream) : Prop :=
  WI s (scache st) /\ 0 <= ssize st <= bs * total (scache st) /\ 0 <= spos st < 2^63.

Lemma conv_ok c off : bpb c = bs -> 0 <= off < 2^63 -> conv_addr c off = Ret (off / bs, off mod bs).
Proof.
  intros Hb Ho. unfold conv_addr. rewrite Hb, i64_id by lia. replace (bs =? 0) with false by lia.
  rewrite Z.quot_div_nonneg, Z.rem_mod_nonneg by lia.
  pose proof (Z.mod_pos_bound off bs Hbs0). pose proof (Z.div_pos off bs ltac:(lia) Hbs0).
  pose proof (Z.div_le_upper_bound off bs off Hbs0 ltac:(nia)).
  rewrite !u64_small by lia. reflexivity.
Qed.

(* what loading does: contents, storage and dirty bits stay *)
Definition Kept (s : S) (c : cache) (s' : S) (c' : cache) : Prop :=
  WI s' c' /\ total c' = total c /\ contents blk s' c' = contents blk s c /\ dirty c' = dirty c /\
  nb s' = nb s /\ (forall j, 0 <= j < nb s -> blk s' j = blk s j).

Lemma gs s c start count : WI s c -> 0 <= start -> 0 <= count -> count * bs <= 2^63 ->
  if in_range c start count then
    exists s' c' e evs, Kept s c s' c' /\ accesses cb s evs s' /\
      erep cb e evs /\
      (e = None -> (forall j, start <= j < start + count -> znth false (loaded c') j = true) /\
         slice (start * bs) (count * bs) (data c') = slice (start * bs) (count * bs) (contents blk s c)) /\
      get_slice cb s c start count =
        Ret (s', c', match e with Some e => inr e
                     | None => inl (slice (start * bs) (count * bs) (contents blk s c)) end)
  else get_slice cb s c start count = Ret (s, c, inr (K ErrArgumentOutOfRange)).
Proof.
  intros I Hs Hc Hcb. pose proof (get_slice_spec cb bs nb blk H Hbs0 s c start count I Hs Hc Hcb) as G.
  destruct (in_range c start count) eqn:ER; [|exact G].
  destruct G as (s' & c' & e & evs & L & E).
  pose proof L as (I1 & Ht1 & _ & Hd & Hnb & Hblk & Hac & _ & _ & Hall).
  pose proof (wcontents_spec cb bs nb blk H s c Hbs0 I) as R.
  pose proof (rep_load cb bs nb blk _ _ _ _ _ _ _ _ _ R L) as R1.
  assert (contents blk s' c' = contents blk s c) as EC by (symmetry; eapply wrep_unique; eauto).
  pose proof (load_events _ _ _ _ _ _ _ _ _ _ _ _ _ L) as He. unfold in_range in ER.
  assert (e = None -> slice (start * bs) (count * bs) (data c') = slice (start * bs) (count * bs) (contents blk s c)) as HS.
  { intros ->. rewrite <- EC. apply (loaded_slice bs blk Hbs0 _ s' c'); auto.
    - eapply wcontents_spec; eauto.
    - lia. }
  exists s', c', e, evs. split; [repeat (split; [assumption|]); assumption|]. split; [assumption|]. split.
  { split; [assumption|]. intros x ->. eapply get_slice_err; [|exact E]. rewrite (i_bpb _ _ _ _ _ I). rewrite u64_small by nia.
    rewrite (check_bounds_ok bs nb blk Hbs0 s c start (count * bs) I Hs ltac:(nia)).
    replace ((count * bs + bs - 1) / bs) with count.
    2:{ replace (count * bs + bs - 1) with (bs - 1 + count * bs) by lia. rewrite Z.div_add by lia. rewrite Z.div_small by lia. lia. }
    replace ((start <? total c) && (start + count <=? total c)) with true by lia. reflexivity. }
  split.
  - intros He0. split; [apply Hall; exact He0|apply HS; exact He0].
  - rewrite E. destruct e; [reflexivity|]. now rewrite HS.
Qed.

Lemma poke_spec s c start count off b : WI s c -> 0 <= start -> 0 <= count -> start + count <= total c ->
  (forall j, start <= j < start + count -> znth false (loaded c) j = true) ->
  0 <= off -> off + zlen b <= count * bs ->
  WI s (poke c start off b) /\
  contents blk s (poke c start off b) = splice (start * bs + off) b (contents blk s c).
Proof.
  intros I Hs Hc Ht Hl Ho Hb. pose proof (i_data _ _ _ _ _ I) as Hd. pose proof (i_bpb _ _ _ _ _ I) as Hbpb.
  pose proof (wcontents_spec cb bs nb blk H s c Hbs0 I) as [R1 R2]. pose proof (zlen_nonneg b).
  assert (zlen (splice (start * bs + off) b (data c)) = zlen (data c)) as Hlen by (apply zlen_splice; nia).
  assert (WI s (poke c start off b)) as I'.
  { destruct I as [I1 I2 I3 I4 I5 I6 I7 I8]. unfold poke. rewrite Hbpb.
    constructor; cbn [bpb total loaded dirty data]; try assumption; try lia. }
  split; [exact I'|]. symmetry. eapply wrep_unique; [exact H|exact Hbs0|exact I'|].
  assert (zlen (splice (start * bs + off) b (contents blk s c)) = zlen (contents blk s c)) as Hlen2 by (apply zlen_splice; nia).
  split; [rewrite Hlen2; exact R1|]. cbn [poke total]. intros i Hi. unfold vb, poke. cbn [loaded data]. rewrite Hbpb.
  destruct (Z_lt_le_dec i start) as [Hlt|Hge].
  - rewrite slice_splice_disj by nia. rewrite R2 by lia. unfold vb. destruct (znth false (loaded c) i); [|reflexivity].
    symmetry. apply slice_splice_disj; nia.
  - destruct (Z_lt_le_dec i (start + count)) as [Hlt|Hge2].
    + rewrite Hl by lia. apply slice_splice_cong; try nia.
      rewrite R2 by lia. unfold vb. rewrite Hl by lia. reflexivity.
    + rewrite slice_splice_disj by nia. rewrite R2 by lia. unfold vb. destruct (znth false (loaded c) i); [|reflexivity].
      symmetry. apply slice_splice_disj; nia.
Qed.

Lemma winv_small s c : WI s c -> 0 <= total c < 2^63 /\ bs * total c < 2^63 /\ zlen (contents blk s c) = bs * total c.
Proof.
  intros I. pose proof (i_fits _ _ _ _ _ I). pose proof (i_total _ _ _ _ _ I).
  destruct (wcontents_spec cb bs nb blk H s c Hbs0 I) as [R _]. repeat split; try lia; nia.
Qed.

(** ** ReadAt *)
Lemma read_at_spec s st buf off : SInv s st -> io_read (sflags st) = true -> 0 <= off ->
  off + zlen buf < 2^63 -> 0 < zlen buf -> off < ssize st ->
  let n := Z.min (zlen buf) (ssize st - off) in
  exists s' c' e evs, Kept s (scache st) s' c' /\ accesses cb s evs s' /\
    erep cb e evs /\
    s_read_at cb s st buf off =
      match e with
      | Some e => Ret (s', set_cache st c', buf, 0, Some e)
      | None => Ret (s', set_cache st c', splice 0 (slice off n (sblocks blk s st)) buf, n,
                     if n <? zlen buf then Some KEOF else None)
      end.
Proof.
  intros (I & Hsz & Hp) Hrd Ho Hol Hb Hoff n.
  destruct (winv_small _ _ I) as (Ht & Hft & HC). pose proof (i_bpb _ _ _ _ _ I) as Hbpb.
  assert (1 <= n <= zlen buf /\ off + n <= ssize st) as [Hn1 Hn2] by lia.
  unfold s_read_at. rewrite Hrd. cbn [negb]. replace (zlen buf =? 0) with false by lia.
  replace (off >=? ssize st) with false by lia.
  replace (if i64 (off + zlen buf) >=? ssize st then i64 (ssize st - off) else zlen buf) with n.
  2:{ rewrite !i64_id by lia. destruct (off + zlen buf >=? ssize st) eqn:E; lia. }
  rewrite (i64_id (off + n)) by lia. rewrite (i64_id (off + n - 1)) by lia.
  rewrite !conv_ok by (auto; lia).
  set (f := off / bs). set (l := (off + n - 1) / bs).
  pose proof (Z.mod_pos_bound off bs Hbs0) as Hm. pose proof (Z.div_mod off bs ltac:(lia)) as Hdm. fold f in Hdm.
  pose proof (Z.mod_pos_bound (off + n - 1) bs Hbs0) as Hm2. pose proof (Z.div_mod (off + n - 1) bs ltac:(lia)) as Hdm2. fold l in Hdm2.
  assert (0 <= f <= l) as Hfl by nia. assert (l < total (scache st)) as Hl by nia.
  rewrite (u64_small (l - f)) by lia. rewrite (u64_small (l - f + 1)) by lia.
  pose proof (gs s (scache st) f (l - f + 1) I ltac:(lia) ltac:(lia) ltac:(nia)) as G.
  unfold in_range in G. replace ((f <? total (scache st)) && (f + (l - f + 1) <=? total (scache st))) with true in G by lia.
  destruct G as (s' & c' & e & evs & HK & Hac & He & Hsl & E). rewrite E.
  exists s', c', e, evs. do 3 (split; [assumption|]). destruct e as [e|]; [reflexivity|].
  destruct (Hsl eq_refl) as [_ Hd]. destruct HK as (I' & Ht' & _). rewrite (i_bpb _ _ _ _ _ I').
  pose proof (i_data _ _ _ _ _ I') as Hdl. rewrite Ht' in Hdl.
  rewrite (u64_small (f * bs)) by nia. rewrite (u64_small n) by lia. rewrite u64_small by nia.
  unfold reslice. replace ((off mod bs <=? off mod bs + n) && (f * bs + (off mod bs + n) <=? zlen (data c'))) with true by nia.
  replace (f * bs + off mod bs) with off by lia. replace (off mod bs + n - off mod bs) with n by lia.
  assert (slice off n (data c') = slice off n (sblocks blk s st)) as ->.
  { assert (f * bs <= off /\ off + n <= f * bs + (l - f + 1) * bs) as [Q1 Q2] by (clear - Hdm Hdm2 Hm Hm2; nia).
    assert (0 <= f * bs) by (clear - Hfl Hbs0; nia).
    apply (sub_slice_eq _ _ (f * bs) ((l - f + 1) * bs)); [lia|lia|lia|lia|lia|]. exact Hd. }
  unfold gocopy. rewrite (zlen_slice off n) by (unfold sblocks; nia).
  replace (Z.min (zlen buf) n) with n by lia.
  rewrite (slice_full n (slice off n (sblocks blk s st))) by (rewrite zlen_slice; unfold sblocks; nia).
  reflexivity.
Qed.

(** ** Sync *)
Lemma sync_spec s st : SInv s st ->
  if 0 <? total (scache st) then
    exists s' c' e evs, s_sync cb s st = Ret (s', set_cache st c', e) /\
      WI s' c' /\ total c' = total (scache st) /\ contents blk s' c' = contents blk s (scache st) /\
      nb s' = nb s /\ accesses cb s evs s' /\
      flushes bs (data (scache st)) (fun j => znth false (dirty (scache st)) j) (zrange 0 (total (scache st))) (okb e) evs /\
      (e = None -> forall j, 0 <= j < total c' -> znth false (dirty c') j = false)
  else s_sync cb s st = Ret (s, st, Some (K ErrArgumentOutOfRange)).
Proof.
  intros (I & Hsz & Hp). pose proof (flush_all_spec cb bs nb blk H Hbs0 s (scache st) I) as F.
  unfold s_sync. destruct (0 <? total (scache st)).
  - destruct F as (s' & c' & e & evs & E & F). rewrite E.
    destruct F as (I' & Ht & Hv & _ & _ & Hnb & Hac & Hfl & Hdi & Hcl).
    exists s', c', e, evs. split; [reflexivity|]. split; [exact I'|]. split; [exact Ht|]. split.
    { symmetry. eapply wrep_unique; [exact H|exact Hbs0|exact I'|].
      destruct (wcontents_spec cb bs nb blk H s (scache st) Hbs0 I) as [F1 F2]. split; [now rewrite Ht|].
      intros i Hi. rewrite F2 by lia. symmetry. apply Hv. lia. }
    repeat (split; [assumption|]). rewrite Ht. exact Hcl.
  - rewrite F. destruct st; reflexivity.
Qed.

(** ** Truncate *)
Lemma min_blocks_trunc c n : bpb c = bs -> 0 <= n -> n + bs < 2^63 -> min_blocks c (u64 n) = Ret ((n + bs - 1) / bs).
Proof. intros Hb Hn Hf. rewrite u64_small by lia. apply min_blocks_ok; auto; lia. Qed.

Lemma truncate_spec s st n : SInv s st -> io_write (sflags st) = true -> 0 <= n -> n + bs < 2^63 ->
  let m := (n + bs - 1) / bs in
  match snd (cb_resize cb s m) with
  | Some e => s_truncate cb s st n = Ret (fst (cb_resize cb s m), st, Some e) /\
      SInv (fst (cb_resize cb s m)) st /\ sunchanged nb blk s st (fst (cb_resize cb s m)) st
  | None =>
      exists s1 c1, WI s1 c1 /\ total c1 = m /\ contents blk s1 c1 = resized bs (sblocks blk s st) n /\
        (forall i, total (scache st) <= i < m -> znth false (dirty c1) i = true) /\
        (forall i, 0 <= i < m -> i < total (scache st) -> znth false (dirty c1) i = znth false (dirty (scache st)) i) /\
        SInv s1 (set_size (set_cache st c1) n) /\
        s1 = fst (cb_resize cb s m) /\
        s_truncate cb s st n =
          if io_synchronous (sflags st) then s_sync cb s1 (set_size (set_cache st c1) n)
          else Ret (s1, set_size (set_cache st c1) n, None)
  end.
Proof.
  intros (I & Hsz & Hp) Hw Hn Hnb m. pose proof (i_bpb _ _ _ _ _ I) as Hbpb.
  destruct (winv_small _ _ I) as (Ht & Hft & HC).
  pose proof (cdiv_lt bs n Hbs0) as Hcl. pose proof (cdiv_ge bs n Hbs0) as Hcg. fold m in Hcl, Hcg.
  assert (0 <= m) as Hm by (apply cdiv_nonneg; lia).
  unfold s_truncate. rewrite Hw. cbn [negb]. replace (n <? 0) with false by lia.
  rewrite min_blocks_trunc by auto. fold m.
  destruct (resize_inv cb bs nb blk H s (scache st) m Hbs0 I) as (s' & c' & E & Es & I' & Hc & Hok); [split; lia|].
  rewrite E. destruct (cb_resize cb s m) as [sx [e|]] eqn:ER; cbn [fst snd] in *; subst sx.
  - rewrite (Hc ltac:(discriminate)) in *.
    destruct (h_resize _ _ _ _ H s m s' (Some e) Hm ltac:(lia) ER) as [Hnb' Hblk].
    split; [destruct st; reflexivity|]. split; [split; [exact I'|auto]|].
    repeat (split; [reflexivity|]). split; [|split; assumption].
    unfold sblocks. symmetry. eapply wrep_unique; [exact H|exact Hbs0|exact I'|].
    destruct (wcontents_spec cb bs nb blk H s (scache st) Hbs0 I) as [R1 R2]. split; [exact R1|].
    intros i Hi. rewrite R2 by lia. unfold vb. destruct (znth false (loaded (scache st)) i); [reflexivity|].
    symmetry. apply Hblk. pose proof (i_total _ _ _ _ _ I). lia.
  - destruct (Hok eq_refl) as (Htm & HC' & Hnew & Hold).
    exists s', c'. split; [exact I'|]. split; [exact Htm|]. split.
    { rewrite HC'. unfold resized, nblocks, sblocks. fold m. rewrite HC. f_equal. f_equal. lia. }
    split; [exact Hnew|]. split; [exact Hold|]. split; [|split; reflexivity].
    split; [exact I'|]. cbn [set_size set_cache ssize scache spos]. split; [|exact Hp]. rewrite Htm. lia.
Qed.

(** ** implWriteAt *)
(* basicstream.go:293-303, after the stream has been grown *)
Definition write_tail (s1 : S) (st1 : stream) (b : list Z) (off : Z) : outcome (S * stream * Z * option kerr) :=
  match get_slice cb s1 (scache st1) (off / bs) ((off + zlen b) / bs + 1) with
  | Ret (s2, c2, inr e) => Ret (s2, set_cache st1 c2, 0, Some e)
  | Ret (s2, c2, inl target) =>
      if off mod bs >? zlen target then Panic
      else
        let c3 := poke c2 (off / bs) (off mod bs) (slice 0 (Z.min (zlen target - off mod bs) (zlen b)) b) in
        let st3 := set_cache st1 c3 in
        if io_synchronous (sflags st1) then
          match s_sync cb s2 st3 with
          | Ret (s4, st4, e) => Ret (s4, st4, zlen b, e)
          | Panic => Panic
          | OutOfFuel => OutOfFuel
          end
        else Ret (s2, st3, zlen b, None)
  | Panic => Panic
  | OutOfFuel => OutOfFuel
  end.
Lemma div_bounds off len : 0 <= off -> 0 <= len -> off + len + bs < 2^63 ->
  0 <= off / bs <= (off + len) / bs /\ (off + len) / bs * bs + bs < 2^63.
Proof.
  intros H1 H2 H3. pose proof (Z.div_le_mono off (off + len) bs Hbs0 ltac:(lia)).
  pose proof (Z.div_pos off bs H1 Hbs0). pose proof (Z.mul_div_le (off + len) bs Hbs0). split; lia.
Qed.
Lemma impl_write_unfold s st b off : SInv s st -> io_write (sflags st) = true -> 0 <= off ->
  off + zlen b + bs < 2^63 ->
  s_impl_write_at cb s st b off =
    match (if (off + zlen b) / bs >=? total (scache st) then s_truncate cb s st (off + zlen b)
           else Ret (s, st, None)) with
    | Ret (s1, st1, Some e) => Ret (s1, st1, 0, Some e)
    | Ret (s1, st1, None) => if Bool.eqb (io_synchronous (sflags st1)) (io_synchronous (sflags st))
                             then write_tail s1 st1 b off else Panic
    | Panic => Panic
    | OutOfFuel => OutOfFuel
    end.
Proof.
  intros (I & Hsz & Hp) Hw Ho Hf. pose proof (zlen_nonneg b) as Hb. pose proof (i_bpb _ _ _ _ _ I) as Hbpb.
  destruct (div_bounds off (zlen b) Ho Hb Hf) as [D1 D2].
  unfold s_impl_write_at. rewrite Hw. cbn [negb]. rewrite i64_id by lia. rewrite !conv_ok by (auto; lia).
  rewrite (u64_small ((off + zlen b) / bs + 1)) by nia.
  assert (forall s1 st1, (if (off + zlen b) / bs >=? total (scache st) then s_truncate cb s st (off + zlen b)
           else Ret (s, st, None)) = Ret (s1, st1, None) -> sflags st1 = sflags st) as HF.
  { intros s1 st1. destruct (_ >=? _); [|intros [= <- <-]; reflexivity]. unfold s_truncate, s_sync.
    destruct (negb _); [discriminate|]. destruct (_ <? _); [discriminate|].
    destruct (min_blocks _ _); try discriminate. destruct (resize _ _ _ _) as [[[? ?] [?|]]| |]; try discriminate.
    destruct (io_synchronous _); [|intros [= <- <-]; reflexivity].
    destruct (flush_all _ _ _) as [[[? ?] ?]| |]; try discriminate. intros [= <- <- _]. reflexivity. }
  destruct (if (off + zlen b) / bs >=? total (scache st) then s_truncate cb s st (off + zlen b)
            else Ret (s, st, None)) as [[[s1 st1] [e|]]| |] eqn:E; try reflexivity.
  rewrite (HF s1 st1 eq_refl). rewrite Bool.eqb_reflx. unfold write_tail. rewrite (HF s1 st1 eq_refl). reflexivity.
Qed.

Lemma write_tail_spec s st b off : SInv s st -> 0 <= off -> off + zlen b + bs < 2^63 ->
  if write_fits bs (total (scache st)) off (zlen b) then
    exists s2 c2 e evs, Kept s (scache st) s2 c2 /\ accesses cb s evs s2 /\
      erep cb e evs /\
      match e with
      | Some e => write_tail s st b off = Ret (s2, set_cache st c2, 0, Some e)
      | None => exists c3, WI s2 c3 /\ total c3 = total (scache st) /\ dirty c3 = dirty (scache st) /\
          contents blk s2 c3 = splice off b (sblocks blk s st) /\
          off + zlen b <= bs * total (scache st) /\
          SInv s2 (set_cache st c3) /\
          write_tail s st b off =
            if io_synchronous (sflags st) then
              match s_sync cb s2 (set_cache st c3) with
              | Ret (s4, st4, e) => Ret (s4, st4, zlen b, e)
              | Panic => Panic
              | OutOfFuel => OutOfFuel
              end
            else Ret (s2, set_cache st c3, zlen b, None)
      end
  else write_tail s st b off = Ret (s, st, 0, Some (K ErrArgumentOutOfRange)).
Proof.
  intros (I & Hsz & Hp) Ho Hf. pose proof (zlen_nonneg b) as Hb.
  destruct (winv_small _ _ I) as (Ht & Hft & HC).
  destruct (div_bounds off (zlen b) Ho Hb Hf) as [D1 D2].
  pose proof (Z.mod_pos_bound off bs Hbs0) as Hm. pose proof (Z.div_mod off bs ltac:(lia)) as Hdm.
  pose proof (Z.mod_pos_bound (off + zlen b) bs Hbs0) as Hm2. pose proof (Z.div_mod (off + zlen b) bs ltac:(lia)) as Hdm2.
  unfold write_tail, write_fits. set (sb := off / bs) in *. set (lb := (off + zlen b) / bs) in *.
  pose proof (gs s (scache st) sb (lb + 1) I ltac:(lia) ltac:(lia) ltac:(lia)) as G. unfold in_range in G.
  destruct ((sb <? total (scache st)) && (sb + (lb + 1) <=? total (scache st))) eqn:ER.
  2:{ rewrite G. destruct st; reflexivity. }
  destruct G as (s2 & c2 & e & evs & HK & Hac & He & Hsl & E). rewrite E.
  exists s2, c2, e, evs. do 3 (split; [assumption|]). destruct e as [e|]; [reflexivity|].
  destruct (Hsl eq_refl) as [Hl _]. destruct HK as (I2 & Ht2 & HC2 & Hd2 & _).
  assert (zlen (slice (sb * bs) ((lb + 1) * bs) (contents blk s (scache st))) = (lb + 1) * bs) as Hlen.
  { apply zlen_slice; try nia. }
  rewrite Hlen.
  assert (off mod bs + zlen b <= (lb + 1) * bs) as Hfit by (clear - Hdm Hdm2 Hm Hm2 D1 Hbs0; nia).
  replace (off mod bs >? (lb + 1) * bs) with false by lia.
  replace (Z.min ((lb + 1) * bs - off mod bs) (zlen b)) with (zlen b) by lia. rewrite slice_all.
  destruct (poke_spec s2 c2 sb (lb + 1) (off mod bs) b I2) as [I3 HC3]; auto; try lia.
  exists (poke c2 sb (off mod bs) b). split; [exact I3|]. split; [exact Ht2|]. split; [exact Hd2|]. split.
  { rewrite HC3, HC2. unfold sblocks. f_equal. lia. }
  split. { assert (sb + (lb + 1) <= total (scache st)) by lia. clear - H0 Hfit Hdm Hbs0. nia. }
  split; [|reflexivity].
  split; [exact I3|]. cbn [set_cache ssize scache spos poke total]. rewrite Ht2. auto.
Qed.
(** ** Every operation returns and keeps the invariant *)
Definition same (st st' : stream) : Prop := sflags st' = sflags st /\ spos st' = spos st.
Lemma sync_ret s st : SInv s st -> exists s' st' e, s_sync cb s st = Ret (s', st', e) /\ SInv s' st' /\
  same st st' /\ ssize st' = ssize st /\ total (scache st') = total (scache st) /\
  sblocks blk s' st' = sblocks blk s st /\ nb s' = nb s.
Proof.
  intros I. pose proof (sync_spec s st I) as F. destruct I as (I & Hsz & Hp). destruct (0 <? _).
  - destruct F as (s' & c' & e & evs & E & I' & Ht & HC & Hnb & _). exists s', (set_cache st c'), e.
    split; [exact E|]. split; [split; [exact I'|cbn [set_cache ssize scache spos]; rewrite Ht; auto]|].
    split; [split; reflexivity|]. auto.
  - exists s, st, (Some (K ErrArgumentOutOfRange)). split; [exact F|]. split; [split; [exact I|auto]|].
    split; [split; reflexivity|]. auto.
Qed.
Lemma truncate_ret s st n : SInv s st -> n + bs < 2^63 ->
  exists s' st' e, s_truncate cb s st n = Ret (s', st', e) /\ SInv s' st' /\ same st st'.
Proof.
  intros I Hn. destruct (io_write (sflags st)) eqn:Hw.
  2:{ unfold s_truncate. rewrite Hw. do 3 eexists. split; [reflexivity|]. split; [exact I|split; reflexivity]. }
  destruct (Z_lt_le_dec n 0) as [Hneg|Hpos].
  { unfold s_truncate. rewrite Hw. replace (n <? 0) with true by lia. do 3 eexists. split; [reflexivity|].
    split; [exact I|split; reflexivity]. }
  pose proof (truncate_spec s st n I Hw Hpos Hn) as T. cbn zeta in T.
  destruct (snd (cb_resize cb s ((n + bs - 1) / bs))) as [e|].
  - destruct T as (E & I' & _). do 3 eexists. split; [exact E|]. split; [exact I'|split; reflexivity].
  - destruct T as (s1 & c1 & _ & _ & _ & _ & _ & I1 & _ & E). rewrite E.
    destruct (io_synchronous (sflags st)).
    + destruct (sync_ret _ _ I1) as (s' & st' & e & E' & I' & [F1 F2] & _). exists s', st', e.
      split; [exact E'|]. split; [exact I'|]. split; [exact F1|exact F2].
    + do 3 eexists. split; [reflexivity|]. split; [exact I1|split; reflexivity].
Qed.
Lemma write_tail_ret s st b off : SInv s st -> 0 <= off -> off + zlen b + bs < 2^63 ->
  exists s' st' n e, write_tail s st b off = Ret (s', st', n, e) /\ SInv s' st' /\ same st st' /\
    (n = 0 \/ n = zlen b) /\ (e = None -> n = zlen b).
Proof.
  intros I Ho Hf. pose proof (write_tail_spec s st b off I Ho Hf) as T.
  destruct (write_fits _ _ _ _).
  - destruct T as (s2 & c2 & e & evs & HK & _ & _ & T). destruct e as [e|].
    + do 4 eexists. split; [exact T|]. split.
      { destruct HK as (I2 & Ht2 & _). destruct I as (I & Hsz & Hp). split; [exact I2|].
        cbn [set_cache ssize scache spos]. rewrite Ht2. auto. }
      split; [split; reflexivity|]. split; [left; reflexivity|discriminate].
    + destruct T as (c3 & _ & _ & _ & _ & _ & I3 & E). rewrite E. destruct (io_synchronous (sflags st)).
      * destruct (sync_ret _ _ I3) as (s' & st' & e & E' & I' & [F1 F2] & _). rewrite E'.
        do 4 eexists. split; [reflexivity|]. split; [exact I'|]. split; [split; [exact F1|exact F2]|]. auto.
      * do 4 eexists. split; [reflexivity|]. split; [exact I3|]. split; [split; reflexivity|]. auto.
  - do 4 eexists. split; [exact T|]. split; [exact I|]. split; [split; reflexivity|]. split; [auto|discriminate].
Qed.
Lemma impl_write_ret s st b off : SInv s st -> 0 <= off -> off + zlen b + bs < 2^63 ->
  exists s' st' n e, s_impl_write_at cb s st b off = Ret (s', st', n, e) /\ SInv s' st' /\ same st st' /\
    (n = 0 \/ n = zlen b) /\ (e = None -> n = zlen b).
Proof.
  intros I Ho Hf. destruct (io_write (sflags st)) eqn:Hw.
  2:{ unfold s_impl_write_at. rewrite Hw. do 4 eexists. split; [reflexivity|]. split; [exact I|].
      split; [split; reflexivity|]. split; [auto|discriminate]. }
  rewrite impl_write_unfold by auto. destruct (_ >=? _).
  - destruct (truncate_ret s st (off + zlen b) I ltac:(lia)) as (s1 & st1 & e & E & I1 & [F1 F2]). rewrite E.
    destruct e as [e|].
    + do 4 eexists. split; [reflexivity|]. split; [exact I1|]. split; [split; assumption|]. split; [auto|discriminate].
    + rewrite F1, Bool.eqb_reflx.
      destruct (write_tail_ret s1 st1 b off I1 Ho Hf) as (s' & st' & n & e & E' & I' & [G1 G2] & Hn & He).
      exists s', st', n, e. split; [exact E'|]. split; [exact I'|]. split; [split; congruence|]. auto.
  - rewrite Bool.eqb_reflx. apply write_tail_ret; auto.
Qed.
Lemma read_at_ret s st buf off : SInv s st -> 0 <= off -> off + zlen buf < 2^63 ->
  exists s' c' b n e, s_read_at cb s st buf off = Ret (s', set_cache st c', b, n, e) /\
    Kept s (scache st) s' c' /\ 0 <= n <= zlen buf /\ zlen b = zlen buf.
Proof.
  intros I Ho Hf. pose proof (zlen_nonneg buf) as Hb. pose proof I as (W & Hsz & Hp).
  assert (Kept s (scache st) s (scache st)) as K0 by (repeat (split; [auto|]); auto).
  assert (set_cache st (scache st) = st) as HE by (destruct st; reflexivity).
  destruct (io_read (sflags st)) eqn:Hr.
  2:{ unfold s_read_at. rewrite Hr. cbn [negb]. exists s, (scache st), buf, 0, (Some (K ErrNotPermitted)).
      rewrite HE. split; [reflexivity|]. split; [exact K0|]. split; lia. }
  destruct (Z.eq_dec (zlen buf) 0) as [E0|N0].
  { unfold s_read_at. rewrite Hr. cbn [negb]. replace (zlen buf =? 0) with true by lia.
    exists s, (scache st), buf, 0, None. rewrite HE. split; [reflexivity|]. split; [exact K0|]. split; lia. }
  destruct (Z_lt_le_dec off (ssize st)) as [L|G].
  2:{ unfold s_read_at. rewrite Hr. cbn [negb]. replace (zlen buf =? 0) with false by lia.
      replace (off >=? ssize st) with true by lia. exists s, (scache st), buf, 0, (Some KEOF).
      rewrite HE. split; [reflexivity|]. split; [exact K0|]. split; lia. }
  destruct (read_at_spec s st buf off I Hr Ho Hf ltac:(lia) L) as (s' & c' & e & evs & HK & _ & _ & E).
  cbn zeta in E. rewrite E. destruct (winv_small _ _ W) as (_ & _ & HC). destruct e as [e|].
  - do 5 eexists. split; [reflexivity|]. split; [exact HK|]. split; lia.
  - do 5 eexists. split; [reflexivity|]. split; [exact HK|]. split; [lia|].
    apply zlen_splice. + lia. + rewrite zlen_slice; unfold sblocks; lia.
Qed.
Lemma kept_sinv s st s' c' : SInv s st -> Kept s (scache st) s' c' -> SInv s' (set_cache st c').
Proof.
  intros (W & Hsz & Hp) (I2 & Ht2 & _). split; [exact I2|]. cbn [set_cache ssize scache spos]. rewrite Ht2. auto.
Qed.
Lemma i64_range x : - 2^63 <= i64 x < 2^63.
Proof. unfold i64. pose proof (Z.mod_pos_bound (x + 2^63) (2^64)). lia. Qed.
Lemma seek_inv s st off w st' p e : SInv s st -> - 2^63 <= off < 2^63 -> s_seek st off w = (st', p, e) -> SInv s st'.
Proof.
  intros (W & Hsz & Hp) Ho E.
  assert (forall a, - 2^63 <= a < 2^63 ->
    (if a <? 0 then (st, spos st, Some KNegativeSeek) else (set_pos st a, a, None)) = (st', p, e) -> SInv s st') as HG.
  { intros a Ha. destruct (a <? 0) eqn:Ea; intros [= <- <- <-]; (split; [exact W|]; split; [exact Hsz|]).
    - exact Hp.
    - cbn [set_pos spos]. lia. }
  unfold s_seek in E. destruct (w =? 0); [eapply HG; eauto|].
  destruct (w =? 1); [eapply HG; [apply i64_range|exact E]|].
  destruct (w =? 2); [eapply HG; [apply i64_range|exact E]|].
  injection E as <- <- <-. split; auto.
Qed.
Lemma set_pos_inv s st p : SInv s st -> 0 <= p < 2^63 -> SInv s (set_pos st p).
Proof. intros (W & Hsz & Hp) Hq. split; [exact W|]. split; [exact Hsz|exact Hq]. Qed.

Lemma write_ret s st b : SInv s st -> spos st + zlen b + bs < 2^63 -> ssize st + zlen b + bs < 2^63 ->
  let p := if io_append (sflags st) then ssize st else spos st in
  exists s' st' n e, s_write cb s st b = Ret (s', st', n, e) /\ SInv s' st' /\ sflags st' = sflags st /\
    (n = 0 \/ n = zlen b) /\ (e = None -> n = zlen b).
Proof.
  intros I H1 H2 p. pose proof I as (W & Hsz & Hp). pose proof (zlen_nonneg b) as Hb. unfold s_write.
  destruct (io_write (sflags st)) eqn:Hw; cbn [negb].
  2:{ do 4 eexists. split; [reflexivity|]. split; [exact I|]. split; [reflexivity|]. split; [auto|discriminate]. }
  assert ((if io_append (sflags st) then s_seek st 0 2 else (st, 0, None)) =
          (set_pos st p, if io_append (sflags st) then ssize st else 0, None)) as ES.
  { unfold p. destruct (io_append (sflags st)); [|destruct st; reflexivity]. unfold s_seek. change (2 =? 0) with false. change (2 =? 1) with false. change (2 =? 2) with true. cbv beta iota zeta.
    pose proof (winv_small _ _ W) as (_ & HF & _).
    rewrite Z.add_0_r, i64_id by lia. replace (ssize st <? 0) with false by lia. reflexivity. }
  rewrite ES. cbn [set_pos spos].
  assert (0 <= p < 2^63 /\ p + zlen b + bs < 2^63) as [Hp1 Hp2] by (unfold p; destruct (io_append _); lia).
  destruct (impl_write_ret s (set_pos st p) b p (set_pos_inv _ _ _ I Hp1) ltac:(lia) Hp2)
    as (s' & st' & n & e & E & I' & [F1 F2] & Hn & He).
  rewrite E. cbn [set_pos spos sflags] in F1, F2. rewrite F2.
  assert (0 <= p + n < 2^63) as Hpn by lia. rewrite i64_id by lia.
  exists s', (set_pos st' (p + n)), n, e. split; [reflexivity|]. split; [apply set_pos_inv; auto|]. auto.
Qed.

Lemma step_ret s st o : SInv s st -> sop_ok bs st o ->
  exists s' st' r, sexec_op cb s st o = Ret (s', st', r) /\ SInv s' st' /\ sflags st' = sflags st.
Proof.
  intros I Hok. pose proof I as (W & Hsz & Hp).
  destruct o as [len off|len|b off|b|off w|n|]; cbn [sexec_op sop_ok] in *.
  - destruct (read_at_ret s st (zrepeat 0 len) off I) as (s' & c' & b & n & e & E & HK & _); [lia|rewrite zlen_repeat; lia|].
    rewrite E. do 3 eexists. split; [reflexivity|]. split; [apply (kept_sinv s st); auto|reflexivity].
  - unfold s_read.
    destruct (read_at_ret s st (zrepeat 0 len) (spos st) I) as (s' & c' & b & n & e & E & HK & Hn & _); [lia|rewrite zlen_repeat; lia|].
    rewrite E. pose proof (kept_sinv s st _ _ I HK) as I'. rewrite zlen_repeat in Hn by lia.
    destruct e as [e|]; do 3 eexists; (split; [reflexivity|]); (split; [|reflexivity]); [exact I'|].
    apply set_pos_inv; [exact I'|]. cbn [set_cache spos]. rewrite i64_id; lia.
  - unfold s_write_at. destruct (io_append _).
    + do 3 eexists. split; [reflexivity|]. split; [exact I|reflexivity].
    + destruct (impl_write_ret s st b off I) as (s' & st' & n & e & E & I' & [F _] & _); try lia.
      rewrite E. do 3 eexists. split; [reflexivity|]. auto.
  - destruct (write_ret s st b I) as (s' & st' & n & e & E & I' & F & _); try lia.
    rewrite E. do 3 eexists. split; [reflexivity|]. auto.
  - destruct (s_seek st off w) as [[st' p] e] eqn:E. do 3 eexists. split; [reflexivity|].
    split; [eapply seek_inv; eauto|]. unfold s_seek in E.
    repeat match type of E with (if ?c then _ else _) = _ => destruct c end; injection E as <- _ _; reflexivity.
  - destruct (truncate_ret s st n I Hok) as (s' & st' & e & E & I' & [F _]). rewrite E.
    do 3 eexists. split; [reflexivity|]. auto.
  - destruct (sync_ret s st I) as (s' & st' & e & E & I' & [F _] & _). rewrite E.
    do 3 eexists. split; [reflexivity|]. auto.
Qed.

Lemma new_sinv s0 total0 sz flags s st e : 0 <= total0 <= nb s0 -> bs * total0 < 2^63 ->
  s_new cb s0 sz (new_cache bs total0) flags = Ret (s, Some st, e) -> SInv s st /\ sflags st = flags.
Proof.
  intros Ht Hf E. pose proof (new_winv (Q := False) bs nb blk Hbs0 s0 total0 Ht Hf) as W.
  unfold s_new in E. unfold size in E. cbn [bpb total new_cache] in E.
  rewrite i64_id in E by nia.
  destruct ((sz <? 0) || (sz >? bs * total0)) eqn:EZ; [discriminate|].
  assert (SInv s0 (mkStream sz 0 (new_cache bs total0) flags)) as I.
  { split; [exact W|]. cbn [ssize spos scache new_cache total]. lia. }
  destruct (io_truncate flags).
  - destruct (truncate_ret s0 _ 0 I ltac:(lia)) as (s' & st' & e' & E' & I' & [F _]). rewrite E' in E.
    injection E as <- <- <-. auto.
  - injection E as <- <- <-. auto.
Qed.
Lemma sreach_inv s st : sreach cb bs nb s st -> SInv s st.
Proof.
  induction 1 as [s0 t0 sz fl s st e Hb Ht Hf E|s st o s' st' r _ IH Hok E].
  - eapply new_sinv; eauto.
  - destruct (step_ret s st o IH Hok) as (s1 & st1 & r1 & E1 & I1 & _). rewrite E1 in E. injection E as <- <- <-. exact I1.
Qed.
End P.
