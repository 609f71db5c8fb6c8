(** * BlockCacheProofs: the cache refines a plain array (no model content). *)
From Verif Require Import GoBase ListZ Errors BlockCache Spec_BlockCache.

Lemma u64_small x : 0 <= x < 2^64 -> u64 x = x.
Proof. intros; unfold u64; apply Z.mod_small; assumption. Qed.
Lemma i64_small' x : 0 <= x < 2^63 -> i64 x = x.
Proof. intros; unfold i64. rewrite Z.mod_small by lia. lia. Qed.

(** ** bitmaps *)
Lemma bits_for_ge l : 0 <= l -> l <= bits_for l.
Proof. intros; unfold bits_for. pose proof (Z.div_mod (l + 7) 8). pose proof (Z.mod_pos_bound (l+7) 8). lia. Qed.
Lemma bget_ok b i : 0 <= i < zlen b -> bget b i = Ret (znth false b i).
Proof. intros; unfold bget. destruct (Z.leb_spec 0 i), (Z.ltb_spec i (zlen b)); try lia; reflexivity. Qed.
Lemma bset_ok b i v : 0 <= i < zlen b -> bset b i v = Ret (splice i [v] b).
Proof. intros; unfold bset. destruct (Z.leb_spec 0 i), (Z.ltb_spec i (zlen b)); try lia; reflexivity. Qed.
Lemma znth_set b i v j : 0 <= i < zlen b -> 0 <= j ->
  znth false (splice i [v] b) j = if j =? i then v else znth false b j.
Proof.
  intros. rewrite znth_splice by lia. rewrite zlen_cons, zlen_nil.
  destruct (Z.eqb_spec j i) as [->|].
  - replace ((i <=? i) && (i <? i + (1 + 0))) with true by lia.
    replace (i - i) with 0 by lia. reflexivity.
  - replace ((i <=? j) && (j <? i + (1 + 0))) with false by lia. reflexivity.
Qed.
Lemma zlen_set (b : list bool) i v : 0 <= i < zlen b -> zlen (splice i [v] b) = zlen b.
Proof. intros. apply zlen_splice; rewrite ?zlen_cons, ?zlen_nil; lia. Qed.
Lemma set_same (b : list bool) i v : 0 <= i < zlen b -> znth false b i = v -> splice i [v] b = b.
Proof.
  intros Hi Hv. apply (list_ext false); [now apply zlen_set|].
  rewrite zlen_set by lia. intros j Hj. rewrite znth_set by lia.
  destruct (Z.eqb_spec j i); congruence.
Qed.

(** ** rounding up *)
Lemma cdiv_le bs sz k : 0 < bs -> (sz + bs - 1) / bs <= k <-> sz <= k * bs.
Proof.
  intros Hb. pose proof (Z.div_mod (sz + bs - 1) bs). pose proof (Z.mod_pos_bound (sz + bs - 1) bs).
  split; intros; nia.
Qed.
Lemma cdiv_nonneg bs sz : 0 < bs -> 0 <= sz -> 0 <= (sz + bs - 1) / bs.
Proof. intros; apply Z.div_pos; lia. Qed.
Lemma cdiv_mul bs k : 0 < bs -> (k * bs + bs - 1) / bs = k.
Proof.
  intros. replace (k * bs + bs - 1) with (bs - 1 + k * bs) by lia.
  rewrite Z.div_add by lia. rewrite Z.div_small by lia. lia.
Qed.
Lemma cdiv_ge bs sz : 0 < bs -> sz <= (sz + bs - 1) / bs * bs.
Proof. intros. apply cdiv_le; [assumption|lia]. Qed.
Lemma cdiv_lt bs sz : 0 < bs -> (sz + bs - 1) / bs * bs < sz + bs.
Proof.
  intros. pose proof (Z.div_mod (sz + bs - 1) bs). pose proof (Z.mod_pos_bound (sz + bs - 1) bs). nia.
Qed.

(** ** blockwise equality *)
Lemma blocks_eq_slice (X Y : list Z) bs : 0 < bs -> forall n lo, 0 <= lo ->
  (forall j, lo <= j < lo + Z.of_nat n -> slice (j * bs) bs X = slice (j * bs) bs Y) ->
  slice (lo * bs) (Z.of_nat n * bs) X = slice (lo * bs) (Z.of_nat n * bs) Y.
Proof.
  intros Hb. induction n as [|n IH]; intros lo Hlo H; [reflexivity|].
  replace (Z.of_nat (S n) * bs) with (bs + Z.of_nat n * bs) by nia.
  rewrite (slice_split (lo * bs) bs) by nia. rewrite (slice_split (lo * bs) bs _ Y) by nia.
  rewrite (H lo) by lia. f_equal.
  replace (lo * bs + bs) with ((lo + 1) * bs) by lia. apply IH; [lia|]. intros; apply H; lia.
Qed.
Lemma blocks_eq_range (X Y : list Z) bs lo n : 0 < bs -> 0 <= lo -> 0 <= n ->
  (forall j, lo <= j < lo + n -> slice (j * bs) bs X = slice (j * bs) bs Y) ->
  slice (lo * bs) (n * bs) X = slice (lo * bs) (n * bs) Y.
Proof.
  intros Hb Hlo Hn H. pose proof (blocks_eq_slice X Y bs Hb (Z.to_nat n) lo Hlo) as E.
  rewrite Z2Nat.id in E by assumption. now apply E.
Qed.
Lemma blocks_eq (X Y : list Z) bs n : 0 < bs -> 0 <= n -> zlen X = n * bs -> zlen Y = n * bs ->
  (forall j, 0 <= j < n -> slice (j * bs) bs X = slice (j * bs) bs Y) -> X = Y.
Proof.
  intros Hb Hn HX HY H. rewrite <- (slice_full (n * bs) X), <- (slice_full (n * bs) Y) by lia.
  apply (blocks_eq_range X Y bs 0 n); auto; lia.
Qed.
Lemma sub_slice_eq (X Y : list Z) o n o' n' : 0 <= o -> 0 <= o' - o -> 0 <= n' -> 0 <= n ->
  o' - o + n' <= n -> slice o n X = slice o n Y -> slice o' n' X = slice o' n' Y.
Proof.
  intros. replace o' with (o + (o' - o)) by lia.
  rewrite <- (slice_slice o n (o' - o) n' X), <- (slice_slice o n (o' - o) n' Y) by lia.
  congruence.
Qed.

Lemma zlen_gocopy {A} (dst src : list A) : zlen (gocopy dst src) = zlen dst.
Proof.
  unfold gocopy. pose proof (zlen_nonneg dst). pose proof (zlen_nonneg src).
  apply zlen_splice; [lia|]. rewrite zlen_slice by lia. lia.
Qed.
Lemma znth_gocopy {A} (d : A) dst src i : 0 <= i ->
  znth d (gocopy dst src) i = if i <? Z.min (zlen dst) (zlen src) then znth d src i else znth d dst i.
Proof.
  intros Hi. unfold gocopy. pose proof (zlen_nonneg dst). pose proof (zlen_nonneg src).
  rewrite znth_splice by lia. rewrite zlen_slice by lia. rewrite !Z.add_0_l.
  replace (0 <=? i) with true by lia. cbn [andb].
  destruct (Z.ltb_spec i (Z.min (zlen dst) (zlen src))); [|reflexivity].
  rewrite znth_slice by lia. f_equal. lia.
Qed.
Lemma slice_gocopy_old {A} (dst src : list A) o n : 0 <= o -> 0 <= n ->
  o + n <= zlen dst -> o + n <= zlen src -> slice o n (gocopy dst src) = slice o n src.
Proof.
  intros Ho Hn Hd Hs. destruct (Z.eq_dec n 0) as [->|Hn0]; [reflexivity|].
  destruct dst as [|x dst0]; [rewrite zlen_nil in *; lia|]. set (dst := x :: dst0) in *.
  apply (list_ext x); [rewrite !zlen_slice; rewrite ?zlen_gocopy; lia|].
  rewrite zlen_slice by (rewrite ?zlen_gocopy; lia). intros i Hi.
  rewrite !znth_slice by lia. rewrite znth_gocopy by lia.
  replace (o + i <? Z.min (zlen dst) (zlen src)) with true by lia. reflexivity.
Qed.
Lemma slice_gocopy_new {A} (dst src : list A) o n : 0 <= o -> 0 <= n ->
  o + n <= zlen dst -> zlen src <= o -> slice o n (gocopy dst src) = slice o n dst.
Proof.
  intros Ho Hn Hd Hs. destruct (Z.eq_dec n 0) as [->|Hn0]; [reflexivity|].
  destruct dst as [|x dst0]; [rewrite zlen_nil in *; lia|]. set (dst := x :: dst0) in *.
  apply (list_ext x); [rewrite !zlen_slice; rewrite ?zlen_gocopy; lia|].
  rewrite zlen_slice by (rewrite ?zlen_gocopy; lia). intros i Hi.
  rewrite !znth_slice by lia. rewrite znth_gocopy by lia.
  replace (o + i <? Z.min (zlen dst) (zlen src)) with false by lia. reflexivity.
Qed.

Section Proofs.
(* [Q] switches the clause that relates loaded clean blocks to the storage: it is dropped
   (Q = False) for caches whose data was modified through a slice without marking it. *)
Context {Q : Prop} {S : Type} (cb : callbacks S) (bs : Z) (nb : S -> Z) (blk : S -> Z -> list Z).
Hypothesis H : honest cb bs nb blk.
Hypothesis Hbs : 0 < bs.

Notation bit l i := (znth false l i).

Record WInv (s : S) (c : cache) : Prop := {
  i_bpb : bpb c = bs;
  i_total : 0 <= total c <= nb s;
  i_fits : bs * total c < 2^63;
  i_data : zlen (data c) = bs * total c;
  i_loaded : zlen (loaded c) = bits_for (total c);
  i_dirty : zlen (dirty c) = bits_for (total c);
  i_sub : forall i, 0 <= i < total c -> bit (dirty c) i = true -> bit (loaded c) i = true;
  i_clean : Q -> forall i, 0 <= i < total c -> bit (loaded c) i = true -> bit (dirty c) i = false ->
            slice (i * bs) bs (data c) = blk s i
}.
(* current contents of block i *)
Local Notation Inv := WInv.
Definition vb (s : S) (c : cache) (i : Z) : list Z :=
  if bit (loaded c) i then slice (i * bs) bs (data c) else blk s i.
Definition represents (A : list Z) (s : S) (c : cache) : Prop :=
  zlen A = bs * total c /\ forall i, 0 <= i < total c -> slice (i * bs) bs A = vb s c i.
Definition same_view (s : S) (c : cache) (s' : S) (c' : cache) : Prop :=
  forall i, 0 <= i < total c -> vb s' c' i = vb s c i.

Lemma inv_total_small s c : Inv s c -> 0 <= total c < 2^63.
Proof. intros [Hb Ht Hf _ _ _ _ _]. nia. Qed.
Lemma inv_bits s c : Inv s c -> total c <= bits_for (total c).
Proof. intros I. apply bits_for_ge. pose proof (i_total _ _ I). lia. Qed.

Lemma accesses_app s1 e1 s2 e2 s3 :
  accesses cb s1 e1 s2 -> accesses cb s2 e2 s3 -> accesses cb s1 (e1 ++ e2) s3.
Proof. induction 1; cbn; intros; [assumption| | |]; econstructor; eauto. Qed.

(** *** check_bounds *)
Lemma min_blocks_ok c sz : bpb c = bs -> bs < 2^63 -> 0 <= sz <= 2^63 ->
  min_blocks c sz = Ret ((sz + bs - 1) / bs).
Proof.
  intros Hb Hs Hz. unfold min_blocks. rewrite Hb. destruct (Z.eqb_spec bs 0); [lia|].
  rewrite (u64_small (sz + bs)) by lia. rewrite u64_small by lia. reflexivity.
Qed.
Lemma min_blocks_some c sz : bpb c = bs -> exists n, min_blocks c sz = Ret n.
Proof.
  intros Hb. unfold min_blocks. rewrite Hb. destruct (Z.eqb_spec bs 0); [lia|]. eauto.
Qed.
Lemma check_bounds_ok s c start sz : Inv s c -> 0 <= start -> 0 <= sz <= 2^63 ->
  check_bounds c start sz =
    Ret (if (start <? total c) && (start + (sz + bs - 1) / bs <=? total c) then None
         else Some (K ErrArgumentOutOfRange)).
Proof.
  intros I Hst Hz. unfold check_bounds. pose proof (i_bpb _ _ I) as Hb.
  pose proof (i_total _ _ I). pose proof (i_fits _ _ I). pose proof (inv_total_small _ _ I).
  destruct (Z.ltb_spec start (total c)) as [Hlt|Hge].
  - assert (bs < 2^63) by nia.
    rewrite min_blocks_ok by assumption.
    replace (start >=? total c) with false by lia. cbn [andb].
    assert ((sz + bs - 1) / bs <= 2^63) by (apply cdiv_le; nia).
    pose proof (cdiv_nonneg bs sz Hbs).
    rewrite u64_small by lia. set (n := (sz + bs - 1) / bs) in *.
    destruct (Z.leb_spec (start + n) (total c)).
    + replace (start + n >? total c) with false by lia. reflexivity.
    + replace (start + n >? total c) with true by lia. reflexivity.
  - destruct (min_blocks_some c sz Hb) as [n ->].
    replace (start >=? total c) with true by lia. reflexivity.
Qed.

(** *** loading *)
Definition lmap := map (fun i => EvFetch i true).
Lemma fetches_false_cons_known K i l ok evs : K i = true ->
  fetches K l ok evs -> fetches K (i :: l) ok evs.
Proof. intros HK HF. unfold fetches in *. cbn [filter]. rewrite HK. exact HF. Qed.
Lemma fetches_cons_unknown K K' i l ok evs : K i = false ->
  (forall j, In j l -> K' j = K j) ->
  fetches K' l ok evs -> fetches K (i :: l) ok (EvFetch i true :: evs).
Proof.
  intros HK Hext HF. unfold fetches in *. cbn [filter]. rewrite HK. cbn [negb].
  assert (filter (fun i => negb (K' i)) l = filter (fun i => negb (K i)) l) as E.
  { apply filter_ext_in. intros j Hj. now rewrite Hext. }
  rewrite E in HF. destruct ok.
  - subst evs. reflexivity.
  - destruct HF as (l1 & j & l2 & E1 & ->). exists (i :: l1), j, l2. rewrite E1. split; reflexivity.
Qed.

Definition Load (s : S) (c : cache) (i stop : Z) (s' : S) (c' : cache) (e : option kerr)
    (evs : list event) : Prop :=
    Inv s' c' /\ total c' = total c /\ same_view s c s' c' /\ dirty c' = dirty c /\
    nb s' = nb s /\ (forall j, 0 <= j < nb s -> blk s' j = blk s j) /\
    accesses cb s evs s' /\ fetches (fun j => bit (loaded c) j) (zrange i stop) (okb e) evs /\
    (forall j, 0 <= j < total c ->
       (bit (loaded c') j = true <-> bit (loaded c) j = true \/ In (EvFetch j true) evs)) /\
    (e = None -> forall j, i <= j < stop -> bit (loaded c') j = true).
Lemma load_loop_spec : forall fuel i stop s c, Inv s c -> 0 <= i <= stop -> stop <= total c ->
  stop - i < Z.of_nat fuel ->
  exists s' c' e evs, load_loop cb fuel i stop s c = Ret (s', c', e) /\ Load s c i stop s' c' e evs.
Proof.
  induction fuel as [|fuel IH]; unfold Load in *; intros i stop s c I Hi Hst Hf; [lia|].
  cbn [load_loop]. pose proof (inv_total_small _ _ I) as Hts. pose proof (inv_bits _ _ I) as Hbits.
  pose proof (i_loaded _ _ I) as Hll. pose proof (i_dirty _ _ I) as Hld.
  pose proof (i_data _ _ I) as Hd. pose proof (i_bpb _ _ I) as Hb. pose proof (i_total _ _ I) as Htot.
  pose proof (i_fits _ _ I) as Hfit.
  destruct (Z.ltb_spec i stop) as [Hlt|Hge].
  2:{ exists s, c, None, []. split; [reflexivity|]. split; [exact I|]. split; [reflexivity|].
      split; [intros j Hj; reflexivity|]. do 3 (split; [now auto|]).
      split; [constructor|]. split; [rewrite zrange_nil by lia; reflexivity|].
      split; [intros; cbn; tauto|intros; lia]. }
  rewrite i64_small' by lia. rewrite bget_ok by lia.
  rewrite (u64_small (i + 1)) by lia. rewrite (zrange_cons i stop) by lia.
  destruct (bit (loaded c) i) eqn:EL.
  - destruct (IH (i + 1) stop s c I) as (s' & c' & e & evs & R & I' & Ht & Hv & Hdy & Hnb & Hblk & Hac & Hf' & Hlo & Hall); try lia.
    exists s', c', e, evs. split; [exact R|]. repeat (split; [assumption|]).
    split; [now apply fetches_false_cons_known|]. split; [assumption|].
    intros He j Hj. destruct (Z.eq_dec j i) as [->|]; [apply Hlo; [lia|now left]|].
    apply Hall; [assumption|lia].
  - rewrite Hb. rewrite (u64_small (i * bs)) by nia. rewrite (u64_small (i * bs + bs)) by nia.
    unfold data_slice. replace (i * bs <=? i * bs + bs) with true by lia.
    replace (i * bs + bs <=? zlen (data c)) with true by nia. cbn [andb].
    replace (i * bs + bs - i * bs) with bs by lia.
    destruct (cb_fetch cb s i (slice (i * bs) bs (data c))) as [[s1 buf'] e] eqn:EF.
    assert (zlen (slice (i * bs) bs (data c)) = bs) as Hsl by (apply zlen_slice; nia).
    destruct (h_fetch _ _ _ _ H _ _ _ _ _ _ (conj (proj1 Hi) (Z.lt_le_trans _ _ _ Hlt (Z.le_trans _ _ _ Hst (proj2 Htot)))) Hsl EF)
      as (Hnb1 & Hblk1 & Hbuf & Hok).
    assert (forall j, 0 <= j < total c -> j <> i ->
              slice (j * bs) bs (splice (i * bs) buf' (data c)) = slice (j * bs) bs (data c)) as Hoth.
    { intros j Hj Hji. apply slice_splice_disj; nia. }
    assert (slice (i * bs) bs (splice (i * bs) buf' (data c)) = buf') as Hsame.
    { pose proof (slice_splice_same (i * bs) buf' (data c)) as E. rewrite Hbuf in E. apply E; nia. }
    assert (zlen (splice (i * bs) buf' (data c)) = zlen (data c)) as Hlen by (apply zlen_splice; nia).
    destruct e as [e|].
    + do 4 eexists. split; [reflexivity|].
      split. { constructor; cbn [bpb total loaded dirty data]; try assumption; try lia.
        - apply (i_sub _ _ I).
        - intros HQ j Hj Hlj Hdj. rewrite Hblk1 by lia. destruct (Z.eq_dec j i) as [->|]; [congruence|].
          rewrite Hoth by assumption. now apply (i_clean _ _ I). }
      split; [reflexivity|].
      split. { intros j Hj. unfold vb. cbn [loaded data]. destruct (bit (loaded c) j) eqn:Ej.
        - apply Hoth; [assumption|congruence].
        - apply Hblk1; lia. }
      split; [reflexivity|]. split; [assumption|]. split; [assumption|].
      split; [econstructor; [exact EF|constructor]|]. cbn [okb].
      split. { exists [], i, (filter (fun i => negb (bit (loaded c) i)) (zrange (i + 1) stop)).
        cbn [filter]. rewrite EL. split; reflexivity. }
      split. { intros j Hj. cbn [loaded]. split; [tauto|].
        intros [?|[E|[]]]; [assumption|discriminate]. }
      discriminate.
    + specialize (Hok eq_refl). rewrite bset_ok, bset_ok by lia.
      rewrite set_same with (b := dirty c) by
        (lia || (destruct (bit (dirty c) i) eqn:ED; [apply (i_sub _ _ I) in ED; [congruence|lia]|reflexivity])).
      set (c1 := mkCache bs (total c) (splice i [true] (loaded c)) (dirty c) (splice (i * bs) buf' (data c))).
      assert (Inv s1 c1) as I1.
      { constructor; cbn [c1 bpb total loaded dirty data]; try assumption; try lia.
        - rewrite zlen_set by lia. assumption.
        - intros j Hj Hdj. rewrite znth_set by lia. destruct (j =? i); [reflexivity|now apply (i_sub _ _ I)].
        - intros HQ j Hj. rewrite znth_set by lia. rewrite Hblk1 by lia.
          destruct (Z.eqb_spec j i) as [->|Hne]; intros Hlj Hdj.
          + rewrite Hsame. exact Hok.
          + rewrite Hoth by assumption. now apply (i_clean _ _ I). }
      assert (same_view s c s1 c1) as V1.
      { intros j Hj. unfold vb. cbn [c1 loaded data]. rewrite znth_set by lia.
        destruct (Z.eqb_spec j i) as [->|Hne].
        - rewrite EL, Hsame. exact Hok.
        - destruct (bit (loaded c) j); [now apply Hoth|apply Hblk1; lia]. }
      destruct (IH (i + 1) stop s1 c1 I1) as (s' & c' & e & evs & R & I' & Ht & Hv & Hdy & Hnb & Hblk & Hac & Hf' & Hlo & Hall);
        try (cbn [c1 total]; lia).
      cbn [c1 total dirty loaded] in Ht, Hdy, Hlo.
      exists s', c', e, (EvFetch i true :: evs). split; [exact R|]. split; [assumption|].
      split; [assumption|]. split; [intros j Hj; rewrite Hv by assumption; now apply V1|].
      split; [assumption|]. split; [congruence|].
      split; [intros j Hj; rewrite Hblk by lia; now apply Hblk1|].
      split; [change true with (okb None); econstructor; [exact EF|assumption]|].
      split. { eapply fetches_cons_unknown; [exact EL| |exact Hf'].
        intros j Hj. apply In_zrange in Hj. cbn [c1 loaded]. rewrite znth_set by lia.
        destruct (Z.eqb_spec j i); [lia|reflexivity]. }
      split. { intros j Hj. rewrite Hlo by assumption. rewrite znth_set by lia.
        cbn [In]. destruct (Z.eqb_spec j i) as [->|Hne]; [|].
        - split; auto.
        - split; [intros [?|?]; auto|]. intros [?|[E|?]]; auto. inversion E; congruence. }
      intros He j Hj. destruct (Z.eq_dec j i) as [->|].
      * apply Hlo; [lia|]. left. rewrite znth_set by lia. now rewrite Z.eqb_refl.
      * apply Hall; [assumption|lia].
Qed.

Lemma fuel_ok s c n : Inv s c -> n <= total c -> n < Z.of_nat (loop_fuel c).
Proof.
  intros I Hn. unfold loop_fuel. pose proof (inv_bits _ _ I). pose proof (i_loaded _ _ I).
  unfold zlen in *. lia.
Qed.
Definition in_range (c : cache) (start n : Z) : bool := (start <? total c) && (start + n <=? total c).
Lemma load_range_spec s c start count : Inv s c -> 0 <= start -> 0 <= count -> count * bs <= 2^63 ->
  if in_range c start count then
    exists s' c' e evs, load_range cb s c start count = Ret (s', c', e) /\
      Load s c start (start + count) s' c' e evs
  else load_range cb s c start count = Ret (s, c, Some (K ErrArgumentOutOfRange)).
Proof.
  intros I Hs Hc Hcb. unfold load_range, in_range. rewrite (i_bpb _ _ I).
  rewrite (u64_small (count * bs)) by nia. rewrite (check_bounds_ok s c start) by (auto; nia).
  rewrite cdiv_mul by assumption. pose proof (inv_total_small _ _ I).
  destruct (Z.ltb_spec start (total c)), (Z.leb_spec (start + count) (total c)); cbn [andb]; try reflexivity.
  rewrite (u64_small (start + count)) by lia.
  apply load_loop_spec; auto; try lia. apply (fuel_ok s); auto; lia.
Qed.
Lemma data_slice_ok s c start count : Inv s c -> 0 <= start -> 0 <= count -> start + count <= total c ->
  data_slice (data c) (u64 (start * bpb c)) (u64 (u64 (start * bpb c) + u64 (count * bpb c))) =
  Ret (slice (start * bs) (count * bs) (data c)).
Proof.
  intros I Hs Hc Ht. rewrite (i_bpb _ _ I). pose proof (i_fits _ _ I). pose proof (i_data _ _ I).
  rewrite (u64_small (start * bs)), (u64_small (count * bs)) by nia.
  rewrite u64_small by nia. unfold data_slice.
  replace (start * bs <=? start * bs + count * bs) with true by nia.
  replace (start * bs + count * bs <=? zlen (data c)) with true by nia.
  cbn [andb]. replace (start * bs + count * bs - start * bs) with (count * bs) by lia. reflexivity.
Qed.
Lemma get_slice_spec s c start count : Inv s c -> 0 <= start -> 0 <= count -> count * bs <= 2^63 ->
  if in_range c start count then
    exists s' c' e evs, Load s c start (start + count) s' c' e evs /\
      get_slice cb s c start count =
        Ret (s', c', match e with Some e => inr e
                     | None => inl (slice (start * bs) (count * bs) (data c')) end)
  else get_slice cb s c start count = Ret (s, c, inr (K ErrArgumentOutOfRange)).
Proof.
  intros I Hs Hc Hcb. pose proof (load_range_spec s c start count I Hs Hc Hcb) as L.
  unfold get_slice. destruct (in_range c start count) eqn:R; [|now rewrite L].
  destruct L as (s' & c' & e & evs & -> & L). exists s', c', e, evs. split; [exact L|].
  destruct e as [e|]; [reflexivity|].
  destruct L as (I' & Ht & _). unfold in_range in R.
  rewrite (data_slice_ok s' c') by (auto; lia). reflexivity.
Qed.
(* reloading a loaded range does nothing *)
Lemma load_loop_loaded : forall fuel i stop s c, Inv s c -> 0 <= i <= stop -> stop <= total c ->
  stop - i < Z.of_nat fuel -> (forall j, i <= j < stop -> bit (loaded c) j = true) ->
  load_loop cb fuel i stop s c = Ret (s, c, None).
Proof.
  induction fuel as [|fuel IH]; intros i stop s c I Hi Hst Hf Hl; [lia|]. cbn [load_loop].
  pose proof (inv_total_small _ _ I). pose proof (inv_bits _ _ I). pose proof (i_loaded _ _ I).
  destruct (Z.ltb_spec i stop); [|reflexivity].
  rewrite i64_small' by lia. rewrite bget_ok by lia. rewrite Hl by lia.
  rewrite u64_small by lia. apply IH; auto; lia || (intros; apply Hl; lia).
Qed.
Lemma load_range_loaded s c start count : Inv s c -> 0 <= start -> 0 <= count ->
  in_range c start count = true ->
  (forall j, start <= j < start + count -> bit (loaded c) j = true) ->
  load_range cb s c start count = Ret (s, c, None).
Proof.
  intros I Hs Hc R Hl. unfold load_range, in_range in *. rewrite (i_bpb _ _ I).
  pose proof (inv_total_small _ _ I). pose proof (i_fits _ _ I).
  rewrite (u64_small (count * bs)) by nia. rewrite (check_bounds_ok s c start) by (auto; nia).
  rewrite cdiv_mul by assumption. rewrite R.
  rewrite (u64_small (start + count)) by lia.
  apply load_loop_loaded; auto; try lia. apply (fuel_ok s); auto; lia.
Qed.
Lemma get_slice_loaded s c start count : Inv s c -> 0 <= start -> 0 <= count ->
  in_range c start count = true ->
  (forall j, start <= j < start + count -> bit (loaded c) j = true) ->
  get_slice cb s c start count = Ret (s, c, inl (slice (start * bs) (count * bs) (data c))).
Proof.
  intros I Hs Hc R Hl. unfold get_slice. rewrite load_range_loaded by assumption.
  unfold in_range in R. rewrite (data_slice_ok s c) by (auto; lia). reflexivity.
Qed.

(** *** flushing *)
Definition Flush (s : S) (c : cache) (i stop : Z) (s' : S) (c' : cache) (e : option kerr)
    (evs : list event) : Prop :=
    Inv s' c' /\ total c' = total c /\ same_view s c s' c' /\ loaded c' = loaded c /\ data c' = data c /\
    nb s' = nb s /\ accesses cb s evs s' /\
    flushes bs (data c) (fun j => bit (dirty c) j) (zrange i stop) (okb e) evs /\
    (forall j, 0 <= j < total c ->
       (bit (dirty c') j = true <-> bit (dirty c) j = true /\ ~ exists b, In (EvFlush j b true) evs)) /\
    (e = None -> forall j, i <= j < stop -> bit (dirty c') j = false).
Lemma flushes_cons_clean A P i l ok evs : P i = false ->
  flushes bs A P l ok evs -> flushes bs A P (i :: l) ok evs.
Proof. intros HK HF. unfold flushes in *. cbn [filter]. rewrite HK. exact HF. Qed.
Lemma flushes_cons_dirty A P P' i l ok evs : P i = true ->
  (forall j, In j l -> P' j = P j) ->
  flushes bs A P' l ok evs ->
  flushes bs A P (i :: l) ok (EvFlush i (slice (i * bs) bs A) true :: evs).
Proof.
  intros HK Hext HF. unfold flushes in *. cbn [filter]. rewrite HK.
  assert (filter P' l = filter P l) as E by (apply filter_ext_in; auto).
  rewrite E in HF. destruct ok.
  - subst evs. reflexivity.
  - destruct HF as (l1 & j & l2 & E1 & ->). exists (i :: l1), j, l2. rewrite E1. split; reflexivity.
Qed.
Lemma flush_loop_spec : forall fuel i stop s c, Inv s c -> 0 <= i <= stop -> stop <= total c ->
  stop - i < Z.of_nat fuel ->
  exists s' c' e evs, flush_loop cb fuel i stop s c = Ret (s', c', e) /\ Flush s c i stop s' c' e evs.
Proof.
  induction fuel as [|fuel IH]; unfold Flush in *; intros i stop s c I Hi Hst Hf; [lia|].
  cbn [flush_loop]. pose proof (inv_total_small _ _ I) as Hts. pose proof (inv_bits _ _ I) as Hbits.
  pose proof (i_loaded _ _ I) as Hll. pose proof (i_dirty _ _ I) as Hld.
  pose proof (i_data _ _ I) as Hd. pose proof (i_bpb _ _ I) as Hb. pose proof (i_total _ _ I) as Htot.
  pose proof (i_fits _ _ I) as Hfit.
  rewrite (u64_small i) by lia.
  destruct (Z.ltb_spec i stop) as [Hlt|Hge].
  2:{ exists s, c, None, []. split; [reflexivity|]. split; [exact I|]. split; [reflexivity|].
      split; [intros j Hj; reflexivity|]. do 3 (split; [reflexivity|]).
      split; [constructor|]. split; [rewrite zrange_nil by lia; reflexivity|].
      split; [|intros; lia]. intros j Hj. split; [|tauto]. intros; split; [assumption|].
      intros [b []]. }
  rewrite bget_ok by lia. rewrite (i64_small' (i + 1)) by lia. rewrite (zrange_cons i stop) by lia.
  destruct (bit (dirty c) i) eqn:ED.
  2:{ destruct (IH (i + 1) stop s c I) as (s' & c' & e & evs & R & I' & Ht & Hv & Hlo & Hda & Hnb & Hac & Hf' & Hdi & Hall); try lia.
    exists s', c', e, evs. split; [exact R|]. repeat (split; [assumption|]).
    split; [now apply flushes_cons_clean|]. split; [assumption|].
    intros He j Hj. destruct (Z.eq_dec j i) as [->|]; [|apply Hall; [assumption|lia]].
    destruct (bit (dirty c') i) eqn:E; [|reflexivity]. apply Hdi in E; [|lia]. destruct E; congruence. }
  assert (bit (loaded c) i = true) as EL by (apply (i_sub _ _ I); [lia|assumption]).
  rewrite get_slice_loaded; [|assumption|lia|lia|unfold in_range; lia|].
  2:{ intros j Hj. replace j with i by lia. assumption. }
  replace (1 * bs) with bs by lia. set (buf := slice (i * bs) bs (data c)).
  assert (zlen buf = bs) as Hsl by (apply zlen_slice; nia).
  destruct (cb_flush cb s i buf) as [s1 e] eqn:EF.
  assert (0 <= i < nb s) as Hin by lia.
  destruct (h_flush _ _ _ _ H _ _ _ _ _ Hin Hsl EF) as (Hnb1 & Hblk1 & Hok).
  destruct e as [e|].
  - exists s1, c, (Some (KMsg e)), [EvFlush i buf false]. split; [reflexivity|]. split.
    { destruct I as [I1 I2 I3 I4 I5 I6 I7 I8]. constructor; try assumption; [lia|].
      intros HQ j Hj Hlj Hdj. rewrite Hblk1 by (lia || congruence). now apply I8. }
    split; [reflexivity|]. split.
    { intros j Hj. unfold vb. destruct (bit (loaded c) j) eqn:E; [reflexivity|].
      apply Hblk1; [lia|congruence]. }
    do 2 (split; [reflexivity|]). split; [assumption|].
    split; [change false with (okb (Some e)); econstructor; [exact EF|constructor]|]. split.
    { exists [], i, (filter (fun j => bit (dirty c) j) (zrange (i + 1) stop)).
      cbn [filter]. rewrite ED. split; reflexivity. }
    split; [|discriminate]. intros j Hj. split; [|tauto]. intros; split; [assumption|].
    intros [b [E|[]]]. discriminate.
  - specialize (Hok eq_refl). rewrite bset_ok by lia.
    set (c1 := mkCache (bpb c) (total c) (loaded c) (splice i [false] (dirty c)) (data c)).
    assert (Inv s1 c1) as I1.
    { constructor; cbn [c1 bpb total loaded dirty data]; try assumption; try lia.
      - rewrite zlen_set by lia. assumption.
      - intros j Hj. rewrite znth_set by lia. destruct (j =? i); [discriminate|now apply (i_sub _ _ I)].
      - intros HQ j Hj Hlj. rewrite znth_set by lia. destruct (Z.eqb_spec j i) as [->|Hne]; intros Hdj.
        + now rewrite Hok.
        + rewrite Hblk1 by lia. now apply (i_clean _ _ I). }
    assert (same_view s c s1 c1) as V1.
    { intros j Hj. unfold vb. cbn [c1 loaded data]. destruct (bit (loaded c) j) eqn:Ej; [reflexivity|].
      apply Hblk1; [lia|congruence]. }
    destruct (IH (i + 1) stop s1 c1 I1) as (s' & c' & e & evs & R & I' & Ht & Hv & Hlo & Hda & Hnb & Hac & Hf' & Hdi & Hall);
      try (cbn [c1 total]; lia).
    cbn [c1 total dirty loaded data] in Ht, Hlo, Hda, Hdi, Hf'.
    exists s', c', e, (EvFlush i buf true :: evs). split; [exact R|]. split; [assumption|].
    split; [assumption|]. split; [intros j Hj; rewrite Hv by assumption; now apply V1|].
    split; [assumption|]. split; [assumption|]. split; [congruence|].
    split; [change true with (okb None); econstructor; [exact EF|assumption]|].
    split. { eapply flushes_cons_dirty; [exact ED| |exact Hf'].
      intros j Hj. apply In_zrange in Hj. cbn beta. rewrite znth_set by lia.
      destruct (Z.eqb_spec j i); [lia|reflexivity]. }
    split. { intros j Hj. rewrite Hdi by assumption. rewrite znth_set by lia.
      cbn [In]. destruct (Z.eqb_spec j i) as [->|Hne].
      - split; [intros [? _]; discriminate|]. intros [_ Hn]. exfalso. apply Hn. eauto.
      - split.
        + intros [Hd' Hn]. split; [assumption|]. intros [b [E|E]]; [inversion E; congruence|eauto].
        + intros [Hd' Hn]. split; [assumption|]. intros [b E]. eauto. }
    intros He j Hj. destruct (Z.eq_dec j i) as [->|]; [|apply Hall; [assumption|lia]].
    destruct (bit (dirty c') i) eqn:E; [|reflexivity]. apply Hdi in E; [|lia].
    rewrite znth_set in E by lia. rewrite Z.eqb_refl in E. destruct E; discriminate.
Qed.
Lemma flush_all_spec s c : Inv s c ->
  if 0 <? total c then
    exists s' c' e evs, flush_all cb s c = Ret (s', c', e) /\ Flush s c 0 (total c) s' c' e evs
  else flush_all cb s c = Ret (s, c, Some (K ErrArgumentOutOfRange)).
Proof.
  intros I. unfold flush_all, flush_range. pose proof (inv_total_small _ _ I). pose proof (i_fits _ _ I).
  rewrite (i_bpb _ _ I). rewrite (u64_small (total c * bs)) by nia.
  rewrite (check_bounds_ok s c 0) by (auto; nia). rewrite cdiv_mul by assumption.
  rewrite Z.add_0_l, Z.leb_refl, andb_true_r.
  destruct (Z.ltb_spec 0 (total c)); [|reflexivity].
  rewrite u64_small by lia. change (i64 0) with 0. apply flush_loop_spec; auto; try lia.
  apply (fuel_ok s); auto; lia.
Qed.
Lemma load_all_spec s c : Inv s c ->
  if 0 <? total c then
    exists s' c' e evs, load_all cb s c = Ret (s', c', e) /\ Load s c 0 (total c) s' c' e evs
  else load_all cb s c = Ret (s, c, Some (K ErrArgumentOutOfRange)).
Proof.
  intros I. pose proof (inv_total_small _ _ I). pose proof (i_fits _ _ I).
  pose proof (load_range_spec s c 0 (total c) I) as L. unfold in_range in L.
  rewrite Z.add_0_l, Z.leb_refl, andb_true_r in L. apply L; nia.
Qed.

(** *** setting bits *)
Lemma set_bits_spec : forall fuel i stop start c,
  (0 < fuel)%nat -> 0 <= i -> 0 <= start -> stop - i < Z.of_nat fuel -> start + stop <= zlen (loaded c) ->
  zlen (dirty c) = zlen (loaded c) -> start + stop < 2^63 ->
  exists c', set_bits fuel i stop start c = Ret c' /\
    bpb c' = bpb c /\ total c' = total c /\ data c' = data c /\
    zlen (loaded c') = zlen (loaded c) /\ zlen (dirty c') = zlen (dirty c) /\
    forall j, 0 <= j ->
      bit (loaded c') j = bit (loaded c) j || ((start + i <=? j) && (j <? start + stop)) /\
      bit (dirty c') j = bit (dirty c) j || ((start + i <=? j) && (j <? start + stop)).
Proof.
  induction fuel as [|fuel IH]; intros i stop start c Hf0 Hi Hs Hf Hl Hd Hm.
  - lia.
  - cbn [set_bits]. destruct (Z.ltb_spec i stop) as [Hlt|Hge].
    + rewrite i64_small' by lia. rewrite !bset_ok by lia.
      edestruct (IH (i + 1) stop start (mkCache (bpb c) (total c) (splice (start + i) [true] (loaded c))
                  (splice (start + i) [true] (dirty c)) (data c))) as (c' & R & Hb & Ht & Hda & Hll & Hld & Hj);
        cbn [loaded dirty] in *; rewrite ?zlen_set in * by lia; try lia.
      exists c'. split; [exact R|]. cbn [bpb total data] in *. repeat (split; [assumption|]).
      intros j Hj0. destruct (Hj j Hj0) as [E1 E2]. rewrite E1, E2, !znth_set by lia.
      destruct (Z.eqb_spec j (start + i)) as [->|].
      * replace ((start + i <=? start + i) && (start + i <? start + stop)) with true by lia.
        split; now rewrite orb_true_r.
      * replace ((start + (i + 1) <=? j) && (j <? start + stop)) with
          ((start + i <=? j) && (j <? start + stop)) by lia. split; reflexivity.
    + exists c. repeat (split; [reflexivity|]). intros j Hj.
      replace ((start + i <=? j) && (j <? start + stop)) with false by lia.
      rewrite !orb_false_r. split; reflexivity.
Qed.

(** *** one operation *)
Definition viewof (A : list Z) (c : cache) : view :=
  mkView A (fun i => bit (loaded c) i) (fun i => bit (dirty c) i).
Lemma rep_total A s c : represents A s c -> zlen A / bs = total c.
Proof. intros [E _]. rewrite E, Z.mul_comm. apply Z.div_mul. lia. Qed.
Lemma rep_load A s c lo hi s' c' e evs : represents A s c -> Load s c lo hi s' c' e evs ->
  represents A s' c'.
Proof.
  intros [E R] (I' & Ht & Hv & _). split; [now rewrite Ht|].
  intros i Hi. rewrite R by lia. symmetry. apply Hv; lia.
Qed.
Lemma fetches_only_fetch K l ok evs : fetches K l ok evs ->
  forall ev, In ev evs -> exists i b, ev = EvFetch i b.
Proof.
  unfold fetches. destruct ok.
  - intros -> ev Hin. apply in_map_iff in Hin. destruct Hin as (i & <- & _). eauto.
  - intros (l1 & j & l2 & _ & ->) ev Hin. apply in_app_or in Hin. destruct Hin as [Hin|[<-|[]]]; [|eauto].
    apply in_map_iff in Hin. destruct Hin as (i & <- & _). eauto.
Qed.
Lemma flushes_only_flush A P l ok evs : flushes bs A P l ok evs ->
  forall ev, In ev evs -> exists i b, ev = EvFlush i (slice (i * bs) bs A) b /\ In i l.
Proof.
  unfold flushes. destruct ok.
  - intros -> ev Hin. apply in_map_iff in Hin. destruct Hin as (i & <- & Hi).
    apply filter_In in Hi. do 2 eexists; split; [reflexivity|tauto].
  - intros (l1 & j & l2 & E & ->) ev Hin. 
    assert (forall i, In i (l1 ++ j :: l2) -> In i l) as Hl.
    { intros i Hi. rewrite <- E in Hi. apply filter_In in Hi. tauto. }
    apply in_app_or in Hin. destruct Hin as [Hin|[<-|[]]].
    + apply in_map_iff in Hin. destruct Hin as (i & <- & Hi). do 2 eexists; split; [reflexivity|].
      apply Hl, in_or_app. now left.
    + do 2 eexists; split; [reflexivity|]. apply Hl, in_or_app. right; now left.
Qed.
Lemma in_bounds_range A s c start len : represents A s c -> Inv s c -> 0 <= len ->
  in_bounds bs A start len <-> in_range c start ((len + bs - 1) / bs) = true.
Proof.
  intros [E _] I Hl. unfold in_bounds, in_range. rewrite E.
  pose proof (cdiv_le bs len (total c - start) Hbs). split; intros; nia.
Qed.
Lemma in_bounds_range_mul A s c start count : represents A s c -> Inv s c ->
  in_bounds bs A start (count * bs) <-> in_range c start count = true.
Proof.
  intros [E _] I. unfold in_bounds, in_range. rewrite E. split; intros; nia.
Qed.
Lemma kp_load A s c lo hi s' c' e evs o r : represents A s c -> Load s c lo hi s' c' e evs ->
  (succeeded r = true -> forall i, ~ modified bs A o i) ->
  (succeeded r = true -> forall i, ~ created bs A o i) ->
  forall i, 0 <= i < zlen A / bs ->
    (bit (loaded c') i = true <->
       bit (loaded c) i = true /\ i < zlen A / bs \/ In (EvFetch i true) evs \/
       succeeded r = true /\ created bs A o i) /\
    (bit (dirty c') i = true <->
       bit (dirty c) i = true /\ i < zlen A / bs /\ ~ (exists b, In (EvFlush i b true) evs) \/
       succeeded r = true /\ modified bs A o i).
Proof.
  intros R L Hm Hc i Hi. rewrite (rep_total A s c R) in *.
  destruct L as (_ & _ & _ & Hd & _ & _ & _ & Hf & Hl & _). split.
  - rewrite Hl by lia. assert (succeeded r = true -> ~ created bs A o i) by auto. intuition lia.
  - rewrite Hd. split.
    + intros Hb. left. split; [assumption|]. split; [lia|].
      intros [b Hin]. destruct (fetches_only_fetch _ _ _ _ Hf _ Hin) as (? & ? & ?); discriminate.
    + intros [?|[? ?]]; [tauto|]. exfalso; eapply Hm; eauto.
Qed.
Lemma kp_same A s c o e : represents A s c ->
  forall i, 0 <= i < zlen A / bs ->
    (bit (loaded c) i = true <->
       bit (loaded c) i = true /\ i < zlen A / bs \/ In (EvFetch i true) [] \/
       succeeded (RErr e) = true /\ created bs A o i) /\
    (bit (dirty c) i = true <->
       bit (dirty c) i = true /\ i < zlen A / bs /\ ~ (exists b, In (EvFlush i b true) []) \/
       succeeded (RErr e) = true /\ modified bs A o i).
Proof.
  intros R i Hi. cbn [succeeded In]. split.
  - split; [left; split; [assumption|lia]|]. intros [[? _]|[[]|[? _]]]; [assumption|discriminate].
  - split.
    + intros. left. split; [assumption|]. split; [lia|]. intros [b []].
    + intros [[? _]|[? _]]; [assumption|discriminate].
Qed.
Lemma loaded_slice A s c lo n : represents A s c -> 0 <= lo -> 0 <= n -> lo + n <= total c ->
  (forall j, lo <= j < lo + n -> bit (loaded c) j = true) ->
  slice (lo * bs) (n * bs) (data c) = slice (lo * bs) (n * bs) A.
Proof.
  intros [_ R] Hlo Hn Ht Hl. apply blocks_eq_range; auto. intros j Hj.
  rewrite R by lia. unfold vb. now rewrite Hl.
Qed.

Definition step_ok (s : S) (c : cache) (A : list Z) (o : op) : Prop :=
  exists s' c' r evs A', exec_op cb s c o = Ret (s', c', r) /\ Inv s' c' /\
    represents A' s' c' /\ accesses cb s evs s' /\
    io_step bs (viewof A c) o r evs (viewof A' c').

Lemma err_step s c A o e : Inv s c -> represents A s c -> ~ op_in_bounds bs A o ->
  e = K ErrArgumentOutOfRange -> exec_op cb s c o = Ret (s, c, RErr e) -> step_ok s c A o.
Proof.
  intros I R Hn -> E. exists s, c, (RErr (K ErrArgumentOutOfRange)), [], A.
  split; [exact E|]. split; [assumption|]. split; [assumption|]. split; [constructor|].
  split; [split; [reflexivity|left; auto]|]. now apply (kp_same A s c).
Qed.
(* an operation that is a load and returns r *)
Lemma load_step s c A o lo hi s' c' e evs r : Inv s c -> represents A s c ->
  op_in_bounds bs A o ->
  Load s c lo hi s' c' e evs -> exec_op cb s c o = Ret (s', c', r) ->
  (forall ok, traffic bs A (fun i => bit (loaded c) i) (fun i => bit (dirty c) i) o ok =
              fetches (fun i => bit (loaded c) i) (zrange lo hi) ok) ->
  (forall i, ~ modified bs A o i) -> (forall i, ~ created bs A o i) ->
  match e with Some e => r = RErr e | None => array_step bs A o r A /\ (forall e, r <> RErr e) end ->
  step_ok s c A o.
Proof.
  intros I R Hb L E Ht Hm Hc Hr. exists s', c', r, evs, A. split; [exact E|].
  pose proof L as (I' & Htt & _ & _ & _ & _ & Hac & Hf & _).
  split; [assumption|]. split; [now apply (rep_load A s c lo hi s' c' e evs)|]. split; [assumption|].
  split; [|apply (kp_load A s c lo hi s' c' e evs); auto].
  cbn [viewof vA vK vP]. destruct e as [e|].
  - subst r. split; [reflexivity|]. right. split; [assumption|]. rewrite Ht. exact Hf.
  - destruct Hr as [Ha Hne]. destruct r; try (now destruct (Hne e eq_refl)).
    + split; [assumption|]. split; [assumption|]. rewrite Ht. exact Hf.
    + split; [assumption|]. split; [assumption|]. rewrite Ht. exact Hf.
Qed.

Lemma step_read s c A start len : Inv s c -> represents A s c -> op_ok bs (ORead start len) ->
  step_ok s c A (ORead start len).
Proof.
  intros I R [Hs Hl]. pose proof (in_bounds_range A s c start len R I) as Hib.
  pose proof (inv_total_small _ _ I). pose proof (i_fits _ _ I). pose proof (i_bpb _ _ I) as Hb.
  set (n := (len + bs - 1) / bs) in *. pose proof (cdiv_nonneg bs len Hbs) as Hn. fold n in Hn.
  assert (exec_op cb s c (ORead start len) = match read_at cb s c (zrepeat 0 len) start with
      | Ret (s', c', b, _, None) => Ret (s', c', RBytes b)
      | Ret (s', c', _, _, Some e) => Ret (s', c', RErr e)
      | Panic => Panic | OutOfFuel => OutOfFuel end) as E by reflexivity.
  unfold read_at in E. rewrite zlen_repeat in E by lia.
  rewrite (check_bounds_ok s c) in E by (auto; lia). fold n in E. fold (in_range c start n) in E.
  destruct (in_range c start n) eqn:ER.
  2:{ eapply err_step; eauto. cbn [op_in_bounds]. rewrite Hib by lia. congruence. }
  assert (in_range c start n = true) as ER' by assumption. unfold in_range in ER.
  rewrite (min_blocks_ok c) in E by (auto; nia). fold n in E.
  pose proof (cdiv_ge bs len Hbs) as Hge. fold n in Hge.
  pose proof (load_range_spec s c start n I) as L. rewrite ER' in L.
  destruct L as (s1 & c1 & e & evs & EL & L); [lia|lia|nia|]. rewrite EL in E.
  pose proof L as (I1 & Ht1 & _ & _ & _ & _ & _ & _ & _ & Hall).
  eapply (load_step s c A (ORead start len) start (start + n) s1 c1 e evs
    match e with Some e => RErr e | None => RBytes (splice 0 (slice 0 (Z.min len
       (zlen (slice (start * bs) (n * bs) (data c1)))) (slice (start * bs) (n * bs) (data c1))) (zrepeat 0 len)) end); eauto.
  - cbn [op_in_bounds]. rewrite Hib by lia. reflexivity.
  - destruct e as [e|]; [exact E|].
    rewrite get_slice_loaded in E; auto; try lia. unfold in_range. rewrite Ht1. assumption.
  - destruct e as [e|]; [reflexivity|]. split; [|discriminate]. cbn [array_step].
    split; [reflexivity|]. split; [rewrite Hib by lia; reflexivity|]. f_equal.
    pose proof (i_data _ _ I1) as Hd1. rewrite Ht1 in Hd1.
    assert (zlen (slice (start * bs) (n * bs) (data c1)) = n * bs) as Hz by (apply zlen_slice; nia).
    rewrite Hz. replace (Z.min len (n * bs)) with len by lia.
    assert (slice 0 len (slice (start * bs) (n * bs) (data c1)) = slice (start * bs) len A) as ->.
    { rewrite slice_slice by nia. rewrite Z.add_0_r.
      apply (sub_slice_eq _ _ (start * bs) (n * bs)); try nia.
      apply (loaded_slice A s1 c1); auto; try lia. eapply rep_load; eauto. }
    apply splice_whole. destruct R as [RA _]. rewrite zlen_slice by nia. rewrite zlen_repeat by lia. reflexivity.
Qed.
Lemma step_slice s c A start count : Inv s c -> represents A s c -> op_ok bs (OSlice start count) ->
  step_ok s c A (OSlice start count).
Proof.
  intros I R (Hs & Hc & Hcb). pose proof (in_bounds_range_mul A s c start count R I) as Hib.
  pose proof (get_slice_spec s c start count I) as G.
  destruct (in_range c start count) eqn:ER.
  2:{ eapply err_step; eauto; [cbn [op_in_bounds]; rewrite Hib; congruence|].
      cbn [exec_op]. rewrite G by lia. reflexivity. }
  destruct G as (s1 & c1 & e & evs & L & EG); try lia.
  pose proof L as (I1 & Ht1 & _ & _ & _ & _ & _ & _ & _ & Hall). unfold in_range in ER.
  eapply (load_step s c A (OSlice start count) start (start + count) s1 c1 e evs
            match e with Some e => RErr e | None => RBytes (slice (start * bs) (count * bs) (data c1)) end);
    eauto.
  - cbn [op_in_bounds]. rewrite Hib. reflexivity.
  - cbn [exec_op]. rewrite EG. destruct e; reflexivity.
  - destruct e as [e|]; [reflexivity|]. split; [|discriminate]. cbn [array_step].
    split; [reflexivity|]. split; [rewrite Hib; reflexivity|]. f_equal.
    apply (loaded_slice A s1 c1); auto; try lia. eapply rep_load; eauto.
Qed.
Lemma step_loadall s c A : Inv s c -> represents A s c -> step_ok s c A OLoadAll.
Proof.
  intros I R. pose proof (load_all_spec s c I) as L. pose proof R as [RA _].
  destruct (Z.ltb_spec 0 (total c)).
  2:{ eapply err_step; eauto; [cbn [op_in_bounds]; nia|]. cbn [exec_op]. rewrite L. reflexivity. }
  destruct L as (s1 & c1 & e & evs & EL & L).
  eapply (load_step s c A OLoadAll 0 (total c) s1 c1 e evs (err_res e)); eauto.
  - cbn [op_in_bounds]; nia.
  - cbn [exec_op]. rewrite EL. reflexivity.
  - intros ok. unfold traffic. now rewrite (rep_total A s c R).
  - destruct e; [reflexivity|]. cbn. split; [auto|discriminate].
Qed.
Lemma step_data s c A : Inv s c -> represents A s c -> step_ok s c A OData.
Proof.
  intros I R. pose proof (load_all_spec s c I) as L. pose proof R as [RA _].
  destruct (Z.ltb_spec 0 (total c)).
  2:{ eapply err_step; eauto; [cbn [op_in_bounds]; nia|]. cbn [exec_op]. unfold get_data. rewrite L. reflexivity. }
  destruct L as (s1 & c1 & e & evs & EL & L).
  pose proof L as (I1 & Ht1 & _ & _ & _ & _ & _ & _ & _ & Hall).
  eapply (load_step s c A OData 0 (total c) s1 c1 e evs
            match e with Some e => RErr e | None => RBytes (data c1) end); eauto.
  - cbn [op_in_bounds]; nia.
  - cbn [exec_op]. unfold get_data. rewrite EL. destruct e; reflexivity.
  - intros ok. unfold traffic. now rewrite (rep_total A s c R).
  - destruct e; [reflexivity|]. cbn. split; [split; [reflexivity|]|discriminate]. f_equal.
    pose proof (i_data _ _ I1). pose proof (i_total _ _ I1).
    apply (blocks_eq _ _ bs (total c)); try lia.
    intros j Hj. assert (represents A s1 c1) as [_ R1] by (eapply rep_load; eauto).
    rewrite R1 by lia. unfold vb. now rewrite Hall by (auto; lia).
Qed.
Lemma step_flush s c A : Inv s c -> represents A s c -> step_ok s c A OFlush.
Proof.
  intros I R. pose proof (flush_all_spec s c I) as L. pose proof R as [RA RB].
  destruct (Z.ltb_spec 0 (total c)).
  2:{ eapply err_step; eauto; [cbn [op_in_bounds]; nia|]. cbn [exec_op]. rewrite L. reflexivity. }
  destruct L as (s1 & c1 & e & evs & EL & I1 & Ht & Hv & Hlo & Hda & Hnb & Hac & Hf & Hdi & Hall).
  exists s1, c1, (err_res e), evs, A. split; [cbn [exec_op]; now rewrite EL|]. split; [assumption|].
  split. { split; [now rewrite Ht|]. intros i Hi. rewrite RB by lia. symmetry; apply Hv; lia. }
  split; [assumption|].
  (* dirty blocks: the data slice is the array slice *)
  assert (forall ok, flushes bs (data c) (fun j => bit (dirty c) j) (zrange 0 (total c)) ok evs ->
                     flushes bs A (fun j => bit (dirty c) j) (zrange 0 (total c)) ok evs) as HA.
  { assert (forall j, In j (filter (fun j => bit (dirty c) j) (zrange 0 (total c))) ->
       slice (j * bs) bs (data c) = slice (j * bs) bs A) as HS.
    { intros j Hj. apply filter_In in Hj. destruct Hj as [Hj Hd]. apply In_zrange in Hj.
      rewrite RB by lia. unfold vb. now rewrite (i_sub _ _ I) by (auto; lia). }
    intros ok. unfold flushes. destruct ok.
    - intros ->. apply map_ext_in. intros j Hj. now rewrite HS.
    - intros (l1 & j & l2 & E & ->). exists l1, j, l2. split; [assumption|]. rewrite E in HS.
      rewrite (HS j) by (apply in_or_app; right; now left). f_equal.
      apply map_ext_in. intros k Hk. rewrite HS; [reflexivity|]. apply in_or_app; now left. }
  split.
  - cbn [viewof vA vK vP]. destruct e as [e|]; cbn [err_res].
    + split; [reflexivity|]. right. split; [cbn [op_in_bounds]; nia|].
      cbn [traffic]. rewrite (rep_total A s c R). now apply HA.
    + split; [cbn; auto|]. split; [cbn [op_in_bounds]; nia|].
      cbn [traffic]. rewrite (rep_total A s c R). now apply HA.
  - cbn [viewof vA vK vP]. rewrite (rep_total A s c R). intros i Hi. rewrite Hlo. split.
    + split; [left; split; [assumption|lia]|]. intros [[? _]|[Hin|[_ []]]]; [assumption|].
      destruct (flushes_only_flush _ _ _ _ _ Hf _ Hin) as (? & ? & E & _). discriminate.
    + rewrite Hdi by lia. cbn [modified created]. intuition lia.
Qed.
(* marking a loaded range dirty *)
Lemma mark_loaded s c start count : Inv s c -> 0 <= start -> 0 <= count -> start + count <= total c ->
  (forall j, start <= j < start + count -> bit (loaded c) j = true) ->
  exists c', set_bits (loop_fuel c) 0 count start c = Ret c' /\ Inv s c' /\
    bpb c' = bpb c /\ total c' = total c /\ data c' = data c /\
    forall j, 0 <= j -> bit (loaded c') j = bit (loaded c) j /\
      bit (dirty c') j = bit (dirty c) j || ((start <=? j) && (j <? start + count)).
Proof.
  intros I Hs Hc Ht Hl. pose proof (inv_total_small _ _ I). pose proof (inv_bits _ _ I).
  pose proof (i_loaded _ _ I). pose proof (i_dirty _ _ I).
  edestruct (set_bits_spec (loop_fuel c) 0 count start c) as (c' & E & Hb & Ht' & Hd & Hll & Hld & Hj);
    try lia. { unfold loop_fuel; lia. } { apply (fuel_ok s); auto; lia. }
  exists c'. split; [exact E|].
  assert (forall j, 0 <= j -> bit (loaded c') j = bit (loaded c) j /\
      bit (dirty c') j = bit (dirty c) j || ((start <=? j) && (j <? start + count))) as Hj'.
  { intros j Hj0. destruct (Hj j Hj0) as [E1 E2]. rewrite Z.add_0_r in E1, E2. split; [|exact E2].
    rewrite E1. destruct ((start <=? j) && (j <? start + count)) eqn:B; [|apply orb_false_r].
    rewrite Hl by lia. reflexivity. }
  split; [|auto].
  destruct I as [I1 I2 I3 I4 I5 I6 I7 I8]. constructor; try congruence.
  - intros j Hj0 Hdj. destruct (Hj' j ltac:(lia)) as [E1 E2]. rewrite E1. rewrite E2 in Hdj.
    apply orb_true_iff in Hdj. destruct Hdj as [Hdj|Hdj]; [apply I7; [lia|assumption]|apply Hl; lia].
  - intros HQ j Hj0 Hlj Hdj. destruct (Hj' j ltac:(lia)) as [E1 E2]. rewrite E1 in Hlj. rewrite E2 in Hdj.
    apply orb_false_iff in Hdj. rewrite Hd. apply I8; [assumption|lia|assumption|tauto].
Qed.
(* writing b at byte offset off into blocks that are all loaded *)
Lemma poke_marked A s c start n off b : Inv s c -> represents A s c ->
  0 <= start -> 0 <= n -> start + n <= total c -> 0 <= off -> off + zlen b <= n * bs ->
  (forall j, start <= j < start + n -> bit (loaded c) j = true) ->
  exists c', set_bits (loop_fuel (poke c start off b)) 0 n start (poke c start off b) = Ret c' /\
    Inv s c' /\ total c' = total c /\ represents (splice (start * bs + off) b A) s c' /\
    forall j, 0 <= j -> bit (loaded c') j = bit (loaded c) j /\
      bit (dirty c') j = bit (dirty c) j || ((start <=? j) && (j <? start + n)).
Proof.
  intros I R Hs Hn Ht Ho Hob Hl. pose proof R as [RA RB].
  pose proof (inv_total_small _ _ I). pose proof (inv_bits _ _ I).
  pose proof (i_loaded _ _ I). pose proof (i_dirty _ _ I). pose proof (i_data _ _ I) as Hdl.
  pose proof (i_bpb _ _ I) as Hb. pose proof (zlen_nonneg b).
  set (d' := splice (start * bs + off) b (data c)).
  assert (zlen d' = zlen (data c)) as Hd' by (apply zlen_splice; nia).
  assert (zlen (splice (start * bs + off) b A) = zlen A) as HA' by (apply zlen_splice; nia).
  edestruct (set_bits_spec (loop_fuel (poke c start off b)) 0 n start (poke c start off b))
    as (c' & E & Hb' & Ht' & Hd & Hll & Hld & Hj); cbn [poke loaded dirty bpb total data] in *;
    try lia. { unfold loop_fuel; lia. }
  { unfold loop_fuel. cbn [poke loaded]. unfold zlen in *. lia. }
  rewrite Hb in Hd. fold d' in Hd.
  exists c'. split; [exact E|].
  assert (forall j, 0 <= j -> bit (loaded c') j = bit (loaded c) j /\
      bit (dirty c') j = bit (dirty c) j || ((start <=? j) && (j <? start + n))) as Hj'.
  { intros j Hj0. destruct (Hj j Hj0) as [E1 E2]. rewrite Z.add_0_r in E1, E2. split; [|exact E2].
    rewrite E1. destruct ((start <=? j) && (j <? start + n)) eqn:B; [|apply orb_false_r].
    rewrite Hl by lia. reflexivity. }
  assert (forall j, 0 <= j < total c -> ~ (start <= j < start + n) ->
     forall X, zlen X = bs * total c ->
     slice (j * bs) bs (splice (start * bs + off) b X) = slice (j * bs) bs X) as Hout.
  { intros j Hj0 Hout X HX. apply slice_splice_disj; nia. }
  split. { destruct I as [I1 I2 I3 I4 I5 I6 I7 I8]. constructor; try congruence.
    - intros j Hj0 Hdj. destruct (Hj' j ltac:(lia)) as [E1 E2]. rewrite E1. rewrite E2 in Hdj.
      apply orb_true_iff in Hdj. destruct Hdj as [Hdj|Hdj]; [apply I7; [lia|assumption]|apply Hl; lia].
    - intros HQ j Hj0 Hlj Hdj. destruct (Hj' j ltac:(lia)) as [E1 E2]. rewrite E1 in Hlj. rewrite E2 in Hdj.
      apply orb_false_iff in Hdj. rewrite Hd. unfold d'. rewrite Hout; [|lia|lia|assumption].
      apply I8; [assumption|lia|assumption|tauto]. }
  split; [assumption|]. split; [|assumption].
  split; [rewrite HA', Ht'; assumption|].
  intros j Hj0. rewrite Ht' in Hj0. unfold vb. destruct (Hj' j ltac:(lia)) as [E1 _]. rewrite E1, Hd.
  destruct (bit (loaded c) j) eqn:Ej.
  - unfold d'. apply slice_splice_cong; try nia. rewrite RB by lia. unfold vb. now rewrite Ej.
  - rewrite Hout; [|lia| |assumption].
    + rewrite RB by lia. unfold vb. now rewrite Ej.
    + intros Hin. rewrite Hl in Ej by lia. discriminate.
Qed.
Lemma kp_mark A s c lo hi s' c1 evs c' o r : represents A s c ->
  Load s c lo hi s' c1 None evs -> total c' = total c -> succeeded r = true ->
  (forall i, modified bs A o i <-> lo <= i < hi) -> (forall i, ~ created bs A o i) ->
  (forall j, 0 <= j -> bit (loaded c') j = bit (loaded c1) j /\
      bit (dirty c') j = bit (dirty c1) j || ((lo <=? j) && (j <? hi))) ->
  forall i, 0 <= i < total c ->
    (bit (loaded c') i = true <->
       bit (loaded c) i = true /\ i < zlen A / bs \/ In (EvFetch i true) evs \/
       succeeded r = true /\ created bs A o i) /\
    (bit (dirty c') i = true <->
       bit (dirty c) i = true /\ i < zlen A / bs /\ ~ (exists b, In (EvFlush i b true) evs) \/
       succeeded r = true /\ modified bs A o i).
Proof.
  intros R L Ht Hr Hm Hc Hj i Hi. rewrite (rep_total A s c R) in *.
  destruct L as (_ & _ & _ & Hd & _ & _ & _ & Hf & Hl & _). destruct (Hj i ltac:(lia)) as [E1 E2]. split.
  - rewrite E1, Hl by lia. specialize (Hc i). tauto || intuition lia.
  - rewrite E2, Hd, orb_true_iff, Hm, Hr.
    assert (~ exists b, In (EvFlush i b true) evs) as Hno.
    { intros [b Hin]. destruct (fetches_only_fetch _ _ _ _ Hf _ Hin) as (? & ? & ?); discriminate. }
    intuition lia.
Qed.
Lemma step_write s c A start b : Inv s c -> represents A s c -> op_ok bs (OWrite start b) ->
  step_ok s c A (OWrite start b).
Proof.
  intros I R [Hs Hl]. pose proof (zlen_nonneg b) as Hb0.
  pose proof (in_bounds_range A s c start (zlen b) R I) as Hib.
  pose proof (inv_total_small _ _ I). pose proof (i_fits _ _ I). pose proof (i_bpb _ _ I) as Hb.
  set (n := (zlen b + bs - 1) / bs) in *. pose proof (cdiv_nonneg bs (zlen b) Hbs) as Hn. fold n in Hn.
  assert (exec_op cb s c (OWrite start b) = match write_at cb s c b start with
      | Ret (s', c', _, e) => Ret (s', c', err_res e)
      | Panic => Panic | OutOfFuel => OutOfFuel end) as E by reflexivity.
  unfold write_at in E.
  rewrite (check_bounds_ok s c) in E by (auto; lia). fold n in E. fold (in_range c start n) in E.
  destruct (in_range c start n) eqn:ER.
  2:{ eapply err_step; eauto. cbn [op_in_bounds]. rewrite Hib by lia. congruence. }
  assert (in_range c start n = true) as ER' by assumption. unfold in_range in ER.
  rewrite (min_blocks_ok c) in E by (auto; nia). fold n in E.
  pose proof (cdiv_ge bs (zlen b) Hbs) as Hge. fold n in Hge.
  pose proof (get_slice_spec s c start n I) as L. rewrite ER' in L.
  destruct L as (s1 & c1 & e & evs & L & EL); [lia|lia|nia|]. rewrite EL in E.
  pose proof L as (I1 & Ht1 & _ & _ & _ & _ & Hac & Hf & _ & Hall).
  assert (op_in_bounds bs A (OWrite start b)) as Hin by (cbn [op_in_bounds]; rewrite Hib by lia; reflexivity).
  destruct e as [e|].
  - exists s1, c1, (RErr e), evs, A. split; [exact E|]. split; [assumption|].
    split; [eapply rep_load; eauto|]. split; [assumption|].
    split; [|apply (kp_load A s c start (start + n) s1 c1 (Some e) evs); auto; discriminate].
    split; [reflexivity|]. right. split; [assumption|exact Hf].
  - pose proof (i_data _ _ I1) as Hd1. rewrite Ht1 in Hd1.
    rewrite (zlen_slice (start * bs)) in E by nia.
    replace (Z.min (n * bs) (zlen b)) with (zlen b) in E by lia. rewrite slice_all in E.
    destruct (poke_marked A s1 c1 start n 0 b I1) as (c' & EM & I' & Ht' & R' & Hj'); auto; try lia.
    { eapply rep_load; eauto. }
    rewrite EM in E. rewrite Z.add_0_r in R'.
    exists s1, c', ROk, evs, (splice (start * bs) b A). split; [exact E|]. split; [assumption|].
    split; [assumption|]. split; [assumption|]. split.
    + split; [cbn [array_step]; split; [rewrite Hib by lia; reflexivity|auto]|]. split; [assumption|exact Hf].
    + cbn [viewof vA vK vP]. rewrite (rep_total _ _ _ R'), Ht', Ht1.
      eapply (kp_mark A s c start (start + n) s1 c1 evs c'); eauto; [congruence|].
      intros i. cbn [modified]. unfold blocks_of. fold n. apply In_zrange.
Qed.
Lemma step_modify s c A start count off b : Inv s c -> represents A s c ->
  op_ok bs (OModify start count off b) -> step_ok s c A (OModify start count off b).
Proof.
  intros I R (Hs & Hc & Hcb & Ho & Hob). pose proof (in_bounds_range_mul A s c start count R I) as Hib.
  pose proof (zlen_nonneg b). pose proof (inv_total_small _ _ I).
  pose proof (get_slice_spec s c start count I) as G.
  destruct (in_range c start count) eqn:ER.
  2:{ eapply err_step; eauto; [cbn [op_in_bounds]; rewrite Hib; congruence|].
      cbn [exec_op]. rewrite G by lia. reflexivity. }
  destruct G as (s1 & c1 & e & evs & L & EG); try lia.
  pose proof L as (I1 & Ht1 & _ & _ & _ & _ & Hac & Hf & _ & Hall).
  assert (op_in_bounds bs A (OModify start count off b)) as Hin by (cbn [op_in_bounds]; now rewrite Hib).
  assert (in_range c start count = true) as ER' by assumption. unfold in_range in ER.
  destruct e as [e|].
  - exists s1, c1, (RErr e), evs, A. split; [cbn [exec_op]; now rewrite EG|]. split; [assumption|].
    split; [eapply rep_load; eauto|]. split; [assumption|].
    split; [|apply (kp_load A s c start (start + count) s1 c1 (Some e) evs); auto; discriminate].
    split; [reflexivity|]. right. split; [assumption|exact Hf].
  - pose proof (i_data _ _ I1) as Hd1. rewrite Ht1 in Hd1.
    destruct (poke_marked A s1 c1 start count off b I1) as (c' & EM & I' & Ht' & R' & Hj'); auto; try lia.
    { eapply rep_load; eauto. }
    exists s1, c', ROk, evs, (splice (start * bs + off) b A).
    split. { cbn [exec_op]. rewrite EG. unfold mark_dirty. cbn [poke bpb].
      assert (check_bounds (poke c1 start off b) start (u64 (count * bpb c1)) = Ret None) as ->.
      { change (check_bounds (poke c1 start off b)) with (check_bounds c1).
        rewrite (i_bpb _ _ I1). rewrite u64_small by lia. rewrite (check_bounds_ok s1 c1) by (auto; lia).
        rewrite cdiv_mul by assumption. rewrite Ht1. now rewrite ER. }
      rewrite EM. reflexivity. }
    split; [assumption|]. split; [assumption|]. split; [assumption|]. split.
    + split; [cbn [array_step]; split; [now rewrite Hib|auto]|]. split; [assumption|exact Hf].
    + cbn [viewof vA vK vP]. rewrite (rep_total _ _ _ R'), Ht', Ht1.
      eapply (kp_mark A s c start (start + count) s1 c1 evs c'); eauto; [congruence|].
      intros i. cbn [modified]. reflexivity.
Qed.

Lemma step_resize s c A n : Inv s c -> represents A s c -> op_ok bs (OResize n) ->
  step_ok s c A (OResize n).
Proof.
  intros I R [Hn Hnb]. pose proof R as [RA RB].
  pose proof (inv_total_small _ _ I). pose proof (inv_bits _ _ I) as Hbits. pose proof (i_bpb _ _ I) as Hb.
  pose proof (i_loaded _ _ I) as Hll. pose proof (i_dirty _ _ I) as Hld. pose proof (i_data _ _ I) as Hd.
  pose proof (i_total _ _ I) as Htot.
  destruct (cb_resize cb s n) as [s' e] eqn:ER. pose proof (h_resize _ _ _ _ H _ _ _ _ Hn Hnb ER) as HR.
  assert (accesses cb s [EvResize n (okb e)] s') as Hac by (econstructor; [exact ER|constructor]).
  destruct e as [e|].
  - destruct HR as [Hnb' Hblk']. exists s', c, (RErr e), [EvResize n false], A.
    split; [cbn [exec_op]; unfold resize; rewrite ER; reflexivity|].
    assert (forall i, 0 <= i < total c -> vb s' c i = vb s c i) as Hv.
    { intros i Hi. unfold vb. destruct (bit (loaded c) i); [reflexivity|apply Hblk'; lia]. }
    split. { destruct I as [I1 I2 I3 I4 I5 I6 I7 I8]. constructor; try assumption; [lia|].
      intros HQ i Hi Hl Hdi. rewrite Hblk' by lia. now apply I8. }
    split; [split; [assumption|]; intros i Hi; rewrite Hv by lia; now apply RB|].
    split; [assumption|]. split; [split; [reflexivity|right; split; [exact Logic.I|reflexivity]]|].
    cbn [viewof vA vK vP succeeded]. intros i Hi. split.
    + split; [left; split; [assumption|lia]|]. intros [[? _]|[[?|[]]|[? _]]]; try discriminate. assumption.
    + split; [intros; left; split; [assumption|]; split; [lia|]; intros [b [?|[]]]; discriminate|].
      intros [[? _]|[? _]]; [assumption|discriminate].
  - destruct HR as [Hnb' Hblk'].
    set (d' := gocopy (zrepeat 0 (n * bs)) (data c)).
    set (y' := gocopy (bitmap_new n) (dirty c)). set (l' := gocopy (bitmap_new n) (loaded c)).
    pose proof (bits_for_ge n Hn) as Hbn.
    assert (zlen d' = bs * n) as Hd' by (unfold d'; rewrite zlen_gocopy, zlen_repeat; nia).
    assert (zlen l' = bits_for n) as Hl' by (unfold l'; rewrite zlen_gocopy; apply zlen_repeat; lia).
    assert (zlen y' = bits_for n) as Hy' by (unfold y'; rewrite zlen_gocopy; apply zlen_repeat; lia).
    assert (forall i, 0 <= i < n -> i < total c ->
              bit l' i = bit (loaded c) i /\ bit y' i = bit (dirty c) i) as Hbit.
    { intros i Hi Hit. unfold l', y'. rewrite !znth_gocopy by lia.
      unfold bitmap_new. rewrite !zlen_repeat by lia.
      replace (i <? Z.min (bits_for n) (zlen (loaded c))) with true by lia.
      replace (i <? Z.min (bits_for n) (zlen (dirty c))) with true by lia. split; reflexivity. }
    assert (n < 2^63) as Hn63 by nia.
    edestruct (set_bits_spec (Datatypes.S (length l')) (total c) n 0 (mkCache bs n l' y' d'))
      as (c' & E & Hb' & Ht' & Hda & Hll' & Hld' & Hj); cbn [loaded dirty bpb total data] in *;
      try lia. { unfold zlen in Hl'. lia. }
    rewrite Hl' in Hll'. rewrite Hy' in Hld'.
    assert (forall i, 0 <= i < n -> i < total c ->
              bit (loaded c') i = bit (loaded c) i /\ bit (dirty c') i = bit (dirty c) i) as Hold.
    { intros i Hi Hit. destruct (Hj i ltac:(lia)) as [E1 E2]. destruct (Hbit i Hi Hit) as [E3 E4].
      rewrite E1, E2, E3, E4. replace ((0 + total c <=? i) && (i <? 0 + n)) with false by lia.
      rewrite !orb_false_r. split; reflexivity. }
    assert (forall i, total c <= i < n -> bit (loaded c') i = true /\ bit (dirty c') i = true) as Hnew.
    { intros i Hi. destruct (Hj i ltac:(lia)) as [E1 E2]. rewrite E1, E2.
      replace ((0 + total c <=? i) && (i <? 0 + n)) with true by lia.
      rewrite !orb_true_r. split; reflexivity. }
    assert (forall i, 0 <= i < n -> i < total c ->
              slice (i * bs) bs d' = slice (i * bs) bs (data c)) as Hdold.
    { intros i Hi Hit. unfold d'. apply slice_gocopy_old; rewrite ?zlen_repeat; nia. }
    assert (forall i, total c <= i < n -> slice (i * bs) bs d' = zrepeat 0 bs) as Hdnew.
    { intros i Hi. unfold d'. rewrite slice_gocopy_new; [|nia|nia|rewrite zlen_repeat; nia|nia].
      apply slice_repeat; nia. }
    set (A' := slice 0 (n * bs) A ++ zrepeat 0 (n * bs - zlen A)).
    assert (zlen A' = bs * n) as HA'.
    { unfold A'. rewrite zlen_app. rewrite zlen_slice_min by nia.
      destruct (Z.le_ge_cases (zlen A) (n * bs)).
      - rewrite zlen_repeat by lia. pose proof (zlen_nonneg A). lia.
      - unfold zrepeat. replace (Z.to_nat (n * bs - zlen A)) with 0%nat by lia.
        cbn [repeat]. change (zlen (@nil Z)) with 0. nia. }
    assert (Inv s' c') as I'.
    { constructor; rewrite ?Ht'; try lia; try congruence.
      - intros i Hi Hdi. destruct (Z.lt_ge_cases i (total c)).
        + destruct (Hold i Hi) as [E1 E2]; [lia|]. rewrite E1. rewrite E2 in Hdi. apply (i_sub _ _ I); [lia|assumption].
        + apply Hnew; lia.
      - intros HQ i Hi Hli Hdi. destruct (Z.lt_ge_cases i (total c)).
        + destruct (Hold i Hi) as [E1 E2]; [lia|]. rewrite E1 in Hli. rewrite E2 in Hdi.
          rewrite Hda, Hdold by lia. rewrite Hblk' by lia. apply (i_clean _ _ I); auto; lia.
        + destruct (Hnew i); [lia|]. congruence. }
    exists s', c', ROk, [EvResize n true], A'.
    split. { cbn [exec_op]. unfold resize. rewrite ER, Hb. rewrite u64_small by nia.
      fold d' y' l'. rewrite E. reflexivity. }
    assert (represents A' s' c') as R'.
    { split; [now rewrite Ht'|]. rewrite Ht'. intros i Hi. unfold vb.
      destruct (Z.lt_ge_cases i (total c)) as [Hit|Hit].
      - destruct (Hold i Hi Hit) as [E1 _]. rewrite E1, Hda. unfold A'.
        rewrite slice_app_l by (try rewrite zlen_slice_min; nia).
        rewrite slice_slice by nia. rewrite Z.add_0_l. rewrite RB by lia. unfold vb.
        destruct (bit (loaded c) i); [symmetry; apply Hdold; lia|symmetry; apply Hblk'; lia].
      - destruct (Hnew i) as [E1 _]; [lia|]. rewrite E1, Hda, Hdnew by lia. unfold A'.
        assert (slice 0 (n * bs) A = A) as ->.
        { unfold slice. change (Z.to_nat 0) with 0%nat. cbn [skipn]. apply firstn_all2. unfold zlen in *. nia. }
        rewrite slice_app_r by nia. apply slice_repeat; nia. }
    split; [assumption|]. split; [assumption|]. split; [assumption|].
    split; [split; [split; reflexivity|split; [exact Logic.I|reflexivity]]|].
    cbn [viewof vA vK vP]. rewrite (rep_total _ _ _ R'), Ht', (rep_total _ _ _ R).
    cbn [succeeded created modified In]. rewrite (rep_total _ _ _ R).
    intros i Hi. destruct (Z.lt_ge_cases i (total c)) as [Hit|Hit].
    + destruct (Hold i Hi Hit) as [E1 E2]. rewrite E1, E2. split.
      * split; [tauto|]. intros [[? _]|[[?|[]]|[_ ?]]]; [assumption|discriminate|lia].
      * split; [intros; left; split; [assumption|split; [assumption|intros [b [?|[]]]; discriminate]]|].
        intros [[? _]|[_ ?]]; [assumption|lia].
    + destruct (Hnew i) as [E1 E2]; [lia|]. rewrite E1, E2. split.
      * split; [intros _; right; right; split; [reflexivity|lia]|reflexivity].
      * split; [intros _; right; split; [reflexivity|lia]|reflexivity].
Qed.

Lemma step_all s c A o : Inv s c -> represents A s c -> op_ok bs o -> step_ok s c A o.
Proof.
  intros I R Ho. destruct o.
  - now apply step_read.
  - now apply step_write.
  - now apply step_slice.
  - now apply step_modify.
  - now apply step_loadall.
  - now apply step_data.
  - now apply step_flush.
  - now apply step_resize.
Qed.
Lemma exec_refines : forall os s c A, Inv s c -> represents A s c -> Forall (op_ok bs) os ->
  exists s' c' rs evss A', exec cb s c os = Ret (s', c', rs) /\ Inv s' c' /\ represents A' s' c' /\
    accesses cb s (concat evss) s' /\ io_run bs (viewof A c) os rs evss (viewof A' c').
Proof.
  induction os as [|o os IH]; intros s c A I R Hos.
  - exists s, c, [], [], A. split; [reflexivity|]. split; [assumption|]. split; [assumption|]. split; constructor.
  - inversion Hos as [|? ? Ho Hos']; subst.
    destruct (step_all s c A o I R Ho) as (s1 & c1 & r & evs & A1 & E & I1 & R1 & Hac & Hio).
    destruct (IH s1 c1 A1 I1 R1 Hos') as (s2 & c2 & rs & evss & A2 & E2 & I2 & R2 & Hac2 & Hio2).
    exists s2, c2, (r :: rs), (evs :: evss), A2. cbn [exec concat]. rewrite E, E2.
    split; [reflexivity|]. split; [assumption|]. split; [assumption|].
    split; [eapply accesses_app; eauto|]. econstructor; eauto.
Qed.

(** *** the initial state *)
Lemma new_winv s total0 : 0 <= total0 <= nb s -> bs * total0 < 2^63 -> Inv s (new_cache bs total0).
Proof.
  intros Ht Hf. assert (0 <= total0 < 2^63) by nia. pose proof (bits_for_ge total0).
  constructor; cbn [new_cache bpb total loaded dirty data]; auto.
  - rewrite u64_small by nia. apply zlen_repeat; nia.
  - apply zlen_repeat; lia.
  - apply zlen_repeat; lia.
  - intros HQ i Hi Hb. unfold bitmap_new in Hb. rewrite znth_repeat in Hb by lia. discriminate.
Qed.
Lemma storage_bytes_snoc (s : S) n : 0 <= n ->
  storage_bytes blk s (n + 1) = storage_bytes blk s n ++ blk s n.
Proof.
  intros Hn. unfold storage_bytes. replace (Z.to_nat (n + 1)) with (Z.to_nat n + 1)%nat by lia.
  rewrite seq_app, map_app, concat_app. cbn [seq map concat]. rewrite app_nil_r.
  f_equal. f_equal. lia.
Qed.
Lemma storage_bytes_spec (s : S) : forall k, Z.of_nat k <= nb s ->
  zlen (storage_bytes blk s (Z.of_nat k)) = bs * Z.of_nat k /\
  forall i, 0 <= i < Z.of_nat k -> slice (i * bs) bs (storage_bytes blk s (Z.of_nat k)) = blk s i.
Proof.
  induction k as [|k IH]; intros Hk; [split; [cbn; lia|intros; lia]|].
  destruct IH as [IH1 IH2]; [lia|].
  replace (Z.of_nat (Datatypes.S k)) with (Z.of_nat k + 1) by lia.
  rewrite storage_bytes_snoc by lia.
  assert (zlen (blk s (Z.of_nat k)) = bs) as Hb by (apply (h_len _ _ _ _ H); lia).
  split; [rewrite zlen_app; lia|]. intros i Hi. destruct (Z.eq_dec i (Z.of_nat k)) as [->|].
  - rewrite slice_app_r by lia. rewrite IH1. replace (Z.of_nat k * bs - bs * Z.of_nat k) with 0 by lia.
    apply slice_full. lia.
  - rewrite slice_app_l by nia. apply IH2. lia.
Qed.
Lemma new_rep s total0 : 0 <= total0 <= nb s -> bs * total0 < 2^63 ->
  represents (storage_bytes blk s total0) s (new_cache bs total0).
Proof.
  intros Ht Hf. destruct (storage_bytes_spec s (Z.to_nat total0)) as [E1 E2]; [lia|].
  rewrite Z2Nat.id in E1, E2 by lia. split; [exact E1|]. cbn [new_cache total]. intros i Hi.
  rewrite E2 by lia. unfold vb. cbn [new_cache loaded]. unfold bitmap_new.
  pose proof (bits_for_ge total0). rewrite znth_repeat by lia. reflexivity.
Qed.
End Proofs.
Notation Inv := (@WInv True _).

Lemma new_inv {S} bs (nb : S -> Z) blk : 0 < bs -> forall s total0, 0 <= total0 <= nb s ->
  bs * total0 < 2^63 -> Inv bs nb blk s (new_cache bs total0).
Proof. intros Hb s total0 H1 H2. now apply new_winv. Qed.
