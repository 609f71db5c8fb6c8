(** * BlockCacheProofs3: crash safety, bounds, wrappers (no model content). *)
From Verif Require Import GoBase ListZ Errors BlockCache Spec_BlockCache BlockCacheProofs BlockCacheProofs2.

Section Crash.
Context {S : Type} (cb : callbacks S) (bs : Z) (nb : S -> Z) (blk : S -> Z -> list Z).
Hypothesis H : honest cb bs nb blk.
Hypothesis At : atomic cb bs nb blk.
Hypothesis Hbs : 0 < bs.
Variable W : list Z -> Prop.
Definition safe (t : S) : Prop :=
  forall i, 0 <= i < nb t -> exists A, W A /\ slice (i * bs) bs A = blk t i.
Definition safe_st (st : S * list S) : Prop := safe (fst st) /\ Forall safe (snd st).

Lemma safe_snoc (s' : S) (tr : list S) : Forall safe tr -> safe s' -> safe_st (s', tr ++ [s']).
Proof. intros H1 H2. split; [exact H2|]. apply Forall_app. split; [exact H1|]. constructor; [exact H2|constructor]. Qed.
Lemma crash_io evs st st' : accesses (traced cb) st evs st' ->
  forall N, nb (fst st) = N ->
  (forall ev, In ev evs -> match ev with
     | EvFetch _ _ => True
     | EvFlush i b _ => 0 <= i < N /\ zlen b = bs /\ exists A, W A /\ slice (i * bs) bs A = b
     | EvResize _ _ => False end) ->
  safe_st st -> safe_st st'.
Proof.
  induction 1 as [|[s tr] i buf s1 buf' e evs s2 E _ IH|[s tr] i buf s1 e evs s2 E _ IH|[s tr] n s1 e evs s2 E _ IH];
    intros N HN Hev Hs; [exact Hs| | |].
  - cbn in E. destruct (cb_fetch cb s i buf) as [[x y] z] eqn:EF. inversion E; subst. clear E.
    destruct (a_fetch _ _ _ _ At _ _ _ _ _ _ EF) as [E1 E2]. destruct Hs as [Hs1 Hs2]. cbn in *.
    eapply (IH (nb s)); [assumption|intros ev Hin; apply Hev; now right|].
    apply safe_snoc; [assumption|]. intros j Hj. rewrite E2 by lia. apply Hs1. lia.
  - cbn in E. destruct (cb_flush cb s i buf) as [x z] eqn:EF. inversion E; subst. clear E.
    destruct (Hev _ (or_introl eq_refl)) as (Hi & Hb & A & HA & HAb). cbn in Hi.
    destruct (a_flush _ _ _ _ At _ _ _ _ _ Hi Hb EF) as [E1 E2]. destruct Hs as [Hs1 Hs2]. cbn in *.
    eapply (IH (nb s)); [assumption|intros ev Hin; apply Hev; now right|].
    apply safe_snoc; [assumption|]. intros j Hj. rewrite E2 by lia.
    destruct e; [apply Hs1; lia|]. destruct (Z.eqb_spec j i) as [->|]; [eauto|apply Hs1; lia].
  - destruct (Hev _ (or_introl eq_refl)).
Qed.
Lemma crash_step st c A o st' c' r evs A' :
  Inv bs (fun st => nb (fst st)) (fun st => blk (fst st)) st c ->
  represents bs (fun st => blk (fst st)) A st c -> op_ok bs o ->
  accesses (traced cb) st evs st' ->
  io_step bs (viewof A c) o r evs (viewof A' c') -> W A -> W A' ->
  safe_st st -> safe_st st'.
Proof.
  intros I R Hok Hac Hio HA HA' Hs. pose proof R as [RA _]. pose proof (i_total _ _ _ _ _ I) as Ht. cbn in Ht.
  assert (zlen A / bs = total c) as HT by (rewrite RA, Z.mul_comm; apply Z.div_mul; lia).
  assert (forall K l ok, fetches K l ok evs -> safe_st st') as Hfe.
  { intros K l ok HF. eapply crash_io; eauto. intros ev Hin.
    destruct (fetches_only_fetch _ _ _ _ HF _ Hin) as (i & b & ->). exact Logic.I. }
  assert (forall P ok, flushes bs A P (zrange 0 (total c)) ok evs -> safe_st st') as Hfl.
  { intros P ok HF. eapply crash_io; eauto. intros ev Hin.
    destruct (flushes_only_flush _ _ _ _ _ _ HF _ Hin) as (i & b & -> & Hi). apply In_zrange in Hi.
    split; [lia|]. split; [apply zlen_slice; nia|eauto]. }
  assert (forall n, o = OResize n -> evs = [EvResize n false] -> safe_st st') as Hrf.
  { intros n -> ->. cbn [op_ok] in Hok. destruct Hok as [Hn _]. inversion Hac as [| | |? ? s1 e ? ? E Hac']; subst.
    inversion Hac'; subst. destruct st as [s tr]. cbn in E. destruct (cb_resize cb s n) as [x e'] eqn:ER.
    inversion E; subst. pose proof (a_resize _ _ _ _ At _ _ _ _ Hn ER) as HR.
    destruct e as [e|]; [|discriminate]. destruct HR as [E1 E2]. destruct Hs as [Hs1 Hs2]. cbn in *.
    apply safe_snoc; [assumption|]. intros j Hj. rewrite E2 by lia. apply Hs1; lia. }
  assert (forall n, o = OResize n -> evs = [EvResize n true] ->
     A' = slice 0 (n * bs) A ++ zrepeat 0 (n * bs - zlen A) -> safe_st st') as Hrt.
  { intros n -> -> EA. cbn [op_ok] in Hok. destruct Hok as [Hn _].
    inversion Hac as [| | |? ? s1 e ? ? E Hac']; subst.
    inversion Hac'; subst. destruct st as [s tr]. cbn in E. destruct (cb_resize cb s n) as [x e'] eqn:ER.
    inversion E; subst. pose proof (a_resize _ _ _ _ At _ _ _ _ Hn ER) as HR.
    destruct e as [e|]; [discriminate|]. destruct Hs as [Hs1 Hs2]. cbn in *.
    apply safe_snoc; [assumption|]. intros j Hj. specialize (HR j Hj).
    destruct (Z.ltb_spec j (nb s)).
    - rewrite HR. apply Hs1; lia.
    - destruct HR as [Hjn ->]. eexists. split; [exact HA'|].
      assert (slice 0 (n * bs) A = A) as ->.
      { unfold slice. change (Z.to_nat 0) with 0%nat. cbn [skipn]. apply firstn_all2. unfold zlen in *. nia. }
      rewrite slice_app_r by nia. apply slice_repeat; nia. }
  destruct Hio as [Hio _]. cbn [viewof vA vK vP] in Hio.
  destruct r as [b| |e].
  - destruct Hio as (Ha & _ & HT'). destruct o; cbn [traffic array_step] in *; rewrite ?HT in HT'; try (eapply Hfe; eassumption);
      try (eapply Hfl; eassumption). destruct Ha. discriminate.
  - destruct Hio as (Ha & _ & HT'). destruct o; cbn [traffic array_step] in *; rewrite ?HT in HT'; try (eapply Hfe; eassumption);
      try (eapply Hfl; eassumption). destruct Ha. eapply Hrt; eauto.
  - destruct Hio as (_ & [(_ & _ & ->)|[_ HT']]).
    + eapply crash_io; eauto. intros ev [].
    + destruct o; cbn [traffic] in *; rewrite ?HT in HT'; try (eapply Hfe; eassumption);
        try (eapply Hfl; eassumption). eapply Hrf; eauto.
Qed.
Lemma crash_exec : forall os st c A st' c' rs,
  Inv bs (fun st => nb (fst st)) (fun st => blk (fst st)) st c ->
  represents bs (fun st => blk (fst st)) A st c -> Forall (op_ok bs) os ->
  exec (traced cb) st c os = Ret (st', c', rs) ->
  (forall A1, visited bs A os rs A1 -> W A1) ->
  safe_st st -> safe_st st'.
Proof.
  induction os as [|o os IH]; intros st c A st' c' rs I R Hok E HW Hs.
  - cbn in E. inversion E; subst. exact Hs.
  - inversion Hok as [|? ? Ho Hok']; subst.
    destruct (step_all (traced cb) bs _ _ (honest_traced cb bs nb blk H) Hbs st c A o I R Ho)
      as (s1 & c1 & r & evs & A1 & E1 & I1 & R1 & Hac & Hio).
    cbn [exec] in E. rewrite E1 in E.
    destruct (exec (traced cb) s1 c1 os) as [[[s2 c2] rs2]| |] eqn:E2; try discriminate.
    inversion E; subst.
    assert (array_run bs A [o] [r] A1) as HA1.
    { apply (io_run_array bs (viewof A c) [o] [r] [evs] (viewof A1 c1)). econstructor; [exact Hio|constructor]. }
    eapply (IH s1 c1 A1); eauto.
    + intros A2 (os1 & os2 & rs1 & rs2' & -> & -> & HR). apply HW.
      exists (o :: os1), os2, (r :: rs1), rs2'. split; [reflexivity|]. split; [reflexivity|].
      inversion HA1 as [|? ? ? B ? ? ? Hne Hst Hn|? ? ? ? ? ? Hn]; subst; inversion Hn; subst.
      * econstructor; eauto.
      * constructor. exact HR.
    + apply (crash_step st c A o s1 c1 r evs A1); try assumption.
      * apply HW. exists [], (o :: os), [], (r :: rs2). repeat split; auto. constructor.
      * apply HW. exists [o], os, [r], rs2. repeat split; auto.
Qed.
End Crash.

(** ** bounds for every count *)
Section Bounds.
Context {S : Type} (cb : callbacks S) (bs : Z) (nb : S -> Z) (blk : S -> Z -> list Z).
Hypothesis H : honest cb bs nb blk.
Hypothesis Hbs : 0 < bs.
Notation Inv := (Inv bs nb blk).
Lemma check_bounds_gen {Q : Prop} s c start sz : @WInv Q _ bs nb blk s c -> 0 <= start -> 0 <= sz -> sz + bs < 2^64 ->
  start + (sz + bs - 1) / bs < 2^64 ->
  check_bounds c start sz =
    Ret (if (start <? total c) && (start + (sz + bs - 1) / bs <=? total c) then None
         else Some (K ErrArgumentOutOfRange)).
Proof.
  intros I Hst Hz Hz2 Hn. unfold check_bounds, min_blocks. rewrite (i_bpb _ _ _ _ _ I).
  replace (bs =? 0) with false by lia. rewrite (u64_small (sz + bs)) by lia.
  rewrite (u64_small (sz + bs - 1)) by lia. pose proof (cdiv_nonneg bs sz Hbs Hz).
  set (n := (sz + bs - 1) / bs) in *. rewrite u64_small by lia.
  destruct (Z.ltb_spec start (total c)).
  - replace (start >=? total c) with false by lia. cbn [andb]. destruct (Z.leb_spec (start + n) (total c)).
    + replace (start + n >? total c) with false by lia. reflexivity.
    + replace (start + n >? total c) with true by lia. reflexivity.
  - replace (start >=? total c) with true by lia. reflexivity.
Qed.
Lemma get_slice_gen {Q : Prop} s c start count : @WInv Q _ bs nb blk s c -> 0 <= start -> 0 <= count ->
  count * bs + bs < 2^64 -> start + count < 2^64 ->
  if in_range c start count then
    exists s' c' r, get_slice cb s c start count = Ret (s', c', r) /\
      contents blk s' c' = contents blk s c /\ total c' = total c /\
      match r with
      | inl b => b = slice (start * bs) (count * bs) (contents blk s c)
      | inr e => exists evs i, accesses cb s evs s' /\ In (EvFetch i false) evs
      end
  else get_slice cb s c start count = Ret (s, c, inr (K ErrArgumentOutOfRange)).
Proof.
  intros I Hs Hc H1 H2. pose proof (i_fits _ _ _ _ _ I).
  destruct (in_range c start count) eqn:ER.
  - assert (in_range c start count = true) as ER' by assumption. unfold in_range in ER.
    pose proof (get_slice_spec cb bs nb blk H Hbs s c start count I Hs Hc) as G. rewrite ER' in G.
    destruct G as (s1 & c1 & e & evs & L & E); [nia|].
    pose proof (wcontents_spec cb bs nb blk H s c Hbs I) as R.
    pose proof (rep_load cb bs nb blk _ _ _ _ _ _ _ _ _ R L) as R1.
    pose proof L as (I1 & Ht1 & _ & _ & _ & _ & Hac & Hf & _ & Hall).
    do 3 eexists. split; [exact E|]. split; [symmetry; eapply wrep_unique; eauto|]. split; [assumption|].
    destruct e as [e|].
    + (* the failing fetch *)
      destruct Hf as (l1 & j & l2 & _ & Hev). exists evs, j. split; [assumption|].
      rewrite Hev. apply in_or_app. right. now left.
    + apply (loaded_slice bs blk Hbs _ s1 c1); auto; lia.
  - unfold get_slice, load_range. rewrite (i_bpb _ _ _ _ _ I). rewrite (u64_small (count * bs)) by nia.
    rewrite (check_bounds_gen s c start) by (eauto; rewrite ?cdiv_mul; nia). rewrite cdiv_mul by assumption.
    unfold in_range in ER. rewrite ER. reflexivity.
Qed.

Lemma mark_gen {Q : Prop} s c start count : @WInv Q _ bs nb blk s c -> 0 <= start -> 0 <= count ->
  count * bs + bs < 2^64 -> start + count < 2^64 ->
  if in_range c start count then
    exists c', mark_dirty c start count = Ret (c', None) /\ @WInv Q _ bs nb blk s c' /\
      bpb c' = bpb c /\ total c' = total c /\ data c' = data c /\
      forall j, 0 <= j ->
        znth false (loaded c') j = znth false (loaded c) j || ((start <=? j) && (j <? start + count)) /\
        znth false (dirty c') j = znth false (dirty c) j || ((start <=? j) && (j <? start + count))
  else mark_dirty c start count = Ret (c, Some (K ErrArgumentOutOfRange)).
Proof.
  intros I Hs Hc H1 H2. pose proof (i_fits _ _ _ _ _ I). unfold mark_dirty.
  rewrite (i_bpb _ _ _ _ _ I). rewrite (u64_small (count * bs)) by nia.
  rewrite (check_bounds_gen s c start) by (eauto; rewrite ?cdiv_mul; nia). rewrite cdiv_mul by assumption.
  fold (in_range c start count).
  destruct (in_range c start count) eqn:ER; [|reflexivity]. unfold in_range in ER.
  pose proof (inv_total_small bs nb blk Hbs _ _ I). pose proof (inv_bits bs nb blk _ _ I).
  pose proof (i_loaded _ _ _ _ _ I). pose proof (i_dirty _ _ _ _ _ I).
  edestruct (set_bits_spec (loop_fuel c) 0 count start c) as (c' & E & Hb & Ht' & Hd & Hll & Hld & Hj);
    try lia. { unfold loop_fuel; lia. } { apply (fuel_ok bs nb blk s c _ I); lia. }
  exists c'. rewrite E. split; [reflexivity|].
  assert (forall j, 0 <= j ->
        znth false (loaded c') j = znth false (loaded c) j || ((start <=? j) && (j <? start + count)) /\
        znth false (dirty c') j = znth false (dirty c) j || ((start <=? j) && (j <? start + count))) as Hj'
    by (intros j Hj0; specialize (Hj j Hj0); now rewrite Z.add_0_r in Hj).
  rewrite (i_bpb _ _ _ _ _ I) in Hb. split; [|repeat (split; [assumption|]); exact Hj'].
  destruct I as [I1 I2 I3 I4 I5 I6 I7 I8]. constructor; try congruence.
  - intros j Hj0 Hdj. destruct (Hj' j ltac:(lia)) as [E1 E2]. rewrite E1. rewrite E2 in Hdj.
    apply orb_true_iff in Hdj. apply orb_true_iff. destruct Hdj as [Hdj|Hdj]; [left; apply I7; [lia|assumption]|now right].
  - intros HQ j Hj0 Hlj Hdj. destruct (Hj' j ltac:(lia)) as [E1 E2]. rewrite E2 in Hdj. rewrite E1 in Hlj.
    apply orb_false_iff in Hdj. destruct Hdj as [Hd1 Hd2]. rewrite Hd2, orb_false_r in Hlj.
    rewrite Hd. apply I8; [assumption|lia|assumption|assumption].
Qed.
Lemma set_bits_panic : forall fuel i stop start c, 0 <= start -> 0 <= i ->
  start + i <= zlen (loaded c) -> zlen (loaded c) - (start + i) < Z.of_nat fuel ->
  zlen (dirty c) = zlen (loaded c) -> zlen (loaded c) < start + stop -> zlen (loaded c) < 2^62 ->
  set_bits fuel i stop start c = Panic.
Proof.
  induction fuel as [|fuel IH]; intros i stop start c Hs Hi Hl Hf Hd Hst Hm; [lia|].
  cbn [set_bits]. replace (i <? stop) with true by lia.
  rewrite i64_small' by lia.
  destruct (Z.eq_dec (start + i) (zlen (loaded c))) as [E|E].
  - unfold bset. replace ((0 <=? start + i) && (start + i <? zlen (loaded c))) with false by lia. reflexivity.
  - rewrite !bset_ok by lia. apply IH; cbn [loaded dirty]; rewrite ?zlen_set by lia; lia.
Qed.
Lemma mark_panics {Q : Prop} s c start k : @WInv Q _ bs nb blk s c -> bs = 2^k -> 2 <= k <= 59 -> 0 <= start < total c ->
  mark_dirty c start (2^(64 - k)) = Panic.
Proof.
  intros I Hk Hk2 Hs. pose proof (i_fits _ _ _ _ _ I).
  assert (bs * 2^(64-k) = 2^64) as E.
  { rewrite Hk, <- Z.pow_add_r by lia. f_equal; lia. }
  unfold mark_dirty. rewrite (i_bpb _ _ _ _ _ I). rewrite (Z.mul_comm (2^(64-k))), E.
  change (u64 (2^64)) with 0. rewrite (check_bounds_ok bs nb blk Hbs s c start 0 I) by lia.
  replace ((0 + bs - 1) / bs) with 0 by (symmetry; apply Z.div_small; lia).
  replace ((start <? total c) && (start + 0 <=? total c)) with true by lia.
  assert (4 <= bs) by (rewrite Hk; change 4 with (2^2); apply Z.pow_le_mono_r; lia).
  assert (32 <= 2^(64-k)) by (change 32 with (2^5); apply Z.pow_le_mono_r; lia).
  assert (total c < 2^(63-k)) as Htc.
  { apply (Z.mul_lt_mono_pos_l bs); [lia|]. rewrite Hk at 2. rewrite <- Z.pow_add_r by lia.
    replace (k + (63 - k)) with 63 by lia. lia. }
  assert (2^(64-k) = 2 * 2^(63-k)) as E2 by (rewrite <- Z.pow_succ_r by lia; f_equal; lia).
  assert (zlen (loaded c) <= total c + 7) as Hbf.
  { rewrite (i_loaded _ _ _ _ _ I). unfold bits_for.
    pose proof (Z.div_mod (total c + 7) 8). pose proof (Z.mod_pos_bound (total c + 7) 8). lia. }
  pose proof (inv_bits bs nb blk _ _ I). pose proof (i_loaded _ _ _ _ _ I). pose proof (i_dirty _ _ _ _ _ I).
  rewrite set_bits_panic; [reflexivity|lia|lia|lia| |lia|lia|nia].
  unfold loop_fuel, zlen. lia.
Qed.
End Bounds.

(** ** WrapSlice / WrapStream *)
Definition fblk (bs : Z) (f : list Z) (i : Z) : list Z := slice (i * bs) bs f.
Definition fnb (bs total0 : Z) (f : list Z) : Z := Z.min total0 (zlen f / bs).
Lemma fnb_in bs total0 f i : 0 < bs -> 0 <= i < fnb bs total0 f -> i < total0 /\ i * bs + bs <= zlen f.
Proof.
  unfold fnb. intros Hb Hi. split; [lia|].
  assert (i + 1 <= zlen f / bs) as E by lia.
  assert ((i + 1) * bs <= zlen f / bs * bs) by nia. pose proof (Z.mul_div_le (zlen f) bs Hb). lia.
Qed.
Lemma file_read_exact bs f i buf : 0 < bs -> 0 <= i -> i * bs + bs <= zlen f -> zlen buf = bs ->
  file_read f (i * bs) buf = fblk bs f i.
Proof.
  intros Hb Hi Hf Hbuf. unfold file_read, fblk. rewrite Hbuf. apply splice_whole.
  rewrite zlen_slice by nia. congruence.
Qed.
Lemma file_write_in f off b : 0 <= off -> off + zlen b <= zlen f -> file_write f off b = splice off b f.
Proof.
  intros Ho Hf. unfold file_write. unfold zrepeat.
  replace (Z.to_nat (off + zlen b - zlen f)) with 0%nat by lia. cbn [repeat]. now rewrite app_nil_r.
Qed.
Lemma zlen_truncate f n : 0 <= n -> zlen (file_truncate f n) = n.
Proof.
  intros Hn. unfold file_truncate. rewrite zlen_app, zlen_slice_min by lia.
  destruct (Z.le_ge_cases (zlen f) n).
  - rewrite zlen_repeat by lia. pose proof (zlen_nonneg f). lia.
  - unfold zrepeat. replace (Z.to_nat (n - zlen f)) with 0%nat by lia.
    change (zlen (repeat 0 0)) with 0. lia.
Qed.
Lemma honest_file bs total0 ar ht (rz : list Z -> Z -> list Z * option kerr) : 0 < bs -> 0 <= total0 ->
  (forall f n f' e, 0 <= n -> rz f n = (f', e) ->
     match e with None => n <= total0 /\ f' = file_truncate f (n * bs) | Some _ => f' = f end) ->
  let cb0 := wrap_stream_cb bs total0 ar ht in
  honest (mkCb _ (cb_fetch cb0) (cb_flush cb0) rz) bs (fnb bs total0) (fblk bs).
Proof.
  intros Hb Ht Hrz cb0. constructor.
  - intros f i Hi. destruct (fnb_in _ _ _ _ Hb Hi). unfold fblk. apply zlen_slice; nia.
  - intros f i buf f' buf' e Hi Hbuf E. destruct (fnb_in _ _ _ _ Hb Hi) as [Hi1 Hi2]. unfold cb0, wrap_stream_cb in E; cbn [cb_fetch cb_flush cb_resize] in E.
    replace (i >=? total0) with false in E by lia. injection E as <- <- <-.
    split; [reflexivity|]. split; [reflexivity|]. rewrite file_read_exact by lia.
    split; [unfold fblk; apply zlen_slice; nia|reflexivity].
  - intros f i buf f' e Hi Hbuf E. destruct (fnb_in _ _ _ _ Hb Hi) as [Hi1 Hi2]. unfold cb0, wrap_stream_cb in E; cbn [cb_fetch cb_flush cb_resize] in E.
    replace (i >=? total0) with false in E by lia. injection E as <- <-.
    rewrite file_write_in by nia.
    assert (zlen (splice (i * bs) buf f) = zlen f) as El by (apply zlen_splice; nia).
    split; [unfold fnb; now rewrite El|]. split.
    + intros j Hj Hne. destruct (fnb_in _ _ _ _ Hb Hj). unfold fblk. apply slice_splice_disj; nia.
    + intros _. unfold fblk. rewrite <- Hbuf at 2. apply slice_splice_same; nia.
  - intros f n f' e Hn _ E. cbn in E. specialize (Hrz f n f' e Hn E). destruct e as [e|].
    + subst f'. split; reflexivity.
    + destruct Hrz as [Hn0 ->]. 
      assert (zlen (file_truncate f (n * bs)) = n * bs) as El.
      { unfold file_truncate. rewrite zlen_app, zlen_slice_min by nia.
        destruct (Z.le_ge_cases (zlen f) (n * bs)).
        - rewrite zlen_repeat by lia. pose proof (zlen_nonneg f). lia.
        - unfold zrepeat. replace (Z.to_nat (n * bs - zlen f)) with 0%nat by lia.
          change (zlen (repeat 0 0)) with 0. nia. }
      split; [unfold fnb; rewrite El, Z.div_mul by lia; lia|].
      intros j Hj Hjf. assert (0 <= j < fnb bs total0 f) as Hjf' by lia.
      destruct (fnb_in _ _ _ _ Hb Hjf'). unfold fblk, file_truncate.
      rewrite slice_app_l by (try rewrite zlen_slice_min; nia). rewrite slice_slice by nia. f_equal.
Qed.
Lemma storage_bytes_file bs f n : 0 < bs -> 0 <= n -> n * bs <= zlen f ->
  storage_bytes (fblk bs) f n = slice 0 (n * bs) f.
Proof.
  intros Hb Hn Hf. unfold storage_bytes.
  destruct (concat_blocks bs (fblk bs f) (Z.to_nat n)) as [E1 E2].
  { intros i Hi. unfold fblk. apply zlen_slice; nia. }
  rewrite Z2Nat.id in E1, E2 by lia.
  apply (blocks_eq _ _ bs n); try lia; [apply zlen_slice; nia|].
  intros j Hj. rewrite E2 by lia. rewrite slice_slice by nia. reflexivity.
Qed.

(** events of a step *)
Lemma io_step_events bs T v o r evs v' : 0 < bs -> 0 <= T -> zlen (vA v) = T * bs ->
  io_step bs v o r evs v' ->
  forall ev, In ev evs -> match ev with
    | EvFetch _ _ => forall n, o <> OResize n
    | EvFlush i b _ => 0 <= i < T /\ zlen b = bs /\ o = OFlush
    | EvResize n ok => o = OResize n /\ evs = [EvResize n ok] /\ ok = succeeded r
    end.
Proof.
  intros Hbs HT0 HA [Hio _] ev Hin.
  assert (zlen (vA v) / bs = T) as HT by (rewrite HA; apply Z.div_mul; lia).
  assert (forall ok, traffic bs (vA v) (vK v) (vP v) o ok evs -> ok = succeeded r -> match ev with
    | EvFetch _ _ => forall n, o <> OResize n
    | EvFlush i b _ => 0 <= i < T /\ zlen b = bs /\ o = OFlush
    | EvResize n ok => o = OResize n /\ evs = [EvResize n ok] /\ ok = succeeded r
    end) as HX.
  { intros ok Ht Hr.
    assert (forall K l, fetches K l ok evs -> exists i b, ev = EvFetch i b) as Hf
      by (intros K l HF; eapply fetches_only_fetch; eauto).
    destruct o; cbn [traffic] in Ht; try (destruct (Hf _ _ Ht) as (i & b' & ->); congruence).
    - rewrite HT in Ht. destruct (flushes_only_flush _ _ _ _ _ _ Ht _ Hin) as (i & b & -> & Hi).
      apply In_zrange in Hi. split; [lia|]. split; [apply zlen_slice; nia|reflexivity].
    - subst evs. destruct Hin as [<-|[]]. auto. }
  destruct r as [b| |e].
  - destruct Hio as (_ & _ & Ht). now apply (HX true).
  - destruct Hio as (_ & _ & Ht). now apply (HX true).
  - destruct Hio as (_ & [(_ & _ & ->)|[_ Ht]]); [destruct Hin|]. now apply (HX false).
Qed.

Section Files.
Variables (bs total0 : Z).
Hypothesis Hbs : 0 < bs.
Hypothesis Ht0 : 0 <= total0.
Hypothesis Hfit : total0 * bs < 2^63.
Variable rz : list Z -> Z -> list Z * option kerr.
Hypothesis Hrz : forall f n f' e, 0 <= n -> rz f n = (f', e) ->
     match e with None => n <= total0 /\ f' = file_truncate f (n * bs) | Some _ => f' = f end.
Variables ar ht : bool.
Let cb0 := wrap_stream_cb bs total0 ar ht.
Let cbf := mkCb (list Z) (cb_fetch cb0) (cb_flush cb0) rz.
Let HF : honest cbf bs (fnb bs total0) (fblk bs) := honest_file bs total0 ar ht rz Hbs Ht0 Hrz.

Lemma file_io evs f f' : accesses cbf f evs f' ->
  forall T, T * bs <= zlen f -> T <= total0 ->
  (forall ev, In ev evs -> match ev with
     | EvFetch _ _ => True
     | EvFlush i b _ => 0 <= i < T /\ zlen b = bs
     | EvResize _ _ => False end) ->
  zlen f' = zlen f /\ slice (T * bs) (zlen f - T * bs) f' = slice (T * bs) (zlen f - T * bs) f.
Proof.
  induction 1 as [|f i buf s1 buf' e evs s2 E _ IH|f i buf s1 e evs s2 E _ IH|f n s1 e evs s2 E _ IH];
    intros T HT HTt Hev; [split; reflexivity| | |].
  - assert (s1 = f) as ->.
    { unfold cbf, cb0, wrap_stream_cb in E. cbn [cb_fetch] in E.
      destruct (i >=? total0); inversion E; reflexivity. }
    apply (IH T); auto. intros ev Hin; apply Hev; now right.
  - destruct (Hev _ (or_introl eq_refl)) as [Hi Hb].
    unfold cbf, cb0, wrap_stream_cb in E. cbn [cb_flush] in E.
    replace (i >=? total0) with false in E by lia. injection E as E1 E2.
    rewrite file_write_in in E1 by nia.
    assert (zlen s1 = zlen f) as El by (subst s1; apply zlen_splice; nia).
    destruct (IH T) as [A1 A2]; [lia|lia|intros ev Hin; apply Hev; now right|].
    split; [congruence|]. rewrite El in A2. rewrite A2. subst s1.
    destruct (Z.eq_dec T 0); [nia|]. apply slice_splice_disj; nia.
  - destruct (Hev _ (or_introl eq_refl)).
Qed.

Definition grows_within (o : op) : Prop := match o with OResize n => n <= total0 | _ => True end.

(* files whose length is kept in step with the cache *)
Lemma file_step f c A tail o f1 c1 r evs A1 : Inv bs (fnb bs total0) (fblk bs) f c ->
  represents bs (fblk bs) A f c -> op_ok bs o ->
  accesses cbf f evs f1 -> io_step bs (viewof A c) o r evs (viewof A1 c1) ->
  zlen f = zlen A + zlen tail -> slice (zlen A) (zlen tail) f = tail ->
  (tail = [] \/ forall f n, snd (rz f n) <> None) ->
  zlen f1 = zlen A1 + zlen tail /\ slice (zlen A1) (zlen tail) f1 = tail.
Proof.
  intros I R Ho Hac Hio Hl Htl Htail. pose proof R as [RA _].
  pose proof (i_total _ _ _ _ _ I) as Htot. pose proof (zlen_nonneg tail).
  assert (zlen A = total c * bs) as RA' by lia.
  assert (total c <= total0) as Htt by (unfold fnb in Htot; lia).
  pose proof (io_step_events bs (total c) (viewof A c) o r evs (viewof A1 c1) Hbs ltac:(lia) RA' Hio) as Hev.
  assert ((forall n, o <> OResize n) -> zlen f1 = zlen f /\ slice (zlen A) (zlen tail) f1 = slice (zlen A) (zlen tail) f) as Hnr.
  { intros Hno. destruct (file_io evs f f1 Hac (total c)) as [E1 E2]; [lia|lia| |].
    - intros ev Hin. specialize (Hev ev Hin). destruct ev; auto; [tauto|]. destruct Hev as [-> _]. now destruct (Hno n).
    - split; [assumption|]. replace (zlen f - total c * bs) with (zlen tail) in E2 by lia. now rewrite RA'. }
  assert (array_run bs A [o] [r] A1) as HA1.
  { apply (io_run_array bs (viewof A c) [o] [r] [evs] (viewof A1 c1)). econstructor; [exact Hio|constructor]. }
  assert (forall n, o = OResize n \/ o <> OResize n) as Hdec.
  { intros n. destruct o; try (right; discriminate). destruct (Z.eq_dec n n0) as [->|]; [now left|right; congruence]. }
  assert ((exists n, o = OResize n) \/ (forall n, o <> OResize n)) as [[n ->]|Hno].
  { destruct o; try (right; intros; discriminate). left. eauto. }
  - destruct Hio as [Hio _]. cbn [viewof vA vK vP] in Hio. cbn [op_ok] in Ho. destruct Ho as [Hn _].
    destruct r as [b| |e'].
    + destruct Hio as ((_ & ?) & _). discriminate.
    + destruct Hio as ((-> & _) & _ & Ht). cbn [traffic] in Ht. subst evs.
      inversion Hac as [| | |? ? s1 e ? ? E Hac' X1 X2]; subst. inversion Hac'; subst.
      destruct e; [discriminate|]. cbn in E. destruct (Hrz _ _ _ _ Hn E) as [_ ->].
      destruct Htail as [->|Hne]; [|exfalso; apply (Hne f n); now rewrite E].
      change (zlen (@nil Z)) with 0 in *. rewrite slice_nil. split; [|reflexivity].
      fold (file_truncate A (n * bs)). rewrite !zlen_truncate by nia. lia.
    + destruct Hio as (-> & Hio). destruct Hio as [(_ & _ & ->)|[_ Ht]].
      * inversion Hac; subst. auto.
      * cbn [traffic] in Ht. subst evs.
        inversion Hac as [| | |? ? s1 e ? ? E Hac' X1 X2]; subst. inversion Hac'; subst.
        destruct e; [|discriminate]. cbn in E. pose proof (Hrz _ _ _ _ Hn E) as ->. auto.
  - destruct (Hnr Hno) as [E1 E2]. assert (zlen A1 = zlen A) as ->; [|split; [lia|congruence]].
    destruct Hio as [Hio _]. cbn [viewof vA] in Hio.
    destruct r as [b| |e'].
    + destruct Hio as (Ha & _). destruct (array_step_len bs A (total c) _ _ _ Hbs RA' Ho Ha) as (T' & E & _ & ET).
      rewrite E, ET by assumption. lia.
    + destruct Hio as (Ha & _). destruct (array_step_len bs A (total c) _ _ _ Hbs RA' Ho Ha) as (T' & E & _ & ET).
      rewrite E, ET by assumption. lia.
    + destruct Hio as [-> _]. reflexivity.
Qed.
Lemma file_exec : forall os f c A tail, Inv bs (fnb bs total0) (fblk bs) f c ->
  represents bs (fblk bs) A f c -> Forall (op_ok bs) os ->
  zlen f = zlen A + zlen tail -> slice (zlen A) (zlen tail) f = tail ->
  (tail = [] \/ forall f n, snd (rz f n) <> None) ->
  exists f' c' rs A', exec cbf f c os = Ret (f', c', rs) /\ Inv bs (fnb bs total0) (fblk bs) f' c' /\
    represents bs (fblk bs) A' f' c' /\ array_run bs A os rs A' /\
    zlen f' = zlen A' + zlen tail /\ slice (zlen A') (zlen tail) f' = tail.
Proof.
  induction os as [|o os IH]; intros f c A tail I R Hok Hl Htl Htail.
  - exists f, c, [], A. split; [reflexivity|]. split; [assumption|]. split; [assumption|].
    split; [constructor|]. split; assumption.
  - inversion Hok as [|? ? Ho Hok']; subst.
    destruct (step_all cbf bs _ _ HF Hbs f c A o I R Ho) as (f1 & c1 & r & evs & A1 & E1 & I1 & R1 & Hac & Hio).
    destruct (file_step f c A tail o f1 c1 r evs A1 I R Ho Hac Hio Hl Htl Htail) as [Hl1 Htl1].
    assert (array_run bs A [o] [r] A1) as HA1.
    { apply (io_run_array bs (viewof A c) [o] [r] [evs] (viewof A1 c1)). econstructor; [exact Hio|constructor]. }
    destruct (IH f1 c1 A1 tail I1 R1 Hok' Hl1 Htl1 Htail) as (f2 & c2 & rs & A2 & E2 & I2 & R2 & HR & Hl2 & Ht2).
    exists f2, c2, (r :: rs), A2. cbn [exec]. rewrite E1, E2.
    split; [reflexivity|]. split; [assumption|]. split; [assumption|]. split; [|auto].
    inversion HA1 as [|? ? ? B ? ? ? Hne Hst Hn|? ? ? ? ? ? Hn]; subst; inversion Hn; subst.
    + econstructor; eauto.
    + constructor. exact HR.
Qed.
Lemma file_flush f c A tail f' c' : Inv bs (fnb bs total0) (fblk bs) f c ->
  represents bs (fblk bs) A f c ->
  zlen f = zlen A + zlen tail -> slice (zlen A) (zlen tail) f = tail ->
  (tail = [] \/ forall f n, snd (rz f n) <> None) ->
  flush_all cbf f c = Ret (f', c', None) -> f' = A ++ tail.
Proof.
  intros I R Hl Htl Htail E. pose proof R as [RA _].
  destruct (step_all cbf bs _ _ HF Hbs f c A OFlush I R Logic.I) as (f1 & c1 & r & evs & A1 & E1 & I1 & R1 & Hac & Hio).
  cbn [exec_op] in E1. rewrite E in E1. cbn in E1. inversion E1; subst.
  destruct (file_step f c A tail OFlush f1 c1 ROk evs A1 I R Logic.I Hac Hio Hl Htl Htail) as [Hl1 Htl1].
  assert (A1 = A) as -> by (destruct Hio as [[[EA _] _] _]; exact EA).
  destruct (flush_ok_clean cbf bs _ _ HF f c f1 c1 Hbs I E) as (_ & _ & _ & _ & ES & _).
  rewrite <- (rep_unique cbf bs _ _ HF A f c Hbs I R) in ES.
  pose proof (i_total _ _ _ _ _ I). pose proof (zlen_nonneg tail).
  rewrite storage_bytes_file in ES by (auto; nia).
  rewrite <- (slice_full (zlen A + zlen tail) f1) by lia.
  rewrite slice_split by (pose proof (zlen_nonneg A); lia). rewrite Z.add_0_l, Htl1. f_equal.
  transitivity (slice 0 (total c * bs) f1); [f_equal; lia|exact ES].
Qed.
Lemma file_flush_succeeds f c : Inv bs (fnb bs total0) (fblk bs) f c -> 0 < total c ->
  exists f' c', flush_all cbf f c = Ret (f', c', None).
Proof.
  intros I H0. pose proof (flush_all_spec cbf bs _ _ HF Hbs f c I) as L.
  pose proof (i_total _ _ _ _ _ I) as Htot. pose proof (i_data _ _ _ _ _ I) as Hd.
  replace (0 <? total c) with true in L by lia.
  destruct L as (s1 & c1 & e & evs & E1 & I1 & Ht & Hv & Hlo & Hda & Hnb & Hac & Hf & _).
  destruct e as [e|]; [|eauto]. exfalso. destruct Hf as (l1 & j & l2 & El & ->).
  assert (0 <= j < total c) as Hj.
  { assert (In j (zrange 0 (total c))) as Hin.
    { assert (In j (filter (fun j => znth false (dirty c) j) (zrange 0 (total c)))) as Hin
        by (rewrite El; apply in_or_app; right; now left). apply filter_In in Hin. tauto. }
    apply In_zrange in Hin. lia. }
  assert (j < total0) as Hj0 by (unfold fnb in Htot; lia).
  clear - Hac Hj0. 
  assert (forall evs y y', accesses cbf y evs y' -> forall b, ~ In (EvFlush j b false) evs) as HN.
  { intros evs y y' Ha. induction Ha as [|x i buf x1 buf' e evs x2 E _ IH|x i buf x1 e evs x2 E _ IH|x n x1 e evs x2 E _ IH];
      intros b0 Hin; cbn in Hin; [tauto|..]; destruct Hin as [X|Hin]; try discriminate; try (eapply IH; eassumption).
    inversion X; subst. unfold cbf, cb0, wrap_stream_cb in E. cbn [cb_flush] in E.
    replace (j >=? total0) with false in E by lia. inversion E; subst. discriminate. }
  eapply HN; [exact Hac|]. apply in_or_app. right. left. reflexivity.
Qed.
End Files.

(** ** C17 *)
Lemma load_events {Q : Prop} S (cb : callbacks S) bs nb blk s c lo hi s' c' e evs :
  @Load Q S cb bs nb blk s c lo hi s' c' e evs -> (e = None <-> forall i, ~ In (EvFetch i false) evs).
Proof.
  intros (_ & _ & _ & _ & _ & _ & _ & Hf & _). destruct e as [e|].
  - split; [discriminate|]. intros Hn. exfalso. destruct Hf as (l1 & j & l2 & _ & ->).
    apply (Hn j). apply in_or_app. right. now left.
  - split; [|reflexivity]. intros _ i Hin. cbn in Hf. subst evs. apply in_map_iff in Hin.
    destruct Hin as (j & E & _). discriminate.
Qed.
Lemma out_of_range : forall S (cb : callbacks S) bs nb blk, honest cb bs nb blk ->
  forall s0 total0 s c, reachable cb bs nb s0 total0 s c ->
  forall start buffer, 0 <= start < 2^64 -> zlen buffer < 2^63 ->
  ((total c <= start \/ total c * bs < start * bs + zlen buffer) ->
     read_at cb s c buffer start = Ret (s, c, buffer, 0, Some (K ErrArgumentOutOfRange)) /\
     write_at cb s c buffer start = Ret (s, c, 0, Some (K ErrArgumentOutOfRange))) /\
  ((start < total c /\ start * bs + zlen buffer <= total c * bs) ->
     (exists s' c' buffer' n e evs, read_at cb s c buffer start = Ret (s', c', buffer', n, e) /\
        accesses cb s evs s' /\
        contents blk s' c' = contents blk s c /\ nb s' = nb s /\
        (forall j, 0 <= j < nb s -> blk s' j = blk s j) /\
        (e = None <-> forall i, ~ In (EvFetch i false) evs) /\
        match e with
        | None => buffer' = slice (start * bs) (zlen buffer) (contents blk s c)
        | Some _ => buffer' = buffer /\ n = 0
        end) /\
     (exists s' c' n e evs, write_at cb s c buffer start = Ret (s', c', n, e) /\
        accesses cb s evs s' /\
        nb s' = nb s /\ (forall j, 0 <= j < nb s -> blk s' j = blk s j) /\
        (e = None <-> forall i, ~ In (EvFetch i false) evs) /\
        match e with
        | None => n = zlen buffer /\ contents blk s' c' = splice (start * bs) buffer (contents blk s c)
        | Some _ => n = 0 /\ contents blk s' c' = contents blk s c
        end)).
Proof.
  intros S cb bs nb blk H s0 total0 s c Hr start buf Hs Hl.
  destruct (reach_inv cb bs nb blk H _ _ _ _ Hr) as (Hbs & I & R).
  pose proof (zlen_nonneg buf) as Hb0. pose proof (i_fits _ _ _ _ _ I). pose proof (i_bpb _ _ _ _ _ I) as Hb.
  set (n := (zlen buf + bs - 1) / bs). pose proof (cdiv_nonneg bs (zlen buf) Hbs Hb0) as Hn. fold n in Hn.
  pose proof (cdiv_le bs (zlen buf) (total c - start) Hbs) as Hcd. fold n in Hcd.
  pose proof (cdiv_ge bs (zlen buf) Hbs) as Hge. fold n in Hge.
  unfold read_at, write_at. rewrite (check_bounds_ok bs nb blk Hbs s c) by (eauto; lia). fold n.
  fold (in_range c start n). split.
  - intros Hout. replace (in_range c start n) with false by (unfold in_range; nia). split; reflexivity.
  - intros Hin. assert (in_range c start n = true) as ER by (unfold in_range; nia). rewrite ER.
    rewrite (min_blocks_ok bs Hbs c) by (auto; nia). fold n.
    assert (n * bs <= 2^63) by (unfold in_range in ER; nia). unfold in_range in ER.
    assert (in_range c start n = true) as ER' by exact ER.
    split.
    + pose proof (load_range_spec cb bs nb blk H Hbs s c start n I) as L. rewrite ER' in L.
      destruct L as (s1 & c1 & e & evs & EL & L); [lia|lia|lia|]. rewrite EL.
      pose proof L as (I1 & Ht1 & _ & _ & Hnb & Hblk & Hac & _ & _ & Hall).
      pose proof (rep_load cb bs nb blk _ _ _ _ _ _ _ _ _ R L) as R1.
      assert (contents blk s1 c1 = contents blk s c) as EC by (symmetry; eapply rep_unique; eauto).
      pose proof (load_events _ _ _ _ _ _ _ _ _ _ _ _ _ L) as He.
      destruct e as [e|].
      * do 6 eexists. split; [reflexivity|]. repeat (split; [eassumption|]). auto.
      * rewrite (get_slice_loaded cb bs nb blk Hbs) by (eauto; try lia; unfold in_range; rewrite Ht1; exact ER).
        do 6 eexists. split; [reflexivity|]. repeat (split; [eassumption|]).
        pose proof (i_data _ _ _ _ _ I1) as Hd1. rewrite Ht1 in Hd1.
        rewrite (zlen_slice (start * bs) (n * bs)) by nia. replace (Z.min (zlen buf) (n * bs)) with (zlen buf) by lia.
        assert (slice 0 (zlen buf) (slice (start * bs) (n * bs) (data c1)) = slice (start * bs) (zlen buf) (contents blk s c)) as ->.
        { rewrite slice_slice by nia. rewrite Z.add_0_r.
          apply (sub_slice_eq _ _ (start * bs) (n * bs)); try nia.
          apply (loaded_slice bs blk Hbs _ s1 c1); auto; lia. }
        apply splice_whole. destruct R as [RA _]. rewrite zlen_slice by nia. reflexivity.
    + pose proof (get_slice_spec cb bs nb blk H Hbs s c start n I) as L. rewrite ER' in L.
      destruct L as (s1 & c1 & e & evs & L & EL); [lia|lia|lia|]. rewrite EL.
      pose proof L as (I1 & Ht1 & _ & _ & Hnb & Hblk & Hac & _ & _ & Hall).
      pose proof (rep_load cb bs nb blk _ _ _ _ _ _ _ _ _ R L) as R1.
      assert (contents blk s1 c1 = contents blk s c) as EC by (symmetry; eapply rep_unique; eauto).
      pose proof (load_events _ _ _ _ _ _ _ _ _ _ _ _ _ L) as He.
      destruct e as [e|].
      * do 5 eexists. split; [reflexivity|]. repeat (split; [eassumption|]). auto.
      * pose proof (i_data _ _ _ _ _ I1) as Hd1. rewrite Ht1 in Hd1.
        rewrite (zlen_slice (start * bs)) by nia.
        replace (Z.min (n * bs) (zlen buf)) with (zlen buf) by lia. rewrite slice_all.
        destruct (poke_marked bs nb blk Hbs _ s1 c1 start n 0 buf I1 R1) as (c' & EM & I' & Ht' & R' & Hj'); auto; try lia.
        rewrite EM. do 5 eexists. split; [reflexivity|]. repeat (split; [eassumption|]).
        split; [reflexivity|]. rewrite Z.add_0_r in R'. symmetry. eapply rep_unique; eauto.
Qed.
