(** * BlockCacheProofs2: consequences of the refinement (no model content). *)
From Verif Require Import GoBase ListZ Errors BlockCache Spec_BlockCache BlockCacheProofs.

Lemma array_run_det bs os : forall rs A A1 A2,
  array_run bs A os rs A1 -> array_run bs A os rs A2 -> A1 = A2.
Proof.
  induction os as [|o os IH]; intros rs A A1 A2 H1 H2.
  - inversion H1; inversion H2; subst; congruence.
  - inversion H1 as [|? ? r ? ? ? ? Hne Hs Hr|]; subst.
    + inversion H2 as [|? ? r' ? ? ? ? Hne' Hs' Hr'|]; subst.
      * assert (A3 = A4) as ->; [|eapply IH; eauto].
        destruct o; cbn in Hs, Hs'; intuition congruence.
      * now destruct (Hne e).
    + inversion H2 as [|? ? r' ? ? ? ? Hne' Hs' Hr'|]; subst; [now destruct (Hne' e)|].
      eapply IH; eauto.
Qed.
Lemma io_run_array bs v os rs evss v' : io_run bs v os rs evss v' ->
  array_run bs (vA v) os rs (vA v').
Proof.
  induction 1 as [|v o r evs v1 os rs evss v2 Hs Hr IH]; [constructor|].
  destruct Hs as [Hs _]. destruct r as [b| |e].
  - destruct Hs as [Hs _]. econstructor; eauto. discriminate.
  - destruct Hs as [Hs _]. econstructor; eauto. discriminate.
  - destruct Hs as [E _]. rewrite E in IH. now constructor.
Qed.
Lemma io_step_ext bs v w o r evs v' : vA v = vA w -> (forall i, vK v i = vK w i) ->
  (forall i, vP v i = vP w i) -> io_step bs v o r evs v' -> io_step bs w o r evs v'.
Proof.
  intros HA HK HP [H1 H2].
  assert (forall ok, traffic bs (vA v) (vK v) (vP v) o ok evs -> traffic bs (vA w) (vK w) (vP w) o ok evs) as HT.
  { assert (forall l ok evs, fetches (vK v) l ok evs -> fetches (vK w) l ok evs) as HF.
    { intros l ok e. unfold fetches.
      assert (forall i, negb (vK v i) = negb (vK w i)) as HN by (intros; now rewrite HK).
      now rewrite (filter_ext _ _ HN). }
    assert (forall A l ok evs, flushes bs A (vP v) l ok evs -> flushes bs A (vP w) l ok evs) as HF'.
    { intros A l ok e. unfold flushes. now rewrite (filter_ext (vP v) (vP w) HP). }
    rewrite <- HA. intros ok. destruct o; cbn [traffic]; auto. }
  split.
  - rewrite <- HA in HT |- *. destruct r as [b| |e].
    + destruct H1 as (? & ? & ?). auto.
    + destruct H1 as (? & ? & ?). auto.
    + destruct H1 as (? & [?|[? ?]]); auto.
  - intros i Hi. rewrite <- HK, <- HP, <- HA. now apply H2.
Qed.
Lemma io_run_ext bs v w os rs evss v' : vA v = vA w -> (forall i, vK v i = vK w i) ->
  (forall i, vP v i = vP w i) -> io_run bs v os rs evss v' -> exists w', vA w' = vA v' /\
  io_run bs w os rs evss w'.
Proof.
  intros HA HK HP Hr. inversion Hr; subst.
  - exists w. split; [congruence|constructor].
  - exists v'. split; [reflexivity|]. econstructor; [|eassumption]. eapply io_step_ext; eauto.
Qed.

(** each block is fetched successfully at most once *)
Lemma fetched_app e1 e2 : fetched (e1 ++ e2) = fetched e1 ++ fetched e2.
Proof. unfold fetched. apply flat_map_app. Qed.
Lemma fetched_map l : fetched (map (fun i => EvFetch i true) l) = l.
Proof. induction l; cbn; [reflexivity|]. now f_equal. Qed.
Lemma In_fetched i evs : In i (fetched evs) <-> In (EvFetch i true) evs.
Proof.
  unfold fetched. rewrite in_flat_map. split.
  - intros (e & He & Hi). destruct e as [j [|]|j b ok|n ok]; cbn in Hi; try tauto.
    destruct Hi as [->|[]]. exact He.
  - intros Hi. eexists; split; [exact Hi|]. now left.
Qed.
Lemma fetches_fetched K l ok evs : NoDup l -> fetches K l ok evs ->
  NoDup (fetched evs) /\ forall i, In i (fetched evs) -> In i l /\ K i = false.
Proof.
  intros Hl HF. assert (NoDup (filter (fun i => negb (K i)) l)) as Hn by now apply NoDup_filter.
  unfold fetches in HF. destruct ok.
  - subst evs. rewrite fetched_map. split; [exact Hn|]. intros i Hi. apply filter_In in Hi.
    destruct Hi as [? E]. split; [assumption|]. now destruct (K i).
  - destruct HF as (l1 & j & l2 & E & ->). rewrite fetched_app, fetched_map. cbn. rewrite app_nil_r.
    rewrite E in Hn. split.
    + clear E. revert Hn. induction l1 as [|a l1 IH]; intros Hn; [constructor|].
      inversion Hn as [|? ? Ha Hn']; subst. constructor; [|now apply IH].
      intros Hi. apply Ha. apply in_or_app; now left.
    + intros i Hi. assert (In i (filter (fun i => negb (K i)) l)) as Hi' by (rewrite E; apply in_or_app; now left).
      apply filter_In in Hi'. destruct Hi' as [? E']. split; [assumption|]. now destruct (K i).
Qed.
Lemma flushes_fetched bs A P l ok evs : flushes bs A P l ok evs -> fetched evs = [].
Proof.
  assert (forall l, fetched (map (fun i => EvFlush i (slice (i * bs) bs A) true) l) = []) as HM
    by (induction l0; cbn; auto).
  unfold flushes. destruct ok; [intros ->; apply HM|].
  intros (l1 & j & l2 & _ & ->). rewrite fetched_app, HM. reflexivity.
Qed.
Lemma traffic_fetched bs A T K P o ok evs : 0 < bs -> zlen A = T * bs -> op_ok bs o ->
  op_in_bounds bs A o -> traffic bs A K P o ok evs ->
  NoDup (fetched evs) /\ forall i, In i (fetched evs) -> 0 <= i < T /\ K i = false.
Proof.
  intros Hbs HA Hok Hin HT.
  assert (zlen A / bs = T) as HAT by (rewrite HA; apply Z.div_mul; lia).
  assert (forall lo hi, 0 <= lo -> hi <= T -> fetches K (zrange lo hi) ok evs ->
     NoDup (fetched evs) /\ forall i, In i (fetched evs) -> 0 <= i < T /\ K i = false) as Hr.
  { intros lo hi Hlo Hhi HF. destruct (fetches_fetched _ _ _ _ (NoDup_zrange _ _) HF) as [H1 H2].
    split; [exact H1|]. intros i Hi. destruct (H2 i Hi) as [H3 H4]. apply In_zrange in H3.
    split; [lia|exact H4]. }
  destruct o; cbn [traffic op_in_bounds op_ok] in *; unfold in_bounds, blocks_of in *.
  - eapply Hr; [| |exact HT]; [lia|].
    assert ((len + bs - 1) / bs <= T - start) by (apply cdiv_le; nia). lia.
  - eapply Hr; [| |exact HT]; [lia|].
    assert ((zlen b + bs - 1) / bs <= T - start) by (apply cdiv_le; nia). lia.
  - eapply Hr; [| |exact HT]; nia.
  - eapply Hr; [| |exact HT]; nia.
  - eapply Hr; [| |exact HT]; lia.
  - eapply Hr; [| |exact HT]; lia.
  - rewrite (flushes_fetched _ _ _ _ _ _ HT). split; [constructor|intros i []].
  - subst evs. cbn. split; [constructor|intros i []].
Qed.
Lemma array_step_len bs A T o r A' : 0 < bs -> zlen A = T * bs -> op_ok bs o ->
  array_step bs A o r A' ->
  exists T', zlen A' = T' * bs /\ (forall n, o = OResize n -> T' = n) /\
             ((forall n, o <> OResize n) -> T' = T).
Proof.
  intros Hbs HA Hok Hs. destruct o; cbn [array_step op_ok] in *; unfold in_bounds in *.
  - exists T. destruct Hs as (-> & _). repeat split; congruence.
  - exists T. destruct Hs as (? & -> & _). rewrite zlen_splice by nia. repeat split; congruence.
  - exists T. destruct Hs as (-> & _). repeat split; congruence.
  - exists T. destruct Hs as (? & -> & _). rewrite zlen_splice by nia. repeat split; congruence.
  - exists T. destruct Hs as (-> & _). repeat split; congruence.
  - exists T. destruct Hs as (-> & _). repeat split; congruence.
  - exists T. destruct Hs as (-> & _). repeat split; congruence.
  - destruct Hs as (-> & _). exists n. split.
    + rewrite zlen_app, zlen_slice_min by nia.
      destruct (Z.le_ge_cases (zlen A) (n * bs)).
      * rewrite zlen_repeat by lia. pose proof (zlen_nonneg A). lia.
      * unfold zrepeat. replace (Z.to_nat (n * bs - zlen A)) with 0%nat by lia.
        change (zlen (repeat 0 0)) with 0. nia.
    + split; [congruence|]. intros Hn. now destruct (Hn n).
Qed.
Lemma fetched_once bs : 0 < bs -> forall os rs evss v v' T done, Forall (op_ok bs) os ->
  io_run bs v os rs evss v' -> zlen (vA v) = T * bs ->
  (forall i, In i done -> 0 <= i < T -> vK v i = true) -> NoDup done ->
  NoDup (done ++ fetched (concat evss)).
Proof.
  intros Hbs os. induction os as [|o os IH]; intros rs evss v v' T done Hok Hr HA Hd Hn;
    inversion Hr as [|? ? r evs v1 ? ? evss' ? Hs Hr']; subst.
  - cbn. now rewrite app_nil_r.
  - inversion Hok as [|? ? Ho Hok']; subst. cbn [concat]. rewrite fetched_app, app_assoc.
    assert (NoDup (fetched evs) /\ (forall i, In i (fetched evs) -> 0 <= i < T /\ vK v i = false) /\
            exists T', zlen (vA v1) = T' * bs /\ (T' <> T -> exists n, o = OResize n /\ succeeded r = true /\ T' = n)) as (Hf & Hf' & T' & HT' & HTn).
    { destruct Hs as [Hs _].
      assert (forall e, r <> RErr e -> array_step bs (vA v) o r (vA v1) -> exists T', zlen (vA v1) = T' * bs /\ (T' <> T -> exists n, o = OResize n /\ succeeded r = true /\ T' = n)) as HL.
      { intros e Hne Ha. destruct (array_step_len bs (vA v) T o r (vA v1) Hbs HA Ho Ha) as (T' & E & E1 & E2).
        exists T'. split; [exact E|]. intros HTT. destruct o; try (exfalso; apply HTT; apply E2; congruence).
        exists n. split; [reflexivity|]. split; [|now apply E1].
        cbn in Ha. destruct Ha as [_ ->]. reflexivity. }
      destruct r as [b| |e].
      - destruct Hs as (Ha & Hb & Ht). destruct (traffic_fetched bs (vA v) T _ _ _ _ _ Hbs HA Ho Hb Ht).
        split; [assumption|]. split; [assumption|]. apply (HL (K ErrBusy)); [discriminate|exact Ha].
      - destruct Hs as (Ha & Hb & Ht). destruct (traffic_fetched bs (vA v) T _ _ _ _ _ Hbs HA Ho Hb Ht).
        split; [assumption|]. split; [assumption|]. apply (HL (K ErrBusy)); [discriminate|exact Ha].
      - destruct Hs as [E Hs]. rewrite E.
        assert (exists T', zlen (vA v) = T' * bs /\ (T' <> T -> exists n, o = OResize n /\ succeeded (RErr e) = true /\ T' = n)) as HX
          by (exists T; split; [exact HA|congruence]).
        destruct Hs as [(_ & _ & ->)|(Hb & Ht)].
        + split; [constructor|]. split; [intros i []|exact HX].
        + destruct (traffic_fetched bs (vA v) T _ _ _ _ _ Hbs HA Ho Hb Ht). auto. }
    destruct Hs as [_ Hkp].
    assert (zlen (vA v) / bs = T) as EA by (rewrite HA; apply Z.div_mul; lia).
    assert (zlen (vA v1) / bs = T') as EA1 by (rewrite HT'; apply Z.div_mul; lia).
    rewrite EA1 in Hkp.
    eapply (IH rs0 evss' v1 v' T' (done ++ fetched evs)); eauto.
    + intros i Hi Hi'. destruct (Hkp i Hi') as [[_ HK] _]. apply HK. rewrite EA.
      apply in_app_or in Hi. destruct Hi as [Hi|Hi].
      * destruct (Z.lt_ge_cases i T) as [Hlt|Hge]; [left; split; [apply Hd; [assumption|lia]|assumption]|].
        right; right. destruct HTn as (n & -> & Hsu & ->); [lia|]. split; [exact Hsu|].
        cbn [created]. rewrite EA. lia.
      * right; left. now apply In_fetched.
    + clear - Hn Hf Hf' Hd. induction done as [|a done IHd]; [exact Hf|].
      inversion Hn as [|? ? Ha Hn']; subst. cbn [app]. constructor.
      * intros Hi. apply in_app_or in Hi. destruct Hi as [Hi|Hi]; [auto|].
        destruct (Hf' a Hi) as [H1 H2]. rewrite (Hd a (or_introl eq_refl) H1) in H2. discriminate.
      * apply IHd; auto. intros; apply Hd; auto. now right.
Qed.

Section R.
Context {S : Type} (cb : callbacks S) (bs : Z) (nb : S -> Z) (blk : S -> Z -> list Z).
Hypothesis H : honest cb bs nb blk.

Lemma concat_blocks (f : Z -> list Z) : forall k, (forall i, 0 <= i < Z.of_nat k -> zlen (f i) = bs) ->
  let C := concat (map (fun k => f (Z.of_nat k)) (seq 0 k)) in
  zlen C = bs * Z.of_nat k /\ forall i, 0 <= i < Z.of_nat k -> slice (i * bs) bs C = f i.
Proof.
  induction k as [|k IH]; intros Hf; [split; [cbn; lia|intros; lia]|].
  destruct IH as [IH1 IH2]; [intros; apply Hf; lia|]. cbn zeta.
  replace (Datatypes.S k) with (k + 1)%nat by lia.
  rewrite seq_app, map_app, concat_app. cbn [seq map concat]. rewrite app_nil_r.
  rewrite Nat.add_0_l. pose proof (Hf (Z.of_nat k) ltac:(lia)) as Hb.
  split; [rewrite zlen_app; lia|]. intros i Hi. pose proof (zlen_nonneg (f (Z.of_nat k))).
  destruct (Z.eq_dec i (Z.of_nat k)) as [->|].
  - rewrite slice_app_r by lia. rewrite IH1. replace (Z.of_nat k * bs - bs * Z.of_nat k) with 0 by lia.
    apply slice_full. lia.
  - rewrite slice_app_l by nia. apply IH2. lia.
Qed.
Lemma wvb_len {Q : Prop} s c i : 0 < bs -> @WInv Q _ bs nb blk s c -> 0 <= i < total c -> zlen (vb bs blk s c i) = bs.
Proof.
  intros Hbs I Hi. unfold vb. pose proof (i_data _ _ _ _ _ I). pose proof (i_total _ _ _ _ _ I).
  destruct (znth false (loaded c) i); [apply zlen_slice; nia|apply (h_len _ _ _ _ H); lia].
Qed.
Lemma wcontent_block_vb {Q : Prop} s c i : @WInv Q _ bs nb blk s c -> content_block blk s c i = vb bs blk s c i.
Proof. intros I. unfold content_block, vb. now rewrite (i_bpb _ _ _ _ _ I). Qed.
Lemma wcontents_spec {Q : Prop} s c : 0 < bs -> @WInv Q _ bs nb blk s c -> represents bs blk (contents blk s c) s c.
Proof.
  intros Hbs I. pose proof (i_total _ _ _ _ _ I). unfold contents.
  destruct (concat_blocks (content_block blk s c) (Z.to_nat (total c))) as [E1 E2].
  { intros i Hi. rewrite (wcontent_block_vb _ _ _ I). apply (wvb_len s c i Hbs I); lia. }
  rewrite Z2Nat.id in E1, E2 by lia. split; [exact E1|]. intros i Hi. rewrite E2 by lia.
  exact (wcontent_block_vb _ _ _ I).
Qed.
Lemma wrep_unique {Q : Prop} A s c : 0 < bs -> @WInv Q _ bs nb blk s c -> represents bs blk A s c -> A = contents blk s c.
Proof.
  intros Hbs I [E1 E2]. destruct (wcontents_spec s c Hbs I) as [F1 F2]. pose proof (i_total _ _ _ _ _ I).
  apply (blocks_eq _ _ bs (total c)); try lia. intros j Hj. rewrite E2, F2 by lia. reflexivity.
Qed.
Lemma contents_spec s c : 0 < bs -> Inv bs nb blk s c -> represents bs blk (contents blk s c) s c.
Proof. apply wcontents_spec. Qed.
Lemma rep_unique A s c : 0 < bs -> Inv bs nb blk s c -> represents bs blk A s c -> A = contents blk s c.
Proof. apply wrep_unique. Qed.
Lemma content_block_vb s c i : Inv bs nb blk s c -> content_block blk s c i = vb bs blk s c i.
Proof. apply wcontent_block_vb. Qed.
Lemma reach_inv s0 total0 s c : reachable cb bs nb s0 total0 s c ->
  0 < bs /\ Inv bs nb blk s c /\ represents bs blk (contents blk s c) s c.
Proof.
  intros (Hbs & Ht & Hf & os & rs & Hok & E). split; [assumption|].
  destruct (exec_refines cb bs nb blk H Hbs os s0 (new_cache bs total0) _ (new_inv bs nb blk Hbs s0 total0 Ht Hf)
      (new_rep cb bs nb blk H Hbs s0 total0 Ht Hf) Hok)
    as (s' & c' & rs' & evss & A' & E' & I' & R' & _). rewrite E in E'. inversion E'; subst.
  split; [assumption|]. exact (contents_spec _ _ Hbs I').
Qed.
(* storage of a clean cache *)
Lemma clean_storage s c : 0 < bs -> Inv bs nb blk s c ->
  (forall i, 0 <= i < total c -> znth false (dirty c) i = false) ->
  storage_bytes blk s (total c) = contents blk s c.
Proof.
  intros Hbs I Hd. pose proof (i_total _ _ _ _ _ I). unfold storage_bytes, contents. f_equal.
  apply map_ext_in. intros k Hk. apply in_seq in Hk. rewrite (content_block_vb _ _ _ I). unfold vb.
  destruct (znth false (loaded c) (Z.of_nat k)) eqn:E; [|reflexivity].
  symmetry. apply (i_clean _ _ _ _ _ I); [exact Logic.I|lia|assumption|apply Hd; lia].
Qed.
Lemma flush_ok_clean s c s' c' : 0 < bs -> Inv bs nb blk s c ->
  flush_all cb s c = Ret (s', c', None) ->
  Inv bs nb blk s' c' /\ total c' = total c /\ contents blk s' c' = contents blk s c /\
  (forall i, 0 <= i < total c -> znth false (dirty c') i = false) /\
  storage_bytes blk s' (total c) = contents blk s c /\ 0 < total c.
Proof.
  intros Hbs I E. pose proof (flush_all_spec cb bs nb blk H Hbs s c I) as L.
  destruct (Z.ltb_spec 0 (total c)); [|rewrite L in E; discriminate].
  destruct L as (s1 & c1 & e & evs & E1 & I1 & Ht & Hv & Hlo & Hda & Hnb & Hac & Hf & Hdi & Hall).
  rewrite E in E1. inversion E1; subst. specialize (Hall eq_refl).
  assert (contents blk s1 c1 = contents blk s c) as EC.
  { symmetry. apply rep_unique; auto. destruct (contents_spec s c Hbs I) as [F1 F2].
    split; [now rewrite Ht|]. intros i Hi. rewrite F2 by lia. symmetry. apply Hv. lia. }
  split; [assumption|]. split; [assumption|]. split; [assumption|]. split; [assumption|].
  split; [|assumption]. rewrite <- EC, <- Ht. apply clean_storage; auto. intros i Hi. apply Hall. lia.
Qed.
(* a clean cache flushes without touching any storage *)
Lemma flush_clean_noop {T} (cb2 : callbacks T) t c s : 0 < bs -> Inv bs nb blk s c -> 0 < total c ->
  (forall i, 0 <= i < total c -> znth false (dirty c) i = false) ->
  flush_all cb2 t c = Ret (t, c, None).
Proof.
  intros Hbs I H0 Hd. unfold flush_all, flush_range.
  pose proof (inv_total_small bs nb blk Hbs _ _ I). pose proof (i_fits _ _ _ _ _ I).
  rewrite (i_bpb _ _ _ _ _ I). rewrite (u64_small (total c * bs)) by nia.
  rewrite (check_bounds_ok bs nb blk Hbs s c 0) by (eauto; nia). rewrite cdiv_mul by assumption.
  rewrite Z.add_0_l, Z.leb_refl, andb_true_r. replace (0 <? total c) with true by lia.
  rewrite u64_small by lia. change (i64 0) with 0.
  assert (forall fuel i, 0 <= i <= total c -> total c - i < Z.of_nat fuel ->
            flush_loop cb2 fuel i (total c) t c = Ret (t, c, None)) as HL.
  { pose proof (inv_bits bs nb blk _ _ I). pose proof (i_dirty _ _ _ _ _ I).
    induction fuel as [|fuel IH]; intros i Hi Hf; [lia|]. cbn [flush_loop].
    rewrite u64_small by lia. destruct (Z.ltb_spec i (total c)); [|reflexivity].
    rewrite bget_ok by lia. rewrite Hd by lia. rewrite i64_small' by lia. apply IH; lia. }
  apply HL; [lia|]. pose proof (fuel_ok bs nb blk s c (total c) I ltac:(lia)). lia.
Qed.
(* flush succeeds when the storage accepts every write *)
Lemma flush_succeeds s c : 0 < bs -> Inv bs nb blk s c -> 0 < total c ->
  (forall s i b, snd (cb_flush cb s i b) = None) ->
  exists s' c', flush_all cb s c = Ret (s', c', None).
Proof.
  intros Hbs I H0 Hok. pose proof (flush_all_spec cb bs nb blk H Hbs s c I) as L.
  replace (0 <? total c) with true in L by lia.
  destruct L as (s1 & c1 & e & evs & E1 & I1 & Ht & Hv & Hlo & Hda & Hnb & Hac & Hf & _).
  destruct e as [e|]; [|eauto]. exfalso. destruct Hf as (l1 & j & l2 & _ & ->).
  clear - Hac Hok. 
  assert (forall evs s s', accesses cb s evs s' -> forall i b, ~ In (EvFlush i b false) evs) as HN.
  { intros evs y y' Ha. induction Ha as [|x i buf x1 buf' e evs x2 E _ IH|x i buf x1 e evs x2 E _ IH|x n x1 e evs x2 E _ IH];
      intros i0 b0 Hin; cbn in Hin; [tauto|..]; destruct Hin as [X|Hin]; try discriminate; try (eapply IH; eassumption).
    inversion X; subst. specialize (Hok x i0 b0). rewrite E in Hok. cbn in Hok. subst. discriminate. }
  eapply HN; [exact Hac|]. apply in_or_app. right. left. reflexivity.
Qed.
Lemma load_succeeds s c : 0 < bs -> Inv bs nb blk s c -> 0 < total c ->
  (forall s i b, snd (cb_fetch cb s i b) = None) ->
  exists s' c', load_all cb s c = Ret (s', c', None).
Proof.
  intros Hbs I H0 Hok. pose proof (load_all_spec cb bs nb blk H Hbs s c I) as L.
  replace (0 <? total c) with true in L by lia.
  destruct L as (s1 & c1 & e & evs & E1 & I1 & Ht & Hv & Hd & Hnb & Hblk & Hac & Hf & _).
  destruct e as [e|]; [|eauto]. exfalso. destruct Hf as (l1 & j & l2 & _ & ->).
  clear - Hac Hok. 
  assert (forall evs s s', accesses cb s evs s' -> forall i, ~ In (EvFetch i false) evs) as HN.
  { intros evs y y' Ha. induction Ha as [|x i buf x1 buf' e evs x2 E _ IH|x i buf x1 e evs x2 E _ IH|x n x1 e evs x2 E _ IH];
      intros i0 Hin; cbn in Hin; [tauto|..]; destruct Hin as [X|Hin]; try discriminate; try (eapply IH; eassumption).
    inversion X; subst. specialize (Hok x i0 buf). rewrite E in Hok. cbn in Hok. subst. discriminate. }
  eapply HN; [exact Hac|]. apply in_or_app. right. left. reflexivity.
Qed.

(** instances *)
Lemma honest_logged : honest (logged cb) bs (fun st => nb (fst st)) (fun st => blk (fst st)).
Proof.
  destruct H as [H1 H2 H3 H4]. constructor.
  - intros [s l]. cbn. apply H1.
  - intros [s l] i buf st' buf' e. cbn. intros Hi Hb. destruct (cb_fetch cb s i buf) as [[s1 b1] e1] eqn:E.
    intros X; inversion X; subst. cbn. eapply H2; eauto.
  - intros [s l] i buf st' e. cbn. intros Hi Hb. destruct (cb_flush cb s i buf) as [s1 e1] eqn:E.
    intros X; inversion X; subst. cbn. eapply H3; eauto.
  - intros [s l] n st' e. cbn. intros Hn Hnb. destruct (cb_resize cb s n) as [s1 e1] eqn:E.
    intros X; inversion X; subst. cbn. eapply H4 in E; eauto.
Qed.
Lemma honest_traced : honest (traced cb) bs (fun st => nb (fst st)) (fun st => blk (fst st)).
Proof.
  destruct H as [H1 H2 H3 H4]. constructor.
  - intros [s l]. cbn. apply H1.
  - intros [s l] i buf st' buf' e. cbn. intros Hi Hb. destruct (cb_fetch cb s i buf) as [[s1 b1] e1] eqn:E.
    intros X; inversion X; subst. cbn. eapply H2; eauto.
  - intros [s l] i buf st' e. cbn. intros Hi Hb. destruct (cb_flush cb s i buf) as [s1 e1] eqn:E.
    intros X; inversion X; subst. cbn. eapply H3; eauto.
  - intros [s l] n st' e. cbn. intros Hn Hnb. destruct (cb_resize cb s n) as [s1 e1] eqn:E.
    intros X; inversion X; subst. cbn. eapply H4 in E; eauto.
Qed.
Lemma logged_log evs st st' : accesses (logged cb) st evs st' -> snd st' = snd st ++ evs.
Proof.
  induction 1 as [|st i buf s1 buf' e evs s2 E _ IH|st i buf s1 e evs s2 E _ IH|st n s1 e evs s2 E _ IH].
  - now rewrite app_nil_r.
  - cbn in E. destruct (cb_fetch cb (fst st) i buf) as [[x y] z]. inversion E; subst.
    rewrite IH. cbn. now rewrite <- app_assoc.
  - cbn in E. destruct (cb_flush cb (fst st) i buf) as [x y]. inversion E; subst.
    rewrite IH. cbn. now rewrite <- app_assoc.
  - cbn in E. destruct (cb_resize cb (fst st) n) as [x y]. inversion E; subst.
    rewrite IH. cbn. now rewrite <- app_assoc.
Qed.
End R.
