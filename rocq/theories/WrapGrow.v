(** * WrapGrow: a resizable WrapStream cache through every history, including growth beyond
    the size at creation (C27). *)
From Verif Require Import GoBase ListZ Errors BlockCache Spec_BlockCache BlockCacheProofs BlockCacheProofs2 BlockCacheProofs3 BlockCacheProofs4.

Section Grow.
Variables (bs total0 : Z).
Hypothesis Hbs : 0 < bs.
Hypothesis Ht0 : 0 <= total0.
Let cb := wrap_stream_cb bs total0 true true.
Definition flen (f : list Z) : Z := zlen f / bs.

Lemma flen_in f i : 0 <= i < flen f -> 0 <= i * bs /\ i * bs + bs <= zlen f.
Proof. unfold flen. intros Hi. pose proof (Z.mul_div_le (zlen f) bs Hbs). nia. Qed.
(* growth keeps the contract: the flush callback just fails for the new blocks *)
Lemma honest_grow : honest cb bs flen (fblk bs).
Proof.
  constructor.
  - intros f i Hi. destruct (flen_in f i Hi). unfold fblk. apply zlen_slice; nia.
  - intros f i buf f' buf' e Hi Hbuf E. destruct (flen_in f i Hi) as [Hi1 Hi2]. unfold cb, wrap_stream_cb in E; cbn [cb_fetch] in E.
    destruct (i >=? total0); injection E as <- <- <-; (split; [reflexivity|]); (split; [reflexivity|]).
    + split; [exact Hbuf|discriminate].
    + rewrite file_read_exact by lia. split; [unfold fblk; apply zlen_slice; nia|reflexivity].
  - intros f i buf f' e Hi Hbuf E. destruct (flen_in f i Hi) as [Hi1 Hi2]. unfold cb, wrap_stream_cb in E; cbn [cb_flush] in E.
    destruct (i >=? total0); injection E as <- <-; [split; [reflexivity|]; split; [reflexivity|discriminate]|].
    rewrite file_write_in by nia.
    assert (zlen (splice (i * bs) buf f) = zlen f) as El by (apply zlen_splice; nia).
    split; [unfold flen; now rewrite El|]. split.
    + intros j Hj Hne. destruct (flen_in f j Hj). unfold fblk. apply slice_splice_disj; nia.
    + intros _. unfold fblk. rewrite <- Hbuf at 2. apply slice_splice_same; nia.
  - intros f n f' e Hn _ E. cbn in E. injection E as <- <-. unfold flen at 1. rewrite zlen_truncate by nia.
    rewrite Z.div_mul by lia. split; [lia|]. intros j Hj Hjf.
    destruct (flen_in f j (conj (proj1 Hj) Hjf)). unfold fblk, file_truncate.
    rewrite slice_app_l by (try rewrite zlen_slice_min; nia). rewrite slice_slice by nia. f_equal.
Qed.

Lemma grow_io evs f f' : accesses cb f evs f' ->
  (forall ev, In ev evs -> match ev with
     | EvFetch _ _ => True
     | EvFlush i b _ => 0 <= i /\ zlen b = bs /\ i * bs + bs <= zlen f
     | EvResize _ _ => False end) ->
  zlen f' = zlen f.
Proof.
  induction 1 as [|f i buf s1 buf' e evs s2 E _ IH|f i buf s1 e evs s2 E _ IH|f n s1 e evs s2 E _ IH]; intros Hev; [reflexivity|..].
  - assert (s1 = f) as -> by (unfold cb, wrap_stream_cb in E; cbn [cb_fetch] in E; destruct (i >=? total0); inversion E; reflexivity).
    apply IH. intros ev Hin; apply Hev; now right.
  - destruct (Hev _ (or_introl eq_refl)) as (Hi & Hb & Hin).
    assert (zlen s1 = zlen f) as El.
    { unfold cb, wrap_stream_cb in E. cbn [cb_flush] in E. destruct (i >=? total0); [inversion E; reflexivity|].
      injection E as E1 E2. rewrite file_write_in in E1 by nia. subst s1. apply zlen_splice; nia. }
    rewrite <- El. apply IH. rewrite El. intros ev Hin'; apply Hev; now right.
  - destruct (Hev _ (or_introl eq_refl)).
Qed.
(* what the flush callback says about a block depends on its number only *)
Lemma flush_says evs f f' : accesses cb f evs f' -> forall i b ok, In (EvFlush i b ok) evs -> ok = (i <? total0).
Proof.
  induction 1 as [|f i buf s1 buf' e evs s2 E _ IH|f i buf s1 e evs s2 E _ IH|f n s1 e evs s2 E _ IH];
    intros i0 b0 ok Hin; cbn in Hin; [tauto|..]; destruct Hin as [X|Hin]; try discriminate; try (eapply IH; eassumption).
  inversion X; subst. unfold cb, wrap_stream_cb in E. cbn [cb_flush] in E.
  destruct (i0 >=? total0) eqn:Ei; inversion E; subst; cbn [okb]; lia.
Qed.

(* the blocks beyond the size at creation are always waiting to be written *)
Definition waiting (c : cache) : Prop := forall i, total0 <= i < total c -> znth false (dirty c) i = true.

Lemma grow_step f c A o f1 c1 r evs A1 : Inv bs flen (fblk bs) f c -> Inv bs flen (fblk bs) f1 c1 ->
  represents bs (fblk bs) A f c -> represents bs (fblk bs) A1 f1 c1 -> op_ok bs o ->
  accesses cb f evs f1 -> io_step bs (viewof A c) o r evs (viewof A1 c1) ->
  zlen f = zlen A -> waiting c -> zlen f1 = zlen A1 /\ waiting c1.
Proof.
  intros I I1 R R1 Ho Hac Hio Hl HW. pose proof R as [RA _]. pose proof R1 as [RA1 _].
  pose proof (i_total _ _ _ _ _ I) as Htot. pose proof (i_total _ _ _ _ _ I1) as Htot1.
  assert (zlen A = total c * bs) as RA' by lia.
  assert (zlen A / bs = total c) as HT by (rewrite RA'; apply Z.div_mul; lia).
  assert (zlen A1 / bs = total c1) as HT1 by (rewrite RA1, Z.mul_comm; apply Z.div_mul; lia).
  pose proof (io_step_events bs (total c) (viewof A c) o r evs (viewof A1 c1) Hbs ltac:(lia) RA' Hio) as Hev.
  assert ((forall n, o <> OResize n) -> zlen f1 = zlen f) as Hnr.
  { intros Hno. apply (grow_io evs f f1 Hac). intros ev Hin. specialize (Hev ev Hin). destruct ev; auto.
    - destruct Hev as (Hi & Hb & _). split; [lia|]. split; [exact Hb|]. nia.
    - destruct Hev as [-> _]. now destruct (Hno n). }
  destruct Hio as [Hio HKP]. cbn [viewof vA vK vP] in *.
  assert ((forall n, o <> OResize n) -> zlen A1 = zlen A) as HnA.
  { intros Hno. destruct r as [b| |e'].
    - destruct Hio as (Ha & _). destruct (array_step_len bs A (total c) _ _ _ Hbs RA' Ho Ha) as (T' & E & _ & ET). rewrite E, ET by assumption. lia.
    - destruct Hio as (Ha & _). destruct (array_step_len bs A (total c) _ _ _ Hbs RA' Ho Ha) as (T' & E & _ & ET). rewrite E, ET by assumption. lia.
    - destruct Hio as [-> _]. reflexivity. }
  assert (forall b i, total0 <= i -> ~ In (EvFlush i b true) evs) as HNF.
  { intros b i Hi Hin. pose proof (flush_says evs f f1 Hac i b true Hin). lia. }
  assert ((exists n, o = OResize n) \/ (forall n, o <> OResize n)) as [[n ->]|Hno].
  { destruct o; try (right; intros; discriminate). left. eauto. }
  - cbn [op_ok] in Ho. destruct Ho as [Hn _]. destruct r as [b| |e'].
    + destruct Hio as ((_ & ?) & _). discriminate.
    + destruct Hio as ((-> & _) & _ & Ht). cbn [traffic] in Ht. subst evs.
      inversion Hac as [| | |? ? s1 e ? ? E Hac' X1 X2]; subst. inversion Hac'; subst.
      cbn in E. injection E as <- _. fold (file_truncate A (n * bs)) in *. rewrite !zlen_truncate in * by nia.
      split; [reflexivity|]. assert (total c1 = n) as Hn1 by nia. intros i Hi. rewrite HT1 in HKP.
      apply (HKP i ltac:(lia)). cbn [modified created]. rewrite HT.
      destruct (Z_lt_le_dec i (total c)) as [L|G]; [left|right; split; [reflexivity|lia]].
      split; [apply HW; lia|]. split; [exact L|]. intros [b [X|[]]]. discriminate.
    + exfalso. destruct Hio as (_ & [(Hb & _)|[_ Ht]]); [now apply Hb|]. cbn [traffic] in Ht. subst evs.
      inversion Hac as [| | |? ? s1 e ? ? E Hac' X1 X2]; subst. cbn in E. injection E as <- <-. discriminate.
  - rewrite Hnr, HnA by exact Hno. split; [exact Hl|]. assert (total c1 = total c) as HTT by (rewrite <- HT1, <- HT, HnA by exact Hno; reflexivity).
    intros i Hi. apply (HKP i ltac:(lia)). left. split; [apply HW; lia|]. split; [lia|]. intros [b Hin]. eapply HNF; [|exact Hin]. lia.
Qed.
Lemma grow_exec : forall os f c A, Inv bs flen (fblk bs) f c -> represents bs (fblk bs) A f c -> Forall (op_ok bs) os ->
  zlen f = zlen A -> waiting c ->
  exists f' c' rs A', exec cb f c os = Ret (f', c', rs) /\ Inv bs flen (fblk bs) f' c' /\
    represents bs (fblk bs) A' f' c' /\ array_run bs A os rs A' /\ zlen f' = zlen A' /\ waiting c'.
Proof.
  induction os as [|o os IH]; intros f c A I R Hok Hl HW.
  - exists f, c, [], A. split; [reflexivity|]. split; [assumption|]. split; [assumption|]. split; [constructor|]. split; assumption.
  - inversion Hok as [|? ? Ho Hok']; subst.
    destruct (step_all cb bs _ _ honest_grow Hbs f c A o I R Ho) as (f1 & c1 & r & evs & A1 & E1 & I1 & R1 & Hac & Hio).
    destruct (grow_step f c A o f1 c1 r evs A1 I I1 R R1 Ho Hac Hio Hl HW) as [Hl1 HW1].
    assert (array_run bs A [o] [r] A1) as HA1.
    { apply (io_run_array bs (viewof A c) [o] [r] [evs] (viewof A1 c1)). econstructor; [exact Hio|constructor]. }
    destruct (IH f1 c1 A1 I1 R1 Hok' Hl1 HW1) as (f2 & c2 & rs & A2 & E2 & I2 & R2 & HR & Hl2 & HW2).
    exists f2, c2, (r :: rs), A2. cbn [exec]. rewrite E1, E2.
    split; [reflexivity|]. split; [assumption|]. split; [assumption|]. split; [|auto].
    inversion HA1 as [|? ? ? B ? ? ? Hne Hst Hn|? ? ? ? ? ? Hn]; subst; inversion Hn; subst.
    + econstructor; eauto.
    + constructor. exact HR.
Qed.
(* FlushAll succeeds exactly when the cache is not empty and not larger than at creation *)
Lemma grow_flush f c A : Inv bs flen (fblk bs) f c -> represents bs (fblk bs) A f c -> zlen f = zlen A -> waiting c ->
  if (0 <? total c) && (total c <=? total0) then exists c2, flush_all cb f c = Ret (A, c2, None)
  else exists f2 c2 e, flush_all cb f c = Ret (f2, c2, Some e) /\ zlen f2 = zlen f.
Proof.
  intros I R Hl HW. pose proof R as [RA _]. pose proof (i_total _ _ _ _ _ I) as Htot.
  assert (zlen A = total c * bs) as RA' by lia.
  assert (zlen A / bs = total c) as HT by (rewrite RA'; apply Z.div_mul; lia).
  destruct (step_all cb bs _ _ honest_grow Hbs f c A OFlush I R Logic.I) as (f1 & c1 & r & evs & A1 & E1 & I1 & R1 & Hac & Hio).
  destruct (grow_step f c A OFlush f1 c1 r evs A1 I I1 R R1 Logic.I Hac Hio Hl HW) as [Hl1 _].
  cbn [exec_op] in E1. destruct (flush_all cb f c) as [[[f2 c2] e]| |] eqn:EF; try discriminate. injection E1 as -> -> <-.
  pose proof (flush_says evs f f1 Hac) as HS. destruct Hio as [Hio _]. cbn [viewof vA vK vP] in Hio.
  destruct e as [e|]; cbn [err_res] in Hio.
  - destruct Hio as (EA & Hio). subst A1.
    destruct ((0 <? total c) && (total c <=? total0)) eqn:EC; [exfalso|do 3 eexists; split; [reflexivity|lia]].
    destruct Hio as [(Hb & _)|(Hb & Ht)]; [apply Hb; cbn [op_in_bounds]; nia|].
    cbn [traffic] in Ht. rewrite HT in Ht. destruct Ht as (l1 & j & l2 & En & ->).
    assert (0 <= j < total c) as Hj.
    { assert (In j (filter (fun i => znth false (dirty c) i) (zrange 0 (total c)))) as Hin by (rewrite En; apply in_or_app; right; now left).
      apply filter_In in Hin. destruct Hin as [Hin _]. apply In_zrange in Hin. lia. }
    pose proof (HS j _ false ltac:(apply in_or_app; right; left; reflexivity)). lia.
  - destruct Hio as ((EA & _) & Hb & Ht). subst A1. cbn [op_in_bounds] in Hb. cbn [traffic] in Ht. rewrite HT in Ht.
    assert (total c <= total0) as Hle.
    { destruct (Z_lt_le_dec total0 (total c)) as [L|]; [exfalso|assumption].
      assert (In total0 (filter (fun i => znth false (dirty c) i) (zrange 0 (total c)))) as Hin.
      { apply filter_In. split; [apply In_zrange; lia|apply HW; lia]. }
      assert (In (EvFlush total0 (slice (total0 * bs) bs A) true) evs) as Hi.
      { cbn in Ht. subst evs. apply in_map_iff. eexists. split; [reflexivity|exact Hin]. }
      pose proof (HS _ _ _ Hi). lia. }
    replace ((0 <? total c) && (total c <=? total0)) with true by nia.
    exists c1. f_equal. f_equal. f_equal.
    destruct (flush_ok_clean cb bs _ _ honest_grow f c f1 c1 Hbs I EF) as (_ & _ & _ & _ & ES & _).
    rewrite <- (rep_unique cb bs _ _ honest_grow A f c Hbs I R) in ES.
    rewrite storage_bytes_file in ES by (auto; nia). rewrite <- ES. symmetry. apply slice_full. lia.
Qed.
End Grow.
