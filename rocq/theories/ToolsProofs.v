(** * ToolsProofs: the command line tools and the test helpers (CmdTools). *)
From Verif Require Import GoBase ListZ Errors Rle Spec_Rle RleProofs Image ImageProofs BlockCache BlockCacheProofs BlockCacheProofs2 BlockCacheProofs3 BlockCacheProofs4 Spec_BlockCache Spec_Bounds BoundsProofs CmdTools Spec_Tools.

Lemma open_both_ok e src out h h1 i o : open_both e src out h = (h1, inl (i, o)) ->
  ino h src = Some i /\ may_open e src = true /\ may_create e out = true /\
  only_changes h h1 out o /\ bytes_of h1 o = [] /\ (ino h out = Some o \/ ino h out = None /\ o = new_ino e).
Proof.
  unfold open_both. destruct (ino h src) as [i0|] eqn:Ei; [|discriminate]. destruct (may_open e src); [|discriminate]. destruct (may_create e out); [|discriminate].
  destruct (ino h out) as [o0|] eqn:Eo; intros [= <- <- <-]; unfold only_changes, put, link_path; cbn [ino bytes_of]; rewrite Z.eqb_refl.
  - repeat split; auto. intros j Hj. now destruct (Z.eqb_spec j o0).
  - repeat split; auto.
    + destruct (list_eq_dec Z.eq_dec out out); [reflexivity|contradiction].
    + intros q Hq. destruct (list_eq_dec Z.eq_dec q out); [contradiction|reflexivity].
    + intros j Hj. now destruct (Z.eqb_spec j (new_ino e)).
Qed.
Lemma open_both_code e src out h h1 c : open_both e src out h = (h1, inr c) -> c = 1 /\ h1 = h.
Proof.
  unfold open_both. destruct (ino h src); [|intros [= <- <-]; auto]. destruct (may_open e src); [|intros [= <- <-]; auto]. destruct (may_create e out); [|intros [= <- <-]; auto].
  destruct (ino h out); discriminate.
Qed.
Lemma put_changes h h1 out o b : only_changes h h1 out o -> only_changes h (put h1 o b) out o /\ bytes_of (put h1 o b) o = b.
Proof.
  intros (A & B & C). unfold only_changes, put. cbn [ino bytes_of]. rewrite Z.eqb_refl. repeat split; auto. intros j Hj. destruct (Z.eqb_spec j o); [contradiction|auto].
Qed.
Lemma source_kept h h1 e out o i src : only_changes h h1 out o -> ino h src = Some i -> ino h out <> Some i -> fresh e h ->
  (ino h out = Some o \/ ino h out = None /\ o = new_ino e) -> bytes_of h1 i = bytes_of h i.
Proof. intros (_ & _ & C) Hi Hne Hf Ho. apply C. intros ->. destruct Ho as [Ho|[_ ->]]; [congruence|]. now apply (Hf src). Qed.

Lemma zip_success g e p src out h h' i : zip_main g e [p; src; out] h = Ret (0, h') -> ino h src = Some i -> bytes (bytes_of h i) ->
  ino h out <> Some i -> fresh e h -> close_cut e = None ->
  (forall X, gz_decode g (concat (gz_encode g X)) = Some (mkReader X REOF)) ->
  exists o m, only_changes h h' out o /\ decompress_image g (bytes_of h' o) (mkWriter [] []) = (m, None, mkWriter (bytes_of h i) []).
Proof.
  unfold zip_main. intros E Hi Hb Hne Hf Hc Hg. destruct (open_both e src out h) as [h1 [[i0 o]|c]] eqn:EO.
  2:{ destruct (open_both_code _ _ _ _ _ _ EO) as [-> _]. discriminate. }
  destruct (open_both_ok _ _ _ _ _ _ _ EO) as (Hi0 & _ & _ & HC & _ & Ho). assert (i0 = i) as -> by congruence.
  rewrite (source_kept h h1 e out o i src HC Hi Hne Hf Ho) in E.
  destruct (compress_image g _ _) as [[[n [err|]] w]| |] eqn:EC; try discriminate. injection E as <-.
  destruct (put_changes h h1 out o (closed e (wout w)) HC) as [HC' EB].
  destruct (compress_image_success _ _ _ _ _ _ EC Hb) as (_ & X & (k & Hk) & EW). cbn [wout app] in EW.
  destruct (image_roundtrip g (bytes_of h i) Hb Hg) as (C & n1 & m & EC1 & _ & ED & _).
  unfold compress_image in EC1. rewrite Hk in EC1. cbn [rerr rwriter wout] in EC1. rewrite counted_good in EC1. cbn [app] in EC1. injection EC1 as _ EC1.
  exists o, m. split; [exact HC'|]. rewrite EB. unfold closed. rewrite Hc, EW, EC1. exact ED.
Qed.
Lemma decompress_image_success g X w m w' : decompress_image g X w = (m, None, w') ->
  exists m' full, decompress_image g X (mkWriter [] []) = (m', None, mkWriter full []) /\ wout w' = wout w ++ full.
Proof.
  unfold decompress_image. destruct (gz_decode g X) as [[d t]|]; [|discriminate].
  destruct (decompress_faithful d t w) as (n & full & ferr & E1 & HF). rewrite E1. cbn [rcount rerr rwriter].
  destruct HF as (p & EW & _ & [(u & k & x & _ & _ & ER)|(u & _ & _ & -> & ER & _)]); intros [= _ E2 <-].
  - rewrite ER in E2. discriminate.
  - rewrite ER in E2. destruct ferr; [discriminate|]. do 2 eexists. split; [reflexivity|exact EW].
Qed.
Lemma unzip_success g e p src out h h' i : unzip_main g e [p; src; out] h = (0, h') -> ino h src = Some i ->
  ino h out <> Some i -> fresh e h -> close_cut e = None ->
  exists o m, only_changes h h' out o /\ decompress_image g (bytes_of h i) (mkWriter [] []) = (m, None, mkWriter (bytes_of h' o) []).
Proof.
  unfold unzip_main. intros E Hi Hne Hf Hc. destruct (open_both e src out h) as [h1 [[i0 o]|c]] eqn:EO.
  2:{ destruct (open_both_code _ _ _ _ _ _ EO) as [-> _]. discriminate. }
  destruct (open_both_ok _ _ _ _ _ _ _ EO) as (Hi0 & _ & _ & HC & _ & Ho). assert (i0 = i) as -> by congruence.
  rewrite (source_kept h h1 e out o i src HC Hi Hne Hf Ho) in E.
  destruct (decompress_image g _ _) as [[n [err|]] w] eqn:EC; try discriminate. injection E as <-.
  destruct (put_changes h h1 out o (closed e (wout w)) HC) as [HC' EB].
  destruct (decompress_image_success _ _ _ _ _ EC) as (m & full & ED & EW). cbn [wout app] in EW. exists o, m. split; [exact HC'|].
  rewrite EB. unfold closed. now rewrite Hc, EW.
Qed.
Lemma zip_works g e p src out h i : ino h src = Some i -> bytes (bytes_of h i) -> ino h out <> Some i -> fresh e h ->
  may_open e src = true -> may_create e out = true -> read_end e = REOF -> write_plan e = [] ->
  exists h', zip_main g e [p; src; out] h = Ret (0, h').
Proof.
  intros Hi Hb Hne Hf H1 H2 H3 H4. unfold zip_main, open_both. rewrite Hi, H1, H2, H3, H4.
  destruct (rle8_roundtrip (bytes_of h i) Hb) as (X & Hc & _).
  destruct (ino h out) as [o|] eqn:Eo; unfold compress_image; cbn [put link_path bytes_of];
  (destruct (Z.eqb_spec i (match ino h out with Some o => o | None => new_ino e end)) as [E|E]; rewrite Eo in E;
   [exfalso; try (apply Hne; congruence); apply (Hf src); congruence|]).
  - destruct (Z.eqb_spec i o); [contradiction|]. rewrite Hc. cbn [rerr rwriter wout]. rewrite counted_good. eauto.
  - destruct (Z.eqb_spec i (new_ino e)); [contradiction|]. rewrite Hc. cbn [rerr rwriter wout]. rewrite counted_good. eauto.
Qed.
Lemma unzip_works g e p src out h i m D : ino h src = Some i -> ino h out <> Some i -> fresh e h ->
  may_open e src = true -> may_create e out = true -> write_plan e = [] ->
  decompress_image g (bytes_of h i) (mkWriter [] []) = (m, None, mkWriter D []) ->
  exists h', unzip_main g e [p; src; out] h = (0, h').
Proof.
  intros Hi Hne Hf H1 H2 H4 HD. unfold unzip_main, open_both. rewrite Hi, H1, H2, H4.
  destruct (ino h out) as [o|] eqn:Eo; cbn [put link_path bytes_of];
  (destruct (Z.eqb_spec i (match ino h out with Some o => o | None => new_ino e end)) as [E|E]; rewrite Eo in E;
   [exfalso; try (apply Hne; congruence); apply (Hf src); congruence|]).
  - destruct (Z.eqb_spec i o); [contradiction|]. rewrite HD. eauto.
  - destruct (Z.eqb_spec i (new_ino e)); [contradiction|]. rewrite HD. eauto.
Qed.
Lemma compress_empty g : compress_image g (mkReader [] REOF) (mkWriter [] []) = Ret (fst (fst (counted_writes (gz_encode g []) 0 (mkWriter [] []))), None, mkWriter (concat (gz_encode g [])) []).
Proof. unfold compress_image. change (compress_rle8 (mkReader [] REOF) (mkWriter [] [])) with (Ret (mkRes 0 None (mkWriter [] []))). cbv iota beta. cbn [rerr rwriter wout]. rewrite counted_good. reflexivity. Qed.

(** ** The test cache *)
Section TestCache.
Context (bs T : Z) (wr : bool).
Hypothesis Hbs : 0 < bs < 2^59.
Hypothesis HT0 : 0 <= T.
Hypothesis HT : T * bs < 2^63.
(* the same without alarms for blocks outside *)
Definition quiet_cb : callbacks (list Z * bool) :=
  mkCb (list Z * bool)
    (fun s i b => if i >=? T then (s, b, Some (K ErrIOFailed)) else cb_fetch (test_cb bs T wr) s i b)
    (fun s i b => if i >=? T then (s, Some (K ErrIOFailed)) else cb_flush (test_cb bs T wr) s i b)
    (cb_resize (test_cb bs T wr)).
Lemma test_tracks : tracks (test_cb bs T wr) (fun _ => T).
Proof.
  split; [|split].
  - intros s i b s' b' e. cbn. destruct (i >=? T); intros [= <- <- <-]; (split; [reflexivity|]); [reflexivity|apply zlen_gocopy].
  - reflexivity.
  - intros s n s' e. cbn. now intros [= <- <-].
Qed.
Lemma test_quiet : same_inside (test_cb bs T wr) quiet_cb bs (fun _ => T).
Proof.
  split; [|reflexivity]. intros s i b Hi Hb. cbn. destruct (i >=? T) eqn:E; [lia|]. auto.
Qed.
Definition tnb (s : list Z * bool) : Z := fnb bs T (fst s).
Definition tblk (s : list Z * bool) : Z -> list Z := fblk bs (fst s).
Lemma gocopy_whole (a b : list Z) : zlen a = zlen b -> gocopy a b = b.
Proof.
  intros E. unfold gocopy. rewrite E, Z.min_id. rewrite slice_all. apply splice_whole. lia.
Qed.
Lemma quiet_honest : honest quiet_cb bs tnb tblk.
Proof.
  constructor; unfold tnb, tblk.
  - intros [f a] i Hi. cbn [fst] in *. destruct (fnb_in _ _ _ _ (proj1 Hbs) Hi). unfold fblk. apply zlen_slice; nia.
  - intros [f a] i buf s' buf' e Hi Hb E. cbn [fst] in *. destruct (fnb_in _ _ _ _ (proj1 Hbs) Hi) as [A B]. unfold quiet_cb, test_cb in E; cbn [cb_fetch cb_flush cb_resize fst snd] in E. destruct (i >=? T) eqn:E1; [lia|].
    injection E as <- <- <-. assert (zlen (slice (i * bs) bs f) = bs) as EL by (apply zlen_slice; nia). cbn [fst]. split; [reflexivity|]. split; [reflexivity|].
    split; [rewrite zlen_gocopy; exact Hb|]. intros _. unfold fblk. apply gocopy_whole. lia.
  - intros [f a] i buf s' e Hi Hb E. cbn [fst] in *. destruct (fnb_in _ _ _ _ (proj1 Hbs) Hi) as [A B]. unfold quiet_cb, test_cb in E; cbn [cb_fetch cb_flush cb_resize fst snd] in E. destruct (i >=? T) eqn:E1; [lia|].
    destruct wr; injection E as <- <-; cbn [fst]; [|split; [reflexivity|]; split; [reflexivity|discriminate]].
    rewrite Hb, Z.min_id. rewrite <- Hb, slice_all. rewrite Hb.
    assert (zlen (splice (i * bs) buf f) = zlen f) as El by (apply zlen_splice; nia). split; [unfold fnb; now rewrite El|]. split.
    + intros j Hj Hne. destruct (fnb_in _ _ _ _ (proj1 Hbs) Hj). unfold fblk. apply slice_splice_disj; nia.
    + intros _. unfold fblk. rewrite <- Hb at 2. apply slice_splice_same; nia.
  - intros s n s' e Hn _ E. cbn in E. injection E as <- <-. auto.
Qed.
Lemma quiet_alarm evs s s' : accesses quiet_cb s evs s' -> wr = true \/ (forall i b ok, ~ In (EvFlush i b ok) evs) -> snd s' = snd s.
Proof.
  induction 1 as [s|s i buf s1 buf' e evs s2 E _ IH|s i buf s1 e evs s2 E _ IH|s n s1 e evs s2 E _ IH]; intros Hw; [reflexivity| | |].
  - rewrite IH by (destruct Hw as [Hw|Hw]; [auto|right; intros j b ok X; apply (Hw j b ok); now right]). unfold quiet_cb, test_cb in E; cbn [cb_fetch cb_flush cb_resize fst snd] in E. destruct (i >=? T); injection E as <- <- <-; reflexivity.
  - rewrite IH by (destruct Hw as [Hw|Hw]; [auto|right; intros j b ok X; apply (Hw j b ok); now right]). destruct Hw as [Hw|Hw]; [|exfalso; eapply Hw; left; reflexivity].
    cbn in E. rewrite Hw in E. destruct (i >=? T); injection E as <- <-; reflexivity.
  - rewrite IH by (destruct Hw as [Hw|Hw]; [auto|right; intros j b ok X; apply (Hw j b ok); now right]). cbn in E. injection E as <- <-. reflexivity.
Qed.
End TestCache.
Lemma in_zrange_bounds i a b : In i (zrange a b) -> a <= i < b.
Proof. unfold zrange. intros H. apply in_map_iff in H as (k & <- & H). apply in_seq in H. lia. Qed.
Lemma fetches_no_flush K l ok evs : fetches K l ok evs -> forall i b ok', ~ In (EvFlush i b ok') evs.
Proof.
  unfold fetches. destruct ok; [intros ->|intros (l1 & j & l2 & _ & ->)]; intros i b ok' H.
  - apply in_map_iff in H as (k & [=] & _).
  - apply in_app_iff in H as [H|[[=]|[]]]. apply in_map_iff in H as (k & [=] & _).
Qed.
Lemma reading_no_flush bs v os rs evss v' : io_run bs v os rs evss v' -> Forall reading os ->
  (forall i, 0 <= i < zlen (vA v) / bs -> vP v i = false) -> forall i b ok, ~ In (EvFlush i b ok) (concat evss).
Proof.
  induction 1 as [v|v o r evs v1 os rs evss v2 Hs _ IH]; intros Hf HP i b ok Hin; [exact Hin|].
  inversion Hf as [|? ? Hr Hf']; subst. destruct Hs as [Hs Hk].
  assert (vA v1 = vA v) as EA by (destruct r; [destruct Hs as (Hs & _)|destruct Hs as (Hs & _)|exact (proj1 Hs)]; destruct o; try contradiction; apply Hs).
  assert (forall i b ok, ~ In (EvFlush i b ok) evs) as Hno.
  { assert (evs = [] \/ exists ok, traffic bs (vA v) (vK v) (vP v) o ok evs) as [->|[ok1 Ht]].
    { destruct r; [right; exists true; apply Hs|right; exists true; apply Hs|]. destruct Hs as [_ [(_ & _ & ->)|[_ Ht]]]; [auto|right; eauto]. }
    { intros ? ? ? []. }
    destruct o; try contradiction; cbn [traffic] in Ht; try (exact (fetches_no_flush _ _ _ _ Ht)).
    assert (filter (vP v) (zrange 0 (zlen (vA v) / bs)) = []) as EN.
    { assert (forall l, (forall x, In x l -> vP v x = false) -> filter (vP v) l = []) as HX.
      { induction l as [|x l IHl]; intros Hx; [reflexivity|]. cbn [filter]. rewrite (Hx x) by now left. apply IHl. intros y Hy. apply Hx. now right. }
      apply HX. intros x Hx. apply HP. exact (in_zrange_bounds _ _ _ Hx). }
    unfold flushes in Ht. rewrite EN in Ht. destruct ok1; [rewrite Ht; intros ? ? ? []|]. destruct Ht as (l1 & j & l2 & X & _). destruct l1; discriminate. }
  cbn [concat] in Hin. apply in_app_iff in Hin as [Hin|Hin]; [exact (Hno _ _ _ Hin)|]. refine (IH Hf' _ i b ok Hin).
  intros j Hj. rewrite EA in Hj. destruct (vP v1 j) eqn:EP; [|reflexivity]. exfalso. apply (proj2 (Hk j ltac:(rewrite EA; lia))) in EP. destruct EP as [(EP & _)|(_ & EP)].
  - rewrite HP in EP by lia. discriminate.
  - destruct o; try contradiction; exact EP.
Qed.
Lemma test_run bs T wr b os : 0 < bs < 2^59 -> 0 <= T -> T * bs < 2^63 -> T * bs <= zlen b -> Forall (op_ok bs) os -> wr = true \/ Forall reading os ->
  exists b' c' rs A', exec (test_cb bs T wr) (b, false) (new_cache bs T) os = Ret ((b', false), c', rs) /\
    array_run bs (slice 0 (T * bs) b) os rs A'.
Proof.
  intros Hbs HT0 HT Hl Hok Hw. assert (fnb bs T b = T) as EN by (unfold fnb; assert (T <= zlen b / bs) by (apply Z.div_le_lower_bound; lia); lia).
  assert (0 <= T <= tnb bs T (b, false)) as HN by (unfold tnb; cbn [fst]; lia).
  pose proof (quiet_honest bs T wr Hbs HT0) as HQ.
  destruct (exec_refines (quiet_cb bs T wr) bs (tnb bs T) (tblk bs) HQ ltac:(lia) os (b, false) (new_cache bs T) _
    (new_inv bs (tnb bs T) (tblk bs) ltac:(lia) (b, false) T HN ltac:(lia)) (new_rep (quiet_cb bs T wr) bs (tnb bs T) (tblk bs) HQ ltac:(lia) (b, false) T HN ltac:(lia)) Hok)
    as ([b' a'] & c' & rs & evss & A' & E & _ & _ & Hac & Hio).
  assert (exec (test_cb bs T wr) (b, false) (new_cache bs T) os = exec (quiet_cb bs T wr) (b, false) (new_cache bs T) os) as ->.
  { apply (exec_same (test_cb bs T wr) (quiet_cb bs T wr) bs (fun _ => T) Hbs (test_tracks bs T wr) (test_quiet bs T wr)).
    - apply (new_shape bs (fun _ : list Z * bool => T) Hbs); auto; lia.
    - eapply Forall_impl; [|exact Hok]. intros [] Ho; cbn in *; try assumption. destruct Ho as (A & B & C). split; [exact A|]. split; [exact B|]. assert (count * 1 <= count * bs) by (apply Z.mul_le_mono_nonneg_l; lia). lia. }
  assert (snd (b', a') = snd (b, false)) as EA.
  { apply (quiet_alarm bs T wr _ _ _ Hac). destruct Hw as [Hw|Hw]; [now left|right]. apply (reading_no_flush _ _ _ _ _ _ Hio Hw). intros i Hi. cbn [viewof vP]. apply bitmap_new_false. }
  cbn [snd] in EA. subst a'. exists b', c', rs, A'. split; [exact E|]. pose proof (io_run_array _ _ _ _ _ _ Hio) as HR. cbn [viewof vA] in HR.
  assert (storage_bytes (tblk bs) (b, false) T = slice 0 (T * bs) b) as <-; [|exact HR].
  change (storage_bytes (tblk bs) (b, false) T) with (storage_bytes (fblk bs) b T). apply storage_bytes_file; lia.
Qed.
