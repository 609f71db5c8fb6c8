(** * SlicesProofs: slices are windows *)
From Verif Require Import GoBase ListZ Errors BlockCache Spec_BlockCache BlockCacheProofs BlockCacheProofs2 BlockCacheProofs3 Spec_Shared SharedProofs CacheSlices Spec_Slices.

Section Sl.
Context {T : Type} (cb : callbacks T) (bs : Z) (nb : T -> Z) (blk : T -> Z -> list Z).
Hypothesis H : honest cb bs nb blk.
Hypothesis Hbs : 0 < bs.
Notation bit l i := (znth false l i).
Notation WI := (@WInv False _ bs nb blk).

(** ** flushed blocks *)
Lemma flush_last evs s s' i b : accesses cb s evs s' -> (forall ev, In ev evs -> exists i b ok, ev = EvFlush i b ok /\ 0 <= i < nb s /\ zlen b = bs) ->
  (forall x y, In (EvFlush i x true) evs -> In (EvFlush i y false) evs -> False) -> (forall x, In (EvFlush i x true) evs -> x = b) ->
  In (EvFlush i b true) evs -> blk s' i = b.
Proof.
  intros Hac Hev Hno Hsame Hin.
  assert (forall s1 evs1, accesses cb s1 evs1 s' -> nb s1 = nb s -> (forall ev, In ev evs1 -> In ev evs) -> 0 <= i < nb s -> blk s1 i = b \/ In (EvFlush i b true) evs1 -> blk s' i = b) as G.
  { clear Hac. induction 1 as [u|u j buf u1 buf' e evs1 u2 E Hac IH|u j buf u1 e evs1 u2 E Hac IH|u m u1 e evs1 u2 E Hac IH]; intros Hn Hsub Hi Hor.
    - destruct Hor as [?|[]]. assumption.
    - destruct (Hev _ (Hsub _ (or_introl eq_refl))) as (? & ? & ? & ? & _). discriminate.
    - destruct (Hev _ (Hsub _ (or_introl eq_refl))) as (j' & b' & ok & Eq & Hj & Hb). injection Eq as <- <- _. destruct (h_flush _ _ _ _ H _ _ _ _ _ ltac:(rewrite Hn; exact Hj) Hb E) as (E1 & E2 & E3).
      apply IH; [lia|intros ev ?; apply Hsub; now right|exact Hi|].
      destruct (Z.eq_dec j i) as [->|Hne].
      + left. destruct e as [e|].
        * exfalso. apply (Hno b buf Hin). apply Hsub. now left.
        * rewrite (E3 eq_refl). apply Hsame. apply Hsub. now left.
      + destruct Hor as [Eb|[Eq|Hr]]; [left; rewrite E2; [exact Eb|lia|congruence]|injection Eq as -> ?; contradiction|right; exact Hr].
    - destruct (Hev _ (Hsub _ (or_introl eq_refl))) as (? & ? & ? & ? & _). discriminate. }
  destruct (Hev _ Hin) as (i' & b' & ok & Eq & Hi & _). injection Eq as <- _ _. apply (G s evs Hac); auto.
Qed.
Lemma flushes_once A P l ok evs i x y : NoDup l -> flushes bs A P l ok evs -> In (EvFlush i x true) evs -> In (EvFlush i y false) evs -> False.
Proof.
  intros ND. unfold flushes. destruct ok.
  - intros -> _ Hin. apply in_map_iff in Hin as (? & ? & _). discriminate.
  - intros (l1 & j & l2 & E & ->) H1 H2. assert (NoDup (l1 ++ j :: l2)) as ND2 by (rewrite <- E; now apply NoDup_filter).
    assert (i = j) as ->. { apply in_app_or in H2 as [H2|[H2|[]]]; [apply in_map_iff in H2 as (? & ? & _); discriminate|congruence]. }
    apply in_app_or in H1 as [H1|[H1|[]]]; [|discriminate]. apply in_map_iff in H1 as (k & Ek & Hk). injection Ek as -> _. apply NoDup_remove_2 in ND2. apply ND2. apply in_or_app. now left.
Qed.
Lemma flush_wrote A P s s' c c' r evs i b : WI s c -> represents bs blk A s c -> accesses cb s evs s' -> io_step bs (viewof A c) OFlush r evs (viewof A c') -> P = (fun j => bit (dirty c) j) ->
  In (EvFlush i b true) evs -> 0 <= i < total c /\ b = slice (i * bs) bs A /\ blk s' i = b.
Proof.
  intros I R Hac [Hio _] -> Hin. cbn [viewof vA vK vP traffic array_step] in Hio. pose proof (i_total _ _ _ _ _ I) as Ht. pose proof (rep_total bs blk Hbs A s c R) as RT. destruct R as [RL _].
  assert (exists ok, flushes bs A (fun j => bit (dirty c) j) (zrange 0 (total c)) ok evs) as [ok HF].
  { rewrite <- RT. destruct r as [x| |e]; [exists true; apply Hio|exists true; apply Hio|]. destruct Hio as (_ & [(_ & _ & ->)|[_ HF]]); [destruct Hin|eauto]. }
  destruct (flushes_pending bs A _ _ _ _ HF _ Hin) as (i' & ok' & Eq & Hi & _). injection Eq as <- -> _. apply In_zrange in Hi. split; [exact Hi|]. split; [reflexivity|].
  apply (flush_last evs s s' i _ Hac); [| | |exact Hin].
  - intros ev Hev. destruct (flushes_pending bs A _ _ _ _ HF _ Hev) as (j & ok2 & -> & Hj & _). apply In_zrange in Hj. exists j, (slice (j * bs) bs A), ok2. split; [reflexivity|]. split; [lia|]. apply zlen_slice; nia.
  - intros x y. eapply flushes_once; [apply NoDup_zrange|exact HF].
  - intros x Hx. destruct (flushes_pending bs A _ _ _ _ HF _ Hx) as (j & ok2 & Eq & _). injection Eq as -> -> _. reflexivity.
Qed.

(** ** the invariant *)
Definition covers (c : cache) (h : handle) : Prop :=
  exists lo k, h_off h = lo * bs /\ h_len h = k * bs /\ 0 <= lo /\ 0 <= k /\ lo + k <= total c /\ forall i, lo <= i < lo + k -> bit (loaded c) i = true.
Record SI (t : T) (m : mem) (hs : list handle) (w : windows) : Prop := {
  si_hs : w_handles w = hs;
  si_cur : m_cur m = current w;
  si_inv : WI t (m_cache m);
  si_rep : represents bs blk (w_now w) t (m_cache m);
  si_clean : forall i, 0 <= i < total (m_cache m) -> bit (dirty (m_cache m)) i = false -> ~ w_unmarked w i -> slice (i * bs) bs (w_now w) = blk t i;
  si_le : forall h, In h hs -> (h_arr h <= m_cur m)%nat;
  si_now : forall h, In h hs -> h_arr h = m_cur m -> covers (m_cache m) h;
  si_old : forall h, In h hs -> (h_arr h < m_cur m)%nat ->
     let X := m_old m (h_arr h) in let Y := nth (h_arr h) (w_retired w) [] in
     0 <= h_off h /\ 0 <= h_len h /\ zlen X = zlen Y /\ h_off h + h_len h <= zlen X /\ slice (h_off h) (h_len h) X = slice (h_off h) (h_len h) Y
}.
Lemma now_slice t c A h : WI t c -> represents bs blk A t c -> covers c h ->
  0 <= h_off h /\ 0 <= h_len h /\ zlen (data c) = zlen A /\ h_off h + h_len h <= zlen A /\ slice (h_off h) (h_len h) (data c) = slice (h_off h) (h_len h) A.
Proof.
  intros I [RL RB] (lo & k & -> & -> & H1 & H2 & H3 & HL). pose proof (i_data _ _ _ _ _ I) as D. split; [nia|]. split; [nia|]. split; [lia|]. split; [nia|].
  symmetry. apply blocks_eq_range; auto. intros j Hj. rewrite RB by lia. unfold vb. now rewrite HL.
Qed.
Lemma cur_array t m hs w : SI t m hs w -> array_of m (m_cur m) = data (m_cache m).
Proof. intros _. unfold array_of. now rewrite Nat.eqb_refl. Qed.
Lemma old_array m a : (a < m_cur m)%nat -> array_of m a = m_old m a.
Proof. intros Ha. unfold array_of. destruct (Nat.eqb_spec a (m_cur m)); [lia|reflexivity]. Qed.
Lemma w_cur w : w_array w (current w) = w_now w.
Proof. unfold w_array, current. rewrite app_nth2 by lia. now rewrite Nat.sub_diag. Qed.
Lemma w_old w a : (a < current w)%nat -> w_array w a = nth a (w_retired w) [].
Proof. unfold w_array, current. intros Ha. now apply app_nth1. Qed.
Lemma h_slice t m hs w h : SI t m hs w -> In h hs ->
  0 <= h_off h /\ 0 <= h_len h /\ h_off h + h_len h <= zlen (array_of m (h_arr h)) /\ zlen (array_of m (h_arr h)) = zlen (w_array w (h_arr h)) /\
  slice (h_off h) (h_len h) (array_of m (h_arr h)) = slice (h_off h) (h_len h) (w_array w (h_arr h)).
Proof.
  intros G Hin. pose proof (si_le _ _ _ _ G h Hin) as Hle. destruct (Nat.eq_dec (h_arr h) (m_cur m)) as [E|E].
  - pose proof (now_slice t _ _ h (si_inv _ _ _ _ G) (si_rep _ _ _ _ G) (si_now _ _ _ _ G h Hin E)) as (A & B & C & D & F). rewrite E. rewrite (cur_array _ _ _ _ G). rewrite (si_cur _ _ _ _ G), w_cur. intuition lia.
  - assert (h_arr h < m_cur m)%nat as Hlt by lia. destruct (si_old _ _ _ _ G h Hin Hlt) as (A & B & C & D & F). rewrite old_array by exact Hlt. rewrite w_old by (rewrite <- (si_cur _ _ _ _ G); exact Hlt). intuition lia.
Qed.

(** ** single operations *)
Lemma unchanged A n o r A' i : zlen A = bs * n -> 0 <= n -> op_ok bs o -> (forall m, o <> OResize m) -> array_step bs A o r A' -> 0 <= i < n -> ~ modified bs A o i -> slice (i * bs) bs A' = slice (i * bs) bs A.
Proof.
  intros LA Hn Ho Hr HS Hi Hm. destruct (array_agree bs Hbs n A A o r A' LA LA Hn Ho Hr (fun _ _ _ => eq_refl) HS) as (A2 & HS2 & _ & _ & HU).
  assert (A2 = A') as <-. { destruct o; cbn [array_step] in *; intuition congruence. } apply HU; [exact Hi|]. intros Hc. apply Hm. destruct o; cbn [changes modified created] in *; auto; contradiction.
Qed.
Lemma loaded_keep A c o r evs A' c' i : io_step bs (viewof A c) o r evs (viewof A' c') -> zlen A = bs * total c -> zlen A' = bs * total c' -> 0 <= i < total c -> i < total c' -> bit (loaded c) i = true -> bit (loaded c') i = true.
Proof.
  intros [_ HK] LA LA' Hi Hi' L. cbn [viewof vA vK vP] in HK. assert (zlen A / bs = total c) as N by (rewrite LA, Z.mul_comm; apply Z.div_mul; lia). assert (zlen A' / bs = total c') as N' by (rewrite LA', Z.mul_comm; apply Z.div_mul; lia).
  rewrite N, N' in HK. apply (HK i ltac:(lia)). left. split; [exact L|lia].
Qed.

(* an operation other than Resize *)
Lemma op_si t m hs w o : SI t m hs w -> op_ok bs o -> (forall n, o <> OResize n) ->
  exists t' c' r w', exec_op cb t (m_cache m) o = Ret (t', c', r) /\ SI t' (mkMem c' (m_cur m) (m_old m)) hs w' /\ win_step bs w (AOp o) r w' /\ total c' = total (m_cache m) /\
    w_retired w' = w_retired w /\ w_handles w' = w_handles w /\ ((exists e, r = RErr e) /\ w' = w \/ (forall e, r <> RErr e) /\ array_step bs (w_now w) o r (w_now w') /\
      (forall i, 0 <= i < total c' -> touches bs (total c') o i -> bit (loaded c') i = true) /\ (o = OFlush -> forall i, 0 <= i < total c' -> bit (dirty c') i = false) /\
      (forall i, w_unmarked w' i <-> w_unmarked w i /\ ~ modified bs (w_now w) o i)).
Proof.
  intros G Ho Hr. pose proof (si_inv _ _ _ _ G) as I. pose proof (si_rep _ _ _ _ G) as R. set (c := m_cache m) in *. set (A := w_now w) in *.
  destruct (step_all (Q := False) cb bs nb blk H Hbs t c A o I R Ho) as (t' & c' & r & evs & A' & E & I' & R' & Hac & Hio).
  pose proof (i_total _ _ _ _ _ I) as Ht. pose proof R as [RL _]. pose proof R' as [RL' _].
  assert (A' = A /\ (exists e, r = RErr e) \/ (forall e, r <> RErr e) /\ array_step bs A o r A') as Hres.
  { destruct Hio as [Hio _]. cbn [viewof vA] in Hio. destruct r as [b| |e]; [right; split; [discriminate|apply Hio]|right; split; [discriminate|apply Hio]|left; split; [apply Hio|eauto]]. }
  assert (total c' = total c) as Tc.
  { destruct Hres as [[-> _]|[_ HS]]; [nia|]. destruct (array_step_len bs A (total c) o r A' Hbs ltac:(lia) Ho HS) as (T' & EX & _ & ET). rewrite (ET Hr) in EX. nia. }
  assert (zlen A / bs = total c) as N by (rewrite RL, Z.mul_comm; apply Z.div_mul; lia). assert (zlen A' / bs = total c) as N' by (rewrite RL', Tc, Z.mul_comm; apply Z.div_mul; lia).
  set (w' := mkW (w_retired w) A' (w_handles w) (fun i => w_unmarked w i /\ (succeeded r = true -> ~ modified bs A o i))).
  assert (forall i, 0 <= i < total c -> bit (dirty c') i = false -> ~ w_unmarked w' i -> slice (i * bs) bs A' = blk t' i) as HJ.
  { intros i Hi Hd Hu. cbn [w' w_unmarked] in Hu.
    assert (slice (i * bs) bs A' = slice (i * bs) bs A /\ ~ w_unmarked w i) as [HA Hnu].
    { destruct Hres as [[-> (e & ->)]|[Hok HS]]; [split; [reflexivity|intros ?; apply Hu; split; [assumption|discriminate]]|].
      assert (succeeded r = true) as Sr by (destruct r; try reflexivity; destruct (Hok e eq_refl)).
      assert (~ modified bs A o i) as Hm. { intros Hm. destruct Hio as [_ HK]. cbn [viewof vA vK vP] in HK. destruct (HK i ltac:(lia)) as [_ HP]. rewrite (proj2 HP) in Hd; [discriminate|]. right. split; assumption. }
      split; [apply (unchanged A (total c) o r); auto; lia|]. intros Hw. apply Hu. split; [exact Hw|]. intros _. exact Hm. }
    rewrite HA. assert (o = OFlush \/ o <> OFlush) as [->|Hf] by (destruct o; auto; right; discriminate).
    - destruct (bit (dirty c) i) eqn:ED.
      + assert (A' = A) as ->. { destruct Hres as [[? _]|[_ HS]]; [assumption|]. cbn [array_step] in HS. apply HS. }
        assert (exists b, In (EvFlush i b true) evs) as [b Hin].
        { destruct Hio as [Hio HK]. cbn [viewof vA vK vP] in Hio, HK. destruct (HK i ltac:(lia)) as [_ HP].
          assert (exists ok, flushes bs A (fun j => bit (dirty c) j) (zrange 0 (total c)) ok evs) as [ok HF].
          { cbn [traffic op_in_bounds] in Hio. rewrite N in Hio. destruct r as [x| |e]; [exists true; apply Hio|exists true; apply Hio|]. destruct Hio as (_ & [(Hb & _)|[_ HF]]); [exfalso; apply Hb; nia|eauto]. }
          assert ({b | In (EvFlush i b true) evs} + {forall b, ~ In (EvFlush i b true) evs}) as [[b ?]|Hno].
          { clear. induction evs as [|ev evs IH]; [right; intros b []|]. destruct IH as [[b Hb]|IH]; [left; exists b; now right|]. destruct ev as [j ok|j b [|]|k ok]; try (right; intros b' [E|E]; [discriminate|now apply (IH b')]).
            destruct (Z.eq_dec j i) as [->|Hne]; [left; exists b; now left|]. right. intros b' [E|E]; [congruence|now apply (IH b')]. }
          - eauto.
          - exfalso. rewrite (proj2 HP) in Hd; [discriminate|]. left. split; [exact ED|]. split; [lia|]. intros [b Hb]. now apply (Hno b). }
        destruct (flush_wrote A _ t t' c c' r evs i b I R Hac Hio eq_refl Hin) as (_ & Eb & Ebl). now rewrite Ebl.
      + destruct (flush_frame cb bs nb blk H Hbs (Q := False) t c t' c' r I E) as [_ HF]. rewrite HF by auto. apply (si_clean _ _ _ _ G); auto.
    - assert (bit (dirty c) i = false) as ED.
      { destruct (bit (dirty c) i) eqn:ED; [|reflexivity]. exfalso. destruct Hio as [Hio HK]. cbn [viewof vA vK vP] in Hio, HK. destruct (HK i ltac:(lia)) as [_ HP]. rewrite (proj2 HP) in Hd; [discriminate|]. left. split; [exact ED|]. split; [lia|].
        intros [b Hb]. assert (forall K l ok, fetches K l ok evs -> False) as HX by (intros K l ok HF; destruct (fetches_only_fetch _ _ _ _ HF _ Hb) as (? & ? & ?); discriminate).
        assert (forall ok, traffic bs A (fun j => bit (loaded c) j) (fun j => bit (dirty c) j) o ok evs -> False) as HT by (intros ok; destruct o; cbn [traffic]; try (apply HX); [contradiction|destruct (Hr n eq_refl)]).
        destruct r as [x| |e]; [eapply HT; apply Hio|eapply HT; apply Hio|]. destruct Hio as (_ & [(_ & _ & ->)|[_ HF]]); [destruct Hb|eapply HT; exact HF]. }
      destruct (op_frame cb bs nb blk H Hbs 0 (Q := False) t c o t' c' r I Ho Hf Hr E) as [_ HF]. rewrite HF by lia. apply (si_clean _ _ _ _ G); auto. }
  assert (forall i, 0 <= i < total c -> bit (loaded c) i = true -> bit (loaded c') i = true) as HL by (intros i Hi; apply (loaded_keep A c o r evs A' c' i Hio RL RL'); lia).
  assert (forall wx, w_retired wx = w_retired w -> w_now wx = A' -> w_handles wx = w_handles w -> (forall i, w_unmarked wx i <-> w_unmarked w' i) -> SI t' (mkMem c' (m_cur m) (m_old m)) hs wx) as HSI.
  { intros wx X1 X2 X3 X4. constructor; cbn [m_cache m_cur m_old].
    - rewrite X3. apply (si_hs _ _ _ _ G).
    - unfold current. rewrite X1. apply (si_cur _ _ _ _ G).
    - exact I'.
    - rewrite X2. exact R'.
    - rewrite Tc, X2. intros i Hi Hd Hu. apply HJ; auto. intros Hu'. apply Hu. now apply X4.
    - apply (si_le _ _ _ _ G).
    - intros h Hin Ha. destruct (si_now _ _ _ _ G h Hin Ha) as (lo & k & J1 & J2 & J3 & J4 & J5 & J6). exists lo, k. rewrite Tc. fold c in J5, J6. repeat split; auto. intros i Hi. apply HL; [lia|]. now apply J6.
    - intros h Hin Ha. rewrite X1. apply (si_old _ _ _ _ G h Hin Ha). }
  destruct Hres as [[-> (e & ->)]|[Hok HS]].
  - exists t', c', (RErr e), w. split; [exact E|]. split; [apply HSI; auto; intros i; cbn [w' w_unmarked]; split; [intros ?; split; [assumption|discriminate]|now intros [? _]]|].
    split; [apply ws_err|]. split; [exact Tc|]. split; [reflexivity|]. split; [reflexivity|]. left. eauto.
  - assert (succeeded r = true) as Sr by (destruct r; try reflexivity; destruct (Hok e eq_refl)).
    exists t', c', r, (mkW (w_retired w) A' (w_handles w) (fun i => w_unmarked w i /\ ~ modified bs A o i)). split; [exact E|]. split; [apply HSI; auto; intros i; cbn [w' w_unmarked]; intuition|].
    split; [now apply ws_op|]. split; [exact Tc|]. split; [reflexivity|]. split; [reflexivity|]. right. split; [exact Hok|]. cbn [w_now w_unmarked]. split; [exact HS|]. split; [|split; [|reflexivity]].
    + intros i Hi Ht'. rewrite Tc in Hi, Ht'. destruct Hio as [Hio HK]. cbn [viewof vA vK vP] in Hio, HK. destruct (HK i ltac:(lia)) as [HKi _].
      destruct (bit (loaded c) i) eqn:EL; [apply HL; auto|]. apply HKi. right. left.
      assert (forall l, fetches (fun j => bit (loaded c) j) l true evs -> In i l -> In (EvFetch i true) evs) as HX.
      { intros l HF Hl. unfold fetches in HF. rewrite HF. apply in_map_iff. exists i. split; [reflexivity|]. apply filter_In. split; [exact Hl|]. now rewrite EL. }
      assert (traffic bs A (fun j => bit (loaded c) j) (fun j => bit (dirty c) j) o true evs) as HT by (destruct r as [x| |e]; [apply Hio|apply Hio|discriminate]).
      rewrite <- N in Ht'. destruct o; cbn [touches traffic] in *; try contradiction; apply (HX _ HT); try exact Ht'; apply In_zrange; exact Ht'.
    + intros -> i Hi. rewrite Tc in Hi. destruct (bit (dirty c') i) eqn:ED; [|reflexivity]. exfalso. destruct Hio as [Hio HK]. cbn [viewof vA vK vP] in Hio, HK. destruct (HK i ltac:(lia)) as [_ HP].
      destruct (proj1 HP ED) as [(D1 & D2 & D3)|[_ []]].
      apply D3. exists (slice (i * bs) bs A). assert (flushes bs A (fun j => bit (dirty c) j) (zrange 0 (zlen A / bs)) true evs) as HF by (destruct r as [x| |e]; [apply Hio|apply Hio|discriminate]).
      unfold flushes in HF. rewrite HF. apply in_map_iff. exists i. split; [reflexivity|]. apply filter_In. split; [apply In_zrange; lia|exact D1].
Qed.
Lemma resize_si t m hs w n : SI t m hs w -> op_ok bs (OResize n) ->
  exists t' c' r w', exec_op cb t (m_cache m) (OResize n) = Ret (t', c', r) /\ SI t' (after_op m (OResize n) r c') hs w' /\ win_step bs w (AOp (OResize n)) r w'.
Proof.
  intros G Ho. pose proof (si_inv _ _ _ _ G) as I. pose proof (si_rep _ _ _ _ G) as R. set (c := m_cache m) in *. set (A := w_now w) in *.
  destruct (step_all (Q := False) cb bs nb blk H Hbs t c A _ I R Ho) as (t' & c' & r & evs & A' & E & I' & R' & Hac & Hio).
  pose proof (i_total _ _ _ _ _ I) as Ht. pose proof R as [RL RB]. pose proof R' as [RL' _].
  assert (zlen A / bs = total c) as N by (rewrite RL, Z.mul_comm; apply Z.div_mul; lia). assert (zlen A' / bs = total c') as N' by (rewrite RL', Z.mul_comm; apply Z.div_mul; lia).
  exists t', c', r. pose proof E as E0. cbn [exec_op] in E. unfold resize in E. destruct (cb_resize cb t n) as [t1 [e|]] eqn:ER.
  - injection E as <- <- <-. exists w. split; [exact E0|]. cbn [op_ok] in Ho. destruct (h_resize _ _ _ _ H t n t1 (Some e) ltac:(lia) ltac:(lia) ER) as [F1 F2]. split; [|apply ws_err]. cbn [err_res after_op].
    destruct G. constructor; cbn [m_cache m_cur m_old]; auto.
    + split; [exact RL|]. intros i Hi. fold A c. rewrite RB by (fold c; exact Hi). unfold vb. destruct (bit (loaded c) i); [reflexivity|]. symmetry. apply F2. fold c in Hi. lia.
    + intros i Hi Hd Hu. rewrite F2 by (fold c in Hi; lia). now apply si_clean0.
  - assert (r = ROk) as ->. { destruct (set_bits _ _ _ _ _); try discriminate. injection E as _ _ <-. reflexivity. }
    assert (t' = t1) as ->. { destruct (set_bits _ _ _ _ _); try discriminate. injection E as <- _. reflexivity. }
    destruct Hio as [Hio HK]. cbn [viewof vA vK vP] in Hio, HK. destruct Hio as (HS & _ & HT). exists (mkW (w_retired w ++ [A]) A' (w_handles w) (fun i => w_unmarked w i /\ i < n)). split; [exact E0|]. split; [|now apply ws_resize]. cbn [op_ok] in Ho.
    destruct (array_step_len bs A (total c) (OResize n) ROk A' Hbs ltac:(lia) Ho HS) as (T' & EX & ET & _). specialize (ET n eq_refl). assert (total c' = n) as Tn by nia.
    destruct (h_resize _ _ _ _ H t n t1 None ltac:(lia) ltac:(lia) ER) as [F1 F2].
    cbn [after_op]. constructor; cbn [m_cache m_cur m_old w_handles w_now w_retired w_unmarked].
    + apply (si_hs _ _ _ _ G).
    + unfold current. cbn [w_retired]. rewrite app_length. cbn [length]. rewrite (si_cur _ _ _ _ G). unfold current. lia.
    + exact I'.
    + exact R'.
    + intros i Hi Hd Hu. destruct (HK i ltac:(lia)) as [_ HP]. assert (i < total c) as Hic.
      { destruct (Z_lt_le_dec i (total c)); [assumption|]. exfalso. rewrite (proj2 HP) in Hd; [discriminate|]. right. split; [reflexivity|]. cbn [modified created]. lia. }
      assert (bit (dirty c) i = false) as ED.
      { destruct (bit (dirty c) i) eqn:ED; [|reflexivity]. exfalso. rewrite (proj2 HP) in Hd; [discriminate|]. left. split; [reflexivity|]. split; [lia|]. intros [b Hb].
        cbn [traffic] in HT. rewrite HT in Hb. destruct Hb as [Hb|[]]. discriminate. }
      rewrite F2 by lia. rewrite <- (si_clean _ _ _ _ G i); fold c A; [|lia|exact ED|intros Hw; apply Hu; split; [exact Hw|lia]].
      cbn [array_step] in HS. destruct HS as [-> _]. rewrite slice_app_l; [|nia|nia|rewrite zlen_slice_min by nia; nia]. rewrite slice_slice by nia. f_equal; lia.
    + intros h Hin. pose proof (si_le _ _ _ _ G h Hin). lia.
    + intros h Hin Ha. pose proof (si_le _ _ _ _ G h Hin). lia.
    + intros h Hin Ha. destruct (Nat.eqb_spec (h_arr h) (m_cur m)) as [Eh|Eh].
      * rewrite (si_cur _ _ _ _ G) in Eh. unfold current in Eh. rewrite Eh, app_nth2, Nat.sub_diag by lia. cbn [nth].
        assert (h_arr h = m_cur m) as Eh' by (rewrite (si_cur _ _ _ _ G); exact Eh). pose proof (now_slice t c A h I R (si_now _ _ _ _ G h Hin Eh')) as (J1 & J2 & J3 & J4 & J5). fold c. intuition lia.
      * pose proof (si_le _ _ _ _ G h Hin). assert (h_arr h < m_cur m)%nat as Hlt by lia. pose proof (si_old _ _ _ _ G h Hin Hlt) as HO. cbv zeta in HO. rewrite app_nth1; [exact HO|]. rewrite (si_cur _ _ _ _ G) in Hlt. exact Hlt.
Qed.

(* a new handle *)
Lemma open_si t c' k old hs w w' o n : SI t (mkMem c' k old) hs w' -> w_retired w' = w_retired w -> w_now w' = w_now w -> w_handles w' = w_handles w -> (forall i, w_unmarked w' i <-> w_unmarked w i) ->
  covers c' (mkHandle k o n) -> SI t (mkMem c' k old) (hs ++ [mkHandle k o n]) (w_open w o n).
Proof.
  intros G X1 X2 X3 X4 Hc. pose proof (si_cur _ _ _ _ G) as Ek. cbn [m_cur] in Ek. unfold current in Ek. rewrite X1 in Ek.
  constructor; cbn [m_cache m_cur m_old w_open w_handles w_now w_retired w_unmarked].
  - unfold current. rewrite <- X3, (si_hs _ _ _ _ G), Ek. reflexivity.
  - exact Ek.
  - apply (si_inv _ _ _ _ G).
  - rewrite <- X2. apply (si_rep _ _ _ _ G).
  - intros i Hi Hd Hu. rewrite <- X2. apply (si_clean _ _ _ _ G); auto. intros Hx. apply Hu. now apply X4.
  - intros h Hin. apply in_app_or in Hin as [Hin|[<-|[]]]; [apply (si_le _ _ _ _ G h Hin)|cbn [h_arr]; lia].
  - intros h Hin Ha. apply in_app_or in Hin as [Hin|[<-|[]]]; [apply (si_now _ _ _ _ G h Hin Ha)|exact Hc].
  - intros h Hin Ha. apply in_app_or in Hin as [Hin|[<-|[]]]; [rewrite <- X1; apply (si_old _ _ _ _ G h Hin Ha)|cbn [h_arr] in Ha; lia].
Qed.
Lemma get_si t m hs w start count : SI t m hs w -> op_ok bs (OSlice start count) ->
  exists t' m' hs' r w', act_step cb t m hs (AGet start count) = Ret (t', m', hs', r) /\ SI t' m' hs' w' /\ win_step bs w (AGet start count) r w'.
Proof.
  intros G Ho. destruct (op_si t m hs w _ G Ho ltac:(discriminate)) as (t' & c' & r & w' & E & G' & _ & Tc & X1 & X3 & Hr). cbn [exec_op act_step] in *.
  destruct (get_slice cb t (m_cache m) start count) as [[[t1 c1] [b|e]]| |]; try discriminate; injection E as <- <- <-.
  - destruct Hr as [[(e & ?) _]|(_ & HS & HL & _ & HU)]; [discriminate|]. exists t1, (mkMem c1 (m_cur m) (m_old m)), (hs ++ [mkHandle (m_cur m) (start * bpb c1) (zlen b)]), (RBytes b), (w_open w (start * bs) (count * bs)).
    pose proof HS as HS'. cbn [array_step op_ok touches modified created] in *. destruct HS as (X2 & [B1 B2] & Eb). injection Eb as Eb. pose proof (si_inv _ _ _ _ G') as I1. cbn [m_cache] in I1. rewrite (i_bpb _ _ _ _ _ I1).
    assert (zlen b = count * bs) as -> by (rewrite Eb; apply zlen_slice; nia). split; [reflexivity|]. split; [|apply ws_get; rewrite X2 in HS'; exact HS'].
    apply (open_si t1 c1 (m_cur m) (m_old m) hs w w'); auto; [intros i; rewrite HU; tauto|].
    destruct (si_rep _ _ _ _ G') as [RL _]. cbn [m_cache] in RL. rewrite X2 in RL. exists start, count. cbn [h_off h_len]. split; [reflexivity|]. split; [reflexivity|]. split; [lia|]. split; [lia|]. split; [nia|]. intros i Hi. apply HL; nia.
  - destruct Hr as [[_ ->]|(Hno & _)]; [|destruct (Hno e eq_refl)]. exists t1, (mkMem c1 (m_cur m) (m_old m)), hs, (RErr e), w. split; [reflexivity|]. split; [exact G'|apply ws_err].
Qed.
Lemma data_si t m hs w : SI t m hs w ->
  exists t' m' hs' r w', act_step cb t m hs AData = Ret (t', m', hs', r) /\ SI t' m' hs' w' /\ win_step bs w AData r w'.
Proof.
  intros G. destruct (op_si t m hs w OData G I ltac:(discriminate)) as (t' & c' & r & w' & E & G' & _ & Tc & X1 & X3 & Hr). cbn [exec_op act_step] in *.
  destruct (get_data cb t (m_cache m)) as [[[t1 c1] [b|e]]| |]; try discriminate; injection E as <- <- <-.
  - destruct Hr as [[(e & ?) _]|(_ & HS & HL & _ & HU)]; [discriminate|]. exists t1, (mkMem c1 (m_cur m) (m_old m)), (hs ++ [mkHandle (m_cur m) 0 (zlen b)]), (RBytes b), (w_open w 0 (zlen b)).
    pose proof HS as HS'. cbn [array_step op_ok touches modified created] in *. destruct HS as (X2 & Eb). injection Eb as Eb.
    split; [reflexivity|]. split; [|apply ws_data; rewrite X2 in HS'; exact HS'].
    apply (open_si t1 c1 (m_cur m) (m_old m) hs w w'); auto; [intros i; rewrite HU; tauto|].
    pose proof (si_inv _ _ _ _ G') as I1. cbn [m_cache] in I1. pose proof (i_total _ _ _ _ _ I1) as Ht.
    destruct (si_rep _ _ _ _ G') as [RL _]. cbn [m_cache] in RL. rewrite X2 in RL. exists 0, (total c1). cbn [h_off h_len]. split; [lia|]. split; [rewrite Eb; lia|]. split; [lia|]. split; [lia|]. split; [lia|]. intros i Hi. apply HL; lia.
  - destruct Hr as [[_ ->]|(Hno & _)]; [|destruct (Hno e eq_refl)]. exists t1, (mkMem c1 (m_cur m) (m_old m)), hs, (RErr e), w. split; [reflexivity|]. split; [exact G'|apply ws_err].
Qed.
Lemma write_si t m hs w h off b : SI t m hs w -> In h hs -> 0 <= off -> off + zlen b <= h_len h ->
  SI t (set_array m (h_arr h) (splice (h_off h + off) b (array_of m (h_arr h)))) hs (w_write bs w (h_arr h) (h_off h + off) b).
Proof.
  intros G Hin H1 H2. pose proof (zlen_nonneg b) as Zb. destruct (h_slice t m hs w h G Hin) as (A1 & A2 & A3 & A4 & A5). pose proof (si_le _ _ _ _ G h Hin) as Hle. pose proof (si_cur _ _ _ _ G) as Ec.
  unfold set_array, w_write. rewrite <- Ec. destruct (Nat.eqb_spec (h_arr h) (m_cur m)) as [E|E].
  - replace (Nat.ltb (h_arr h) (m_cur m)) with false by (symmetry; apply Nat.ltb_ge; lia). destruct (si_now _ _ _ _ G h Hin E) as (lo & k & J1 & J2 & J3 & J4 & J5 & J6).
    pose proof (si_inv _ _ _ _ G) as I. pose proof (si_rep _ _ _ _ G) as R. pose proof (i_data _ _ _ _ _ I) as D. pose proof (i_total _ _ _ _ _ I) as Ht. destruct R as [RL RB].
    rewrite E, (cur_array t m hs w G). set (c := m_cache m) in *. set (o := h_off h + off) in *. assert (0 <= o /\ o + zlen b <= bs * total c) as [O1 O2] by nia.
    assert (forall i, 0 <= i < total c -> ~ (lo <= i < lo + k) -> forall X, zlen X = bs * total c -> slice (i * bs) bs (splice o b X) = slice (i * bs) bs X) as Hout.
    { intros i Hi Hn X LX. destruct b as [|x b]; [now rewrite splice_nil|]. apply slice_splice_disj; try lia; nia. }
    assert (forall i, 0 <= i < total c -> ~ (exists p, o <= p < o + zlen b /\ p / bs = i) -> forall X, zlen X = bs * total c -> slice (i * bs) bs (splice o b X) = slice (i * bs) bs X) as Hunt.
    { intros i Hi Hn X LX. destruct b as [|x b]; [now rewrite splice_nil|]. set (b' := x :: b) in *. apply slice_splice_disj; try lia; try nia.
      destruct (Z_le_gt_dec (i * bs + bs) o); [left; lia|]. destruct (Z_le_gt_dec (o + zlen b') (i * bs)); [right; lia|]. exfalso. apply Hn. assert (0 < zlen b') by (subst b'; rewrite zlen_cons; pose proof (zlen_nonneg b); lia).
      exists (Z.max o (i * bs)). split; [lia|]. symmetry. apply (Z.div_unique_pos _ _ i (Z.max o (i * bs) - i * bs)); lia. }
    constructor; cbn [m_cache m_cur m_old w_handles w_now w_retired w_unmarked bpb total loaded dirty data].
    + apply (si_hs _ _ _ _ G).
    + exact Ec.
    + destruct I as [K1 K2 K3 K4 K5 K6 K7 K8]. constructor; cbn [bpb total loaded dirty data]; auto; [rewrite zlen_splice by lia; exact K4|intros []].
    + split; cbn [total]; [rewrite zlen_splice by lia; exact RL|]. intros i Hi. unfold vb. cbn [loaded data]. specialize (RB i Hi). unfold vb in RB. destruct (bit (loaded c) i) eqn:EL.
      * apply slice_splice_cong; try lia; try nia. exact RB.
      * rewrite Hout; auto. intros Hi'. rewrite J6 in EL by exact Hi'. discriminate.
    + intros i Hi Hd Hu. rewrite Hunt; auto. apply (si_clean _ _ _ _ G); auto.
    + apply (si_le _ _ _ _ G).
    + apply (si_now _ _ _ _ G).
    + apply (si_old _ _ _ _ G).
  - assert (h_arr h < m_cur m)%nat as Hlt by lia. replace (Nat.ltb (h_arr h) (m_cur m)) with true by (symmetry; apply Nat.ltb_lt; lia).
    assert (h_arr h < length (w_retired w))%nat as Hlt' by (rewrite Ec in Hlt; exact Hlt). set (a := h_arr h) in *. set (o := h_off h + off) in *.
    assert (forall j, nth j (firstn a (w_retired w) ++ [splice o b (w_array w a)] ++ skipn (S a) (w_retired w)) [] = if Nat.eqb j a then splice o b (w_array w a) else nth j (w_retired w) []) as Hnth.
    { intros j. assert (length (firstn a (w_retired w)) = a) as Lf by (apply firstn_length_le; lia). destruct (Nat.eqb_spec j a) as [->|Hj].
      - rewrite app_nth2 by lia. rewrite Lf, Nat.sub_diag. reflexivity.
      - destruct (Nat.lt_ge_cases j a).
        + rewrite app_nth1 by lia. rewrite <- (firstn_skipn a (w_retired w)) at 2. now rewrite app_nth1 by lia.
        + rewrite app_nth2 by lia. rewrite Lf. replace (j - a)%nat with (S (j - S a)) by lia. cbn [app nth]. rewrite <- (firstn_skipn (S a) (w_retired w)) at 2. rewrite app_nth2; rewrite firstn_length_le by lia; [reflexivity|lia]. }
    assert (length (firstn a (w_retired w) ++ [splice o b (w_array w a)] ++ skipn (S a) (w_retired w)) = length (w_retired w)) as Hlen.
    { rewrite !app_length, firstn_length_le, skipn_length by lia. cbn [length]. lia. }
    constructor; cbn [m_cache m_cur m_old w_handles w_now w_retired w_unmarked].
    + apply (si_hs _ _ _ _ G).
    + unfold current. cbn [w_retired]. rewrite Hlen. exact Ec.
    + apply (si_inv _ _ _ _ G).
    + apply (si_rep _ _ _ _ G).
    + apply (si_clean _ _ _ _ G).
    + apply (si_le _ _ _ _ G).
    + apply (si_now _ _ _ _ G).
    + intros h' Hin' Ha. cbv zeta. rewrite Hnth. pose proof (si_old _ _ _ _ G h' Hin' Ha) as HO. cbv zeta in HO. destruct (Nat.eqb_spec (h_arr h') a) as [Eq|Eq]; [|exact HO].
      rewrite (old_array m a Hlt) in *. rewrite (w_old w a) in * by (rewrite <- Ec; exact Hlt). rewrite Eq in HO. destruct HO as (O1 & O2 & O3 & O4 & O5). split; [exact O1|]. split; [exact O2|]. rewrite !zlen_splice by lia. split; [exact O3|]. split; [exact O4|]. apply slice_splice_cong; auto; lia.
Qed.
Lemma mark_si t m hs w start count : SI t m hs w -> act_ok bs (m_cur m) hs (AMark start count) ->
  exists t' m' hs' r w', act_step cb t m hs (AMark start count) = Ret (t', m', hs', r) /\ SI t' m' hs' w' /\ win_step bs w (AMark start count) r w'.
Proof.
  intros G [Ho Hh]. cbn [op_ok act_step] in *. pose proof (si_inv _ _ _ _ G) as I. set (c := m_cache m) in *. pose proof (i_total _ _ _ _ _ I) as Ht. pose proof (si_rep _ _ _ _ G) as [RL RB]. fold c in RL, RB.
  destruct (Z_lt_le_dec (total c) (start + count)) as [Hbig|Hsmall].
  - assert (check_bounds c start (u64 (count * bpb c)) = Ret (Some (K ErrArgumentOutOfRange))) as EC.
    { rewrite (i_bpb _ _ _ _ _ I). rewrite u64_small by nia. rewrite (check_bounds_ok bs nb blk Hbs t c start (count * bs) I) by nia. rewrite cdiv_mul by exact Hbs. destruct (start <? total c) eqn:E1; [|reflexivity]. replace (start + count <=? total c) with false by lia. reflexivity. }
    unfold mark_dirty. rewrite EC. exists t, (mkMem c (m_cur m) (m_old m)), hs, (RErr (K ErrArgumentOutOfRange)), w. split; [reflexivity|]. split; [|apply ws_err]. destruct G. constructor; cbn [m_cache m_cur m_old]; auto.
  - assert (bs < 2^63 \/ total c = 0) as Cs by (pose proof (i_fits _ _ _ _ _ I); nia).
    destruct (Z_lt_le_dec start (total c)) as [Hs|Hs].
    + pose proof (mark_gen bs nb blk Hbs (Q := False) t c start count I ltac:(lia) ltac:(lia) ltac:(lia) ltac:(pose proof (i_fits _ _ _ _ _ I); nia)) as HM.
      replace (in_range c start count) with true in HM by (unfold in_range; lia). destruct HM as (c' & EM & I' & M1 & M2 & M3 & M4). rewrite EM. cbn [err_res].
      assert (forall i, start <= i < start + count -> bit (loaded c) i = true) as HL.
      { intros i Hi. destruct (Hh i Hi) as (h & Hin & Ha & B1 & B2). destruct (si_now _ _ _ _ G h Hin Ha) as (lo & k & J1 & J2 & J3 & J4 & J5 & J6). apply J6. nia. }
      assert (forall i, 0 <= i -> bit (loaded c') i = bit (loaded c) i) as HLe.
      { intros i Hi. destruct (M4 i Hi) as [-> _]. destruct ((start <=? i) && (i <? start + count)) eqn:EB; [|apply orb_false_r]. rewrite HL by lia. reflexivity. }
      exists t, (mkMem c' (m_cur m) (m_old m)), hs, ROk, (mkW (w_retired w) (w_now w) (w_handles w) (fun i => w_unmarked w i /\ ~ start <= i < start + count)). split; [reflexivity|]. split.
      * constructor; cbn [m_cache m_cur m_old w_handles w_now w_retired w_unmarked].
        -- apply (si_hs _ _ _ _ G).
        -- apply (si_cur _ _ _ _ G).
        -- exact I'.
        -- split; [rewrite M2; exact RL|]. rewrite M2. intros i Hi. rewrite RB by exact Hi. unfold vb. rewrite HLe, M3 by lia. reflexivity.
        -- rewrite M2. intros i Hi Hd Hu. destruct (M4 i ltac:(lia)) as [_ M5]. rewrite M5 in Hd. apply orb_false_iff in Hd as [Hd Hd2]. apply (si_clean _ _ _ _ G); auto. intros Hw. apply Hu. split; [exact Hw|]. lia.
        -- apply (si_le _ _ _ _ G).
        -- intros h Hin Ha. destruct (si_now _ _ _ _ G h Hin Ha) as (lo & k & J1 & J2 & J3 & J4 & J5 & J6). exists lo, k. fold c in J5, J6. rewrite M2. repeat split; auto. intros i Hi. rewrite HLe by lia. now apply J6.
        -- apply (si_old _ _ _ _ G).
      * apply ws_mark. unfold in_bounds. nia.
    + assert (check_bounds c start (u64 (count * bpb c)) = Ret (Some (K ErrArgumentOutOfRange))) as EC.
      { rewrite (i_bpb _ _ _ _ _ I). rewrite u64_small by nia. rewrite (check_bounds_ok bs nb blk Hbs t c start (count * bs) I) by nia. replace (start <? total c) with false by lia. reflexivity. }
      unfold mark_dirty. rewrite EC. exists t, (mkMem c (m_cur m) (m_old m)), hs, (RErr (K ErrArgumentOutOfRange)), w. split; [reflexivity|]. split; [|apply ws_err]. destruct G. constructor; cbn [m_cache m_cur m_old]; auto.
Qed.
Lemma act_si t m hs w a : SI t m hs w -> act_ok bs (m_cur m) hs a ->
  exists t' m' hs' r w', act_step cb t m hs a = Ret (t', m', hs', r) /\ SI t' m' hs' w' /\ win_step bs w a r w'.
Proof.
  intros G Ha. destruct a as [o|start count| |k|k off b|start count].
  - cbn [act_ok] in Ha. assert ((exists n, o = OResize n) \/ forall n, o <> OResize n) as [(n & ->)|Hr] by (destruct o; try (right; discriminate); left; eauto).
    + destruct (resize_si t m hs w n G Ha) as (t' & c' & r & w' & E & G' & HW). exists t', (after_op m (OResize n) r c'), hs, r, w'. cbn [act_step]. rewrite E. auto.
    + destruct (op_si t m hs w o G Ha Hr) as (t' & c' & r & w' & E & G' & HW & _). exists t', (mkMem c' (m_cur m) (m_old m)), hs, r, w'. cbn [act_step]. rewrite E. split; [|auto]. unfold after_op. destruct o; try reflexivity. destruct (Hr n eq_refl).
  - now apply get_si.
  - now apply data_si.
  - cbn [act_step]. destruct (nth_error hs k) as [h|] eqn:Eh.
    + exists t, m, hs, (RBytes (slice (h_off h) (h_len h) (array_of m (h_arr h)))), w. split; [reflexivity|]. split; [exact G|]. destruct (h_slice t m hs w h G (nth_error_In _ _ Eh)) as (_ & _ & _ & _ & ->). apply ws_read. rewrite (si_hs _ _ _ _ G). exact Eh.
    + exists t, m, hs, ROk, w. split; [reflexivity|]. split; [exact G|]. apply (ws_none _ _ k); [rewrite (si_hs _ _ _ _ G); exact Eh|auto].
  - cbn [act_step act_ok] in *. destruct (nth_error hs k) as [h|] eqn:Eh.
    + destruct (Ha h eq_refl) as [A1 A2]. do 4 eexists. exists (w_write bs w (h_arr h) (h_off h + off) b). split; [reflexivity|]. split; [apply write_si; auto; now apply nth_error_In in Eh|]. apply ws_write. rewrite (si_hs _ _ _ _ G). exact Eh.
    + exists t, m, hs, ROk, w. split; [reflexivity|]. split; [exact G|]. apply (ws_none _ _ k); [rewrite (si_hs _ _ _ _ G); exact Eh|eauto].
  - now apply mark_si.
Qed.
Lemma run_si acts : forall t m hs w, SI t m hs w -> well_used cb bs t m hs acts ->
  exists t' m' hs' rs w', act_run cb t m hs acts = Ret (t', m', hs', rs) /\ SI t' m' hs' w' /\ win_run bs w acts rs w'.
Proof.
  induction acts as [|a acts IH]; intros t m hs w G Hu; [exists t, m, hs, [], w; split; [reflexivity|]; split; [exact G|constructor]|]. destruct Hu as [Ha Hu].
  destruct (act_si t m hs w a G Ha) as (t1 & m1 & hs1 & r & w1 & E & G1 & HW). destruct (IH t1 m1 hs1 w1 G1 (Hu _ _ _ _ E)) as (t2 & m2 & hs2 & rs & w2 & E2 & G2 & HR).
  exists t2, m2, hs2, (r :: rs), w2. cbn [act_run]. rewrite E, E2. split; [reflexivity|]. split; [exact G2|]. econstructor; eassumption.
Qed.
Lemma new_si t n : 0 <= n <= nb t -> bs * n < 2^63 -> SI t (new_mem bs n) [] (mkW [] (storage_bytes blk t n) [] (fun _ => False)).
Proof.
  intros H1 H2. pose proof (new_rep cb bs nb blk H Hbs t n H1 H2) as R. constructor; cbn [new_mem m_cache m_cur m_old w_handles w_now w_retired w_unmarked].
  - reflexivity.
  - reflexivity.
  - now apply new_winv.
  - exact R.
  - intros i Hi Hd _. destruct R as [_ RB]. rewrite RB by exact Hi. unfold vb. cbn [new_cache loaded]. cbn [new_cache total] in Hi. unfold bitmap_new. rewrite znth_repeat by (pose proof (bits_for_ge n); lia). reflexivity.
  - intros ? [].
  - intros ? [].
  - intros ? [].
Qed.
(* what a successful flush leaves in the storage *)
Lemma flush_si t m hs w t' c' : SI t m hs w -> flush_all cb t (m_cache m) = Ret (t', c', None) -> forall i, 0 <= i < total (m_cache m) -> ~ w_unmarked w i -> blk t' i = slice (i * bs) bs (w_now w).
Proof.
  intros G E i Hi Hu. destruct (op_si t m hs w OFlush G I ltac:(discriminate)) as (t1 & c1 & r & w' & E1 & G' & _ & Tc & _ & _ & Hr). cbn [exec_op] in E1. rewrite E in E1. cbn [err_res] in E1. injection E1 as <- <- <-.
  destruct Hr as [[(e & ?) _]|(_ & [X2 _] & _ & HD & HU)]; [discriminate|]. rewrite <- X2. symmetry. apply (si_clean _ _ _ _ G'); cbn [m_cache]; [lia|apply HD; [reflexivity|lia]|]. rewrite HU. tauto.
Qed.

(** ** reading and writing through slices alone never reaches the storage *)
Definition looks (o : op) : Prop := match o with OWrite _ _ | OModify _ _ _ _ | OResize _ => False | _ => True end.
Definition passive (a : act) : Prop := match a with AOp o => looks o | AMark _ _ => False | _ => True end.
Lemma looks_clean t c A o t' c' r : WI t c -> represents bs blk A t c -> op_ok bs o -> looks o -> exec_op cb t c o = Ret (t', c', r) -> (forall i, 0 <= i < total c -> bit (dirty c) i = false) ->
  (forall i, 0 <= i < total c' -> bit (dirty c') i = false) /\ total c' = total c /\ nb t' = nb t /\ forall i, 0 <= i < total c -> blk t' i = blk t i.
Proof.
  intros I R Ho Hl E HD. assert (forall n, o <> OResize n) as Hr by (intros n ->; exact Hl).
  destruct (step_all (Q := False) cb bs nb blk H Hbs t c A o I R Ho) as (t1 & c1 & r1 & evs & A' & E1 & I' & R' & _ & Hio). rewrite E in E1. injection E1 as <- <- <-.
  pose proof (i_total _ _ _ _ _ I) as Ht. pose proof R as [RL _]. pose proof R' as [RL' _].
  assert (total c' = total c) as Tc.
  { destruct Hio as [Hio _]. cbn [viewof vA] in Hio. assert (A' = A \/ array_step bs A o r A') as [->|HS] by (destruct r; [right; apply Hio|right; apply Hio|left; apply Hio]); [nia|].
    destruct (array_step_len bs A (total c) o r A' Hbs ltac:(lia) Ho HS) as (T' & EX & _ & ET). rewrite (ET Hr) in EX. nia. }
  assert (zlen A / bs = total c) as N by (rewrite RL, Z.mul_comm; apply Z.div_mul; lia). assert (zlen A' / bs = total c) as N' by (rewrite RL', Tc, Z.mul_comm; apply Z.div_mul; lia).
  split; [|split; [exact Tc|]].
  - intros i Hi. rewrite Tc in Hi. destruct (bit (dirty c') i) eqn:ED; [|reflexivity]. destruct Hio as [_ HK]. cbn [viewof vA vK vP] in HK. destruct (HK i ltac:(lia)) as [_ HP]. destruct (proj1 HP ED) as [(D & _)|[_ Hm]]; [rewrite HD in D by lia; discriminate|]. destruct o; cbn [looks modified created] in *; contradiction.
  - assert (o = OFlush \/ o <> OFlush) as [->|Hf] by (destruct o; auto; right; discriminate).
    + destruct (flush_frame cb bs nb blk H Hbs (Q := False) t c t' c' r I E) as [F1 F2]. split; [exact F1|]. intros i Hi. apply F2; auto.
    + destruct (op_frame cb bs nb blk H Hbs 0 (Q := False) t c o t' c' r I Ho Hf Hr E) as [F1 F2]. split; [exact F1|]. intros i Hi. apply F2. lia.
Qed.
Lemma passive_step t m hs w a : SI t m hs w -> act_ok bs (m_cur m) hs a -> passive a -> (forall i, 0 <= i < total (m_cache m) -> bit (dirty (m_cache m)) i = false) ->
  forall t' m' hs' r, act_step cb t m hs a = Ret (t', m', hs', r) ->
  (forall i, 0 <= i < total (m_cache m') -> bit (dirty (m_cache m')) i = false) /\ total (m_cache m') = total (m_cache m) /\ forall i, 0 <= i < total (m_cache m) -> blk t' i = blk t i.
Proof.
  intros G Ha Hp HD t' m' hs' r E. pose proof (si_inv _ _ _ _ G) as I. pose proof (si_rep _ _ _ _ G) as R.
  destruct a as [o|start count| |k|k off b|start count]; cbn [act_step act_ok passive] in *.
  - destruct (exec_op cb t (m_cache m) o) as [[[t1 c1] r1]| |] eqn:E1; try discriminate. injection E as <- <- <- <-. assert (m_cache (after_op m o r1 c1) = c1) as -> by (destruct o, r1; reflexivity).
    destruct (looks_clean t _ _ o t1 c1 r1 I R Ha Hp E1 HD) as (J1 & J2 & _ & J3). auto.
  - destruct (get_slice cb t (m_cache m) start count) as [[[t1 c1] x]| |] eqn:E1; try discriminate.
    assert (exists r, exec_op cb t (m_cache m) (OSlice start count) = Ret (t1, c1, r)) as [r1 E2] by (cbn [exec_op]; rewrite E1; destruct x; eauto).
    destruct (looks_clean t _ _ _ t1 c1 r1 I R Ha Logic.I E2 HD) as (J1 & J2 & _ & J3). destruct x; injection E as <- <- <- <-; auto.
  - destruct (get_data cb t (m_cache m)) as [[[t1 c1] x]| |] eqn:E1; try discriminate.
    assert (exists r, exec_op cb t (m_cache m) OData = Ret (t1, c1, r)) as [r1 E2] by (cbn [exec_op]; rewrite E1; destruct x; eauto).
    destruct (looks_clean t _ _ OData t1 c1 r1 I R Logic.I Logic.I E2 HD) as (J1 & J2 & _ & J3). destruct x; injection E as <- <- <- <-; auto.
  - destruct (nth_error hs k); injection E as <- <- <- <-; auto.
  - destruct (nth_error hs k) as [h|]; injection E as <- <- <- <-; [|auto]. unfold set_array. destruct (Nat.eqb _ _); cbn [m_cache dirty total]; auto.
  - destruct Hp.
Qed.
Lemma passive_run acts : forall t m hs w, SI t m hs w -> well_used cb bs t m hs acts -> Forall passive acts -> (forall i, 0 <= i < total (m_cache m) -> bit (dirty (m_cache m)) i = false) ->
  exists t' m' hs' rs, act_run cb t m hs acts = Ret (t', m', hs', rs) /\ total (m_cache m') = total (m_cache m) /\ forall i, 0 <= i < total (m_cache m) -> blk t' i = blk t i.
Proof.
  induction acts as [|a acts IH]; intros t m hs w G Hu HP HD; [exists t, m, hs, []; auto|]. destruct Hu as [Ha Hu]. inversion HP as [|? ? P1 P2]; subst.
  destruct (act_si t m hs w a G Ha) as (t1 & m1 & hs1 & r & w1 & E & G1 & _). destruct (passive_step t m hs w a G Ha P1 HD t1 m1 hs1 r E) as (D1 & D2 & D3).
  destruct (IH t1 m1 hs1 w1 G1 (Hu _ _ _ _ E) P2 D1) as (t2 & m2 & hs2 & rs & E2 & F1 & F2). exists t2, m2, hs2, (r :: rs). cbn [act_run]. rewrite E, E2. split; [reflexivity|]. split; [lia|]. intros i Hi. rewrite F2 by lia. now apply D3.
Qed.
Lemma new_clean n i : 0 <= i < n -> bit (dirty (new_cache bs n)) i = false.
Proof. intros Hi. cbn [new_cache dirty]. unfold bitmap_new. apply znth_repeat. pose proof (bits_for_ge n). lia. Qed.
End Sl.
