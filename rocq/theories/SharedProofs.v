(** * SharedProofs: caches over the same storage *)
From Verif Require Import GoBase ListZ Errors BlockCache Spec_BlockCache BlockCacheProofs BlockCacheProofs2 BlockCacheProofs3 Spec_Shared.

Lemma put_same p k c : put p k c k = c.
Proof. unfold put. now rewrite Nat.eqb_refl. Qed.
Lemma put_other p k c j : j <> k -> put p k c j = p j.
Proof. intros Hj. unfold put. destruct (Nat.eqb_spec j k); [contradiction|reflexivity]. Qed.

Section Share.
Context {S : Type} (cb : callbacks S) (bs : Z) (nb : S -> Z) (blk : S -> Z -> list Z).
Hypothesis H : honest cb bs nb blk.
Hypothesis Hbs : 0 < bs.
Variable n : Z.
Variables rd wr : nat -> Z -> bool.
Hypothesis Hex : one_writer rd wr.
Notation bit l i := (znth false l i).

Record Good (s : S) (p : pool) (A : list Z) : Prop := {
  g_n : 0 <= n <= nb s;
  g_len : zlen A = bs * n;
  g_inv : forall k, Inv bs nb blk s (p k);
  g_tot : forall k, total (p k) = n;
  g_ld : forall k i, 0 <= i < n -> bit (loaded (p k)) i = true -> rd k i = true;
  g_dt : forall k i, 0 <= i < n -> bit (dirty (p k)) i = true -> wr k i = true;
  g_rd : forall k i, 0 <= i < n -> rd k i = true -> slice (i * bs) bs A = vb bs blk s (p k) i;
  g_cl : forall i, 0 <= i < n -> (forall k, bit (dirty (p k)) i = false) -> slice (i * bs) bs A = blk s i
}.

(* ** what an operation does to the storage *)
Definition frame (s s' : S) : Prop := nb s' = nb s /\ forall j, 0 <= j < nb s -> blk s' j = blk s j.
Lemma frame_refl s : frame s s.
Proof. split; auto. Qed.
Lemma frame_trans s1 s2 s3 : frame s1 s2 -> frame s2 s3 -> frame s1 s3.
Proof. intros [A B] [C D]. split; [lia|]. intros j Hj. rewrite D by lia. apply B. exact Hj. Qed.
Lemma load_range_frame {Q : Prop} s c start count s' c' e : @WInv Q _ bs nb blk s c -> 0 <= start -> 0 <= count -> count * bs <= 2^63 ->
  load_range cb s c start count = Ret (s', c', e) -> @WInv Q _ bs nb blk s' c' /\ frame s s' /\ total c' = total c.
Proof.
  intros I H1 H2 H3 E. pose proof (load_range_spec (Q := Q) cb bs nb blk H Hbs s c start count I H1 H2 H3) as L. destruct (in_range c start count).
  - destruct L as (s1 & c1 & e1 & evs & E1 & I1 & T & _ & _ & F1 & F2 & _). rewrite E in E1. injection E1 as <- <- <-. split; [exact I1|]. split; [split; assumption|exact T].
  - rewrite E in L. injection L as -> -> _. split; [exact I|]. split; [apply frame_refl|reflexivity].
Qed.
Lemma get_slice_frame {Q : Prop} s c start count s' c' x : @WInv Q _ bs nb blk s c -> 0 <= start -> 0 <= count -> count * bs <= 2^63 ->
  get_slice cb s c start count = Ret (s', c', x) -> frame s s'.
Proof.
  intros I H1 H2 H3 E. pose proof (get_slice_spec (Q := Q) cb bs nb blk H Hbs s c start count I H1 H2 H3) as L. destruct (in_range c start count).
  - destruct L as (s1 & c1 & e1 & evs & (_ & _ & _ & _ & F1 & F2 & _) & E1). rewrite E in E1. injection E1 as <- _ _. split; assumption.
  - rewrite E in L. injection L as -> _ _. apply frame_refl.
Qed.
Lemma op_frame {Q : Prop} s c o s' c' r : @WInv Q _ bs nb blk s c -> op_ok bs o -> o <> OFlush -> (forall m, o <> OResize m) -> exec_op cb s c o = Ret (s', c', r) -> frame s s'.
Proof.
  intros I Ho Hf Hr E. pose proof (i_fits _ _ _ _ _ I) as Fit. pose proof (i_total _ _ _ _ _ I) as Tot. pose proof (i_bpb _ _ _ _ _ I) as Eb.
  destruct o as [start len|start b|start count|start count off b| | | |m]; cbn [exec_op op_ok] in *.
  - assert (bs < 2^63 \/ total c = 0) as Cs by nia. unfold read_at in E. assert (zlen (zrepeat 0 len) = len) as L by (apply zlen_repeat; lia). rewrite L in E.
    rewrite (check_bounds_ok bs nb blk Hbs s c start len I) in E by lia. destruct (_ && _) eqn:EB; [|injection E as <- _ _; apply frame_refl]. apply andb_prop in EB as [B1 B2].
    rewrite (min_blocks_ok bs Hbs c len Eb) in E by lia. pose proof (cdiv_nonneg bs len Hbs ltac:(lia)) as Cn. set (k := (len + bs - 1) / bs) in *. assert (k * bs <= 2^63) as Hk by nia.
    destruct (load_range cb s c start k) as [[[s1 c1] [e|]]| |] eqn:E1; try discriminate.
    + injection E as <- _ _. apply (load_range_frame (Q := Q) s c start k s1 c1 (Some e)); auto; lia.
    + destruct (load_range_frame s c start k s1 c1 None I ltac:(lia) Cn Hk E1) as (I1 & F1 & _).
      destruct (get_slice cb s1 c1 start k) as [[[s2 c2] x]| |] eqn:E2; try discriminate. pose proof (get_slice_frame s1 c1 start k s2 c2 x I1 ltac:(lia) Cn Hk E2) as F2.
      assert (s' = s2) as -> by (destruct x; injection E; congruence). eapply frame_trans; eassumption.
  - unfold write_at in E. pose proof (zlen_nonneg b) as Zb. rewrite (check_bounds_ok bs nb blk Hbs s c start (zlen b) I) in E by lia. destruct (_ && _) eqn:EB; [|injection E as <- _ _; apply frame_refl]. apply andb_prop in EB as [B1 B2].
    rewrite (min_blocks_ok bs Hbs c (zlen b) Eb) in E by nia. pose proof (cdiv_nonneg bs (zlen b) Hbs ltac:(lia)) as Cn. set (k := (zlen b + bs - 1) / bs) in *. assert (k * bs <= 2^63) as Hk by nia.
    destruct (get_slice cb s c start k) as [[[s2 c2] x]| |] eqn:E2; try discriminate. pose proof (get_slice_frame s c start k s2 c2 x I ltac:(lia) Cn Hk E2) as F2.
    destruct x as [x|x]; [|injection E as <- _ _; exact F2]. cbv zeta in E. destruct (set_bits _ _ _ _ _); try discriminate. injection E as <- _ _; exact F2.
  - destruct (get_slice cb s c start count) as [[[s2 c2] x]| |] eqn:E2; try discriminate. pose proof (get_slice_frame s c start count s2 c2 x I ltac:(lia) ltac:(lia) ltac:(lia) E2) as F2.
    assert (s' = s2) as -> by (destruct x; injection E; congruence). exact F2.
  - destruct (get_slice cb s c start count) as [[[s2 c2] x]| |] eqn:E2; try discriminate. pose proof (get_slice_frame s c start count s2 c2 x I ltac:(lia) ltac:(lia) ltac:(lia) E2) as F2.
    destruct x as [x|x]; [|injection E as <- _ _; exact F2]. destruct (mark_dirty _ _ _) as [[c3 e]| |]; try discriminate. injection E as <- _ _; exact F2.
  - unfold load_all in E. destruct (load_range cb s c 0 (total c)) as [[[s1 c1] e]| |] eqn:E1; try discriminate. injection E as <- _ _. apply (load_range_frame (Q := Q) s c 0 (total c) s1 c1 e); auto; lia.
  - unfold get_data, load_all in E. destruct (load_range cb s c 0 (total c)) as [[[s1 c1] e]| |] eqn:E1; try discriminate. assert (s' = s1) as -> by (destruct e; injection E; congruence). apply (load_range_frame (Q := Q) s c 0 (total c) s1 c1 e); auto; lia.
  - contradiction.
  - destruct (Hr m eq_refl).
Qed.
Lemma flush_events (D : Z -> bool) evs s s' : accesses cb s evs s' ->
  (forall ev, In ev evs -> exists i b ok, ev = EvFlush i b ok /\ 0 <= i < nb s /\ zlen b = bs /\ D i = true) ->
  nb s' = nb s /\ forall j, 0 <= j < nb s -> D j = false -> blk s' j = blk s j.
Proof.
  induction 1 as [s|s i buf s1 buf' e evs s2 E Hac IH|s i buf s1 e evs s2 E Hac IH|s m s1 e evs s2 E Hac IH]; intros Hev.
  - auto.
  - destruct (Hev _ (or_introl eq_refl)) as (? & ? & ? & ? & _). discriminate.
  - destruct (Hev _ (or_introl eq_refl)) as (i' & b' & ok & Eq & Hi & Hb & HD). injection Eq as <- <- <-. destruct (h_flush _ _ _ _ H _ _ _ _ _ Hi Hb E) as (E1 & E2 & _).
    destruct IH as [I1 I2]; [intros ev Hin; rewrite E1; apply Hev; now right|]. split; [lia|]. intros j Hj HDj. rewrite I2 by (try lia; assumption). apply E2; [lia|]. congruence.
  - destruct (Hev _ (or_introl eq_refl)) as (? & ? & ? & ? & _). discriminate.
Qed.
Lemma flushes_pending A P l ok evs : flushes bs A P l ok evs -> forall ev, In ev evs -> exists i ok', ev = EvFlush i (slice (i * bs) bs A) ok' /\ In i l /\ P i = true.
Proof.
  unfold flushes. destruct ok.
  - intros -> ev Hin. apply in_map_iff in Hin as (i & <- & Hi). apply filter_In in Hi as [H1 H2]. eauto.
  - intros (l1 & j & l2 & E & ->) ev Hin. assert (forall i, In i (l1 ++ j :: l2) -> In i l /\ P i = true) as Hl by (intros i Hi; rewrite <- E in Hi; now apply filter_In in Hi).
    apply in_app_or in Hin as [Hin|[<-|[]]].
    + apply in_map_iff in Hin as (i & <- & Hi). destruct (Hl i) as [H1 H2]; [apply in_or_app; now left|]. eauto.
    + destruct (Hl j) as [H1 H2]; [apply in_or_app; right; now left|]. eauto.
Qed.
Lemma flush_frame {Q : Prop} s c s' c' r : @WInv Q _ bs nb blk s c -> exec_op cb s c OFlush = Ret (s', c', r) ->
  nb s' = nb s /\ forall j, 0 <= j < total c -> bit (dirty c) j = false -> blk s' j = blk s j.
Proof.
  intros I E. cbn [exec_op] in E. pose proof (flush_all_spec (Q := Q) cb bs nb blk H Hbs s c I) as L. pose proof (i_total _ _ _ _ _ I). pose proof (i_data _ _ _ _ _ I).
  destruct (0 <? total c) eqn:ET; [|rewrite L in E; injection E as <- _ _; auto].
  destruct L as (s1 & c1 & e & evs & E1 & _ & _ & _ & _ & _ & Hn & Hac & Hf & _). rewrite E1 in E. injection E as <- _ _. split; [exact Hn|].
  intros j Hj HD. apply (flush_events (fun j => bit (dirty c) j) evs s s1 Hac); auto; [|lia]. intros ev Hin. destruct (flushes_pending _ _ _ _ _ Hf ev Hin) as (i & ok & -> & Hi & HP).
  apply In_zrange in Hi. exists i, (slice (i * bs) bs (data c)), ok. split; [reflexivity|]. split; [lia|]. split; [apply zlen_slice; nia|exact HP].
Qed.

(** ** which blocks an operation loads and marks *)
Lemma fetched_touched s c A o r evs v' i : represents bs blk A s c -> total c = n -> op_ok bs o -> (forall m, o <> OResize m) ->
  io_step bs (viewof A c) o r evs v' -> In (EvFetch i true) evs -> touches bs n o i.
Proof.
  intros R T Ho Hr [Hio _] Hin. cbn [viewof vA vK vP] in Hio.
  assert (forall ok, traffic bs A (fun i => bit (loaded c) i) (fun i => bit (dirty c) i) o ok evs -> touches bs n o i) as HX.
  { intros ok HT. assert (forall K lo hi, fetches K (zrange lo hi) ok evs -> lo <= i < hi) as HF.
    { intros K lo hi HF. destruct (fetches_fetched _ _ _ _ (NoDup_zrange _ _) HF) as [_ H2]. apply In_zrange. apply H2. now apply In_fetched. }
    pose proof (rep_total bs blk Hbs A s c R) as RT. destruct o; cbn [traffic touches] in *; try (solve [apply HF in HT; lia | apply HF in HT; apply In_zrange; exact HT]).
    - destruct (flushes_only_flush _ _ _ _ _ _ HT _ Hin) as (? & ? & ? & _). discriminate.
    - destruct (Hr n0 eq_refl). }
  destruct r as [b| |e].
  - destruct Hio as (_ & _ & HT). eauto.
  - destruct Hio as (_ & _ & HT). eauto.
  - destruct Hio as (_ & [(_ & _ & ->)|[_ HT]]); [destruct Hin|eauto].
Qed.

(** ** one step of the shared array *)
Lemma slice_agree (X Y : list Z) start len : 0 <= start -> 0 <= len -> (forall i, In i (blocks_of bs start len) -> slice (i * bs) bs X = slice (i * bs) bs Y) ->
  slice (start * bs) len X = slice (start * bs) len Y.
Proof.
  intros H1 H2 HB. pose proof (cdiv_nonneg bs len Hbs H2) as Cn. pose proof (cdiv_ge bs len Hbs) as Cg. set (k := (len + bs - 1) / bs) in *.
  assert (slice (start * bs) (k * bs) X = slice (start * bs) (k * bs) Y) as E by (apply blocks_eq_range; auto; intros j Hj; apply HB; unfold blocks_of; fold k; apply In_zrange; lia).
  apply (sub_slice_eq X Y (start * bs) (k * bs)); first [exact E|lia|nia].
Qed.
Lemma blocks_of_mul start count : blocks_of bs start (count * bs) = zrange start (start + count).
Proof. unfold blocks_of. now rewrite cdiv_mul. Qed.
Lemma splice_outside (X : list Z) o b i : 0 <= o -> o + zlen b <= zlen X -> 0 <= i -> i * bs + bs <= zlen X -> (i * bs + bs <= o \/ o + zlen b <= i * bs) ->
  slice (i * bs) bs (splice o b X) = slice (i * bs) bs X.
Proof. intros. apply slice_splice_disj; auto; nia. Qed.
(* the step of cache k's own array is a step of the shared array *)
Lemma array_agree X Y o r X' : zlen X = bs * n -> zlen Y = bs * n -> 0 <= n -> op_ok bs o -> (forall m, o <> OResize m) ->
  (forall i, 0 <= i < n -> touches bs n o i -> slice (i * bs) bs X = slice (i * bs) bs Y) -> array_step bs X o r X' ->
  exists Y', array_step bs Y o r Y' /\ zlen Y' = bs * n /\
    (forall i, 0 <= i < n -> slice (i * bs) bs X = slice (i * bs) bs Y -> slice (i * bs) bs X' = slice (i * bs) bs Y') /\
    (forall i, 0 <= i < n -> ~ changes bs o i -> slice (i * bs) bs Y' = slice (i * bs) bs Y).
Proof.
  intros LX LY Hn Ho Hr HT HS.
  assert (forall start len, 0 <= start -> 0 <= len -> in_bounds bs X start len -> start + (len + bs - 1) / bs <= n) as Hin.
  { intros start len H1 H2 [B1 B2]. pose proof (proj2 (cdiv_le bs len (n - start) Hbs)). nia. }
  destruct o as [start len|start b|start count|start count off b| | | |m]; cbn [array_step op_ok touches changes] in *.
  - destruct HS as (-> & B & ->). exists Y. pose proof (Hin start len ltac:(lia) ltac:(lia) B). split; [split; [reflexivity|]|].
    { split; [unfold in_bounds in *; rewrite LY; rewrite LX in B; exact B|]. f_equal. apply slice_agree; try lia. intros i Hi. apply HT; [|exact Hi]. unfold blocks_of in Hi. apply In_zrange in Hi. lia. }
    split; [exact LY|]. split; auto.
  - destruct HS as (B & -> & ->). exists (splice (start * bs) b Y). pose proof (zlen_nonneg b) as Zb. pose proof (Hin start (zlen b) ltac:(lia) Zb B). destruct B as [B1 B2]. assert (0 <= start * bs) by nia.
    split; [split; [unfold in_bounds; rewrite LY, <- LX; auto|auto]|]. split; [rewrite zlen_splice by lia; exact LY|]. split.
    + intros i Hi E. apply slice_splice_cong; auto; nia.
    + intros i Hi Hc. assert (i * bs + bs <= bs * n) by nia. apply splice_outside; [lia|lia|lia|lia|]. unfold blocks_of in Hc. rewrite In_zrange in Hc. destruct (Z_lt_le_dec i start); [left; nia|right].
      pose proof (cdiv_ge bs (zlen b) Hbs). assert (start + (zlen b + bs - 1) / bs <= i) by lia. nia.
  - destruct HS as (-> & B & ->). exists Y. pose proof (Hin start (count * bs) ltac:(lia) ltac:(nia) B) as Hc. rewrite cdiv_mul in Hc by lia. split; [split; [reflexivity|]|].
    { split; [unfold in_bounds in *; rewrite LY; rewrite LX in B; exact B|]. f_equal. apply slice_agree; try lia; try nia. intros i Hi. rewrite blocks_of_mul in Hi. apply In_zrange in Hi. apply HT; lia. }
    split; [exact LY|]. split; auto.
  - destruct HS as (B & -> & ->). exists (splice (start * bs + off) b Y). pose proof (zlen_nonneg b) as Zb. pose proof (Hin start (count * bs) ltac:(lia) ltac:(nia) B) as Hc. rewrite cdiv_mul in Hc by lia. pose proof B as [B1 B2]. assert (0 <= start * bs) by nia.
    split; [split; [unfold in_bounds; rewrite LY, <- LX; auto|auto]|]. split; [rewrite zlen_splice by lia; exact LY|]. split.
    + intros i Hi E. apply slice_splice_cong; auto; nia.
    + intros i Hi Hc'. assert (i * bs + bs <= bs * n) by nia. apply splice_outside; [lia|lia|lia|lia|]. destruct (Z_lt_le_dec i start); [left; nia|right]. assert (start + count <= i) by lia. nia.
  - destruct HS as (-> & ->). exists Y. auto 8.
  - destruct HS as (-> & ->). exists Y. split; [split; [reflexivity|]|auto]. f_equal. apply (blocks_eq _ _ bs n); [exact Hbs|lia|lia|lia|]. intros j Hj. apply HT; lia.
  - destruct HS as (-> & ->). exists Y. auto 8.
  - destruct (Hr m eq_refl).
Qed.

Lemma share_step s p A k o : Good s p A -> follows bs n rd wr (k, o) ->
  exists s' c' r A', exec_op cb s (p k) o = Ret (s', c', r) /\ Good s' (put p k c') A' /\
    ((exists e, r = RErr e) /\ A' = A \/ (forall e, r <> RErr e) /\ array_step bs A o r A').
Proof.
  intros G (Ho & Hr & Hrd & Hwr). cbn [fst snd] in *. set (c := p k) in *.
  pose proof (g_inv _ _ _ G k) as I. pose proof (g_tot _ _ _ G k) as T. fold c in I, T. pose proof (contents_spec cb bs nb blk H s c Hbs I) as R. set (X := contents blk s c) in *.
  destruct (step_all cb bs nb blk H Hbs s c X o I R Ho) as (s' & c' & r & evs & X' & E & I' & R' & Hac & Hio).
  assert (nb s' = nb s /\ forall j, 0 <= j < n -> bit (dirty c) j = false -> blk s' j = blk s j) as [Fn Fb].
  { assert (o = OFlush \/ o <> OFlush) as [->|Hf] by (destruct o; auto; right; discriminate).
    - rewrite <- T. exact (flush_frame s c s' c' r I E).
    - destruct (op_frame s c o s' c' r I Ho Hf Hr E) as [F1 F2]. split; [exact F1|]. intros j Hj _. apply F2. pose proof (g_n _ _ _ G). lia. }
  pose proof (g_n _ _ _ G) as Hn. pose proof R as R0. pose proof Hio as Hio0. destruct R as [RL RB]. destruct R' as [RL' RB']. rewrite T in RL, RB.
  (* the arrays agree on the blocks cache k may look at *)
  assert (forall i, 0 <= i < n -> rd k i = true -> slice (i * bs) bs X = slice (i * bs) bs A) as Agree by (intros i Hi Hk; rewrite RB by lia; symmetry; apply (g_rd _ _ _ G); auto).
  assert (exists A', ((exists e, r = RErr e) /\ A' = A \/ (forall e, r <> RErr e) /\ array_step bs A o r A') /\ zlen A' = bs * n /\ zlen X' = bs * n /\
    (forall i, 0 <= i < n -> rd k i = true -> slice (i * bs) bs X' = slice (i * bs) bs A') /\
    (forall i, 0 <= i < n -> wr k i = false -> slice (i * bs) bs A' = slice (i * bs) bs A)) as (A' & HA & LA & LX & HA1 & HA2).
  { destruct Hio as [Hio _]. cbn [viewof vA] in Hio. assert ((exists e, r = RErr e) /\ X' = X \/ (forall e, r <> RErr e) /\ array_step bs X o r X') as [[He ->]|[He HS]].
    { destruct r as [b| |e]; [right|right|left]; (split; [try discriminate; eauto|]); apply Hio. }
    - exists A. split; [auto|]. split; [apply (g_len _ _ _ G)|]. split; [exact RL|]. split; auto.
    - destruct (array_agree X A o r X' RL (g_len _ _ _ G) ltac:(lia) Ho Hr ltac:(intros; apply Agree; auto) HS) as (A' & HS' & LA & C1 & C2).
      exists A'. split; [right; auto|]. split; [exact LA|]. split; [destruct (array_step_len bs X n o r X' Hbs ltac:(lia) Ho HS) as (T' & EX & _ & ET); rewrite EX, (ET Hr); lia|]. split.
      + intros i Hi Hk. apply C1; auto.
      + intros i Hi Hw. apply C2; auto. intros Hc. rewrite Hwr in Hw by auto. discriminate. }
  exists s', c', r, A'. split; [exact E|]. split; [|exact HA].
  assert (total c' = n) as T' by nia. destruct Hio as [_ HKP]. cbn [viewof vA vK vP] in HKP. assert (zlen X' / bs = n) as NX by (rewrite LX, Z.mul_comm; apply Z.div_mul; lia). assert (zlen X / bs = n) as NX0 by (rewrite RL, Z.mul_comm; apply Z.div_mul; lia).
  rewrite NX, NX0 in HKP.
  assert (forall i, 0 <= i < n -> wr k i = false -> bit (dirty c) i = false) as Dw by (intros i Hi Hw; destruct (bit (dirty c) i) eqn:ED; [|reflexivity]; rewrite (g_dt _ _ _ G k i Hi ED) in Hw; discriminate).
  assert (forall j i, j <> k -> rd j i = true -> wr k i = false) as Ex by (intros j i Hj Hd; destruct (wr k i) eqn:EW; [|reflexivity]; destruct (Hex k i EW) as [_ Hu]; destruct (Hj (Hu j Hd))).
  assert (forall i, 0 <= i < n -> bit (dirty c') i = true -> wr k i = true) as Dw'.
  { intros i Hi HD. destruct (HKP i Hi) as [_ HP]. apply HP in HD as [[HD _]|[_ HM]]; [apply (g_dt _ _ _ G k i Hi HD)|]. apply Hwr; [exact Hi|]. destruct o; try exact HM; cbn [modified created changes] in *; try contradiction. destruct (Hr n0 eq_refl). }
  constructor.
  - lia.
  - exact LA.
  - intros j. destruct (Nat.eq_dec j k) as [->|Hj]; [rewrite put_same; exact I'|]. rewrite put_other by exact Hj. pose proof (g_inv _ _ _ G j) as Ij. destruct Ij as [J1 J2 J3 J4 J5 J6 J7 J8]. constructor; auto.
    + lia.
    + intros HQ i Hi HL HC. rewrite (J8 HQ i Hi HL HC). rewrite (g_tot _ _ _ G j) in Hi. pose proof (Ex j i Hj (g_ld _ _ _ G j i Hi HL)) as Hw. symmetry. apply Fb; auto.
  - intros j. destruct (Nat.eq_dec j k) as [->|Hj]; [rewrite put_same; exact T'|]. rewrite put_other by exact Hj. apply (g_tot _ _ _ G).
  - intros j i Hi. destruct (Nat.eq_dec j k) as [->|Hj]; [rewrite put_same|rewrite put_other by exact Hj; apply (g_ld _ _ _ G); exact Hi]. intros HL. destruct (HKP i Hi) as [HK _]. apply HK in HL as [[HL _]|[HL|[_ HC]]].
    + apply (g_ld _ _ _ G k i Hi HL).
    + apply Hrd; [exact Hi|]. exact (fetched_touched s c X o r evs _ i R0 T Ho Hr Hio0 HL).
    + destruct o; try contradiction. destruct (Hr n0 eq_refl).
  - intros j i Hi. destruct (Nat.eq_dec j k) as [->|Hj]; [rewrite put_same; apply Dw'; exact Hi|rewrite put_other by exact Hj; apply (g_dt _ _ _ G); exact Hi].
  - intros j i Hi Hj. destruct (Nat.eq_dec j k) as [->|Hjk]; [rewrite put_same|rewrite put_other by exact Hjk].
    + rewrite <- HA1 by auto. apply RB'. lia.
    + pose proof (Ex j i Hjk Hj) as Hw. rewrite HA2 by auto. rewrite (g_rd _ _ _ G j i Hi Hj). unfold vb. destruct (bit (loaded (p j)) i); [reflexivity|]. symmetry. apply Fb; auto.
  - intros i Hi Hcl. pose proof (Hcl k) as Hk. rewrite put_same in Hk. destruct (rd k i) eqn:ER.
    + rewrite <- HA1 by auto. rewrite RB' by lia. unfold vb. destruct (bit (loaded c') i) eqn:EL; [|reflexivity]. apply (i_clean _ _ _ _ _ I'); [exact Logic.I|lia|exact EL|exact Hk].
    + assert (wr k i = false) as Hw by (destruct (wr k i) eqn:EW; [|reflexivity]; destruct (Hex k i EW) as [Hd _]; congruence).
      rewrite HA2 by auto. rewrite Fb by auto. apply (g_cl _ _ _ G); [exact Hi|]. intros j. destruct (Nat.eq_dec j k) as [->|Hj]; [apply Dw; auto|]. specialize (Hcl j). rewrite put_other in Hcl by exact Hj. exact Hcl.
Qed.
Lemma share_run os : forall s p A, Good s p A -> Forall (follows bs n rd wr) os ->
  exists s' p' rs A', share cb s p os = Ret (s', p', rs) /\ Good s' p' A' /\ array_run bs A (map snd os) rs A'.
Proof.
  induction os as [|[k o] os IH]; intros s p A G HF; [exists s, p, [], A; split; [reflexivity|split; [exact G|constructor]]|].
  inversion HF as [|? ? Hf HF']; subst. destruct (share_step s p A k o G Hf) as (s1 & c1 & r & A1 & E & G1 & HA). destruct (IH s1 (put p k c1) A1 G1 HF') as (s2 & p2 & rs & A2 & E2 & G2 & R2).
  exists s2, p2, (r :: rs), A2. cbn [share map snd]. rewrite E, E2. split; [reflexivity|]. split; [exact G2|]. destruct HA as [[[e ->] ->]|[He HA]]; [now constructor|econstructor; eauto].
Qed.
Lemma good_fresh s : 0 <= n <= nb s -> bs * n < 2^63 -> Good s (fun _ => new_cache bs n) (storage_bytes blk s n).
Proof.
  intros Hn Hf. assert (0 <= n < 2^63) by nia. pose proof (bits_for_ge n ltac:(lia)). destruct (new_rep cb bs nb blk H Hbs s n Hn Hf) as [RL RB]. cbn [new_cache total] in RL, RB.
  assert (forall i, 0 <= i < n -> bit (bitmap_new n) i = false) as HB by (intros i Hi; unfold bitmap_new; apply znth_repeat; lia).
  constructor; auto.
  - intros k. now apply new_inv.
  - intros k i Hi. cbn [new_cache loaded]. rewrite HB by exact Hi. discriminate.
  - intros k i Hi. cbn [new_cache dirty]. rewrite HB by exact Hi. discriminate.
  - intros i Hi _. rewrite RB by lia. unfold vb. cbn [new_cache loaded]. now rewrite HB.
Qed.
Lemma good_clean s p A : Good s p A -> (forall k i, 0 <= i < n -> bit (dirty (p k)) i = false) -> storage_bytes blk s n = A.
Proof.
  intros G Hc. pose proof (g_n _ _ _ G) as Hn. pose proof (g_len _ _ _ G) as HL. destruct (storage_bytes_spec cb bs nb blk H Hbs s (Z.to_nat n)) as [E1 E2]; [lia|]. rewrite Z2Nat.id in E1, E2 by lia.
  apply (blocks_eq _ _ bs n); [exact Hbs|lia|lia|lia|]. intros j Hj. rewrite E2 by lia. symmetry. apply (g_cl _ _ _ G); auto.
Qed.
Lemma flush_follows k : follows bs n rd wr (k, OFlush).
Proof. split; [exact Logic.I|]. split; [discriminate|]. split; intros i _ []. Qed.
Lemma array_flushes ks rs A A' : array_run bs A (map snd (map (fun k : nat => (k, OFlush)) ks)) rs A' -> A' = A.
Proof.
  revert rs A. induction ks as [|k ks IH]; intros rs A HA; cbn [map snd] in HA; inversion HA; subst; [reflexivity| |eauto].
  match goal with HS : array_step _ _ OFlush _ _ |- _ => destruct HS as [-> _] end. eauto.
Qed.
Lemma flush_pool ks : forall s p A s' p' rs, Good s p A -> share cb s p (map (fun k => (k, OFlush)) ks) = Ret (s', p', rs) -> Forall (eq ROk) rs ->
  forall k i, 0 <= i < n -> (In k ks \/ bit (dirty (p k)) i = false) -> bit (dirty (p' k)) i = false.
Proof.
  induction ks as [|k0 ks IH]; intros s p A s' p' rs G E HF k i Hi HD; cbn [map share] in E; [injection E as <- <- <-; destruct HD as [[]|HD]; exact HD|].
  destruct (share_step s p A k0 OFlush G (flush_follows k0)) as (s1 & c1 & r & A1 & E1 & G1 & _). rewrite E1 in E.
  destruct (share cb s1 (put p k0 c1) (map (fun k => (k, OFlush)) ks)) as [[[s2 p2] rs2]| |] eqn:E2; try discriminate. injection E as <- <- <-. inversion HF as [|? ? Hr HF']; subst.
  eapply (IH s1 (put p k0 c1) A1 s2 p2 rs2 G1 E2 HF' k i Hi). destruct (Nat.eq_dec k k0) as [->|Hk].
  - right. rewrite put_same. cbn [exec_op] in E1. destruct (flush_all cb s (p k0)) as [[[s3 c3] [e|]]| |] eqn:EF; try discriminate. injection E1 as <- <-.
    destruct (flush_ok_clean cb bs nb blk H s (p k0) s3 c3 Hbs (g_inv _ _ _ G k0) EF) as (_ & _ & _ & Hcl & _). apply Hcl. rewrite (g_tot _ _ _ G). exact Hi.
  - destruct HD as [[->|HD]|HD]; [contradiction|left; exact HD|right; rewrite put_other by exact Hk; exact HD].
Qed.
Lemma share_disjoint s0 os : 0 <= n <= nb s0 -> bs * n < 2^63 -> Forall (follows bs n rd wr) os ->
  exists s p rs A, share cb s0 (fun _ => new_cache bs n) os = Ret (s, p, rs) /\ array_run bs (storage_bytes blk s0 n) (map snd os) rs A /\
    forall ks s' p' rs', (forall k i, wr k i = true -> In k ks) -> share cb s p (map (fun k => (k, OFlush)) ks) = Ret (s', p', rs') -> Forall (eq ROk) rs' ->
      storage_bytes blk s' n = A.
Proof.
  intros Hn Hf HF. destruct (share_run os s0 _ _ (good_fresh s0 Hn Hf) HF) as (s & p & rs & A & E & G & R). exists s, p, rs, A. split; [exact E|]. split; [exact R|].
  intros ks s' p' rs' Hks E' HO. pose proof (flush_pool ks s p A s' p' rs' G E' HO) as HC.
  destruct (share_run (map (fun k => (k, OFlush)) ks) s p A G) as (s2 & p2 & rs2 & A2 & E2 & G2 & R2); [apply Forall_forall; intros x Hx; apply in_map_iff in Hx as (k & <- & _); apply flush_follows|].
  rewrite E' in E2. injection E2 as <- <- <-. apply array_flushes in R2. subst A2. apply (good_clean s' p' A G2). intros k i Hi. apply HC; [exact Hi|].
  destruct (bit (dirty (p k)) i) eqn:ED; [left|right; reflexivity]. apply (Hks k i). apply (g_dt _ _ _ G k i Hi ED).
Qed.
End Share.

(** ** Any use of the caches *)
Section Any.
Context {S : Type} (cb : callbacks S) (bs : Z) (nb : S -> Z) (blk : S -> Z -> list Z).
Hypothesis H : honest cb bs nb blk.
Hypothesis Hbs : 0 < bs.
Variable n : Z.
Notation bit l i := (znth false l i).
Notation WI := (@WInv False _ bs nb blk).
Definition shaped (s : S) (p : pool) : Prop := 0 <= n <= nb s /\ forall k, WI s (p k) /\ total (p k) = n.
Lemma winv_move s s' c : WI s c -> total c <= nb s' -> WI s' c.
Proof. intros [J1 J2 J3 J4 J5 J6 J7 J8] Hn. constructor; auto; [lia|intros []]. Qed.
(* one operation on cache k, whatever the other caches did to the storage *)
Lemma any_step s p k o : shaped s p -> op_ok bs o -> (forall m, o <> OResize m) ->
  exists s' c' r, exec_op cb s (p k) o = Ret (s', c', r) /\ shaped s' (put p k c').
Proof.
  intros [Hn HS] Ho Hr. destruct (HS k) as [I T]. set (c := p k) in *. pose proof (wcontents_spec cb bs nb blk H s c Hbs I) as R.
  destruct (step_all (Q := False) cb bs nb blk H Hbs s c _ o I R Ho) as (s' & c' & r & evs & X' & E & I' & R' & Hac & Hio). exists s', c', r. split; [exact E|].
  assert (nb s' = nb s /\ total c' = n) as [Fn T'].
  { split.
    - assert (o = OFlush \/ o <> OFlush) as [->|Hf] by (destruct o; auto; right; discriminate).
      + apply (flush_frame cb bs nb blk H Hbs (Q := False) s c s' c' r I E).
      + apply (op_frame cb bs nb blk H Hbs n (Q := False) s c o s' c' r I Ho Hf Hr E).
    - destruct Hio as [Hio _]. cbn [viewof vA] in Hio. destruct R as [RL _], R' as [RL' _]. rewrite T in RL. set (X := contents blk s c) in *.
      assert (zlen X' = bs * n) as LX; [|nia].
      assert (X' = X \/ array_step bs X o r X') as [->|HS'] by (destruct r as [b| |e]; [right|right|left]; apply Hio); [exact RL|].
      destruct (array_step_len bs X n o r X' Hbs ltac:(lia) Ho HS') as (T' & EX & _ & ET). rewrite EX, (ET Hr). lia. }
  split; [lia|]. intros j. destruct (Nat.eq_dec j k) as [->|Hj]; [rewrite put_same; auto|]. rewrite put_other by exact Hj. destruct (HS j) as [Ij Tj]. split; [|exact Tj]. apply (winv_move s); [exact Ij|lia].
Qed.
Lemma any_run os : forall s p, shaped s p -> Forall (fun ko => op_ok bs (snd ko) /\ forall m, snd ko <> OResize m) os ->
  exists s' p' rs, share cb s p os = Ret (s', p', rs) /\ shaped s' p' /\ length rs = length os /\ forall k, Forall (fun ko => fst ko <> k) os -> p' k = p k.
Proof.
  induction os as [|[k o] os IH]; intros s p HS HF; [exists s, p, []; auto|]. inversion HF as [|? ? [Ho Hr] HF']; subst. cbn [snd] in *.
  destruct (any_step s p k o HS Ho Hr) as (s1 & c1 & r & E & HS1). destruct (IH s1 (put p k c1) HS1 HF') as (s2 & p2 & rs & E2 & HS2 & HL & HK).
  exists s2, p2, (r :: rs). cbn [share]. rewrite E, E2. split; [reflexivity|]. split; [exact HS2|]. split; [cbn; now rewrite HL|]. intros j Hj. inversion Hj as [|? ? Hj1 Hj2]; subst. cbn [fst] in Hj1. rewrite HK by exact Hj2. apply put_other. congruence.
Qed.
Lemma shaped_fresh s : 0 <= n <= nb s -> bs * n < 2^63 -> shaped s (fun _ => new_cache bs n).
Proof. intros Hn Hf. split; [exact Hn|]. intros k. split; [now apply new_winv|reflexivity]. Qed.
(* a block that was read is never fetched again *)
Lemma read_again s c a l s' c' b s2 : WI s c -> op_ok bs (ORead a l) -> exec_op cb s c (ORead a l) = Ret (s', c', RBytes b) -> WI s2 c' ->
  exists s3 c3, exec_op cb s2 c' (ORead a l) = Ret (s3, c3, RBytes b).
Proof.
  intros I Ho E I2. pose proof (wcontents_spec cb bs nb blk H s c Hbs I) as R. pose proof (wcontents_spec cb bs nb blk H s2 c' Hbs I2) as R2.
  destruct (step_all (Q := False) cb bs nb blk H Hbs s c _ _ I R Ho) as (s1 & c1 & r & evs & X' & E1 & I1 & R1 & _ & Hio). rewrite E in E1. injection E1 as <- <- <-.
  destruct Hio as [(HA & HB & HT) HKP]. cbn [viewof vA vK vP array_step op_in_bounds traffic] in *. destruct HA as (-> & _ & Eb). injection Eb as ->.
  set (X := contents blk s c) in *. set (X2 := contents blk s2 c') in *.
  pose proof (rep_total bs blk Hbs _ _ _ R) as NX. destruct R as [RL RB], R1 as [RL1 RB1]. pose proof R2 as [RL2 RB2]. pose proof (i_total _ _ _ _ _ I) as Ht.
  assert (total c' = total c) as T by nia. rewrite T in *.
  assert (forall i, In i (blocks_of bs a l) -> 0 <= i < total c /\ znth false (loaded c') i = true) as HL.
  { intros i Hi. assert (0 <= i < total c) as Hr.
    { unfold blocks_of in Hi. apply In_zrange in Hi. destruct HB as [B1 B2]. cbn [op_ok] in Ho. pose proof (proj2 (cdiv_le bs l (total c - a) Hbs)). nia. }
    split; [exact Hr|]. destruct (HKP i ltac:(lia)) as [HK _]. apply HK. destruct (znth false (loaded c) i) eqn:EL; [left; split; [reflexivity|lia]|right; left].
    unfold fetches in HT. rewrite HT. apply in_map_iff. exists i. split; [reflexivity|]. apply filter_In. split; [exact Hi|]. now rewrite EL. }
  assert (slice (a * bs) l X2 = slice (a * bs) l X) as ES.
  { cbn [op_ok] in Ho. apply (slice_agree bs Hbs); try lia. intros i Hi. destruct (HL i Hi) as [Hr EL]. rewrite RB2, RB1 by lia. unfold vb. now rewrite EL. }
  destruct (step_all (Q := False) cb bs nb blk H Hbs s2 c' X2 _ I2 R2 Ho) as (s3 & c3 & r & evs2 & X3 & E3 & _ & _ & _ & Hio2).
  exists s3, c3. rewrite E3. f_equal. f_equal. destruct Hio2 as [Hio2 _]. cbn [viewof vA vK vP array_step op_in_bounds traffic] in Hio2.
  destruct r as [b2| |e].
  - destruct Hio2 as ((_ & _ & Eb) & _). rewrite Eb, ES. reflexivity.
  - destruct Hio2 as ((_ & _ & Eb) & _). discriminate.
  - exfalso. destruct Hio2 as (_ & [(HN & _)|(_ & HT2)]).
    + apply HN. unfold in_bounds in *. rewrite RL2. rewrite RL in HB. exact HB.
    + unfold fetches in HT2. destruct HT2 as (l1 & j & l2 & EN & _).
      assert (In j (filter (fun i => negb (znth false (loaded c') i)) (blocks_of bs a l))) as Hj by (rewrite EN; apply in_or_app; right; now left).
      apply filter_In in Hj as [Hj1 Hj2]. destruct (HL j Hj1) as [_ EL]. rewrite EL in Hj2. discriminate.
Qed.
Lemma share_app os1 os2 : forall s p, share cb s p (os1 ++ os2) =
  match share cb s p os1 with
  | Ret (s1, p1, rs1) => match share cb s1 p1 os2 with Ret (s2, p2, rs2) => Ret (s2, p2, rs1 ++ rs2) | Panic => Panic | OutOfFuel => OutOfFuel end
  | Panic => Panic | OutOfFuel => OutOfFuel
  end.
Proof.
  induction os1 as [|[k o] os1 IH]; intros s p; cbn [app share]; [destruct (share cb s p os2) as [[[? ?] ?]| |]; reflexivity|].
  destruct (exec_op cb s (p k) o) as [[[s1 c1] r]| |]; try reflexivity. rewrite IH. destruct (share cb s1 (put p k c1) os1) as [[[s2 p2] rs2]| |]; try reflexivity.
  destruct (share cb s2 p2 os2) as [[[? ?] ?]| |]; reflexivity.
Qed.
Lemma stale s0 os1 os2 k a l s1 p1 rs1 s2 c2 b : 0 <= n <= nb s0 -> bs * n < 2^63 ->
  Forall (fun ko => op_ok bs (snd ko) /\ forall m, snd ko <> OResize m) (os1 ++ os2) -> op_ok bs (ORead a l) -> Forall (fun ko => fst ko <> k) os2 ->
  share cb s0 (fun _ => new_cache bs n) os1 = Ret (s1, p1, rs1) -> exec_op cb s1 (p1 k) (ORead a l) = Ret (s2, c2, RBytes b) ->
  exists s p rs, share cb s0 (fun _ => new_cache bs n) (os1 ++ (k, ORead a l) :: os2 ++ [(k, ORead a l)]) = Ret (s, p, rs1 ++ RBytes b :: rs ++ [RBytes b]).
Proof.
  intros Hn Hf HF Ho HK E1 E2. apply Forall_app in HF as [HF1 HF2]. destruct (any_run os1 s0 _ (shaped_fresh s0 Hn Hf) HF1) as (s1' & p1' & rs1' & E1' & HS1 & _). rewrite E1 in E1'. injection E1' as <- <- <-.
  destruct (any_step s1 p1 k (ORead a l) HS1 Ho ltac:(discriminate)) as (s2' & c2' & r & E2' & HS2). rewrite E2 in E2'. injection E2' as <- <- <-.
  destruct (any_run os2 s2 (put p1 k c2) HS2 HF2) as (s3 & p3 & rs3 & E3 & HS3 & _ & HP). specialize (HP k HK). rewrite put_same in HP.
  destruct (read_again s1 (p1 k) a l s2 c2 b s3) as (s4 & c4 & E4); auto.
  { apply (proj1 (proj2 HS1 k)). }
  { rewrite <- HP. apply (proj1 (proj2 HS3 k)). }
  exists s4, (put p3 k c4), rs3. rewrite share_app, E1. cbn [share]. rewrite E2, share_app, E3. cbn [share]. rewrite HP, E4. reflexivity.
Qed.
End Any.
