(** * ReportProofs: caches and streams report the failures of their storage *)
From Verif Require Import GoBase ListZ Errors Flags BlockCache Spec_BlockCache BasicStream Spec_BasicStream Spec_Report.

Section Told.
Context {S : Type} (cb : callbacks S) (hist : S -> list (option kerr)) (HR : recalls cb hist).
Notation told := (told hist).
(* the same for operations that do not resize: the error always has a message in front *)
Definition toldm (s s' : S) (e : option kerr) : Prop :=
  exists n, hist s' = hist s ++ repeat None n \/ exists x, hist s' = hist s ++ repeat None n ++ [Some x] /\ e = Some (KMsg x).
Lemma toldm_told s s' e : toldm s s' e -> told s s' e.
Proof. intros (n & [E|(x & E & X)]); exists n; [left; exact E|right; exists x; split; [exact E|right; exact X]]. Qed.

Lemma told_refl s e : told s s e.
Proof. exists 0%nat. left. now rewrite app_nil_r. Qed.
Lemma toldm_refl s e : toldm s s e.
Proof. exists 0%nat. left. now rewrite app_nil_r. Qed.
Lemma told_more s s1 s2 e : told s s1 None -> told s1 s2 e -> told s s2 e.
Proof.
  intros (n & [E|(x & _ & [X|X])]) (m & H); [|discriminate|discriminate]. exists (n + m)%nat. rewrite repeat_app. destruct H as [E2|(x & E2 & X)].
  - left. now rewrite E2, E, app_assoc.
  - right. exists x. split; [|exact X]. now rewrite E2, E, <- !app_assoc.
Qed.
Lemma toldm_more s s1 s2 e : toldm s s1 None -> toldm s1 s2 e -> toldm s s2 e.
Proof.
  intros (n & [E|(x & _ & X)]) (m & H); [|discriminate]. exists (n + m)%nat. rewrite repeat_app. destruct H as [E2|(x & E2 & X)].
  - left. now rewrite E2, E, app_assoc.
  - right. exists x. split; [|exact X]. now rewrite E2, E, <- !app_assoc.
Qed.
(* after a success anything may be returned *)
Lemma told_ok s s' e : told s s' None -> told s s' e.
Proof. intros H. eapply told_more; [exact H|apply told_refl]. Qed.
Lemma toldm_ok s s' e : toldm s s' None -> toldm s s' e.
Proof. intros H. eapply toldm_more; [exact H|apply toldm_refl]. Qed.
Lemma toldm_one s s' e : hist s' = hist s ++ [e] -> toldm s s' (option_map KMsg e).
Proof. intros E. destruct e as [x|]; [exists 0%nat; right; exists x; auto|exists 1%nat; left; exact E]. Qed.
Lemma toldm_fetch s i buf s' b e : cb_fetch cb s i buf = (s', b, e) -> toldm s s' (option_map KMsg e).
Proof. intros E. apply toldm_one. pose proof (rec_fetch _ _ HR s i buf) as H. rewrite E in H. exact H. Qed.
Lemma toldm_flush s i buf s' e : cb_flush cb s i buf = (s', e) -> toldm s s' (option_map KMsg e).
Proof. intros E. apply toldm_one. pose proof (rec_flush _ _ HR s i buf) as H. rewrite E in H. exact H. Qed.
Lemma told_cbresize s n s' e : cb_resize cb s n = (s', e) -> told s s' e.
Proof.
  intros E. pose proof (rec_resize _ _ HR s n) as H. rewrite E in H. cbn [fst snd] in H.
  destruct e as [x|]; [exists 0%nat; right; exists x; split; [exact H|left; reflexivity]|exists 1%nat; left; exact H].
Qed.

(** ** the cache *)
Lemma load_toldm fuel : forall i stop s c s' c' e, load_loop cb fuel i stop s c = Ret (s', c', e) -> toldm s s' e.
Proof.
  induction fuel as [|fuel IH]; intros i stop s c s' c' e H; cbn [load_loop] in H; [discriminate|].
  destruct (i <? stop); [|injection H as <- _ <-; apply toldm_refl].
  destruct (bget (loaded c) (i64 i)) as [[|]| |]; try discriminate; [eapply IH; exact H|].
  destruct (data_slice (data c) _ _) as [buffer| |]; try discriminate.
  destruct (cb_fetch cb s i buffer) as [[s1 b1] [x|]] eqn:EF; cbv zeta iota in H.
  - injection H as <- _ <-. exact (toldm_fetch _ _ _ _ _ _ EF).
  - destruct (bset (loaded c) (i64 i) true); try discriminate. destruct (bset (dirty c) (i64 i) false); try discriminate.
    eapply toldm_more; [exact (toldm_fetch _ _ _ _ _ _ EF)|]. eapply IH; exact H.
Qed.
Lemma load_range_toldm s c start count s' c' e : load_range cb s c start count = Ret (s', c', e) -> toldm s s' e.
Proof.
  unfold load_range. destruct (check_bounds c start _) as [[x|]| |]; try discriminate.
  - intros [= <- _ <-]. apply toldm_refl.
  - apply load_toldm.
Qed.
Definition oerr {A} (r : A + kerr) : option kerr := match r with inl _ => None | inr e => Some e end.
Lemma get_slice_toldm s c start count s' c' r : get_slice cb s c start count = Ret (s', c', r) -> toldm s s' (oerr r).
Proof.
  unfold get_slice. destruct (load_range cb s c start count) as [[[s1 c1] [x|]]| |] eqn:EL; try discriminate.
  - intros [= <- _ <-]. eapply load_range_toldm; exact EL.
  - destruct (data_slice _ _ _); try discriminate. intros [= <- _ <-]. eapply load_range_toldm; exact EL.
Qed.
Lemma flush_toldm fuel : forall i stop s c s' c' e, flush_loop cb fuel i stop s c = Ret (s', c', e) -> toldm s s' e.
Proof.
  induction fuel as [|fuel IH]; intros i stop s c s' c' e H; cbn [flush_loop] in H; [discriminate|].
  destruct (u64 i <? stop); [|injection H as <- _ <-; apply toldm_refl].
  destruct (bget (dirty c) i) as [[|]| |]; try discriminate; [|eapply IH; exact H].
  destruct (get_slice cb s c (u64 i) 1) as [[[s1 c1] [buffer|x]]| |] eqn:EG; try discriminate.
  - apply get_slice_toldm in EG. cbn [oerr] in EG. destruct (cb_flush cb s1 (u64 i) buffer) as [s2 [x|]] eqn:EF.
    + injection H as <- _ <-. eapply toldm_more; [exact EG|]. exact (toldm_flush _ _ _ _ _ EF).
    + destruct (bset (dirty c1) i false); try discriminate. eapply toldm_more; [exact EG|]. eapply toldm_more; [exact (toldm_flush _ _ _ _ _ EF)|]. eapply IH; exact H.
  - apply get_slice_toldm in EG. now injection H as <- _ <-.
Qed.
Lemma flush_range_toldm s c start count s' c' e : flush_range cb s c start count = Ret (s', c', e) -> toldm s s' e.
Proof.
  unfold flush_range. destruct (check_bounds c start _) as [[x|]| |]; try discriminate.
  - intros [= <- _ <-]. apply toldm_refl.
  - apply flush_toldm.
Qed.
Lemma get_data_toldm s c s' c' r : get_data cb s c = Ret (s', c', r) -> toldm s s' (oerr r).
Proof.
  unfold get_data. destruct (load_all cb s c) as [[[s1 c1] [x|]]| |] eqn:EL; try discriminate; intros [= <- _ <-]; eapply load_range_toldm; exact EL.
Qed.
Lemma read_at_toldm s c buf start s' c' b n e : read_at cb s c buf start = Ret (s', c', b, n, e) -> toldm s s' e.
Proof.
  unfold read_at. destruct (check_bounds c start _) as [[x|]| |]; try discriminate; [intros [= <- _ _ _ <-]; apply toldm_refl|].
  destruct (min_blocks c _) as [k| |]; try discriminate. destruct (load_range cb s c start k) as [[[s1 c1] [x|]]| |] eqn:EL; try discriminate.
  - intros [= <- _ _ _ <-]. eapply load_range_toldm; exact EL.
  - destruct (get_slice cb s1 c1 start k) as [[[s2 c2] [src|x]]| |] eqn:EG; try discriminate; intros [= <- _ _ _ <-];
    (eapply toldm_more; [eapply load_range_toldm; exact EL|]); apply get_slice_toldm in EG; exact EG.
Qed.
Lemma write_at_toldm s c buf start s' c' n e : write_at cb s c buf start = Ret (s', c', n, e) -> toldm s s' e.
Proof.
  unfold write_at. destruct (check_bounds c start _) as [[x|]| |]; try discriminate; [intros [= <- _ _ <-]; apply toldm_refl|].
  destruct (min_blocks c _) as [k| |]; try discriminate. destruct (get_slice cb s c start k) as [[[s1 c1] [t|x]]| |] eqn:EG; try discriminate; apply get_slice_toldm in EG.
  - cbv zeta. destruct (set_bits _ _ _ _ _); try discriminate. now intros [= <- _ _ <-].
  - now intros [= <- _ _ <-].
Qed.
Lemma resize_told s c n s' c' e : resize cb s c n = Ret (s', c', e) -> told s s' e.
Proof.
  unfold resize. destruct (cb_resize cb s n) as [s1 [x|]] eqn:ER; cbv zeta iota.
  - intros [= <- _ <-]. eapply told_cbresize; exact ER.
  - destruct (set_bits _ _ _ _ _); try discriminate. intros [= <- _ <-]. eapply told_cbresize; exact ER.
Qed.
Lemma exec_told s c o s' c' r : exec_op cb s c o = Ret (s', c', r) -> told s s' (match r with RErr e => Some e | _ => None end).
Proof.
  destruct o; cbn [exec_op].
  - destruct (read_at cb s c _ _) as [[[[[s1 c1] b1] n1] [x|]]| |] eqn:E; try discriminate; intros [= <- _ <-]; eapply toldm_told, read_at_toldm; exact E.
  - destruct (write_at cb s c _ _) as [[[[s1 c1] n1] x]| |] eqn:E; try discriminate. intros [= <- _ <-]. apply write_at_toldm, toldm_told in E. now destruct x.
  - destruct (get_slice cb s c _ _) as [[[s1 c1] [b1|x]]| |] eqn:E; try discriminate; intros [= <- _ <-]; apply get_slice_toldm, toldm_told in E; exact E.
  - destruct (get_slice cb s c _ _) as [[[s1 c1] [b1|x]]| |] eqn:E; try discriminate; apply get_slice_toldm, toldm_told in E.
    + destruct (mark_dirty _ _ _) as [[c2 x]| |]; try discriminate. intros [= <- _ <-]. now apply told_ok.
    + now intros [= <- _ <-].
  - destruct (load_all cb s c) as [[[s1 c1] x]| |] eqn:E; try discriminate. intros [= <- _ <-]. apply load_range_toldm, toldm_told in E. now destruct x.
  - destruct (get_data cb s c) as [[[s1 c1] [b1|x]]| |] eqn:E; try discriminate; intros [= <- _ <-]; apply get_data_toldm, toldm_told in E; exact E.
  - destruct (flush_all cb s c) as [[[s1 c1] x]| |] eqn:E; try discriminate. intros [= <- _ <-]. apply flush_range_toldm, toldm_told in E. now destruct x.
  - destruct (resize cb s c _) as [[[s1 c1] x]| |] eqn:E; try discriminate. intros [= <- _ <-]. apply resize_told in E. now destruct x.
Qed.

(** ** the stream *)
Lemma s_read_at_toldm s st buf off s' st' b n e : s_read_at cb s st buf off = Ret (s', st', b, n, e) -> toldm s s' e.
Proof.
  unfold s_read_at. destruct (negb _); [intros [= <- _ _ _ <-]; apply toldm_refl|]. cbv zeta.
  destruct (zlen buf =? 0); [intros [= <- _ _ _ <-]; apply toldm_refl|]. destruct (off >=? ssize st); [intros [= <- _ _ _ <-]; apply toldm_refl|].
  destruct (conv_addr (scache st) off) as [[f so]| |]; try discriminate.
  destruct (conv_addr (scache st) _) as [[l lo]| |]; try discriminate.
  destruct (get_slice cb s (scache st) f _) as [[[s1 c1] [t|x]]| |] eqn:EG; try discriminate; apply get_slice_toldm in EG.
  - destruct (reslice _ _ _ _); try discriminate. intros [= <- _ _ _ <-]. now apply toldm_ok.
  - now intros [= <- _ _ _ <-].
Qed.
Lemma s_read_toldm s st buf s' st' b n e : s_read cb s st buf = Ret (s', st', b, n, e) -> toldm s s' e.
Proof.
  unfold s_read. destruct (s_read_at cb s st buf (spos st)) as [[[[[s1 st1] b1] n1] [x|]]| |] eqn:E; try discriminate; intros [= <- _ _ _ <-]; eapply s_read_at_toldm; exact E.
Qed.
Lemma s_sync_toldm s st s' st' e : s_sync cb s st = Ret (s', st', e) -> toldm s s' e.
Proof. unfold s_sync. destruct (flush_all cb s (scache st)) as [[[s1 c1] x]| |] eqn:E; try discriminate. intros [= <- _ <-]. eapply flush_range_toldm; exact E. Qed.
Lemma s_truncate_told s st n s' st' e : s_truncate cb s st n = Ret (s', st', e) -> told s s' e.
Proof.
  unfold s_truncate. destruct (negb _); [intros [= <- _ <-]; apply told_refl|]. destruct (n <? 0); [intros [= <- _ <-]; apply told_refl|].
  destruct (min_blocks _ _); try discriminate. destruct (resize cb s (scache st) _) as [[[s1 c1] [x|]]| |] eqn:E; try discriminate; apply resize_told in E.
  - now intros [= <- _ <-].
  - cbv zeta. destruct (io_synchronous _); [|now intros [= <- _ <-]]. intros H. eapply told_more; [exact E|]. eapply toldm_told, s_sync_toldm; exact H.
Qed.
Lemma s_impl_told s st buf off s' st' n e : s_impl_write_at cb s st buf off = Ret (s', st', n, e) -> told s s' e.
Proof.
  unfold s_impl_write_at. destruct (negb _); [intros [= <- _ _ <-]; apply told_refl|]. cbv zeta.
  destruct (conv_addr (scache st) off) as [[f so]| |]; try discriminate. destruct (conv_addr (scache st) _) as [[l lo]| |]; try discriminate.
  set (g := if l >=? total (scache st) then _ else _).
  assert (forall s1 st1 x, g = Ret (s1, st1, x) -> told s s1 x) as Hg.
  { intros s1 st1 x. unfold g. destruct (l >=? total (scache st)); [apply s_truncate_told|]. intros [= <- _ <-]. apply told_refl. }
  destruct g as [[[s1 st1] [x|]]| |]; try discriminate; specialize (Hg _ _ _ eq_refl).
  - now intros [= <- _ _ <-].
  - destruct (get_slice cb s1 (scache st1) f _) as [[[s2 c2] [t|x]]| |] eqn:EG; try discriminate; apply get_slice_toldm, toldm_told in EG; pose proof (told_more _ _ _ _ Hg EG) as H2.
    + destruct (so >? zlen t); [discriminate|]. destruct (io_synchronous _); [|now intros [= <- _ _ <-]].
      destruct (s_sync cb s2 _) as [[[s4 st4] x]| |] eqn:ES; try discriminate. intros [= <- _ _ <-]. eapply told_more; [exact H2|]. eapply toldm_told, s_sync_toldm; exact ES.
    + now intros [= <- _ _ <-].
Qed.
Lemma s_write_told s st buf s' st' n e : s_write cb s st buf = Ret (s', st', n, e) -> told s s' e.
Proof.
  unfold s_write. destruct (negb _); [intros [= <- _ _ <-]; apply told_refl|].
  destruct (if io_append (sflags st) then s_seek st 0 2 else (st, 0, None)) as [[st1 p] [x|]]; [intros [= <- _ _ <-]; apply told_refl|].
  destruct (s_impl_write_at cb s st1 buf (spos st1)) as [[[[s2 st2] k] x]| |] eqn:E; try discriminate. intros [= <- _ _ <-]. eapply s_impl_told; exact E.
Qed.
Lemma sexec_told s st o s' st' b n e : sexec_op cb s st o = Ret (s', st', TCount b n e) -> told s s' e.
Proof.
  destruct o; cbn [sexec_op].
  - destruct (s_read_at cb s st _ _) as [[[[[s1 st1] b1] n1] x]| |] eqn:E; try discriminate. intros [= <- _ _ _ <-]. eapply toldm_told, s_read_at_toldm; exact E.
  - destruct (s_read cb s st _) as [[[[[s1 st1] b1] n1] x]| |] eqn:E; try discriminate. intros [= <- _ _ _ <-]. eapply toldm_told, s_read_toldm; exact E.
  - destruct (s_write_at cb s st _ _) as [[[[s1 st1] n1] x]| |] eqn:E; try discriminate. intros [= <- _ _ _ <-]. unfold s_write_at in E.
    destruct (io_append _); [injection E as <- _ _ <-; apply told_refl|eapply s_impl_told; exact E].
  - destruct (s_write cb s st _) as [[[[s1 st1] n1] x]| |] eqn:E; try discriminate. intros [= <- _ _ _ <-]. eapply s_write_told; exact E.
  - destruct (s_seek st off whence) as [[st1 p] x]. intros [= <- _ _ _ <-]. apply told_refl.
  - destruct (s_truncate cb s st _) as [[[s1 st1] x]| |] eqn:E; try discriminate. intros [= <- _ _ _ <-]. eapply s_truncate_told; exact E.
  - destruct (s_sync cb s st) as [[[s1 st1] x]| |] eqn:E; try discriminate. intros [= <- _ _ _ <-]. eapply toldm_told, s_sync_toldm; exact E.
Qed.
Lemma s_new_told s sz c flags s' st e : s_new cb s sz c flags = Ret (s', st, e) -> told s s' e.
Proof.
  unfold s_new. destruct (_ || _); [intros [= <- _ <-]; apply told_refl|]. cbv zeta. destruct (io_truncate flags); [|intros [= <- _ <-]; apply told_refl].
  destruct (s_truncate cb s _ 0) as [[[s1 st1] x]| |] eqn:E; try discriminate. intros [= <- _ <-]. eapply s_truncate_told; exact E.
Qed.
(* ReadFrom: what is returned, and what its last write returned *)
Lemma read_from_told {R} (rd : R -> Z -> R * list Z * option kerr) bsz fuel : forall s st r acc s' st' r' n e,
  read_from_loop cb rd bsz fuel s st r acc = Ret (s', st', r', n, e) ->
  exists s1 st1 r1 chunk re k we, told s s1 None /\ rd r1 bsz = (r', chunk, re) /\ s_write cb s1 st1 chunk = Ret (s', st', k, we) /\ told s1 s' we /\
    e = match re with None => we | Some KEOF => None | Some x => Some x end /\ (re = None -> we <> None).
Proof.
  induction fuel as [|fuel IH]; intros s st r acc s' st' r' n e; cbn [read_from_loop]; [discriminate|].
  destruct (rd r bsz) as [[r1 chunk] re] eqn:ER. cbv zeta. destruct (s_write cb s st chunk) as [[[[s1 st1] k] we]| |] eqn:EW; try discriminate.
  destruct re as [x|].
  - intros H. exists s, st, r, chunk, (Some x), k, we. assert (s1 = s' /\ st1 = st' /\ r1 = r' /\ e = match x with KEOF => None | _ => Some x end) as (<- & <- & <- & ->) by (destruct x; injection H; intros; subst; auto).
    split; [apply told_refl|]. split; [exact ER|]. split; [exact EW|]. split; [eapply s_write_told; exact EW|]. split; [now destruct x|discriminate].
  - destruct we as [x|].
    + intros [= <- <- <- _ <-]. exists s, st, r, chunk, None, k, (Some x). split; [apply told_refl|]. split; [exact ER|]. split; [exact EW|]. split; [eapply s_write_told; exact EW|]. split; [reflexivity|discriminate].
    + intros H. destruct (IH _ _ _ _ _ _ _ _ _ H) as (s2 & st2 & r2 & ch2 & re2 & k2 & we2 & T & Rest). exists s2, st2, r2, ch2, re2, k2, we2. split; [|exact Rest].
      eapply told_more; [eapply s_write_told; exact EW|exact T].
Qed.
(* WriteTo *)
Lemma write_to_told {W} (wr : W -> list Z -> W * Z * option kerr) fuel : forall s st buf w acc s' st' w' n e,
  write_to_loop cb wr fuel s st buf w acc = Ret (s', st', w', n, e) -> toldm s s' e.
Proof.
  induction fuel as [|fuel IH]; intros s st buf w acc s' st' w' n e; cbn [write_to_loop]; [discriminate|].
  destruct (s_read cb s st buf) as [[[[[s1 st1] b1] k] [x|]]| |] eqn:ER; try discriminate; apply s_read_toldm in ER; cbv zeta.
  - intros H. assert (s1 = s' /\ e = match x with KEOF => None | _ => Some x end) as (<- & ->) by (destruct x; injection H; intros; subst; auto).
    destruct x; try exact ER. destruct ER as (m & [E|(y & _ & Y)]); [|discriminate]. exists m. now left.
  - intros H. apply IH in H. eapply toldm_more; eassumption.
Qed.
(* for the proofs about the driver *)
Lemma s_read_told s st buf s' st' b n e : s_read cb s st buf = Ret (s', st', b, n, e) -> told s s' e.
Proof. intros H. eapply toldm_told, s_read_toldm. exact H. Qed.
Lemma s_sync_told s st s' st' e : s_sync cb s st = Ret (s', st', e) -> told s s' e.
Proof. intros H. eapply toldm_told, s_sync_toldm. exact H. Qed.
End Told.
Lemma recorded_recalls {S} (cb : callbacks S) : recalls (recorded cb) snd.
Proof. constructor; intros; reflexivity. Qed.
