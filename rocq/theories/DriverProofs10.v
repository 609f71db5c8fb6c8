(** * DriverProofs10: which handles are closed; truncation of files *)
From Verif Require Import GoBase ListZ Errors Flags GoPath Spec_Path GoPathProofs BlockCache Spec_BlockCache BlockCacheProofs
  BlockCacheProofs2 BasicStream Spec_BasicStream BasicStreamProofs Driver Spec_Driver DriverProofs DriverProofs2 DriverProofs4 DriverProofs8 DriverProofs9.

Section Balance.
Context {F H : Type} (im : impl F H) (wm : wmode) (d : drv).
(* o id: how often id is still to be closed *)
Definition bal (o : nat -> nat) (s s' : dst F) : Prop :=
  (d_next s <= d_next s')%nat /\ exists l, d_log s' = d_log s ++ l /\
  forall id, acquisitions id l = (if (d_next s <=? id)%nat && (id <? d_next s')%nat then 1 else 0)%nat /\ (releases id l + o id = acquisitions id l)%nat.
Definition nil0 : nat -> nat := fun _ => 0%nat.
Definition add (id : nat) (o : nat -> nat) : nat -> nat := fun i => ((if Nat.eqb id i then 1 else 0) + o i)%nat.
Lemma acq_app id l1 l2 : acquisitions id (l1 ++ l2) = (acquisitions id l1 + acquisitions id l2)%nat.
Proof. unfold acquisitions. now rewrite filter_app, app_length. Qed.
Lemma rel_app id l1 l2 : releases id (l1 ++ l2) = (releases id l1 + releases id l2)%nat.
Proof. unfold releases. now rewrite filter_app, app_length. Qed.
Lemma bal_refl s : bal nil0 s s.
Proof.
  split; [lia|]. exists []. rewrite app_nil_r. split; [reflexivity|]. intros id. cbn. unfold nil0.
  destruct (_ && _) eqn:E; [|auto]. apply andb_true_iff in E as [E1 E2]. apply Nat.leb_le in E1. apply Nat.ltb_lt in E2. lia.
Qed.
Lemma bal_ext o o' s s' : (forall i, o i = o' i) -> bal o s s' -> bal o' s s'.
Proof. intros He [Hn (l & E & Hl)]. split; [exact Hn|]. exists l. split; [exact E|]. intros id. rewrite <- He. apply Hl. Qed.
Lemma bal_release o s s' fs id : bal (add id o) s s' -> bal o s (emit fs (EvRelease id) s').
Proof.
  intros [Hn (l & E & Hl)]. split; [exact Hn|]. exists (l ++ [EvRelease id]). cbn [emit d_log d_next]. rewrite E, app_assoc. split; [reflexivity|].
  intros i. destruct (Hl i) as [H1 H2]. unfold add in H2. rewrite acq_app, rel_app. unfold acquisitions at 2 4. unfold releases at 2. cbn [filter length].
  destruct (Nat.eqb id i); cbn [length]; lia.
Qed.
Definition neutral (e : event) : Prop := match e with EvAcquire _ | EvRelease _ => False | _ => True end.
Lemma bal_emit o s s' fs e : neutral e -> bal o s s' -> bal o s (emit fs e s').
Proof.
  intros He [Hn (l & E & Hl)]. split; [exact Hn|]. exists (l ++ [e]). cbn [emit d_log d_next]. rewrite E, app_assoc. split; [reflexivity|].
  intros i. rewrite acq_app, rel_app. destruct e; try contradiction; cbn; rewrite !Nat.add_0_r; apply Hl.
Qed.
Lemma bal_fresh o s s' fs : bal o s s' -> bal (add (d_next s') o) s (snd (fresh fs s')).
Proof.
  intros [Hn (l & E & Hl)]. cbn. split; [cbn; lia|]. exists (l ++ [EvAcquire (d_next s')]). cbn [d_log d_next]. rewrite E, app_assoc. split; [reflexivity|].
  intros i. destruct (Hl i) as [H1 H2]. rewrite acq_app, rel_app. unfold acquisitions at 2 4. unfold releases at 2. cbn [filter length]. unfold add.
  assert ((if (d_next s <=? i)%nat && (i <? S (d_next s'))%nat then 1 else 0)%nat =
          ((if (d_next s <=? i)%nat && (i <? d_next s')%nat then 1 else 0) + (if Nat.eqb (d_next s') i then 1 else 0))%nat) as ->.
  { destruct (Nat.eqb (d_next s') i) eqn:E1; [apply Nat.eqb_eq in E1|apply Nat.eqb_neq in E1];
    destruct (d_next s <=? i)%nat eqn:E2; [apply Nat.leb_le in E2|apply Nat.leb_gt in E2|apply Nat.leb_le in E2|apply Nat.leb_gt in E2]; cbn [andb];
    destruct (i <? S (d_next s'))%nat eqn:E3; try apply Nat.ltb_lt in E3; try apply Nat.ltb_ge in E3;
    destruct (i <? d_next s')%nat eqn:E4; try apply Nat.ltb_lt in E4; try apply Nat.ltb_ge in E4; lia. }
  destruct (Nat.eqb (d_next s') i); cbn [length]; lia.
Qed.
Lemma bal_balanced {A} s (r : mres F A) : bal nil0 s (end_state r) -> balanced (calls s r).
Proof.
  intros [Hn (l & E & Hl)] id. unfold calls. rewrite E, skipn_app, skipn_all, Nat.sub_diag. cbn [app skipn]. destruct (Hl id) as [H1 H2]. unfold nil0 in H2.
  split; [|lia]. rewrite H1. destruct (_ && _); lia.
Qed.

Definition hb {A} (o : nat -> nat) (m : M F A) (q : A -> nat -> nat) : Prop :=
  forall s0 s, bal o s0 s -> match m s with Done s' a => bal (q a) s0 s' | _ => True end.
Lemma hb_ret {A} o (a : A) q : (forall i, o i = q a i) -> hb o (ret a) q.
Proof. intros He s0 s Hs. cbn. eapply bal_ext; eauto. Qed.
Lemma hb_bind {A C} o (m : M F A) q (k : A -> M F C) r : hb o m q -> (forall a, hb (q a) (k a) r) -> hb o (bind m k) r.
Proof. intros Hm Hk s0 s Hs. unfold bind. specialize (Hm s0 s Hs). destruct (m s); auto. now apply Hk. Qed.
Lemma hb_crash {A} o q : hb o (@crash F A) q. Proof. intros s0 s _. exact I. Qed.
Lemma hb_spin {A} o q : hb o (@spin F A) q. Proof. intros s0 s _. exact I. Qed.
Lemma hb_stat o x : hb o (stat im x) (fun _ => o).
Proof. intros s0 s Hs. unfold stat. destruct (meth x); auto. Qed.
Lemma hb_close o x : hb (add (x_id x) o) (close im x) (fun _ => o).
Proof. intros s0 s Hs. unfold close. destruct (meth x); auto. now apply bal_release. Qed.
Lemma hb_pre {A} o o' (m : M F A) q : (forall i, o i = o' i) -> hb o' m q -> hb o m q.
Proof. intros He Hm s0 s Hs. apply Hm. eapply bal_ext; eauto. Qed.
Lemma hb_defer {A} o x (m : M F A) q : hb o m (fun a => add (x_id x) (q a)) -> hb o (deferring im x m) q.
Proof.
  intros Hm s0 s Hs. unfold deferring. specialize (Hm s0 s Hs). destruct (m s) as [s' a|s'|s']; auto.
  - pose proof (hb_close (q a) x s0 s' Hm) as Hc. destruct (close im x s'); auto.
  - now destruct (close im x s').
Qed.
Definition onl {A} (f : A -> nat -> nat) (o : nat -> nat) (r : A + kerr) : nat -> nat := match r with inl a => f a | inr _ => o end.
Lemma hb_try {A C} o o' (m : M F (A + kerr)) f (k : A -> M F (C + kerr)) g :
  hb o m (onl f o') -> (forall a, hb (f a) (k a) (onl g o')) -> hb o (try m k) (onl g o').
Proof. intros Hm Hk. eapply hb_bind; [exact Hm|]. intros [a|e]; [apply Hk|]. apply hb_ret. reflexivity. Qed.
Lemma hb_get o n x : hb o (get_object im n x) (onl (fun r => add (fst r) o) o).
Proof.
  intros s0 s Hs. unfold get_object. destruct (meth x); auto. destruct (i_get im (d_fs s) n (x_h x)) as [fs [h|e]].
  - apply (bal_fresh o s0 (emit fs (EvGet (x_id x) n) s) fs). apply bal_emit; [exact I|exact Hs].
  - apply bal_emit; [exact I|exact Hs].
Qed.
Lemma hb_create o n x md : hb o (create_object im n x md) (onl (fun r => add (fst r) o) o).
Proof.
  intros s0 s Hs. unfold create_object. destruct (meth x); auto. destruct (i_create im (d_fs s) n (x_h x) md) as [fs [h|e]].
  - apply (bal_fresh o s0 (emit fs (EvCreate (x_id x) n md) s) fs). apply bal_emit; [exact I|exact Hs].
  - apply bal_emit; [exact I|exact Hs].
Qed.
Lemma hb_root o : hb o (get_root im) (fun r => add (fst r) o).
Proof.
  intros s0 s Hs. unfold get_root. destruct (i_root im (d_fs s)) as [fs h]. apply (bal_fresh o s0 s fs Hs).
Qed.
Lemma hb_get_ext o n x : hb o (get_ext im wm n x) (onl (fun y => add (x_id y) o) o).
Proof. eapply hb_try; [apply hb_get|]. intros [id h]. apply hb_ret. reflexivity. Qed.
Lemma hb_contents o x : hb o (get_contents im x) (fun _ => o).
Proof.
  intros s0 s Hs. pose proof (contents_pres im x (fun s1 => bal o s0 s1)) as HC.
  assert (bal o s0 (end_state (get_contents im x s))) as HB.
  { apply HC; [|exact Hs]. intros s1 i b s2 b' e Hb. cbn. destruct (h_read im (d_fs s1) (x_h x) i b) as [[fs b1] e1]. intros [= <- _ _].
    now apply bal_emit. }
  destruct (get_contents im x s); auto.
Qed.
Lemma hb_list o x : hb o (list_dir im x) (fun _ => o).
Proof. intros s0 s Hs. unfold list_dir. destruct (opt_meth x); auto. destruct (h_listdir im _ _) as [[fs r]|]; auto. now apply bal_emit. Qed.
Lemma hb_call o r e : neutral e -> hb o (call_err r e) (fun _ => o).
Proof. intros He s0 s Hs. unfold call_err. destruct r as [fs er]. now apply bal_emit. Qed.
Lemma hb_unlink o x : hb o (unlink im x) (fun _ => o).
Proof. intros s0 s Hs. unfold unlink. destruct (meth x); auto. now apply hb_call. Qed.
Lemma hb_resize o x n : hb o (resize_obj im x n) (fun _ => o).
Proof. intros s0 s Hs. unfold resize_obj. destruct (meth x); auto. now apply hb_call. Qed.
Lemma hb_post {A} o (m : M F A) q q' : (forall a i, q a i = q' a i) -> hb o m q -> hb o m q'.
Proof. intros He Hm s0 s Hs. specialize (Hm s0 s Hs). destruct (m s); auto. eapply bal_ext; eauto. Qed.

(** A file system without symbolic links *)
Hypothesis NoLinks : forall fs h, is_symlink (h_stat im fs h) = false.
Lemma hb_follow_loop f o x : hb (add (x_id x) o) (follow_loop im wm d f x) (onl (fun y => add (x_id y) o) o).
Proof.
  destruct f as [|f]; [apply hb_spin|]. rewrite follow_loop_S. intros s0 s Hs. unfold bind, stat. destruct (meth x); auto. rewrite NoLinks. exact Hs.
Qed.
Lemma hb_resolution f : (forall o p, hb o (no_follow im wm d f p) (onl (fun y => add (x_id y) o) o)) /\
  (forall o p, hb o (following im wm d f p) (onl (fun y => add (x_id y) o) o)).
Proof.
  induction f as [|f [I1 I2]]; [split; intros; apply hb_spin|]. split; intros o p; rewrite ?no_follow_S, ?following_S.
  - destruct (_ || _).
    + eapply hb_bind; [apply hb_root|]. intros [id h]. apply hb_ret. reflexivity.
    + destruct (split_path p) as [pp bn]. eapply hb_try; [apply I2|]. intros x. apply hb_defer. eapply hb_bind; [apply hb_stat|]. intros st.
      destruct (negb _); [apply hb_ret; reflexivity|]. eapply hb_post; [|apply hb_get_ext]. intros [y|e] i; cbn; [|reflexivity]. unfold add. lia.
  - eapply hb_try; [apply I1|]. intros x. apply hb_follow_loop.
Qed.
Lemma hb_entries o x ns : forall acc, hb o (read_entries im x ns acc) (fun _ => o).
Proof.
  induction ns as [|n ns IH]; intros acc; cbn [read_entries]; [apply hb_ret; reflexivity|]. destruct (is_dots n); [apply IH|].
  eapply hb_bind; [apply hb_get|]. intros [[id h]|e]; [|apply hb_ret; reflexivity]. cbn [onl fst]. intros s0 s Hs.
  assert (hb (add id o) (_ <- close im (raw id h);; read_entries im x ns (acc ++ [mkDirent (h_name im (d_fs s) h) (h_stat im (d_fs s) h)])) (fun _ => o)) as HB.
  { eapply hb_bind; [apply (hb_close o (raw id h))|]. intros. apply IH. }
  exact (HB s0 s Hs).
Qed.
Lemma hb_outc {A} o (m : M F (A + kerr)) : hb o m (fun _ => o) -> hb o (outc m) (fun _ => o).
Proof. intros Hm. eapply hb_bind; [exact Hm|]. intros a. apply hb_ret. reflexivity. Qed.
Lemma onl_same {A} o (m : M F (A + kerr)) : hb o m (onl (fun _ => o) o) -> hb o m (fun _ => o).
Proof. apply hb_post. now intros [a|e] i. Qed.
Lemma hb_fol {A} fuel p (k : xh H -> M F (A + kerr)) o : (forall x, hb (add (x_id x) o) (k x) (fun _ => add (x_id x) o)) ->
  hb o (try (following im wm d fuel p) (fun x => deferring im x (k x))) (fun _ => o).
Proof.
  intros Hk. apply onl_same. eapply hb_try; [apply hb_resolution|]. intros x. apply hb_defer. eapply hb_post; [|apply Hk]. now intros [a|e] i.
Qed.
Lemma hb_mk o name x md : hb o (r <-? create_object im name x md ;; (_ <- close im (raw (fst r) (snd r)) ;; ret (inl tt))) (fun _ => o).
Proof.
  apply onl_same. eapply hb_try; [apply hb_create|]. intros [id h]. cbn [fst snd]. eapply hb_bind; [apply (hb_close o (raw id h))|]. intros. apply hb_ret. reflexivity.
Qed.
Lemma hb_op fuel op : tidy op -> hb nil0 (run_op im wm d fuel op) (fun _ => nil0).
Proof.
  intros Ht. destruct op; try contradiction; cbn [run_op].
  - apply hb_outc, hb_fol. intros x. eapply hb_bind; [apply hb_stat|]. intros. apply hb_ret. reflexivity.
  - apply hb_outc, hb_fol. intros x. apply hb_contents.
  - eapply hb_bind; [|intros; apply hb_ret; reflexivity]. eapply hb_bind; [apply hb_resolution|]. intros [x|e]; [|apply hb_ret; reflexivity]. cbn [onl].
    apply hb_defer. eapply hb_bind; [apply hb_list|]. intros [ns|e]; [apply hb_entries|apply hb_ret; reflexivity].
  - apply hb_outc, hb_fol. intros x. eapply hb_bind; [apply hb_stat|]. intros. destruct (negb _); apply hb_ret; reflexivity.
  - apply hb_outc. unfold mkdir. destruct (split_path _) as [pp bn]. apply hb_fol. intros x. eapply hb_bind; [apply hb_stat|]. intros.
    destruct (negb _); [apply hb_ret; reflexivity|apply hb_mk].
  - apply hb_outc. destruct fuel as [|f] eqn:Ef; [apply hb_spin|]. cbn [mkdir_all]. rewrite <- Ef. destruct (split_path _) as [pp bn].
    eapply hb_bind; [apply hb_resolution|]. intros [x|e].
    + apply hb_defer. apply hb_mk.
    + destruct (kerr_is e _); [|apply hb_ret; reflexivity]. intros s0 s Hs. unfold bind. now destruct (mkdir_all _ _ _ _ _ _ _ _).
  - apply hb_outc, hb_fol. intros x. eapply hb_bind; [apply hb_stat|]. intros st. destruct (is_dir st).
    + apply onl_same. eapply hb_try; [eapply hb_post; [|apply hb_list]; now intros [a|e] i|]. intros names. cbn. destruct (_ >? 0); [apply hb_ret; reflexivity|].
      eapply hb_post; [|apply hb_unlink]. now intros [a|e] i.
    + destruct (negb _); [apply hb_ret; reflexivity|apply hb_unlink].
  - apply hb_outc, hb_fol. intros x. eapply hb_bind; [apply hb_stat|]. intros st. destruct (is_dir st); [apply hb_ret; reflexivity|apply hb_resize].
  - apply hb_outc. unfold readlink. destruct (negb _); [apply hb_ret; reflexivity|]. apply onl_same. eapply hb_try; [apply hb_resolution|]. intros x. apply hb_defer.
    eapply hb_bind; [apply hb_stat|]. intros st. destruct (negb _); [apply hb_ret; reflexivity|]. eapply hb_post; [|apply hb_contents]. now intros [a|e] i.
Qed.
Lemma tidy_balanced fuel op s s' r : tidy op -> run_op im wm d fuel op s = Done s' r -> balanced (calls s (run_op im wm d fuel op s)).
Proof. intros Ht E. apply bal_balanced. pose proof (hb_op fuel op Ht s s (bal_refl s)) as HB. rewrite E in *. exact HB. Qed.
End Balance.

(** ** Truncation *)
Section Pres2.
Context {S : Type} (cb : callbacks S) (P : S -> Prop).
Hypothesis HP : forall s i b s' b' e, P s -> cb_fetch cb s i b = (s', b', e) -> P s'.
Hypothesis HW : forall s i b s' e, P s -> cb_flush cb s i b = (s', e) -> P s'.
Lemma load_loop_pres2 fuel : forall i stop s c s' c' e, P s -> load_loop cb fuel i stop s c = Ret (s', c', e) -> P s'.
Proof.
  induction fuel as [|f IH]; intros i stop s c s' c' e Hs E; cbn [load_loop] in E; [discriminate|].
  destruct (i <? stop); [|injection E as <- <- <-; auto].
  destruct (bget (loaded c) (i64 i)) as [[|]| |]; try discriminate; [eapply IH; eauto|].
  destruct (data_slice (data c) _ _) as [buf| |]; try discriminate.
  destruct (cb_fetch cb s i buf) as [[s1 b1] e1] eqn:EF. pose proof (HP _ _ _ _ _ _ Hs EF) as H1.
  destruct e1 as [e1|]; [injection E as <- <- <-; auto|].
  destruct (bset (loaded c) (i64 i) true) as [l'| |]; try discriminate.
  destruct (bset (dirty c) (i64 i) false) as [y'| |]; try discriminate. eapply IH; eauto.
Qed.
Lemma flush_all_pres2 s c s' c' e : P s -> flush_all cb s c = Ret (s', c', e) -> P s'.
Proof.
  unfold flush_all, flush_range. intros Hs. destruct (check_bounds _ _ _) as [[e1|]| |]; try discriminate; [intros E; injection E as <- <- <-; auto|].
  generalize (loop_fuel c) as fuel, (i64 0) as i, (u64 (0 + total c)) as stop. intros fuel. revert s c Hs.
  induction fuel as [|f IH]; intros s c Hs i stop E; cbn [flush_loop] in E; [discriminate|].
  destruct (u64 i <? stop); [|injection E as <- <- <-; auto].
  destruct (bget (dirty c) i) as [[|]| |]; try discriminate; [|eapply IH; eauto].
  destruct (get_slice cb s c (u64 i) 1) as [[[s1 c1] r]| |] eqn:EG; try discriminate.
  assert (P s1) as H1.
  { unfold get_slice, load_range in EG. destruct (check_bounds _ _ _) as [[e1|]| |]; try discriminate; [injection EG as <- <- <-; auto|].
    destruct (load_loop cb _ _ _ s c) as [[[s2 c2] e2]| |] eqn:EL; try discriminate. apply load_loop_pres2 in EL; auto.
    destruct e2; [injection EG as <- <- <-; auto|]. destruct (data_slice _ _ _); try discriminate. injection EG as <- <- <-; auto. }
  destruct r as [b|e1]; [|injection E as <- <- <-; auto].
  destruct (cb_flush cb s1 (u64 i) b) as [s2 [e2|]] eqn:EF; pose proof (HW _ _ _ _ _ H1 EF) as H2; [injection E as <- <- <-; auto|].
  destruct (bset (dirty c1) i false); try discriminate. eapply IH; eauto.
Qed.
End Pres2.

Section Trunc.
Context {F H : Type} (im : impl F H).
Definition io_only (e : event) : Prop := match e with EvRead _ _ | EvWrite _ _ _ => True | _ => False end.
Lemma set_bits_bpb fuel : forall st n i c c', set_bits fuel st n i c = Ret c' -> bpb c' = bpb c.
Proof.
  induction fuel as [|f IH]; intros st n i c c' E; cbn [set_bits] in E; [discriminate|].
  repeat match type of E with
  | (if ?b then _ else _) = _ => destruct b
  | match ?m with _ => _ end = _ => destruct m; try discriminate
  end; try (injection E as <-; reflexivity); apply IH in E; exact E.
Qed.
Lemma new_file_bpb x flags s s1 f bs : new_file im x flags s = Done s1 (inl f) -> f_bsize (h_stat im (d_fs s) (x_h x)) = bs -> 0 < bs < 2^62 ->
  bpb (scache (fl_stream f)) = bs /\ fl_obj f = x /\ sflags (fl_stream f) = flags.
Proof.
  intros E Hb Hbs. unfold new_file, bind, stat in E. destruct (meth x); [|discriminate]. rewrite Hb in E. rewrite (u64_small bs) in E by lia.
  destruct (negb (new_fits _ _)); [discriminate|]. unfold s_new in E. destruct (_ || _); [discriminate|]. destruct (io_truncate flags); [|injection E as <- <-; auto].
  unfold s_truncate in E. cbn [sflags] in E. destruct (negb (io_write flags)); [discriminate|]. destruct (0 <? 0); [discriminate|].
  destruct (min_blocks _ _); try discriminate. destruct (resize _ _ _ _) as [[[s2 c2] [e2|]]| |] eqn:ER; try discriminate.
  assert (bpb c2 = bs) as Hc.
  { unfold resize in ER. destruct (cb_resize _ _ _) as [s3 [e3|]]; [discriminate|]. destruct (set_bits _ _ _ _ _) eqn:ES; try discriminate. injection ER as <- <-.
    apply set_bits_bpb in ES. exact ES. }
  destruct (io_synchronous flags).
  - unfold s_sync in E. destruct (flush_all _ _ _) as [[[s3 c3] [e3|]]| |] eqn:EF; try discriminate. injection E as <- <-. cbn.
    repeat split; auto. cbn [set_size set_cache scache] in EF.
    rewrite <- Hc. clear - EF. unfold flush_all, flush_range in EF. destruct (check_bounds _ _ _) as [[e1|]| |]; try discriminate.
    revert EF. generalize (loop_fuel c2) as fuel, (i64 0) as i, (u64 (0 + total c2)) as stop. intros fuel. revert s2 c2.
    induction fuel as [|f IH]; intros s c i stop E; cbn [flush_loop] in E; [discriminate|].
    destruct (u64 i <? stop); [|injection E as <- <-; auto].
    destruct (bget (dirty c) i) as [[|]| |]; try discriminate; [|eapply IH; eauto].
    destruct (get_slice _ s c (u64 i) 1) as [[[s1 c1] r]| |] eqn:EG; try discriminate.
    assert (bpb c1 = bpb c) as H1.
    { unfold get_slice, load_range in EG. destruct (check_bounds _ _ _) as [[e1|]| |]; try discriminate; [injection EG as <- <- <-; auto|].
      destruct (load_loop _ _ _ _ s c) as [[[s4 c4] e4]| |] eqn:EL; try discriminate.
      assert (bpb c4 = bpb c) as H4.
      { revert EL. clear. generalize (loop_fuel c) as fuel, (u64 i) as j, (u64 (u64 i + 1)) as stop. intros fuel. revert s c. induction fuel as [|f IH]; intros s c j stop E; cbn [load_loop] in E; [discriminate|].
        destruct (j <? stop); [|injection E as <- <- <-; auto].
        destruct (bget (loaded c) (i64 j)) as [[|]| |]; try discriminate; [eapply IH; eauto|].
        destruct (data_slice (data c) _ _) as [buf| |]; try discriminate.
        destruct (cb_fetch _ s j buf) as [[s1 b1] e1]. destruct e1 as [e1|]; [injection E as <- <- <-; auto|].
        destruct (bset (loaded c) (i64 j) true) as [l'| |]; try discriminate.
        destruct (bset (dirty c) (i64 j) false) as [y'| |]; try discriminate. apply IH in E. exact E. }
      destruct e4; [injection EG as <- <- <-; auto|]. destruct (data_slice _ _ _); try discriminate. injection EG as <- <- <-; auto. }
    destruct r as [b|e1]; [|discriminate].
    destruct (cb_flush _ s1 (u64 i) b) as [s5 [e2|]]; [discriminate|].
    destruct (bset (dirty c1) i false); try discriminate. apply IH in E. cbn in E. congruence.
  - injection E as <- <-. auto.
Qed.
Lemma truncate_calls f n s s' f' e bs : fl_truncate im f n s = Done s' (f', e) -> bpb (scache (fl_stream f)) = bs -> 0 < bs < 2^62 ->
  io_write (sflags (fl_stream f)) = true -> 0 <= n -> n < 2^63 ->
  exists rest, calls s (fl_truncate im f n s) = EvResizeObj (x_id (fl_obj f)) (ceil_div n bs) :: rest /\ Forall io_only rest.
Proof.
  intros E Hb Hbs Hw Hn Hn2. rewrite E. unfold fl_truncate, s_truncate in E. rewrite Hw in E. cbn [negb] in E. replace (n <? 0) with false in E by lia.
  unfold min_blocks in E. rewrite Hb in E. replace (bs =? 0) with false in E by lia. rewrite (u64_small n), (u64_small (n + bs)), (u64_small (n + bs - 1)) in E by lia.
  change ((n + bs - 1) / bs) with (ceil_div n bs) in E. set (x := fl_obj f) in *. unfold resize in E. cbn [obj_callbacks cb_resize] in E.
  destruct (h_resize im (d_fs s) (x_h x) (ceil_div n bs)) as [fs e1] eqn:EH.
  set (s1 := emit fs (EvResizeObj (x_id x) (ceil_div n bs)) s) in *.
  assert (d_log s1 = d_log s ++ [EvResizeObj (x_id x) (ceil_div n bs)]) as HL by reflexivity.
  assert (exists l, d_log s' = d_log s1 ++ l /\ Forall io_only l) as (l & Hl & Hq).
  { destruct e1 as [e1|]; [injection E as <- _ _; exists []; rewrite app_nil_r; auto|].
    destruct (set_bits _ _ _ _ _) as [c'| |]; try discriminate.
    destruct (io_synchronous _); [|injection E as <- _ _; exists []; rewrite app_nil_r; auto].
    unfold s_sync in E. destruct (flush_all _ s1 _) as [[[s2 c2] e2]| |] eqn:EF; try discriminate. injection E as <- _ _.
    apply (flush_all_pres2 _ (fun s2 => exists l, d_log s2 = d_log s1 ++ l /\ Forall io_only l)) in EF; auto.
    - intros a i b a' b' e3 (l & El & Hl) Ef. cbn in Ef. destruct (h_read im (d_fs a) (x_h x) i b) as [[fa ba] ea]. injection Ef as <- _ _. cbn.
      exists (l ++ [EvRead (x_id x) i]). rewrite El, app_assoc. split; [reflexivity|]. apply Forall_app. split; [exact Hl|repeat constructor].
    - intros a i b a' e3 (l & El & Hl) Ef. cbn in Ef. destruct (h_write im (d_fs a) (x_h x) i b) as [fa ea]. injection Ef as <- _. cbn.
      exists (l ++ [EvWrite (x_id x) i b]). rewrite El, app_assoc. split; [reflexivity|]. apply Forall_app. split; [exact Hl|repeat constructor].
    - exists []. rewrite app_nil_r. auto. }
  exists l. split; [|exact Hq]. unfold calls. cbn [end_state]. rewrite Hl, HL, <- app_assoc, skipn_app, skipn_all, Nat.sub_diag. reflexivity.
Qed.
End Trunc.
