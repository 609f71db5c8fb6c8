(** * DriverProofs13: every operation makes only the calls it is for. *)
From Verif Require Import GoBase ListZ Errors Flags GoPath Spec_Path GoPathProofs BlockCache BlockCacheProofs BasicStream Driver DriverFile Spec_Driver Spec_Driver2
  DriverProofs DriverProofs2 DriverProofs10.

(** ** Streams: any property of the storage kept by the callbacks is kept *)
Section Pres3.
Context {S : Type} (cb : callbacks S) (P : S -> Prop).
Hypothesis HP : forall s i b s' b' e, P s -> cb_fetch cb s i b = (s', b', e) -> P s'.
Hypothesis HW : forall s i b s' e, P s -> cb_flush cb s i b = (s', e) -> P s'.
Hypothesis HR : forall s n s' e, P s -> cb_resize cb s n = (s', e) -> P s'.
Lemma get_slice_pres3 s c i n s' c' r : P s -> get_slice cb s c i n = Ret (s', c', r) -> P s'.
Proof.
  intros Hs EG. unfold get_slice, load_range in EG. destruct (check_bounds _ _ _) as [[e1|]| |]; try discriminate; [injection EG as <- <- <-; auto|].
  destruct (load_loop cb _ _ _ s c) as [[[s2 c2] e2]| |] eqn:EL; try discriminate. apply (load_loop_pres2 cb P HP) in EL; auto.
  destruct e2; [injection EG as <- <- <-; auto|]. destruct (data_slice _ _ _); try discriminate. injection EG as <- <- <-; auto.
Qed.
Lemma s_sync_pres3 s st s' st' e : P s -> s_sync cb s st = Ret (s', st', e) -> P s'.
Proof.
  intros Hs. unfold s_sync. destruct (flush_all _ _ _) as [[[s1 c1] e1]| |] eqn:EF; try discriminate. intros [= <- <- <-].
  exact (flush_all_pres2 cb P HP HW _ _ _ _ _ Hs EF).
Qed.
Lemma s_truncate_pres3 s st n s' st' e : P s -> s_truncate cb s st n = Ret (s', st', e) -> P s'.
Proof.
  intros Hs. unfold s_truncate. destruct (negb _); [intros [= <- <- <-]; auto|]. destruct (n <? 0); [intros [= <- <- <-]; auto|].
  destruct (min_blocks _ _) as [bl| |]; try discriminate. unfold resize. destruct (cb_resize cb s bl) as [s1 [e1|]] eqn:ER; pose proof (HR _ _ _ _ Hs ER) as H1.
  - intros [= <- <- <-]; auto.
  - destruct (set_bits _ _ _ _ _) as [c1| |]; try discriminate. destruct (io_synchronous _); [|intros [= <- <- <-]; auto].
    intros E. eapply s_sync_pres3; eauto.
Qed.
Lemma s_impl_write_pres3 s st b off s' st' n e : P s -> s_impl_write_at cb s st b off = Ret (s', st', n, e) -> P s'.
Proof.
  intros Hs. unfold s_impl_write_at. destruct (negb _); [intros [= <- <- <- <-]; auto|].
  destruct (conv_addr _ _) as [[a o]| |]; try discriminate. destruct (conv_addr _ _) as [[l o2]| |]; try discriminate. cbv zeta.
  set (g := if l >=? _ then _ else _). assert (forall s1 st1 e1, g = Ret (s1, st1, e1) -> P s1) as Hg.
  { unfold g. intros s1 st1 e1. destruct (l >=? _); [apply s_truncate_pres3; auto|intros [= <- <- <-]; auto]. }
  destruct g as [[[s1 st1] [e1|]]| |]; try discriminate; specialize (Hg _ _ _ eq_refl).
  - intros [= <- <- <- <-]; auto.
  - destruct (get_slice cb s1 _ _ _) as [[[s2 c2] [t|e2]]| |] eqn:EG; try discriminate; pose proof (get_slice_pres3 _ _ _ _ _ _ _ Hg EG) as H2.
    + destruct (_ >? _); [discriminate|]. destruct (io_synchronous _); [|intros [= <- <- <- <-]; auto].
      destruct (s_sync cb s2 _) as [[[s4 st4] e4]| |] eqn:EY; try discriminate. intros [= <- <- <- <-]. eapply s_sync_pres3; eauto.
    + intros [= <- <- <- <-]; auto.
Qed.
Lemma s_write_pres3 s st b s' st' n e : P s -> s_write cb s st b = Ret (s', st', n, e) -> P s'.
Proof.
  intros Hs. unfold s_write. destruct (negb _); [intros [= <- <- <- <-]; auto|].
  destruct (if io_append _ then _ else _) as [[st1 p1] [e1|]]; [intros [= <- <- <- <-]; auto|].
  destruct (s_impl_write_at cb s st1 b _) as [[[[s2 st2] n2] e2]| |] eqn:EW; try discriminate. intros [= <- <- <- <-]. eapply s_impl_write_pres3; eauto.
Qed.
End Pres3.

Section Op.
Context {F H : Type} (im : impl F H) (wm : wmode) (d : drv).
Variable Q : event -> Prop.
Hypothesis Qacq : forall i, Q (EvAcquire i).
Hypothesis Qrel : forall i, Q (EvRelease i).
Hypothesis Qget : forall i n, Q (EvGet i n).
Hypothesis Qread : forall i n, Q (EvRead i n).
Hypothesis Qlist : forall i, Q (EvList i).
Let fol fuel p : mok Q (following im wm d fuel p) := mok_following im wm d Q Qacq Qrel Qget Qread fuel p.
Let nof fuel p : mok Q (no_follow im wm d fuel p) := mok_no_follow im wm d Q Qacq Qrel Qget Qread fuel p.

Lemma mok_crash' {A} : mok Q (@crash F A). Proof. intros s. apply ext_refl. Qed.
Lemma mok_create n x md : (forall i, Q (EvCreate i n md)) -> mok Q (create_object im n x md).
Proof.
  intros HC s. unfold create_object. destruct (meth x); [|apply ext_refl]. destruct (i_create im _ _ _ _) as [fs [h|e]].
  - eapply ext_trans; [apply ext_emit; apply HC|apply ext_fresh; auto].
  - apply ext_emit. auto.
Qed.
Lemma mok_call r e : Q e -> mok Q (@call_err F r e).
Proof. intros He s. unfold call_err. destruct r as [fs err]. apply ext_emit. exact He. Qed.
Lemma mok_opt x g e : Q e -> mok Q (@opt_call F H x g e).
Proof.
  intros He s. unfold opt_call. destruct (opt_meth x); [|apply ext_refl]. destruct (g _ _) as [r|]; [|apply ext_refl].
  apply (mok_call r e He).
Qed.
Lemma mok_unlink x : (forall i, Q (EvUnlink i)) -> mok Q (unlink im x).
Proof. intros HU s. unfold unlink. destruct (meth x); [|apply ext_refl]. apply (mok_call (h_unlink im (d_fs s) (x_h x)) (EvUnlink (x_id x)) (HU _)). Qed.
Lemma mok_resize x n : (forall i, Q (EvResizeObj i n)) -> mok Q (resize_obj im x n).
Proof. intros HU s. unfold resize_obj. destruct (meth x); [|apply ext_refl]. apply (mok_call (h_resize im (d_fs s) (x_h x) n) (EvResizeObj (x_id x) n) (HU _)). Qed.
Lemma resize_ext x s0 s n s' e : (forall i, Q (EvResizeObj i n)) -> ext Q s0 s -> cb_resize (obj_callbacks im x) s n = (s', e) -> ext Q s0 s'.
Proof.
  intros HR HE. cbn. destruct (h_resize im (d_fs s) (x_h x) n) as [fs e1]. intros [= <- <-].
  eapply ext_trans; [exact HE|]. apply ext_emit. auto.
Qed.
Lemma flush_ext x s0 s i b s' e : (forall i n b, Q (EvWrite i n b)) -> ext Q s0 s -> cb_flush (obj_callbacks im x) s i b = (s', e) -> ext Q s0 s'.
Proof.
  intros HR HE. cbn. destruct (h_write im (d_fs s) (x_h x) i b) as [fs e1]. intros [= <- <-].
  eapply ext_trans; [exact HE|]. apply ext_emit. auto.
Qed.
Lemma min_blocks_zero c : 0 <= bpb c < 2^64 -> min_blocks c 0 = Panic \/ min_blocks c 0 = Ret 0.
Proof.
  intros Hb. unfold min_blocks. destruct (bpb c =? 0) eqn:E; [now left|right]. apply Z.eqb_neq in E. rewrite Z.add_0_l, (u64_small (bpb c)), u64_small by lia.
  f_equal. apply Z.div_small. lia.
Qed.
Lemma flush_all_none {S} (cb : callbacks S) s c : total c = 0 -> bpb c <> 0 -> exists e, flush_all cb s c = Ret (s, c, e).
Proof.
  intros Ht Hb. unfold flush_all, flush_range, check_bounds, min_blocks. rewrite (proj2 (Z.eqb_neq _ _) Hb), Ht. cbn [Z.geb Z.compare]. eauto.
Qed.
Lemma mok_new_file_trunc x flags : (io_truncate flags = true -> forall i, Q (EvResizeObj i 0)) -> mok Q (new_file im x flags).
Proof.
  intros HR s. destruct (io_truncate flags) eqn:Ht; [|apply mok_new_file; exact Ht]. specialize (HR eq_refl).
  unfold new_file, bind, stat. destruct (meth x); [|apply ext_refl]. destruct (negb (new_fits _ _)); [apply ext_refl|]. unfold s_new. rewrite Ht. destruct (_ || _); [apply ext_refl|].
  set (st := mkStream _ 0 _ flags). assert (0 <= bpb (scache st) < 2^64) as Hb by (cbn; unfold u64; pose proof (Z.mod_pos_bound (f_bsize (h_stat im (d_fs s) (x_h x))) (2^64)); pose proof (Z.mod_pos_bound (f_nblocks (h_stat im (d_fs s) (x_h x))) (2^64)); lia).
  assert (0 <= total (scache st)) as Htot by (cbn; unfold u64; pose proof (Z.mod_pos_bound (f_bsize (h_stat im (d_fs s) (x_h x))) (2^64)); pose proof (Z.mod_pos_bound (f_nblocks (h_stat im (d_fs s) (x_h x))) (2^64)); lia).
  unfold s_truncate. destruct (negb _); [apply ext_refl|]. cbn [Z.ltb Z.compare]. change (u64 0) with 0.
  destruct (min_blocks_zero (scache st) Hb) as [->| EM]; [apply ext_refl|rewrite EM].
  unfold resize. destruct (cb_resize (obj_callbacks im x) s 0) as [s1 [e1|]] eqn:ER; pose proof (resize_ext x s s 0 s1 _ HR (ext_refl Q s) ER) as H1; [exact H1|].
  destruct (set_bits _ _ _ _ _) as [c1| |] eqn:ES; [|apply ext_refl|apply ext_refl]. cbn [set_bits] in ES.
  destruct (total (scache st) <? 0) eqn:EL; [lia|]. injection ES as <-. change (sflags st) with flags. destruct (io_synchronous flags); [|exact H1].
  unfold s_sync. cbn [set_size set_cache scache]. 
  match goal with |- context [flush_all ?cb ?s ?c] => destruct (flush_all_none cb s c) as [e EF] end; [reflexivity| |rewrite EF; destruct e; exact H1].
  intros E0. change (bpb (scache st) = 0) in E0. unfold min_blocks in EM. rewrite E0 in EM. discriminate.
Qed.
Lemma mok_open_gen fuel p fl perm : (io_create fl = true -> forall i, Q (EvCreate i (snd (split_path (norm d p))) perm)) ->
  (io_truncate fl = true -> forall i, Q (EvResizeObj i 0)) -> mok Q (open_file im wm d fuel p fl perm).
Proof.
  intros HC HR. unfold open_file. cbn zeta. destruct (_ && _); [apply mok_ret|]. apply mok_bind; [apply fol|]. intros r.
  apply mok_try.
  - destruct r as [x|e]; [apply mok_ret|]. destruct (io_create fl) eqn:EC; [|rewrite andb_false_r; apply mok_ret]. destruct (kerr_is e _); cbn [andb]; [|apply mok_ret]. specialize (HC eq_refl).
    destruct (split_path (norm d p)) as [pp bn]. apply mok_try; [apply fol|]. intros x. apply mok_bind.
    { apply mok_try; [apply mok_create; exact HC|]. intros. apply mok_ret. }
    intros r. apply mok_bind; [apply mok_close; auto|]. intros. apply mok_ret.
  - intros x. apply mok_stat_bind. intros st. destruct (negb _); [apply mok_ret|]. now apply mok_new_file_trunc.
Qed.
Lemma mok_fl_write f b : (forall i n b, Q (EvWrite i n b)) -> (forall i n, Q (EvResizeObj i n)) -> mok Q (fl_write im f b).
Proof.
  intros HW HR s. unfold fl_write. destruct (s_write _ _ _ _) as [[[[s1 st1] n1] e1]| |] eqn:E; [|apply ext_refl|apply ext_refl].
  eapply (s_write_pres3 (obj_callbacks im (fl_obj f)) (ext Q s)); [| | |apply ext_refl|exact E].
  - intros. eapply fetch_ext; eauto.
  - intros. eapply flush_ext; eauto.
  - intros. eapply resize_ext; eauto.
Qed.
Lemma mok_fl_close f : (forall i n b, Q (EvWrite i n b)) -> mok Q (fl_close im f).
Proof.
  intros HW s. unfold fl_close, s_close. destruct (s_sync _ _ _) as [[[s1 st1] e1]| |] eqn:E; [|apply ext_refl|apply ext_refl].
  eapply (s_sync_pres3 (obj_callbacks im (fl_obj f)) (ext Q s)); [| |apply ext_refl|exact E].
  - intros. eapply fetch_ext; eauto.
  - intros. eapply flush_ext; eauto.
Qed.
Lemma mok_rmdir n : (forall i, Q (EvUnlink i)) -> forall x, mok Q (remove_directory im wm n x).
Proof.
  intros HU. induction n as [|n IH]; intros x; [apply mok_spin|]. cbn [remove_directory]. apply mok_try; [apply mok_list; auto|]. intros names.
  induction names as [|nm ns IHn]; [apply mok_ret|]. destruct (is_dots nm); [apply IHn|].
  apply mok_try; [apply mok_get_ext; auto|]. intros ent. apply mok_stat_bind. intros st. apply mok_bind.
  - destruct (is_dir st); [apply IH|apply mok_ret].
  - intros [?|?]; [|apply mok_bind; [apply mok_close; auto|intros; apply mok_ret]]. apply mok_bind; [apply mok_unlink; auto|]. intros q.
    apply mok_bind; [apply mok_close; auto|]. intros _. destruct q; [apply IHn|apply mok_ret].
Qed.
Lemma mok_mk n x md : (forall i, Q (EvCreate i n md)) -> mok Q (q <-? create_object im n x md ;; _ <- close im (raw (fst q) (snd q)) ;; ret (inl tt)).
Proof. intros HC. apply mok_try; [now apply mok_create|]. intros q. apply mok_bind; [apply mok_close; auto|]. intros. apply mok_ret. Qed.
Lemma mkdir_mode_idem perm : mkdir_mode (mkdir_mode perm) = mkdir_mode perm.
Proof.
  unfold mkdir_mode. apply Z.bits_inj'. intros i Hi. rewrite !Z.lor_spec, !Z.ldiff_spec, Z.lor_spec, Z.ldiff_spec.
  destruct (Z.testbit ModeDir i), (Z.testbit ModeType i), (Z.testbit perm i); reflexivity.
Qed.
Lemma mok_mkdir_all fuel n : forall p perm, (forall i nm, Q (EvCreate i nm (mkdir_mode perm))) -> mok Q (mkdir_all im wm d fuel n p perm).
Proof.
  induction n as [|n IH]; intros p perm HC; [apply mok_spin|]. cbn [mkdir_all]. destruct (split_path _) as [pp bn].
  apply mok_bind; [apply fol|]. assert (mok Q (_ <- mkdir_all im wm d fuel n pp (mkdir_mode perm) ;; @crash F (unit + kerr))) as HM.
  { apply mok_bind; [|intros; apply mok_crash']. apply IH. rewrite mkdir_mode_idem. exact HC. }
  intros [x|e]; [|destruct (kerr_is e _); [exact HM|apply mok_ret]]. apply mok_defer; auto. apply mok_mk. auto.
Qed.
Lemma mok_outc {A} (m : M F (A + kerr)) : mok Q m -> mok Q (outc m).
Proof. intros Hm. apply mok_bind; [exact Hm|]. intros. apply mok_ret. Qed.
End Op.

Lemma op_may {F H} (im : impl F H) wm d fuel o : mok (may im d o) (run_op im wm d fuel o).
Proof.
  set (Q := may im d o).
  assert (forall i, Q (EvAcquire i)) as Qa by (intros; exact I). assert (forall i, Q (EvRelease i)) as Qr by (intros; exact I).
  assert (forall i n, Q (EvGet i n)) as Qg by (intros; exact I). assert (forall i n, Q (EvRead i n)) as Qd by (intros; exact I).
  assert (forall i, Q (EvList i)) as Ql by (intros; exact I).
  assert (forall p, mok Q (following im wm d fuel p)) as Hf by (intros; apply mok_following; auto).
  assert (forall p, mok Q (no_follow im wm d fuel p)) as Hn by (intros; apply mok_no_follow; auto).
  destruct o; cbn [run_op]; try apply mok_outc.
  - apply mok_stat_path; auto.
  - apply mok_lstat; auto.
  - apply mok_read_file; auto.
  - apply mok_open_gen; auto.
    + intros E i. split; [exact E|split; reflexivity].
    + intros E i. split; [exact E|reflexivity].
  - apply mok_open_gen; auto.
    + intros E i. cbn. split; reflexivity.
    + discriminate.
  - apply mok_bind; [apply mok_read_dir; auto|intros; apply mok_ret].
  - apply mok_chdir; auto.
  - unfold mkdir. destruct (split_path (norm d p)) as [pp bn] eqn:ES. apply mok_try; [auto|]. intros x. apply mok_defer; auto. apply mok_stat_bind. intros st.
    destruct (negb _); [apply mok_ret|]. apply mok_mk; auto. intros i. cbn. unfold last_name. unfold norm in ES. rewrite ES. split; reflexivity.
  - apply mok_mkdir_all; auto. intros i nm. reflexivity.
  - apply mok_try; [auto|]. intros x. apply mok_defer; auto. apply mok_stat_bind. intros st. destruct (is_dir st).
    + apply mok_try; [apply mok_list; auto|]. intros ns. destruct (_ >? 0); [apply mok_ret|apply mok_unlink; intros; exact I].
    + destruct (negb _); [apply mok_ret|apply mok_unlink; intros; exact I].
  - apply mok_try; [auto|]. intros x. apply mok_defer; auto. apply mok_stat_bind. intros st. destruct (negb _); [apply mok_ret|].
    apply mok_bind; [apply mok_root; auto|]. intros r s. destruct (h_same im _ _ _); [apply ext_refl|]. apply mok_rmdir; auto.
  - apply mok_try; [auto|]. intros x. apply mok_defer; auto. apply mok_stat_bind. intros st. destruct (is_dir st); [apply mok_ret|]. apply mok_resize. intros; reflexivity.
  - apply mok_try; [auto|]. intros x. apply mok_opt. reflexivity.
  - apply mok_try; [auto|]. intros x. apply mok_opt. split; reflexivity.
  - apply mok_try; [auto|]. intros x. apply mok_opt. split; reflexivity.
  - apply mok_try; [auto|]. intros x. apply mok_opt. reflexivity.
  - unfold link. destruct (i_link im) as [mk|]; [|apply mok_ret]. apply mok_try; [auto|]. intros x. apply mok_bind; [auto|]. intros [y|e]; [apply mok_ret|].
    destruct (split_path (norm d new)) as [pp bn] eqn:ES. apply mok_try; [auto|]. intros z s. destruct (mk _ _ _ _) as [fs [h|e2]].
    + eapply ext_trans; [apply ext_emit|apply ext_fresh; auto]. cbn. unfold last_name. unfold norm in ES. rewrite ES. reflexivity.
    + apply ext_emit. cbn. unfold last_name. unfold norm in ES. rewrite ES. reflexivity.
  - apply mok_readlink; auto.
  - unfold write_file. apply mok_try.
    + apply mok_open_gen; auto. intros _ i. split; reflexivity.
    + intros f. apply mok_bind; [apply mok_fl_write; auto; intros; exact I|]. intros [[f' n] e]. apply mok_bind; [apply mok_fl_close; auto; intros; exact I|]. intros. apply mok_ret.
Qed.
