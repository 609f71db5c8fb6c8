(** * AccessProofs: calls on an open file *)
From Verif Require Import GoBase ListZ Errors Flags GoPath Spec_Path GoPathProofs BlockCache Spec_BlockCache BlockCacheProofs
  BlockCacheProofs2 BasicStream Spec_BasicStream BasicStreamProofs BasicStreamProofs3 Driver DriverFile Spec_Driver Spec_Driver4 Spec_Access
  DriverProofs DriverProofs2 DriverProofs3 DriverProofs16.

(** ** The flags of a stream never change *)
Section SF.
Context {S : Type} (cb : callbacks S).
Lemma read_at_flags s st b off s' st' b' n e : s_read_at cb s st b off = Ret (s', st', b', n, e) -> sflags st' = sflags st.
Proof.
  intros E. unfold s_read_at in E. destruct (negb (io_read (sflags st))); [injection E as <- <- <- <- <-; auto|].
  cbn zeta in E. destruct (zlen b =? 0); [injection E as <- <- <- <- <-; auto|]. destruct (_ >=? ssize st); [injection E as <- <- <- <- <-; auto|].
  destruct (conv_addr _ _) as [[f1 so]| |]; try discriminate. destruct (conv_addr _ _) as [[l1 so1]| |]; try discriminate.
  destruct (get_slice cb s _ _ _) as [[[s2 c2] [r|r]]| |] eqn:EG; try discriminate.
  - destruct (reslice _ _ _ _); try discriminate. injection E as <- <- <- <- <-. auto.
  - injection E as <- <- <- <- <-. auto.
Qed.
Lemma read_flags s st b s' st' b' n e : s_read cb s st b = Ret (s', st', b', n, e) -> sflags st' = sflags st.
Proof.
  unfold s_read. destruct (s_read_at cb s st b (spos st)) as [[[[[s1 st1] b1] n1] [e1|]]| |] eqn:E; try discriminate;
    apply read_at_flags in E; intros [= <- <- <- <- <-]; auto.
Qed.
Lemma seek_flags st off w st' p e : s_seek st off w = (st', p, e) -> sflags st' = sflags st.
Proof. unfold s_seek. repeat (destruct (_ =? _)); cbn zeta; try destruct (_ <? 0); intros [= <- <- <-]; reflexivity. Qed.
Lemma sync_flags s st s' st' e : s_sync cb s st = Ret (s', st', e) -> sflags st' = sflags st.
Proof. unfold s_sync. destruct (flush_all cb s (scache st)) as [[[s1 c1] e1]| |]; intros [= <- <- <-]; reflexivity. Qed.
Lemma truncate_flags s st n s' st' e : s_truncate cb s st n = Ret (s', st', e) -> sflags st' = sflags st.
Proof.
  unfold s_truncate. destruct (negb _); [intros [= <- <- <-]; auto|]. destruct (n <? 0); [intros [= <- <- <-]; auto|].
  destruct (min_blocks _ _); try discriminate. destruct (resize cb s _ _) as [[[s1 c1] [e1|]]| |]; try discriminate; [intros [= <- <- <-]; auto|].
  destruct (io_synchronous _); [intros E; apply sync_flags in E; exact E|intros [= <- <- <-]; auto].
Qed.
Lemma impl_write_flags s st b off s' st' n e : s_impl_write_at cb s st b off = Ret (s', st', n, e) -> sflags st' = sflags st.
Proof.
  unfold s_impl_write_at. destruct (negb _); [intros [= <- <- <- <-]; auto|]. cbn zeta.
  destruct (conv_addr _ _) as [[f1 so]| |]; try discriminate. destruct (conv_addr _ _) as [[l1 so1]| |]; try discriminate.
  assert (forall s1 st1 e1, (if l1 >=? total (scache st) then s_truncate cb s st (i64 (off + zlen b)) else Ret (s, st, None)) = Ret (s1, st1, e1) -> sflags st1 = sflags st) as HG.
  { intros s1 st1 e1. destruct (_ >=? _); [apply truncate_flags|intros [= <- <- <-]; auto]. }
  destruct (if _ >=? _ then _ else _) as [[[s1 st1] [e1|]]| |]; try discriminate; specialize (HG _ _ _ eq_refl).
  - intros [= <- <- <- <-]. exact HG.
  - destruct (get_slice cb s1 _ _ _) as [[[s2 c2] [r|r]]| |]; try discriminate; [|intros [= <- <- <- <-]; exact HG].
    destruct (_ >? _); [discriminate|]. destruct (io_synchronous _).
    + destruct (s_sync cb s2 _) as [[[s4 st4] e4]| |] eqn:E4; try discriminate. intros [= <- <- <- <-]. apply sync_flags in E4. rewrite E4. exact HG.
    + intros [= <- <- <- <-]. exact HG.
Qed.
Lemma write_at_flags s st b off s' st' n e : s_write_at cb s st b off = Ret (s', st', n, e) -> sflags st' = sflags st.
Proof. unfold s_write_at. destruct (io_append _); [intros [= <- <- <- <-]; auto|apply impl_write_flags]. Qed.
Lemma write_flags s st b s' st' n e : s_write cb s st b = Ret (s', st', n, e) -> sflags st' = sflags st.
Proof.
  unfold s_write. destruct (negb _); [intros [= <- <- <- <-]; auto|].
  destruct (if io_append (sflags st) then s_seek st 0 2 else (st, 0, None)) as [[st1 p1] e1] eqn:E1.
  assert (sflags st1 = sflags st) as H1 by (destruct (io_append _); [now apply seek_flags in E1|now injection E1 as <- _ _]).
  destruct e1; [intros [= <- <- <- <-]; exact H1|].
  destruct (s_impl_write_at cb s st1 b (spos st1)) as [[[[s2 st2] n2] e2]| |] eqn:E2; try discriminate. apply impl_write_flags in E2.
  intros [= <- <- <- <-]. cbn. congruence.
Qed.
End SF.

Section FC.
Context {F H : Type} (im : impl F H).
Ltac done2 := match goal with |- context [match ?m with Ret _ => _ | Panic => _ | OutOfFuel => _ end] => let E := fresh "E" in destruct m eqn:E; try discriminate end.
Lemma call_keeps f c s s' f' b n e : file_call im f c s = Done s' (f', b, n, e) ->
  fl_obj f' = fl_obj f /\ sflags (fl_stream f') = sflags (fl_stream f) /\ fl_stat f' = fl_stat f.
Proof.
  unfold file_call. destruct c; unfold fl_read, fl_read_at, fl_write, fl_write_at, fl_truncate, fl_sync, bind, ret.
  - destruct (s_read _ _ _ _) as [[[[[s1 st1] b1] n1] e1]| |] eqn:E; try discriminate. apply read_flags in E. intros [= <- <- <- <- <-]. auto.
  - destruct (s_read_at _ _ _ _ _) as [[[[[s1 st1] b1] n1] e1]| |] eqn:E; try discriminate. apply read_at_flags in E. intros [= <- <- <- <- <-]. auto.
  - destruct (s_write _ _ _ _) as [[[[s1 st1] n1] e1]| |] eqn:E; try discriminate. apply write_flags in E. intros [= <- <- <- <- <-]. auto.
  - destruct (s_write_at _ _ _ _ _) as [[[[s1 st1] n1] e1]| |] eqn:E; try discriminate. apply write_at_flags in E. intros [= <- <- <- <- <-]. auto.
  - destruct (s_truncate _ _ _ _) as [[[s1 st1] e1]| |] eqn:E; try discriminate. apply truncate_flags in E. intros [= <- <- <- <- <-]. auto.
  - unfold fl_seek. destruct (s_seek _ _ _) as [[st1 p1] e1] eqn:E. apply seek_flags in E. intros [= <- <- <- <- <-]. auto.
  - destruct (s_sync _ _ _) as [[[s1 st1] e1]| |] eqn:E; try discriminate. apply sync_flags in E. intros [= <- <- <- <- <-]. auto.
Qed.
Lemma used_keeps ok others f s f' s' : used im ok others f s f' s' ->
  fl_obj f' = fl_obj f /\ sflags (fl_stream f') = sflags (fl_stream f) /\ fl_stat f' = fl_stat f.
Proof.
  induction 1 as [|f1 s1 c f2 s2 b n e U IH Hok E|f1 s1 s2 U IH Ho]; auto. apply call_keeps in E as (A & B & C). destruct IH as (A1 & B1 & C1).
  split; [congruence|]. split; congruence.
Qed.
Lemma call_refused f c s : changes c = true -> io_write (sflags (fl_stream f)) = false ->
  file_call im f c s = Done s (f, [], 0, Some (K ErrNotPermitted)).
Proof.
  intros Hc Hw. assert (with_stream f (fl_stream f) = f) as Ef by (destruct f; reflexivity).
  destruct c; try discriminate; cbn [file_call]; unfold bind, ret, fl_write, fl_write_at, fl_truncate.
  - unfold s_write. rewrite Hw. cbn [negb]. now rewrite Ef.
  - unfold s_write_at, s_impl_write_at. rewrite Hw. cbn [negb]. destruct (io_append _); now rewrite Ef.
  - unfold s_truncate. rewrite Hw. cbn [negb]. now rewrite Ef.
Qed.
Lemma read_refused f c s : reads c = true -> io_read (sflags (fl_stream f)) = false ->
  file_call im f c s = Done s (f, buffer_of c, 0, Some (K ErrNotPermitted)).
Proof.
  intros Hc Hr. assert (with_stream f (fl_stream f) = f) as Ef by (destruct f; reflexivity).
  destruct c; try discriminate; cbn [file_call buffer_of]; unfold fl_read, fl_read_at, s_read, s_read_at; rewrite Hr; cbn [negb]; now rewrite Ef.
Qed.

(** ** Opening *)
Lemma new_file_inv x flags s s' f : new_file im x flags s = Done s' (inl f) ->
  meth x = true /\ fl_obj f = x /\ sflags (fl_stream f) = flags /\ fl_stat f = h_stat im (d_fs s) (x_h x) /\ (io_write flags = false -> io_truncate flags = false) /\
  (io_truncate flags = false -> s' = s /\
     fl_stream f = mkStream (f_size (fl_stat f)) 0 (new_cache (u64 (f_bsize (fl_stat f))) (u64 (f_nblocks (fl_stat f)))) flags /\ 0 <= f_size (fl_stat f)).
Proof.
  unfold new_file, bind, stat. destruct (meth x) eqn:Hm; [|discriminate]. cbn beta. set (st := h_stat im (d_fs s) (x_h x)).
  destruct (negb (new_fits _ _)); [discriminate|]. unfold s_new. destruct (_ || _) eqn:Hsz; [discriminate|]. apply Bool.orb_false_iff in Hsz as [Hsz _].
  destruct (io_truncate flags) eqn:Ht.
  - destruct (s_truncate _ _ _ _) as [[[s1 st1] [e1|]]| |] eqn:E; try discriminate. pose proof E as E0. apply truncate_flags in E.
    intros [= <- <-]. cbn. split; [reflexivity|]. split; [reflexivity|]. split; [exact E|]. split; [reflexivity|]. split; [|discriminate].
    intros Hw. unfold s_truncate in E0. cbn [sflags] in E0. rewrite Hw in E0. discriminate.
  - intros [= <- <-]. cbn. split; [reflexivity|]. split; [reflexivity|]. split; [reflexivity|]. split; [reflexivity|]. split; [reflexivity|]. intros _. split; [reflexivity|]. split; [reflexivity|]. fold st in Hsz. lia.
Qed.
Lemma open_inv wm d fuel p flags perm s s' f : open_file im wm d fuel p flags perm s = Done s' (inl f) ->
  exists s0 x, meth x = true /\ is_file (h_stat im (d_fs s0) (x_h x)) = true /\ new_file im x flags s0 = Done s' (inl f) /\
    (io_create flags = false -> following im wm d fuel (norm d p) s = Done s0 (inl x)).
Proof.
  unfold open_file. destruct (_ && _); [discriminate|]. unfold bind at 1.
  destruct (following im wm d fuel (norm d p) s) as [s1 r|s1|s1] eqn:E1; try discriminate. intros E.
  apply try_inv in E as [(s0 & x & E2 & E3)|(e & _ & X)]; [|discriminate].
  unfold bind, stat in E3. destruct (meth x) eqn:Hm; [|discriminate]. destruct (negb (is_file _)) eqn:Hf; [discriminate|].
  exists s0, x. split; [exact Hm|]. split; [now apply Bool.negb_false_iff in Hf|]. split; [exact E3|]. intros Hc.
  destruct r as [o|e]; [injection E2 as -> ->; reflexivity|]. destruct (kerr_is e ErrNotFound); cbn [andb] in E2; [|discriminate]. rewrite Hc in E2. discriminate.
Qed.

(** ** A file that is only read: no other call to the implementation *)
Definition only_read (x : xh H) (e : event) : Prop := exists i, e = EvRead (x_id x) i.
Lemma fetch_only x s0 s i b s' b' e : ext (only_read x) s0 s -> cb_fetch (obj_callbacks im x) s i b = (s', b', e) -> ext (only_read x) s0 s'.
Proof.
  intros HE. cbn. destruct (h_read im (d_fs s) (x_h x) i b) as [[fs b1] e1]. intros [= <- <- <-].
  eapply ext_trans; [exact HE|]. apply ext_emit. eexists; reflexivity.
Qed.
Lemma read_at_pres {S} (cb : callbacks S) (P : S -> Prop) (HP : forall s i b s' b' e, P s -> cb_fetch cb s i b = (s', b', e) -> P s')
  s st b off s' st' b' n e : P s -> clean_bits (dirty (scache st)) -> s_read_at cb s st b off = Ret (s', st', b', n, e) -> P s' /\ clean_bits (dirty (scache st')).
Proof.
  intros Hs Hc E. unfold s_read_at in E. destruct (negb (io_read (sflags st))); [injection E as <- <- <- <- <-; auto|].
  cbn zeta in E. destruct (zlen b =? 0); [injection E as <- <- <- <- <-; auto|]. destruct (_ >=? ssize st); [injection E as <- <- <- <- <-; auto|].
  destruct (conv_addr _ _) as [[f1 so]| |]; try discriminate. destruct (conv_addr _ _) as [[l1 so1]| |]; try discriminate.
  destruct (get_slice cb s _ _ _) as [[[s2 c2] [r|r]]| |] eqn:EG; try discriminate;
    destruct (get_slice_pres cb P HP _ _ _ _ _ _ _ Hs Hc EG) as [A B].
  - destruct (reslice _ _ _ _); try discriminate. injection E as <- <- <- <- <-. auto.
  - injection E as <- <- <- <- <-. auto.
Qed.
Definition quiet_call (flags : Z) (c : fcall) : Prop := changes c = true -> io_write flags = false.
Lemma call_quiet f c s s' f' b n e : clean_bits (dirty (scache (fl_stream f))) -> quiet_call (sflags (fl_stream f)) c ->
  file_call im f c s = Done s' (f', b, n, e) -> ext (only_read (fl_obj f)) s s' /\ clean_bits (dirty (scache (fl_stream f'))).
Proof.
  intros Hc Hq E. destruct (changes c) eqn:Hch.
  { rewrite (call_refused f c s Hch (Hq Hch)) in E. injection E as <- <- _ _ _. split; [apply ext_refl|exact Hc]. }
  pose proof (fun s1 i b1 s2 b2 e1 => fetch_only (fl_obj f) s s1 i b1 s2 b2 e1) as HP. pose proof (ext_refl (only_read (fl_obj f)) s) as HR.
  destruct c; try discriminate Hch; cbn [file_call] in E; unfold bind, ret, fl_read, fl_read_at, fl_sync, fl_seek in E.
  - destruct (s_read _ _ _ _) as [[[[[s1 st1] b1] n1] e1]| |] eqn:ER; try discriminate. injection E as <- <- _ _ _.
    exact (s_read_pres _ _ HP _ _ _ _ _ _ _ _ HR Hc ER).
  - destruct (s_read_at _ _ _ _ _) as [[[[[s1 st1] b1] n1] e1]| |] eqn:ER; try discriminate. injection E as <- <- _ _ _.
    exact (read_at_pres _ _ HP _ _ _ _ _ _ _ _ _ HR Hc ER).
  - destruct (s_seek _ _ _) as [[st1 p1] e1] eqn:ER. injection E as <- <- _ _ _. split; [exact HR|]. cbn [with_stream fl_stream].
    revert ER. unfold s_seek. repeat (destruct (_ =? _)); cbn zeta; try destruct (_ <? 0); intros [= <- <- <-]; exact Hc.
  - unfold s_sync in E. destruct (flush_all _ _ _) as [[[s1 c1] e1]| |] eqn:ER; try discriminate. injection E as <- <- _ _ _.
    apply flush_all_clean in ER as [-> ->]; [|exact Hc]. split; [exact HR|exact Hc].
Qed.
Lemma used_clean others f s f' s' : clean_bits (dirty (scache (fl_stream f))) -> used im (quiet_call (sflags (fl_stream f))) others f s f' s' ->
  clean_bits (dirty (scache (fl_stream f'))).
Proof.
  intros Hc. induction 1 as [|f1 s1 c f2 s2 b n e U IH Hok E|f1 s1 s2 U IH Ho]; auto.
  destruct (used_keeps _ _ _ _ _ _ U) as (_ & B & _). eapply call_quiet; [exact IH| |exact E]. now rewrite B.
Qed.
Lemma close_quiet f s s' e : clean_bits (dirty (scache (fl_stream f))) -> fl_close im f s = Done s' e -> s' = s.
Proof.
  intros Hc. unfold fl_close, s_close, s_sync. destruct (flush_all _ _ _) as [[[s1 c1] e1]| |] eqn:ER; try discriminate. intros [= <- _].
  now apply flush_all_clean in ER as [-> _].
Qed.
End FC.
