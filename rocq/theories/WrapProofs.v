(** * WrapProofs: a stream that keeps the contracts of package io, and reads in full, is an honest storage. *)
From Verif Require Import GoBase ListZ Errors BlockCache Spec_BlockCache BlockCacheProofs BlockCacheProofs3 Spec_Bounds BoundsProofs WrapStream Spec_Wrap.

Lemma i64_small' x : 0 <= x < 2^63 -> i64 x = x.
Proof. intros Hx. unfold i64. rewrite Z.mod_small by lia. lia. Qed.
Definition wnb {T} (con : T -> list Z) (bs : Z) (t : T) : Z := zlen (con t) / bs.
Definition wblk {T} (con : T -> list Z) (bs : Z) (t : T) (i : Z) : list Z := slice (i * bs) bs (con t).
Lemma wnb_in {T} (con : T -> list Z) bs t i : 0 < bs -> 0 <= i < wnb con bs t -> 0 <= i * bs /\ i * bs + bs <= zlen (con t).
Proof. unfold wnb. intros Hb Hi. pose proof (Z.mul_div_le (zlen (con t)) bs Hb). nia. Qed.

Section Honest.
Context {T : Type} (io : rws T) (con : T -> list Z) (pos : T -> Z).
Hypothesis HG : go_stream io con pos.
Hypothesis HFull : full_reads io.
Hypothesis HEof : no_eof_writes io.

Lemma seek_block t i total0 bs t1 e : 0 < bs -> 0 <= i < wnb con bs t -> seek_to_block io t i total0 bs = (t1, e) ->
  con t1 = con t /\ (e = None -> i < total0 /\ pos t1 = i * bs).
Proof.
  intros Hb Hi. destruct (wnb_in con bs t i Hb Hi) as [A B]. pose proof (g_len _ _ _ HG t) as HL. unfold seek_to_block.
  destruct (i >=? total0) eqn:E; [intros [= <- <-]; split; [reflexivity|discriminate]|].
  rewrite i64_small' by lia. intros ES. destruct (g_seek _ _ _ HG t (i * bs) t1 e A ES) as [C P]. split; [exact C|]. intros X. split; [lia|auto].
Qed.
Lemma wrap_honest bs total0 allow : 0 < bs -> honest (wrap_cb io bs total0 allow) bs (wnb con bs) (wblk con bs).
Proof.
  intros Hb. constructor.
  - intros t i Hi. destruct (wnb_in con bs t i Hb Hi). unfold wblk. apply zlen_slice; lia.
  - intros t i buf t' buf' e Hi Hl. cbn [wrap_cb cb_fetch]. unfold wrap_fetch. destruct (seek_to_block io t i total0 bs) as [t1 e1] eqn:ES.
    destruct (seek_block t i total0 bs t1 e1 Hb Hi ES) as [C P]. destruct (wnb_in con bs t i Hb Hi) as [A B].
    assert (forall x, con x = con t -> wnb con bs x = wnb con bs t /\ forall j, 0 <= j < wnb con bs t -> wblk con bs x j = wblk con bs t j) as HX.
    { intros x E. unfold wnb, wblk. rewrite E. auto. }
    destruct e1 as [e1|].
    + intros [= <- <- <-]. destruct (HX t1 C) as [X1 X2]. split; [exact X1|]. split; [exact X2|]. split; [exact Hl|discriminate].
    + destruct (P eq_refl) as [P1 P2]. destruct (rw_read io t1 buf) as [[[t2 b2] n] e2] eqn:ER. intros [= <- <- <-].
      destruct (g_read _ _ _ HG t1 buf t2 b2 n e2 ltac:(lia) ER) as (C2 & N2 & _ & D2 & E2). pose proof (g_buffer _ _ _ HG _ _ _ _ _ _ ER) as L2. rewrite C in *. destruct (HX t2 C2) as [X1 X2].
      split; [exact X1|]. split; [exact X2|]. split; [lia|]. intros He. assert (n = bs) as ->.
      { destruct e2 as [e2|]; [|rewrite <- Hl; eapply HFull; eauto]. destruct e2; cbn in He; try discriminate. specialize (E2 eq_refl). lia. }
      unfold wblk. rewrite <- P2, <- D2. symmetry. apply slice_full. lia.
  - intros t i buf t' e Hi Hl. cbn [wrap_cb cb_flush]. unfold wrap_flush. destruct (seek_to_block io t i total0 bs) as [t1 e1] eqn:ES.
    destruct (seek_block t i total0 bs t1 e1 Hb Hi ES) as [C P]. destruct (wnb_in con bs t i Hb Hi) as [A B]. destruct e1 as [e1|].
    + intros [= <- <-]. unfold wnb, wblk. rewrite C. split; [reflexivity|]. split; [reflexivity|discriminate].
    + destruct (P eq_refl) as [P1 P2]. destruct (rw_write io t1 buf) as [[t2 n] e2] eqn:EW. intros [= <- <-].
      destruct (g_write _ _ _ HG t1 buf t2 n e2 ltac:(lia) EW) as [W1 W2]. rewrite C, P2, Hl in W2. destruct (W2 ltac:(lia)) as [WL WO].
      split; [unfold wnb; now rewrite WL|]. split.
      * intros j Hj Hne. destruct (wnb_in con bs t j Hb Hj). unfold wblk. apply (list_ext 0); [rewrite !zlen_slice by lia; reflexivity|].
        intros k Hk. rewrite zlen_slice in Hk by lia. rewrite !znth_slice by lia. apply WO. assert (j < i \/ i < j) as [|] by lia; nia.
      * intros He. assert (e2 = None) as -> by (pose proof (HEof _ _ _ _ _ EW) as Z; destruct e2 as [e2|]; [destruct e2; cbn in He; congruence|reflexivity]).
        unfold wblk. rewrite (W1 eq_refl), C, P2. unfold file_write. rewrite Hl.
        replace (zrepeat 0 (i * bs + bs - zlen (con t))) with (@nil Z) by (unfold zrepeat; replace (Z.to_nat (i * bs + bs - zlen (con t))) with 0%nat by lia; reflexivity).
        rewrite app_nil_r. rewrite <- Hl at 2. apply slice_splice_same; lia.
  - intros t n t' e Hn Hnb. cbn [wrap_cb cb_resize]. unfold wrap_resize. destruct allow; [|intros [= <- <-]; auto].
    destruct (rw_truncate io) as [tr|] eqn:ET; [|intros [= <- <-]; auto]. rewrite i64_small' by nia. intros ER.
    pose proof (g_truncate _ _ _ HG tr t (n * bs) t' e ET ltac:(nia) ER) as HC. destruct e as [e|]; [unfold wnb, wblk; rewrite HC; auto|].
    assert (zlen (file_truncate (con t) (n * bs)) = n * bs) as El.
    { unfold file_truncate. pose proof (zlen_nonneg (con t)). rewrite zlen_app, zlen_slice_min by nia.
      assert (zlen (zrepeat 0 (n * bs - zlen (con t))) = Z.max 0 (n * bs - zlen (con t))) as -> by (unfold zlen, zrepeat; rewrite repeat_length; lia). lia. }
    split; [unfold wnb; rewrite HC, El, Z.div_mul by lia; lia|]. intros j Hj Hj2. destruct (wnb_in con bs t j Hb ltac:(lia)).
    unfold wblk. rewrite HC. unfold file_truncate. rewrite slice_app_l; [|nia|nia|rewrite zlen_slice_min by nia; nia]. rewrite slice_slice by nia. reflexivity.
Qed.
Lemma wrap_storage_bytes bs t n : 0 < bs -> 0 <= n -> n * bs <= zlen (con t) -> storage_bytes (wblk con bs) t n = slice 0 (n * bs) (con t).
Proof. intros Hb Hn Hl. change (storage_bytes (wblk con bs) t n) with (storage_bytes (fblk bs) (con t) n). apply storage_bytes_file; lia. Qed.
End Honest.

(** ** A healthy file *)
Definition healthy : rws (list Z * Z) :=
  mkRws (list Z * Z)
    (fun t off => ((fst t, off), None))
    (fun t buf => let got := slice (snd t) (zlen buf) (fst t) in
       ((fst t, snd t + zlen got), splice 0 got buf, zlen got, if zlen got <? zlen buf then Some KEOF else None))
    (fun t buf => ((file_write (fst t) (snd t) buf, snd t + zlen buf), zlen buf, None))
    (Some (fun t n => ((file_truncate (fst t) n, snd t), None)))
    (fun t => ((fst t, zlen (fst t)), zlen (fst t), None)).
(* WrapStream over it is the model used for C26 and C27 *)
Lemma healthy_same bs total0 allow f p i buf n : 0 <= i * bs < 2^63 -> 0 <= n * bs < 2^63 ->
  let cb := wrap_cb healthy bs total0 allow in let cb0 := wrap_stream_cb bs total0 allow true in
  (exists p', cb_fetch cb (f, p) i buf = (let '(f', b', e) := cb_fetch cb0 f i buf in ((f', p'), b', e))) /\
  (exists p', cb_flush cb (f, p) i buf = (let '(f', e) := cb_flush cb0 f i buf in ((f', p'), e))) /\
  (exists p', cb_resize cb (f, p) n = (let '(f', e) := cb_resize cb0 f n in ((f', p'), e))).
Proof.
  intros Hi Hn cb cb0. unfold cb, cb0, wrap_cb, wrap_stream_cb. cbn [cb_fetch cb_flush cb_resize]. unfold wrap_fetch, wrap_flush, wrap_resize, seek_to_block.
  rewrite !i64_small' by lia. cbn [healthy rw_seek rw_read rw_write rw_truncate fst snd]. split; [|split].
  - destruct (i >=? total0); [eexists; reflexivity|]. eexists. destruct (_ <? _); reflexivity.
  - destruct (i >=? total0); eexists; reflexivity.
  - destruct allow; eexists; reflexivity.
Qed.

(** ** What every callback preserves, every history preserves *)
Section Keep.
Context {S : Type} (cb : callbacks S) (P : S -> Prop).
Hypothesis Kf : forall s i b, P s -> P (fst (fst (cb_fetch cb s i b))).
Hypothesis Kw : forall s i b, P s -> P (fst (cb_flush cb s i b)).
Hypothesis Kr : forall s n, P s -> P (fst (cb_resize cb s n)).
Definition keeps {A} (f : outcome (S * cache * A)) : Prop := forall s c a, f = Ret (s, c, a) -> P s.
Lemma load_loop_keeps fuel : forall i stop s c, P s -> keeps (load_loop cb fuel i stop s c).
Proof.
  induction fuel as [|fuel IH]; intros i stop s c HP; cbn [load_loop]; [discriminate|]. destruct (i <? stop); [|intros ? ? ? [= <- _ _]; exact HP].
  destruct (bget _ _) as [[]| |]; try discriminate; [apply IH; exact HP|]. cbv zeta. destruct (data_slice _ _ _) as [b| |]; try discriminate.
  pose proof (Kf s i b HP) as HK. destruct (cb_fetch cb s i b) as [[s' b'] [e|]]; cbn [fst] in HK; [intros ? ? ? [= <- _ _]; exact HK|].
  destruct (bset _ _ _); try discriminate. destruct (bset _ _ _); try discriminate. apply IH. exact HK.
Qed.
Lemma load_range_keeps s c start count : P s -> keeps (load_range cb s c start count).
Proof. intros HP. unfold load_range. destruct (check_bounds _ _ _) as [[e|]| |]; try discriminate; [intros ? ? ? [= <- _ _]; exact HP|now apply load_loop_keeps]. Qed.
Lemma get_slice_keeps s c start count : P s -> keeps (get_slice cb s c start count).
Proof.
  intros HP s' c' a. unfold get_slice. pose proof (load_range_keeps s c start count HP) as HK. destruct (load_range cb s c start count) as [[[s1 c1] [e|]]| |]; try discriminate.
  - intros [= <- _ _]. eapply HK; reflexivity.
  - destruct (data_slice _ _ _); try discriminate. intros [= <- _ _]. eapply HK; reflexivity.
Qed.
Lemma flush_loop_keeps fuel : forall i stop s c, P s -> keeps (flush_loop cb fuel i stop s c).
Proof.
  induction fuel as [|fuel IH]; intros i stop s c HP; cbn [flush_loop]; [discriminate|]. destruct (_ <? stop); [|intros ? ? ? [= <- _ _]; exact HP].
  destruct (bget _ _) as [[]| |]; try discriminate; [|apply IH; exact HP].
  pose proof (get_slice_keeps s c (u64 i) 1 HP) as HK. destruct (get_slice cb s c (u64 i) 1) as [[[s1 c1] [b|e]]| |]; try discriminate; [|intros ? ? ? [= <- _ _]; eapply HK; reflexivity].
  pose proof (Kw s1 (u64 i) b (HK _ _ _ eq_refl)) as HW. destruct (cb_flush cb s1 (u64 i) b) as [s2 [e|]]; cbn [fst] in HW; [intros ? ? ? [= <- _ _]; exact HW|].
  destruct (bset _ _ _); try discriminate. apply IH. exact HW.
Qed.
Lemma exec_op_keeps s c o : P s -> keeps (exec_op cb s c o).
Proof.
  intros HP s' c' a. destruct o as [start len|start b|start count|start count off b| | | |n]; cbn [exec_op].
  - unfold read_at. destruct (check_bounds _ _ _) as [[e|]| |]; try discriminate; [intros [= <- _ _]; exact HP|]. destruct (min_blocks _ _) as [k| |]; try discriminate.
    pose proof (load_range_keeps s c start k HP) as HK. destruct (load_range cb s c start k) as [[[s1 c1] [e|]]| |]; try discriminate; [intros [= <- _ _]; eapply HK; reflexivity|].
    pose proof (get_slice_keeps s1 c1 start k (HK _ _ _ eq_refl)) as HK2. destruct (get_slice cb s1 c1 start k) as [[[s2 c2] [x|e]]| |]; try discriminate; intros [= <- _ _]; eapply HK2; reflexivity.
  - unfold write_at. destruct (check_bounds _ _ _) as [[e|]| |]; try discriminate; [intros [= <- _ _]; exact HP|]. destruct (min_blocks _ _) as [k| |]; try discriminate.
    pose proof (get_slice_keeps s c start k HP) as HK2. destruct (get_slice cb s c start k) as [[[s2 c2] [x|e]]| |]; try discriminate; [|intros [= <- _ _]; eapply HK2; reflexivity].
    cbv zeta. destruct (set_bits _ _ _ _ _); try discriminate. intros [= <- _ _]; eapply HK2; reflexivity.
  - pose proof (get_slice_keeps s c start count HP) as HK2. destruct (get_slice cb s c start count) as [[[s2 c2] [x|e]]| |]; try discriminate; intros [= <- _ _]; eapply HK2; reflexivity.
  - pose proof (get_slice_keeps s c start count HP) as HK2. destruct (get_slice cb s c start count) as [[[s2 c2] [x|e]]| |]; try discriminate; [|intros [= <- _ _]; eapply HK2; reflexivity].
    destruct (mark_dirty _ _ _) as [[c3 e]| |]; try discriminate. intros [= <- _ _]; eapply HK2; reflexivity.
  - unfold load_all. pose proof (load_range_keeps s c 0 (total c) HP) as HK. destruct (load_range cb s c 0 (total c)) as [[[s1 c1] e]| |]; try discriminate. intros [= <- _ _]; eapply HK; reflexivity.
  - unfold get_data, load_all. pose proof (load_range_keeps s c 0 (total c) HP) as HK. destruct (load_range cb s c 0 (total c)) as [[[s1 c1] [e|]]| |]; try discriminate; intros [= <- _ _]; eapply HK; reflexivity.
  - unfold flush_all, flush_range. destruct (check_bounds _ _ _) as [[e|]| |]; try discriminate; [intros [= <- _ _]; exact HP|].
    pose proof (flush_loop_keeps (loop_fuel c) (i64 0) (u64 (0 + total c)) s c HP) as HK. destruct (flush_loop _ _ _ _ _ _) as [[[s1 c1] e]| |]; try discriminate. intros [= <- _ _]; eapply HK; reflexivity.
  - unfold resize. pose proof (Kr s n HP) as HK. destruct (cb_resize cb s n) as [s1 [e|]]; cbn [fst] in HK; [intros [= <- _ _]; exact HK|].
    destruct (set_bits _ _ _ _ _); try discriminate. intros [= <- _ _]. exact HK.
Qed.
Lemma exec_keeps os : forall s c, P s -> keeps (exec cb s c os).
Proof.
  induction os as [|o os IH]; intros s c HP s' c' a; cbn [exec]; [intros [= <- _ _]; exact HP|].
  pose proof (exec_op_keeps s c o HP) as HK. destruct (exec_op cb s c o) as [[[s1 c1] r]| |]; try discriminate.
  pose proof (IH s1 c1 (HK _ _ _ eq_refl)) as H2. destruct (exec cb s1 c1 os) as [[[s2 c2] rs]| |]; try discriminate. intros [= <- _ _]. eapply H2; reflexivity.
Qed.
End Keep.

(** ** Resizing not allowed: the size of the stream and all that the cache does not cover stay *)
Section Fixed.
Context {T : Type} (io : rws T) (con : T -> list Z) (pos : T -> Z) (bs total0 : Z).
Hypothesis HG : go_stream io con pos.
Hypothesis Hbs : 0 < bs < 2^59.
Hypothesis Ht0 : 0 <= total0.
(* refuse whatever is not a whole block of the cache *)
Definition guarded : callbacks T :=
  let cb := wrap_cb io bs total0 false in
  mkCb T (fun s i b => if (0 <=? i) && (i <? total0) && (zlen b =? bs) then cb_fetch cb s i b else (s, b, Some KEOF))
    (fun s i b => if (0 <=? i) && (i <? total0) && (zlen b =? bs) then cb_flush cb s i b else (s, Some KEOF)) (cb_resize cb).
Lemma guarded_same : same_inside (wrap_cb io bs total0 false) guarded bs (fun _ => total0).
Proof.
  split; [|reflexivity]. intros s i b Hi Hb. unfold guarded. cbn [cb_fetch cb_flush].
  replace ((0 <=? i) && (i <? total0) && (zlen b =? bs)) with true by (symmetry; rewrite !andb_true_iff; lia). auto.
Qed.
Lemma wrap_tracks : tracks (wrap_cb io bs total0 false) (fun _ => total0).
Proof.
  split; [|split].
  - intros s i b s' b' e. cbn [wrap_cb cb_fetch]. unfold wrap_fetch. destruct (seek_to_block _ _ _ _ _) as [t1 [e1|]]; [intros [= <- <- <-]; auto|].
    destruct (rw_read io t1 b) as [[[t2 b2] n] e2] eqn:ER. intros [= <- <- <-]. split; [reflexivity|]. eapply g_buffer; eauto.
  - reflexivity.
  - intros s n s' e. cbn. now intros [= <- <-].
Qed.
Lemma fixed_run t os t' c' rs : total0 * bs <= zlen (con t) -> Forall (op_go bs) os ->
  exec (wrap_cb io bs total0 false) t (new_cache bs total0) os = Ret (t', c', rs) ->
  zlen (con t') = zlen (con t) /\ slice (total0 * bs) (zlen (con t) - total0 * bs) (con t') = slice (total0 * bs) (zlen (con t) - total0 * bs) (con t).
Proof.
  intros Hl Hok. pose proof (g_len _ _ _ HG t) as HL.
  assert (shape bs (fun _ : T => total0) t (new_cache bs total0)) as HS0 by (apply new_shape; auto; lia).
  rewrite (exec_same _ _ bs (fun _ => total0) Hbs wrap_tracks guarded_same os t _ HS0 Hok).
  intros E. set (P := fun x => zlen (con x) = zlen (con t) /\ forall i, total0 * bs <= i -> znth 0 (con x) i = znth 0 (con t) i).
  assert (P t') as [P1 P2].
  { eapply (exec_keeps guarded P); [| | |split; reflexivity|exact E].
    - intros s i b [A B]. unfold guarded. cbn [cb_fetch]. destruct (_ && _) eqn:EG; [|split; assumption]. cbn [wrap_cb cb_fetch]. unfold wrap_fetch, seek_to_block. destruct (i >=? total0) eqn:EI; [lia|].
      assert (i * bs < total0 * bs) by (apply Z.mul_lt_mono_pos_r; lia). assert (0 <= i * bs < 2^63) as H0 by (split; [apply Z.mul_nonneg_nonneg; lia|lia]). rewrite i64_small' by lia. destruct (rw_seek io s (i * bs)) as [t1 e1] eqn:ES. destruct (g_seek _ _ _ HG _ _ _ _ (proj1 H0) ES) as [C Q].
      destruct e1; [cbn [fst]; red; rewrite C; auto|]. destruct (rw_read io t1 b) as [[[t2 b2] n] e2] eqn:ER. cbn [fst]. destruct (g_read _ _ _ HG t1 b t2 b2 n e2 ltac:(rewrite Q by reflexivity; lia) ER) as (C2 & _). red. rewrite C2, C. auto.
    - intros s i b [A B]. unfold guarded. cbn [cb_flush]. destruct (_ && _) eqn:EG; [|split; assumption]. cbn [wrap_cb cb_flush]. unfold wrap_flush, seek_to_block. destruct (i >=? total0) eqn:EI; [lia|].
      assert (0 <= i * bs /\ i * bs + bs <= total0 * bs) as [H1 H2] by (split; [apply Z.mul_nonneg_nonneg; lia|]; assert ((i + 1) * bs <= total0 * bs) by (apply Z.mul_le_mono_nonneg_r; lia); lia). rewrite i64_small' by lia. destruct (rw_seek io s (i * bs)) as [t1 e1] eqn:ES. destruct (g_seek _ _ _ HG _ _ _ _ H1 ES) as [C Q].
      destruct e1; [cbn [fst]; red; rewrite C; auto|]. destruct (rw_write io t1 b) as [[t2 n] e2] eqn:EW. cbn [fst]. specialize (Q eq_refl). destruct (g_write _ _ _ HG t1 b t2 n e2 ltac:(lia) EW) as (_ & C2).
      rewrite Q, C in C2. destruct (C2 ltac:(lia)) as [C3 C4]. red. split; [lia|]. intros j Hj. rewrite C4 by lia. now apply B.
    - intros s n HP. exact HP. }
  split; [exact P1|]. pose proof (zlen_nonneg (con t)). assert (0 <= total0 * bs) by nia. apply (list_ext 0); [rewrite !zlen_slice by lia; reflexivity|]. intros k Hk. rewrite zlen_slice in Hk by lia. rewrite !znth_slice by lia. apply P2. lia.
Qed.
Lemma fixed_total t os : forall c t' c' rs, Forall (op_go bs) os -> shape bs (fun _ => total0) t c ->
  exec (wrap_cb io bs total0 false) t c os = Ret (t', c', rs) -> total c' = total0.
Proof.
  revert t. induction os as [|o os IH]; intros t c t' c' rs Hok HS; cbn [exec]; [intros [= <- <- <-]; apply HS|]. inversion Hok; subst.
  destruct (exec_op_same _ _ bs (fun _ => total0) Hbs wrap_tracks guarded_same t c o HS ltac:(assumption)) as [_ HF].
  destruct (exec_op _ t c o) as [[[s1 c1] r]| |]; try discriminate. destruct (exec _ s1 c1 os) as [[[s2 c2] rs2]| |] eqn:E; try discriminate. intros [= <- <- <-]. apply (IH s1 c1 s2 c2 rs2); auto. eapply HF; reflexivity.
Qed.
End Fixed.
