(** * Property theorems C15-C27 (statements; proofs in BlockCacheProofs, 2 and 3). *)
From Verif Require Import GoBase ListZ Errors BlockCache Spec_BlockCache
  BlockCacheProofs BlockCacheProofs2 BlockCacheProofs3 BlockCacheProofs4 BlockCacheBounds WrapGrow.

(** A storage that fails according to a plan, tearing the block it fails to write:
    the hypotheses of C15-C21 are met by storages that do fail. *)
Definition flaky (bs total0 : Z) : callbacks (list Z * list bool) :=
  mkCb _
    (fun st i buf => let '(f, plan) := st in
       match plan with
       | false :: plan' => ((f, plan'), zrepeat 255 bs, Some (K ErrIOFailed))
       | _ => ((f, tl plan), fblk bs f i, None)
       end)
    (fun st i buf => let '(f, plan) := st in
       match plan with
       | false :: plan' => ((splice (i * bs) (zrepeat 170 bs) f, plan'), Some (K ErrIOFailed))
       | _ => ((splice (i * bs) buf f, tl plan), None)
       end)
    (fun st n => (st, Some (K ErrNotSupported))).
Lemma flaky_honest bs total0 : 0 < bs ->
  honest (flaky bs total0) bs (fun st => fnb bs total0 (fst st)) (fun st => fblk bs (fst st)).
Proof.
  intros Hb.
  assert (forall f i b, 0 <= i < fnb bs total0 f -> zlen b = bs ->
    fnb bs total0 (splice (i * bs) b f) = fnb bs total0 f /\
    (forall j, 0 <= j < fnb bs total0 f -> j <> i -> fblk bs (splice (i * bs) b f) j = fblk bs f j) /\
    fblk bs (splice (i * bs) b f) i = b) as HW.
  { intros f i b Hi Hbl. destruct (fnb_in _ _ _ _ Hb Hi) as [Hi1 Hi2].
    assert (zlen (splice (i * bs) b f) = zlen f) as El by (apply zlen_splice; nia).
    split; [unfold fnb; now rewrite El|]. split.
    - intros j Hj Hne. destruct (fnb_in _ _ _ _ Hb Hj). unfold fblk. apply slice_splice_disj; nia.
    - unfold fblk. rewrite <- Hbl at 2. apply slice_splice_same; nia. }
  constructor.
  - intros [f p] i Hi. cbn [fst] in *; unfold fblk. destruct (fnb_in _ _ _ _ Hb Hi). apply zlen_slice; nia.
  - intros [f p] i buf st' buf' e Hi Hbuf E. cbn [fst] in *. destruct (fnb_in _ _ _ _ Hb Hi) as [Hi1 Hi2].
    assert (zlen (fblk bs f i) = bs) by (apply zlen_slice; nia).
    cbn in E. destruct p as [|[|] p]; injection E as <- <- <-; cbn [fst];
      (split; [reflexivity|]; split; [reflexivity|]); split; try assumption; try reflexivity;
      try (apply zlen_repeat; lia). discriminate.
  - intros [f p] i buf st' e Hi Hbuf E. cbn [fst] in *. cbn in E.
    assert (zlen (zrepeat 170 bs) = bs) as Hz by (apply zlen_repeat; lia).
    destruct (HW f i buf Hi Hbuf) as (W1 & W2 & W3). destruct (HW f i _ Hi Hz) as (V1 & V2 & V3).
    destruct p as [|[|] p]; injection E as <- <-; cbn [fst]; auto. split; [auto|]. split; [auto|discriminate].
  - intros [f p] n st' e Hn _ E. cbn in E. injection E as <- <-. cbn. auto.
Qed.

(** C15: every history, with every pattern of storage failures, behaves like one array
    that starts as the storage contents; no operation panics. *)
Theorem C15_cache_is_an_array : forall S (cb : callbacks S) bs nb blk, honest cb bs nb blk -> 0 < bs ->
  forall s total0 os, 0 <= total0 <= nb s -> bs * total0 < 2^63 -> Forall (op_ok bs) os ->
  exists s' c' rs A', exec cb s (new_cache bs total0) os = Ret (s', c', rs) /\
    array_run bs (storage_bytes blk s total0) os rs A' /\ contents blk s' c' = A'.
Proof.
  intros S cb bs nb blk H Hbs s total0 os Ht Hf Hok.
  destruct (exec_refines cb bs nb blk H Hbs os s (new_cache bs total0) _ (new_inv bs nb blk Hbs s total0 Ht Hf)
      (new_rep cb bs nb blk H Hbs s total0 Ht Hf) Hok)
    as (s' & c' & rs & evss & A' & E & I' & R' & _ & Hio).
  exists s', c', rs, A'. split; [exact E|]. split; [exact (io_run_array _ _ _ _ _ _ Hio)|].
  symmetry. eapply rep_unique; eauto.
Qed.
Print Assumptions C15_cache_is_an_array.
(* errors are never spurious: an operation that is in bounds fails only if one of its
   own storage calls failed *)
Theorem C15_errors_not_spurious : forall S (cb : callbacks S) bs nb blk, honest cb bs nb blk ->
  forall s0 total0 s c, reachable cb bs nb s0 total0 s c -> forall o, op_ok bs o ->
  exists s' c' r evs, exec_op cb s c o = Ret (s', c', r) /\ accesses cb s evs s' /\
    forall e, r = RErr e ->
      (~ op_in_bounds bs (contents blk s c) o /\ e = K ErrArgumentOutOfRange /\ evs = []) \/
      (op_in_bounds bs (contents blk s c) o /\
       exists ev, In ev evs /\ match ev with EvFetch _ ok | EvFlush _ _ ok | EvResize _ ok => ok = false end).
Proof.
  intros S cb bs nb blk H s0 total0 s c Hr o Ho.
  destruct (reach_inv cb bs nb blk H _ _ _ _ Hr) as (Hbs & I & R).
  destruct (step_all cb bs nb blk H Hbs s c _ o I R Ho) as (s' & c' & r & evs & A' & E & I' & R' & Hac & Hio).
  exists s', c', r, evs. split; [exact E|]. split; [exact Hac|]. intros e ->.
  destruct Hio as [[_ [?|[Hb Ht]]] _]; [left; assumption|]. right. split; [assumption|].
  cbn [viewof vA vK vP] in Ht.
  destruct o; cbn [traffic] in Ht; try (destruct Ht as (l1 & j & l2 & _ & ->));
    try (eexists; split; [apply in_or_app; right; left; reflexivity|reflexivity]).
  subst evs. eexists; split; [left; reflexivity|reflexivity].
Qed.
Print Assumptions C15_errors_not_spurious.
Example C15_example :
  let st := ([1;2;3;4;5;6;7;8], [true; false; true; true; false; true]) in
  Forall (op_ok 2) [ORead 1 3; ORead 1 3; OWrite 0 [9;9;9]; OFlush; OFlush; OData; OSlice 3 2] /\
  exists c', exec (flaky 2 4) st (new_cache 2 4)
    [ORead 1 3; ORead 1 3; OWrite 0 [9;9;9]; OFlush; OFlush; OData; OSlice 3 2] =
    Ret ([9;9;9;4;5;6;7;8], [], c',
         [RErr (KMsg (K ErrIOFailed)); RBytes [3;4;5]; ROk; RErr (KMsg (K ErrIOFailed)); ROk;
          RBytes [9;9;9;4;5;6;7;8]; RErr (K ErrArgumentOutOfRange)]).
Proof. split; [repeat constructor; cbn; try lia|]. eexists. vm_compute. reflexivity. Qed.

(** C16 *)
Theorem C16_flush_durable : forall S (cb : callbacks S) bs nb blk, honest cb bs nb blk ->
  forall s total0 os s1 c1 rs A s2 c2, 0 < bs -> 0 <= total0 <= nb s -> bs * total0 < 2^63 ->
  Forall (op_ok bs) os -> exec cb s (new_cache bs total0) os = Ret (s1, c1, rs) ->
  array_run bs (storage_bytes blk s total0) os rs A ->
  exec_op cb s1 c1 OFlush = Ret (s2, c2, ROk) ->
  storage_bytes blk s2 (total c2) = A /\
  (* nothing is left to write: a further flush does not call the storage at all *)
  forall T (cb2 : callbacks T) t, flush_all cb2 t c2 = Ret (t, c2, None).
Proof.
  intros S cb bs nb blk H s total0 os s1 c1 rs A s2 c2 Hbs Ht Hf Hok E HA EF.
  destruct (C15_cache_is_an_array S cb bs nb blk H Hbs s total0 os Ht Hf Hok)
    as (s' & c' & rs' & A' & E' & HA' & HC). rewrite E in E'. inversion E'; subst.
  assert (reachable cb bs nb s total0 s' c') as Hr by (repeat (split; [assumption|]); eauto).
  destruct (reach_inv cb bs nb blk H _ _ _ _ Hr) as (_ & I & R).
  cbn [exec_op] in EF. destruct (flush_all cb s' c') as [[[x y] e]| |] eqn:EFA; try discriminate.
  destruct e; [discriminate|]. inversion EF; subst.
  destruct (flush_ok_clean cb bs nb blk H _ _ _ _ Hbs I EFA) as (I2 & Ht2 & HC2 & Hd & HS & H0).
  split.
  - rewrite Ht2, HS. symmetry. eapply array_run_det; eauto.
  - intros T cb2 t. apply (flush_clean_noop bs nb blk cb2 t c2 s2 Hbs I2); rewrite Ht2; [exact H0|exact Hd].
Qed.
Print Assumptions C16_flush_durable.

(** C17 *)
Theorem C17_out_of_range : forall S (cb : callbacks S) bs nb blk, honest cb bs nb blk ->
  forall s0 total0 s c, reachable cb bs nb s0 total0 s c ->
  forall start buffer, 0 <= start < 2^64 -> zlen buffer < 2^63 ->
  (* out of range: rejected, nothing changes *)
  ((total c <= start \/ total c * bs < start * bs + zlen buffer) ->
     read_at cb s c buffer start = Ret (s, c, buffer, 0, Some (K ErrArgumentOutOfRange)) /\
     write_at cb s c buffer start = Ret (s, c, 0, Some (K ErrArgumentOutOfRange))) /\
  (* in range: performed, unless a fetch fails; on failure nothing observable changes *)
  ((start < total c /\ start * bs + zlen buffer <= total c * bs) ->
     (exists s' c' buffer' n e evs, read_at cb s c buffer start = Ret (s', c', buffer', n, e) /\
        accesses cb s evs s' /\
        contents blk s' c' = contents blk s c /\ nb s' = nb s /\
        (forall j, 0 <= j < nb s -> blk s' j = blk s j) /\
        (e = None <-> forall i, ~ In (EvFetch i false) evs) /\
        match e with
        | None => buffer' = slice (start * bs) (zlen buffer) (contents blk s c)
        | Some _ => buffer' = buffer /\ n = 0
        end) /\
     (exists s' c' n e evs, write_at cb s c buffer start = Ret (s', c', n, e) /\
        accesses cb s evs s' /\
        nb s' = nb s /\ (forall j, 0 <= j < nb s -> blk s' j = blk s j) /\
        (e = None <-> forall i, ~ In (EvFetch i false) evs) /\
        match e with
        | None => n = zlen buffer /\ contents blk s' c' = splice (start * bs) buffer (contents blk s c)
        | Some _ => n = 0 /\ contents blk s' c' = contents blk s c
        end)).
Proof. exact out_of_range. Qed.
Print Assumptions C17_out_of_range.

(** C18: a failed flush changes no contents; any later successful flush, after any
    further history, leaves the storage equal to the array; and once the storage accepts
    writes again a retry succeeds. *)
Theorem C18_failed_flush_retry : forall S (cb : callbacks S) bs nb blk, honest cb bs nb blk ->
  forall s total0 os s1 c1 rs A s2 c2 e, 0 < bs -> 0 <= total0 <= nb s -> bs * total0 < 2^63 ->
  Forall (op_ok bs) os -> exec cb s (new_cache bs total0) os = Ret (s1, c1, rs) ->
  array_run bs (storage_bytes blk s total0) os rs A ->
  exec_op cb s1 c1 OFlush = Ret (s2, c2, RErr e) ->
  contents blk s2 c2 = A /\
  (forall os2 s3 c3 rs2 A2 s4 c4, Forall (op_ok bs) os2 ->
     exec cb s2 c2 os2 = Ret (s3, c3, rs2) -> array_run bs A os2 rs2 A2 ->
     exec_op cb s3 c3 OFlush = Ret (s4, c4, ROk) -> storage_bytes blk s4 (total c4) = A2) /\
  (forall cb2, honest cb2 bs nb blk -> (forall s i b, snd (cb_flush cb2 s i b) = None) -> 0 < total c2 ->
     exists s3 c3, exec_op cb2 s2 c2 OFlush = Ret (s3, c3, ROk) /\ storage_bytes blk s3 (total c3) = A).
Proof.
  intros S cb bs nb blk H s total0 os s1 c1 rs A s2 c2 e Hbs Ht Hf Hok E HA EF.
  assert (exec cb s (new_cache bs total0) (os ++ [OFlush]) = Ret (s2, c2, rs ++ [RErr e])) as E2.
  { rewrite exec_app, E. cbn [exec]. rewrite EF. reflexivity. }
  assert (Forall (op_ok bs) (os ++ [OFlush])) as Hok2
    by (apply Forall_app; split; [assumption|repeat constructor]).
  assert (array_run bs (storage_bytes blk s total0) (os ++ [OFlush]) (rs ++ [RErr e]) A) as HA2.
  { eapply array_run_app; [exact HA|]. apply ar_err. constructor. }
  destruct (C15_cache_is_an_array S cb bs nb blk H Hbs s total0 _ Ht Hf Hok2)
    as (s' & c' & rs' & A' & E' & HA' & HC). rewrite E2 in E'. injection E' as <- <- <-.
  assert (A' = A) as -> by (eapply array_run_det; eauto). split; [exact HC|]. split.
  - intros os2 s3 c3 rs2 A2 s4 c4 Ho2 E3 HR2 EF2.
    apply (C16_flush_durable S cb bs nb blk H s total0 ((os ++ [OFlush]) ++ os2) s3 c3
             ((rs ++ [RErr e]) ++ rs2) A2 s4 c4); auto.
    + apply Forall_app; auto.
    + rewrite exec_app, E2, E3. reflexivity.
    + eapply array_run_app; eauto.
  - intros cb2 H2 Hfl Htot.
    assert (reachable cb bs nb s total0 s2 c2) as Hr by (repeat (split; [assumption|]); eauto).
    destruct (reach_inv cb bs nb blk H _ _ _ _ Hr) as (_ & I & R).
    destruct (flush_succeeds cb2 bs nb blk H2 s2 c2 Hbs I Htot Hfl) as (s3 & c3 & E3).
    exists s3, c3. cbn [exec_op]. rewrite E3. split; [reflexivity|].
    destruct (flush_ok_clean cb2 bs nb blk H2 _ _ _ _ Hbs I E3) as (_ & Ht3 & _ & _ & HS & _).
    rewrite Ht3, HS. exact HC.
Qed.
Print Assumptions C18_failed_flush_retry.
Example C18_example :
  let st := ([1;2;3;4], [true; true; false]) in
  exists st1 c1 st2 c2 st3 c3, exec (flaky 2 2) st (new_cache 2 2) [OWrite 0 [9;9;9]] = Ret (st1, c1, [ROk]) /\
    exec_op (flaky 2 2) st1 c1 OFlush = Ret (st2, c2, RErr (KMsg (K ErrIOFailed))) /\
    fst st2 = [170; 170; 3; 4] /\
    exec_op (flaky 2 2) st2 c2 OFlush = Ret (st3, c3, ROk) /\ fst st3 = [9;9;9;4].
Proof. do 6 eexists. do 3 (split; [vm_compute; reflexivity|]). split; vm_compute; reflexivity. Qed.

(** C19: at every storage state of every history (with an atomic storage) each block
    holds what it held initially or what the array held for it at the end of some
    operation of the history.  As the theorem holds for every history it can be applied
    to the operations started before the crash, so "some operation" is never later than
    the one in progress. *)
Theorem C19_crash : forall S (cb : callbacks S) bs nb blk, honest cb bs nb blk -> atomic cb bs nb blk ->
  forall s total0 os s' c' rs trace, 0 < bs -> 0 <= total0 <= nb s -> bs * total0 < 2^63 ->
  Forall (op_ok bs) os ->
  exec (traced cb) (s, []) (new_cache bs total0) os = Ret ((s', trace), c', rs) ->
  forall t, In t (s :: trace) -> forall i, 0 <= i < nb t ->
    exists A, (A = storage_bytes blk s (nb s) \/ visited bs (storage_bytes blk s total0) os rs A) /\
              blk t i = slice (i * bs) bs A.
Proof.
  intros S cb bs nb blk H At s total0 os s' c' rs trace Hbs Ht Hf Hok E t Hin i Hi.
  set (W := fun A => A = storage_bytes blk s (nb s) \/ visited bs (storage_bytes blk s total0) os rs A).
  assert (safe bs nb blk W s) as Hs0.
  { intros j Hj. exists (storage_bytes blk s (nb s)). split; [left; reflexivity|].
    destruct (storage_bytes_spec cb bs nb blk H Hbs s (Z.to_nat (nb s))) as [_ HB]; [lia|].
    rewrite Z2Nat.id in HB by lia. apply HB; lia. }
  pose proof (honest_traced cb bs nb blk H) as HT.
  assert (safe_st bs nb blk W (s', trace)) as [_ Hall].
  { eapply (crash_exec cb bs nb blk H At Hbs W os (s, []) (new_cache bs total0)); eauto.
    - apply new_inv; auto.
    - apply (new_rep (traced cb) bs (fun st => nb (fst st)) (fun st => blk (fst st)) HT Hbs (s, [])); auto.
    - intros A1 HA1. right. exact HA1.
    - split; [exact Hs0|constructor]. }
  destruct Hin as [<-|Hin].
  - destruct (Hs0 i Hi) as (A & HA & EA). exists A. auto.
  - cbn [snd] in Hall. rewrite Forall_forall in Hall. destruct (Hall t Hin i Hi) as (A & HA & EA).
    exists A. auto.
Qed.
Print Assumptions C19_crash.
(* a storage meeting both hypotheses *)
Lemma slice_storage_honest bs total0 : 0 < bs -> 0 <= total0 ->
  honest (wrap_stream_cb bs total0 false false) bs (fnb bs total0) (fblk bs).
Proof.
  intros Hb Ht.
  apply (honest_file bs total0 false false (cb_resize (wrap_stream_cb bs total0 false false)) Hb Ht).
  intros f n f' e _ E. cbn in E. injection E as <- <-. reflexivity.
Qed.
Lemma slice_storage_atomic bs total0 : 0 < bs -> 0 <= total0 ->
  atomic (wrap_stream_cb bs total0 false false) bs (fnb bs total0) (fblk bs).
Proof.
  intros Hb Ht. constructor.
  - intros f i buf f' buf' e E. cbn in E. destruct (i >=? total0); injection E as <- <- <-; auto.
  - intros f i buf f' e Hi Hbuf E. cbn in E. destruct (fnb_in _ _ _ _ Hb Hi) as [Hi1 Hi2].
    destruct (i >=? total0) eqn:Ei; [lia|]. injection E as <- <-.
    rewrite file_write_in by nia. assert (zlen (splice (i * bs) buf f) = zlen f) as El by (apply zlen_splice; nia).
    split; [unfold fnb; now rewrite El|]. intros j Hj. destruct (fnb_in _ _ _ _ Hb Hj). unfold fblk.
    destruct (j =? i) eqn:Ej.
    + assert (j = i) as -> by lia. rewrite <- Hbuf at 2. apply slice_splice_same; nia.
    + apply slice_splice_disj; nia.
  - intros f n f' e _ E. cbn in E. injection E as <- <-. auto.
Qed.
Example C19_example : exists c' rs,
  exec (traced (wrap_stream_cb 2 3 false false)) ([1;2;3;4;5;6], []) (new_cache 2 3)
    [OWrite 0 [9;9;9]; OFlush; OWrite 2 [7;7]; OWrite 0 [8]; OFlush] =
  Ret (([8;9;9;4;7;7], [[1;2;3;4;5;6]; [1;2;3;4;5;6]; [9;9;3;4;5;6]; [9;9;9;4;5;6]; [9;9;9;4;5;6];
        [8;9;9;4;5;6]; [8;9;9;4;7;7]]), c', rs).
Proof. do 2 eexists. vm_compute. reflexivity. Qed.

(** C20: the log of storage accesses of any history is the one the specification
    [io_run] prescribes (exactly the unknown blocks of the range are fetched and exactly
    the pending ones written, in ascending order, stopping at the first failure), and no
    block is successfully fetched twice. *)
Theorem C20_minimal_io : forall S (cb : callbacks S) bs nb blk, honest cb bs nb blk ->
  forall s total0 os s' c' rs log, 0 < bs -> 0 <= total0 <= nb s -> bs * total0 < 2^63 ->
  Forall (op_ok bs) os ->
  exec (logged cb) (s, []) (new_cache bs total0) os = Ret ((s', log), c', rs) ->
  (exists evss v', log = concat evss /\
     io_run bs (mkView (storage_bytes blk s total0) (fun _ => false) (fun _ => false)) os rs evss v') /\
  NoDup (fetched log).
Proof.
  intros S cb bs nb blk H s total0 os s' c' rs log Hbs Ht Hf Hok E.
  pose proof (honest_logged cb bs nb blk H) as HL.
  pose proof (new_rep _ bs _ _ HL Hbs (s, []) total0 Ht Hf) as R.
  destruct (exec_refines _ bs _ _ HL Hbs os (s, []) (new_cache bs total0) _
      (new_inv bs _ _ Hbs (s, []) total0 Ht Hf) R Hok)
    as (st2 & c2 & rs2 & evss & A' & E' & I' & R' & Hac & Hio).
  rewrite E in E'. injection E' as <- <- <-.
  pose proof (logged_log cb _ _ _ Hac) as Hlog. cbn [snd app] in Hlog. subst log.
  assert (forall i, znth false (bitmap_new total0) i = false) as Hz.
  { apply bitmap_new_false. }
  assert (exists v', io_run bs (mkView (storage_bytes blk s total0) (fun _ => false) (fun _ => false))
            os rs evss v') as [v' Hio'].
  { edestruct (io_run_ext bs) as (w' & _ & Hw); [| | |exact Hio|exists w'; exact Hw]; cbn; auto. }
  split; [exists evss, v'; auto|].
  apply (fetched_once bs Hbs os rs evss _ v' total0 [] Hok Hio'); cbn [vA].
  - destruct R as [R _]. cbn in R. unfold storage_bytes in *. cbn [fst] in R. rewrite R. lia.
  - intros i [].
  - constructor.
Qed.
Print Assumptions C20_minimal_io.
Example C20_example : exists st' c',
  exec (logged (wrap_stream_cb 2 3 false false)) ([1;2;3;4;5;6], []) (new_cache 2 3)
    [ORead 1 1; OWrite 0 [9;9;9]; OFlush; OFlush; OData] =
  Ret ((st', [EvFetch 1 true; EvFetch 0 true; EvFlush 0 [9;9] true; EvFlush 1 [9;4] true; EvFetch 2 true]), c',
       [RBytes [3]; ROk; ROk; ROk; RBytes [9;9;9;4;5;6]]).
Proof. do 2 eexists. vm_compute. reflexivity. Qed.

(** C21 *)
Theorem C21_resize : forall S (cb : callbacks S) bs nb blk, honest cb bs nb blk ->
  forall s0 total0 s c, reachable cb bs nb s0 total0 s c ->
  forall n, 0 <= n -> n * bs < 2^63 ->
  exists s' c', resize cb s c n = Ret (s', c', snd (cb_resize cb s n)) /\
    match snd (cb_resize cb s n) with
    | Some _ => c' = c /\ contents blk s' c' = contents blk s c /\ nb s' = nb s /\
                (forall j, 0 <= j < nb s -> blk s' j = blk s j)
    | None => total c' = n /\
        contents blk s' c' = slice 0 (n * bs) (contents blk s c) ++ zrepeat 0 (n * bs - total c * bs) /\
        forall s2 c2, flush_all cb s' c' = Ret (s2, c2, None) ->
          storage_bytes blk s2 n = contents blk s' c'
    end.
Proof.
  intros S cb bs nb blk H s0 total0 s c Hr n Hn Hnb.
  destruct (reach_inv cb bs nb blk H _ _ _ _ Hr) as (Hbs & I & R).
  destruct (resize_inv cb bs nb blk H s c n Hbs I) as (s' & c' & E & Es & I' & Hc & Ht); [split; lia|].
  exists s', c'. split; [exact E|]. destruct (snd (cb_resize cb s n)) as [e|] eqn:EC.
  - rewrite (Hc ltac:(discriminate)) in *. destruct (cb_resize cb s n) as [x y] eqn:ER. cbn in EC, Es. subst x y.
    destruct (h_resize _ _ _ _ H s n s' (Some e) Hn Hnb ER) as [Hnb' Hblk]. split; [reflexivity|]. split; [|auto].
    apply (rep_unique cb bs nb blk H) in R; auto. rewrite <- (rep_unique cb bs nb blk H (contents blk s c) s' c); auto.
    destruct (contents_spec cb bs nb blk H s c Hbs I) as [R1 R2]. split; [exact R1|].
    intros i Hi. rewrite R2 by lia. unfold vb. destruct (znth false (loaded c) i); [reflexivity|].
    symmetry. apply Hblk. pose proof (i_total _ _ _ _ _ I). lia.
  - destruct (Ht eq_refl) as (Hn' & HC & _). split; [exact Hn'|]. split; [exact HC|].
    intros s2 c2 EF. destruct (flush_ok_clean cb bs nb blk H _ _ _ _ Hbs I' EF) as (_ & _ & _ & _ & HS & _).
    rewrite <- Hn'. exact HS.
Qed.
Print Assumptions C21_resize.
(* a resizable storage: the file truncated or extended by a well-behaved callback *)
Definition growing (bs : Z) : callbacks (list Z) :=
  let cb0 := wrap_stream_cb bs (2^40) true true in
  mkCb _ (cb_fetch cb0) (cb_flush cb0)
    (fun f n => if n <=? 2^40 then (file_truncate f (n * bs), None) else (f, Some (K ErrNoSpaceOnDevice))).
Lemma growing_honest bs : 0 < bs -> honest (growing bs) bs (fnb bs (2^40)) (fblk bs).
Proof.
  intros Hb. apply (honest_file bs (2^40) true true
    (fun f n => if n <=? 2^40 then (file_truncate f (n * bs), None) else (f, Some (K ErrNoSpaceOnDevice)))); [lia|lia|].
  intros f n f' e Hn E. destruct (n <=? 2^40) eqn:En; injection E as <- <-; auto. split; [lia|reflexivity].
Qed.
Example C21_example : exists f' c',
  exec (growing 2) [1;2;3;4] (new_cache 2 2) [OWrite 1 [9]; OResize 4; OData; OFlush; OResize 1; OFlush; OResize 2; OData] =
  Ret (f', c', [ROk; ROk; RBytes [1;2;9;4;0;0;0;0]; ROk; ROk; ROk; ROk; RBytes [1;2;0;0]]) /\ f' = [1;2;0;0].
Proof. do 2 eexists. vm_compute. split; reflexivity. Qed.

(* a cache made without a resize callback refuses every resize, whatever was done to it before, and nothing changes;
   a callback that was given decides *)
Theorem C21_no_callback : forall S (fetchCb : S -> Z -> list Z -> S * list Z * option kerr) flushCb resizeCb s c n,
  let cb := new_callbacks fetchCb flushCb resizeCb in
  (resizeCb = None -> exec_op cb s c (OResize n) = Ret (s, c, RErr (K ErrNotSupported))) /\
  (forall r s' e, resizeCb = Some r -> r s n = (s', Some e) -> exec_op cb s c (OResize n) = Ret (s', c, RErr e)) /\
  (forall x b, cb_fetch cb s x b = fetchCb s x b) /\ (forall x b, cb_flush cb s x b = flushCb s x b).
Proof.
  intros S fe fl r s c n cb. unfold cb, new_callbacks. split; [intros ->; reflexivity|]. split; [|split; reflexivity].
  intros r' s' e -> Er. unfold exec_op, resize. cbn [cb_resize]. now rewrite Er.
Qed.
Print Assumptions C21_no_callback.
Example C21_no_callback_ex : exists f' c',
  exec (new_callbacks (cb_fetch (growing 2)) (cb_flush (growing 2)) None) [1;2;3;4] (new_cache 2 2) [OWrite 1 [9]; OResize 4; OResize 1; OResize 2; OData; OFlush] =
  Ret (f', c', [ROk; RErr (K ErrNotSupported); RErr (K ErrNotSupported); RErr (K ErrNotSupported); RBytes [1;2;9;4]; ROk]) /\ f' = [1;2;9;4].
Proof. do 2 eexists. vm_compute. split; reflexivity. Qed.

(** C22: REFUTED.  The byte count [count * bytesPerBlock] wraps around: with a
    power-of-two block size a huge count passes the check and panics. *)
Theorem C22_mark_any_count_refuted : forall S (cb : callbacks S) bs nb blk, honest cb bs nb blk ->
  forall s0 total0 s c, reachable cb bs nb s0 total0 s c ->
  forall start k, bs = 2^k -> 2 <= k <= 59 -> 0 <= start < total c ->
  0 <= 2^(64 - k) < 2^64 /\ mark_dirty c start (2^(64 - k)) = Panic.
Proof.
  intros S cb bs nb blk H s0 total0 s c Hr start k Hk Hk2 Hs.
  destruct (reach_inv cb bs nb blk H _ _ _ _ Hr) as (Hbs & I & R). split.
  - split; [apply Z.pow_nonneg; lia|apply Z.pow_lt_mono_r; lia].
  - eapply mark_panics; eauto.
Qed.
Print Assumptions C22_mark_any_count_refuted.
Theorem C22_get_slice_any_count_refuted : exists f c count, 0 <= count < 2^64 /\
  reachable (wrap_stream_cb 512 1 false false) 512 (fnb 512 1) f 1 f c /\
  get_slice (wrap_stream_cb 512 1 false false) f c 0 count = Panic.
Proof.
  exists (zrepeat 7 512), (new_cache 512 1), (2^55). split; [lia|]. split.
  - split; [lia|]. split; [vm_compute; split; discriminate|]. split; [lia|]. exists [], []. split; [constructor|reflexivity].
  - vm_compute. reflexivity.
Qed.
Print Assumptions C22_get_slice_any_count_refuted.
(* true for every count whose byte size (plus one block) is a 64-bit number *)
Theorem C22_bounds_any_count_partial : forall S (cb : callbacks S) bs nb blk, honest cb bs nb blk ->
  forall s0 total0 s c, reachable cb bs nb s0 total0 s c ->
  forall start count, 0 <= start -> 0 <= count -> count * bs + bs < 2^64 -> start + count < 2^64 ->
  ((start < total c /\ start + count <= total c) ->
     (exists c', mark_dirty c start count = Ret (c', None)) /\
     exists s' c' r, get_slice cb s c start count = Ret (s', c', r) /\
       match r with
       | inl b => b = slice (start * bs) (count * bs) (contents blk s c)
       | inr e => exists evs i, accesses cb s evs s' /\ In (EvFetch i false) evs
       end) /\
  (~ (start < total c /\ start + count <= total c) ->
     mark_dirty c start count = Ret (c, Some (K ErrArgumentOutOfRange)) /\
     get_slice cb s c start count = Ret (s, c, inr (K ErrArgumentOutOfRange))).
Proof.
  intros S cb bs nb blk H s0 total0 s c Hr start count Hs Hc H1 H2.
  destruct (reach_inv cb bs nb blk H _ _ _ _ Hr) as (Hbs & I & R).
  pose proof (get_slice_gen cb bs nb blk H Hbs s c start count I Hs Hc H1 H2) as G.
  pose proof (mark_gen bs nb blk Hbs s c start count I Hs Hc H1 H2) as M.
  unfold in_range in *. split; intros Hin.
  - replace ((start <? total c) && (start + count <=? total c)) with true in * by lia.
    destruct M as (c' & E & _). split; [eauto|].
    destruct G as (s' & c2 & r & E2 & _ & _ & Hrr). exists s', c2, r. split; [exact E2|]. exact Hrr.
  - replace ((start <? total c) && (start + count <=? total c)) with false in * by lia. auto.
Qed.
Print Assumptions C22_bounds_any_count_partial.
(* every 64-bit start and count, for block sizes up to 2^59 bytes.  CheckBounds looks at the
   block [checked]; the call is right unless [checked] is inside the cache although the range
   is not, and then MarkBlockRangeDirty always panics, and GetSlice too unless a fetch fails. *)
Theorem C22_exact : forall S (cb : callbacks S) bs nb blk, honest cb bs nb blk ->
  forall s0 total0 s c, reachable cb bs nb s0 total0 s c -> bs <= 2^59 ->
  forall start count, 0 <= start < 2^64 -> 0 <= count < 2^64 ->
  let checked := (start + ((count * bs) mod 2^64 + bs - 1) mod 2^64 / bs) mod 2^64 in
  (start + count <= total c -> checked = start + count) /\
  ((total c <= start \/ total c < checked) ->
     mark_dirty c start count = Ret (c, Some (K ErrArgumentOutOfRange)) /\
     get_slice cb s c start count = Ret (s, c, inr (K ErrArgumentOutOfRange))) /\
  (start < total c -> checked <= total c -> start + count <= total c ->
     (exists c', mark_dirty c start count = Ret (c', None)) /\
     exists s' c' r, get_slice cb s c start count = Ret (s', c', r) /\
       match r with
       | inl b => b = slice (start * bs) (count * bs) (contents blk s c)
       | inr e => exists evs i, accesses cb s evs s' /\ In (EvFetch i false) evs
       end) /\
  (start < total c -> checked <= total c -> total c < start + count ->
     mark_dirty c start count = Panic /\
     (get_slice cb s c start count = Panic \/
      exists s' c' e evs i, get_slice cb s c start count = Ret (s', c', inr e) /\
        accesses cb s evs s' /\ In (EvFetch i false) evs)).
Proof.
  intros S cb bs nb blk H s0 total0 s c Hr Hb start count Hs Hc checked.
  destruct (reach_inv cb bs nb blk H _ _ _ _ Hr) as (Hbs & I & R).
  pose proof (bounds_exact cb bs nb blk H Hbs s c start count I Hb Hs Hc) as G.
  change (checked_end bs start count) with checked in G.
  split; [|split; [|split]].
  - intros Hin. pose proof (i_fits _ _ _ _ _ I). unfold checked.
    destruct (Z.eq_dec (total c) 0) as [E0|].
    { assert (start = 0 /\ count = 0) as [-> ->] by lia. cbn [Z.mul]. rewrite Z.mod_0_l, Z.add_0_l by lia.
      rewrite (Z.mod_small (0 + bs - 1)) by lia. rewrite Z.div_small by lia. reflexivity. }
    assert (count * bs + bs < 2^64) by nia.
    rewrite (Z.mod_small (count * bs)) by nia. rewrite (Z.mod_small (count * bs + bs - 1)) by nia.
    rewrite cdiv_mul by assumption. apply Z.mod_small. nia.
  - intros Hout. replace ((start <? total c) && (checked <=? total c)) with false in G by lia. exact G.
  - intros H1 H2 H3. replace ((start <? total c) && (checked <=? total c)) with true in G by lia.
    replace (start + count <=? total c) with true in G by lia. exact G.
  - intros H1 H2 H3. replace ((start <? total c) && (checked <=? total c)) with true in G by lia.
    replace (start + count <=? total c) with false in G by lia. exact G.
Qed.
Print Assumptions C22_exact.

(** C23: REFUTED.  ReadAt reports whole blocks. *)
Theorem C23_read_count_exact : forall S (cb : callbacks S) bs nb blk, honest cb bs nb blk ->
  forall s0 total0 s c, reachable cb bs nb s0 total0 s c ->
  forall start buffer s' c' buffer' n, 0 <= start < 2^64 -> zlen buffer < 2^63 ->
  read_at cb s c buffer start = Ret (s', c', buffer', n, None) ->
  n = (zlen buffer + bs - 1) / bs * bs.
Proof.
  intros S cb bs nb blk H s0 total0 s c Hr start buffer s' c' buffer' n Hs Hl E.
  destruct (reach_inv cb bs nb blk H _ _ _ _ Hr) as (Hbs & I & R). eapply read_count; eauto.
Qed.
Print Assumptions C23_read_count_exact.
Theorem C23_read_count_refuted : exists f c buffer' f' c' n,
  reachable (wrap_stream_cb 4 2 false false) 4 (fnb 4 2) f 2 f c /\
  read_at (wrap_stream_cb 4 2 false false) f c [0] 0 = Ret (f', c', buffer', n, None) /\ n = 4.
Proof.
  exists [1;2;3;4;5;6;7;8], (new_cache 4 2). do 4 eexists. split; [|split; vm_compute; reflexivity].
  split; [lia|]. split; [vm_compute; split; discriminate|]. split; [lia|]. exists [], []. split; [constructor|reflexivity].
Qed.
Print Assumptions C23_read_count_refuted.
(* the count is the buffer length exactly for buffers of whole blocks *)
Theorem C23_read_count_partial : forall S (cb : callbacks S) bs nb blk, honest cb bs nb blk ->
  forall s0 total0 s c, reachable cb bs nb s0 total0 s c ->
  forall start buffer s' c' buffer' n, 0 <= start < 2^64 -> zlen buffer < 2^63 ->
  read_at cb s c buffer start = Ret (s', c', buffer', n, None) ->
  (n = zlen buffer <-> (bs | zlen buffer)).
Proof.
  intros S cb bs nb blk H s0 total0 s c Hr start buffer s' c' buffer' n Hs Hl E.
  rewrite (C23_read_count_exact S cb bs nb blk H s0 total0 s c Hr start buffer s' c' buffer' n Hs Hl E).
  destruct Hr as [Hbs _]. split.
  - intros <-. exists ((zlen buffer + bs - 1) / bs). reflexivity.
  - intros [k ->]. rewrite cdiv_mul by lia. reflexivity.
Qed.
Print Assumptions C23_read_count_partial.

(** C24: REFUTED.  Marking a block that was never loaded replaces its contents by
    zeros, and the next flush destroys the stored block. *)
Theorem C24_mark_keeps_contents_refuted : forall S (cb : callbacks S) bs nb blk, honest cb bs nb blk ->
  forall s total0, 0 < bs -> 0 < total0 <= nb s -> bs * total0 < 2^63 -> bs * 2 < 2^64 ->
  exists c', mark_dirty (new_cache bs total0) 0 1 = Ret (c', None) /\
    slice 0 bs (contents blk s c') = zrepeat 0 bs /\
    forall s2 c2, flush_all cb s c' = Ret (s2, c2, None) -> blk s2 0 = zrepeat 0 bs.
Proof.
  intros S cb bs nb blk H s total0 Hbs Ht Hf Hb2.
  pose proof (new_inv bs nb blk Hbs s total0 ltac:(lia) Hf) as I.
  pose proof (mark_gen bs nb blk Hbs s _ 0 1 I ltac:(lia) ltac:(lia) ltac:(lia) ltac:(lia)) as M.
  change (total (new_cache bs total0)) with total0 in M.
  unfold in_range in M. change (total (new_cache bs total0)) with total0 in M.
  replace ((0 <? total0) && (0 + 1 <=? total0)) with true in M by lia.
  destruct M as (c' & E & I' & Hb' & Ht' & Hd' & Hj). change (data (new_cache bs total0)) with (zrepeat 0 (u64 (bs * total0))) in Hd'.
  exists c'. split; [exact E|].
  destruct (contents_spec cb bs nb blk H s c' Hbs I') as [R1 R2].
  assert (slice 0 bs (contents blk s c') = zrepeat 0 bs) as HZ.
  { specialize (R2 0). cbn [Z.mul] in R2. rewrite R2 by lia. unfold vb.
    destruct (Hj 0 ltac:(lia)) as [-> _]. replace ((0 <=? 0) && (0 <? 0 + 1)) with true by reflexivity.
    rewrite orb_true_r. rewrite Hd'. cbn [Z.mul]. rewrite u64_small by nia. apply slice_repeat; nia. }
  split; [exact HZ|].
  intros s2 c2 EF. destruct (flush_ok_clean cb bs nb blk H _ _ _ _ Hbs I' EF) as (I2 & Ht2 & _ & _ & HS & _).
  rewrite <- HZ. rewrite <- HS.
  pose proof (i_total _ _ _ _ _ I2) as Hnb2. rewrite Ht2 in Hnb2.
  destruct (storage_bytes_spec cb bs nb blk H Hbs s2 (Z.to_nat (total c'))) as [_ HB]; [lia|].
  rewrite Z2Nat.id in HB by lia. symmetry. apply (HB 0). lia.
Qed.
Print Assumptions C24_mark_keeps_contents_refuted.
(* true for a range that GetSlice has just returned *)
Theorem C24_mark_keeps_contents_partial : forall S (cb : callbacks S) bs nb blk, honest cb bs nb blk ->
  forall s0 total0 s c, reachable cb bs nb s0 total0 s c ->
  forall start count s1 c1 b, op_ok bs (OSlice start count) ->
  get_slice cb s c start count = Ret (s1, c1, inl b) ->
  exists c2, mark_dirty c1 start count = Ret (c2, None) /\ total c2 = total c1 /\
    contents blk s1 c2 = contents blk s1 c1 /\ contents blk s1 c1 = contents blk s c /\
    forall s3 c3, flush_all cb s1 c2 = Ret (s3, c3, None) ->
      storage_bytes blk s3 (total c2) = contents blk s c.
Proof.
  intros S cb bs nb blk H s0 total0 s c Hr start count s1 c1 b (Ho1 & Ho2 & Ho3) E.
  destruct (reach_inv cb bs nb blk H _ _ _ _ Hr) as (Hbs & I & R).
  pose proof (get_slice_spec cb bs nb blk H Hbs s c start count I ltac:(lia) Ho2 ltac:(lia)) as G.
  destruct (in_range c start count) eqn:ER; [|rewrite G in E; discriminate].
  destruct G as (s' & c' & e & evs & L & EG). rewrite EG in E. destruct e as [e|]; [discriminate|].
  injection E as -> -> <-.
  pose proof L as (I1 & Ht1 & _ & _ & _ & _ & _ & _ & _ & Hall).
  pose proof (rep_load cb bs nb blk _ _ _ _ _ _ _ _ _ R L) as R1.
  unfold in_range in ER.
  destruct (mark_loaded bs nb blk Hbs s1 c1 start count I1) as (c2 & EB & I2 & Hb2 & Ht2 & Hd2 & Hj);
    [lia|lia|lia|apply Hall; reflexivity|].
  assert (contents blk s1 c1 = contents blk s c) as EC by (symmetry; eapply rep_unique; eauto).
  assert (contents blk s1 c2 = contents blk s1 c1) as EC2.
  { symmetry. eapply rep_unique; [exact H|exact Hbs|exact I2|].
    destruct (contents_spec cb bs nb blk H s1 c1 Hbs I1) as [Q1 Q2]. split; [rewrite Q1, Ht2; reflexivity|].
    intros i Hi. rewrite Q2 by lia. unfold vb. destruct (Hj i ltac:(lia)) as [-> _]. rewrite Hd2. reflexivity. }
  exists c2. split.
  - pose proof (i_fits _ _ _ _ _ I1) as Hfit.
    pose proof (mark_gen bs nb blk Hbs s1 c1 start count I1 ltac:(lia) Ho2 ltac:(nia) ltac:(nia)) as M.
    unfold mark_dirty in *. unfold in_range in M. rewrite Ht1 in M. rewrite ER in M.
    destruct M as (c3 & E3 & _). destruct (check_bounds c1 start (u64 (count * bpb c1))) as [[?|]| |]; try discriminate.
    rewrite EB. reflexivity.
  - split; [exact Ht2|]. split; [exact EC2|]. split; [exact EC|]. intros s3 c3 EF.
    destruct (flush_ok_clean cb bs nb blk H _ _ _ _ Hbs I2 EF) as (_ & _ & _ & _ & HS & _). congruence.
Qed.
Print Assumptions C24_mark_keeps_contents_partial.
(* for every history: marking keeps every block outside the range and every block the cache
   knows (vK of C20's specification: fetched, or created by a Resize or a WriteAt); an unknown
   block of the range is replaced by the bytes lying in the cache's buffer, and these are
   written by the next flush.  So the contents are kept exactly when, for every unknown block
   of the range, the buffer happens to hold the stored bytes. *)
Theorem C24_mark_exact : forall S (cb : callbacks S) bs nb blk, honest cb bs nb blk ->
  forall s total0 os s' c' rs log, 0 < bs -> 0 <= total0 <= nb s -> bs * total0 < 2^63 ->
  Forall (op_ok bs) os ->
  exec (logged cb) (s, []) (new_cache bs total0) os = Ret ((s', log), c', rs) ->
  exists evss v', log = concat evss /\
    io_run bs (mkView (storage_bytes blk s total0) (fun _ => false) (fun _ => false)) os rs evss v' /\
    forall start count, 0 <= start < total c' -> 0 <= count -> start + count <= total c' ->
      exists c2, mark_dirty c' start count = Ret (c2, None) /\ total c2 = total c' /\
        (forall i, 0 <= i < total c' ->
          slice (i * bs) bs (contents blk s' c2) =
            if (start <=? i) && (i <? start + count) && negb (vK v' i)
            then slice (i * bs) bs (data c')
            else slice (i * bs) bs (contents blk s' c')) /\
        forall s3 c3, flush_all cb s' c2 = Ret (s3, c3, None) ->
          storage_bytes blk s3 (total c2) = contents blk s' c2.
Proof.
  intros S cb bs nb blk H s total0 os s' c' rs log Hbs Ht Hf Hok E.
  pose proof (honest_logged cb bs nb blk H) as HL.
  pose proof (new_rep _ bs _ _ HL Hbs (s, []) total0 Ht Hf) as R.
  destruct (exec_refines _ bs _ _ HL Hbs os (s, []) (new_cache bs total0) _
      (new_inv bs _ _ Hbs (s, []) total0 Ht Hf) R Hok)
    as (st2 & c2 & rs2 & evss & A' & E' & I' & R' & Hac & Hio).
  rewrite E in E'. injection E' as <- <- <-.
  pose proof (logged_log cb _ _ _ Hac) as Hlog. cbn [snd app] in Hlog. subst log.
  assert (forall i, znth false (bitmap_new total0) i = false) as Hz by (apply bitmap_new_false).
  assert (exists v', (forall i, vK v' i = znth false (loaded c') i) /\
     io_run bs (mkView (storage_bytes blk s total0) (fun _ => false) (fun _ => false)) os rs evss v') as (v' & HK & Hio').
  { inversion Hio as [|? ? ? ? v1 ? ? ? v2 Hst Hrest]; subst.
    - exists (mkView (storage_bytes blk s total0) (fun _ => false) (fun _ => false)). split; [|constructor].
      intros i. cbn [exec] in E. inversion E; subst. cbn [vK]. symmetry. apply Hz.
    - exists (viewof A' c'). split; [reflexivity|]. econstructor; [|eassumption].
      eapply io_step_ext; [| | |exact Hst]; cbn; auto. }
  exists evss, v'. split; [reflexivity|]. split; [exact Hio'|].
  intros start count Hs Hc Hin.
  assert (Inv bs nb blk s' c') as I.
  { destruct I' as [I1 I2 I3 I4 I5 I6 I7 I8]. constructor; assumption. }
  pose proof (i_fits _ _ _ _ _ I) as Hfit.
  pose proof (mark_gen bs nb blk Hbs s' c' start count I ltac:(lia) Hc ltac:(nia) ltac:(nia)) as M.
  unfold in_range in M. replace ((start <? total c') && (start + count <=? total c')) with true in M by lia.
  destruct M as (c2 & EM & I2 & Hb2 & Ht2 & Hd2 & Hj). exists c2. split; [exact EM|]. split; [exact Ht2|].
  split; [|intros s3 c3 EF; destruct (flush_ok_clean cb bs nb blk H _ _ _ _ Hbs I2 EF) as (_ & _ & _ & _ & HS & _); congruence].
  intros i Hi. rewrite HK.
  destruct (contents_spec cb bs nb blk H s' c2 Hbs I2) as [_ Q2].
  destruct (contents_spec cb bs nb blk H s' c' Hbs I) as [_ Q1].
  rewrite Q2, Q1 by lia. unfold vb. destruct (Hj i ltac:(lia)) as [-> _]. rewrite Hd2.
  destruct (znth false (loaded c') i); cbn [orb negb]; [now rewrite andb_false_r|]. rewrite andb_true_r.
  destruct ((start <=? i) && (i <? start + count)); reflexivity.
Qed.
Print Assumptions C24_mark_exact.
Example C24_example : exists c1 c2 f2 c3,
  mark_dirty (new_cache 2 2) 0 1 = Ret (c1, None) /\
  exec (wrap_stream_cb 2 2 false false) [1;2;3;4] c1 [OData; OFlush] = Ret ([0;0;3;4], c2, [RBytes [0;0;3;4]; ROk]) /\
  get_slice (wrap_stream_cb 2 2 false false) [1;2;3;4] (new_cache 2 2) 0 1 = Ret (f2, c3, inl [1;2]).
Proof. do 4 eexists. split; [vm_compute; reflexivity|]. split; vm_compute; reflexivity. Qed.

(** C25: REFUTED for every empty cache. *)
Theorem C25_empty_cache_refuted : forall S (cb : callbacks S) bs nb blk, honest cb bs nb blk ->
  forall s0 total0 s c, reachable cb bs nb s0 total0 s c -> total c = 0 ->
  flush_all cb s c = Ret (s, c, Some (K ErrArgumentOutOfRange)) /\
  load_all cb s c = Ret (s, c, Some (K ErrArgumentOutOfRange)) /\
  get_data cb s c = Ret (s, c, inr (K ErrArgumentOutOfRange)).
Proof.
  intros S cb bs nb blk H s0 total0 s c Hr H0.
  destruct (reach_inv cb bs nb blk H _ _ _ _ Hr) as (Hbs & I & R).
  pose proof (flush_all_spec cb bs nb blk H Hbs s c I) as F. pose proof (load_all_spec cb bs nb blk H Hbs s c I) as L.
  rewrite H0 in F, L. cbn [Z.ltb Z.compare] in F, L. unfold get_data. rewrite L. auto.
Qed.
Print Assumptions C25_empty_cache_refuted.
(* with at least one block the operations succeed whenever the storage does *)
Theorem C25_empty_cache_partial : forall S (cb : callbacks S) bs nb blk, honest cb bs nb blk ->
  forall s0 total0 s c, reachable cb bs nb s0 total0 s c -> 0 < total c ->
  (forall s i b, snd (cb_fetch cb s i b) = None) -> (forall s i b, snd (cb_flush cb s i b) = None) ->
  (exists s' c', flush_all cb s c = Ret (s', c', None)) /\
  (exists s' c', load_all cb s c = Ret (s', c', None)) /\
  (exists s' c', get_data cb s c = Ret (s', c', inl (contents blk s c))).
Proof.
  intros S cb bs nb blk H s0 total0 s c Hr H0 Hfe Hfl.
  destruct (reach_inv cb bs nb blk H _ _ _ _ Hr) as (Hbs & I & R).
  split; [eapply flush_succeeds; eauto|].
  destruct (load_succeeds cb bs nb blk H s c Hbs I H0 Hfe) as (s' & c' & EL). split; [eauto|].
  exists s', c'. destruct (step_data cb bs nb blk H Hbs s c _ I R) as (s2 & c2 & r & evs & A' & E & I' & R' & _ & Hio).
  cbn [exec_op] in E. unfold get_data in *. rewrite EL in *. injection E as <- <- <-.
  destruct Hio as [[[_ Ha] _] _]. cbn [viewof vA] in Ha. injection Ha as ->. reflexivity.
Qed.
Print Assumptions C25_empty_cache_partial.
Example C25_example :
  reachable (growing 2) 2 (fnb 2 (2^40)) [1;2] 1 [] (mkCache 2 0 [] [] []).
Proof.
  split; [lia|]. split; [vm_compute; split; discriminate|]. split; [lia|].
  exists [OResize 0], [ROk]. split; [repeat constructor; cbn; lia|]. vm_compute. reflexivity.
Qed.

(** C26 *)
Theorem C26_wrap_slice : forall bs storage os, 0 < bs -> zlen storage < 2^63 -> Forall (op_ok bs) os ->
  let cb := wrap_slice_cb bs storage in
  let n := zlen storage / bs * bs in          (* the whole blocks; n = zlen storage if bs divides it *)
  let tail := slice n (zlen storage - n) storage in
  exists f' c' rs A', exec cb storage (wrap_slice bs storage) os = Ret (f', c', rs) /\
    array_run bs (slice 0 n storage) os rs A' /\
    zlen f' = zlen storage /\ slice n (zlen storage - n) f' = tail /\
    (forall f2 c2, flush_all cb f' c' = Ret (f2, c2, None) -> f2 = A' ++ tail) /\
    (0 < n -> exists f2 c2, flush_all cb f' c' = Ret (f2, c2, None)).
Proof.
  intros bs storage os Hbs Hlen Hok cb n tail.
  set (total0 := zlen storage / bs). pose proof (zlen_nonneg storage) as Hl0.
  assert (0 <= total0) as Ht0 by (apply Z.div_pos; lia).
  assert (0 <= n <= zlen storage) as Hn by (unfold n; pose proof (Z.mul_div_le (zlen storage) bs Hbs); nia).
  pose proof (slice_storage_honest bs total0 Hbs Ht0) as H.
  assert (forall (f : list Z) n f' e, 0 <= n -> cb_resize cb f n = (f', e) ->
     match e with None => n <= total0 /\ f' = file_truncate f (n * bs) | Some _ => f' = f end) as Hrz.
  { intros f m f' e _ E. cbn in E. injection E as <- <-. reflexivity. }
  assert (fnb bs total0 storage = total0) as Hfn by (unfold fnb, total0; lia).
  assert (bs * total0 < 2^63) as Hfit by (unfold n in Hn; fold total0 in Hn; nia).
  pose proof (new_inv bs (fnb bs total0) (fblk bs) Hbs storage total0 ltac:(lia) Hfit) as I.
  pose proof (new_rep cb bs (fnb bs total0) (fblk bs) H Hbs storage total0 ltac:(lia) Hfit) as R.
  rewrite storage_bytes_file in R by (try lia; unfold n in Hn; fold total0 in Hn; nia).
  change (total0 * bs) with n in R.
  assert (zlen (slice 0 n storage) = n) as HlA by (apply zlen_slice; lia).
  assert (zlen tail = zlen storage - n) as Hlt by (apply zlen_slice; lia).
  destruct (file_exec bs total0 Hbs Ht0 (cb_resize cb) Hrz false false os storage (new_cache bs total0)
              (slice 0 n storage) tail I R Hok) as (f' & c' & rs & A' & E & I' & R' & HR & Hz & Htl).
  { lia. } { rewrite HlA, Hlt. reflexivity. } { right. intros f m. cbn. discriminate. }
  assert (zlen A' = n) as HA.
  { destruct R' as [R'1 _].
    rewrite (exec_fixed _ cb bs _ _ H Hbs ltac:(intros; cbn; discriminate) os storage _ _ f' c' rs I R Hok E) in R'1.
    cbn [new_cache total] in R'1. unfold n. fold total0. lia. }
  exists f', c', rs, A'. split; [exact E|]. split; [exact HR|]. split; [lia|]. split; [rewrite <- Hlt, <- HA; exact Htl|].
  split.
  - intros f2 c2 EF. eapply (file_flush bs total0 Hbs Ht0 (cb_resize cb) Hrz false false); eauto.
    right. intros f m. cbn. discriminate.
  - intros Hn0. apply (file_flush_succeeds bs total0 Hbs Ht0 (cb_resize cb) Hrz false false f' c' I').
    destruct R' as [R'1 _]. nia.
Qed.
Print Assumptions C26_wrap_slice.
(* the case of the statement: the block size divides the length *)
Theorem C26_wrap_slice_divides : forall bs storage os, 0 < bs -> zlen storage < 2^63 ->
  (bs | zlen storage) -> Forall (op_ok bs) os ->
  let cb := wrap_slice_cb bs storage in
  exists f' c' rs A', exec cb storage (wrap_slice bs storage) os = Ret (f', c', rs) /\
    array_run bs storage os rs A' /\ zlen f' = zlen storage /\
    (forall f2 c2, flush_all cb f' c' = Ret (f2, c2, None) -> f2 = A') /\
    (storage <> [] -> exists f2 c2, flush_all cb f' c' = Ret (f2, c2, None)).
Proof.
  intros bs storage os Hbs Hlen [k Hk] Hok cb.
  destruct (C26_wrap_slice bs storage os Hbs Hlen Hok) as (f' & c' & rs & A' & E & HR & Hz & _ & HF & HS).
  assert (zlen storage / bs * bs = zlen storage) as Hn by (rewrite Hk, Z.div_mul by lia; reflexivity).
  rewrite Hn in *. rewrite slice_all in HR. exists f', c', rs, A'. do 3 (split; [assumption|]). split.
  - intros f2 c2 EF. rewrite (HF f2 c2 EF). replace (zlen storage - zlen storage) with 0 by lia.
    apply app_nil_r.
  - intros Hne. apply HS. destruct storage; [congruence|]. rewrite zlen_cons. pose proof (zlen_nonneg storage). lia.
Qed.
Print Assumptions C26_wrap_slice_divides.
Example C26_example : exists c',
  exec (wrap_slice_cb 2 [1;2;3;4;5]) [1;2;3;4;5] (wrap_slice 2 [1;2;3;4;5]) [OWrite 1 [9;9]; OFlush; OWrite 2 [1]; OResize 3] =
  Ret ([1;2;9;9;5], c', [ROk; ROk; RErr (K ErrArgumentOutOfRange); RErr (K ErrNotPermitted)]).
Proof. eexists. vm_compute. reflexivity. Qed.

(** C27: REFUTED.  The flush callback remembers the number of blocks at creation. *)
Theorem C27_grow_then_flush_refuted : forall bs total0 f n, 0 < bs -> 0 <= total0 ->
  zlen f = total0 * bs -> total0 < n -> n * bs < 2^63 ->
  let cb := wrap_stream_cb bs total0 true true in
  exists c1, resize cb f (new_cache bs total0) n = Ret (file_truncate f (n * bs), c1, None) /\
    flush_all cb (file_truncate f (n * bs)) c1 =
      Ret (file_truncate f (n * bs), c1, Some (KMsg (K ErrArgumentOutOfRange))).
Proof.
  intros bs total0 f n Hbs Ht0 Hlen Hn Hfit cb.
  set (rz := fun (f : list Z) m => if m <=? n then (file_truncate f (m * bs), @None kerr) else (f, Some (K ErrNotSupported))).
  assert (forall (f : list Z) m f' e, 0 <= m -> rz f m = (f', e) ->
     match e with None => m <= n /\ f' = file_truncate f (m * bs) | Some _ => f' = f end) as Hrz.
  { intros f0 m f' e _ E. unfold rz in E. destruct (m <=? n) eqn:Em; injection E as <- <-; auto. split; [lia|auto]. }
  pose proof (honest_file bs n true true rz Hbs ltac:(lia) Hrz) as H. cbv zeta in H.
  set (cbn := mkCb (list Z) (cb_fetch (wrap_stream_cb bs n true true)) (cb_flush (wrap_stream_cb bs n true true)) rz) in *.
  assert (fnb bs n f = total0) as Hfn by (unfold fnb; rewrite Hlen, Z.div_mul by lia; lia).
  pose proof (new_inv bs (fnb bs n) (fblk bs) Hbs f total0 ltac:(lia) ltac:(nia)) as I.
  destruct (resize_inv cbn bs _ _ H f _ n Hbs I) as (s' & c1 & E & Es & I1 & _ & Hok); [split; lia|].
  assert (cb_resize cbn f n = (file_truncate f (n * bs), None)) as ER.
  { cbn [cbn cb_resize]. unfold rz. replace (n <=? n) with true by lia. reflexivity. }
  rewrite ER in E, Es, Hok. cbn [fst snd] in E, Es, Hok. subst s'.
  destruct (Hok eq_refl) as (Hn1 & _ & Hnew & Hold). exists c1. split.
  - rewrite <- E. unfold resize. rewrite ER. reflexivity.
  - apply (flush_first_dirty _ cb bs _ _ _ c1 total0 _ Hbs I1).
    + lia.
    + intros i Hi. rewrite Hold by (cbn [new_cache total]; lia). apply bitmap_new_false.
    + apply Hnew. cbn [new_cache total]. lia.
    + intros b. cbn. replace (total0 >=? total0) with true by lia. reflexivity.
Qed.
Print Assumptions C27_grow_then_flush_refuted.
(* true as long as the cache never grows beyond its size at creation *)
Theorem C27_grow_then_flush_partial : forall bs total0 f os, 0 < bs -> 0 <= total0 ->
  zlen f = total0 * bs -> total0 * bs < 2^63 -> Forall (op_ok bs) os ->
  (forall n, In (OResize n) os -> n <= total0) ->
  let cb := wrap_stream_cb bs total0 true true in
  exists f' c' rs A', exec cb f (new_cache bs total0) os = Ret (f', c', rs) /\
    array_run bs f os rs A' /\
    (0 < zlen A' -> exists f2 c2, flush_all cb f' c' = Ret (f2, c2, None) /\ f2 = A').
Proof.
  intros bs total0 f os Hbs Ht0 Hlen Hfit Hok Hgr cb.
  set (rz := fun (f : list Z) m => if m <=? total0 then (file_truncate f (m * bs), @None kerr) else (f, Some (K ErrNotSupported))).
  assert (forall (f : list Z) m f' e, 0 <= m -> rz f m = (f', e) ->
     match e with None => m <= total0 /\ f' = file_truncate f (m * bs) | Some _ => f' = f end) as Hrz.
  { intros f0 m f' e _ E. unfold rz in E. destruct (m <=? total0) eqn:Em; injection E as <- <-; auto. split; [lia|auto]. }
  pose proof (honest_file bs total0 true true rz Hbs Ht0 Hrz) as H. cbv zeta in H.
  assert (fnb bs total0 f = total0) as Hfn by (unfold fnb; rewrite Hlen, Z.div_mul by lia; lia).
  pose proof (new_inv bs (fnb bs total0) (fblk bs) Hbs f total0 ltac:(lia) ltac:(nia)) as I.
  pose proof (new_rep _ bs (fnb bs total0) (fblk bs) H Hbs f total0 ltac:(lia) ltac:(nia)) as R.
  rewrite storage_bytes_file in R by lia. rewrite <- Hlen, slice_all in R.
  destruct (file_exec bs total0 Hbs Ht0 rz Hrz true true os f (new_cache bs total0) f [] I R Hok)
    as (f' & c' & rs & A' & E & I' & R' & HR & Hz & Htl).
  { change (zlen (@nil Z)) with 0. lia. } { reflexivity. } { left. reflexivity. }
  assert (forall os0 f0 c0, (forall n, In (OResize n) os0 -> n <= total0) -> exec cb f0 c0 os0 =
    exec (mkCb (list Z) (cb_fetch (wrap_stream_cb bs total0 true true)) (cb_flush (wrap_stream_cb bs total0 true true)) rz) f0 c0 os0) as HE.
  { induction os0 as [|o os0 IH]; intros f0 c0 Hg; [reflexivity|]. cbn [exec].
    assert (exec_op cb f0 c0 o = exec_op (mkCb (list Z) (cb_fetch (wrap_stream_cb bs total0 true true))
              (cb_flush (wrap_stream_cb bs total0 true true)) rz) f0 c0 o) as ->.
    { destruct o; try reflexivity. cbn [exec_op]. unfold resize. cbn [cb_resize]. unfold rz.
      replace (n <=? total0) with true by (specialize (Hg n (or_introl eq_refl)); lia). reflexivity. }
    destruct (exec_op _ f0 c0 o) as [[[f1 c1] r]| |]; try reflexivity. rewrite IH by (intros; apply Hg; now right). reflexivity. }
  exists f', c', rs, A'. split; [rewrite HE by assumption; exact E|]. split; [exact HR|]. intros H0.
  destruct (file_flush_succeeds bs total0 Hbs Ht0 rz Hrz true true f' c' I') as (f2 & c2 & EF).
  { destruct R' as [R'1 _]. nia. }
  exists f2, c2. split; [exact EF|].
  rewrite (file_flush bs total0 Hbs Ht0 rz Hrz true true f' c' A' [] f2 c2 I' R' Hz Htl (or_introl eq_refl) EF).
  apply app_nil_r.
Qed.
Print Assumptions C27_grow_then_flush_partial.
Example C27_example : exists c',
  exec (wrap_stream_cb 2 2 true true) [1;2;3;4] (new_cache 2 2) [OResize 1; OFlush; OResize 2; OFlush; OData; OResize 3; OFlush] =
  Ret ([1;2;0;0;0;0], c', [ROk; ROk; ROk; ROk; RBytes [1;2;0;0]; ROk; RErr (KMsg (K ErrArgumentOutOfRange))]).
Proof. eexists. vm_compute. reflexivity. Qed.
(* The exact condition, for every history of operations, growth included: the cache goes on
   behaving like an array A' and its file has the array's length, but Flush writes the array
   out exactly when it is not empty and not larger than at creation; otherwise it fails. *)
Theorem C27_exact : forall bs total0 f os, 0 < bs -> 0 <= total0 ->
  zlen f = total0 * bs -> total0 * bs < 2^63 -> Forall (op_ok bs) os ->
  let cb := wrap_stream_cb bs total0 true true in
  exists f' c' rs A', exec cb f (new_cache bs total0) os = Ret (f', c', rs) /\
    array_run bs f os rs A' /\ zlen f' = zlen A' /\
    (0 < zlen A' <= total0 * bs -> exists c2, flush_all cb f' c' = Ret (A', c2, None)) /\
    (zlen A' = 0 \/ total0 * bs < zlen A' -> exists f2 c2 e, flush_all cb f' c' = Ret (f2, c2, Some e) /\ zlen f2 = zlen f').
Proof.
  intros bs total0 f os Hbs Ht0 Hlen Hfit Hok cb.
  assert (flen bs f = total0) as Hfn by (unfold flen; rewrite Hlen, Z.div_mul by lia; lia).
  pose proof (honest_grow bs total0 Hbs) as H.
  pose proof (new_inv bs (flen bs) (fblk bs) Hbs f total0 ltac:(lia) ltac:(nia)) as I.
  pose proof (new_rep _ bs (flen bs) (fblk bs) H Hbs f total0 ltac:(lia) ltac:(nia)) as R.
  rewrite storage_bytes_file in R by lia. rewrite <- Hlen, slice_all in R.
  destruct (grow_exec bs total0 Hbs Ht0 os f (new_cache bs total0) f I R Hok eq_refl) as (f' & c' & rs & A' & E & I' & R' & HR & Hl & HW).
  { intros i Hi. cbn [new_cache total] in Hi. lia. }
  exists f', c', rs, A'. split; [exact E|]. split; [exact HR|]. split; [exact Hl|].
  pose proof (grow_flush bs total0 Hbs Ht0 f' c' A' I' R' Hl HW) as F. destruct R' as [RA' _]. pose proof (i_total _ _ _ _ _ I') as Ht.
  destruct ((0 <? total c') && (total c' <=? total0)) eqn:EC; (split; [intros HA|intros HA]); try exact F; exfalso; nia.
Qed.
Print Assumptions C27_exact.
Example C27_exact_example : exists c' c2, exec (wrap_stream_cb 2 2 true true) [1;2;3;4] (new_cache 2 2) [OResize 3; OWrite 2 [7;8]; OFlush; OWrite 0 [9]; OResize 2] =
    Ret ([1;2;3;4], c', [ROk; ROk; RErr (KMsg (K ErrArgumentOutOfRange)); ROk; ROk]) /\
  flush_all (wrap_stream_cb 2 2 true true) [1;2;3;4] c' = Ret ([9;2;3;4], c2, None).
Proof. do 2 eexists. split; [vm_compute; reflexivity|]. vm_compute. reflexivity. Qed.

(** ** The parts that hold of claims refuted above, as claims of their own (the examples above are theirs too) *)
Theorem C129_bounds : forall S (cb : callbacks S) bs nb blk, honest cb bs nb blk ->
  forall s0 total0 s c, reachable cb bs nb s0 total0 s c ->
  forall start count, 0 <= start -> 0 <= count -> count * bs + bs < 2^64 -> start + count < 2^64 ->
  ((start < total c /\ start + count <= total c) ->
     (exists c', mark_dirty c start count = Ret (c', None)) /\
     exists s' c' r, get_slice cb s c start count = Ret (s', c', r) /\
       match r with
       | inl b => b = slice (start * bs) (count * bs) (contents blk s c)
       | inr e => exists evs i, accesses cb s evs s' /\ In (EvFetch i false) evs
       end) /\
  (~ (start < total c /\ start + count <= total c) ->
     mark_dirty c start count = Ret (c, Some (K ErrArgumentOutOfRange)) /\
     get_slice cb s c start count = Ret (s, c, inr (K ErrArgumentOutOfRange))).
Proof. apply C22_bounds_any_count_partial. Qed.
Print Assumptions C129_bounds.
