(** * BlockCacheProofs4: lemmas behind C18-C27. *)
From Verif Require Import GoBase ListZ Errors BlockCache Spec_BlockCache
  BlockCacheProofs BlockCacheProofs2 BlockCacheProofs3.

Lemma exec_app S (cb : callbacks S) : forall os1 os2 s c,
  exec cb s c (os1 ++ os2) =
    match exec cb s c os1 with
    | Ret (s1, c1, rs1) =>
        match exec cb s1 c1 os2 with
        | Ret (s2, c2, rs2) => Ret (s2, c2, rs1 ++ rs2)
        | Panic => Panic | OutOfFuel => OutOfFuel
        end
    | Panic => Panic | OutOfFuel => OutOfFuel
    end.
Proof.
  induction os1 as [|o os1 IH]; intros os2 s c; cbn [exec app].
  - destruct (exec cb s c os2) as [[[? ?] ?]| |]; reflexivity.
  - destruct (exec_op cb s c o) as [[[s1 c1] r]| |]; try reflexivity. rewrite IH.
    destruct (exec cb s1 c1 os1) as [[[s2 c2] rs1]| |]; try reflexivity.
    destruct (exec cb s2 c2 os2) as [[[s3 c3] rs2]| |]; reflexivity.
Qed.
Lemma array_run_app bs A os1 rs1 A1 os2 rs2 A2 :
  array_run bs A os1 rs1 A1 -> array_run bs A1 os2 rs2 A2 ->
  array_run bs A (os1 ++ os2) (rs1 ++ rs2) A2.
Proof.
  intros H1 H2. revert H2. induction H1; intros; cbn [app].
  - assumption.
  - eapply ar_ok; eauto.
  - eapply ar_err; eauto.
Qed.

Section R.
Context {S : Type} (cb : callbacks S) (bs : Z) (nb : S -> Z) (blk : S -> Z -> list Z).
Hypothesis H : honest cb bs nb blk.

Lemma reach_step s0 total0 s c o s' c' r : reachable cb bs nb s0 total0 s c -> op_ok bs o ->
  exec_op cb s c o = Ret (s', c', r) -> reachable cb bs nb s0 total0 s' c'.
Proof.
  intros (Hb & Ht & Hf & os & rs & Hok & E) Ho Eo. do 3 (split; [assumption|]).
  exists (os ++ [o]), (rs ++ [r]). split; [apply Forall_app; auto|].
  rewrite exec_app, E. cbn [exec]. rewrite Eo. reflexivity.
Qed.

Lemma read_count {Q : Prop} s c buf start s' c' buf' n : 0 < bs -> @WInv Q _ bs nb blk s c ->
  0 <= start < 2^64 -> zlen buf < 2^63 ->
  read_at cb s c buf start = Ret (s', c', buf', n, None) ->
  n = (zlen buf + bs - 1) / bs * bs.
Proof.
  intros Hbs I Hs Hl E. unfold read_at in E.
  pose proof (i_bpb _ _ _ _ _ I) as Hbpb. pose proof (i_fits _ _ _ _ _ I) as Hfits.
  pose proof (zlen_nonneg buf) as Hbn. set (k := (zlen buf + bs - 1) / bs) in *.
  assert (0 <= k) by (apply cdiv_nonneg; lia).
  rewrite (check_bounds_ok bs nb blk Hbs s c) in E by (eauto; lia). fold k in E.
  fold (in_range c start k) in E. destruct (in_range c start k) eqn:ER; [|discriminate].
  assert (k * bs <= 2^63) by (unfold in_range in ER; nia).
  rewrite (min_blocks_ok bs Hbs c) in E by (auto; unfold in_range in ER; nia). fold k in E.
  pose proof (load_range_spec cb bs nb blk H Hbs s c start k I) as L. rewrite ER in L.
  destruct L as (s1 & c1 & e & evs & EL & L); [lia|lia|lia|]. rewrite EL in E.
  destruct L as (I1 & Ht1 & _ & _ & _ & _ & _ & _ & _ & Hall).
  destruct e as [e|]; [discriminate|].
  rewrite (get_slice_loaded cb bs nb blk Hbs) in E by (eauto; try lia; unfold in_range in *; rewrite Ht1; exact ER).
  pose proof (i_data _ _ _ _ _ I1) as Hd1. rewrite Ht1 in Hd1. unfold in_range in ER.
  injection E as _ _ _ <-. apply zlen_slice; nia.
Qed.

(* an explicit description of Resize *)
Lemma resize_inv {Q : Prop} s c n : 0 < bs -> @WInv Q _ bs nb blk s c -> op_ok bs (OResize n) ->
  exists s' c', resize cb s c n = Ret (s', c', snd (cb_resize cb s n)) /\ s' = fst (cb_resize cb s n) /\
    @WInv Q _ bs nb blk s' c' /\
    (snd (cb_resize cb s n) <> None -> c' = c) /\
    (snd (cb_resize cb s n) = None -> total c' = n /\
       contents blk s' c' = slice 0 (n * bs) (contents blk s c) ++ zrepeat 0 (n * bs - total c * bs) /\
       (forall i, total c <= i < n -> znth false (dirty c') i = true) /\
       (forall i, 0 <= i < n -> i < total c -> znth false (dirty c') i = znth false (dirty c) i)).
Proof.
  intros Hbs I Ho. pose proof (wcontents_spec cb bs nb blk H s c Hbs I) as R.
  destruct (step_resize cb bs nb blk H Hbs s c _ n I R Ho) as (s' & c' & r & evs & A' & E & I' & R' & Hac & Hio).
  exists s', c'. unfold exec_op in E. destruct (resize cb s c n) as [[[x y] e]| |] eqn:ER; try discriminate.
  injection E as -> -> <-.
  assert (e = snd (cb_resize cb s n) /\ s' = fst (cb_resize cb s n) /\ (e <> None -> c' = c)) as (<- & <- & Hc).
  { unfold resize in ER. destruct (cb_resize cb s n) as [s2 [e2|]]; cbn [fst snd].
    - injection ER as <- <- <-. auto.
    - destruct (set_bits _ _ _ _ _); try discriminate. injection ER as <- <- <-. split; [auto|]. split; [auto|]. now intros []. }
  do 3 (split; [auto|]). split; [exact Hc|]. intros ->.
  destruct Hio as [[Hst [_ Htr]] HKP]. cbn [traffic] in Htr. cbn [err_res vA viewof] in *. destruct Hst as [-> _].
  assert (zlen (contents blk s c) = total c * bs) as Hl by (destruct R; nia).
  rewrite Hl in *.
  destruct Ho as [Hn Hnb].
  assert (total c' = n) as Hn'.
  { destruct R' as [R' _]. rewrite zlen_app, zlen_slice_min in R' by nia. rewrite Hl in R'.
    pose proof (i_total _ _ _ _ _ I).
    destruct (Z.le_ge_cases (total c * bs) (n * bs)).
    - rewrite zlen_repeat in R' by lia. nia.
    - unfold zrepeat in R'. replace (Z.to_nat (n * bs - total c * bs)) with 0%nat in R' by lia.
      cbn [repeat] in R'. change (zlen (@nil Z)) with 0 in R'. nia. }
  split; [exact Hn'|]. split; [symmetry; eapply wrep_unique; eauto|].
  pose proof (rep_total bs blk Hbs _ _ _ R') as HT. rewrite Hn' in HT.
  pose proof (i_total _ _ _ _ _ I). rewrite HT in HKP. subst evs. split.
  - intros i Hi. destruct (HKP i) as [_ [_ HP]]; [lia|]. apply HP. right. split; [reflexivity|].
    cbn [modified created]. rewrite Hl, Z.div_mul by lia. exact Hi.
  - intros i Hi Hic. destruct (HKP i) as [_ HP]; [lia|]. cbn [vP] in HP.
    cbn [modified created] in HP. rewrite Hl, Z.div_mul in HP by lia. apply Bool.eq_iff_eq_true. rewrite HP. split.
    + intros [[? _]|[_ ?]]; [assumption|lia].
    + intros Hd. left. split; [exact Hd|]. split; [lia|]. intros [b [Hb|[]]]. discriminate.
Qed.
End R.

(* a flush whose first dirty block is rejected by the storage *)
Lemma flush_first_dirty S (cb : callbacks S) bs nb blk s c m e0 : 0 < bs -> Inv bs nb blk s c ->
  0 <= m < total c -> (forall i, 0 <= i < m -> znth false (dirty c) i = false) ->
  znth false (dirty c) m = true ->
  (forall b, cb_flush cb s m b = (s, Some e0)) ->
  flush_all cb s c = Ret (s, c, Some (KMsg e0)).
Proof.
  intros Hbs I Hm Hclean Hd Hcb. pose proof (inv_total_small bs nb blk Hbs s c I) as Hs.
  pose proof (i_fits _ _ _ _ _ I) as Hfits. pose proof (i_bpb _ _ _ _ _ I) as Hb.
  pose proof (inv_bits bs nb blk s c I) as Hbits. pose proof (i_dirty _ _ _ _ _ I) as Hld.
  unfold flush_all, flush_range. rewrite Hb.
  rewrite (u64_small (total c * bs)) by nia.
  rewrite (check_bounds_ok bs nb blk Hbs s c) by (eauto; nia). rewrite cdiv_mul by lia.
  replace ((0 <? total c) && (0 + total c <=? total c)) with true by lia.
  rewrite u64_small by lia. change (i64 0) with 0.
  assert (forall k fuel i, i + Z.of_nat k = m -> 0 <= i -> m - i < Z.of_nat fuel ->
    flush_loop cb fuel i (0 + total c) s c = Ret (s, c, Some (KMsg e0))) as HL.
  { induction k as [|k IH]; intros fuel i Hi Hi0 Hf; (destruct fuel as [|fuel]; [lia|]); cbn [flush_loop].
    - assert (i = m) as -> by lia. rewrite u64_small by lia. replace (m <? 0 + total c) with true by lia.
      rewrite bget_ok by lia. rewrite Hd.
      rewrite (get_slice_loaded cb bs nb blk Hbs s c m 1 I); [|lia|lia|unfold in_range; lia|
        intros j Hj; replace j with m by lia; eapply (i_sub _ _ _ _ _ I); auto; lia].
      rewrite Hcb. reflexivity.
    - rewrite u64_small by lia. replace (i <? 0 + total c) with true by lia.
      rewrite bget_ok by lia. rewrite Hclean by lia. rewrite i64_small' by lia. apply IH; lia. }
  apply (HL (Z.to_nat m)); try lia. pose proof (fuel_ok bs nb blk s c (total c) I). lia.
Qed.

Lemma exec_fixed S (cb : callbacks S) bs nb blk : honest cb bs nb blk -> 0 < bs ->
  (forall s n, snd (cb_resize cb s n) <> None) ->
  forall os s c A s' c' rs, Inv bs nb blk s c -> represents bs blk A s c -> Forall (op_ok bs) os ->
  exec cb s c os = Ret (s', c', rs) -> total c' = total c.
Proof.
  intros H Hbs Hno. induction os as [|o os IH]; intros s c A s' c' rs I R Hok E; cbn [exec] in E.
  - injection E as <- <- <-. reflexivity.
  - inversion Hok as [|? ? Ho Hok']; subst.
    destruct (step_all cb bs nb blk H Hbs s c A o I R Ho) as (s1 & c1 & r & evs & A1 & E1 & I1 & R1 & _ & Hio).
    rewrite E1 in E. destruct (exec cb s1 c1 os) as [[[s2 c2] rs2]| |] eqn:E2; try discriminate.
    injection E as <- <- <-. rewrite (IH s1 c1 A1 s2 c2 rs2 I1 R1 Hok' E2). clear IH E2.
    destruct R as [RA _], R1 as [RA1 _]. destruct Hio as [Hr _].
    assert (zlen A1 = zlen A) as EL; [|nia]. cbn [viewof vA] in Hr.
    assert (forall r0, r = r0 -> (forall e, r0 <> RErr e) -> array_step bs A o r0 A1 -> zlen A1 = zlen A) as HA.
    { intros r0 -> Hne Hst. destruct (array_step_len bs A (total c) o r0 A1 Hbs ltac:(lia) Ho Hst) as (T' & HT & Hre & Hnre).
      destruct o as [| | | | | | |n]; try (rewrite Hnre in HT by (intros; discriminate); lia).
      exfalso. cbn [exec_op] in E1. unfold resize in E1. specialize (Hno s n).
      destruct (cb_resize cb s n) as [sx [e|]]; cbn [snd] in Hno; [|congruence].
      injection E1 as _ _ <-. cbn in Hne. eapply Hne. reflexivity. }
    destruct r; [eapply HA; [reflexivity|discriminate|apply Hr]| |destruct Hr as [-> _]; reflexivity].
    eapply HA; [reflexivity|discriminate|apply Hr].
Qed.

Lemma bitmap_new_false n i : znth false (bitmap_new n) i = false.
Proof.
  unfold bitmap_new, znth, zrepeat. generalize (Z.to_nat (bits_for n)) (Z.to_nat i).
  intros a. induction a as [|a IH]; intros [|b]; cbn; auto.
Qed.
