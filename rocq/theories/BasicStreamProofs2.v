(** * BasicStreamProofs2: lemmas behind C28-C42, continued. *)
From Verif Require Import GoBase ListZ Errors Flags BlockCache Spec_BlockCache
  BlockCacheProofs BlockCacheProofs2 BlockCacheProofs3 BlockCacheProofs4 BasicStream Spec_BasicStream BasicStreamProofs.

Lemma reliable_events {S} (cb : callbacks S) evs s s' : reliable cb -> accesses cb s evs s' ->
  (forall i, ~ In (EvFetch i false) evs) /\ (forall i b, ~ In (EvFlush i b false) evs).
Proof.
  intros (R1 & R2 & R3) Ha.
  induction Ha as [|x i buf x1 buf' e evs x2 E _ IH|x i buf x1 e evs x2 E _ IH|x n x1 e evs x2 E _ IH].
  - split; intros; intros [].
  - specialize (R1 x i buf). rewrite E in R1. cbn in R1. subst e. destruct IH as [A B].
    split; intros; intros [X|X]; try discriminate X; [eapply A|eapply B]; eassumption.
  - specialize (R2 x i buf). rewrite E in R2. cbn in R2. subst e. destruct IH as [A B].
    split; intros; intros [X|X]; try discriminate X; [eapply A|eapply B]; eassumption.
  - destruct IH as [A B]. split; intros; intros [X|X]; try discriminate X; [eapply A|eapply B]; eassumption.
Qed.

Section P2.
Context {S : Type} (cb : callbacks S) (bs : Z) (nb : S -> Z) (blk : S -> Z -> list Z).
Hypothesis H : honest cb bs nb blk.
Hypothesis Hbs : 0 < bs < 2^62.
Let Hbs0 : 0 < bs := proj1 Hbs.
Notation SInv := (SInv bs nb blk).

Lemma sblocks_len s st : SInv s st -> zlen (sblocks blk s st) = bs * total (scache st).
Proof. intros (W & _). now destruct (winv_small cb bs nb blk H Hbs s _ W) as (_ & _ & HC). Qed.
Lemma resized_len A n : 0 <= n -> zlen (resized bs A n) = nblocks bs n * bs.
Proof.
  intros Hn. unfold resized. assert (0 <= nblocks bs n) by (apply cdiv_nonneg; lia).
  pose proof (zlen_nonneg A). rewrite zlen_app, zlen_slice_min by nia.
  assert (zlen (zrepeat 0 (nblocks bs n * bs - zlen A)) = Z.max 0 (nblocks bs n * bs - zlen A)) as ->.
  { unfold zlen, zrepeat. rewrite repeat_length. lia. }
  assert (0 <= nblocks bs n * bs) by nia. lia.
Qed.
Lemma resized_znth A n j : 0 <= n -> 0 <= j < nblocks bs n * bs ->
  znth 0 (resized bs A n) j = if j <? zlen A then znth 0 A j else 0.
Proof.
  intros Hn Hj. unfold resized. pose proof (zlen_nonneg A).
  assert (zlen (slice 0 (nblocks bs n * bs) A) = Z.min (nblocks bs n * bs) (zlen A)) as HL
    by (rewrite zlen_slice_min by nia; lia).
  destruct (j <? zlen A) eqn:E.
  - rewrite znth_app by lia. replace (j <? _) with true by lia. rewrite znth_slice by lia. reflexivity.
  - rewrite znth_app by lia. replace (j <? _) with false by lia. apply znth_repeat. lia.
Qed.

(** ** Sync with reliable storage *)
Lemma sync_reliable s st : SInv s st -> 0 < total (scache st) ->
  (forall s i b, snd (cb_flush cb s i b) = None) ->
  exists s' st', s_sync cb s st = Ret (s', st', None).
Proof.
  intros I Ht R. pose proof (sync_spec cb bs nb blk H Hbs s st I) as F.
  replace (0 <? total (scache st)) with true in F by lia.
  destruct F as (s' & c' & e & evs & E & _ & _ & _ & _ & Hac & Hf & _). rewrite E.
  destruct e as [e|]; [|eauto]. exfalso. destruct Hf as (l1 & j & l2 & _ & ->).
  assert (forall evs s s', accesses cb s evs s' -> forall i b, ~ In (EvFlush i b false) evs) as HN.
  { clear - R. intros evs y y' Ha. induction Ha as [|x i buf x1 buf' e evs x2 E _ IH|x i buf x1 e evs x2 E _ IH|x n x1 e evs x2 E _ IH];
      intros i0 b0 Hin; cbn in Hin; [tauto|..]; destruct Hin as [X|Hin]; try discriminate; try (eapply IH; eassumption).
    inversion X; subst. specialize (R x i0 b0). rewrite E in R. cbn in R. subst. discriminate. }
  eapply HN; [exact Hac|]. apply in_or_app. right. left. reflexivity.
Qed.

(** ** Truncate, all cases *)
Lemma trunc_cases s st n : SInv s st -> io_write (sflags st) = true -> 0 <= n -> n + bs < 2^63 ->
  exists s1 st1 e, s_truncate cb s st n = Ret (s1, st1, e) /\ SInv s1 st1 /\ same st st1 /\
   match snd (cb_resize cb s (nblocks bs n)) with
   | Some e' => e = Some e' /\ st1 = st /\ sunchanged nb blk s st s1 st1
   | None => ssize st1 = n /\ total (scache st1) = nblocks bs n /\ sblocks blk s1 st1 = resized bs (sblocks blk s st) n
             /\ (io_synchronous (sflags st) = false -> e = None) /\
             (reliable cb -> io_synchronous (sflags st) = true -> e = if 0 <? nblocks bs n then None else Some (K ErrArgumentOutOfRange))
   end.
Proof.
  intros I Hw Hn Hf. pose proof (truncate_spec cb bs nb blk H Hbs s st n I Hw Hn Hf) as T. cbn zeta in T.
  fold (nblocks bs n) in T. destruct (snd (cb_resize cb s (nblocks bs n))) as [e'|].
  - destruct T as (E & I1 & U). do 3 eexists. split; [exact E|]. split; [exact I1|]. split; [split; reflexivity|]. auto.
  - destruct T as (s1 & c1 & W1 & Ht & HC & _ & _ & I1 & _ & E). rewrite E.
    destruct (io_synchronous (sflags st)) eqn:Ey.
    + destruct (sync_ret cb bs nb blk H Hbs _ _ I1) as (s2 & st2 & e & E2 & I2 & [F1 F2] & Hs2 & Ht2 & HB2 & _).
      exists s2, st2, e. split; [exact E2|]. split; [exact I2|]. split; [split; assumption|].
      split; [exact Hs2|]. split; [now rewrite Ht2|]. split; [rewrite HB2; exact HC|]. split; [discriminate|].
      intros R _. pose proof (sync_spec cb bs nb blk H Hbs _ _ I1) as F. cbn [set_size set_cache scache] in F. rewrite Ht in F.
      destruct (0 <? nblocks bs n) eqn:EN.
      * destruct (sync_reliable _ _ I1) as (s3 & st3 & E3); [cbn [set_size set_cache scache]; rewrite Ht; lia|apply R|congruence].
      * congruence.
    + do 3 eexists. split; [reflexivity|]. split; [exact I1|]. split; [split; reflexivity|].
      split; [reflexivity|]. split; [exact Ht|]. split; [exact HC|]. split; [reflexivity|]. discriminate.
Qed.

(** ** implWriteAt, all cases *)
Definition outside (off len j : Z) : Prop := ~ (off <= j < off + len).
Lemma tail_cases s st b off : SInv s st -> 0 <= off -> off + zlen b + bs < 2^63 ->
  exists s' st' n e, write_tail cb bs s st b off = Ret (s', st', n, e) /\ SInv s' st' /\ same st st' /\
   ssize st' = ssize st /\ total (scache st') = total (scache st) /\
   (sblocks blk s' st' = sblocks blk s st \/ off + zlen b <= bs * total (scache st) /\ sblocks blk s' st' = splice off b (sblocks blk s st)) /\
   (e = None -> n = zlen b /\ write_fits bs (total (scache st)) off (zlen b) = true /\
       off + zlen b <= bs * total (scache st) /\ sblocks blk s' st' = splice off b (sblocks blk s st)) /\
   (reliable cb -> e = if write_fits bs (total (scache st)) off (zlen b) then None else Some (K ErrArgumentOutOfRange)) /\
   (write_fits bs (total (scache st)) off (zlen b) = false -> s' = s /\ st' = st /\ n = 0 /\ e = Some (K ErrArgumentOutOfRange)).
Proof.
  intros I Ho Hf. pose proof (write_tail_spec cb bs nb blk H Hbs s st b off I Ho Hf) as T.
  destruct (write_fits bs (total (scache st)) off (zlen b)) eqn:EW.
  - destruct T as (s2 & c2 & e & evs & HK & Hac & He & T). destruct e as [e|].
    + exists s2, (set_cache st c2), 0, (Some e). split; [exact T|]. split; [eapply kept_sinv; eauto|]. split; [split; reflexivity|].
      split; [reflexivity|]. destruct HK as (I2 & Ht2 & HC2 & _). split; [exact Ht2|]. split; [left; exact HC2|].
      split; [discriminate|]. split; [|discriminate].
      intros R. exfalso. destruct (reliable_events _ _ _ _ R Hac) as [A _]. apply (proj1 He) in A. discriminate.
    + destruct T as (c3 & W3 & Ht3 & _ & HC3 & Hfit & I3 & E). rewrite E. destruct (io_synchronous (sflags st)).
      * destruct (sync_ret cb bs nb blk H Hbs _ _ I3) as (s4 & st4 & e & E4 & I4 & F & Hs4 & Ht4 & HB4 & _). rewrite E4.
        exists s4, st4, (zlen b), e. split; [reflexivity|]. split; [exact I4|]. split; [exact F|]. split; [exact Hs4|].
        split; [rewrite Ht4; exact Ht3|]. assert (sblocks blk s4 st4 = splice off b (sblocks blk s st)) as HB by (rewrite HB4; exact HC3).
        split; [auto|]. split; [auto|]. split; [|discriminate]. intros R.
        destruct (sync_reliable _ _ I3) as (s5 & st5 & E5); [|apply R|congruence].
        cbn [set_cache scache]. rewrite Ht3. unfold write_fits in EW.
        pose proof (Z.div_pos off bs Ho Hbs0). lia.
      * exists s2, (set_cache st c3), (zlen b), None. split; [reflexivity|]. split; [exact I3|]. split; [split; reflexivity|].
        split; [reflexivity|]. split; [exact Ht3|]. split; [auto|]. split; [auto|]. split; [reflexivity|discriminate].
  - exists s, st, 0, (Some (K ErrArgumentOutOfRange)). split; [exact T|]. split; [exact I|]. split; [split; reflexivity|].
    split; [reflexivity|]. split; [reflexivity|]. split; [auto|]. split; [discriminate|]. split; [reflexivity|auto].
Qed.

Definition grown_blocks (bs T : Z) (A : list Z) (off len : Z) : list Z :=
  if write_grows bs T off len then resized bs A (off + len) else A.
Lemma impl_write_cases s st b off : SInv s st -> io_write (sflags st) = true -> 0 <= off -> off + zlen b + bs < 2^63 ->
  let T := total (scache st) in
  let g := write_grows bs T off (zlen b) in
  let T' := if g then nblocks bs (off + zlen b) else T in
  exists s' st' n e, s_impl_write_at cb s st b off = Ret (s', st', n, e) /\ SInv s' st' /\ same st st' /\
    (n = 0 \/ n = zlen b) /\
    (ssize st' = ssize st \/ g = true /\ ssize st' = off + zlen b) /\
    (T <= total (scache st')) /\
    (forall j, 0 <= j < bs * T -> outside off (zlen b) j -> znth 0 (sblocks blk s' st') j = znth 0 (sblocks blk s st) j) /\
    (e = None -> n = zlen b /\ write_fits bs T' off (zlen b) = true /\
       ssize st' = (if g then off + zlen b else ssize st) /\ total (scache st') = T' /\
       off + zlen b <= bs * T' /\
       sblocks blk s' st' = splice off b (grown_blocks bs T (sblocks blk s st) off (zlen b))) /\
    (reliable cb -> e = if write_fits bs T' off (zlen b) then None else Some (K ErrArgumentOutOfRange)) /\
    (snd (cb_resize cb s T') = None -> io_synchronous (sflags st) = false -> write_fits bs T' off (zlen b) = false ->
       e = Some (K ErrArgumentOutOfRange) /\ n = 0 /\ total (scache st') = T' /\
       ssize st' = (if g then off + zlen b else ssize st) /\
       sblocks blk s' st' = grown_blocks bs T (sblocks blk s st) off (zlen b)).
Proof.
  intros I Hw Ho Hf T g T'. pose proof (zlen_nonneg b) as Hb. pose proof (sblocks_len s st I) as HL. fold T in HL.
  assert (0 <= T) as HT0 by (destruct I as (W & _); destruct (winv_small cb bs nb blk H Hbs s _ W); unfold T; lia).
  rewrite (impl_write_unfold cb bs nb blk Hbs) by auto.
  replace ((off + zlen b) / bs >=? total (scache st)) with g by (unfold g, write_grows, T; lia).
  assert (forall (A : list Z) j, 0 <= j < zlen A -> off + zlen b <= zlen A -> outside off (zlen b) j ->
     znth 0 (splice off b A) j = znth 0 A j) as HSP.
  { intros A j Hj Hl Hout. unfold outside in Hout. rewrite znth_splice by lia.
    replace ((off <=? j) && (j <? off + zlen b)) with false by lia. reflexivity. }
  destruct g eqn:Eg.
  - assert (g = true) as Egg by exact Eg.
    assert (bs * T <= off + zlen b) as Hgt.
    { unfold g, write_grows in Eg. pose proof (Z.mul_div_le (off + zlen b) bs Hbs0). nia. }
    assert (nblocks bs (off + zlen b) * bs >= off + zlen b) as Hnb by (apply Z.le_ge, cdiv_ge; lia).
    assert (T <= T') as HTT by (unfold T'; nia).
    destruct (trunc_cases s st (off + zlen b) I Hw ltac:(lia) ltac:(lia)) as (s1 & st1 & e1 & E1 & I1 & [F1 F2] & HC).
    rewrite E1. fold T' in HC.
    assert (forall j, 0 <= j < bs * T -> znth 0 (resized bs (sblocks blk s st) (off + zlen b)) j = znth 0 (sblocks blk s st) j) as HRZ.
    { intros j Hj. rewrite resized_znth by lia. rewrite HL. replace (j <? bs * T) with true by lia. reflexivity. }
    destruct (snd (cb_resize cb s T')) as [er|] eqn:ER.
    { destruct HC as (-> & -> & U). exists s1, st, 0, (Some er). split; [reflexivity|]. split; [exact I1|].
      split; [split; reflexivity|]. split; [auto|]. split; [auto|]. split; [unfold T; lia|].
      destruct U as (_ & _ & _ & U & _).
      split; [intros; rewrite U; reflexivity|]. split; [discriminate|]. split; [|discriminate].
      intros (_ & _ & R). rewrite R in ER. discriminate. }
    destruct HC as (Hs1 & Ht1 & HB1 & Hey & Hrel). fold T' in Ht1.
    destruct e1 as [e1|].
    + exists s1, st1, 0, (Some e1). split; [reflexivity|]. split; [exact I1|]. split; [split; assumption|].
      split; [auto|]. split; [auto|]. split; [lia|].
      split; [intros; rewrite HB1; auto|]. split; [discriminate|]. split.
      * intros R. destruct (io_synchronous (sflags st)) eqn:Ey; [|specialize (Hey eq_refl); discriminate].
        specialize (Hrel R eq_refl). fold T' in Hrel. destruct (0 <? T') eqn:ET; [discriminate|].
        replace (write_fits bs T' off (zlen b)) with false; [exact Hrel|].
        unfold write_fits. pose proof (Z.div_pos off bs Ho Hbs0). lia.
      * intros _ Ey _. specialize (Hey Ey). discriminate.
    + rewrite F1, Bool.eqb_reflx.
      destruct (tail_cases s1 st1 b off I1 Ho Hf) as (s' & st' & n & e & E & I' & [G1 G2] & Hs & Ht & Hor & Hok & HR & HF).
      rewrite Ht1 in *. exists s', st', n, e. split; [exact E|]. split; [exact I'|]. split; [split; congruence|].
      assert (n = 0 \/ n = zlen b) as Hn.
      { destruct (write_tail_ret cb bs nb blk H Hbs s1 st1 b off I1 Ho Hf) as (? & ? & n' & ? & E' & _ & _ & Hn' & _).
        rewrite E in E'. injection E' as <- <- <- <-. exact Hn'. }
      split; [exact Hn|]. split; [right; split; [reflexivity|congruence]|]. split; [lia|].
      split. { intros j Hj Hout. destruct Hor as [Q|[Q1 Q]]; rewrite Q; [rewrite HB1; auto|].
        assert (zlen (sblocks blk s1 st1) = bs * T') as HL1 by (rewrite sblocks_len by auto; now rewrite Ht1).
        rewrite HSP by (auto; nia). rewrite HB1. auto. }
      split. { intros He. destruct (Hok He) as (N & Wf & Fit & B). split; [exact N|]. split; [exact Wf|].
        split; [congruence|]. split; [exact Ht|]. split; [exact Fit|]. rewrite B, HB1.
        unfold grown_blocks. fold g. rewrite Eg. reflexivity. }
      split; [exact HR|]. intros _ _ Wf. destruct (HF Wf) as (-> & -> & -> & ->).
      split; [reflexivity|]. split; [reflexivity|]. split; [exact Ht1|]. split; [exact Hs1|].
      unfold grown_blocks. fold g. rewrite Eg. exact HB1.
  - rewrite Bool.eqb_reflx.
    destruct (tail_cases s st b off I Ho Hf) as (s' & st' & n & e & E & I' & [G1 G2] & Hs & Ht & Hor & Hok & HR & HF).
    fold T in Ht, Hor, Hok, HR, HF. exists s', st', n, e. split; [exact E|]. split; [exact I'|]. split; [split; congruence|].
    assert (n = 0 \/ n = zlen b) as Hn.
    { destruct (write_tail_ret cb bs nb blk H Hbs s st b off I Ho Hf) as (? & ? & n' & ? & E' & _ & _ & Hn' & _).
      rewrite E in E'. injection E' as <- <- <- <-. exact Hn'. }
    split; [exact Hn|]. split; [left; exact Hs|]. split; [lia|].
    split. { intros j Hj Hout. destruct Hor as [Q|[Q1 Q]]; rewrite Q; [reflexivity|]. rewrite HSP by (auto; lia). reflexivity. }
    unfold grown_blocks. fold g. rewrite Eg. unfold T'.
    split. { intros He. destruct (Hok He) as (N & Wf & Fit & B). do 5 (split; [assumption|]). exact B. }
    split; [exact HR|]. intros _ _ Wf. destruct (HF Wf) as (-> & -> & -> & ->). auto.
Qed.
End P2.
