(** * Property theorems C28-C42 (statements; proofs in BasicStreamProofs, 2 and 3).

    Everywhere [cb] is any storage honouring the contract [honest]; [sreach cb bs nb s st]
    says that stream [st] over storage [s] was opened over a fresh cache and used in any
    way, with any storage failures. *)
From Verif Require Import GoBase ListZ Errors Flags BlockCache Spec_BlockCache
  BlockCacheProofs BlockCacheProofs2 BlockCacheProofs3 BlockCacheProofs4 Props_BlockCache BasicStream Spec_BasicStream
  BasicStreamProofs BasicStreamProofs2 BasicStreamProofs3 BasicStreamProofs4 StreamNegative.

(** A storage that never fails; witnesses for the hypotheses below. *)
Definition ideal (bs : Z) : callbacks (list Z) :=
  mkCb _ (fun f i buf => (f, slice (i * bs) bs f, None))
         (fun f i buf => (splice (i * bs) buf f, None))
         (fun f n => (slice 0 (n * bs) f ++ zrepeat 0 (n * bs - zlen f), None)).
Definition inb (bs : Z) (f : list Z) : Z := zlen f / bs.
Lemma ideal_honest bs : 0 < bs -> honest (ideal bs) bs (inb bs) (fblk bs).
Proof.
  intros Hb.
  assert (forall f i, 0 <= i < inb bs f -> 0 <= i * bs /\ i * bs + bs <= zlen f) as HI.
  { intros f i Hi. unfold inb in Hi. pose proof (Z.mul_div_le (zlen f) bs Hb). nia. }
  constructor.
  - intros f i Hi. destruct (HI f i Hi). apply zlen_slice; lia.
  - intros f i buf f' buf' e Hi Hbuf [= <- <- <-]. destruct (HI f i Hi). split; [reflexivity|]. split; [reflexivity|].
    split; [apply zlen_slice; lia|reflexivity].
  - intros f i buf f' e Hi Hbuf [= <- <-]. destruct (HI f i Hi).
    assert (zlen (splice (i * bs) buf f) = zlen f) as El by (apply zlen_splice; lia).
    split; [unfold inb; now rewrite El|]. split.
    + intros j Hj Hne. destruct (HI f j Hj). unfold fblk. apply slice_splice_disj; nia.
    + intros _. unfold fblk. rewrite <- Hbuf at 2. apply slice_splice_same; nia.
  - intros f n f' e Hn _ [= <- <-]. pose proof (zlen_nonneg f).
    assert (zlen (slice 0 (n * bs) f ++ zrepeat 0 (n * bs - zlen f)) = n * bs) as El.
    { rewrite zlen_app, zlen_slice_min by nia. 
      assert (zlen (zrepeat 0 (n * bs - zlen f)) = Z.max 0 (n * bs - zlen f)) as -> by (unfold zlen, zrepeat; rewrite repeat_length; lia). 
      assert (0 <= n * bs) by nia. lia. }
    split; [unfold inb; rewrite El, Z.div_mul by lia; lia|].
    intros j Hj Hj2. destruct (HI f j ltac:(lia)). unfold fblk.
    rewrite slice_app_l; [|nia|nia|rewrite zlen_slice_min by nia; nia]. rewrite slice_slice by nia. reflexivity.
Qed.
Lemma ideal_reliable bs : reliable (ideal bs).
Proof. repeat split. Qed.

Section Ctx.
Context {S : Type} (cb : callbacks S) (bs : Z) (nb : S -> Z) (blk : S -> Z -> list Z).
Lemma reach_bs s st : sreach cb bs nb s st -> 0 < bs < 2^62.
Proof. induction 1; auto. Qed.
End Ctx.
Tactic Notation "open_reach" constr(H) constr(Hr) ident(Hbs) ident(I) :=
  pose proof (reach_bs _ _ _ _ _ Hr) as Hbs; pose proof (sreach_inv _ _ _ _ H Hbs _ _ Hr) as I.

(** C28: ReadAt delivers exactly the bytes of the stream at the offset, clamped to its
    size; EOF exactly when fewer bytes than requested remain; failed fetches deliver
    nothing; nothing changes. *)
Theorem C28_read_at_exact : forall S (cb : callbacks S) bs nb blk, honest cb bs nb blk ->
  forall s st buf off, sreach cb bs nb s st -> io_read (sflags st) = true ->
  0 <= off -> off + zlen buf < 2^63 ->
  zlen (sbytes blk s st) = ssize st /\
  exists s' st' b n e evs, s_read_at cb s st buf off = Ret (s', st', b, n, e) /\
    accesses cb s evs s' /\ sunchanged nb blk s st s' st' /\ spos st' = spos st /\
    let k := Z.max 0 (Z.min (zlen buf) (ssize st - off)) in
    ((forall i, ~ In (EvFetch i false) evs) ->
       n = k /\ b = splice 0 (slice off k (sbytes blk s st)) buf /\ e = if k <? zlen buf then Some KEOF else None) /\
    ((exists i, In (EvFetch i false) evs) -> n = 0 /\ b = buf /\ exists s i b x, snd (cb_fetch cb s i b) = Some x /\ e = Some (KMsg x)).
Proof.
  intros S cb bs nb blk H s st buf off Hr Hrd Ho Hf. open_reach H Hr Hbs I.
  split; [eapply sbytes_len; eauto|]. pose proof I as (W & Hsz & Hp). pose proof (zlen_nonneg buf) as Hb.
  assert (forall e, s_read_at cb s st buf off = Ret (s, st, buf, 0, e) -> Z.max 0 (Z.min (zlen buf) (ssize st - off)) = 0 ->
    e = (if 0 <? zlen buf then Some KEOF else None) ->
    exists s' st' b n e evs, s_read_at cb s st buf off = Ret (s', st', b, n, e) /\
    accesses cb s evs s' /\ sunchanged nb blk s st s' st' /\ spos st' = spos st /\
    let k := Z.max 0 (Z.min (zlen buf) (ssize st - off)) in
    ((forall i, ~ In (EvFetch i false) evs) ->
       n = k /\ b = splice 0 (slice off k (sbytes blk s st)) buf /\ e = if k <? zlen buf then Some KEOF else None) /\
    ((exists i, In (EvFetch i false) evs) -> n = 0 /\ b = buf /\ exists s i b x, snd (cb_fetch cb s i b) = Some x /\ e = Some (KMsg x))) as HZ.
  { intros e E K0 Ee. exists s, st, buf, 0, e, []. split; [exact E|]. split; [constructor|].
    split; [repeat (split; [auto; reflexivity|]); auto|]. split; [reflexivity|]. cbn zeta. rewrite K0. split.
    - intros _. split; [reflexivity|]. split; [|exact Ee]. unfold slice. cbn [Z.to_nat firstn]. unfold splice.
      cbn [Z.to_nat firstn zlen length app]. reflexivity.
    - intros [i []]. }
  destruct (Z.eq_dec (zlen buf) 0) as [E0|N0].
  { apply (HZ None); [|lia|replace (0 <? zlen buf) with false by lia; reflexivity].
    unfold s_read_at. rewrite Hrd. cbn [negb]. replace (zlen buf =? 0) with true by lia. reflexivity. }
  destruct (Z_lt_le_dec off (ssize st)) as [L|G].
  2:{ apply (HZ (Some KEOF)); [|lia|replace (0 <? zlen buf) with true by lia; reflexivity].
      unfold s_read_at. rewrite Hrd. cbn [negb]. replace (zlen buf =? 0) with false by lia.
      replace (off >=? ssize st) with true by lia. reflexivity. }
  clear HZ. destruct (read_at_spec cb bs nb blk H Hbs s st buf off I Hrd Ho Hf ltac:(lia) L) as (s' & c' & e & evs & HK & Hac & He & E).
  cbn zeta in E. replace (Z.max 0 (Z.min (zlen buf) (ssize st - off))) with (Z.min (zlen buf) (ssize st - off)) by lia.
  pose proof (kept_unch bs nb blk s st s' c' (spos st) I HK) as U.
  replace (set_pos (set_cache st c') (spos st)) with (set_cache st c') in U by (destruct st; reflexivity).
  destruct e as [e|].
  - exists s', (set_cache st c'), buf, 0, (Some e), evs. split; [exact E|]. split; [exact Hac|]. split; [exact U|]. split; [reflexivity|].
    split; [intros A; apply (proj1 He) in A; discriminate|]. intros _. split; [reflexivity|]. split; [reflexivity|].
    destruct (proj2 He _ eq_refl) as (x & i & b & y & X & ->). exists x, i, b, y. auto.
  - do 6 eexists. split; [exact E|]. split; [exact Hac|]. split; [exact U|]. split; [reflexivity|]. split.
    + intros _. split; [reflexivity|]. split; [|reflexivity]. f_equal. eapply sbytes_slice; eauto; lia.
    + intros [i Hi]. exfalso. exact (proj1 (proj1 He) eq_refl i Hi).
Qed.
Print Assumptions C28_read_at_exact.
(* a stream of 5 bytes in blocks of 2, after a write *)
Example C28_example : exists f' st st' st'',
  s_new (ideal 2) [1;2;3;4;5;6] 5 (new_cache 2 3) O_RDWR = Ret ([1;2;3;4;5;6], Some st, None) /\
  sexec_op (ideal 2) [1;2;3;4;5;6] st (TWriteAt [9;8] 0) = Ret (f', st', TCount [] 2 None) /\
  sexec_op (ideal 2) f' st' (TReadAt 3 1) = Ret (f', st'', TCount [8;3;4] 3 None) /\
  sreach (ideal 2) 2 (inb 2) f' st'.
Proof.
  do 4 eexists. split; [vm_compute; reflexivity|]. split; [vm_compute; reflexivity|]. split; [vm_compute; reflexivity|].
  eapply sr_step with (o := TWriteAt [9;8] 0).
  - eapply (sr_new (ideal 2) 2 (inb 2) [1;2;3;4;5;6] 3 5 O_RDWR); try lia; [vm_compute; split; discriminate|].
    vm_compute. reflexivity.
  - cbn. lia.
  - vm_compute. reflexivity.
Qed.

(** C29: REFUTED.  The last, short read reports its n bytes together with io.EOF and does
    not advance; the next Read returns the same bytes again. *)
Theorem C29_short_read_repeats_refuted : forall S (cb : callbacks S) bs nb blk, honest cb bs nb blk ->
  (forall s i b, snd (cb_fetch cb s i b) = None) ->
  forall s st len, sreach cb bs nb s st -> io_read (sflags st) = true ->
  ssize st + len < 2^63 -> let n := ssize st - spos st in 0 < n < len ->
  exists s' st' b, s_read cb s st (zrepeat 0 len) = Ret (s', st', b, n, Some KEOF) /\ spos st' = spos st /\
    slice 0 n b = slice (spos st) n (sbytes blk s st) /\
    exists s'' st'', s_read cb s' st' (zrepeat 0 len) = Ret (s'', st'', b, n, Some KEOF).
Proof.
  intros S cb bs nb blk H Hok s st len Hr Hrd Hf n Hn. open_reach H Hr Hbs I. pose proof I as (W & Hsz & Hp).
  assert (forall evs s s', accesses cb s evs s' -> forall i, ~ In (EvFetch i false) evs) as HN.
  { clear - Hok. intros evs y y' Ha. induction Ha as [|x i buf x1 buf' e evs x2 E _ IH|x i buf x1 e evs x2 E _ IH|x n x1 e evs x2 E _ IH];
      intros i0 Hin; cbn in Hin; [tauto|..]; destruct Hin as [X|Hin]; try discriminate; try (eapply IH; eassumption).
    inversion X; subst. specialize (Hok x i0 buf). rewrite E in Hok. cbn in Hok. subst. discriminate. }
  assert (zlen (zrepeat 0 len) = len) as Hl by (apply zlen_repeat; lia).
  destruct (read_spec cb bs nb blk H Hbs s st (zrepeat 0 len) I Hrd ltac:(lia) ltac:(lia)) as (s1 & c1 & e & evs & HK & Hac & He & E).
  cbn zeta in E. rewrite Hl in E. replace (Z.max 0 (Z.min len (ssize st - spos st))) with n in E by lia.
  replace (n <? len) with true in E by lia. destruct e as [e|]; [exfalso; pose proof (HN _ _ _ Hac) as A; apply (proj1 He) in A; discriminate|].
  pose proof (sbytes_len cb bs nb blk H Hbs s st I) as HL.
  assert (zlen (slice (spos st) n (sbytes blk s st)) = n) as Hln by (apply zlen_slice; lia).
  exists s1, (set_pos (set_cache st c1) (spos st)). eexists. split; [exact E|]. split; [reflexivity|]. split.
  { rewrite <- Hln at 1. apply slice_splice_same; lia. }
  assert (SInv bs nb blk s1 (set_pos (set_cache st c1) (spos st))) as I1 by (apply set_pos_inv; [eapply kept_sinv; eauto|lia]).
  destruct (read_spec cb bs nb blk H Hbs s1 _ (zrepeat 0 len) I1 Hrd ltac:(lia)) as (s2 & c2 & e & evs2 & HK2 & Hac2 & He2 & E2).
  { cbn [set_pos set_cache ssize]. lia. }
  cbn zeta in E2. rewrite Hl in E2. cbn [set_pos set_cache ssize spos] in E2.
  replace (Z.max 0 (Z.min len (ssize st - spos st))) with n in E2 by lia.
  replace (n <? len) with true in E2 by lia. destruct e as [e|]; [exfalso; pose proof (HN _ _ _ Hac2) as A; apply (proj1 He2) in A; discriminate|].
  rewrite (unch_sbytes nb blk _ _ _ _ (kept_unch bs nb blk s st s1 c1 (spos st) I HK)) in E2.
  do 2 eexists. exact E2.
Qed.
Print Assumptions C29_short_read_repeats_refuted.
(* What does hold: with a nil error the position advances by exactly the n bytes that
   were delivered, and with an error it stays. *)
Theorem C29_read_advances_partial : forall S (cb : callbacks S) bs nb blk, honest cb bs nb blk ->
  forall s st buf, sreach cb bs nb s st -> spos st + zlen buf < 2^63 ->
  exists s' st' b n e, s_read cb s st buf = Ret (s', st', b, n, e) /\ sunchanged nb blk s st s' st' /\
    match e with
    | None => spos st' = spos st + n /\ n = zlen buf /\ (0 < n -> b = slice (spos st) n (sbytes blk s st))
    | Some _ => spos st' = spos st
    end.
Proof.
  intros S cb bs nb blk H s st buf Hr Hf. open_reach H Hr Hbs I. pose proof I as (W & Hsz & Hp). pose proof (zlen_nonneg buf) as Hb.
  assert (forall e, s_read_at cb s st buf (spos st) = Ret (s, st, buf, 0, e) -> (e = None -> zlen buf = 0) ->
   exists s' st' b n e, s_read cb s st buf = Ret (s', st', b, n, e) /\ sunchanged nb blk s st s' st' /\
    match e with
    | None => spos st' = spos st + n /\ n = zlen buf /\ (0 < n -> b = slice (spos st) n (sbytes blk s st))
    | Some _ => spos st' = spos st
    end) as HZ.
  { intros e E He. unfold s_read. rewrite E. destruct e as [e|].
    - do 5 eexists. split; [reflexivity|]. split; [repeat (split; [auto; reflexivity|]); auto|reflexivity].
    - do 5 eexists. split; [reflexivity|]. split; [repeat (split; [auto; reflexivity|]); auto|].
      cbn [set_pos spos]. rewrite i64_id by lia. split; [reflexivity|]. split; [specialize (He eq_refl); lia|lia]. }
  destruct (io_read (sflags st)) eqn:Hrd.
  2:{ apply (HZ (Some (K ErrNotPermitted))); [unfold s_read_at; now rewrite Hrd|discriminate]. }
  destruct (Z.eq_dec (zlen buf) 0) as [E0|N0].
  { apply (HZ None); [|auto]. unfold s_read_at. rewrite Hrd. cbn [negb]. replace (zlen buf =? 0) with true by lia. reflexivity. }
  destruct (Z_lt_le_dec (spos st) (ssize st)) as [L|G].
  2:{ apply (HZ (Some KEOF)); [|discriminate]. unfold s_read_at. rewrite Hrd. cbn [negb].
      replace (zlen buf =? 0) with false by lia. replace (spos st >=? ssize st) with true by lia. reflexivity. }
  destruct (read_at_spec cb bs nb blk H Hbs s st buf (spos st) I Hrd ltac:(lia) Hf ltac:(lia) L) as (s1 & c1 & e & evs & HK & Hac & He & E).
  cbn zeta in E. unfold s_read. rewrite E.
  pose proof (sbytes_slice bs nb blk s st (spos st) (Z.min (zlen buf) (ssize st - spos st)) I ltac:(lia) ltac:(lia) ltac:(lia)) as HSS.
  pose proof (sbytes_len cb bs nb blk H Hbs s st I) as HL.
  pose proof (kept_unch bs nb blk s st s1 c1 (spos st) I HK) as U.
  replace (set_pos (set_cache st c1) (spos st)) with (set_cache st c1) in U by (destruct st; reflexivity).
  destruct e as [e|].
  - do 5 eexists. split; [reflexivity|]. split; [exact U|reflexivity].
  - destruct (Z.min (zlen buf) (ssize st - spos st) <? zlen buf) eqn:EM.
    + do 5 eexists. split; [reflexivity|]. split; [exact U|reflexivity].
    + do 5 eexists. split; [reflexivity|]. split; [exact (kept_unch bs nb blk s st s1 c1 _ I HK)|]. cbn [set_pos set_cache spos].
      rewrite i64_id by lia. split; [reflexivity|]. split; [lia|]. intros _.
      assert (Z.min (zlen buf) (ssize st - spos st) = zlen buf) as EQ by lia. rewrite HSS, EQ.
      assert (zlen (slice (spos st) (zlen buf) (sbytes blk s st)) = zlen buf) as Hl by (apply zlen_slice; lia).
      apply splice_whole. lia.
Qed.
Print Assumptions C29_read_advances_partial.
Example C29_example : exists st st1 b,
  s_new (ideal 2) [1;2;3;4] 3 (new_cache 2 2) O_RDONLY = Ret ([1;2;3;4], Some st, None) /\
  s_read (ideal 2) [1;2;3;4] st [0;0;0;0] = Ret ([1;2;3;4], st1, b, 3, Some KEOF) /\ b = [1;2;3;0] /\ spos st1 = 0.
Proof. do 3 eexists. split; [vm_compute; reflexivity|]. split; [vm_compute; reflexivity|]. split; reflexivity. Qed.

(** C30: WriteTo.  REFUTED for failing writers: the count and the error returned do not
    depend on the writer at all. *)
Theorem C30_writer_errors_ignored_refuted : forall S W (cb : callbacks S) (wr1 wr2 : W -> list Z -> W * Z * option kerr) fuel s st w1 w2,
  match s_write_to cb wr1 fuel s st w1, s_write_to cb wr2 fuel s st w2 with
  | Ret (s1, st1, _, n1, e1), Ret (s2, st2, _, n2, e2) => s1 = s2 /\ st1 = st2 /\ n1 = n2 /\ e1 = e2
  | Panic, Panic | OutOfFuel, OutOfFuel => True
  | _, _ => False
  end.
Proof.
  intros S W cb wr1 wr2 fuel. unfold s_write_to.
  assert (forall s st buf acc w1 w2,
    match write_to_loop cb wr1 fuel s st buf w1 acc, write_to_loop cb wr2 fuel s st buf w2 acc with
    | Ret (s1, st1, _, n1, e1), Ret (s2, st2, _, n2, e2) => s1 = s2 /\ st1 = st2 /\ n1 = n2 /\ e1 = e2
    | Panic, Panic | OutOfFuel, OutOfFuel => True
    | _, _ => False
    end) as HG; [|intros; apply HG].
  induction fuel as [|fuel IH]; intros s st buf acc w1 w2; cbn [write_to_loop]; [auto|].
  destruct (s_read cb s st buf) as [[[[[s1 st1] b] n] e]| |]; auto.
  destruct e as [e|]; [destruct e; auto|]. apply IH.
Qed.
Print Assumptions C30_writer_errors_ignored_refuted.
(* What does hold: the chunks handed to the writer are, joined, exactly the bytes from the
   position to the end, and the count is their number; when fetching fails they are a
   prefix of it and the error is returned (even if the storage's own error is io.EOF). *)
Theorem C30_write_to_delivers_partial : forall S W (cb : callbacks S) bs nb blk, honest cb bs nb blk ->
  forall (wr : W -> list Z -> W * Z * option kerr) s st w fuel, sreach cb bs nb s st -> io_read (sflags st) = true ->
  ssize st + bs < 2^63 -> let rem := Z.max 0 (ssize st - spos st) in (Z.to_nat (rem / bs) < fuel)%nat ->
  exists s' st' chunks e, s_write_to cb wr fuel s st w = Ret (s', st', deliver wr w chunks, zlen (concat chunks), e) /\
    sunchanged nb blk s st s' st' /\
    concat chunks = slice (spos st) (zlen (concat chunks)) (sbytes blk s st) /\ zlen (concat chunks) <= rem /\
    (e = None -> zlen (concat chunks) = rem) /\
    ((forall s i b, snd (cb_fetch cb s i b) = None) -> e = None /\ zlen (concat chunks) = rem).
Proof.
  intros S W cb bs nb blk H wr s st w fuel Hr Hrd Hf rem Hfu. open_reach H Hr Hbs I.
  pose proof I as (WW & Hsz & Hp). unfold s_write_to. rewrite (i_bpb _ _ _ _ _ WW).
  destruct (write_to_spec cb bs nb blk H Hbs wr fuel s st (zrepeat 0 bs) w 0 I Hrd) as
    (s' & st' & chunks & e & E & _ & U & A & B & _ & C & D); try exact Hfu; try (apply zlen_repeat; lia); try lia.
  exists s', st', chunks, e. rewrite E. split; [reflexivity|]. split; [exact U|]. split; [exact A|]. split; [exact B|].
  split; [exact C|]. intros Q. destruct (D Q) as (D1 & D2 & _). auto.
Qed.
Print Assumptions C30_write_to_delivers_partial.
(* a writer that stores what it gets and one that always fails *)
Example C30_example :
  let wr ok (w : list Z) c := (w ++ c, (if ok : bool then zlen c else 0), if ok then None else Some (K ErrNoSpaceOnDevice)) in
  exists st st1, s_new (ideal 2) [1;2;3;4;5;6] 5 (new_cache 2 3) O_RDONLY = Ret ([1;2;3;4;5;6], Some st, None) /\
  s_write_to (ideal 2) (wr true) 10 [1;2;3;4;5;6] (set_pos st 1) [] = Ret ([1;2;3;4;5;6], st1, [2;3;4;5], 4, None) /\
  s_write_to (ideal 2) (wr false) 10 [1;2;3;4;5;6] (set_pos st 1) [] = Ret ([1;2;3;4;5;6], st1, [2;3;4;5], 4, None).
Proof. do 2 eexists. split; [vm_compute; reflexivity|]. split; vm_compute; reflexivity. Qed.

(** C31: Seek is exact. *)
Theorem C31_seek_exact : forall S (cb : callbacks S) bs nb blk, honest cb bs nb blk ->
  forall s st off whence, sreach cb bs nb s st -> - 2^63 <= off < 2^63 ->
  let target := if whence =? 0 then off else if whence =? 1 then spos st + off else ssize st + off in
  s_seek st off whence =
    if (0 <=? whence) && (whence <=? 2) then
      if (0 <=? target) && (target <? 2^63) then (mkStream (ssize st) target (scache st) (sflags st), target, None)
      else (st, spos st, Some KNegativeSeek)
    else (st, spos st, Some KBadWhence).
Proof.
  intros S cb bs nb blk H s st off whence Hr Ho target. open_reach H Hr Hbs I. pose proof I as (W & Hsz & Hp).
  pose proof (winv_small cb bs nb blk H Hbs _ _ W) as (_ & HF & _).
  assert (forall t, 0 <= t -> i64 t = if t <? 2^63 then t else i64 t) as _ by (intros t Ht; destruct (t <? 2^63) eqn:E; [apply i64_id; lia|reflexivity]).
  assert (forall base, 0 <= base < 2^63 ->
     (if i64 (base + off) <? 0 then (st, spos st, Some KNegativeSeek) else (set_pos st (i64 (base + off)), i64 (base + off), None)) =
     if (0 <=? base + off) && (base + off <? 2^63) then (set_pos st (base + off), base + off, None) else (st, spos st, Some KNegativeSeek)) as HG.
  { intros base Hb. destruct ((0 <=? base + off) && (base + off <? 2^63)) eqn:E.
    - rewrite i64_id by lia. replace (base + off <? 0) with false by lia. reflexivity.
    - assert (i64 (base + off) < 0) as Hneg.
      { destruct (Z_lt_le_dec (base + off) 0); [rewrite i64_id by lia; lia|].
        unfold i64. assert (2^63 <= base + off < 2^64) by lia.
        replace (base + off + 2^63) with (base + off - 2^63 + 1 * 2^64) by lia.
        rewrite Z.mod_add by lia. rewrite Z.mod_small by lia. lia. }
      replace (i64 (base + off) <? 0) with true by lia. reflexivity. }
  unfold s_seek, target. destruct (Z.eqb_spec whence 0) as [->|N0].
  { cbn [Z.leb Z.compare andb]. destruct (off <? 0) eqn:E.
    - replace ((0 <=? off) && (off <? 2^63)) with false by lia. reflexivity.
    - replace ((0 <=? off) && (off <? 2^63)) with true by lia. reflexivity. }
  destruct (Z.eqb_spec whence 1) as [->|N1].
  { change ((0 <=? 1) && (1 <=? 2)) with true. cbv iota. apply HG. lia. }
  destruct (Z.eqb_spec whence 2) as [->|N2].
  { change ((0 <=? 2) && (2 <=? 2)) with true. cbv iota. apply HG. lia. }
  replace ((0 <=? whence) && (whence <=? 2)) with false by lia. reflexivity.
Qed.
Print Assumptions C31_seek_exact.
Example C31_example : let st := mkStream 5 2 (new_cache 2 3) O_RDWR in
  s_seek st 10 2 = (set_pos st 15, 15, None) /\ s_seek st (-3) 1 = (st, 2, Some KNegativeSeek) /\ s_seek st 0 7 = (st, 2, Some KBadWhence).
Proof. split; [|split]; vm_compute; reflexivity. Qed.

(** C32: a stream not opened for writing refuses every change, and no sequence of
    operations on it changes contents, size or storage; a stream not opened for reading
    reveals nothing. *)
Theorem C32_not_writable_refuses : forall S R (cb : callbacks S) s st, io_write (sflags st) = false ->
  (forall b, s_write cb s st b = Ret (s, st, 0, Some (K ErrNotPermitted))) /\
  (forall b off, s_write_at cb s st b off = Ret (s, st, 0, Some (K ErrNotPermitted))) /\
  (forall n, s_truncate cb s st n = Ret (s, st, Some (K ErrNotPermitted))) /\
  (forall (rd : R -> Z -> R * list Z * option kerr) bsz fuel r,
     s_read_from cb rd bsz fuel s st r = Ret (s, st, r, 0, Some (K ErrNotPermitted))).
Proof.
  intros S R cb s st Hw. split; [intros; apply (ro_refuse cb s st Hw b 0 0)|].
  split; [intros; apply (ro_refuse cb s st Hw b off 0)|]. split; [intros; apply (ro_refuse cb s st Hw [] 0 n)|].
  intros. unfold s_read_from. now rewrite Hw.
Qed.
Print Assumptions C32_not_writable_refuses.
Theorem C32_not_writable_history : forall S (cb : callbacks S) bs nb blk, honest cb bs nb blk -> 0 < bs < 2^62 ->
  forall s0 total0 sz flags s1 st e s' st', 0 <= total0 <= nb s0 -> bs * total0 < 2^63 -> io_write flags = false ->
  s_new cb s0 sz (new_cache bs total0) flags = Ret (s1, Some st, e) -> sruns cb bs any_step s1 st s' st' ->
  s1 = s0 /\ ssize st = sz /\ sblocks blk s1 st = storage_bytes blk s0 total0 /\ sunchanged nb blk s0 st s' st'.
Proof.
  intros S cb bs nb blk H Hbs s0 total0 sz flags s1 st e s' st' Ht Hf Hw E R.
  destruct (new_sinv cb bs nb blk H Hbs s0 total0 sz flags s1 st e Ht Hf E) as [I HF].
  assert (s1 = s0 /\ st = mkStream sz 0 (new_cache bs total0) flags) as [-> ->].
  { unfold s_new in E. destruct (_ || _); [discriminate|]. destruct (io_truncate flags).
    - rewrite (proj2 (proj2 (ro_refuse cb s0 (mkStream sz 0 (new_cache bs total0) flags) Hw [] 0 0))) in E. injection E as <- <- <-. auto.
    - injection E as <- <- <-. auto. }
  split; [reflexivity|]. split; [reflexivity|]. split.
  - unfold sblocks. cbn [scache]. symmetry. eapply rep_unique; [exact H|lia| |].
    + apply new_inv; auto. lia.
    + eapply new_rep; eauto. lia.
  - eapply ro_runs; eauto. cbn [scache]. apply new_clean. lia.
Qed.
Print Assumptions C32_not_writable_history.
Theorem C32_not_readable_reveals_nothing : forall S W (cb : callbacks S) s st, io_read (sflags st) = false ->
  (forall buf off, s_read_at cb s st buf off = Ret (s, st, buf, 0, Some (K ErrNotPermitted))) /\
  (forall buf, s_read cb s st buf = Ret (s, st, buf, 0, Some (K ErrNotPermitted))) /\
  (forall (wr : W -> list Z -> W * Z * option kerr) fuel w,
     s_write_to cb wr (Datatypes.S fuel) s st w = Ret (s, st, w, 0, Some (K ErrNotPermitted))).
Proof.
  intros S W cb s st Hr.
  assert (forall buf off, s_read_at cb s st buf off = Ret (s, st, buf, 0, Some (K ErrNotPermitted))) as A
    by (intros; unfold s_read_at; now rewrite Hr).
  split; [exact A|]. split; [intros; unfold s_read; now rewrite A|].
  intros. unfold s_write_to. cbn [write_to_loop]. unfold s_read. now rewrite A.
Qed.
Print Assumptions C32_not_readable_reveals_nothing.
Example C32_example : exists st st1 st2, s_new (ideal 2) [1;2;3;4] 3 (new_cache 2 2) O_RDONLY = Ret ([1;2;3;4], Some st, None) /\
  sexec_op (ideal 2) [1;2;3;4] st (TReadAt 2 1) = Ret ([1;2;3;4], st1, TCount [2;3] 2 None) /\
  sexec_op (ideal 2) [1;2;3;4] st1 (TWriteAt [7] 0) = Ret ([1;2;3;4], st1, TCount [] 0 (Some (K ErrNotPermitted))) /\
  sexec_op (ideal 2) [1;2;3;4] st1 TSync = Ret ([1;2;3;4], st2, TCount [] 0 None).
Proof. do 3 eexists. split; [vm_compute; reflexivity|]. split; [vm_compute; reflexivity|]. split; vm_compute; reflexivity. Qed.

(** C33: REFUTED.  The code asks the cache for (off+len)/bs + 1 blocks starting at block
    off/bs, which run past the end unless the write is near the start: a write that
    makes the stream grow fails whenever off is not in the first block -- after having
    grown the stream. *)
Theorem C33_growing_write_fails_refuted : forall S (cb : callbacks S) bs nb blk, honest cb bs nb blk -> reliable cb ->
  forall s st b off, sreach cb bs nb s st -> io_write (sflags st) = true -> io_append (sflags st) = false ->
  io_synchronous (sflags st) = false ->
  off + zlen b + bs < 2^63 -> bs <= off -> bs * total (scache st) <= off + zlen b ->
  exists s' st', s_write_at cb s st b off = Ret (s', st', 0, Some (K ErrArgumentOutOfRange)) /\
    ssize st' = off + zlen b /\ sblocks blk s' st' = resized bs (sblocks blk s st) (off + zlen b).
Proof.
  intros S cb bs nb blk H R s st b off Hr Hw Ha Hy Hf Ho Hg. open_reach H Hr Hbs I. pose proof I as (W & Hsz & Hp).
  unfold s_write_at. rewrite Ha. pose proof (zlen_nonneg b).
  destruct (impl_write_cases cb bs nb blk H Hbs s st b off I Hw ltac:(lia) Hf) as (s' & st' & n & e & E & _ & _ & _ & _ & _ & _ & _ & _ & HF).
  assert (write_grows bs (total (scache st)) off (zlen b) = true) as Eg.
  { unfold write_grows. apply Z.leb_le. apply Z.div_le_lower_bound; lia. }
  unfold grown_blocks in HF. rewrite Eg in HF.
  destruct HF as (-> & -> & _ & Hs & HB); [apply R|exact Hy| |eauto].
  unfold write_fits, nblocks.
  assert (1 <= off / bs) by (apply Z.div_le_lower_bound; lia).
  assert ((off + zlen b + bs - 1) / bs <= (off + zlen b) / bs + 1).
  { replace ((off + zlen b) / bs + 1) with ((off + zlen b + 1 * bs) / bs) by (rewrite Z.div_add by lia; lia).
    apply Z.div_le_mono; lia. }
  lia.
Qed.
Print Assumptions C33_growing_write_fails_refuted.
(* The exact condition: with a storage that never fails, WriteAt succeeds if and only if
   [write_fits] holds for the number of blocks after growing. *)
Theorem C33_write_succeeds_iff_partial : forall S (cb : callbacks S) bs nb blk, honest cb bs nb blk -> reliable cb ->
  forall s st b off, sreach cb bs nb s st -> io_write (sflags st) = true -> io_append (sflags st) = false ->
  0 <= off -> off + zlen b + bs < 2^63 ->
  let T := total (scache st) in
  let T' := if write_grows bs T off (zlen b) then nblocks bs (off + zlen b) else T in
  exists s' st' n, s_write_at cb s st b off =
    Ret (s', st', n, if write_fits bs T' off (zlen b) then None else Some (K ErrArgumentOutOfRange)).
Proof.
  intros S cb bs nb blk H R s st b off Hr Hw Ha Ho Hf T T'. open_reach H Hr Hbs I.
  unfold s_write_at. rewrite Ha.
  destruct (impl_write_cases cb bs nb blk H Hbs s st b off I Hw Ho Hf) as (s' & st' & n & e & E & _ & _ & _ & _ & _ & _ & _ & HR & _).
  exists s', st', n. rewrite E. now rewrite (HR R).
Qed.
Print Assumptions C33_write_succeeds_iff_partial.
(* Whatever the storage does: a WriteAt that returns nil wrote all of its bytes, they are
   read back, and every other byte is unchanged. *)
Theorem C33_read_back_partial : forall S (cb : callbacks S) bs nb blk, honest cb bs nb blk ->
  forall s st b off s' st' n, sreach cb bs nb s st -> 0 <= off -> off + zlen b + bs < 2^63 ->
  s_write_at cb s st b off = Ret (s', st', n, None) ->
  n = zlen b /\ spos st' = spos st /\
  slice off (zlen b) (sblocks blk s' st') = b /\
  (forall j, 0 <= j < zlen (sblocks blk s st) -> ~ (off <= j < off + zlen b) ->
     znth 0 (sblocks blk s' st') j = znth 0 (sblocks blk s st) j) /\
  (io_read (sflags st) = true -> (forall s i b, snd (cb_fetch cb s i b) = None) -> off + zlen b <= ssize st' ->
     exists s'' st'', s_read_at cb s' st' (zrepeat 0 (zlen b)) off = Ret (s'', st'', b, zlen b, None)).
Proof.
  intros S cb bs nb blk H s st b off s' st' n Hr Ho Hf E. open_reach H Hr Hbs I. pose proof (zlen_nonneg b) as Hb.
  unfold s_write_at in E. destruct (io_append _); [discriminate|].
  assert (io_write (sflags st) = true) as Hw.
  { destruct (io_write (sflags st)) eqn:X; [reflexivity|]. unfold s_impl_write_at in E. rewrite X in E. discriminate. }
  destruct (impl_write_cases cb bs nb blk H Hbs s st b off I Hw Ho Hf) as (x1 & x2 & x3 & x4 & E1 & I' & [F1 F2] & _ & _ & _ & Hout & HOK & _).
  rewrite E in E1. injection E1 as <- <- <- <-. destruct (HOK eq_refl) as (N & _ & Hs & Ht & Hfit & HB). clear HOK.
  rewrite (sblocks_len cb bs nb blk H Hbs s st I). rewrite <- Ht in Hfit.
  pose proof (sblocks_len cb bs nb blk H Hbs s' st' I') as HL'.
  assert (slice off (zlen b) (sblocks blk s' st') = b) as HSL.
  { rewrite HB. rewrite HB in HL'. apply slice_splice_same; [lia|].
    assert (zlen (grown_blocks bs (total (scache st)) (sblocks blk s st) off (zlen b)) = bs * total (scache st')) as HG; [|lia].
    unfold grown_blocks. rewrite Ht. destruct (write_grows _ _ _ _).
    - rewrite (resized_len bs Hbs) by lia. lia.
    - apply (sblocks_len cb bs nb blk H Hbs s st I). }
  split; [exact N|]. split; [exact F2|]. split; [exact HSL|]. split; [exact Hout|].
  intros Hrd Hok Hle.
  destruct (Z.eq_dec (zlen b) 0) as [E0|N0].
  { apply zlen_zero_nil in E0. subst b. change (zrepeat 0 (zlen [])) with (@nil Z). exists s', st'.
    unfold s_read_at. rewrite F1, Hrd. reflexivity. }
  destruct (read_at_spec cb bs nb blk H Hbs s' st' (zrepeat 0 (zlen b)) off I') as (s2 & c2 & e & evs & HK & Hac & He & E2);
    rewrite ?zlen_repeat; try lia. { now rewrite F1. }
  cbn zeta in E2. rewrite zlen_repeat in E2 by lia. replace (Z.min (zlen b) (ssize st' - off)) with (zlen b) in E2 by lia.
  pose proof (no_failed_fetch _ _ _ _ Hok Hac) as A. apply (proj1 He) in A. subst e.
  rewrite HSL in E2. rewrite splice_whole in E2 by (rewrite zlen_repeat by lia; reflexivity).
  replace (zlen b <? zlen b) with false in E2 by lia. eauto.
Qed.
Print Assumptions C33_read_back_partial.
(* both outcomes occur: bytes 3..4 of 8 can be overwritten, bytes 4..5 cannot *)
Example C33_example : exists st f1 st1 f2 st2, s_new (ideal 4) [1;2;3;4;5;6;7;8] 8 (new_cache 4 2) O_RDWR = Ret ([1;2;3;4;5;6;7;8], Some st, None) /\
  s_write_at (ideal 4) [1;2;3;4;5;6;7;8] st [21;22] 3 = Ret (f1, st1, 2, None) /\
  s_write_at (ideal 4) [1;2;3;4;5;6;7;8] st [21;22] 4 = Ret (f2, st2, 0, Some (K ErrArgumentOutOfRange)).
Proof. do 5 eexists. split; [vm_compute; reflexivity|]. split; vm_compute; reflexivity. Qed.

(** C34: REFUTED.  Writing through a stream never marks blocks as modified: from a freshly
    opened stream, no sequence of operations that does not add blocks -- writes, syncs,
    closes, with O_SYNC or without -- ever changes a stored block. *)
Theorem C34_sync_loses_writes_refuted : forall S (cb : callbacks S) bs nb blk, honest cb bs nb blk -> 0 < bs < 2^62 ->
  forall s0 total0 sz flags st s' st', 0 <= total0 <= nb s0 -> bs * total0 < 2^63 -> io_truncate flags = false ->
  s_new cb s0 sz (new_cache bs total0) flags = Ret (s0, Some st, None) ->
  sruns cb bs (fun st o st' => total (scache st') <= total (scache st)) s0 st s' st' ->
  forall j, 0 <= j < total (scache st') -> blk s' j = blk s0 j.
Proof.
  intros S cb bs nb blk H Hbs s0 total0 sz flags st s' st' Ht Hf Htr E R.
  destruct (new_sinv cb bs nb blk H Hbs s0 total0 sz flags s0 st None Ht Hf E) as [I HF].
  assert (st = mkStream sz 0 (new_cache bs total0) flags) as ->.
  { unfold s_new in E. destruct (_ || _); [discriminate|]. rewrite Htr in E. injection E as <-. reflexivity. }
  destruct (nogrow_runs cb bs nb blk H Hbs s0 _ s' st' I) as (_ & K & _); [cbn [scache]; apply new_clean; lia|exact R|exact K].
Qed.
Print Assumptions C34_sync_loses_writes_refuted.
(* Blocks that the stream itself added are written: on a stream that started without any
   blocks, whatever was done (without an intermediate Sync) is on storage after a
   successful Sync or Close. *)
Theorem C34_new_file_durable_partial : forall S (cb : callbacks S) bs nb blk, honest cb bs nb blk -> 0 < bs < 2^62 ->
  forall s0 sz flags s1 st e s2 st2 s3 st3, 0 <= nb s0 -> io_synchronous flags = false ->
  s_new cb s0 sz (new_cache bs 0) flags = Ret (s1, Some st, e) ->
  sruns cb bs (fun _ o _ => o <> TSync) s1 st s2 st2 -> s_sync cb s2 st2 = Ret (s3, st3, None) ->
  storage_bytes blk s3 (total (scache st3)) = sblocks blk s2 st2 /\ sblocks blk s3 st3 = sblocks blk s2 st2.
Proof.
  intros S cb bs nb blk H Hbs s0 sz flags s1 st e s2 st2 s3 st3 Hnb Hy E R ES.
  destruct (new_sinv cb bs nb blk H Hbs s0 0 sz flags s1 st e ltac:(lia) ltac:(lia) E) as [I HF].
  assert (dirtyb (scache st) true) as D.
  { assert (dirtyb (new_cache bs 0) true) as D0 by (intros i Hi; cbn [new_cache total] in Hi; lia).
    unfold s_new in E. destruct (_ || _) eqn:EZ; [discriminate|]. destruct (io_truncate flags).
    - destruct (s_truncate cb s0 _ 0) as [[[x1 x2] x3]| |] eqn:ET; try discriminate. injection E as <- <- <-.
      eapply (trunc_dirty cb bs nb blk H Hbs s0 (mkStream sz 0 (new_cache bs 0) flags)); eauto; [|lia].
      split; [apply (new_winv bs nb blk); lia|]. cbn [ssize spos scache new_cache total].
      unfold size in EZ. cbn [new_cache bpb total] in EZ. rewrite Z.mul_0_r in EZ. change (i64 0) with 0 in EZ. lia.
    - injection E as <- <- <-. exact D0. }
  destruct (runs_inv cb bs nb blk H Hbs _ s1 st s2 st2 I R) as [I2 _].
  eapply sync_dirty; eauto. apply (dirty_runs cb bs nb blk H Hbs s1 st s2 st2); auto. now rewrite HF.
Qed.
Print Assumptions C34_new_file_durable_partial.
Example C34_example : exists st st1 st2 st3 f1, s_new (ideal 2) [1;2;3;4] 4 (new_cache 2 2) O_RDWR = Ret ([1;2;3;4], Some st, None) /\
  sexec_op (ideal 2) [1;2;3;4] st (TWriteAt [9] 0) = Ret ([1;2;3;4], st1, TCount [] 1 None) /\
  sexec_op (ideal 2) [1;2;3;4] st1 TSync = Ret ([1;2;3;4], st2, TCount [] 0 None) /\
  sbytes (fblk 2) [1;2;3;4] st2 = [9;2;3;4] /\
  s_new (ideal 2) [] 0 (new_cache 2 0) O_RDWR = Ret ([], Some st3, None) /\
  sruns (ideal 2) 2 (fun _ o _ => o <> TSync) [] st3 [0;0] f1 /\ sbytes (fblk 2) [0;0] f1 = [7].
Proof.
  do 5 eexists. do 5 (split; [vm_compute; reflexivity|]). split.
  - eapply sn_cons with (o := TWriteAt [7] 0); [cbn; lia|vm_compute; reflexivity|discriminate|apply sn_nil].
  - vm_compute. reflexivity.
Qed.

(** C35: REFUTED.  A successful write that ends inside the allocated blocks never changes
    the size, even if it ends past it. *)
Theorem C35_write_into_slack_refuted : forall S (cb : callbacks S) bs nb blk, honest cb bs nb blk ->
  forall s st b off s' st' n, sreach cb bs nb s st -> 0 <= off ->
  ssize st < off + zlen b < bs * total (scache st) -> off + zlen b + bs < 2^63 ->
  s_write_at cb s st b off = Ret (s', st', n, None) ->
  ssize st' = ssize st /\ ssize st' <> Z.max (ssize st) (off + zlen b).
Proof.
  intros S cb bs nb blk H s st b off s' st' n Hr Ho Hin Hf E. open_reach H Hr Hbs I. 
  unfold s_write_at in E. destruct (io_append _); [discriminate|].
  assert (io_write (sflags st) = true) as Hw.
  { destruct (io_write (sflags st)) eqn:X; [reflexivity|]. unfold s_impl_write_at in E. rewrite X in E. discriminate. }
  destruct (impl_write_cases cb bs nb blk H Hbs s st b off I Hw Ho Hf) as (x1 & x2 & x3 & x4 & E1 & I' & _ & _ & _ & _ & _ & HOK & _).
  rewrite E in E1. injection E1 as <- <- <- <-. destruct (HOK eq_refl) as (_ & _ & Hs & _).
  replace (write_grows bs (total (scache st)) off (zlen b)) with false in Hs; [lia|].
  unfold write_grows. assert ((off + zlen b) / bs < total (scache st)) by (apply Z.div_lt_upper_bound; lia). lia.
Qed.
Print Assumptions C35_write_into_slack_refuted.
(* What does hold: the size becomes the maximum exactly when the write ends inside the
   stream or at or past the end of the allocated blocks; it never shrinks. *)
Theorem C35_write_size_partial : forall S (cb : callbacks S) bs nb blk, honest cb bs nb blk ->
  forall s st b off s' st' n e, sreach cb bs nb s st -> 0 <= off -> off + zlen b + bs < 2^63 ->
  s_write_at cb s st b off = Ret (s', st', n, e) ->
  ssize st <= ssize st' <= Z.max (ssize st) (off + zlen b) /\
  (e = None -> off + zlen b <= ssize st \/ bs * total (scache st) <= off + zlen b ->
     ssize st' = Z.max (ssize st) (off + zlen b)).
Proof.
  intros S cb bs nb blk H s st b off s' st' n e Hr Ho Hf E. open_reach H Hr Hbs I. pose proof (zlen_nonneg b) as Hb.
  unfold s_write_at in E. destruct (io_append _); [injection E as <- <- <- <-; split; [lia|discriminate]|].
  destruct (io_write (sflags st)) eqn:Hw.
  2:{ unfold s_impl_write_at in E. rewrite Hw in E. injection E as <- <- <- <-. split; [lia|discriminate]. }
  destruct (impl_write_cases cb bs nb blk H Hbs s st b off I Hw Ho Hf) as (x1 & x2 & x3 & x4 & E1 & I' & _ & _ & Hss & _ & _ & HOK & _).
  rewrite E in E1. injection E1 as <- <- <- <-. pose proof I as (W & Hsz & Hp).
  assert (write_grows bs (total (scache st)) off (zlen b) = true -> bs * total (scache st) <= off + zlen b) as HG.
  { intros X. unfold write_grows in X. pose proof (Z.mul_div_le (off + zlen b) bs ltac:(lia)). nia. }
  split; [destruct Hss as [->|[X ->]]; [lia|specialize (HG X); lia]|].
  intros He Hc. destruct (HOK He) as (_ & _ & Hs & _). destruct (write_grows bs (total (scache st)) off (zlen b)) eqn:EG.
  - specialize (HG eq_refl). lia.
  - assert ((off + zlen b) / bs < total (scache st)) as HD by (unfold write_grows in EG; lia).
    assert (off + zlen b < bs * total (scache st)); [|lia].
    pose proof (Z.mul_succ_div_gt (off + zlen b) bs ltac:(lia)). nia.
Qed.
Print Assumptions C35_write_size_partial.
Example C35_example : exists st f1 st1, s_new (ideal 4) [1;2;3;4;5;6;7;8] 2 (new_cache 4 2) O_RDWR = Ret ([1;2;3;4;5;6;7;8], Some st, None) /\
  s_write_at (ideal 4) [1;2;3;4;5;6;7;8] st [21;22] 3 = Ret (f1, st1, 2, None) /\ ssize st1 = 2.
Proof. do 3 eexists. split; [vm_compute; reflexivity|]. split; vm_compute; reflexivity. Qed.

(** C36: REFUTED.  Two appends into the unused part of the last block: both succeed, the
    second overwrites the first and neither becomes part of the stream.  More generally
    an append that ends inside the allocated blocks leaves the size alone, so the next
    append goes to the same place. *)
Theorem C36_append_overwrites_refuted : exists st f1 st1 f2 st2,
  s_new (ideal 4) [1;0;0;0;0;0;0;0] 1 (new_cache 4 2) (O_RDWR + O_APPEND) = Ret ([1;0;0;0;0;0;0;0], Some st, None) /\
  s_write (ideal 4) [1;0;0;0;0;0;0;0] st [7] = Ret (f1, st1, 1, None) /\
  s_write (ideal 4) f1 st1 [8] = Ret (f2, st2, 1, None) /\
  sblocks (fblk 4) f2 st2 = [1;8;0;0;0;0;0;0] /\ sbytes (fblk 4) f2 st2 = [1].
Proof. do 5 eexists. do 4 (split; [vm_compute; reflexivity|]). vm_compute. reflexivity. Qed.
Print Assumptions C36_append_overwrites_refuted.
Theorem C36_append_size_refuted : forall S (cb : callbacks S) bs nb blk, honest cb bs nb blk ->
  forall s st b s' st' n, sreach cb bs nb s st -> io_append (sflags st) = true ->
  spos st + zlen b + bs < 2^63 -> ssize st + zlen b < bs * total (scache st) -> ssize st + zlen b + bs < 2^63 ->
  s_write cb s st b = Ret (s', st', n, None) ->
  ssize st' = ssize st /\ slice (ssize st) (zlen b) (sblocks blk s' st') = b.
Proof.
  intros S cb bs nb blk H s st b s' st' n Hr Ha Hf1 Hin Hf E. open_reach H Hr Hbs I. pose proof I as (W & Hsz & Hp). pose proof (zlen_nonneg b) as Hb.
  assert (io_write (sflags st) = true) as Hw.
  { destruct (io_write (sflags st)) eqn:X; [reflexivity|]. unfold s_write in E. rewrite X in E. discriminate. }
  rewrite (write_unfold cb bs nb blk H Hbs) in E by auto.
  assert (wpos st = ssize st) as EW by (unfold wpos; now rewrite Ha). rewrite EW in E.
  assert (SInv bs nb blk s (set_pos st (ssize st))) as I1 by (apply set_pos_inv; [exact I|lia]).
  destruct (impl_write_cases cb bs nb blk H Hbs s (set_pos st (ssize st)) b (ssize st) I1 Hw ltac:(lia) Hf)
    as (x1 & x2 & x3 & x4 & E1 & I' & _ & _ & _ & _ & _ & HOK & _).
  rewrite E1 in E. injection E as <- <- <- ->. destruct (HOK eq_refl) as (_ & _ & Hs & Ht & Hfit & HB).
  cbn [set_pos scache ssize] in *. unfold grown_blocks in HB.
  assert (write_grows bs (total (scache st)) (ssize st) (zlen b) = false) as EG.
  { unfold write_grows. assert ((ssize st + zlen b) / bs < total (scache st)) by (apply Z.div_lt_upper_bound; lia). lia. }
  rewrite EG in *. split; [exact Hs|]. unfold sblocks in *. cbn [set_pos scache] in *. rewrite HB.
  apply slice_splice_same; [lia|]. pose proof (sblocks_len cb bs nb blk H Hbs s st I) as HL. unfold sblocks in HL. lia.
Qed.
Print Assumptions C36_append_size_refuted.
(* What does hold: WriteAt is refused, and over every history without Truncate the bytes
   that were part of the stream stay where they are, whatever the storage does. *)
Theorem C36_append_keeps_contents_partial : forall S (cb : callbacks S) bs nb blk, honest cb bs nb blk ->
  forall s st, sreach cb bs nb s st -> io_append (sflags st) = true ->
  (forall b off, s_write_at cb s st b off = Ret (s, st, 0, Some (K ErrNotPermitted))) /\
  forall s' st', sruns cb bs (fun _ o _ => forall n, o <> TTruncate n) s st s' st' ->
  ssize st <= ssize st' /\ slice 0 (ssize st) (sbytes blk s' st') = sbytes blk s st.
Proof.
  intros S cb bs nb blk H s st Hr Ha. open_reach H Hr Hbs I. split; [intros; unfold s_write_at; now rewrite Ha|].
  intros s' st' R. destruct (append_runs cb bs nb blk H Hbs s st s' st' I Ha R) as [L P]. split; [exact L|].
  destruct (runs_inv cb bs nb blk H Hbs _ s st s' st' I R) as [I' _].
  pose proof (sblocks_len cb bs nb blk H Hbs s st I) as L1. pose proof (sblocks_len cb bs nb blk H Hbs s' st' I') as L2.
  destruct I as (_ & Hsz & _). destruct I' as (_ & Hsz' & _).
  unfold sbytes. rewrite slice_slice by lia. cbn [Z.add].
  apply (list_ext 0).
  - rewrite !zlen_slice; lia.
  - rewrite zlen_slice by lia. intros i Hi. rewrite !znth_slice by lia. apply P. lia.
Qed.
Print Assumptions C36_append_keeps_contents_partial.
Example C36_example : exists st f1 st1,
  s_new (ideal 4) [1;2;3;4] 4 (new_cache 4 1) (O_RDWR + O_APPEND) = Ret ([1;2;3;4], Some st, None) /\
  sruns (ideal 4) 4 (fun _ o _ => forall n, o <> TTruncate n) [1;2;3;4] st f1 st1 /\ ssize st1 = 5 /\
  (* the write itself fails (C33), having grown the stream *)
  sexec_op (ideal 4) [1;2;3;4] st (TWrite [7]) = Ret (f1, st1, TCount [] 0 (Some (K ErrArgumentOutOfRange))).
Proof.
  do 3 eexists. split; [vm_compute; reflexivity|]. split.
  - eapply sn_cons with (o := TWrite [7]); [cbn; lia|vm_compute; reflexivity|discriminate|apply sn_nil].
  - split; vm_compute; reflexivity.
Qed.

(** C37: REFUTED.  Shrinking keeps the cut-off bytes of the last block; growing again
    inside that block makes them part of the stream. *)
Theorem C37_truncate_reveals_old_bytes_refuted : exists st f1 st1 f2 st2,
  s_new (ideal 4) [1;2;3;4] 4 (new_cache 4 1) O_RDWR = Ret ([1;2;3;4], Some st, None) /\
  s_truncate (ideal 4) [1;2;3;4] st 1 = Ret (f1, st1, None) /\ sbytes (fblk 4) f1 st1 = [1] /\
  s_truncate (ideal 4) f1 st1 3 = Ret (f2, st2, None) /\ sbytes (fblk 4) f2 st2 = [1;2;3].
Proof. do 5 eexists. do 4 (split; [vm_compute; reflexivity|]). vm_compute. reflexivity. Qed.
Print Assumptions C37_truncate_reveals_old_bytes_refuted.
(* What does hold: size n, the common prefix kept, and every byte past the old allocated
   blocks zero; in between the old slack bytes appear. *)
Theorem C37_truncate_partial : forall S (cb : callbacks S) bs nb blk, honest cb bs nb blk ->
  forall s st n s' st', sreach cb bs nb s st -> n + bs < 2^63 ->
  s_truncate cb s st n = Ret (s', st', None) ->
  0 <= n /\ ssize st' = n /\ spos st' = spos st /\ zlen (sbytes blk s' st') = n /\
  (forall j, 0 <= j < n -> znth 0 (sbytes blk s' st') j =
     if j <? ssize st then znth 0 (sbytes blk s st) j                    (* the old contents *)
     else if j <? bs * total (scache st) then znth 0 (sblocks blk s st) j (* slack of the old blocks *)
     else 0) /\
  (ssize st = bs * total (scache st) -> sbytes blk s' st' = slice 0 n (sbytes blk s st) ++ zrepeat 0 (n - ssize st)).
Proof.
  intros S cb bs nb blk H s st n s' st' Hr Hf E. open_reach H Hr Hbs I. pose proof I as (W & Hsz & Hp).
  assert (io_write (sflags st) = true) as Hw.
  { destruct (io_write (sflags st)) eqn:X; [reflexivity|]. unfold s_truncate in E. rewrite X in E. discriminate. }
  assert (0 <= n) as Hn.
  { destruct (Z_lt_le_dec n 0); [|lia]. unfold s_truncate in E. rewrite Hw in E. cbn [negb] in E. replace (n <? 0) with true in E by lia. discriminate. }
  destruct (trunc_cases cb bs nb blk H Hbs s st n I Hw Hn Hf) as (x1 & x2 & x3 & E1 & I' & [F1 F2] & HC).
  rewrite E in E1. injection E1 as <- <- <-.
  destruct (snd (cb_resize cb s (nblocks bs n))); [destruct HC as [HC _]; discriminate|].
  destruct HC as (Hs & Ht & HB & _).
  pose proof (sblocks_len cb bs nb blk H Hbs s st I) as HL. pose proof (sbytes_len cb bs nb blk H Hbs s' st' I') as HL'. rewrite Hs in HL'.
  assert (n <= nblocks bs n * bs) as Hc by (apply cdiv_ge; lia).
  assert (forall j, 0 <= j < n -> znth 0 (sbytes blk s' st') j =
     if j <? ssize st then znth 0 (sbytes blk s st) j
     else if j <? bs * total (scache st) then znth 0 (sblocks blk s st) j else 0) as HP.
  { intros j Hj. unfold sbytes. rewrite Hs. rewrite znth_slice by lia. cbn [Z.add]. rewrite HB.
    rewrite (resized_znth bs) by lia. rewrite HL. destruct (j <? ssize st) eqn:E1.
    - rewrite znth_slice by lia. replace (j <? bs * total (scache st)) with true by lia. reflexivity.
    - reflexivity. }
  split; [exact Hn|]. split; [exact Hs|]. split; [exact F2|]. split; [exact HL'|]. split; [exact HP|].
  intros Hfull. pose proof (sbytes_len cb bs nb blk H Hbs s st I) as HL0.
  assert (zlen (slice 0 n (sbytes blk s st)) = Z.min n (ssize st)) as Hl1 by (rewrite zlen_slice_min by lia; lia).
  assert (zlen (zrepeat 0 (n - ssize st)) = Z.max 0 (n - ssize st)) as Hl2 by (unfold zlen, zrepeat; rewrite repeat_length; lia).
  apply (list_ext 0); [rewrite zlen_app; lia|]. intros i Hi. rewrite HP by lia. rewrite znth_app by lia. rewrite Hl1.
  destruct (i <? ssize st) eqn:E1.
  - replace (i <? Z.min n (ssize st)) with true by lia. rewrite znth_slice by lia. reflexivity.
  - replace (i <? bs * total (scache st)) with false by lia. replace (i <? Z.min n (ssize st)) with false by lia.
    symmetry. apply znth_repeat. lia.
Qed.
Print Assumptions C37_truncate_partial.
Example C37_example : exists st f1 st1,
  s_new (ideal 4) [1;2;3;4] 4 (new_cache 4 1) O_RDWR = Ret ([1;2;3;4], Some st, None) /\
  s_truncate (ideal 4) [1;2;3;4] st 6 = Ret (f1, st1, None) /\ sbytes (fblk 4) f1 st1 = [1;2;3;4;0;0] /\
  sreach (ideal 4) 4 (inb 4) [1;2;3;4] st.
Proof.
  do 3 eexists. split; [vm_compute; reflexivity|]. split; [vm_compute; reflexivity|]. split; [vm_compute; reflexivity|].
  eapply (sr_new (ideal 4) 4 (inb 4) [1;2;3;4] 1 4 O_RDWR); try lia; [vm_compute; split; discriminate|]. vm_compute. reflexivity.
Qed.

(** C38: a Truncate that is refused changes nothing and reports why. *)
Theorem C38_failed_truncate : forall S (cb : callbacks S) bs nb blk, honest cb bs nb blk ->
  forall s st n, sreach cb bs nb s st -> io_write (sflags st) = true ->
  (n < 0 -> s_truncate cb s st n = Ret (s, st, Some (K ErrInvalidArgument))) /\
  (forall s1 e, 0 <= n -> n + bs < 2^63 -> cb_resize cb s ((n + bs - 1) / bs) = (s1, Some e) ->
     s_truncate cb s st n = Ret (s1, st, Some e) /\ sunchanged nb blk s st s1 st).
Proof.
  intros S cb bs nb blk H s st n Hr Hw. open_reach H Hr Hbs I. split.
  - intros Hn. unfold s_truncate. rewrite Hw. cbn [negb]. replace (n <? 0) with true by lia. reflexivity.
  - intros s1 e Hn Hf ER. pose proof (truncate_spec cb bs nb blk H Hbs s st n I Hw Hn Hf) as T. cbn zeta in T.
    rewrite ER in T. cbn [fst snd] in T. destruct T as (E & _ & U). auto.
Qed.
Print Assumptions C38_failed_truncate.
Example C38_example : let st := mkStream 4 0 (new_cache 2 2) O_RDWR in
  s_truncate (flaky 2 2) ([1;2;3;4], []) st 1 = Ret (([1;2;3;4], []), st, Some (K ErrNotSupported)) /\
  s_new (flaky 2 2) ([1;2;3;4], []) 4 (new_cache 2 2) O_RDWR = Ret (([1;2;3;4], []), Some st, None).
Proof. split; vm_compute; reflexivity. Qed.

(** C39: REFUTED.  Negative offsets are not checked: any ReadAt just below zero, and any
    WriteAt just below zero that does not grow the stream, panics. *)
Theorem C39_negative_offset_panics_refuted : forall S (cb : callbacks S) bs nb blk, honest cb bs nb blk ->
  (forall s i b, snd (cb_fetch cb s i b) = None) ->
  forall s st off, sreach cb bs nb s st -> - bs < off < 0 ->
  (forall buf, io_read (sflags st) = true -> 0 < ssize st -> ssize st + bs < 2^63 -> 0 < zlen buf < 2^62 ->
     s_read_at cb s st buf off = Panic) /\
  (forall b, io_write (sflags st) = true -> io_append (sflags st) = false -> 0 < total (scache st) ->
     off + zlen b < bs * total (scache st) -> s_write_at cb s st b off = Panic).
Proof.
  intros S cb bs nb blk H Hok s st off Hr Ho. open_reach H Hr Hbs I. split; intros.
  - eapply read_at_negative; eauto.
  - eapply write_at_negative; eauto.
Qed.
Print Assumptions C39_negative_offset_panics_refuted.
(* Everything else: no Read, ReadAt, Write, WriteAt, Seek, Truncate or Sync with
   non-negative offsets panics, in any reachable state, whatever the storage does. *)
Theorem C39_no_panic_partial : forall S (cb : callbacks S) bs nb blk, honest cb bs nb blk ->
  forall s st o, sreach cb bs nb s st -> sop_ok bs st o ->
  exists s' st' r, sexec_op cb s st o = Ret (s', st', r) /\ sreach cb bs nb s' st'.
Proof.
  intros S cb bs nb blk H s st o Hr Hok. open_reach H Hr Hbs I.
  destruct (step_ret cb bs nb blk H Hbs s st o I Hok) as (s' & st' & r & E & _). exists s', st', r. split; [exact E|].
  eapply sr_step; eauto.
Qed.
Print Assumptions C39_no_panic_partial.
Example C39_example : exists st, s_new (ideal 2) [1;2;3;4] 3 (new_cache 2 2) O_RDWR = Ret ([1;2;3;4], Some st, None) /\
  s_read_at (ideal 2) [1;2;3;4] st [0;0] (-1) = Panic /\ s_write_at (ideal 2) [1;2;3;4] st [7] (-1) = Panic.
Proof. eexists. split; [vm_compute; reflexivity|]. split; vm_compute; reflexivity. Qed.
(* The exact conditions.  Over storage that does not fail, ReadAt at a negative offset
   panics when the offset is less than a block below zero and there is a block to read, and
   is otherwise refused with nothing changed; WriteAt at a negative offset panics when the
   offset is less than a block below zero and the bytes end (at e) below zero in a
   non-empty cache, or inside the blocks the stream has, or past them but not at a block
   boundary, and otherwise fails with 0 bytes written. *)
Theorem C39_negative_exact : forall S (cb : callbacks S) bs nb blk, honest cb bs nb blk -> reliable cb ->
  forall s st off, sreach cb bs nb s st -> - 2^63 <= off < 0 ->
  (forall buf, io_read (sflags st) = true -> 0 < zlen buf < 2^62 -> ssize st + bs < 2^63 ->
     s_read_at cb s st buf off =
       if (- bs <? off) && (0 <? total (scache st)) then Panic
       else Ret (s, st, buf, 0, Some (K ErrArgumentOutOfRange))) /\
  (forall b, io_write (sflags st) = true -> io_append (sflags st) = false -> zlen b < 2^62 ->
     let e := off + zlen b in let T := total (scache st) in
     (s_write_at cb s st b off = Panic <->
        - bs < off /\ (e < 0 /\ 0 < T \/ 0 <= e < bs * T \/ 0 <= e /\ e mod bs <> 0)) /\
     (s_write_at cb s st b off = Panic \/ exists s' st' x, s_write_at cb s st b off = Ret (s', st', 0, Some x))).
Proof.
  intros S cb bs nb blk H R s st off Hr Ho. open_reach H Hr Hbs I. split.
  - intros buf Hrd Hb Hf. apply (read_negative cb bs nb blk H Hbs); auto. apply R.
  - intros b Hw Ha Hb e T. pose proof (write_negative cb bs nb blk H Hbs s st b off I Hw Ha R Ho Hb) as W. cbn zeta in W.
    fold e T in W.
    destruct ((- bs <? off) && ((e <? 0) && (0 <? T) || (0 <=? e) && ((e <? bs * T) || negb (e mod bs =? 0)))) eqn:EC.
    + split; [|left; exact W]. split; [intros _; clearbody e T; lia|intros _; exact W].
    + destruct W as (s' & st' & x & E & _). split; [|right; eauto]. rewrite E. split; [discriminate|intros C; exfalso; clearbody e T; lia].
Qed.
Print Assumptions C39_negative_exact.
Example C39_negative_example : exists st, s_new (ideal 2) [1;2;3;4] 3 (new_cache 2 2) O_RDWR = Ret ([1;2;3;4], Some st, None) /\
  s_read_at (ideal 2) [1;2;3;4] st [0;0] (-2) = Ret ([1;2;3;4], st, [0;0], 0, Some (K ErrArgumentOutOfRange)) /\
  s_write_at (ideal 2) [1;2;3;4] st [1;2;3;4;5;6] (-1) = Panic /\
  (exists s' st' x, s_write_at (ideal 2) [1;2;3;4] st [1;2;3;4;5;6;7] (-1) = Ret (s', st', 0, Some x)).
Proof.
  eexists. split; [vm_compute; reflexivity|]. split; [vm_compute; reflexivity|]. split; [vm_compute; reflexivity|].
  do 3 eexists. vm_compute. reflexivity.
Qed.
(* Offsets that are not negative, however large: whatever the storage does, ReadAt and Read
   return, and so do WriteAt and Write unless the end of the write is within a block of 2^63. *)
Theorem C39_nonnegative : forall S (cb : callbacks S) bs nb blk, honest cb bs nb blk ->
  forall s st, sreach cb bs nb s st ->
  (forall buf off, 0 <= off < 2^63 -> ssize st + zlen buf < 2^63 ->
     (exists s' st' b n e, s_read_at cb s st buf off = Ret (s', st', b, n, e)) /\
     (exists s' st' b n e, s_read cb s st buf = Ret (s', st', b, n, e))) /\
  (forall b off, 0 <= off < 2^63 -> bs * total (scache st) + zlen b + bs < 2^63 ->
     (off + zlen b + bs < 2^63 \/ 2^63 <= off + zlen b -> exists s' st' n e, s_write_at cb s st b off = Ret (s', st', n, e)) /\
     (spos st + zlen b + bs < 2^63 \/ 2^63 <= spos st + zlen b -> exists s' st' n e, s_write cb s st b = Ret (s', st', n, e))).
Proof.
  intros S cb bs nb blk H s st Hr. open_reach H Hr Hbs I. pose proof I as (W & Hsz & Hp). split.
  - intros buf off Ho Hf. split; [apply (read_nonneg cb bs nb blk H Hbs s st buf off I); lia|].
    destruct (read_nonneg cb bs nb blk H Hbs s st buf (spos st) I ltac:(lia) Hf) as (s' & st' & b & n & [e|] & E);
      unfold s_read; rewrite E; eauto 8.
  - intros b off Ho Hf. split.
    + intros C. unfold s_write_at. destruct (io_append (sflags st)); [eauto|].
      apply (write_nonneg cb bs nb blk H Hbs s st b off I); [lia|lia|exact C].
    + intros C. pose proof (zlen_nonneg b) as Hb0. destruct (io_write (sflags st)) eqn:Hw; [|unfold s_write; rewrite Hw; cbn [negb]; eauto].
      rewrite (write_unfold cb bs nb blk H Hbs) by auto.
      assert (0 <= wpos st < 2^63 /\ (wpos st + zlen b + bs < 2^63 \/ 2^63 <= wpos st + zlen b)) as [Hw0 Hw1].
      { unfold wpos. destruct (io_append (sflags st)); [|lia]. lia. }
      assert (SInv bs nb blk s (set_pos st (wpos st))) as I1 by (apply set_pos_inv; [exact I|lia]).
      destruct (write_nonneg cb bs nb blk H Hbs s (set_pos st (wpos st)) b (wpos st) I1 Hw0 ltac:(cbn [set_pos scache]; lia) Hw1)
        as (s' & st' & n & e & E). rewrite E. eauto.
Qed.
Print Assumptions C39_nonnegative.
Example C39_nonnegative_example : exists st, s_new (ideal 2) [1;2;3;4] 3 (new_cache 2 2) O_RDWR = Ret ([1;2;3;4], Some st, None) /\
  (exists e, s_write_at (ideal 2) [1;2;3;4] st [7] (2^63 - 1) = Ret ([1;2;3;4], st, 0, Some e)) /\
  s_read_at (ideal 2) [1;2;3;4] st [0] (2^63 - 1) = Ret ([1;2;3;4], st, [0], 0, Some KEOF).
Proof. eexists. split; [vm_compute; reflexivity|]. split; [eexists|]; vm_compute; reflexivity. Qed.

(** C40: REFUTED.  A source that delivers its last bytes together with io.EOF: an error
    writing them is dropped, and they are counted. *)
Theorem C40_write_error_swallowed_refuted : forall S R (cb : callbacks S) (rd : R -> Z -> R * list Z * option kerr) bsz fuel s st r r' chunk s' st' k e,
  io_write (sflags st) = true -> rd r bsz = (r', chunk, Some KEOF) -> zlen chunk < 2^63 ->
  s_write cb s st chunk = Ret (s', st', k, Some e) ->
  s_read_from cb rd bsz (Datatypes.S fuel) s st r = Ret (s', st', r', zlen chunk, None).
Proof.
  intros S R cb rd bsz fuel s st r r' chunk s' st' k e Hw ER Hl EW. unfold s_read_from. rewrite Hw. cbn [negb read_from_loop].
  rewrite ER, EW. pose proof (zlen_nonneg chunk). cbn [Z.add]. rewrite i64_id by lia. reflexivity.
Qed.
Print Assumptions C40_write_error_swallowed_refuted.
(* bytes are lost and nil is returned: appending block 2 of the stream fails (C33) *)
Example C40_refuted_example : exists st st1 f1,
  let rd (r : bool) (n : Z) := (true, if r then [] else [7;8], Some KEOF) in
  s_new (ideal 4) [1;2;3;4] 4 (new_cache 4 1) (O_RDWR + O_APPEND) = Ret ([1;2;3;4], Some st, None) /\
  s_read_from (ideal 4) rd 512 5 [1;2;3;4] st false = Ret (f1, st1, true, 2, None) /\ sbytes (fblk 4) f1 st1 = [1;2;3;4;0;0].
Proof. do 3 eexists. split; [vm_compute; reflexivity|]. split; vm_compute; reflexivity. Qed.
(* What does hold: for a source that reports io.EOF only without data, nil means that
   every chunk was written by a successful Write, and the count is their total. *)
Theorem C40_read_from_partial : forall S R (cb : callbacks S) (rd : R -> Z -> R * list Z * option kerr) bsz,
  (forall r r' c, rd r bsz = (r', c, Some KEOF) -> c = []) ->
  forall fuel s st r s' st' r' n, s_read_from cb rd bsz fuel s st r = Ret (s', st', r', n, None) ->
  exists chunks r1 s1 st1 k we, reads rd bsz r chunks r1 /\ writes cb s st chunks s1 st1 /\
    rd r1 bsz = (r', [], Some KEOF) /\ s_write cb s1 st1 [] = Ret (s', st', k, we) /\
    (zlen (concat chunks) < 2^63 -> n = zlen (concat chunks)).
Proof.
  intros S R cb rd bsz HC fuel s st r s' st' r' n E. unfold s_read_from in E. destruct (negb _); [discriminate|].
  destruct (read_from_spec cb rd bsz HC fuel s st r 0 s' st' r' n E) as (chunks & r1 & s1 & st1 & k & we & A & B & C & D & F).
  exists chunks, r1, s1, st1, k, we. do 4 (split; [assumption|]). intros Hl. rewrite F. pose proof (zlen_nonneg (concat chunks)). 
  cbn [Z.add]. apply i64_id. lia.
Qed.
Print Assumptions C40_read_from_partial.
Example C40_example : exists st st1 f1,
  let rd (r : list Z) (n : Z) := match r with [] => ([], [], Some KEOF) | _ => (skipn 2 r, firstn 2 r, None) end in
  s_new (ideal 4) [0;0;0;0;0;0;0;0] 8 (new_cache 4 2) O_RDWR = Ret ([0;0;0;0;0;0;0;0], Some st, None) /\
  s_read_from (ideal 4) rd 512 5 [0;0;0;0;0;0;0;0] st [5;6;7] = Ret (f1, st1, [], 3, None) /\
  sbytes (fblk 4) f1 st1 = [5;6;7;0;0;0;0;0].
Proof. do 3 eexists. split; [vm_compute; reflexivity|]. split; vm_compute; reflexivity. Qed.

(** C41: REFUTED for empty streams: Sync and Close of a stream without blocks always fail. *)
Theorem C41_close_empty_fails_refuted : forall S (cb : callbacks S) bs nb blk, honest cb bs nb blk ->
  forall s st, sreach cb bs nb s st -> total (scache st) = 0 ->
  s_close cb s st = Ret (s, st, Some (K ErrArgumentOutOfRange)).
Proof.
  intros S cb bs nb blk H s st Hr Ht. open_reach H Hr Hbs I.
  pose proof (sync_spec cb bs nb blk H Hbs s st I) as F. rewrite Ht in F. exact F.
Qed.
Print Assumptions C41_close_empty_fails_refuted.
Theorem C41_close_partial : forall S (cb : callbacks S) bs nb blk, honest cb bs nb blk ->
  forall s st, sreach cb bs nb s st -> 0 < total (scache st) -> (forall s i b, snd (cb_flush cb s i b) = None) ->
  exists s' st', s_close cb s st = Ret (s', st', None) /\ sbytes blk s' st' = sbytes blk s st.
Proof.
  intros S cb bs nb blk H s st Hr Ht R. open_reach H Hr Hbs I.
  destruct (sync_reliable cb bs nb blk H Hbs s st I Ht R) as (s' & st' & E). exists s', st'. split; [exact E|].
  destruct (sync_ret cb bs nb blk H Hbs s st I) as (x1 & x2 & x3 & E1 & _ & _ & A & _ & B & _). rewrite E in E1. injection E1 as <- <- <-.
  unfold sbytes. now rewrite A, B.
Qed.
Print Assumptions C41_close_partial.
Example C41_example : exists st f1 st1 st2, s_new (ideal 2) [1;2;3;4] 3 (new_cache 2 2) (O_RDWR + O_TRUNC) = Ret (f1, Some st, None) /\
  s_close (ideal 2) f1 st = Ret (f1, st, Some (K ErrArgumentOutOfRange)) /\
  s_new (ideal 2) [1;2;3;4] 3 (new_cache 2 2) O_RDWR = Ret ([1;2;3;4], Some st1, None) /\
  s_close (ideal 2) [1;2;3;4] st1 = Ret ([1;2;3;4], st2, None).
Proof. do 4 eexists. do 3 (split; [vm_compute; reflexivity|]). vm_compute; reflexivity. Qed.

(** C42: New accepts exactly the sizes from 0 to the size of the cache. *)
Theorem C42_new_validates : forall S (cb : callbacks S) bs nb blk, honest cb bs nb blk -> 0 < bs < 2^62 ->
  forall s total0 sz flags, 0 <= total0 <= nb s -> bs * total0 < 2^63 ->
  (~ (0 <= sz <= bs * total0) -> s_new cb s sz (new_cache bs total0) flags = Ret (s, None, Some KBadSize)) /\
  (0 <= sz <= bs * total0 -> io_truncate flags = false ->
     exists st, s_new cb s sz (new_cache bs total0) flags = Ret (s, Some st, None) /\
       ssize st = sz /\ spos st = 0 /\ sflags st = flags /\ sblocks blk s st = storage_bytes blk s total0) /\
  (0 <= sz <= bs * total0 -> io_truncate flags = true ->
     exists s' st e, s_new cb s sz (new_cache bs total0) flags = Ret (s', Some st, e) /\ spos st = 0 /\ sflags st = flags /\
       (e = None -> io_write flags = true /\ ssize st = 0 /\ sblocks blk s' st = [])).
Proof.
  intros S cb bs nb blk H Hbs s total0 sz flags Ht Hf.
  assert (size (new_cache bs total0) = bs * total0) as ESZ by (unfold size; cbn [new_cache bpb total]; apply i64_id; nia).
  unfold s_new. rewrite ESZ. split; [|split].
  - intros Hn. replace ((sz <? 0) || (sz >? bs * total0)) with true by lia. reflexivity.
  - intros Hn Htr. replace ((sz <? 0) || (sz >? bs * total0)) with false by lia. rewrite Htr. eexists. split; [reflexivity|].
    repeat (split; [reflexivity|]). unfold sblocks. cbn [scache]. symmetry. eapply rep_unique; [exact H|lia| |].
    + apply new_inv; auto. lia.
    + eapply new_rep; eauto. lia.
  - intros Hn Htr. replace ((sz <? 0) || (sz >? bs * total0)) with false by lia. rewrite Htr.
    assert (SInv bs nb blk s (mkStream sz 0 (new_cache bs total0) flags)) as I.
    { split; [apply (new_winv bs nb blk); lia|]. cbn [ssize spos scache new_cache total]. lia. }
    destruct (truncate_ret cb bs nb blk H Hbs s _ 0 I ltac:(lia)) as (s' & st' & e & E & I' & [F1 F2]). rewrite E.
    exists s', st', e. split; [reflexivity|]. split; [exact F2|]. split; [exact F1|]. intros ->.
    destruct (io_write flags) eqn:Hw.
    2:{ rewrite (proj2 (proj2 (ro_refuse cb s (mkStream sz 0 (new_cache bs total0) flags) Hw [] 0 0))) in E. discriminate. }
    split; [reflexivity|].
    destruct (trunc_cases cb bs nb blk H Hbs s _ 0 I Hw ltac:(lia) ltac:(lia)) as (x1 & x2 & x3 & E1 & _ & _ & HC).
    rewrite E in E1. injection E1 as <- <- <-.
    destruct (snd (cb_resize cb s (nblocks bs 0))); [destruct HC as [HC _]; discriminate|].
    destruct HC as (Hs & HT & _). split; [exact Hs|]. apply zlen_zero_nil.
    rewrite (sblocks_len cb bs nb blk H Hbs s' st' I'), HT. unfold nblocks. rewrite Z.div_small by lia. lia.
Qed.
Print Assumptions C42_new_validates.
Example C42_example : (exists st, s_new (ideal 2) [1;2;3;4] 4 (new_cache 2 2) O_RDWR = Ret ([1;2;3;4], Some st, None) /\ ssize st = 4) /\
  s_new (ideal 2) [1;2;3;4] 5 (new_cache 2 2) O_RDWR = Ret ([1;2;3;4], None, Some KBadSize).
Proof. split; [eexists; split; vm_compute; reflexivity|vm_compute; reflexivity]. Qed.

(** ** The parts that hold of claims refuted above, as claims of their own (the examples above are theirs too) *)
Theorem C130_read_advances : forall S (cb : callbacks S) bs nb blk, honest cb bs nb blk ->
  forall s st buf, sreach cb bs nb s st -> spos st + zlen buf < 2^63 ->
  exists s' st' b n e, s_read cb s st buf = Ret (s', st', b, n, e) /\ sunchanged nb blk s st s' st' /\
    match e with
    | None => spos st' = spos st + n /\ n = zlen buf /\ (0 < n -> b = slice (spos st) n (sbytes blk s st))
    | Some _ => spos st' = spos st
    end.
Proof. apply C29_read_advances_partial. Qed.
Theorem C131_read_back : forall S (cb : callbacks S) bs nb blk, honest cb bs nb blk ->
  forall s st b off s' st' n, sreach cb bs nb s st -> 0 <= off -> off + zlen b + bs < 2^63 ->
  s_write_at cb s st b off = Ret (s', st', n, None) ->
  n = zlen b /\ spos st' = spos st /\
  slice off (zlen b) (sblocks blk s' st') = b /\
  (forall j, 0 <= j < zlen (sblocks blk s st) -> ~ (off <= j < off + zlen b) ->
     znth 0 (sblocks blk s' st') j = znth 0 (sblocks blk s st) j) /\
  (io_read (sflags st) = true -> (forall s i b, snd (cb_fetch cb s i b) = None) -> off + zlen b <= ssize st' ->
     exists s'' st'', s_read_at cb s' st' (zrepeat 0 (zlen b)) off = Ret (s'', st'', b, zlen b, None)).
Proof. apply C33_read_back_partial. Qed.
Theorem C132_append_keeps_contents : forall S (cb : callbacks S) bs nb blk, honest cb bs nb blk ->
  forall s st, sreach cb bs nb s st -> io_append (sflags st) = true ->
  (forall b off, s_write_at cb s st b off = Ret (s, st, 0, Some (K ErrNotPermitted))) /\
  forall s' st', sruns cb bs (fun _ o _ => forall n, o <> TTruncate n) s st s' st' ->
  ssize st <= ssize st' /\ slice 0 (ssize st) (sbytes blk s' st') = sbytes blk s st.
Proof. apply C36_append_keeps_contents_partial. Qed.
Theorem C133_truncate : forall S (cb : callbacks S) bs nb blk, honest cb bs nb blk ->
  forall s st n s' st', sreach cb bs nb s st -> n + bs < 2^63 ->
  s_truncate cb s st n = Ret (s', st', None) ->
  0 <= n /\ ssize st' = n /\ spos st' = spos st /\ zlen (sbytes blk s' st') = n /\
  (forall j, 0 <= j < n -> znth 0 (sbytes blk s' st') j =
     if j <? ssize st then znth 0 (sbytes blk s st) j                    (* the old contents *)
     else if j <? bs * total (scache st) then znth 0 (sblocks blk s st) j (* slack of the old blocks *)
     else 0) /\
  (ssize st = bs * total (scache st) -> sbytes blk s' st' = slice 0 n (sbytes blk s st) ++ zrepeat 0 (n - ssize st)).
Proof. apply C37_truncate_partial. Qed.
Theorem C134_no_panic : forall S (cb : callbacks S) bs nb blk, honest cb bs nb blk ->
  forall s st o, sreach cb bs nb s st -> sop_ok bs st o ->
  exists s' st' r, sexec_op cb s st o = Ret (s', st', r) /\ sreach cb bs nb s' st'.
Proof. apply C39_no_panic_partial. Qed.
Theorem C135_write_to_delivers : forall S W (cb : callbacks S) bs nb blk, honest cb bs nb blk ->
  forall (wr : W -> list Z -> W * Z * option kerr) s st w fuel, sreach cb bs nb s st -> io_read (sflags st) = true ->
  ssize st + bs < 2^63 -> let rem := Z.max 0 (ssize st - spos st) in (Z.to_nat (rem / bs) < fuel)%nat ->
  exists s' st' chunks e, s_write_to cb wr fuel s st w = Ret (s', st', deliver wr w chunks, zlen (concat chunks), e) /\
    sunchanged nb blk s st s' st' /\
    concat chunks = slice (spos st) (zlen (concat chunks)) (sbytes blk s st) /\ zlen (concat chunks) <= rem /\
    (e = None -> zlen (concat chunks) = rem) /\
    ((forall s i b, snd (cb_fetch cb s i b) = None) -> e = None /\ zlen (concat chunks) = rem).
Proof. apply C30_write_to_delivers_partial. Qed.
Theorem C136_close : forall S (cb : callbacks S) bs nb blk, honest cb bs nb blk ->
  forall s st, sreach cb bs nb s st -> 0 < total (scache st) -> (forall s i b, snd (cb_flush cb s i b) = None) ->
  exists s' st', s_close cb s st = Ret (s', st', None) /\ sbytes blk s' st' = sbytes blk s st.
Proof. apply C41_close_partial. Qed.
Print Assumptions C130_read_advances.
Print Assumptions C131_read_back.
Print Assumptions C132_append_keeps_contents.
Print Assumptions C133_truncate.
Print Assumptions C134_no_panic.
Print Assumptions C135_write_to_delivers.
Print Assumptions C136_close.
