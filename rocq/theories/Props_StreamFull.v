(** * Props_StreamFull: C177, io.ReadFull on a stream *)
From Verif Require Import GoBase ListZ Errors Flags BlockCache Spec_BlockCache BlockCacheProofs BlockCacheProofs2 BlockCacheProofs3 BlockCacheProofs4
  BasicStream Spec_BasicStream BasicStreamProofs BasicStreamProofs3 Props_BasicStream Rle Bufio Spec_Bufio BufioProofs StreamInput StreamInputProofs
  StreamFull StreamFullProofs FatBoot FatBootRead Spec_FatBootRead FatBootReadProofs.

(** ** C177 *)
(* enough bytes left: exactly the next n, and the position moves behind them *)
Theorem C177_full : forall S (cb : callbacks S) bs nb blk, honest cb bs nb blk -> (forall s i b, snd (cb_fetch cb s i b) = None) ->
  forall s st n fuel, sreach cb bs nb s st -> io_read (sflags st) = true -> bytes (sbytes blk s st) -> 0 <= n -> ssize st + n < 2^63 -> n = 0 \/ spos st + n <= ssize st ->
  exists s' st', ReadFull cb (2 + fuel) s st n = Ret (s', st', slice (spos st) n (sbytes blk s st), None) /\ spos st' = spos st + n /\ sunchanged nb blk s st s' st'.
Proof.
  intros S cb bs nb blk H Hok s st n fuel Hr Hrd HB Hn Hf Hle. open_reach H Hr Hbs I. pose proof I as (_ & Hsz & Hp).
  destruct (full_spec cb bs nb blk H Hbs fuel s st n I Hrd HB Hn Hf) as (s' & st' & c & e & E & I' & U & HC). pose proof (rest_len cb bs nb blk H Hbs s st I) as HL.
  destruct HC as [(-> & Hc & HP & ER)|[(Hs & _)|(x1 & i & b & x & X & _)]]; [|lia|rewrite Hok in X; discriminate].
  exists s', st'. split; [|auto]. change (2 + fuel)%nat with (Datatypes.S (Datatypes.S fuel)). rewrite E. do 3 f_equal.
  destruct Hle as [->|Hle]; [destruct c; [symmetry; apply slice_nil; lia|rewrite zlen_cons in Hc; pose proof (zlen_nonneg c); lia]|].
  assert (slice (spos st) n (sbytes blk s st) = slice 0 n (rest_of blk s st)) as ->.
  { unfold rest_of. rewrite slice_slice by lia. f_equal; lia. }
  rewrite ER, slice_app_l by lia. rewrite <- Hc. symmetry. apply slice_all.
Qed.
(* fewer: the bytes that are left, with io.EOF if there are none and io.ErrUnexpectedEOF otherwise; the position does not
   move, so the same call gives the same again *)
Theorem C177_short : forall S (cb : callbacks S) bs nb blk, honest cb bs nb blk -> (forall s i b, snd (cb_fetch cb s i b) = None) ->
  forall s st n fuel, sreach cb bs nb s st -> io_read (sflags st) = true -> bytes (sbytes blk s st) -> 0 < n -> ssize st + n < 2^63 -> ssize st < spos st + n ->
  let rest := slice (spos st) (Z.max 0 (ssize st - spos st)) (sbytes blk s st) in let e := if spos st <? ssize st then KUnexpectedEOF else KEOF in
  exists s' st', ReadFull cb (2 + fuel) s st n = Ret (s', st', rest, Some e) /\ sunchanged nb blk s st s' st' /\
    exists s'' st'', ReadFull cb (2 + fuel) s' st' n = Ret (s'', st'', rest, Some e).
Proof.
  intros S cb bs nb blk H Hok s st n fuel Hr Hrd HB Hn Hf Hle rest e. open_reach H Hr Hbs I. pose proof I as (_ & Hsz & Hp).
  assert (forall s st, SInv bs nb blk s st -> io_read (sflags st) = true -> bytes (sbytes blk s st) -> ssize st + n < 2^63 -> rest_of blk s st = rest ->
    exists s' st', ReadFull cb (2 + fuel) s st n = Ret (s', st', rest, Some e) /\ SInv bs nb blk s' st' /\ sunchanged nb blk s st s' st' /\ rest_of blk s' st' = rest) as HX.
  { clear -H Hok Hn Hle Hbs I Hsz Hp. pose proof (rest_len cb bs nb blk H Hbs s st I) as HL. change (rest_of blk s st) with rest in HL. intros s2 st2 I2 Hr2 HB2 Hf2 ER.
    destruct (full_spec cb bs nb blk H Hbs fuel s2 st2 n I2 Hr2 HB2 ltac:(lia) Hf2) as (s' & st' & c & x & E & I' & U & HC). rewrite ER in HC.
    destruct HC as [(-> & Hc & HP & ER2)|[(Hs & -> & -> & ER2)|(x1 & i & b & y & X & _)]].
    - exfalso. apply (f_equal zlen) in ER2. rewrite zlen_app in ER2. pose proof (zlen_nonneg (rest_of blk s' st')). lia.
    - exists s', st'. split; [|auto]. change (2 + fuel)%nat with (Datatypes.S (Datatypes.S fuel)). rewrite E. do 2 f_equal. unfold e. f_equal.
      destruct rest as [|z l]; [change (zlen []) with 0 in HL; now replace (spos st <? ssize st) with false by lia|]. rewrite zlen_cons in HL. pose proof (zlen_nonneg l). now replace (spos st <? ssize st) with true by lia.
    - rewrite Hok in X. discriminate. }
  destruct (HX s st I Hrd HB Hf eq_refl) as (s' & st' & E & I' & U & ER). exists s', st'. split; [exact E|]. split; [exact U|]. pose proof U as (U1 & U2 & _).
  destruct (HX s' st' I') as (s'' & st'' & E' & _); [congruence|rewrite (unch_sbytes nb blk s st s' st' U); exact HB|lia|exact ER|]. eauto.
Qed.
(* records: as long as they lie inside, ReadFull after ReadFull gives the consecutive pieces of the stream *)
Theorem C177_records : forall S (cb : callbacks S) bs nb blk, honest cb bs nb blk -> (forall s i b, snd (cb_fetch cb s i b) = None) ->
  forall s st ns fuel, sreach cb bs nb s st -> io_read (sflags st) = true -> bytes (sbytes blk s st) -> ssize st + ssize st < 2^63 ->
  Forall (fun n => 0 <= n) ns -> let total := fold_right Z.add 0 ns in spos st + total <= ssize st ->
  exists s' st' l, read_records cb (2 + fuel) s st ns = Ret (s', st', l, None) /\ map zlen l = ns /\ concat l = slice (spos st) total (sbytes blk s st) /\
    spos st' = spos st + total /\ sunchanged nb blk s st s' st'.
Proof.
  intros S cb bs nb blk H Hok s st ns fuel Hr Hrd HB Hf HN total Hle. open_reach H Hr Hbs I. clear Hr. unfold total in *. clear total.
  revert s st Hrd HB Hf Hle I. induction HN as [|n ns Hn HN IH]; intros s st Hrd HB Hf Hle I; cbn [fold_right] in *.
  - exists s, st, []. split; [reflexivity|]. split; [reflexivity|]. split; [reflexivity|]. split; [lia|repeat split].
  - assert (0 <= fold_right Z.add 0 ns) as Hs by (clear - HN; induction HN; cbn [fold_right]; lia). pose proof I as (_ & Hsz & Hp).
    destruct (full_spec cb bs nb blk H Hbs fuel s st n I Hrd HB Hn ltac:(lia)) as (s1 & st1 & c & e & E & I1 & U & HC). pose proof (rest_len cb bs nb blk H Hbs s st I) as HL.
    destruct HC as [(-> & Hc & HP & ER)|[(Hsh & _)|(x1 & i & b & x & X & _)]]; [|exfalso; lia|rewrite Hok in X; discriminate].
    pose proof U as (U1 & U2 & _). destruct (IH s1 st1) as (s2 & st2 & l & E2 & HM & HCn & HP2 & U'); rewrite ?U1, ?U2, ?(unch_sbytes nb blk s st s1 st1 U); auto; try lia.
    exists s2, st2, (c :: l). cbn [read_records]. change (2 + fuel)%nat with (Datatypes.S (Datatypes.S fuel)) in *. rewrite E, E2. split; [reflexivity|]. cbn [map concat]. split; [now rewrite Hc, HM|].
    split; [|split; [lia|eapply unch_trans; eauto]]. rewrite HCn, (unch_sbytes nb blk s st s1 st1 U), HP. rewrite slice_split by lia. f_equal.
    assert (slice (spos st) n (sbytes blk s st) = slice 0 n (rest_of blk s st)) as -> by (unfold rest_of; rewrite slice_slice by lia; f_equal; lia).
    rewrite ER, slice_app_l by lia. rewrite <- Hc. symmetry. apply slice_all.
Qed.
(* and the first record that reaches beyond the end ends the sequence: the records before it, and io.EOF if it would begin at
   the end, io.ErrUnexpectedEOF if it begins before *)
Theorem C177_records_end : forall S (cb : callbacks S) bs nb blk, honest cb bs nb blk -> (forall s i b, snd (cb_fetch cb s i b) = None) ->
  forall s st ns fuel, sreach cb bs nb s st -> io_read (sflags st) = true -> bytes (sbytes blk s st) ->
  Forall (fun n => 0 <= n /\ ssize st + n < 2^63) ns -> spos st <= ssize st -> ssize st < spos st + fold_right Z.add 0 ns ->
  exists s' st' l m more, ns = map zlen l ++ m :: more /\ concat l = slice (spos st) (zlen (concat l)) (sbytes blk s st) /\
    let p := spos st + zlen (concat l) in p <= ssize st < p + m /\ sunchanged nb blk s st s' st' /\
    read_records cb (2 + fuel) s st ns = Ret (s', st', l, Some (if p <? ssize st then KUnexpectedEOF else KEOF)).
Proof.
  intros S cb bs nb blk H Hok s st ns fuel Hr Hrd HB HN Hp0 Hle. open_reach H Hr Hbs I. clear Hr.
  revert s st Hrd HB HN Hp0 Hle I. induction ns as [|n ns IH]; intros s st Hrd HB HN Hp0 Hle I; cbn [fold_right] in *; [lia|].
  inversion HN as [|? ? [Hn Hf] HN']; subst. pose proof I as (_ & Hsz & Hp).
  destruct (full_spec cb bs nb blk H Hbs fuel s st n I Hrd HB Hn Hf) as (s1 & st1 & c & e & E & I1 & U & HC). pose proof (rest_len cb bs nb blk H Hbs s st I) as HL. pose proof U as (U1 & U2 & _).
  cbn [read_records]. change (2 + fuel)%nat with (Datatypes.S (Datatypes.S fuel)) in *. rewrite E.
  destruct HC as [(-> & Hc & HP & ER)|[(Hsh & -> & -> & ER)|(x1 & i & b & x & X & _)]]; [| |rewrite Hok in X; discriminate].
  - pose proof (f_equal zlen ER) as EL. rewrite zlen_app in EL. pose proof (zlen_nonneg (rest_of blk s1 st1)) as H0.
    destruct (IH s1 st1) as (s2 & st2 & l & m & more & EN & HCn & HPm & U' & E2); rewrite ?U1, ?U2, ?(unch_sbytes nb blk s st s1 st1 U); auto; try lia.
    rewrite U1, (unch_sbytes nb blk s st s1 st1 U) in *. exists s2, st2, (c :: l), m, more. cbn [map concat app]. rewrite zlen_app, Hc. split; [f_equal; exact EN|]. pose proof (zlen_nonneg (concat l)).
    rewrite HP in *. rewrite E2. rewrite Z.add_assoc. split; [|split; [exact HPm|split; [eapply unch_trans; eauto|reflexivity]]].
    rewrite slice_split by lia. rewrite <- HCn. f_equal.
    assert (slice (spos st) n (sbytes blk s st) = slice 0 n (rest_of blk s st)) as -> by (unfold rest_of; rewrite slice_slice by lia; f_equal; lia).
    rewrite ER, slice_app_l by lia. rewrite <- Hc. symmetry. apply slice_all.
  - exists s1, st1, [], n, ns. cbn [map concat app]. change (zlen (@nil Z)) with 0. rewrite Z.add_0_r. split; [reflexivity|]. split; [symmetry; apply slice_nil; lia|]. split; [lia|]. split; [exact U|].
    do 2 f_equal. f_equal. destruct (rest_of blk s st) as [|z l]; [change (zlen []) with 0 in HL; now replace (spos st <? ssize st) with false by lia|].
    rewrite zlen_cons in HL. pose proof (zlen_nonneg l). now replace (spos st <? ssize st) with true by lia.
Qed.
(* storage that fails: the error of the fetch, or everything was read *)
Theorem C177_reported : forall S (cb : callbacks S) bs nb blk, honest cb bs nb blk ->
  forall s st n fuel, sreach cb bs nb s st -> io_read (sflags st) = true -> bytes (sbytes blk s st) -> 0 < n -> ssize st + n < 2^63 ->
  exists s' st' c e, ReadFull cb (2 + fuel) s st n = Ret (s', st', c, e) /\ sunchanged nb blk s st s' st' /\
    (e = None /\ c = slice (spos st) n (sbytes blk s st) /\ spos st + n <= ssize st \/
     e = Some KUnexpectedEOF /\ spos st < ssize st < spos st + n \/ e = Some KEOF /\ ssize st <= spos st \/
     exists s i b x, snd (cb_fetch cb s i b) = Some x /\ e = Some (KMsg x)).
Proof.
  intros S cb bs nb blk H s st n fuel Hr Hrd HB Hn Hf. open_reach H Hr Hbs I. pose proof I as (_ & Hsz & Hp).
  destruct (full_spec cb bs nb blk H Hbs fuel s st n I Hrd HB ltac:(lia) Hf) as (s' & st' & c & e & E & I' & U & HC). pose proof (rest_len cb bs nb blk H Hbs s st I) as HL.
  exists s', st', c, e. split; [exact E|]. split; [exact U|]. destruct HC as [(-> & Hc & HP & ER)|[(Hs & -> & -> & _)|(x1 & i & b & x & X & -> & _)]].
  - left. split; [reflexivity|]. assert (n <= zlen (rest_of blk s st)) as HN by (rewrite ER, zlen_app; pose proof (zlen_nonneg (rest_of blk s' st')); lia). split; [|lia].
    assert (slice (spos st) n (sbytes blk s st) = slice 0 n (rest_of blk s st)) as -> by (unfold rest_of; rewrite slice_slice by lia; f_equal; lia).
    rewrite ER, slice_app_l by lia. rewrite <- Hc. symmetry. apply slice_all.
  - right. destruct (rest_of blk s st) as [|z l]; [right; left; change (zlen []) with 0 in HL; split; [reflexivity|lia]|left]. rewrite zlen_cons in *. pose proof (zlen_nonneg l). split; [reflexivity|lia].
  - do 3 right. eauto 6.
Qed.
(* the boot sector of a FAT volume, read from a stream: what NewFATBootSectorFromStream returns is determined by the bytes
   left in the stream, as for any other reader (C169); it takes 40 of them *)
Theorem C177_boot : forall S (cb : callbacks S) bs nb blk, honest cb bs nb blk -> (forall s i b, snd (cb_fetch cb s i b) = None) ->
  forall code s st settable fuel, sreach cb bs nb s st -> io_read (sflags st) = true -> bytes (sbytes blk s st) -> ssize st + 36 < 2^63 ->
  let rest := slice (spos st) (Z.max 0 (ssize st - spos st)) (sbytes blk s st) in let boot := NewFATBootSectorFromStream (stream_reader cb code) settable (2 + fuel) (s, st) in
  if zlen rest <? 36 then exists t', boot = Ret (t', inr (KWrap ErrIOFailed (too_short rest REOF)))
  else if negb settable then boot = Panic
  else if zlen rest <? 40 then exists t', boot = Ret (t', inr (KWrap ErrIOFailed (too_short (skipn 36 rest) REOF)))
  else match new_boot true (firstn 40 rest) with
       | Ret r => exists s' st', boot = Ret ((s', st'), r) /\ sunchanged nb blk s st s' st' /\ slice (spos st') (Z.max 0 (ssize st' - spos st')) (sbytes blk s' st') = skipn 40 rest
       | _ => boot = Panic
       end.
Proof.
  intros S cb bs nb blk H Hok code s st settable fuel Hr Hrd HB Hf rest boot. open_reach H Hr Hbs I. unfold boot, NewFATBootSectorFromStream. clear boot.
  destruct (boot_full cb bs nb blk H Hbs code fuel s st 36 Hok I Hrd HB ltac:(lia) Hf) as (s1 & st1 & I1 & U & E). change (rest_of blk s st) with rest in E.
  change (2 + fuel)%nat with (Datatypes.S (Datatypes.S fuel)). destruct (zlen rest <? 36) eqn:E36.
  - replace (36 <=? zlen rest) with false in E by lia. rewrite E. cbn [obind]. eauto.
  - replace (36 <=? zlen rest) with true in E by lia. destruct E as [E ER]. rewrite E. cbn [obind]. destruct settable; cbn [negb]; [|reflexivity].
    assert (slice 36 (zlen rest - 36) rest = skipn 36 rest) as ES by (unfold slice; apply firstn_all2; rewrite skipn_length; unfold zlen; lia). rewrite ES in ER.
    pose proof U as (U1 & U2 & _). destruct (boot_full cb bs nb blk H Hbs code fuel s1 st1 4 Hok I1) as (s2 & st2 & I2 & U' & E2);
      [congruence|rewrite (unch_sbytes nb blk s st s1 st1 U); exact HB|lia|lia|]. rewrite ER in E2.
    assert (zlen (skipn 36 rest) = zlen rest - 36) as HL36 by (unfold zlen in *; rewrite skipn_length; lia). rewrite HL36 in E2.
    destruct (zlen rest <? 40) eqn:E40.
    + replace (4 <=? zlen rest - 36) with false in E2 by lia. rewrite E2. cbn [obind]. eauto.
    + replace (4 <=? zlen rest - 36) with true in E2 by lia. destruct E2 as [E2 ER2]. rewrite E2. cbn [obind].
      assert (L : zlen (firstn 40 rest) = 40) by (unfold zlen in *; rewrite firstn_length; lia).
      unfold new_boot. rewrite L. cbn [Z.ltb Z.compare Pos.compare Pos.compare_cont negb].
      assert (X1 : decode_boot (firstn 40 rest) = decode_boot (slice 0 36 rest)).
      { clear - E40. generalize dependent rest. intros D Hs. do 40 (destruct D as [|? D]; [unfold zlen in Hs; cbn in Hs; lia|]). reflexivity. }
      assert (X2 : le32 (firstn 40 rest) 36 = le32 (slice 0 4 (skipn 36 rest)) 0).
      { clear - E40. generalize dependent rest. intros D Hs. do 40 (destruct D as [|? D]; [unfold zlen in Hs; cbn in Hs; lia|]). reflexivity. }
      rewrite X1, X2. assert (PB : process_boot (decode_boot (slice 0 36 rest)) (le32 (slice 0 4 (skipn 36 rest)) 0) <> OutOfFuel).
      { generalize (decode_boot (slice 0 36 rest)), (le32 (slice 0 4 (skipn 36 rest)) 0). intros h x. unfold process_boot. cbv zeta. repeat match goal with |- (if ?b then _ else _) <> _ => destruct b; try discriminate end. }
      destruct (process_boot _ _) as [r| |]; [|reflexivity|congruence]. cbn [obind]. exists s2, st2. split; [reflexivity|]. split; [eapply unch_trans; eauto|].
      change (rest_of blk s2 st2 = skipn 40 rest). rewrite ER2. unfold slice. rewrite skipn_skipn. change (Z.to_nat 4 + 36)%nat with 40%nat. apply firstn_all2. rewrite skipn_length. unfold zlen in *. lia.
Qed.
(* three bytes and one byte of a stream of five; then three of which there is only one, twice; the hypotheses are met *)
Example C177_example : let f := [1;2;3;4;5;6] in let st := mkStream 5 0 (new_cache 2 3) O_RDONLY in
  sreach (ideal 2) 2 (inb 2) f st /\ sbytes (fblk 2) f st = [1;2;3;4;5] /\
  (exists s' st', read_records (ideal 2) 2 f st [3;0;1] = Ret (s', st', [[1;2;3];[];[4]], None) /\ spos st' = 4 /\
     exists s'' st'', ReadFull (ideal 2) 2 s' st' 3 = Ret (s'', st'', [5], Some KUnexpectedEOF) /\
     exists s3 st3, ReadFull (ideal 2) 2 s'' st'' 3 = Ret (s3, st3, [5], Some KUnexpectedEOF)) /\
  (exists s' st', read_records (ideal 2) 2 f st [3;0;3;1] = Ret (s', st', [[1;2;3];[]], Some KUnexpectedEOF)) /\
  (exists s' st', read_records (ideal 2) 2 f st [3;2;3;1] = Ret (s', st', [[1;2;3];[4;5]], Some KEOF)) /\
  (exists s' st', ReadFull (ideal 2) 2 f (set_pos st 5) 3 = Ret (s', st', [], Some KEOF)) /\
  (exists t, NewFATBootSectorFromStream (stream_reader (ideal 2) (fun _ => 1)) false 2 (f, st) = Ret (t, inr (KWrap ErrIOFailed KUnexpectedEOF))).
Proof.
  cbv zeta. split; [eapply (sr_new (ideal 2) 2 (inb 2) [1;2;3;4;5;6] 3 5 O_RDONLY); try lia; [vm_compute; split; discriminate|vm_compute; reflexivity]|].
  split; [vm_compute; reflexivity|]. split.
  - do 2 eexists. split; [vm_compute; reflexivity|]. split; [reflexivity|]. do 2 eexists. split; [vm_compute; reflexivity|]. do 2 eexists. vm_compute. reflexivity.
  - do 3 (split; [do 2 eexists; vm_compute; reflexivity|]). eexists. vm_compute. reflexivity.
Qed.
(* storage in which the second block cannot be read: the bytes of the first are not lost to a caller who asks for them only *)
Example C177_reported_example : let f := [1;2;3;4] in let st := mkStream 4 0 (new_cache 2 2) O_RDONLY in
  let bad := mkCb (list Z) (fun f i buf => if i =? 1 then (f, buf, Some KEOF) else cb_fetch (ideal 2) f i buf) (cb_flush (ideal 2)) (cb_resize (ideal 2)) in
  (exists s' st', ReadFull bad 2 f st 2 = Ret (s', st', [1;2], None)) /\ (exists s' st', ReadFull bad 2 f st 3 = Ret (s', st', [], Some (KMsg KEOF))).
Proof. cbv zeta. split; do 2 eexists; vm_compute; reflexivity. Qed.

Print Assumptions C177_full.
Print Assumptions C177_short.
Print Assumptions C177_records.
Print Assumptions C177_records_end.
Print Assumptions C177_reported.
Print Assumptions C177_boot.
