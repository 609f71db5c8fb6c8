(** * SectionReaderProofs: lemmas behind C178 *)
From Verif Require Import GoBase ListZ Errors Flags BlockCache Spec_BlockCache BlockCacheProofs BlockCacheProofs2 BlockCacheProofs3 BlockCacheProofs4
  BasicStream Spec_BasicStream BasicStreamProofs BasicStreamProofs3 Props_BasicStream Rle Spec_Rle Bufio Spec_Bufio BufioProofs StreamInput StreamInputProofs SectionReader.

Lemma no_failed_fetch {S} (cb : callbacks S) : (forall s i b, snd (cb_fetch cb s i b) = None) ->
  forall evs s s', accesses cb s evs s' -> forall i, ~ In (EvFetch i false) evs.
Proof.
  intros Hok evs y y' Ha. induction Ha as [|x i buf x1 buf' e evs x2 E _ IH|x i buf x1 e evs x2 E _ IH|x n x1 e evs x2 E _ IH];
    intros i0 Hin; cbn in Hin; [tauto|..]; destruct Hin as [X|Hin]; try discriminate; try (eapply IH; eassumption).
  inversion X; subst. specialize (Hok x i0 buf). rewrite E in Hok. cbn in Hok. subst. discriminate.
Qed.
Lemma section_reader_go {S} (cb : callbacks S) code : go_reader (section_reader cb code).
Proof.
  intros t n t' c e Hn. unfold section_reader, section_read. destruct t as [[[s st] off] limit]. destruct (off >=? limit) eqn:EL.
  - intros [= <- <- <-]. split; [cbn; lia|constructor].
  - set (m := if n >? i64 (limit - off) then i64 (limit - off) else n). destruct (s_read_at cb s st (zrepeat 0 m) off) as [[[[[s' st'] b] k] x]| |] eqn:E.
    + intros [= <- <- <-]. split; [|apply u8_bytes]. rewrite zlen_u8.
      assert (zlen b = zlen (zrepeat 0 m)) as HL.
      { clear -E. unfold s_read_at in E. destruct (negb _); [injection E as _ _ <- _ _; reflexivity|]. cbv zeta in E.
        destruct (_ =? 0); [injection E as _ _ <- _ _; reflexivity|]. destruct (off >=? ssize st); [injection E as _ _ <- _ _; reflexivity|].
        destruct (conv_addr _ _) as [[f so]| |]; try discriminate. destruct (conv_addr _ _) as [[l y]| |]; try discriminate.
        destruct (get_slice _ _ _ _ _) as [[[s1 c1] [d|x1]]| |]; try discriminate; [|injection E as _ _ <- _ _; reflexivity].
        destruct (reslice _ _ _ _); try discriminate. injection E as _ _ <- _ _. apply zlen_gocopy. }
      assert (zlen (zrepeat 0 m) <= n) as HM.
      { unfold m. destruct (n >? _) eqn:E1; unfold zlen, zrepeat; rewrite repeat_length; lia. }
      unfold slice, zlen in *. rewrite firstn_length. cbn [Z.to_nat skipn]. lia.
    + intros [= <- <- <-]. split; [cbn; lia|constructor].
    + intros [= <- <- <-]. split; [cbn; lia|constructor].
Qed.

(* did some fetch fail? *)
Lemma failed_dec (evs : list event) : (forall i, ~ In (EvFetch i false) evs) \/ exists i, In (EvFetch i false) evs.
Proof.
  induction evs as [|ev evs [IH|(i & IH)]]; [left; intros i []| |right; exists i; now right].
  destruct ev as [i [|]| |]; try (left; intros j [X|X]; [discriminate|exact (IH j X)]). right. exists i. now left.
Qed.
Section Any.
Context {S : Type} (cb : callbacks S) (bs : Z) (nb : S -> Z) (blk : S -> Z -> list Z).
Hypothesis H : honest cb bs nb blk.
(* what is left of the section *)
Definition sec_rest (s : S) (st : stream) (off limit : Z) : list Z := slice off (Z.max 0 (Z.min limit (ssize st) - off)) (sbytes blk s st).
Lemma sec_step_any s st off limit n : sreach cb bs nb s st -> io_read (sflags st) = true -> bytes (sbytes blk s st) -> 0 <= off -> limit < 2^63 -> 0 < n ->
  exists s' st' off' c e evs, section_read cb (s, st, off, limit) n = Ret ((s', st', off', limit), c, e) /\ sreach cb bs nb s' st' /\ sunchanged nb blk s st s' st' /\ spos st' = spos st /\
    0 <= off' /\ zlen c <= n /\ sec_rest s st off limit = c ++ sec_rest s' st' off' limit /\ accesses cb s evs s' /\
    ((forall i, ~ In (EvFetch i false) evs) -> e = None /\ c <> [] \/ e = Some KEOF /\ sec_rest s' st' off' limit = []) /\
    ((exists i, In (EvFetch i false) evs) -> c = [] /\ off' = off /\ exists s i b x, snd (cb_fetch cb s i b) = Some x /\ e = Some (KMsg x)).
Proof.
  intros Hr Hrd HB Ho Hlim Hn. unfold section_read. destruct (off >=? limit) eqn:EL.
  - assert (sec_rest s st off limit = []) as E0 by (unfold sec_rest; replace (Z.max 0 (Z.min limit (ssize st) - off)) with 0 by lia; reflexivity).
    exists s, st, off, [], (Some KEOF), []. split; [reflexivity|]. split; [exact Hr|]. split; [repeat split|]. split; [reflexivity|]. split; [exact Ho|]. split; [cbn; lia|]. rewrite E0.
    split; [reflexivity|]. split; [constructor|]. split; [auto|]. intros (i & []).
  - rewrite i64_id by lia. set (m := if n >? limit - off then limit - off else n). assert (0 < m <= n /\ off + m <= limit) as [Hm1 Hm2] by (unfold m; destruct (n >? limit - off) eqn:E1; lia).
    assert (zlen (zrepeat 0 m) = m) as Hl by (apply zlen_repeat; lia).
    destruct (C28_read_at_exact S cb bs nb blk H s st (zrepeat 0 m) off Hr Hrd Ho ltac:(lia)) as (HL & s' & st' & b & k & e & evs & E & Hac & U & HP & HX & HY).
    cbv zeta in HX. rewrite Hl in HX. rewrite E.
    assert (sreach cb bs nb s' st') as Hr'.
    { eapply (sr_step cb bs nb s st (TReadAt m off)); [exact Hr|cbn; lia|]. cbn [sexec_op]. rewrite E. reflexivity. }
    pose proof U as (U1 & _). destruct (failed_dec evs) as [HN|HF].
    2:{ destruct (HY HF) as (-> & -> & HE). exists s', st', (i64 (off + 0)), (map u8 (slice 0 0 (zrepeat 0 m))), e, evs. split; [reflexivity|]. rewrite Z.add_0_r, i64_id by lia.
        assert (slice 0 0 (zrepeat 0 m) = []) as -> by reflexivity. cbn [map]. split; [exact Hr'|]. split; [exact U|]. split; [exact HP|]. split; [exact Ho|]. split; [cbn; lia|].
        split; [unfold sec_rest; now rewrite (unch_sbytes nb blk s st s' st' U), U1|]. split; [exact Hac|]. split; [destruct HF as (i & HF); intros X; destruct (X i HF)|auto]. }
    destruct (HX HN) as (Ek & Eb & Ee).
    set (K := Z.max 0 (Z.min m (ssize st - off))) in *. subst k. rewrite i64_id by lia.
    assert (map u8 (slice 0 K b) = slice off K (sbytes blk s st)) as EC.
    { rewrite Eb. destruct (Z_lt_le_dec off (ssize st)) as [L|G].
      - assert (zlen (slice off K (sbytes blk s st)) = K) as HK by (apply zlen_slice; lia). rewrite <- HK at 1. rewrite slice_splice_same by lia. apply u8_id. now apply Forall_slice.
      - assert (K = 0) as -> by lia. reflexivity. }
    rewrite EC. exists s', st', (off + K), (slice off K (sbytes blk s st)), e, evs. split; [reflexivity|]. split; [exact Hr'|]. split; [exact U|]. split; [exact HP|]. split; [lia|].
    assert (zlen (slice off K (sbytes blk s st)) <= K) as HLe by (unfold slice, zlen; rewrite firstn_length; lia). split; [lia|].
    unfold sec_rest. rewrite (unch_sbytes nb blk s st s' st' U), U1. split; [|split; [exact Hac|split]].
    + destruct (Z_lt_le_dec off (ssize st)) as [L|G].
      * rewrite <- slice_split by lia. f_equal. lia.
      * assert (K = 0) as -> by lia. replace (Z.max 0 (Z.min limit (ssize st) - off)) with 0 by lia. replace (Z.max 0 (Z.min limit (ssize st) - (off + 0))) with 0 by lia. reflexivity.
    + intros _. destruct (K <? m) eqn:EK.
      * right. split; [exact Ee|]. replace (Z.max 0 (Z.min limit (ssize st) - (off + K))) with 0 by lia. reflexivity.
      * left. split; [exact Ee|]. intros X. apply (f_equal zlen) in X. rewrite zlen_slice in X by lia. change (zlen []) with 0 in X. lia.
    + intros (i & X). destruct (HN i X).
Qed.
Lemma sec_delivers_any code limit : limit < 2^63 -> forall N s st off, sreach cb bs nb s st -> io_read (sflags st) = true -> bytes (sbytes blk s st) -> 0 <= off ->
  (length (sec_rest s st off limit) <= N)%nat -> exists D e, input_is (section_reader cb code) (s, st, off, limit) D e /\ prefix D (sec_rest s st off limit) /\
    (e = REOF /\ D = sec_rest s st off limit \/ exists s i b x, snd (cb_fetch cb s i b) = Some x /\ e = if is_eof x then REOF else RFail (code (KMsg x))).
Proof.
  intros Hlim. induction N as [|N IH]; intros s st off Hr Hrd HB Ho HN;
    destruct (sec_step_any s st off limit 4096 Hr Hrd HB Ho Hlim ltac:(lia)) as (s' & st' & off' & c & e & evs & E & Hr' & U & HP & Ho' & Hc & ER & Hac & HC & HF);
    assert (section_reader cb code (s, st, off, limit) 4096 = ((s', st', off', limit), c, option_map (fun x => if is_eof x then REOF else RFail (code x)) e)) as ES by (unfold section_reader; now rewrite E);
    pose proof U as (U1 & U2 & _); (destruct (failed_dec evs) as [HO|HO]; [destruct (HC HO) as [(-> & Hne)|(-> & E0)]|]).
  - exfalso. rewrite ER, app_length in HN. destruct c; [congruence|cbn in HN; lia].
  - exists c, REOF. split; [eapply d_end; exact ES|]. rewrite ER, E0, app_nil_r. split; [exists []; now rewrite app_nil_r|auto].
  - destruct (HF HO) as (-> & _ & s0 & i & b & x & X & ->). exists [], (if is_eof x then REOF else RFail (code (KMsg x))). split; [eapply d_end; exact ES|]. split; [eexists; reflexivity|]. right. exists s0, i, b, x. auto.
  - destruct (IH s' st' off') as (D & e & HD & HPr & HE); [exact Hr'|congruence|rewrite (unch_sbytes nb blk s st s' st' U); exact HB|exact Ho'| |].
    { rewrite ER, app_length in HN. destruct c; [congruence|cbn in HN; lia]. }
    exists (c ++ D), e. split; [eapply d_more; [exact ES|exact Hne|exact HD]|]. rewrite ER. split; [destruct HPr as (y & Hy); exists y; rewrite <- app_assoc; congruence|].
    destruct HE as [(-> & ->)|HE]; [left; auto|right; exact HE].
  - exists c, REOF. split; [eapply d_end; exact ES|]. rewrite ER, E0, app_nil_r. split; [exists []; now rewrite app_nil_r|auto].
  - destruct (HF HO) as (-> & _ & s0 & i & b & x & X & ->). exists [], (if is_eof x then REOF else RFail (code (KMsg x))). split; [eapply d_end; exact ES|]. split; [eexists; reflexivity|]. right. exists s0, i, b, x. auto.
Qed.
End Any.

Section Sec.
Context {S : Type} (cb : callbacks S) (bs : Z) (nb : S -> Z) (blk : S -> Z -> list Z).
Hypothesis H : honest cb bs nb blk.
Hypothesis Hok : forall s i b, snd (cb_fetch cb s i b) = None.
Notation sec_rest := (sec_rest blk).
Lemma sec_step s st off limit n : sreach cb bs nb s st -> io_read (sflags st) = true -> bytes (sbytes blk s st) -> 0 <= off -> limit < 2^63 -> 0 < n ->
  exists s' st' off' c e, section_read cb (s, st, off, limit) n = Ret ((s', st', off', limit), c, e) /\ sreach cb bs nb s' st' /\ sunchanged nb blk s st s' st' /\ spos st' = spos st /\
    0 <= off' /\ zlen c <= n /\ sec_rest s st off limit = c ++ sec_rest s' st' off' limit /\ (e = None /\ c <> [] \/ e = Some KEOF /\ sec_rest s' st' off' limit = []).
Proof.
  intros Hr Hrd HB Ho Hlim Hn. destruct (sec_step_any cb bs nb blk H s st off limit n Hr Hrd HB Ho Hlim Hn) as (s' & st' & off' & c & e & evs & E & Hr' & U & HP & Ho' & Hc & ER & Hac & HC & _).
  exists s', st', off', c, e. specialize (HC (no_failed_fetch cb Hok evs s s' Hac)). auto 10.
Qed.
(* reads of a sequence *)
Lemma sec_reader code s st off limit n s' st' off' c e : section_read cb (s, st, off, limit) n = Ret ((s', st', off', limit), c, e) ->
  section_reader cb code (s, st, off, limit) n = ((s', st', off', limit), c, option_map (fun x => if is_eof x then REOF else RFail (code x)) e).
Proof. intros E. unfold section_reader. now rewrite E. Qed.
Lemma sec_delivers code limit : limit < 2^63 -> forall N s st off, sreach cb bs nb s st -> io_read (sflags st) = true -> bytes (sbytes blk s st) -> 0 <= off ->
  (length (sec_rest s st off limit) <= N)%nat -> input_is (section_reader cb code) (s, st, off, limit) (sec_rest s st off limit) REOF.
Proof.
  intros Hlim. induction N as [|N IH]; intros s st off Hr Hrd HB Ho HN;
    destruct (sec_step s st off limit 4096 Hr Hrd HB Ho Hlim ltac:(lia)) as (s' & st' & off' & c & e & E & Hr' & U & HP & Ho' & Hc & ER & HC); apply (sec_reader code) in E;
    destruct HC as [(-> & Hne)|(-> & E0)]; pose proof U as (U1 & U2 & _).
  - exfalso. rewrite ER, app_length in HN. destruct c; [congruence|cbn in HN; lia].
  - rewrite ER, E0, app_nil_r. eapply d_end. exact E.
  - rewrite ER. eapply d_more; [exact E|exact Hne|]. apply IH; [exact Hr'|congruence|rewrite (unch_sbytes nb blk s st s' st' U); exact HB|exact Ho'|].
    rewrite ER, app_length in HN. destruct c; [congruence|cbn in HN; lia].
  - rewrite ER, E0, app_nil_r. eapply d_end. exact E.
Qed.
End Sec.
