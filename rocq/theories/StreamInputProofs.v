(** * StreamInputProofs: lemmas behind C174 and C175 *)
From Verif Require Import GoBase ListZ Errors Flags BlockCache Spec_BlockCache BlockCacheProofs BlockCacheProofs2 BlockCacheProofs3 BlockCacheProofs4
  BasicStream Spec_BasicStream BasicStreamProofs BasicStreamProofs3 Rle Bufio Spec_Bufio BufioProofs StreamInput.

Lemma s_read_len {S} (cb : callbacks S) s st buf s' st' b k e : s_read cb s st buf = Ret (s', st', b, k, e) -> zlen b = zlen buf.
Proof.
  intros E. assert (exists st1 e1, s_read_at cb s st buf (spos st) = Ret (s', st1, b, k, e1)) as (st1 & e1 & A).
  { unfold s_read in E. destruct (s_read_at cb s st buf (spos st)) as [[[[[x1 x2] x3] x4] [y|]]| |]; try discriminate; injection E as <- <- <- <- <-; eauto. }
  clear E. unfold s_read_at in A. destruct (negb _); [injection A as _ _ <- _ _; reflexivity|]. cbv zeta in A.
  destruct (zlen buf =? 0); [injection A as _ _ <- _ _; reflexivity|]. destruct (spos st >=? ssize st); [injection A as _ _ <- _ _; reflexivity|].
  destruct (conv_addr _ _) as [[f so]| |]; try discriminate. destruct (conv_addr _ _) as [[l x]| |]; try discriminate.
  destruct (get_slice _ _ _ _ _) as [[[s1 c1] [d|x1]]| |]; try discriminate; [|injection A as _ _ <- _ _; reflexivity].
  destruct (reslice _ _ _ _); try discriminate. injection A as _ _ <- _ _. apply zlen_gocopy.
Qed.
Lemma stream_reader_go {S} (cb : callbacks S) code : go_reader (stream_reader cb code).
Proof.
  intros t n t' c e Hn. unfold stream_reader, stream_read. destruct (s_read _ _ _ _) as [[[[[s' st'] b] k] x]| |] eqn:E.
  - intros [= <- <- <-]. apply s_read_len in E. rewrite zlen_repeat in E by lia. split; [|apply u8_bytes]. rewrite zlen_u8.
    unfold slice, zlen in *. rewrite firstn_length. cbn [Z.to_nat skipn]. lia.
  - intros [= <- <- <-]. split; [cbn; lia|constructor].
  - intros [= <- <- <-]. split; [cbn; lia|constructor].
Qed.

Section In.
Context {S : Type} (cb : callbacks S) (bs : Z) (nb : S -> Z) (blk : S -> Z -> list Z).
Hypothesis H : honest cb bs nb blk.
Hypothesis Hbs : 0 < bs < 2^62.
Definition rest_of (s : S) (st : stream) : list Z := slice (spos st) (Z.max 0 (ssize st - spos st)) (sbytes blk s st).
(* one read *)
Lemma one_read s st n : SInv bs nb blk s st -> io_read (sflags st) = true -> bytes (sbytes blk s st) -> 0 < n -> ssize st + n < 2^63 ->
  exists s' st' c e, stream_read cb (s, st) n = Ret (s', st', c, e) /\ SInv bs nb blk s' st' /\ sunchanged nb blk s st s' st' /\
    ((e = None /\ zlen c = n /\ spos st' = spos st + n /\ spos st' <= ssize st /\ rest_of s st = c ++ rest_of s' st') \/
     (e = Some KEOF /\ c = rest_of s st) \/
     (c = [] /\ exists s i b x, snd (cb_fetch cb s i b) = Some x /\ e = Some (KMsg x))).
Proof.
  intros I Hr HB Hn Hf. pose proof I as (W & Hsz & Hp).
  assert (zlen (zrepeat 0 n) = n) as Hl by (apply zlen_repeat; lia).
  destruct (read_spec cb bs nb blk H Hbs s st (zrepeat 0 n) I Hr ltac:(lia) ltac:(lia)) as (s1 & c1 & e & evs & HK & Hac & He & E).
  cbv zeta in E. rewrite Hl in E. set (m := Z.max 0 (Z.min n (ssize st - spos st))) in *.
  pose proof (sbytes_len cb bs nb blk H Hbs s st I) as HL. unfold stream_read. cbn [fst snd]. rewrite E.
  destruct e as [x|].
  - exists s1, (set_cache st c1), [], (Some x). pose proof (kept_unch bs nb blk s st s1 c1 (spos st) I HK) as U.
    replace (set_pos (set_cache st c1) (spos st)) with (set_cache st c1) in U by (destruct st; reflexivity).
    split; [reflexivity|]. split; [eapply kept_sinv; eauto|]. split; [exact U|]. right. right. split; [reflexivity|].
    destruct (proj2 He _ eq_refl) as (a & i & b & y & X & ->). exists a, i, b, y. auto.
  - pose proof (kept_unch bs nb blk s st s1 c1 (if m <? n then spos st else spos st + m) I HK) as U.
    set (st1 := set_pos (set_cache st c1) (if m <? n then spos st else spos st + m)) in *.
    assert (map u8 (slice 0 m (splice 0 (slice (spos st) m (sbytes blk s st)) (zrepeat 0 n))) = slice (spos st) m (sbytes blk s st)) as EC.
    { destruct (Z_lt_le_dec (spos st) (ssize st)) as [L|G].
      - assert (zlen (slice (spos st) m (sbytes blk s st)) = m) as Hm by (apply zlen_slice; lia).
        rewrite <- Hm at 1. rewrite slice_splice_same by lia. apply u8_id. now apply Forall_slice.
      - assert (m = 0) as -> by lia. reflexivity. }
    rewrite EC. exists s1, st1, (slice (spos st) m (sbytes blk s st)), (if m <? n then Some KEOF else None). split; [reflexivity|].
    assert (0 <= (if m <? n then spos st else spos st + m) < 2^63) as HP by (destruct (m <? n) eqn:EM; lia).
    split; [apply set_pos_inv; [eapply kept_sinv; eauto|exact HP]|]. split; [exact U|]. destruct (m <? n) eqn:EM.
    + right. left. split; [reflexivity|]. unfold rest_of. f_equal. lia.
    + left. assert (m = n /\ n <= ssize st - spos st) as [Em Hle] by lia. split; [reflexivity|]. split; [rewrite zlen_slice; lia|]. split; [unfold st1; cbn [set_pos spos]; lia|].
      split; [unfold st1; cbn [set_pos spos]; lia|]. unfold rest_of. rewrite (unch_sbytes nb blk s st s1 st1 U).
      unfold st1. cbn [set_pos set_cache ssize spos]. rewrite Em. replace (Z.max 0 (ssize st - spos st)) with (n + Z.max 0 (ssize st - (spos st + n))) by lia.
      rewrite slice_split by lia. reflexivity.
Qed.
Lemma rest_len s st : SInv bs nb blk s st -> zlen (rest_of s st) = Z.max 0 (ssize st - spos st).
Proof.
  intros I. pose proof I as (_ & Hsz & Hp). pose proof (sbytes_len cb bs nb blk H Hbs s st I) as HL. unfold rest_of.
  destruct (Z_lt_le_dec (spos st) (ssize st)); [apply zlen_slice; lia|]. now replace (Z.max 0 (ssize st - spos st)) with 0 by lia.
Qed.
(* what a stream delivers: a first part of the rest, up to the first failing fetch *)
Lemma stream_delivers code : forall N s st, SInv bs nb blk s st -> io_read (sflags st) = true -> bytes (sbytes blk s st) -> ssize st + 4096 < 2^63 ->
  ssize st - spos st < Z.of_nat N ->
  exists D e, input_is (stream_reader cb code) (s, st) D e /\ (exists Q, rest_of s st = D ++ Q) /\
    (e = REOF /\ D = rest_of s st \/
     exists s i b x, snd (cb_fetch cb s i b) = Some x /\ e = if is_eof x then REOF else RFail (code (KMsg x))).
Proof.
  induction N as [|N IH]; intros s st I Hr HB Hf HN.
  - destruct (one_read s st 4096 I Hr HB ltac:(lia) Hf) as (s1 & st1 & c & e & E & I1 & U & HC).
    assert (stream_reader cb code (s, st) 4096 = ((s1, st1), c, option_map (fun x => if is_eof x then REOF else RFail (code x)) e)) as ER by (unfold stream_reader; now rewrite E).
    destruct HC as [(-> & Hc & Hp & Hle & HR)|[(-> & ->)|(-> & x1 & i & b & x & X & ->)]].
    + exfalso. pose proof I as (_ & _ & Hp0). lia.
    + exists (rest_of s st), REOF. split; [unfold input_is; eapply d_end; exact ER|]. split; [exists []; now rewrite app_nil_r|]. left. auto.
    + cbn [option_map is_eof] in ER. eexists [], _. split; [unfold input_is; eapply d_end; exact ER|]. split; [exists (rest_of s st); reflexivity|]. right. exists x1, i, b, x. auto.
  - destruct (one_read s st 4096 I Hr HB ltac:(lia) Hf) as (s1 & st1 & c & e & E & I1 & U & HC).
    assert (stream_reader cb code (s, st) 4096 = ((s1, st1), c, option_map (fun x => if is_eof x then REOF else RFail (code x)) e)) as ER by (unfold stream_reader; now rewrite E).
    destruct HC as [(-> & Hc & Hp & Hle & HR)|[(-> & ->)|(-> & x1 & i & b & x & X & ->)]].
    + pose proof (unch_sbytes nb blk s st s1 st1 U) as EB. pose proof U as (Us & Uf & _).
      destruct (IH s1 st1 I1) as (D & e & HD & (Q & HQ) & HE); [now rewrite Uf|now rewrite EB|lia|lia|].
      exists (c ++ D), e. split; [unfold input_is; eapply d_more; [exact ER|intros ->; cbn in Hc; lia|exact HD]|].
      split; [exists Q; rewrite HR, HQ; apply app_assoc|]. destruct HE as [(-> & ->)|HE]; [left; now rewrite HR|right; exact HE].
    + exists (rest_of s st), REOF. split; [unfold input_is; eapply d_end; exact ER|]. split; [exists []; now rewrite app_nil_r|]. left. auto.
    + cbn [option_map is_eof] in ER. eexists [], _. split; [unfold input_is; eapply d_end; exact ER|]. split; [exists (rest_of s st); reflexivity|]. right. exists x1, i, b, x. auto.
Qed.
Lemma read_all_spec room : (forall k, 0 < room k) -> forall fuel k s st acc, SInv bs nb blk s st -> io_read (sflags st) = true -> bytes (sbytes blk s st) ->
  (forall k, ssize st + room k < 2^63) -> Z.max 0 (ssize st - spos st) < Z.of_nat fuel ->
  exists s' st' D e, read_all cb fuel room k (s, st) acc = Ret (s', st', acc ++ D, e) /\ sunchanged nb blk s st s' st' /\
    (exists Q, rest_of s st = D ++ Q) /\
    (e = None /\ D = rest_of s st \/ exists s i b x, snd (cb_fetch cb s i b) = Some x /\ e = Some (KMsg x)).
Proof.
  intros HR0. induction fuel as [|f IH]; intros k s st acc I Hr HB Hf HN; [lia|]. cbn [read_all].
  destruct (one_read s st (room k) I Hr HB (HR0 k) (Hf k)) as (s1 & st1 & c & e & E & I1 & U & HC). rewrite E.
  destruct HC as [(-> & Hc & Hp & Hle & HR)|[(-> & ->)|(-> & x1 & i & b & x & X & ->)]].
  - pose proof (unch_sbytes nb blk s st s1 st1 U) as EB. pose proof U as (Us & Uf & _). pose proof (HR0 k) as HRk.
    destruct (IH (Datatypes.S k) s1 st1 (acc ++ c) I1) as (s2 & st2 & D & e & E2 & U2 & (Q & HQ) & HE); [now rewrite Uf|now rewrite EB|intros j; rewrite Us; apply Hf|lia|].
    exists s2, st2, (c ++ D), e. rewrite E2, app_assoc. split; [reflexivity|]. split; [eapply unch_trans; eauto|].
    split; [exists Q; rewrite HR, HQ; apply app_assoc|]. destruct HE as [(-> & ->)|HE]; [left; now rewrite HR|right; exact HE].
  - exists s1, st1, (rest_of s st), None. split; [reflexivity|]. split; [exact U|]. split; [exists []; now rewrite app_nil_r|]. now left.
  - exists s1, st1, [], (Some (KMsg x)). split; [reflexivity|]. split; [exact U|]. split; [exists (rest_of s st); reflexivity|]. right. exists x1, i, b, x. auto.
Qed.
End In.
