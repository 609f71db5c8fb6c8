(** * Props_SectionReader: C178, a section of a stream (a partition of an image) as a reader *)
From Verif Require Import GoBase ListZ Errors Flags BlockCache Spec_BlockCache BlockCacheProofs BlockCacheProofs2 BlockCacheProofs3 BlockCacheProofs4
  BasicStream Spec_BasicStream BasicStreamProofs BasicStreamProofs3 Props_BasicStream Rle Spec_Rle RleProofs Props_Rle Bufio Spec_Bufio BufioProofs Props_Bufio
  StreamInput StreamInputProofs FatBoot FatBootRead Spec_FatBootRead Props_FatBootRead SectionReader SectionReaderProofs.

(* the bytes of the section from [off] on: up to [limit] or the end of the stream *)
Definition bytes_between {S} (blk : S -> Z -> list Z) (s : S) (st : stream) (off limit : Z) : list Z :=
  slice off (Z.max 0 (Z.min limit (ssize st) - off)) (sbytes blk s st).

(** ** C178 *)
(* One Read gives the next bytes of the section, at least one unless it is at its end, moves behind them, and says io.EOF only
   if none are left (then again and again); neither the contents nor the position of the stream itself change *)
Theorem C178_read : forall S (cb : callbacks S) bs nb blk, honest cb bs nb blk -> (forall s i b, snd (cb_fetch cb s i b) = None) ->
  forall s st off limit n, sreach cb bs nb s st -> io_read (sflags st) = true -> bytes (sbytes blk s st) -> 0 <= off -> limit < 2^63 -> 0 < n ->
  exists s' st' off' c e, section_read cb (s, st, off, limit) n = Ret ((s', st', off', limit), c, e) /\
    bytes_between blk s st off limit = c ++ bytes_between blk s' st' off' limit /\ zlen c <= n /\
    (e = None /\ c <> [] \/ e = Some KEOF /\ bytes_between blk s' st' off' limit = []) /\
    sreach cb bs nb s' st' /\ sunchanged nb blk s st s' st' /\ spos st' = spos st /\ 0 <= off'.
Proof.
  intros S cb bs nb blk H Hok s st off limit n Hr Hrd HB Ho Hl Hn. destruct (sec_step cb bs nb blk H Hok s st off limit n Hr Hrd HB Ho Hl Hn) as (s' & st' & off' & c & e & E & Hr' & U & HP & Ho' & Hc & ER & HC).
  exists s', st', off', c, e. auto 10.
Qed.
(* so a new section delivers the bytes from its offset on, as many as were asked for or the stream has, and then io.EOF *)
Theorem C178_delivers : forall S (cb : callbacks S) bs nb blk, honest cb bs nb blk -> (forall s i b, snd (cb_fetch cb s i b) = None) ->
  forall code s st off n, sreach cb bs nb s st -> io_read (sflags st) = true -> bytes (sbytes blk s st) -> 0 <= off < 2^63 -> 0 <= n < 2^63 ->
  go_reader (section_reader cb code) /\
  input_is (section_reader cb code) (NewSectionReader s st off n) (slice off (Z.max 0 (Z.min n (ssize st - off))) (sbytes blk s st)) REOF.
Proof.
  intros S cb bs nb blk H Hok code s st off n Hr Hrd HB Ho Hn. split; [apply section_reader_go|]. unfold NewSectionReader. open_reach H Hr Hbs I. pose proof (winv_small cb bs nb blk H Hbs s _ (proj1 I)) as HW. pose proof I as (_ & Hsz & Hp).
  assert (ssize st < 2^63) as Hs63 by (destruct (proj1 I); lia).
  assert (forall limit, limit < 2^63 -> (limit = off + n \/ limit = 2^63 - 1 /\ 2^63 - 1 <= off + n) -> input_is (section_reader cb code) (s, st, off, limit) (slice off (Z.max 0 (Z.min n (ssize st - off))) (sbytes blk s st)) REOF) as HX.
  { intros limit Hl HC. replace (Z.max 0 (Z.min n (ssize st - off))) with (Z.max 0 (Z.min limit (ssize st) - off)) by lia.
    apply (sec_delivers cb bs nb blk H Hok code limit Hl (length (sec_rest blk s st off limit)) s st off); auto; lia. }
  destruct (off <=? 2^63 - 1 - n) eqn:E; apply HX; rewrite ?i64_id by lia; lia.
Qed.
(* compressing a partition compresses its bytes; likewise decompressing a compressed image that lies inside a stream *)
Theorem C178_codecs : forall S (cb : callbacks S) bs nb blk, honest cb bs nb blk -> (forall s i b, snd (cb_fetch cb s i b) = None) ->
  forall code s st off n fuel w, sreach cb bs nb s st -> io_read (sflags st) = true -> bytes (sbytes blk s st) -> 0 <= off < 2^63 -> 0 <= n < 2^63 ->
  let part := slice off (Z.max 0 (Z.min n (ssize st - off))) (sbytes blk s st) in (length part < fuel)%nat ->
  CompressRLE8 (section_reader cb code) fuel (NewSectionReader s st off n) w = compress_rle8 (mkReader part REOF) w /\
  CompressRLERecursive (section_reader cb code) fuel (NewSectionReader s st off n) w = compress_recursive (mkReader part REOF) w /\
  DecompressRLE8 (section_reader cb code) fuel (NewSectionReader s st off n) w = Ret (decompress_rle8 (mkReader part REOF) w).
Proof.
  intros S cb bs nb blk H Hok code s st off n fuel w Hr Hrd HB Ho Hn part Hl. destruct (C178_delivers S cb bs nb blk H Hok code s st off n Hr Hrd HB Ho Hn) as [HG HI].
  split; [now apply C153_compress|]. split; [now apply C153_recursive|now apply C153_decompress].
Qed.
(* and the boot sector of a FAT partition at any offset is that of its bytes (C169) *)
Theorem C178_boot : forall S (cb : callbacks S) bs nb blk, honest cb bs nb blk -> (forall s i b, snd (cb_fetch cb s i b) = None) ->
  forall code s st off limit, sreach cb bs nb s st -> io_read (sflags st) = true -> bytes (sbytes blk s st) -> 0 <= off -> limit < 2^63 ->
  let part := bytes_between blk s st off limit in let boot settable fuel := NewFATBootSectorFromStream (section_reader cb code) settable fuel (s, st, off, limit) in
  (zlen part < 36 -> forall settable, exists N t', forall fuel, (N <= fuel)%nat -> boot settable fuel = Ret (t', inr (KWrap ErrIOFailed (too_short part REOF)))) /\
  (36 <= zlen part -> exists N, forall fuel, (N <= fuel)%nat -> boot false fuel = Panic) /\
  (36 <= zlen part < 40 -> exists N t', forall fuel, (N <= fuel)%nat -> boot true fuel = Ret (t', inr (KWrap ErrIOFailed (too_short (skipn 36 part) REOF)))) /\
  (40 <= zlen part -> exists N s' st' off', bytes_between blk s' st' off' limit = skipn 40 part /\ sunchanged nb blk s st s' st' /\ spos st' = spos st /\ forall fuel, (N <= fuel)%nat ->
     match new_boot true (firstn 40 part) with
     | Ret r => boot true fuel = Ret ((s', st', off', limit), r)
     | _ => boot true fuel = Panic
     end).
Proof.
  intros S cb bs nb blk H Hok code s st off limit Hr Hrd HB Ho Hl part boot.
  set (holds := fun (_ : nat) (t : section) (D : list Z) (e : rend) => let '(s1, st1, off1, l1) := t in
    sreach cb bs nb s1 st1 /\ sunchanged nb blk s st s1 st1 /\ spos st1 = spos st /\ 0 <= off1 /\ l1 = limit /\ e = REOF /\ D = bytes_between blk s1 st1 off1 limit).
  assert (byte_source (section_reader cb code) holds) as HS.
  { intros k [[[s1 st1] o1] l1] D e n (Hr1 & U1 & HP1 & Ho1 & -> & -> & ->) Hn. pose proof U1 as (V1 & V2 & _).
    destruct (C178_read S cb bs nb blk H Hok s1 st1 o1 limit n Hr1 ltac:(congruence) ltac:(rewrite (unch_sbytes nb blk s st s1 st1 U1); exact HB) Ho1 Hl Hn) as (s' & st' & off' & c & e & E & ER & Hc & HC & Hr' & U & HP & Ho').
    exists (s', st', off', limit), c, (bytes_between blk s' st' off' limit), k. split; [exact ER|]. split; [exact Hc|]. split.
    - cbn. split; [exact Hr'|]. split; [eapply unch_trans; eauto|]. split; [congruence|]. auto.
    - apply (sec_reader cb code) in E. rewrite E. destruct HC as [(-> & Hne)|(-> & E0)]; [left; split; [reflexivity|congruence]|right; auto]. }
  assert (holds 0%nat (s, st, off, limit) part REOF) as HH by (cbn; repeat split; auto).
  split; [intros Hs settable; exact (C169_short _ holds settable _ _ _ _ HS HH Hs)|]. split; [intros Hs; exact (C169_panics_refuted _ holds _ _ _ _ HS HH Hs)|].
  split; [intros Hs; exact (C169_cut_partial _ holds _ _ _ _ HS HH Hs)|]. intros Hs.
  destruct (C169_forty_partial _ holds _ _ _ _ HS HH Hs) as (N & [[[s' st'] off'] l'] & k' & (_ & U & HP & _ & -> & _ & ED) & HN). exists N, s', st', off'. auto.
Qed.
(* Storage that fails: [evs] is what was asked of it.  As long as no fetch fails a Read is as above; if one fails, the Read gives
   no bytes and that error, and the section stays where it was, so that the same Read can be tried again *)
Theorem C178_failing_read : forall S (cb : callbacks S) bs nb blk, honest cb bs nb blk ->
  forall s st off limit n, sreach cb bs nb s st -> io_read (sflags st) = true -> bytes (sbytes blk s st) -> 0 <= off -> limit < 2^63 -> 0 < n ->
  exists s' st' off' c e evs, section_read cb (s, st, off, limit) n = Ret ((s', st', off', limit), c, e) /\ accesses cb s evs s' /\
    sreach cb bs nb s' st' /\ sunchanged nb blk s st s' st' /\ spos st' = spos st /\
    ((forall i, ~ In (EvFetch i false) evs) -> bytes_between blk s st off limit = c ++ bytes_between blk s' st' off' limit /\ zlen c <= n /\
       (e = None /\ c <> [] \/ e = Some KEOF /\ bytes_between blk s' st' off' limit = [])) /\
    ((exists i, In (EvFetch i false) evs) -> c = [] /\ off' = off /\ exists s i b x, snd (cb_fetch cb s i b) = Some x /\ e = Some (KMsg x)).
Proof.
  intros S cb bs nb blk H s st off limit n Hr Hrd HB Ho Hl Hn. destruct (sec_step_any cb bs nb blk H s st off limit n Hr Hrd HB Ho Hl Hn) as (s' & st' & off' & c & e & evs & E & Hr' & U & HP & Ho' & Hc & ER & Hac & HC & HF).
  exists s', st', off', c, e, evs. auto 12.
Qed.
(* so the codecs and io.ReadAll get a first part of the section, all of it unless a fetch failed *)
Theorem C178_failing_delivers : forall S (cb : callbacks S) bs nb blk, honest cb bs nb blk ->
  forall code s st off limit, sreach cb bs nb s st -> io_read (sflags st) = true -> bytes (sbytes blk s st) -> 0 <= off -> limit < 2^63 ->
  exists D e, input_is (section_reader cb code) (s, st, off, limit) D e /\ prefix D (bytes_between blk s st off limit) /\
    (e = REOF /\ D = bytes_between blk s st off limit \/ exists s i b x, snd (cb_fetch cb s i b) = Some x /\ e = if is_eof x then REOF else RFail (code (KMsg x))).
Proof.
  intros S cb bs nb blk H code s st off limit Hr Hrd HB Ho Hl. eapply (sec_delivers_any cb bs nb blk H code limit Hl); [exact Hr|exact Hrd|exact HB|exact Ho|apply le_n].
Qed.
(* if the storage never fails with io.EOF, CompressRLE8 of a section without an error has compressed all of it *)
Theorem C178_no_silent_cut : forall S (cb : callbacks S) bs nb blk, honest cb bs nb blk -> (forall s i b x, snd (cb_fetch cb s i b) = Some x -> is_eof x = false) ->
  forall code s st off limit fuel w k w', sreach cb bs nb s st -> io_read (sflags st) = true -> bytes (sbytes blk s st) -> 0 <= off -> limit < 2^63 ->
  (length (bytes_between blk s st off limit) < fuel)%nat ->
  CompressRLE8 (section_reader cb code) fuel (s, st, off, limit) w = Ret (mkRes k None w') ->
  compress_rle8 (mkReader (bytes_between blk s st off limit) REOF) w = Ret (mkRes k None w').
Proof.
  intros S cb bs nb blk H Hne code s st off limit fuel w k w' Hr Hrd HB Ho Hl Hf HC.
  destruct (C178_failing_delivers S cb bs nb blk H code s st off limit Hr Hrd HB Ho Hl) as (D & e & HD & (y & Hy) & HE).
  rewrite (C153_compress _ _ _ _ _ w (section_reader_go cb code) HD) in HC by (rewrite Hy, app_length in Hf; lia).
  destruct HE as [(-> & ->)|(s0 & i & b & x & X & ->)]; [exact HC|]. rewrite (Hne s0 i b x X) in HC. exfalso.
  destruct (compress_faithful D (RFail (code (KMsg x))) w) as (n & full & fe & res & E1 & E2 & HFa). rewrite E2 in HC. injection HC as ->.
  destruct (C04_compress_input_failure D (code (KMsg x)) [] REOF) as (n1 & C1 & n2 & e2 & C2 & E4 & _). rewrite E1 in E4. injection E4 as _ -> _.
  destruct HFa as (p & _ & _ & [(u & j & z & _ & _ & R)|(u & _ & _ & _ & R & _)]); cbn [rerr] in R; congruence.
Qed.
(* a stream of 6 bytes; the section of 4 bytes at 1, in blocks of 2; one that reaches beyond the end; an absurd size *)
Example C178_example : let f := [9;7;7;7;3;9] in let st := mkStream 6 3 (new_cache 2 3) O_RDONLY in
  sreach (ideal 2) 2 (inb 2) f (mkStream 6 0 (new_cache 2 3) O_RDONLY) /\
  CompressRLE8 (section_reader (ideal 2) (fun _ => 1)) 9 (NewSectionReader f st 1 4) (mkWriter [] []) = Ret (mkRes 4 None (mkWriter [7;7;1;3] [])) /\
  CompressRLE8 (section_reader (ideal 2) (fun _ => 1)) 9 (NewSectionReader f st 4 (2^63-1)) (mkWriter [] []) = Ret (mkRes 2 None (mkWriter [3;9] [])) /\
  (exists s' st', section_read (ideal 2) (NewSectionReader f st 1 4) 3 = Ret ((s', st', 4, 5), [7;7;7], None) /\ spos st' = 3 /\
   exists s2 st2, section_read (ideal 2) (s', st', 4, 5) 3 = Ret ((s2, st2, 5, 5), [3], None) /\ section_read (ideal 2) (s2, st2, 5, 5) 3 = Ret ((s2, st2, 5, 5), [], Some KEOF)).
Proof.
  cbv zeta. split; [eapply (sr_new (ideal 2) 2 (inb 2) [9;7;7;7;3;9] 3 6 O_RDONLY); try lia; [vm_compute; split; discriminate|vm_compute; reflexivity]|].
  split; [vm_compute; reflexivity|]. split; [vm_compute; reflexivity|]. do 2 eexists. split; [vm_compute; reflexivity|]. split; [reflexivity|]. do 2 eexists. split; vm_compute; reflexivity.
Qed.

(* the same stream over storage whose second block cannot be read: the first piece, then the error again and again *)
Definition bad1 : callbacks (list Z) := mkCb (list Z) (fun s i b => if i =? 1 then (s, b, Some (K ErrIOFailed)) else cb_fetch (ideal 2) s i b) (cb_flush (ideal 2)) (cb_resize (ideal 2)).
Example C178_failing_example : let f := [9;7;7;7;3;9] in let st := mkStream 6 0 (new_cache 2 3) O_RDONLY in
  honest bad1 2 (inb 2) (fblk 2) /\ sreach bad1 2 (inb 2) f st /\
  (exists s' st', section_read bad1 (NewSectionReader f st 1 4) 1 = Ret ((s', st', 2, 5), [7], None) /\
     exists s2 st2, section_read bad1 (s', st', 2, 5) 3 = Ret ((s2, st2, 2, 5), [], Some (KMsg (K ErrIOFailed))) /\
     exists s3 st3, section_read bad1 (s2, st2, 2, 5) 3 = Ret ((s3, st3, 2, 5), [], Some (KMsg (K ErrIOFailed)))).
Proof.
  cbv zeta. split; [|split].
  - destruct (ideal_honest 2 ltac:(lia)) as [A1 A2 A3 A4]. constructor; [exact A1| |exact A3|exact A4]. intros s i buf s' buf' e Hi Hl. cbn [bad1 cb_fetch]. destruct (i =? 1); [|now apply A2].
    intros X. assert (s' = s /\ buf' = buf /\ e = Some (K ErrIOFailed)) as (-> & -> & ->) by (split; [congruence|split; congruence]). split; [reflexivity|]. split; [reflexivity|]. split; [exact Hl|discriminate].
  - eapply (sr_new bad1 2 (inb 2) [9;7;7;7;3;9] 3 6 O_RDONLY); try lia; [vm_compute; split; discriminate|vm_compute; reflexivity].
  - do 2 eexists. split; [vm_compute; reflexivity|]. do 2 eexists. split; [vm_compute; reflexivity|]. do 2 eexists. vm_compute. reflexivity.
Qed.

Print Assumptions C178_read.
Print Assumptions C178_delivers.
Print Assumptions C178_codecs.
Print Assumptions C178_boot.
Print Assumptions C178_failing_read.
Print Assumptions C178_failing_delivers.
Print Assumptions C178_no_silent_cut.
