(** * Props_StreamInput: C174 and C175, streams as the input of the codecs and of io.ReadAll *)
From Coq Require Import String.
From Verif Require Import GoBase ListZ Errors Flags BlockCache Spec_BlockCache BlockCacheProofs BlockCacheProofs2 BlockCacheProofs3 BlockCacheProofs4
  BasicStream Spec_BasicStream BasicStreamProofs BasicStreamProofs3 Props_BasicStream Rle Spec_Rle RleProofs Props_Rle Bufio Spec_Bufio BufioProofs Props_Bufio
  Image ImageStream Spec_ImageStream ImageStreamProofs Props_ImageStream StreamInput StreamInputProofs.

(** ** C174 *)
(* A stream, at any position (also past its end), is a reader that delivers the bytes from its position to its end and
   then io.EOF - although its Read gives the last bytes together with io.EOF and does not move past them (C29) *)
Theorem C174_delivers : forall S (cb : callbacks S) bs nb blk, honest cb bs nb blk -> (forall s i b, snd (cb_fetch cb s i b) = None) ->
  forall code s st, sreach cb bs nb s st -> io_read (sflags st) = true -> ssize st + 4096 < 2^63 -> bytes (sbytes blk s st) ->
  go_reader (stream_reader cb code) /\
  input_is (stream_reader cb code) (s, st) (slice (spos st) (Z.max 0 (ssize st - spos st)) (sbytes blk s st)) REOF.
Proof.
  intros S cb bs nb blk H Hok code s st Hr Hrd Hf HB. open_reach H Hr Hbs I. split; [apply stream_reader_go|].
  destruct (stream_delivers cb bs nb blk H Hbs code (Z.to_nat (ssize st + 1)) s st I Hrd HB Hf) as (D & e & HD & _ & [(-> & ->)|(s0 & i & b & x & X & _)]).
  - pose proof I as (_ & Hsz & Hp). lia.
  - exact HD.
  - rewrite Hok in X. discriminate.
Qed.
(* so compressing a stream compresses these bytes, whatever the writer does; and decompressing one, likewise *)
Theorem C174_compress : forall S (cb : callbacks S) bs nb blk, honest cb bs nb blk -> (forall s i b, snd (cb_fetch cb s i b) = None) ->
  forall code s st fuel w, sreach cb bs nb s st -> io_read (sflags st) = true -> ssize st + 4096 < 2^63 -> bytes (sbytes blk s st) ->
  let rest := slice (spos st) (Z.max 0 (ssize st - spos st)) (sbytes blk s st) in (length rest < fuel)%nat ->
  CompressRLE8 (stream_reader cb code) fuel (s, st) w = compress_rle8 (mkReader rest REOF) w /\
  CompressRLERecursive (stream_reader cb code) fuel (s, st) w = compress_recursive (mkReader rest REOF) w /\
  DecompressRLE8 (stream_reader cb code) fuel (s, st) w = Ret (decompress_rle8 (mkReader rest REOF) w).
Proof.
  intros S cb bs nb blk H Hok code s st fuel w Hr Hrd Hf HB rest Hl. destruct (C174_delivers S cb bs nb blk H Hok code s st Hr Hrd Hf HB) as [HG HI].
  split; [now apply C153_compress|]. split; [now apply C153_recursive|now apply C153_decompress].
Qed.
(* an image in a stream, compressed to any writer that does not fail; the result, in any other stream from its position on,
   decompresses to the image *)
Theorem C174_image_roundtrip : forall S1 (cb1 : callbacks S1) bs1 nb1 blk1 S2 (cb2 : callbacks S2) bs2 nb2 blk2,
  honest cb1 bs1 nb1 blk1 -> (forall s i b, snd (cb_fetch cb1 s i b) = None) -> honest cb2 bs2 nb2 blk2 -> (forall s i b, snd (cb_fetch cb2 s i b) = None) ->
  forall code s st, sreach cb1 bs1 nb1 s st -> io_read (sflags st) = true -> ssize st + 4096 < 2^63 -> bytes (sbytes blk1 s st) ->
  let image := slice (spos st) (Z.max 0 (ssize st - spos st)) (sbytes blk1 s st) in
  forall R G W W2 (g : gzw G) (wr : iowriter W) got (wr2 : iowriter W2) got2 (opn : S2 * stream -> R + Z) (gread : ioreader R),
  go_writer wr got -> never_fails wr -> go_writer wr2 got2 -> never_fails wr2 -> go_reader gread -> gunzips g (stream_reader cb2 code) opn gread ->
  exists C k,
    (forall fuel w, (length image < fuel)%nat -> exists w', CompressImage g (stream_reader cb1 code) wr fuel (s, st) w = Ret (i64 (zlen C), None, w') /\ got w' = got w ++ C) /\
    forall s2 st2, sreach cb2 bs2 nb2 s2 st2 -> io_read (sflags st2) = true -> ssize st2 + 4096 < 2^63 -> bytes (sbytes blk2 s2 st2) ->
      slice (spos st2) (Z.max 0 (ssize st2 - spos st2)) (sbytes blk2 s2 st2) = C -> forall fuel, (k < fuel)%nat ->
      (forall w, exists w', DecompressImage opn gread wr2 fuel (s2, st2) w = Ret (i64 (zlen image), None, w') /\ got2 w' = got2 w ++ image) /\
      DecompressImageToBytes opn gread fuel (s2, st2) = Ret (inl image).
Proof.
  intros S1 cb1 bs1 nb1 blk1 S2 cb2 bs2 nb2 blk2 H1 Hok1 H2 Hok2 code s st Hr Hrd Hf HB image R G W W2 g wr got wr2 got2 opn gread A1 A2 A3 A4 A5 A6.
  destruct (C174_delivers S1 cb1 bs1 nb1 blk1 H1 Hok1 code s st Hr Hrd Hf HB) as [HG HI]. fold image in HI.
  assert (bytes image) as HBi by now apply Forall_slice.
  destruct (C155_roundtrip (stream_reader cb1 code) (s, st) image HG HBi HI G W W2 g wr got wr2 got2 (stream_reader cb2 code) opn gread A1 A2 A3 A4 A5 A6) as (C & k & HC & HD).
  exists C, k. split; [exact HC|]. intros s2 st2 Hr2 Hrd2 Hf2 HB2 E fuel Hfu. apply HD; [|exact Hfu]. rewrite <- E.
  apply (C174_delivers S2 cb2 bs2 nb2 blk2 H2 Hok2 code s2 st2 Hr2 Hrd2 Hf2 HB2).
Qed.
(* io.ReadAll returns these bytes and no error, however append grows its buffer, and nothing but the position and the set
   of loaded blocks changes *)
Theorem C174_read_all : forall S (cb : callbacks S) bs nb blk, honest cb bs nb blk -> (forall s i b, snd (cb_fetch cb s i b) = None) ->
  forall room s st fuel, (forall k, 0 < room k) -> sreach cb bs nb s st -> io_read (sflags st) = true -> (forall k, ssize st + room k < 2^63) -> bytes (sbytes blk s st) ->
  let rest := slice (spos st) (Z.max 0 (ssize st - spos st)) (sbytes blk s st) in (length rest < fuel)%nat ->
  exists s' st', ReadAll cb fuel room s st = Ret (s', st', rest, None) /\ sunchanged nb blk s st s' st'.
Proof.
  intros S cb bs nb blk H Hok room s st fuel HR Hr Hrd Hf HB rest Hl. open_reach H Hr Hbs I. pose proof (rest_len cb bs nb blk H Hbs s st I) as HL. change (rest_of blk s st) with rest in HL.
  destruct (read_all_spec cb bs nb blk H Hbs room HR fuel 0 s st [] I Hrd HB Hf) as (s' & st' & D & e & E & U & _ & [(-> & ->)|(s0 & i & b & x & X & _)]).
  - rewrite <- HL. unfold zlen. lia.
  - exists s', st'. split; [exact E|exact U].
  - rewrite Hok in X. discriminate.
Qed.
Example C174_example :
  (exists st, s_new (ideal 2) [7;7;7;3;9;9] 5 (new_cache 2 3) O_RDONLY = Ret ([7;7;7;3;9;9], Some st, None) /\ sreach (ideal 2) 2 (inb 2) [7;7;7;3;9;9] st /\
     CompressRLE8 (stream_reader (ideal 2) (fun _ => 1)) 9 ([7;7;7;3;9;9], st) (mkWriter [] []) = Ret (mkRes 5 None (mkWriter [7; 7; 1; 3; 9] [])) /\
     exists st', ReadAll (ideal 2) 9 (fun k => Z.of_nat k + 1) [7;7;7;3;9;9] st = Ret ([7;7;7;3;9;9], st', [7;7;7;3;9], None)) /\
  sbytes (fblk 2) [7;7;7;3;9;9] (mkStream 5 0 (new_cache 2 3) O_RDONLY) = [7;7;7;3;9] /\
  CompressRLE8 (stream_reader (ideal 2) (fun _ => 1)) 9 ([7;7;7;3;9;9], mkStream 5 8 (new_cache 2 3) O_RDONLY) (mkWriter [] []) = Ret (mkRes 0 None (mkWriter [] [])).
Proof.
  split; [|split; vm_compute; reflexivity]. eexists. split; [vm_compute; reflexivity|]. split.
  - eapply (sr_new (ideal 2) 2 (inb 2) [7;7;7;3;9;9] 3 5 O_RDONLY); try lia; [vm_compute; split; discriminate|]. vm_compute. reflexivity.
  - split; [vm_compute; reflexivity|]. eexists. vm_compute. reflexivity.
Qed.

(** ** C175 *)
(* In general a first part is delivered, up to the first fetch that fails, and then the error of that fetch; for the codecs
   an error that wraps io.EOF is the end of the input *)
Theorem C175_delivers_exactly : forall S (cb : callbacks S) bs nb blk, honest cb bs nb blk ->
  forall code s st, sreach cb bs nb s st -> io_read (sflags st) = true -> ssize st + 4096 < 2^63 -> bytes (sbytes blk s st) ->
  let rest := slice (spos st) (Z.max 0 (ssize st - spos st)) (sbytes blk s st) in
  exists D e, input_is (stream_reader cb code) (s, st) D e /\ prefix D rest /\
    (e = REOF /\ D = rest \/
     exists s i b x, snd (cb_fetch cb s i b) = Some x /\ e = if is_eof x then REOF else RFail (code (KMsg x))).
Proof.
  intros S cb bs nb blk H code s st Hr Hrd Hf HB rest. open_reach H Hr Hbs I.
  destruct (stream_delivers cb bs nb blk H Hbs code (Z.to_nat (ssize st + 1)) s st I Hrd HB Hf) as (D & e & HD & HP & HE).
  - pose proof I as (_ & Hsz & Hp). lia.
  - exists D, e. split; [exact HD|]. split; [exact HP|exact HE].
Qed.
(* REFUTED: storage that fails with io.EOF, or with an error that wraps it (such as one of a cache below), is never
   reported: what was read until then is compressed as if it were all *)
Theorem C175_eof_refuted : forall S (cb : callbacks S) bs nb blk, honest cb bs nb blk -> (forall s i b x, snd (cb_fetch cb s i b) = Some x -> is_eof x = true) ->
  forall code s st fuel, sreach cb bs nb s st -> io_read (sflags st) = true -> ssize st + 4096 < 2^63 -> bytes (sbytes blk s st) ->
  (Z.to_nat (ssize st) < fuel)%nat ->
  exists D n C, prefix D (slice (spos st) (Z.max 0 (ssize st - spos st)) (sbytes blk s st)) /\
    CompressRLE8 (stream_reader cb code) fuel (s, st) (mkWriter [] []) = Ret (mkRes n None (mkWriter C [])) /\
    compress_rle8 (mkReader D REOF) (mkWriter [] []) = Ret (mkRes n None (mkWriter C [])).
Proof.
  intros S cb bs nb blk H HX code s st fuel Hr Hrd Hf HB Hfu.
  destruct (C175_delivers_exactly S cb bs nb blk H code s st Hr Hrd Hf HB) as (D & e & HD & HP & HE).
  assert (e = REOF) as -> by (destruct HE as [(-> & _)|(s0 & i & b & x & X & ->)]; [reflexivity|now rewrite (HX _ _ _ _ X)]).
  pose proof HP as (Q & HQ). open_reach H Hr Hbs I.
  assert (zlen D <= ssize st) as HL by (pose proof (rest_len cb bs nb blk H Hbs s st I) as RL; unfold rest_of in RL; rewrite HQ, zlen_app in RL; pose proof (zlen_nonneg Q); destruct I as (_ & Hsz & Hp); lia).
  assert (bytes D) as HBD. { assert (bytes (D ++ Q)) as X by (rewrite <- HQ; now apply Forall_slice). now apply Forall_app in X. }
  destruct (C01_rle8_roundtrip D HBD) as (C & nc & nd & EC & _). exists D, nc, C. split; [exact HP|]. split; [|exact EC].
  rewrite (C153_compress (stream_reader cb code) (s, st) D REOF fuel _ (stream_reader_go cb code) HD) by (unfold zlen in HL; lia). exact EC.
Qed.
(* all other failures are reported, with the error of the fetch: without an error everything was compressed *)
Theorem C175_reported_partial : forall S (cb : callbacks S) bs nb blk, honest cb bs nb blk -> (forall s i b x, snd (cb_fetch cb s i b) = Some x -> is_eof x = false) ->
  forall code s st fuel, sreach cb bs nb s st -> io_read (sflags st) = true -> ssize st + 4096 < 2^63 -> bytes (sbytes blk s st) ->
  (Z.to_nat (ssize st) < fuel)%nat ->
  let rest := slice (spos st) (Z.max 0 (ssize st - spos st)) (sbytes blk s st) in
  CompressRLE8 (stream_reader cb code) fuel (s, st) (mkWriter [] []) = compress_rle8 (mkReader rest REOF) (mkWriter [] []) \/
  exists s0 i b x n C, snd (cb_fetch cb s0 i b) = Some x /\
    CompressRLE8 (stream_reader cb code) fuel (s, st) (mkWriter [] []) = Ret (mkRes n (Some (EReader (code (KMsg x)))) (mkWriter C [])).
Proof.
  intros S cb bs nb blk H HX code s st fuel Hr Hrd Hf HB Hfu rest.
  destruct (C175_delivers_exactly S cb bs nb blk H code s st Hr Hrd Hf HB) as (D & e & HD & (Q & HQ) & HE).
  open_reach H Hr Hbs I.
  assert (zlen D <= ssize st) as HL by (pose proof (rest_len cb bs nb blk H Hbs s st I) as RL; unfold rest_of in RL; rewrite HQ, zlen_app in RL; pose proof (zlen_nonneg Q); destruct I as (_ & Hsz & Hp); lia).
  rewrite (C153_compress (stream_reader cb code) (s, st) D e fuel _ (stream_reader_go cb code) HD) by (unfold zlen in HL; lia).
  destruct HE as [(-> & ->)|(s0 & i & b & x & X & ->)]; [left; reflexivity|right]. rewrite (HX _ _ _ _ X).
  destruct (C04_compress_input_failure D (code (KMsg x)) [] REOF) as (n & C & _ & _ & _ & E & _). exists s0, i, b, x, n, C. auto.
Qed.
(* io.ReadAll, which compares with ==, reports every failure: without an error it returned everything *)
Theorem C175_read_all : forall S (cb : callbacks S) bs nb blk, honest cb bs nb blk ->
  forall room s st fuel, (forall k, 0 < room k) -> sreach cb bs nb s st -> io_read (sflags st) = true -> (forall k, ssize st + room k < 2^63) -> bytes (sbytes blk s st) ->
  let rest := slice (spos st) (Z.max 0 (ssize st - spos st)) (sbytes blk s st) in (length rest < fuel)%nat ->
  exists s' st' D e, ReadAll cb fuel room s st = Ret (s', st', D, e) /\ prefix D rest /\
    (e = None /\ D = rest \/ exists s i b x, snd (cb_fetch cb s i b) = Some x /\ e = Some (KMsg x)).
Proof.
  intros S cb bs nb blk H room s st fuel HR Hr Hrd Hf HB rest Hl. open_reach H Hr Hbs I. pose proof (rest_len cb bs nb blk H Hbs s st I) as HL. change (rest_of blk s st) with rest in HL.
  destruct (read_all_spec cb bs nb blk H Hbs room HR fuel 0 s st [] I Hrd HB Hf) as (s' & st' & D & e & E & U & HP & HE).
  - rewrite <- HL. unfold zlen. lia.
  - exists s', st', D, e. split; [exact E|]. split; [exact HP|exact HE].
Qed.
(* a stream that was not opened for reading gives nothing but its error, to both *)
Theorem C175_not_readable S (cb : callbacks S) code s st room fuel : io_read (sflags st) = false ->
  input_is (stream_reader cb code) (s, st) [] (RFail (code (K ErrNotPermitted))) /\
  exists st', ReadAll cb (Datatypes.S fuel) room s st = Ret (s, st', [], Some (K ErrNotPermitted)).
Proof.
  intros Hr. assert (forall n, stream_read cb (s, st) n = Ret (s, st, [], Some (K ErrNotPermitted))) as E.
  { intros n. unfold stream_read, s_read, s_read_at. cbn [fst snd]. rewrite Hr. reflexivity. }
  split; [eapply d_end; unfold stream_reader; rewrite E; reflexivity|]. exists st. unfold ReadAll. cbn [read_all]. rewrite E. reflexivity.
Qed.
(* a good storage in which one block cannot be read *)
Definition damaged (bs j : Z) (x : kerr) : callbacks (list Z) := mkCb (list Z)
  (fun f i buf => if i =? j then (f, buf, Some x) else cb_fetch (ideal bs) f i buf) (cb_flush (ideal bs)) (cb_resize (ideal bs)).
Lemma damaged_honest bs j x : 0 < bs -> honest (damaged bs j x) bs (inb bs) (fblk bs).
Proof.
  intros Hb. destruct (ideal_honest bs Hb) as [H1 H2 H3 H4]. constructor; [exact H1| |exact H3|exact H4].
  intros f i buf f' buf' e Hi Hl. unfold damaged. cbn [cb_fetch]. destruct (i =? j); [|apply (H2 f i buf f' buf' e Hi Hl)].
  intros [= <- <- <-]. repeat split; [exact Hl|discriminate].
Qed.
Lemma damaged_with bs j x s i b y : snd (cb_fetch (damaged bs j x) s i b) = Some y -> y = x.
Proof. unfold damaged. cbn [cb_fetch]. destruct (i =? j); cbn; congruence. Qed.
(* the second of two blocks of 4096 bytes cannot be read; the hypotheses are met *)
Example C175_example :
  let f := zrepeat 7 8192 in let st := mkStream 8192 0 (new_cache 4096 2) O_RDONLY in
  (exists w, CompressRLE8 (stream_reader (damaged 4096 1 KEOF) (fun _ => 5)) 5000 (f, st) (mkWriter [] []) = Ret (mkRes 48 None w)) /\
  (exists w, CompressRLE8 (stream_reader (damaged 4096 1 (KWrap ErrIOFailed KEOF)) (fun _ => 5)) 5000 (f, st) (mkWriter [] []) = Ret (mkRes 48 None w)) /\
  (exists w, CompressRLE8 (stream_reader (damaged 4096 1 (K ErrIOFailed)) (fun _ => 5)) 5000 (f, st) (mkWriter [] []) = Ret (mkRes 0 (Some (EReader 5)) w)) /\
  (exists s' st' D, ReadAll (damaged 4096 1 KEOF) 9 (fun _ => 4096) f st = Ret (s', st', D, Some (KMsg KEOF)) /\ zlen D = 4096).
Proof.
  cbv zeta. split; [eexists; vm_compute; reflexivity|]. split; [eexists; vm_compute; reflexivity|]. split; [eexists; vm_compute; reflexivity|].
  do 3 eexists. split; vm_compute; reflexivity.
Qed.
Example C175_hypotheses x : let f := [7;7;7;3;9;9] in
  honest (damaged 2 1 x) 2 (inb 2) (fblk 2) /\ (forall s i b y, snd (cb_fetch (damaged 2 1 x) s i b) = Some y -> is_eof y = is_eof x) /\
  exists st, s_new (damaged 2 1 x) f 5 (new_cache 2 3) O_RDONLY = Ret (f, Some st, None) /\ sreach (damaged 2 1 x) 2 (inb 2) f st /\
    io_read (sflags st) = true /\ sbytes (fblk 2) f st = [7;7;7;3;9].
Proof.
  cbv zeta. split; [apply damaged_honest; lia|]. split; [intros s i b y E; apply damaged_with in E; now subst|]. eexists. split; [vm_compute; reflexivity|]. split.
  - eapply (sr_new (damaged 2 1 x) 2 (inb 2) [7;7;7;3;9;9] 3 5 O_RDONLY); try lia; [vm_compute; split; discriminate|]. vm_compute. reflexivity.
  - split; vm_compute; reflexivity.
Qed.

Print Assumptions C174_delivers.
Print Assumptions C174_compress.
Print Assumptions C174_image_roundtrip.
Print Assumptions C174_read_all.
Print Assumptions C175_delivers_exactly.
Print Assumptions C175_eof_refuted.
Print Assumptions C175_reported_partial.
Print Assumptions C175_read_all.
Print Assumptions C175_not_readable.
