(** * Props_StreamOutput: C179, a stream as the output of the image codecs *)
From Coq Require Import String.
From Verif Require Import GoBase ListZ Errors Flags BlockCache Spec_BlockCache BlockCacheProofs BlockCacheProofs2 BlockCacheProofs3 BlockCacheProofs4
  BasicStream Spec_BasicStream BasicStreamProofs BasicStreamProofs2 BasicStreamProofs3 Props_BasicStream Rle Spec_Rle RleProofs Props_Rle Bufio Spec_Bufio BufioProofs Props_Bufio
  Image ImageStream Spec_ImageStream ImageStreamProofs Props_ImageStream StreamInput StreamCopy StreamCopyProofs StreamOutput StreamOutputProofs.

(** ** C179 *)
(* Restoring an image onto a stream, over any storage.  [D] and [e] are what the gzip reader delivers, [full] and [fe] the RLE8
   decoding of that; the image has room between the position and the end.  Bytes outside that range never change.  Without an
   error the whole image is there; a bad image and a failed Write are always reported.  On storage that does not fail it
   succeeds if the image ends in the first half of the blocks. *)
Theorem C179_restore_partial : forall S (cb : callbacks S) bs nb blk, honest cb bs nb blk ->
  forall T R (opn : T -> R + Z) (gread : ioreader R) code t r D e fuel s st, opn t = inl r -> go_reader gread -> input_is gread r D e -> (length D < fuel)%nat ->
  sreach cb bs nb s st -> io_write (sflags st) = true -> io_append (sflags st) = false ->
  exists k fe full, decompress_rle8 (mkReader D e) (mkWriter [] []) = mkRes k fe (mkWriter full []) /\
  (spos st + zlen full <= ssize st -> ssize st + bs < 2^63 ->
   exists n err s' st', DecompressImage opn gread (stream_out cb code) fuel t (s, st) = Ret (n, err, (s', st')) /\ ssize st' = ssize st /\
    (forall j, 0 <= j < ssize st -> ~ (spos st <= j < spos st + zlen full) -> znth 0 (sbytes blk s' st') j = znth 0 (sbytes blk s st) j) /\
    (err = None -> fe = None /\ n = zlen full /\ spos st' = spos st + zlen full /\ sbytes blk s' st' = splice (spos st) full (sbytes blk s st)) /\
    (forall x, err = Some x -> err = option_map IRle fe \/ exists y, x = IRle (EWriter (code y))) /\
    (reliable cb -> 2 * ((spos st + zlen full) / bs) + 1 <= total (scache st) -> err = option_map IRle fe)).
Proof.
  intros S cb bs nb blk H T R opn gread code t r D e fuel s st Ho HG Hi Hf Hr Hw Ha. open_reach H Hr Hbs I. rewrite decompress_eq, finish_good. do 3 eexists. split; [reflexivity|]. cbn [app].
  intros Hin Hsz. unfold DecompressImage, DecompressRLE8_s. rewrite Ho, (decompress_s_eq (stream_out cb code) gread HG fuel _ e D (-1) 0 (s, st) (rep_new gread r D e Hi) Hf). cbn [obind].
  set (ws := fst (dec_writes D e (-1))) in *. set (fe := snd (dec_writes D e (-1))) in *.
  destruct (out_all cb bs nb blk H Hbs code ws 0 s st I Hw Ha Hin Hsz) as (s' & st' & n & we & E & I' & F & HS & HO & HN & HX & HR).
  unfold finish_s. rewrite E. pose proof (zlen_nonneg (concat ws)). destruct we as [x|].
  - exists n, (Some (IRle x)), s', st'. split; [reflexivity|]. split; [exact HS|]. split; [exact HO|]. split; [discriminate|]. split.
    + intros y [= <-]. destruct (HX x eq_refl) as (y & ->). eauto.
    + intros Hrel Hh. destruct (HR Hrel) as [_ X]. discriminate (X Hh).
  - destruct (HN eq_refl) as (Hn & HP & HB & _). exists n, (option_map IRle fe), s', st'. split; [reflexivity|]. split; [exact HS|]. split; [exact HO|]. split.
    + intros X. split; [destruct fe; [discriminate|reflexivity]|]. pose proof I as (_ & _ & Hp). rewrite Hn by reflexivity. rewrite Z.add_0_l, i64_id by lia. auto.
    + split; auto.
Qed.
(* REFUTED: an image never goes onto a stream that it fills to the last block: the last Write is refused, whatever the image and
   the block size; the error is reported, but the disk cannot be restored *)
Theorem C179_whole_disk_refuted : forall S (cb : callbacks S) bs nb blk, honest cb bs nb blk -> reliable cb ->
  forall T R (opn : T -> R + Z) (gread : ioreader R) code t r D fuel s st k full, opn t = inl r -> go_reader gread -> input_is gread r D REOF -> (length D < fuel)%nat ->
  sreach cb bs nb s st -> io_write (sflags st) = true -> io_append (sflags st) = false ->
  decompress_rle8 (mkReader D REOF) (mkWriter [] []) = mkRes k None (mkWriter full []) -> full <> [] ->
  spos st + zlen full = ssize st -> ssize st = bs * total (scache st) -> ssize st + bs < 2^63 ->
  exists n s' st', DecompressImage opn gread (stream_out cb code) fuel t (s, st) = Ret (n, Some (IRle (EWriter (code (K ErrArgumentOutOfRange)))), (s', st')).
Proof.
  intros S cb bs nb blk H Hrel T R opn gread code t r D fuel s st k full Ho HG Hi Hf Hr Hw Ha HD Hne Hin Hall Hsz. open_reach H Hr Hbs I. rewrite decompress_eq, finish_good in HD. cbn [app] in HD.
  unfold DecompressImage, DecompressRLE8_s. rewrite Ho, (decompress_s_eq (stream_out cb code) gread HG fuel _ REOF D (-1) 0 (s, st) (rep_new gread r D REOF Hi) Hf). cbn [obind].
  set (ws := fst (dec_writes D REOF (-1))) in *. set (fe := snd (dec_writes D REOF (-1))) in *. injection HD as _ _ <-.
  destruct (out_all cb bs nb blk H Hbs code ws 0 s st I Hw Ha ltac:(lia) Hsz) as (s' & st' & n & we & E & _ & _ & _ & _ & HN & _ & HR).
  unfold finish_s. rewrite E. destruct (HR Hrel) as [[->| ->] _]; [|eauto]. exfalso. destruct (HN eq_refl) as (_ & _ & _ & HL).
  specialize (HL ltac:(intros X; rewrite X in Hne; now apply Hne)). rewrite Hin, Hall, Z.mul_comm, Z.div_mul in HL by lia. lia.
Qed.
(* a stream that was not opened for writing: nothing changes, and unless the image is empty there is an error *)
Theorem C179_not_writable : forall S (cb : callbacks S) T R (opn : T -> R + Z) (gread : ioreader R) code t r D e fuel s st k fe full,
  opn t = inl r -> go_reader gread -> input_is gread r D e -> (length D < fuel)%nat -> io_write (sflags st) = false ->
  decompress_rle8 (mkReader D e) (mkWriter [] []) = mkRes k fe (mkWriter full []) -> full <> [] ->
  DecompressImage opn gread (stream_out cb code) fuel t (s, st) = Ret (0, Some (IRle (EWriter (code (K ErrNotPermitted)))), (s, st)).
Proof.
  intros S cb T R opn gread code t r D e fuel s st k fe full Ho HG Hi Hf Hw HD Hne. rewrite decompress_eq, finish_good in HD. cbn [app] in HD.
  unfold DecompressImage, DecompressRLE8_s. rewrite Ho, (decompress_s_eq (stream_out cb code) gread HG fuel _ e D (-1) 0 (s, st) (rep_new gread r D e Hi) Hf). cbn [obind].
  injection HD as _ _ <-. unfold finish_s. rewrite (out_refused cb code) by exact Hw. destruct (fst (dec_writes D e (-1))); [now destruct Hne|reflexivity].
Qed.
(* Compressing an image into a stream, likewise: [image] is the compressed image *)
Theorem C179_save_partial : forall S (cb : callbacks S) bs nb blk, honest cb bs nb blk ->
  forall T (read : ioreader T) t D e, go_reader read -> input_is read t D e ->
  exists pieces fe k, compress_rle8 (mkReader D e) (mkWriter [] []) = Ret (mkRes k fe (mkWriter (concat pieces) [])) /\
  forall G (g : gzw G) code fuel s st, (length D < fuel)%nat -> sreach cb bs nb s st -> io_write (sflags st) = true -> io_append (sflags st) = false ->
  let image := gz_image g pieces in spos st + zlen image <= ssize st -> ssize st + bs < 2^63 ->
  exists n err s' st', CompressImage g read (stream_out cb code) fuel t (s, st) = Ret (n, err, (s', st')) /\ ssize st' = ssize st /\
    (forall j, 0 <= j < ssize st -> ~ (spos st <= j < spos st + zlen image) -> znth 0 (sbytes blk s' st') j = znth 0 (sbytes blk s st) j) /\
    (err = None -> e = REOF /\ n = zlen image /\ spos st' = spos st + zlen image /\ sbytes blk s' st' = splice (spos st) image (sbytes blk s st)) /\
    (forall x, e = RFail x -> err <> None) /\
    (reliable cb -> 2 * ((spos st + zlen image) / bs) + 1 <= total (scache st) -> err = option_map IRle fe) /\
    (image <> [] -> spos st + zlen image = bs * total (scache st) -> err <> None).
Proof.
  intros S cb bs nb blk H T read t D e HG Hi. destruct (compress_image_run read t D e HG Hi) as (pieces & fe & k & _ & Hk & Hfe & HC). exists pieces, fe, k. split; [exact Hk|].
  intros G g code fuel s st Hf Hr Hw Ha image Hin Hsz. open_reach H Hr Hbs I. specialize (HC G _ g (stream_out cb code) fuel (s, st) Hf). unfold image, gz_image in *. set (ws := gz_calls g (gz_new g) pieces) in *.
  destruct (out_all cb bs nb blk H Hbs code ws 0 s st I Hw Ha Hin Hsz) as (s' & st' & n & we & E & I' & F & HS & HO & HN & _ & HR).
  destruct (do_writes_is _ _ _ _ _ _ _ E) as [ED HWe]. rewrite ED in HC. destruct HC as (err & EC & Hok & Hnone & _).
  exists n, err, s', st'. split; [exact EC|]. split; [exact HS|]. split; [exact HO|]. pose proof (zlen_nonneg (concat ws)). pose proof I as (_ & _ & Hp).
  assert (match we with Some (EWriter x) => Some x | _ => None end = None -> we = None) as HW0 by (destruct we as [x|]; [destruct (HWe x eq_refl) as (y & ->); discriminate|auto]).
  split; [|split; [|split]].
  - intros X. apply Hok in X as [X1 X2]. apply HW0 in X1. destruct (HN X1) as (Hn & HP & HB & _). split; [destruct e; [reflexivity|congruence]|].
    rewrite Hn by reflexivity. rewrite Z.add_0_l, i64_id by lia. auto.
  - intros x -> X. apply Hok in X as [_ X2]. congruence.
  - intros Hrel Hh. apply Hnone. rewrite (proj2 (HR Hrel) Hh). reflexivity.
  - intros Hne Hall X. apply Hok in X as [X1 _]. apply HW0 in X1. destruct (HN X1) as (_ & _ & _ & HL).
    specialize (HL ltac:(intros Y; rewrite Y in Hne; now apply Hne)). rewrite Hall, Z.mul_comm, Z.div_mul in HL by lia. lia.
Qed.
(* a disk of 4 blocks of 2 bytes: three bytes are restored at offset 1; an image of 8 bytes stops after its first byte; an image
   saved behind the first byte, with a gzip that puts 31 after it *)
Example C179_example : let f := [9;9;9;9;9;9;9;9] in let st := mkStream 8 0 (new_cache 2 4) O_RDWR in let st1 := mkStream 8 1 (new_cache 2 4) O_RDWR in
  let num := fun x : kerr => match x with K ErrArgumentOutOfRange => 5 | K ErrNotPermitted => 6 | _ => 7 end in
  let restore := fun C st => DecompressImage (fun t => inl t) (pieces false REOF) (stream_out (ideal 2) num) 9 C (f, st) in
  sreach (ideal 2) 2 (inb 2) f st /\
  (exists s' st', restore [[7;7];[1]] st1 = Ret (3, None, (s', st')) /\ sbytes (fblk 2) s' st' = [9;7;7;7;9;9;9;9] /\ spos st' = 4) /\
  (exists s' st', restore [[7;7;6]] st = Ret (1, Some (IRle (EWriter 5)), (s', st')) /\ sbytes (fblk 2) s' st' = [7;9;9;9;9;9;9;9]) /\
  restore [[7;7;6]] (mkStream 8 0 (new_cache 2 4) O_RDONLY) = Ret (0, Some (IRle (EWriter 6)), (f, mkStream 8 0 (new_cache 2 4) O_RDONLY)) /\
  exists s' st', CompressImage (mkGzw tt (fun s b => (s, [b])) (fun _ => [[31]])) (pieces false REOF) (stream_out (ideal 2) num) 9 [[7]] (f, st1) = Ret (2, None, (s', st')) /\
    sbytes (fblk 2) s' st' = [9;7;31;9;9;9;9;9].
Proof.
  cbv zeta. split; [eapply (sr_new (ideal 2) 2 (inb 2) [9;9;9;9;9;9;9;9] 4 8 O_RDWR); try lia; [vm_compute; split; discriminate|vm_compute; reflexivity]|].
  split; [do 2 eexists; split; [vm_compute; reflexivity|]; split; vm_compute; reflexivity|]. split; [do 2 eexists; split; vm_compute; reflexivity|]. split; [vm_compute; reflexivity|].
  do 2 eexists. split; vm_compute; reflexivity.
Qed.
Print Assumptions C179_restore_partial.
Print Assumptions C179_whole_disk_refuted.
Print Assumptions C179_not_writable.
Print Assumptions C179_save_partial.
