(** * Property theorems C116-C119: command line tools and test helpers (proofs in ToolsProofs). *)
From Coq Require Import String.
From Verif Require Import GoBase ListZ Errors Spec_Path Rle Spec_Rle RleProofs Image ImageProofs BlockCache Spec_BlockCache CmdTools Spec_Tools ToolsProofs.

(** ** C116.  [fresh]: the number of the file os.Create makes is not in use.  [only_changes h h' out o]: [out] leads to
    file o in h', every other path leads where it led in h, and all files but o have the contents they had in h. *)
(* zipimage exits with 0: the output decompresses to the input, the input and everything else is as it was *)
Theorem C116_zip g e p src out h h' i : zip_main g e [p; src; out] h = Ret (0, h') -> ino h src = Some i -> bytes (bytes_of h i) ->
  ino h out <> Some i -> fresh e h -> close_cut e = None ->
  (forall X, gz_decode g (concat (gz_encode g X)) = Some (mkReader X REOF)) ->
  exists o m, only_changes h h' out o /\ decompress_image g (bytes_of h' o) (mkWriter [] []) = (m, None, mkWriter (bytes_of h i) []).
Proof. apply zip_success. Qed.
Theorem C116_unzip g e p src out h h' i : unzip_main g e [p; src; out] h = (0, h') -> ino h src = Some i ->
  ino h out <> Some i -> fresh e h -> close_cut e = None ->
  exists o m, only_changes h h' out o /\ decompress_image g (bytes_of h i) (mkWriter [] []) = (m, None, mkWriter (bytes_of h' o) []).
Proof. apply unzip_success. Qed.
(* zip, then unzip, on a healthy system: both succeed and the third file is the first *)
Theorem C116_roundtrip g e e2 p src zip out h i : ino h src = Some i -> bytes (bytes_of h i) ->
  ino h zip <> Some i -> zip <> src -> fresh e h ->
  may_open e src = true -> may_create e zip = true -> read_end e = REOF -> write_plan e = [] -> close_cut e = None ->
  (forall X, gz_decode g (concat (gz_encode g X)) = Some (mkReader X REOF)) ->
  exists h1 o, zip_main g e [p; src; zip] h = Ret (0, h1) /\ only_changes h h1 zip o /\
    (ino h1 out <> Some o -> fresh e2 h1 -> may_open e2 zip = true -> may_create e2 out = true -> write_plan e2 = [] -> close_cut e2 = None ->
     exists h2 o2, unzip_main g e2 [p; zip; out] h1 = (0, h2) /\ only_changes h1 h2 out o2 /\ bytes_of h2 o2 = bytes_of h i).
Proof.
  intros Hi Hb Hne Hzs Hf H1 H2 H3 H4 H5 Hg. destruct (zip_works g e p src zip h i Hi Hb Hne Hf H1 H2 H3 H4) as (h1 & EZ).
  destruct (zip_success g e p src zip h h1 i EZ Hi Hb Hne Hf H5 Hg) as (o & m & HC & HD). exists h1, o. split; [exact EZ|]. split; [exact HC|].
  intros Hne2 Hf2 O1 O2 O3 O4. destruct (unzip_works g e2 p zip out h1 o m _ (proj1 HC) Hne2 Hf2 O1 O2 O3 HD) as (h2 & EU).
  destruct (unzip_success g e2 p zip out h1 h2 o EU (proj1 HC) Hne2 Hf2 O4) as (o2 & m2 & HC2 & HD2). exists h2, o2. split; [exact EU|]. split; [exact HC2|].
  rewrite HD in HD2. now injection HD2.
Qed.
(* zipimage always ends, with an exit code, on every host and under every failure (unzipimage is a total function) *)
Theorem C116_zip_ends g e args h : exists c h', zip_main g e args h = Ret (c, h').
Proof.
  unfold zip_main. destruct args as [|p [|src [|out [|]]]]; eauto. destruct (open_both e src out h) as [h1 [[i o]|k]]; [|eauto].
  unfold compress_image. destruct (compress_faithful (bytes_of h1 i) (read_end e) (mkWriter [] [])) as (n & full & fe & res & E & _). rewrite E.
  cbn [rwriter rerr wout]. destruct (counted_writes _ _ _) as [[m ce] w]. destruct fe; [eauto|]. destruct ce; eauto.
Qed.
(* the exit code is 0, 1 or 2, and 1 means that nothing was touched *)
Theorem C116_exit_codes g e args h : (forall c h', zip_main g e args h = Ret (c, h') -> (c = 0 \/ c = 1 \/ c = 2) /\ (c = 1 -> h' = h) /\ (zlen args <> 3 -> c = 1)) /\
  (forall c h', unzip_main g e args h = (c, h') -> (c = 0 \/ c = 1 \/ c = 2) /\ (c = 1 -> h' = h) /\ (zlen args <> 3 -> c = 1)).
Proof.
  split; intros c h'.
  - unfold zip_main. destruct args as [|p [|src [|out [|]]]]; try (intros [= <- <-]; auto). destruct (open_both e src out h) as [h1 [[i o]|k]] eqn:EO.
    + destruct (compress_image _ _ _) as [[[n [x|]] w]| |]; try discriminate; intros [= <- <-]; (split; [auto|]); (split; [discriminate|]); intros X; exfalso; apply X; reflexivity.
    + destruct (open_both_code _ _ _ _ _ _ EO) as [-> ->]. intros [= <- <-]. auto.
  - unfold unzip_main. destruct args as [|p [|src [|out [|]]]]; try (intros [= <- <-]; auto). destruct (open_both e src out h) as [h1 [[i o]|k]] eqn:EO.
    + destruct (decompress_image _ _ _) as [[n [x|]] w]; intros [= <- <-]; (split; [auto|]); (split; [discriminate|]); intros X; exfalso; apply X; reflexivity.
    + destruct (open_both_code _ _ _ _ _ _ EO) as [-> ->]. intros [= <- <-]. auto.
Qed.
(* REFUTED 1: input and output paths lead to the same file.  zipimage destroys the input whatever it contains and
   exits with 0; unzipimage destroys it too. *)
Theorem C116_same_file_refuted g e p src out h i : ino h src = Some i -> ino h out = Some i ->
  may_open e src = true -> may_create e out = true -> read_end e = REOF -> write_plan e = [] -> close_cut e = None ->
  (exists h', zip_main g e [p; src; out] h = Ret (0, h') /\ bytes_of h' i = concat (gz_encode g [])) /\
  (gz_decode g [] = None -> exists h', unzip_main g e [p; src; out] h = (2, h') /\ bytes_of h' i = []).
Proof.
  intros Hi Ho H1 H2 H3 H4 H5. unfold zip_main, unzip_main, open_both. rewrite Hi, Ho, H1, H2, H3, H4. cbn [put bytes_of]. rewrite Z.eqb_refl. split.
  - rewrite compress_empty. eexists. split; [reflexivity|]. unfold closed. rewrite H5. cbn [put bytes_of wout]. now rewrite Z.eqb_refl.
  - intros HG. unfold decompress_image. rewrite HG. eexists. split; [reflexivity|]. unfold closed. rewrite H5. cbn [put bytes_of wout]. now rewrite Z.eqb_refl.
Qed.
(* REFUTED 2: the error of closing the output is dropped: exit code 0 and a truncated output *)
Theorem C116_close_error_refuted g e p src out h i k : ino h src = Some i -> bytes (bytes_of h i) -> ino h out <> Some i -> fresh e h ->
  may_open e src = true -> may_create e out = true -> read_end e = REOF -> write_plan e = [] -> close_cut e = Some k -> 0 <= k ->
  exists h' o, zip_main g e [p; src; out] h = Ret (0, h') /\ only_changes h h' out o /\ zlen (bytes_of h' o) <= k.
Proof.
  intros Hi Hb Hne Hf H1 H2 H3 H4 H5 Hk. destruct (zip_works g e p src out h i Hi Hb Hne Hf H1 H2 H3 H4) as (h' & E). exists h'.
  enough (exists o, only_changes h h' out o /\ zlen (bytes_of h' o) <= k) as (o & X) by (exists o; split; [exact E|exact X]).
  revert E. unfold zip_main. destruct (open_both e src out h) as [h1 [[i0 o]|c]] eqn:EO.
  2:{ destruct (open_both_code _ _ _ _ _ _ EO) as [-> _]. discriminate. }
  destruct (open_both_ok _ _ _ _ _ _ _ EO) as (_ & _ & _ & HC & _). destruct (compress_image _ _ _) as [[[n [x|]] w]| |]; try discriminate. intros [= <-].
  destruct (put_changes h h1 out o (closed e (wout w)) HC) as [HC' EB]. exists o. split; [exact HC'|]. rewrite EB. unfold closed. rewrite H5.
  pose proof (zlen_nonneg (wout w)). rewrite zlen_slice by lia. lia.
Qed.
(* REFUTED 3: a failing run does not leave an existing output alone: it is emptied first *)
Theorem C116_failure_destroys_output_refuted g e p src out h i o : ino h src = Some i -> ino h out = Some o -> i <> o ->
  may_open e src = true -> may_create e out = true -> gz_decode g (bytes_of h i) = None ->
  exists h', unzip_main g e [p; src; out] h = (2, h') /\ bytes_of h' o = [].
Proof.
  intros Hi Ho Hne H1 H2 HG. unfold unzip_main, open_both. rewrite Hi, Ho, H1, H2. cbn [put bytes_of]. destruct (Z.eqb_spec i o); [contradiction|].
  unfold decompress_image. rewrite HG. eexists. split; [reflexivity|]. cbn [put bytes_of wout]. rewrite Z.eqb_refl. unfold closed. destruct (close_cut e); [|reflexivity].
  unfold slice. cbn. destruct (Z.to_nat 0); now rewrite firstn_nil.
Qed.
(* a stored-block codec and a host with one file *)
Definition store : gzip := mkGzip (fun X => [[31]; X]) (fun C => match C with 31 :: X => Some (mkReader X REOF) | _ => None end).
Definition one : host := mkHost (fun q => if list_eq_dec Z.eq_dec q (B "a") then Some 1 else None) (fun j => if j =? 1 then B "aaaab" else []).
Definition calm (n : Z) : env := mkEnv (fun _ => true) (fun _ => true) n REOF [] None.
Example C116_example : fresh (calm 2) one /\ (forall X, gz_decode store (concat (gz_encode store X)) = Some (mkReader X REOF)) /\
  (exists h1 h2, zip_main store (calm 2) [B "zipimage"; B "a"; B "z"] one = Ret (0, h1) /\ ino h1 (B "z") = Some 2 /\ bytes_of h1 2 = [31; 97; 97; 2; 98] /\
     unzip_main store (calm 3) [B "unzipimage"; B "z"; B "b"] h1 = (0, h2) /\ bytes_of h2 3 = B "aaaab") /\
  (exists h1, zip_main store (calm 2) [B "zipimage"; B "a"; B "a"] one = Ret (0, h1) /\ bytes_of h1 1 = [31]).
Proof.
  split; [unfold fresh, one, calm; cbn [ino new_ino]; intros q; destruct (list_eq_dec Z.eq_dec q (B "a")); discriminate|]. split; [intros X; cbn; now rewrite app_nil_r|]. split.
  - do 2 eexists. split; [vm_compute; reflexivity|]. split; [vm_compute; reflexivity|]. split; [vm_compute; reflexivity|]. split; [vm_compute; reflexivity|]. vm_compute. reflexivity.
  - eexists. split; vm_compute; reflexivity.
Qed.

(** ** C117 *)
(* REFUTED: "disko format" does nothing, and reports success *)
Theorem C117_format_refuted args h : format_image args h = (h, None).
Proof. reflexivity. Qed.

(** ** C118 *)
(* LoadDiskImage returns the image or aborts: it returns the decompressed bytes if and only if there is input, it is
   intact, and the size is the one asked for (modulo 2^64) *)
Theorem C118_load g C ss ts D : 0 <= ss < 2^64 -> 0 <= ts < 2^64 -> zlen D < 2^63 ->
  (load_disk_image g C ss ts = Some D <->
   C <> [] /\ (exists m, decompress_image g C (mkWriter [] []) = (m, None, mkWriter D [])) /\ zlen D = (ss * ts) mod 2^64).
Proof.
  intros Hs Ht HD. unfold load_disk_image, decompress_image_to_bytes. pose proof (zlen_nonneg D).
  assert (zlen C >? 0 = true <-> C <> []) as HC by (destruct C; [split; [discriminate|congruence]|rewrite zlen_cons; pose proof (zlen_nonneg C); split; [discriminate|intros _; lia]]).
  assert (exists m err full, decompress_image g C (mkWriter [] []) = (m, err, mkWriter full [])) as (m & err & full & ED).
  { unfold decompress_image. destruct (gz_decode g C) as [[d t]|]; [|do 3 eexists; reflexivity]. destruct (decompress_faithful d t (mkWriter [] [])) as (n & full & ferr & E & _). rewrite E. do 3 eexists. reflexivity. }
  rewrite ED. destruct (zlen C >? 0) eqn:EC.
  - destruct err as [x|].
    + split; [discriminate|]. intros (_ & (m' & [=]) & _).
    + cbn [wout]. unfold u64. rewrite (Z.mul_comm ss ts). destruct (_ =? _) eqn:EQ.
      * split; [intros [= ->]|intros (_ & (m' & [= _ ->]) & _); reflexivity]. split; [now apply HC|]. split; [eauto|]. rewrite (Z.mod_small (zlen D)) in EQ by lia. lia.
      * split; [discriminate|]. intros (_ & (m' & [= _ ->]) & E). rewrite (Z.mod_small (zlen D)) in EQ by lia. lia.
  - split; [discriminate|]. intros (X & _). apply HC in X. discriminate.
Qed.
(* so an image made by CompressImage loads as what it was *)
Theorem C118_load_compressed g D n C ss ts : bytes D -> (forall X, gz_decode g (concat (gz_encode g X)) = Some (mkReader X REOF)) ->
  compress_image g (mkReader D REOF) (mkWriter [] []) = Ret (n, None, mkWriter C []) -> C <> [] ->
  0 <= ss < 2^64 -> 0 <= ts < 2^64 -> ss * ts = zlen D -> zlen D < 2^63 -> load_disk_image g C ss ts = Some D.
Proof.
  intros Hb Hg HC Hne Hs Ht Hz HD. apply C118_load; auto. split; [exact Hne|]. split.
  - destruct (image_roundtrip g D Hb Hg) as (C' & n' & m & E & _ & E2 & _). rewrite HC in E. injection E as _ <-. eauto.
  - rewrite Hz. symmetry. apply Z.mod_small. pose proof (zlen_nonneg D). lia.
Qed.
(* "its size is fixed to sectorSize * totalSectors" fails when the product does not fit into a uint *)
Theorem C118_size_refuted : exists C, load_disk_image store C (2^32) (2^32) = Some [] /\ C <> [].
Proof. exists [31]. split; [vm_compute; reflexivity|discriminate]. Qed.
Example C118_example : load_disk_image store [31; 97; 97; 2; 98] 1 5 = Some (B "aaaab") /\ load_disk_image store [31; 97; 97; 2; 98] 2 2 = None /\ load_disk_image store [] 0 0 = None.
Proof. vm_compute. auto. Qed.

(** ** C119 *)
(* CreateDefaultCache: whatever a test does with a writable cache, or with reading (and flushing) only on a read-only
   one, the helper never fails the test, and the cache is an array that starts as the backing data *)
Theorem C119_no_alarm bs total writable b os : 0 < bs < 2^59 -> 0 <= total -> total * bs < 2^63 -> total * bs <= zlen b ->
  Forall (op_ok bs) os -> writable = true \/ Forall reading os ->
  exists b' c' rs A', exec (test_cb bs total writable) (b, false) (new_cache bs total) os = Ret ((b', false), c', rs) /\
    array_run bs (slice 0 (total * bs) b) os rs A'.
Proof. apply test_run. Qed.
(* what the callbacks do when they are misused: the backing data is as it was, the error is the documented one, and the
   test fails (a refused resize only returns its error) *)
Theorem C119_alarm bs total writable b failed i buf :
  (total <= i -> cb_fetch (test_cb bs total writable) (b, failed) i buf = ((b, true), buf, Some (K ErrIOFailed))) /\
  (total <= i -> writable = true -> cb_flush (test_cb bs total writable) (b, failed) i buf = ((b, true), Some (K ErrIOFailed))) /\
  (writable = false -> cb_flush (test_cb bs total writable) (b, failed) i buf = ((b, true), Some (K ErrReadOnlyFileSystem))) /\
  cb_resize (test_cb bs total writable) (b, failed) i = ((b, failed), Some (K ErrNotSupported)).
Proof.
  unfold test_cb. cbn [cb_fetch cb_flush cb_resize fst snd]. split; [|split; [|split]]; [intros H; replace (i >=? total) with true by lia; reflexivity|intros H ->; replace (i >=? total) with true by lia; reflexivity|intros ->; reflexivity|reflexivity].
Qed.
(* and writing to a read-only cache does fail the test when it is flushed *)
Example C119_example :
  (exists c rs, exec (test_cb 2 2 false) ([1;2;3;4], false) (new_cache 2 2) [OWrite 0 [9]; OFlush] = Ret (([1;2;3;4], true), c, rs)) /\
  (exists c rs, exec (test_cb 2 2 false) ([1;2;3;4], false) (new_cache 2 2) [ORead 0 3; OFlush; ORead 1 4] = Ret (([1;2;3;4], false), c, rs)) /\
  (exists c rs, exec (test_cb 2 2 true) ([1;2;3;4;5], false) (new_cache 2 2) [OWrite 1 [9]; OFlush; OWrite 2 [7]; OResize 7] = Ret (([1;2;9;4;5], false), c, rs)).
Proof. split; [|split]; do 2 eexists; vm_compute; reflexivity. Qed.

Print Assumptions C116_zip.
Print Assumptions C116_zip_ends.
Print Assumptions C116_unzip.
Print Assumptions C116_roundtrip.
Print Assumptions C116_exit_codes.
Print Assumptions C116_same_file_refuted.
Print Assumptions C116_close_error_refuted.
Print Assumptions C116_failure_destroys_output_refuted.
Print Assumptions C117_format_refuted.
Print Assumptions C118_load.
Print Assumptions C118_load_compressed.
Print Assumptions C118_size_refuted.
Print Assumptions C119_no_alarm.
Print Assumptions C119_alarm.

(** ** The parts that hold of claims refuted above, as claims of their own (the examples above are theirs too) *)
Theorem C146_roundtrip g e e2 p src zip out h i : ino h src = Some i -> bytes (bytes_of h i) ->
  ino h zip <> Some i -> zip <> src -> fresh e h ->
  may_open e src = true -> may_create e zip = true -> read_end e = REOF -> write_plan e = [] -> close_cut e = None ->
  (forall X, gz_decode g (concat (gz_encode g X)) = Some (mkReader X REOF)) ->
  exists h1 o, zip_main g e [p; src; zip] h = Ret (0, h1) /\ only_changes h h1 zip o /\
    (ino h1 out <> Some o -> fresh e2 h1 -> may_open e2 zip = true -> may_create e2 out = true -> write_plan e2 = [] -> close_cut e2 = None ->
     exists h2 o2, unzip_main g e2 [p; zip; out] h1 = (0, h2) /\ only_changes h1 h2 out o2 /\ bytes_of h2 o2 = bytes_of h i).
Proof. apply C116_roundtrip. Qed.
Theorem C146_zip g e p src out h h' i : zip_main g e [p; src; out] h = Ret (0, h') -> ino h src = Some i -> bytes (bytes_of h i) ->
  ino h out <> Some i -> fresh e h -> close_cut e = None ->
  (forall X, gz_decode g (concat (gz_encode g X)) = Some (mkReader X REOF)) ->
  exists o m, only_changes h h' out o /\ decompress_image g (bytes_of h' o) (mkWriter [] []) = (m, None, mkWriter (bytes_of h i) []).
Proof. apply C116_zip. Qed.
Theorem C146_unzip g e p src out h h' i : unzip_main g e [p; src; out] h = (0, h') -> ino h src = Some i ->
  ino h out <> Some i -> fresh e h -> close_cut e = None ->
  exists o m, only_changes h h' out o /\ decompress_image g (bytes_of h i) (mkWriter [] []) = (m, None, mkWriter (bytes_of h' o) []).
Proof. apply C116_unzip. Qed.
Theorem C146_exit_codes g e args h : (forall c h', zip_main g e args h = Ret (c, h') -> (c = 0 \/ c = 1 \/ c = 2) /\ (c = 1 -> h' = h) /\ (zlen args <> 3 -> c = 1)) /\
  (forall c h', unzip_main g e args h = (c, h') -> (c = 0 \/ c = 1 \/ c = 2) /\ (c = 1 -> h' = h) /\ (zlen args <> 3 -> c = 1)).
Proof. apply C116_exit_codes. Qed.
Theorem C147_load_compressed g D n C ss ts : bytes D -> (forall X, gz_decode g (concat (gz_encode g X)) = Some (mkReader X REOF)) ->
  compress_image g (mkReader D REOF) (mkWriter [] []) = Ret (n, None, mkWriter C []) -> C <> [] ->
  0 <= ss < 2^64 -> 0 <= ts < 2^64 -> ss * ts = zlen D -> zlen D < 2^63 -> load_disk_image g C ss ts = Some D.
Proof. apply C118_load_compressed. Qed.
Theorem C147_load_exact g C ss ts D : 0 <= ss -> 0 <= ts -> ss < 2^64 -> ts < 2^64 -> ss * ts < 2^63 -> zlen D < 2^63 ->
  (load_disk_image g C ss ts = Some D <->
   C <> [] /\ (exists m, decompress_image g C (mkWriter [] []) = (m, None, mkWriter D [])) /\ zlen D = ss * ts).
Proof.
  intros H1 H2 H3 H4 H5 HD. rewrite (C118_load g C ss ts D) by auto. rewrite (Z.mod_small (ss * ts)) by nia. reflexivity.
Qed.
Print Assumptions C146_roundtrip.
Print Assumptions C146_zip.
Print Assumptions C146_unzip.
Print Assumptions C146_exit_codes.
Print Assumptions C147_load_compressed.
Print Assumptions C147_load_exact.
