(** * Props_ImageStream: C155, image compression over any reader, any writer and any gzip *)
From Verif Require Import GoBase ListZ Rle Spec_Rle RleProofs Props_Rle Bufio Spec_Bufio BufioProofs Props_Bufio Image ImageStream Spec_ImageStream ImageStreamProofs.

(** ** C155 *)
(* CompressImage always returns, whatever the reader, the writer and gzip do.  Without an error the input was
   read to its end, the output received exactly what gzip makes of the RLE8 form of the input, and the count
   is its length.  With an error the output received a first part of that.  [failed] tells that some Write on
   the output failed: there is no error exactly if none did and the input did not fail, and the input's error
   is reported as it is. *)
Theorem C155_compress {T} (read : ioreader T) t D e : go_reader read -> input_is read t D e ->
  exists bs fe k, compress_rle8 (mkReader D e) (mkWriter [] []) = Ret (mkRes k fe (mkWriter (concat bs) [])) /\
  forall G W (g : gzw G) (wr : iowriter W) got failed fuel w, go_writer wr got -> tells_failures wr failed -> failed w = false -> (length D < fuel)%nat ->
  exists n err w' p, CompressImage g read wr fuel t w = Ret (n, err, w') /\ got w' = got w ++ p /\ prefix p (gz_image g bs) /\
    (err = None -> p = gz_image g bs /\ n = i64 (zlen p)) /\
    (err = None <-> e = REOF /\ failed w' = false) /\
    (failed w' = false -> p = gz_image g bs /\ forall x, e = RFail x -> err = Some (IRle (EReader x))) /\
    (forall x, err = Some (IRle (EReader x)) -> e = RFail x) /\
    err <> Some IOpen /\ err <> Some (IRle EUnexpectedEOF).
Proof.
  intros HG Hi. destruct (compress_image_run read t D e HG Hi) as (bs & fe & k & HC & Hk & Hfe & HR).
  exists bs, fe, k. split; [exact Hk|]. intros G W g wr got failed fuel w HW HF Hw Hf. specialize (HR G W g wr fuel w Hf).
  destruct (do_writes (counting wr) (gz_calls g (gz_new g) bs) (w, 0)) as [[w' cnt] de] eqn:ED. destruct HR as (err & E & Hok & Hnone & Hsome).
  destruct (do_writes_got wr got HW _ _ 0 _ _ _ ED) as (p & Hg & Hp & Hall). pose proof (do_writes_failed wr failed _ HF _ _ _ ED) as Hfl. cbn [fst] in Hfl. rewrite Hw in Hfl. cbn [orb] in Hfl.
  exists cnt, err, w', p. split; [exact E|]. split; [exact Hg|]. split; [exact Hp|].
  assert (de = None <-> failed w' = false) as Hde by (destruct de; rewrite Hfl; split; congruence).
  assert (fe = None <-> e = REOF) as Hfe2 by (destruct e; rewrite Hfe; split; congruence).
  split; [|split; [|split; [|split]]].
  - intros X. apply Hok in X as [X _]. destruct (Hall X) as [-> ->]. rewrite Z.add_0_l. auto.
  - rewrite Hok, Hde, Hfe2. tauto.
  - intros X. apply Hde in X. split; [apply (Hall X)|]. intros x Hx. rewrite (Hnone X). subst e. now rewrite Hfe.
  - intros x Hx. destruct de as [y|].
    + destruct (Hsome y eq_refl) as [H | [H | (z & Hz & H)]]; try congruence. rewrite H in Hx. injection Hx as ->. destruct e; congruence.
    + rewrite (Hnone eq_refl) in Hx. destruct e; rewrite Hfe in Hx; cbn in Hx; congruence.
  - destruct de as [y|].
    + destruct (Hsome y eq_refl) as [H | [H | (z & Hz & H)]]; rewrite H; (split; [discriminate|]); try discriminate. intros [= ->]. destruct e; congruence.
    + rewrite (Hnone eq_refl). destruct e; rewrite Hfe; cbn; split; discriminate.
Qed.

(* DecompressImage: if gzip cannot open the input, that is the error and the output is not touched. *)
Theorem C155_open_failure {T R W} (opn : T -> R + Z) (gread : ioreader R) (wr : iowriter W) fuel t w x : opn t = inr x ->
  DecompressImage opn gread wr fuel t w = Ret (0, Some IOpen, w) /\ DecompressImageToBytes opn gread fuel t = Ret (inr IOpen).
Proof. intros H. unfold DecompressImageToBytes, DecompressImage. rewrite H. auto. Qed.

(* Otherwise, D and e being what the gzip reader delivers and [full] and [fe] the RLE8 decoding of that: the
   output receives [full] or, with an error, a first part of it; an error of gzip (a bad checksum, a cut-off
   input) and a bad RLE8 stream are always reported, and so is a failed Write. *)
Theorem C155_decompress {T R W} (opn : T -> R + Z) (gread : ioreader R) (wr : iowriter W) got failed t r D e fuel w :
  opn t = inl r -> go_reader gread -> input_is gread r D e -> (length D < fuel)%nat -> go_writer wr got -> tells_failures wr failed -> failed w = false ->
  exists k fe full, decompress_rle8 (mkReader D e) (mkWriter [] []) = mkRes k fe (mkWriter full []) /\
  (forall x, e = RFail x -> fe <> None) /\
  exists n err w' p, DecompressImage opn gread wr fuel t w = Ret (n, err, w') /\ got w' = got w ++ p /\ prefix p full /\
    (err = None -> fe = None /\ p = full /\ n = i64 (zlen full)) /\
    (failed w' = false -> p = full /\ err = option_map IRle fe) /\
    (failed w' = true -> exists x, err = Some (IRle (EWriter x))).
Proof.
  intros Ho HG Hi Hf HW HF Hw. rewrite decompress_eq, finish_good. do 3 eexists. split; [reflexivity|]. cbn [app].
  split. { intros x ->. apply (dec_writes_fail x (length D)); lia. }
  unfold DecompressImage, DecompressRLE8_s. rewrite Ho, (decompress_s_eq wr gread HG fuel _ e D (-1) 0 w (rep_new gread r D e Hi) Hf). cbn [obind].
  unfold finish_s. destruct (write_all_s wr (fst (dec_writes D e (-1))) 0 w) as [[n we] w'] eqn:EW.
  destruct (write_all_s_got wr got HW _ _ _ _ _ _ EW) as (p & Hg & Hp & Hall & Herr).
  assert (failed w' = match we with Some _ => true | None => false end) as Hfl.
  { rewrite (write_all_s_failed wr failed _ HF _ _ _ _ _ EW), Hw. reflexivity. }
  destruct we as [x|].
  - destruct (Herr x eq_refl) as [y ->]. exists n, (Some (IRle (EWriter y))), w', p. split; [reflexivity|]. split; [exact Hg|]. split; [exact Hp|].
    split; [discriminate|]. split; [congruence|]. eauto.
  - destruct (Hall eq_refl) as [-> Hn]. exists n, (option_map IRle (snd (dec_writes D e (-1)))), w', (concat (fst (dec_writes D e (-1)))).
    split; [reflexivity|]. split; [exact Hg|]. split; [exact Hp|]. split.
    { destruct (snd (dec_writes D e (-1))); [discriminate|]. intros _. split; [reflexivity|]. split; [reflexivity|]. rewrite Hn by reflexivity. now rewrite Z.add_0_l. }
    split; [auto|congruence].
Qed.
(* DecompressImageToBytes, with its bufio.Writer that is flushed only on success: all the bytes or the error *)
Theorem C155_to_bytes {T R} (opn : T -> R + Z) (gread : ioreader R) t r D e fuel :
  opn t = inl r -> go_reader gread -> input_is gread r D e -> (length D < fuel)%nat ->
  exists k fe full, decompress_rle8 (mkReader D e) (mkWriter [] []) = mkRes k fe (mkWriter full []) /\
  DecompressImageToBytes opn gread fuel t = Ret (match fe with None => inl full | Some x => inr (IRle x) end).
Proof.
  intros Ho HG Hi Hf. rewrite decompress_eq, finish_good. do 3 eexists. split; [reflexivity|]. cbn [app].
  unfold DecompressImageToBytes, DecompressImage, DecompressRLE8_s. rewrite Ho, (decompress_s_eq bufio_buffer gread HG fuel _ e D (-1) 0 _ (rep_new gread r D e Hi) Hf). cbn [obind].
  destruct (bufio_finish (fst (dec_writes D e (-1))) (snd (dec_writes D e (-1))) 0 (mkBw [] None [])) as (n & b' & E & Hb & Hg); [split; [reflexivity|cbn; lia]|].
  rewrite E. cbn [obind]. destruct (snd (dec_writes D e (-1))); cbn [option_map]; [reflexivity|]. rewrite (bw_flush_ok _ Hb), Hg. reflexivity.
Qed.
(* The round trip: whatever reader the image comes from, whatever never-failing writer the compressed image
   goes to, and however it is then read back through gzip. *)
Theorem C155_roundtrip {T U R} (read : ioreader T) t D : go_reader read -> bytes D -> input_is read t D REOF ->
  forall G W W2 (g : gzw G) (wr : iowriter W) got (wr2 : iowriter W2) got2 (read2 : ioreader U) (opn : U -> R + Z) (gread : ioreader R),
  go_writer wr got -> never_fails wr -> go_writer wr2 got2 -> never_fails wr2 -> go_reader gread -> gunzips g read2 opn gread ->
  exists C k, 
    (forall fuel w, (length D < fuel)%nat -> exists w', CompressImage g read wr fuel t w = Ret (i64 (zlen C), None, w') /\ got w' = got w ++ C) /\
    forall u, input_is read2 u C REOF -> forall fuel, (k < fuel)%nat ->
      (forall w, exists w', DecompressImage opn gread wr2 fuel u w = Ret (i64 (zlen D), None, w') /\ got2 w' = got2 w ++ D) /\
      DecompressImageToBytes opn gread fuel u = Ret (inl D).
Proof.
  intros HG HD Hi G W W2 g wr got wr2 got2 read2 opn gread HW HN HW2 HN2 HGR HZ.
  destruct (compress_image_run read t D REOF HG Hi) as (bs & fe & k & HC & Hk & Hfe & HR). subst fe.
  destruct (C01_rle8_roundtrip D HD) as (C & nc & nd & EC & HBC & ED & _). rewrite Hk in EC. injection EC as Ek EC.
  assert (Forall bytes bs) as Hbs. { rewrite <- EC in HBC. apply Forall_concat. exact HBC. }
  exists (gz_image g bs), (length C). split.
  - intros fuel w Hf. specialize (HR G W g wr fuel w Hf). destruct (do_writes (counting wr) (gz_calls g (gz_new g) bs) (w, 0)) as [[w' cnt] de] eqn:E.
    destruct HR as (err & E1 & Hok & _). pose proof (do_writes_never wr (gz_calls g (gz_new g) bs) HN (w, 0)) as Hd. rewrite E in Hd. cbn [snd] in Hd. subst de.
    assert (err = None) as -> by (apply Hok; auto). destruct (do_writes_got wr got HW _ _ 0 _ _ _ E) as (p & Hg & _ & Hall). destruct (Hall eq_refl) as [-> ->].
    rewrite Z.add_0_l in E1. eauto.
  - intros u Hu fuel Hf. destruct (HZ bs u Hbs Hu) as (r & Ho & Hr). rewrite EC in Hr.
    rewrite decompress_eq, finish_good in ED. injection ED as _ EF Ed. cbn [app] in Ed. split.
    + intros w. unfold DecompressImage, DecompressRLE8_s. rewrite Ho, (decompress_s_eq wr2 gread HGR fuel _ REOF C (-1) 0 w (rep_new gread r C REOF Hr) Hf). cbn [obind].
      unfold finish_s. destruct (write_all_s wr2 (fst (dec_writes C REOF (-1))) 0 w) as [[n we] w'] eqn:EW.
      destruct (write_all_s_got wr2 got2 HW2 _ _ _ _ _ _ EW) as (p & Hg & _ & Hall & _). pose proof (write_all_s_never wr2 (fst (dec_writes C REOF (-1))) HN2 0 w) as X. rewrite EW in X. cbn [fst snd] in X. subst we.
      destruct (Hall eq_refl) as [-> Hn]. rewrite Hn, Z.add_0_l, Ed in * by reflexivity. rewrite EF. exists w'. cbn [option_map]. auto.
    + destruct (C155_to_bytes opn gread u r C REOF fuel Ho HGR Hr Hf) as (k2 & fe & full & E1 & E2). rewrite E2. rewrite decompress_eq, finish_good, EF, Ed in E1. injection E1 as _ <- <-. reflexivity.
Qed.

(** ** the hypotheses can be met *)
(* a reader over a list, and a "gzip" that stores: a header byte 31, then every block as it comes *)
Definition list_reader : ioreader (list Z) := fun t n =>
  match t with [] => ([], [], Some REOF) | _ => (slice n (zlen t - n) t, map u8 (slice 0 n t), None) end.
Definition stored : gzw bool := mkGzw false (fun s b => (true, (if s then [] else [[31]]) ++ [b])) (fun s => if s then [] else [[31]]).
Definition stored_open (t : list Z) : list Z + Z := match t with c :: t' => if u8 c =? 31 then inl t' else inr 1 | [] => inr 2 end.
(* a writer that takes [room] bytes and then fails with error 28 *)
Definition room_write : iowriter (list Z * Z * bool) := fun '(w, room, f) b =>
  if zlen b <=? room then ((w ++ b, room - zlen b, f), zlen b, None) else ((w ++ slice 0 (Z.max 0 room) b, 0, true), Z.max 0 room, Some 28).
Example C155_hypotheses :
  go_reader list_reader /\ (forall t, bytes t -> input_is list_reader t t REOF) /\ gunzips stored list_reader stored_open list_reader /\
  go_writer buffer_write (fun w => w) /\ never_fails buffer_write /\ go_writer room_write (fun w => fst (fst w)) /\ tells_failures room_write (fun w => snd w).
Proof.
  assert (go_reader list_reader) as HG.
  { intros [|x t] n t' c e Hn; cbn [list_reader]; intros [= <- <- <-]; (split; [|try constructor]).
    - unfold zlen. cbn [length]. lia.
    - unfold zlen, slice. rewrite map_length, firstn_length. lia.
    - apply Forall_map, Forall_forall. intros y _. pose proof (u8_bytes [y]) as X. now inversion X. }
  assert (forall m t, (length t <= m)%nat -> input_is list_reader t (map u8 t) REOF) as HI.
  { induction m as [|m IH]; intros [|x t] Hm; cbn [length] in Hm; try lia; try (apply (d_end list_reader 99 [] [] [] REOF); reflexivity).
    set (l := x :: t). assert (l = slice 0 4096 l ++ slice 4096 (zlen l - 4096) l) as El.
    { unfold slice. cbn [Z.to_nat skipn]. rewrite (firstn_all2 (skipn _ l)); [symmetry; apply firstn_skipn|]. rewrite skipn_length. unfold zlen. lia. }
    rewrite El at 2. rewrite map_app. apply (d_more list_reader 99 l (slice 4096 (zlen l - 4096) l)); [reflexivity| |].
    - subst l. change (slice 0 4096 (x :: t)) with (firstn (S 4095) (x :: t)). rewrite firstn_cons. discriminate.
    - apply IH. unfold slice. rewrite firstn_length, skipn_length. subst l. cbn [length]. lia. }
  assert (forall b, bytes b -> map u8 b = b) as HU.
  { induction b as [|y b IHb]; intros H; [reflexivity|]. inversion H; subst. cbn. rewrite IHb by auto. f_equal. apply u8_small. assumption. }
  split; [exact HG|]. split; [intros t Ht; specialize (HI (length t) t (le_n _)); rewrite (HU t Ht) in HI; exact HI|]. split.
  { intros bs t Hbs Ht. destruct (C153_deterministic list_reader 100 t _ _ _ _ Ht (HI (length t) t (le_n _))) as [E _].
    assert (forall bs, concat (gz_calls stored true bs) = concat bs) as HT.
    { clear. intros l. induction l as [|b l IH]; [reflexivity|]. cbn. cbn in IH. now rewrite IH. }
    assert (gz_image stored bs = 31 :: concat bs) as EI. { destruct bs as [|b bs]; [reflexivity|]. unfold gz_image. cbn. now rewrite HT. }
    rewrite EI in E. destruct t as [|c t]; [discriminate|]. cbn [map] in E. injection E as E1 E2. exists t. unfold stored_open. rewrite <- E1. cbn [Z.eqb Pos.eqb].
    split; [reflexivity|]. rewrite E2. apply (HI (length t)). lia. }
  split; [intros w b w' n e; unfold buffer_write; intros [= <- <- <-]; rewrite slice_all; pose proof (zlen_nonneg b); repeat split; lia|].
  split; [intros w b; reflexivity|]. split.
  - intros [[w room] f] b w' n e. unfold room_write. pose proof (zlen_nonneg b). destruct (Z.leb_spec (zlen b) room); intros [= <- <- <-]; cbn [fst].
    + rewrite slice_all. repeat split; try lia.
    + split; [lia|]. split; [discriminate|reflexivity].
  - intros [[w room] f] b w' n e. unfold room_write. destruct (Z.leb_spec (zlen b) room); intros [= <- <- <-]; cbn [snd]; [now rewrite orb_false_r|now rewrite orb_true_r].
Qed.
(* a disk of 300 zeros and a 7, all of it; then into six bytes, where a Write fails while RLE8 runs *)
Example C155_example :
  CompressImage stored list_reader buffer_write 400 (repeat 0 300 ++ [7]) [] = Ret (8, None, [31; 0; 0; 255; 0; 0; 41; 7]) /\
  CompressImage stored list_reader room_write 400 (repeat 0 300 ++ [7]) ([], 6, false) = Ret (4, Some (IRle (EWriter 28)), ([31; 0; 0; 255; 0; 0], 0, true)) /\
  DecompressImageToBytes stored_open list_reader 400 [31; 0; 0; 255; 0; 0; 41; 7] = Ret (inl (repeat 0 300 ++ [7])) /\
  DecompressImageToBytes stored_open list_reader 400 [31; 0; 0] = Ret (inr (IRle EUnexpectedEOF)) /\
  DecompressImageToBytes stored_open list_reader 400 [30; 0; 0] = Ret (inr IOpen).
Proof. vm_compute. repeat split. Qed.
Print Assumptions C155_compress.
Print Assumptions C155_open_failure.
Print Assumptions C155_decompress.
Print Assumptions C155_to_bytes.
Print Assumptions C155_roundtrip.
