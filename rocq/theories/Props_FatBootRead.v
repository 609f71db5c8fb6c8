(** * Props_FatBootRead: C169, reading a FAT boot sector from any io.Reader
    ([NewFATBootSectorFromStream false] is the code, [true] the code with the fields of the raw header exported). *)
From Verif Require Import GoBase ListZ Errors Rle Bufio Spec_Fat FatBoot FatProofs Props_Fat FatBootRead Spec_FatBootRead FatBootReadProofs.

(* too few bytes for the header: the reader's own error, wrapped in ErrIOFailed *)
Theorem C169_short {T} (read : ioreader T) holds settable k t D e : byte_source read holds -> holds k t D e -> zlen D < 36 ->
  exists N t', forall fuel, (N <= fuel)%nat -> NewFATBootSectorFromStream read settable fuel t = Ret (t', inr (KWrap ErrIOFailed (too_short D e))).
Proof.
  intros HS H Hs. destruct (read_full_short read holds HS (length D) k t D e [] 36 eq_refl H Hs) as (N & t' & HN). exists N, t'. intros fuel Hf.
  unfold NewFATBootSectorFromStream. now rewrite HN.
Qed.
(* the code as it is: a header that can be read panics *)
Theorem C169_panics_refuted {T} (read : ioreader T) holds k t D e : byte_source read holds -> holds k t D e -> 36 <= zlen D ->
  exists N, forall fuel, (N <= fuel)%nat -> NewFATBootSectorFromStream read false fuel t = Panic.
Proof.
  intros HS H Hs. destruct (read_full_enough read holds HS 36 k t D e [] 36 H eq_refl Hs) as (N & t' & k' & _ & HN). exists N. intros fuel Hf.
  unfold NewFATBootSectorFromStream. now rewrite HN.
Qed.
(* with the fields exported, a header but not the four bytes after it: again the reader's error *)
Theorem C169_cut_partial {T} (read : ioreader T) holds k t D e : byte_source read holds -> holds k t D e -> 36 <= zlen D < 40 ->
  exists N t', forall fuel, (N <= fuel)%nat -> NewFATBootSectorFromStream read true fuel t = Ret (t', inr (KWrap ErrIOFailed (too_short (skipn 36 D) e))).
Proof.
  intros HS H [Hs Hs2]. destruct (read_full_enough read holds HS 36 k t D e [] 36 H eq_refl Hs) as (N & t1 & k1 & H1 & HN).
  destruct (read_full_short read holds HS (length (skipn 36 D)) k1 t1 (skipn 36 D) e [] 4 eq_refl H1) as (N2 & t2 & HN2). { unfold zlen in *. rewrite skipn_length. cbn [length]. lia. }
  exists (N + N2)%nat, t2. intros fuel Hf. unfold NewFATBootSectorFromStream. rewrite HN by lia. cbn [obind negb]. now rewrite HN2 by lia.
Qed.
(* and forty bytes or more: the result is that of the bytes (C71-C73), however they arrive, and exactly forty are taken *)
Theorem C169_forty_partial {T} (read : ioreader T) holds k t D e : byte_source read holds -> holds k t D e -> 40 <= zlen D ->
  exists N t' k', holds k' t' (skipn 40 D) e /\ forall fuel, (N <= fuel)%nat ->
    match new_boot true (firstn 40 D) with
    | Ret r => NewFATBootSectorFromStream read true fuel t = Ret (t', r)
    | _ => NewFATBootSectorFromStream read true fuel t = Panic
    end.
Proof.
  intros HS H Hs. destruct (read_full_enough read holds HS 36 k t D e [] 36 H eq_refl ltac:(lia)) as (N & t1 & k1 & H1 & HN).
  destruct (read_full_enough read holds HS 4 k1 t1 (skipn 36 D) e [] 4 H1 eq_refl) as (N2 & t2 & k2 & H2 & HN2). { unfold zlen in *. rewrite skipn_length. lia. }
  exists (N + N2)%nat, t2, k2. split. { rewrite skipn_skipn in H2. exact H2. }
  intros fuel Hf. unfold NewFATBootSectorFromStream. rewrite HN by lia. cbn [obind negb app]. rewrite HN2 by lia. cbn [obind app].
  assert (L : zlen (firstn 40 D) = 40) by (unfold zlen in *; rewrite firstn_length; lia).
  unfold new_boot. rewrite L. cbn [Z.ltb Z.compare Pos.compare Pos.compare_cont negb].
  assert (E1 : decode_boot (firstn 40 D) = decode_boot (firstn 36 D)).
  { clear - Hs. do 40 (destruct D as [|? D]; [unfold zlen in Hs; cbn in Hs; lia|]). reflexivity. }
  assert (E2 : le32 (firstn 40 D) 36 = le32 (firstn 4 (skipn 36 D)) 0).
  { clear - Hs. do 40 (destruct D as [|? D]; [unfold zlen in Hs; cbn in Hs; lia|]). reflexivity. }
  rewrite E1, E2. assert (PB : process_boot (decode_boot (firstn 36 D)) (le32 (firstn 4 (skipn 36 D)) 0) <> OutOfFuel).
  { generalize (decode_boot (firstn 36 D)), (le32 (firstn 4 (skipn 36 D)) 0). intros h x. unfold process_boot. cbv zeta. repeat match goal with |- (if ?b then _ else _) <> _ => destruct b; try discriminate end. }
  destruct (process_boot _ _); [reflexivity|reflexivity|congruence].
Qed.

(* a reader that gives one byte and then nothing, in turn, and finally an error *)
Definition drip (fin : rend) : ioreader (list Z * bool) := fun '(l, b) n =>
  match l with [] => (([], b), [], Some fin) | c :: l' => if b then ((l, false), [], None) else ((l', true), [c], None) end.
Lemma drip_source fin : byte_source (drip fin) (fun k t D e => fst t = D /\ e = fin /\ (snd t = true -> (0 < k)%nat)).
Proof.
  intros k [l b] D e n (E & -> & Hb) Hn. cbn [fst snd] in *. subst l. destruct D as [|c D].
  - exists ([], b), [], [], k. split; [reflexivity|]. split; [cbn; lia|]. split; [cbn; auto|]. right. auto.
  - destruct b.
    + exists (c :: D, false), [], (c :: D), 0%nat. split; [reflexivity|]. split; [cbn; lia|]. split; [cbn; split; [reflexivity|split; [reflexivity|discriminate]]|]. left. split; [reflexivity|]. intros _. now apply Hb.
    + exists (D, true), [c], D, 1%nat. split; [reflexivity|]. split; [unfold zlen; cbn; lia|]. split; [cbn; auto|]. left. split; [reflexivity|]. discriminate.
Qed.
Example C169_example :
  NewFATBootSectorFromStream (drip (RFail 9)) false 99 ([1; 2; 3], true) = Ret (([], true), inr (KWrap ErrIOFailed (KExt 9))) /\
  NewFATBootSectorFromStream (drip REOF) false 99 ([1; 2; 3], true) = Ret (([], true), inr (KWrap ErrIOFailed KUnexpectedEOF)) /\
  NewFATBootSectorFromStream (drip REOF) false 99 ([], true) = Ret (([], true), inr (KWrap ErrIOFailed KEOF)) /\
  NewFATBootSectorFromStream (drip REOF) false 99 (boot_bytes ex_raw2 0, true) = Panic /\
  (exists b, new_boot true (boot_bytes ex_raw2 0) = Ret (inl b) /\
     NewFATBootSectorFromStream (drip REOF) true 99 (boot_bytes ex_raw2 0 ++ [1; 2], true) = Ret (([1; 2], true), inl b)).
Proof. repeat split; try reflexivity. eexists. split; reflexivity. Qed.
Print Assumptions C169_short.
Print Assumptions C169_panics_refuted.
Print Assumptions C169_cut_partial.
Print Assumptions C169_forty_partial.
