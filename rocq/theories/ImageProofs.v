From Verif Require Import GoBase ListZ Rle Spec_Rle RleProofs Image.

Lemma counted_good ws : forall count out,
  counted_writes ws count (mkWriter out []) =
    (match ws with [] => count | _ => i64 (count + zlen (concat ws)) end, None,
     mkWriter (out ++ concat ws) []).
Proof.
  induction ws as [|b ws IH]; intros count out; cbn [counted_writes concat].
  - now rewrite app_nil_r.
  - unfold write; cbn. rewrite IH, app_assoc. f_equal; f_equal.
    destruct ws; cbn [concat].
    + now rewrite app_nil_r.
    + rewrite i64_add_l, !zlen_app; f_equal; lia.
Qed.
Lemma counted_fail ws : forall count w c e w',
  counted_writes ws count w = (c, e, w') ->
  (e = None -> wout w' = wout w ++ concat ws) /\
  (exists p, wout w' = wout w ++ p /\ prefix p (concat ws)).
Proof.
  induction ws as [|b ws IH]; intros count w c e w' H; cbn [counted_writes concat] in H.
  - inversion H; subst. split.
    + intros _. now rewrite app_nil_r.
    + exists []. split; [now rewrite app_nil_r|apply prefix_refl].
  - destruct (write_app w b) as (p & Ho & Hp & Hn).
    destruct (write w b) as [w1 [e1|]]; cbn [fst snd] in *.
    + inversion H; subst. split; [discriminate|]. exists p. split; [exact Ho|].
      cbn. now apply prefix_app.
    + specialize (Hn eq_refl). subst p. destruct (IH _ _ _ _ _ H) as (H1 & q & Hq & Hpre). split.
      * intros He. rewrite (H1 He), Ho. cbn. now rewrite app_assoc.
      * exists (b ++ q). rewrite Hq, Ho, app_assoc. split; [reflexivity|].
        destruct Hpre as [s Hs]. exists s. cbn. now rewrite Hs, app_assoc.
Qed.

Lemma image_roundtrip g D : bytes D ->
  (forall X, gz_decode g (concat (gz_encode g X)) = Some (mkReader X REOF)) ->
  exists C n m,
    compress_image g (mkReader D REOF) (mkWriter [] []) = Ret (n, None, mkWriter C []) /\
    (zlen C < 2^63 -> n = zlen C) /\
    decompress_image g C (mkWriter [] []) = (m, None, mkWriter D []) /\
    (zlen D < 2^63 -> m = zlen D) /\
    decompress_image_to_bytes g C = inl D.
Proof.
  intros Hb Hg. destruct (rle8_roundtrip D Hb) as (X & Hc & HX & Hd).
  unfold compress_image. rewrite Hc. cbn [rerr rwriter wout].
  rewrite counted_good. cbn [app].
  exists (concat (gz_encode g X)). do 2 eexists. split; [reflexivity|]. split.
  { intros Hl. destruct (gz_encode g X) eqn:E; [reflexivity|]. rewrite Z.add_0_l.
    apply i64_small. pose proof (zlen_nonneg (concat (l :: l0))). lia. }
  unfold decompress_image_to_bytes, decompress_image. rewrite Hg, Hd. cbn.
  split; [reflexivity|]. split; [|reflexivity].
  intros Hl. apply i64_small. pose proof (zlen_nonneg D). lia.
Qed.

(* if the gzip layer fails to open or ends with an error, so does DecompressImage *)
Lemma image_gzip_error g C w :
  match gz_decode g C with
  | None => True
  | Some r => exists e, rterm r = RFail e
  end ->
  exists m err w', decompress_image g C w = (m, Some err, w').
Proof.
  unfold decompress_image. destruct (gz_decode g C) as [[d t]|]; [|eauto].
  cbn [rterm]. intros [e ->].
  pose proof (dec_writes_extend (length d) d (RFail e) REOF [] (-1) e _ ltac:(lia) eq_refl eq_refl) as [Hs _].
  rewrite decompress_eq, Hs. unfold finish.
  destruct (write_all _ 0 w) as [[t [x|]] w']; cbn; eauto.
Qed.

(* an input or output failure is never reported as success by CompressImage, and
   then only a prefix of gzip's output was written *)
Lemma compress_image_success g D t w n w' :
  compress_image g (mkReader D t) w = Ret (n, None, w') -> bytes D ->
  t = REOF /\ exists X, (exists k, compress_rle8 (mkReader D REOF) (mkWriter [] []) =
      Ret (mkRes k None (mkWriter X []))) /\ wout w' = wout w ++ concat (gz_encode g X).
Proof.
  unfold compress_image. intros H Hb. destruct t as [|e].
  - split; [reflexivity|]. destruct (rle8_roundtrip D Hb) as (X & Hc & _).
    rewrite Hc in H. cbn [rerr rwriter wout] in H.
    destruct (counted_writes (gz_encode g X) 0 w) as [[n' [e|]] w1] eqn:Hw; [discriminate|].
    inversion H; subst. exists X. split; [eauto|].
    exact (proj1 (counted_fail _ _ _ _ _ _ Hw) eq_refl).
  - exfalso. destruct (compress_fail_prefix D e [] REOF) as (k & C & _ & _ & _ & Hc & _).
    rewrite Hc in H. cbn [rerr rwriter wout] in H.
    destruct (counted_writes (gz_encode g C) 0 w) as [[n' [e'|]] w1]; discriminate.
Qed.
