(** * Property theorems C01-C09 (statements only; proofs in RleProofs, ImageProofs).

    [mkReader D REOF] is an input delivering D and then io.EOF, [mkReader D (RFail e)]
    one that fails with error e after D.  [mkWriter [] []] is an empty output that
    never fails; [mkWriter out plan] follows [plan] for its next Write calls. *)
From Verif Require Import GoBase ListZ Rle Spec_Rle RleProofs RleExact Image ImageProofs.

(** C01 *)
Theorem C01_rle8_roundtrip : forall D, bytes D ->
  exists C nc nd,
    compress_rle8 (mkReader D REOF) (mkWriter [] []) = Ret (mkRes nc None (mkWriter C [])) /\
    bytes C /\
    decompress_rle8 (mkReader C REOF) (mkWriter [] []) = mkRes nd None (mkWriter D []) /\
    (zlen C < 2^63 -> nc = zlen C) /\ (zlen D < 2^63 -> nd = zlen D).
Proof.
  intros D Hb. destruct (rle8_roundtrip D Hb) as (C & Hc & HC & Hd).
  exists C. do 2 eexists. split; [exact Hc|]. split; [exact HC|]. split; [exact Hd|].
  split; intros; apply i64_small; [pose proof (zlen_nonneg C)|pose proof (zlen_nonneg D)]; lia.
Qed.
Print Assumptions C01_rle8_roundtrip.
Example C01_example :
  compress_rle8 (mkReader ([7; 9; 9; 9; 7] ++ zrepeat 0 300) REOF) (mkWriter [] []) =
    Ret (mkRes 11 None (mkWriter [7; 9; 9; 1; 7; 0; 0; 255; 0; 0; 41] [])).
Proof. vm_compute. reflexivity. Qed.

(** C02 *)
Theorem C02_rle8_accepts_exactly : forall X, bytes X ->
  (* success: exactly the well-formed streams *)
  (forall D n, decompress_rle8 (mkReader X REOF) (mkWriter [] []) = mkRes n None (mkWriter D []) ->
     exists ts, well_formed ts /\ X = encode ts /\ D = expand ts) /\
  (forall ts, well_formed ts -> X = encode ts ->
     exists n, decompress_rle8 (mkReader X REOF) (mkWriter [] []) = mkRes n None (mkWriter (expand ts) [])) /\
  (* failure: only a missing count after a doubled byte *)
  (forall e, rerr (decompress_rle8 (mkReader X REOF) (mkWriter [] [])) = Some e ->
     e = EUnexpectedEOF /\
     exists ts b, well_formed ts /\ X = encode ts ++ [b; b]).
Proof.
  intros X HX. destruct (rle8_accepts X HX) as [(ts & Hw & Hd & He)|(ts & b & Hw & Hb & Hd & Hl & He)].
  - split; [|split].
    + intros D n H. rewrite He in H. inversion H; subst. eauto.
    + intros ts' Hw' Hd'. destruct (dec_well_formed ts' REOF Hw') as [E1 E2].
      rewrite decompress_eq, finish_good, Hd', E1, E2. eauto.
    + intros e H. rewrite He in H. discriminate.
  - split; [|split].
    + intros D n H. rewrite He in H. discriminate.
    + intros ts' Hw' Hd'. destruct (dec_well_formed ts' REOF Hw') as [E1 E2].
      rewrite decompress_eq, finish_good, Hd', E1, E2. eauto.
    + intros e H. rewrite He in H. cbn in H. inversion H; subst. eauto.
Qed.
Print Assumptions C02_rle8_accepts_exactly.
Example C02_example_ok : well_formed [Lit 1; Rep 2 0; Lit 2; Rep 3 255].
Proof. split; cbn; [repeat constructor; cbn; unfold is_byte; lia|lia]. Qed.
Example C02_example_bad :
  rerr (decompress_rle8 (mkReader [5; 6; 6] REOF) (mkWriter [] [])) = Some EUnexpectedEOF.
Proof. reflexivity. Qed.

(** C03 *)
Theorem C03_rle8_shortest : forall D C n, bytes D -> zlen D < 2^63 ->
  compress_rle8 (mkReader D REOF) (mkWriter [] []) = Ret (mkRes n None (mkWriter C [])) ->
  2 * zlen C <= 3 * zlen D /\
  forall X m, bytes X ->
    decompress_rle8 (mkReader X REOF) (mkWriter [] []) = mkRes m None (mkWriter D []) ->
    zlen C <= zlen X.
Proof. exact rle8_minimal. Qed.
Print Assumptions C03_rle8_shortest.

(** C04 *)
Theorem C04_compress_input_failure : forall D e more t',
  exists n C n' err' C',
    compress_rle8 (mkReader D (RFail e)) (mkWriter [] []) =
      Ret (mkRes n (Some (EReader e)) (mkWriter C [])) /\
    compress_rle8 (mkReader (D ++ more) t') (mkWriter [] []) =
      Ret (mkRes n' err' (mkWriter C' [])) /\
    prefix C C'.
Proof. exact compress_fail_prefix. Qed.
Print Assumptions C04_compress_input_failure.
Theorem C04_decompress_input_failure : forall X e more t',
  exists n D n' err' D',
    decompress_rle8 (mkReader X (RFail e)) (mkWriter [] []) =
      mkRes n (Some (EReader e)) (mkWriter D []) /\
    decompress_rle8 (mkReader (X ++ more) t') (mkWriter [] []) =
      mkRes n' err' (mkWriter D' []) /\
    prefix D D'.
Proof. exact decompress_fail_prefix. Qed.
Print Assumptions C04_decompress_input_failure.

(** C05: [faithful full n ferr w res] (RleProofs) says: the output received a prefix
    of [full]; either the first failing Write call of [w]'s plan was reached, its
    error was returned and no further call was made, or no call failed and the
    result is the one of the perfect writer. *)
Theorem C05_compress_output_failure : forall D t w, exists n full ferr res,
  compress_rle8 (mkReader D t) (mkWriter [] []) = Ret (mkRes n ferr (mkWriter full [])) /\
  compress_rle8 (mkReader D t) w = Ret res /\
  exists p, wout (rwriter res) = wout w ++ p /\ prefix p full /\
    ((exists u k x, wplan w = u ++ WFail k x :: wplan (rwriter res) /\ Forall (eq WOk) u /\
        rerr res = Some (EWriter x)) \/
     (exists u, wplan w = u ++ wplan (rwriter res) /\ Forall (eq WOk) u /\
        p = full /\ rerr res = ferr /\ rcount res = n)).
Proof. exact compress_faithful. Qed.
Print Assumptions C05_compress_output_failure.
Theorem C05_decompress_output_failure : forall X t w, exists n full ferr,
  decompress_rle8 (mkReader X t) (mkWriter [] []) = mkRes n ferr (mkWriter full []) /\
  let res := decompress_rle8 (mkReader X t) w in
  exists p, wout (rwriter res) = wout w ++ p /\ prefix p full /\
    ((exists u k x, wplan w = u ++ WFail k x :: wplan (rwriter res) /\ Forall (eq WOk) u /\
        rerr res = Some (EWriter x)) \/
     (exists u, wplan w = u ++ wplan (rwriter res) /\ Forall (eq WOk) u /\
        p = full /\ rerr res = ferr /\ rcount res = n)).
Proof. exact decompress_faithful. Qed.
Print Assumptions C05_decompress_output_failure.
Theorem C05_recursive_output_failure : forall D t w, exists n full ferr res,
  compress_recursive (mkReader D t) (mkWriter [] []) = Ret (mkRes n ferr (mkWriter full [])) /\
  compress_recursive (mkReader D t) w = Ret res /\
  exists p, wout (rwriter res) = wout w ++ p /\ prefix p full /\
    ((exists u k x, wplan w = u ++ WFail k x :: wplan (rwriter res) /\ Forall (eq WOk) u /\
        rerr res = Some (EWriter x)) \/
     (exists u, wplan w = u ++ wplan (rwriter res) /\ Forall (eq WOk) u /\
        p = full /\ rerr res = ferr /\ rcount res = n)).
Proof. exact compress_recursive_faithful. Qed.
Print Assumptions C05_recursive_output_failure.
Example C05_example :
  compress_rle8 (mkReader [1; 2; 2; 3] REOF) (mkWriter [] [WOk; WFail 2 77]) =
    Ret (mkRes 1 (Some (EWriter 77)) (mkWriter [1; 2; 2] [])).
Proof. reflexivity. Qed.

(** C06: [collect] calls GetNextRun until it returns an error. *)
Theorem C06_grouper_maximal_runs : forall D fuel, (length D < fuel)%nat ->
  exists rs last,
    collect fuel (mkReader D REOF) = map (fun r => (r, GNil)) rs ++ [(last, GEOF)] /\
    (* lengths: at least 1; a zero-length run only together with the final EOF *)
    Forall (fun r => 1 <= rlen r <= maxint) rs /\
    (1 <= rlen last <= maxint \/ last = mkRun 0 0) /\
    (* the runs spell the input *)
    concat (map (fun r => repeat (rbyte r) (Z.to_nat (rlen r))) rs) ++
      repeat (rbyte last) (Z.to_nat (rlen last)) = D /\
    (* maximality *)
    adjacent_ok rs /\ (1 <= rlen last -> adjacent_ok (rs ++ [last])) /\
    (* the last byte comes with EOF unless it completed a run of maximum length *)
    (last = mkRun 0 0 -> D = [] \/ exists rs' r, rs = rs' ++ [r] /\ rlen r = maxint).
Proof.
  intros D fuel Hf. destruct (collect_spec fuel D Hf) as (rs & [last e] & Hc & He & Hg & Hl & Hd & Hhd & Hz & Hae & Ha).
  cbn [fst snd] in *. subst e. exists rs, last. split; [exact Hc|]. split; [exact Hg|].
  split; [exact Hl|]. split; [exact Hd|]. split; [exact Ha|]. split.
  - intros H1. apply Hae. destruct Hl as [Hl| ->]; [exact Hl|]. cbn in H1; lia.
  - intros ->. destruct D as [|c D]; [auto|]. right. apply Hz; [reflexivity|].
    intros ->. destruct Hhd as [_ Hx]. unfold run_good in Hx; cbn in Hx; lia.
Qed.
Print Assumptions C06_grouper_maximal_runs.
(* an input that fails: the runs before the failure are the same, the one it interrupts is not returned *)
Theorem C06_grouper_error : forall D e fuel, (length D < fuel)%nat ->
  exists rs last,
    collect fuel (mkReader D (RFail e)) = map (fun r => (r, GNil)) rs ++ [(mkRun 0 0, GErr e)] /\
    Forall (fun r => 1 <= rlen r <= maxint) rs /\ (1 <= rlen last <= maxint \/ last = mkRun 0 0) /\
    concat (map (fun r => repeat (rbyte r) (Z.to_nat (rlen r))) rs) ++ repeat (rbyte last) (Z.to_nat (rlen last)) = D /\
    adjacent_ok rs /\ (1 <= rlen last -> adjacent_ok (rs ++ [last])).
Proof.
  intros D e fuel Hf. destruct (C06_grouper_maximal_runs D fuel Hf) as (rs & last & Hc & Hg & Hl & Hd & Ha & Hae & _).
  exists rs, last. split; [eapply collect_fail, Hc|auto].
Qed.
Print Assumptions C06_grouper_error.

(** C07: false of the code: DecompressRLERecursive compresses again. *)
Theorem C07_recursive_roundtrip_refuted :
  exists D C n D' m, bytes D /\
    compress_recursive (mkReader D REOF) (mkWriter [] []) = Ret (mkRes n None (mkWriter C [])) /\
    decompress_recursive (mkReader C REOF) (mkWriter [] []) = Ret (mkRes m None (mkWriter D' [])) /\
    D' <> D.
Proof.
  exists [0; 0], [0; 0; 0], 3, [0; 0; 1], 3. split; [repeat constructor; unfold is_byte; lia|].
  vm_compute. repeat split; discriminate.
Qed.
Print Assumptions C07_recursive_roundtrip_refuted.
(* what it does instead, for every input and output *)
Theorem C07_decompress_compresses_again : forall r w,
  decompress_recursive r w = compress_recursive r w.
Proof. reflexivity. Qed.
(* exactly which inputs come back: those in which every run is a single byte, or is
   three bytes of value 1 (the code of 1,1,1 is 1,1,1) *)
Theorem C07_recursive_roundtrip_exact : forall D, bytes D -> zlen D < 2^62 ->
  ((exists C n m,
     compress_recursive (mkReader D REOF) (mkWriter [] []) = Ret (mkRes n None (mkWriter C [])) /\
     decompress_recursive (mkReader C REOF) (mkWriter [] []) = Ret (mkRes m None (mkWriter D []))) <->
   forall p b n s, maximal_run D p b n s -> n = 1%nat \/ (b = 1 /\ n = 3%nat)).
Proof. exact roundtrip_exact. Qed.
Print Assumptions C07_recursive_roundtrip_exact.
Example C07_exact_example : exists n m,
  compress_recursive (mkReader [7; 1; 1; 1; 7] REOF) (mkWriter [] []) = Ret (mkRes n None (mkWriter [7; 1; 1; 1; 7] [])) /\
  decompress_recursive (mkReader [7; 1; 1; 1; 7] REOF) (mkWriter [] []) = Ret (mkRes m None (mkWriter [7; 1; 1; 1; 7] [])) /\
  maximal_run [7; 1; 1; 1; 7] [7] 1 3 [7].
Proof.
  exists 5, 5. split; [vm_compute; reflexivity|]. split; [vm_compute; reflexivity|].
  split; [reflexivity|]. split; [lia|]. split; [intros [|? [|? ?]]|intros ?]; discriminate.
Qed.
(* the part of the round trip stated without runs: inputs without two equal adjacent bytes,
   of any length.  Missing: the inputs with runs, which the theorem above decides. *)
Theorem C07_recursive_roundtrip_partial : forall D, bytes D ->
  (forall p b s, D <> p ++ [b; b] ++ s) ->
  exists n,
    compress_recursive (mkReader D REOF) (mkWriter [] []) = Ret (mkRes n None (mkWriter D [])) /\
    decompress_recursive (mkReader D REOF) (mkWriter [] []) = Ret (mkRes n None (mkWriter D [])).
Proof. intros D Hb Hn. eexists. now apply recursive_roundtrip_norep. Qed.
Print Assumptions C07_recursive_roundtrip_partial.
Example C07_example : forall p b s, [1; 2; 1] <> p ++ [b; b] ++ s.
Proof.
  intros p b s H. destruct p as [|? [|? [|? [|? ?]]]]; cbn in H; inversion H; lia.
Qed.

(** C08 *)
Theorem C08_recursive_equals_rle8_on_short_runs : forall D, bytes D ->
  (forall p b s, D <> p ++ repeat b 257 ++ s) ->
  compress_recursive (mkReader D REOF) (mkWriter [] []) =
  compress_rle8 (mkReader D REOF) (mkWriter [] []).
Proof. exact recursive_same. Qed.
Print Assumptions C08_recursive_equals_rle8_on_short_runs.
Theorem C08_recursive_injective : forall D1 D2 n1 n2 C, bytes D1 -> bytes D2 ->
  compress_recursive (mkReader D1 REOF) (mkWriter [] []) = Ret (mkRes n1 None (mkWriter C [])) ->
  compress_recursive (mkReader D2 REOF) (mkWriter [] []) = Ret (mkRes n2 None (mkWriter C [])) ->
  D1 = D2.
Proof. exact recursive_injective. Qed.
Print Assumptions C08_recursive_injective.
Theorem C08_recursive_succeeds : forall D, bytes D -> exists C,
  compress_recursive (mkReader D REOF) (mkWriter [] []) =
    Ret (mkRes (i64 (zlen C)) None (mkWriter C [])).
Proof. intros D Hb. destruct (recursive_decodable D Hb) as (C & H & _). eauto. Qed.
Print Assumptions C08_recursive_succeeds.
(* the bound 256 is sharp: for 257 the two encodings differ *)
Example C08_sharp :
  compress_recursive (mkReader (zrepeat 0 257) REOF) (mkWriter [] []) <>
  compress_rle8 (mkReader (zrepeat 0 257) REOF) (mkWriter [] []).
Proof. vm_compute. discriminate. Qed.

(** C09: gzip is any codec [g] whose decoder inverts its encoder. *)
Theorem C09_image_roundtrip : forall g D, bytes D ->
  (forall X, gz_decode g (concat (gz_encode g X)) = Some (mkReader X REOF)) ->
  exists C n m,
    compress_image g (mkReader D REOF) (mkWriter [] []) = Ret (n, None, mkWriter C []) /\
    (zlen C < 2^63 -> n = zlen C) /\
    decompress_image g C (mkWriter [] []) = (m, None, mkWriter D []) /\
    (zlen D < 2^63 -> m = zlen D) /\
    decompress_image_to_bytes g C = inl D.
Proof. exact image_roundtrip. Qed.
Print Assumptions C09_image_roundtrip.
Theorem C09_gzip_error_reported : forall g C w,
  match gz_decode g C with
  | None => True
  | Some r => exists e, rterm r = RFail e
  end ->
  exists m err w', decompress_image g C w = (m, Some err, w').
Proof. exact image_gzip_error. Qed.
Print Assumptions C09_gzip_error_reported.
(* data that does not even begin like gzip: nothing is written, nothing is counted *)
Theorem C09_not_gzip : forall g C w, gz_decode g C = None ->
  decompress_image g C w = (0, Some IOpen, w) /\ decompress_image_to_bytes g C = inr IOpen.
Proof. intros g C w H. unfold decompress_image_to_bytes, decompress_image. now rewrite H. Qed.
Print Assumptions C09_not_gzip.
Theorem C09_to_bytes_reports : forall g C,
  match decompress_image g C (mkWriter [] []) with
  | (_, Some err, _) => decompress_image_to_bytes g C = inr err
  | (_, None, w) => decompress_image_to_bytes g C = inl (wout w)
  end.
Proof.
  intros g C. unfold decompress_image_to_bytes.
  destruct (decompress_image g C (mkWriter [] [])) as [[m [err|]] w']; reflexivity.
Qed.
Print Assumptions C09_to_bytes_reports.
Theorem C09_to_bytes_gzip_error_reported : forall g C,
  match gz_decode g C with
  | None => True
  | Some r => exists e, rterm r = RFail e
  end ->
  exists err, decompress_image_to_bytes g C = inr err.
Proof.
  intros g C H. destruct (image_gzip_error g C (mkWriter [] []) H) as (m & err & w' & E).
  exists err. unfold decompress_image_to_bytes. now rewrite E.
Qed.
Print Assumptions C09_to_bytes_gzip_error_reported.
Theorem C09_compress_success_is_complete : forall g D t w n w',
  compress_image g (mkReader D t) w = Ret (n, None, w') -> bytes D ->
  t = REOF /\ exists X,
    (exists k, compress_rle8 (mkReader D REOF) (mkWriter [] []) = Ret (mkRes k None (mkWriter X []))) /\
    wout w' = wout w ++ concat (gz_encode g X).
Proof. exact compress_image_success. Qed.
Print Assumptions C09_compress_success_is_complete.
(* a codec meeting the premise: a stored-block "gzip" with a header byte *)
Example C09_codec : let g := mkGzip (fun X => [[31]; X])
    (fun C => match C with 31 :: X => Some (mkReader X REOF) | _ => None end) in
  forall X, gz_decode g (concat (gz_encode g X)) = Some (mkReader X REOF).
Proof. intros g X; cbn. now rewrite app_nil_r. Qed.
Example C09_not_gzip_example : decompress_image (mkGzip (fun X => [[31]; X]) (fun C => match C with 31 :: X => Some (mkReader X REOF) | _ => None end)) [30; 1] (mkWriter [7] []) = (0, Some IOpen, mkWriter [7] []).
Proof. reflexivity. Qed.
