(** * ImageStreamProofs *)
From Verif Require Import GoBase ListZ Rle Spec_Rle RleProofs Bufio Spec_Bufio BufioProofs Image ImageStream Spec_ImageStream.

Section Writer.
Context {W : Type} (wr : iowriter W).
Fixpoint write_all_s (ws : list (list Z)) (total : Z) (w : W) : Z * option cerr * W :=
  match ws with
  | [] => (total, None, w)
  | b :: ws' =>
      let '(w', n, e) := wr w b in
      match e with Some e => (total, Some (EWriter e), w') | None => write_all_s ws' (i64 (total + n)) w' end
  end.
Definition finish_s (ws : list (list Z)) (fe : option cerr) (total : Z) (w : W) : Z * option cerr * W :=
  match write_all_s ws total w with
  | (t, Some e, w') => (t, Some e, w')
  | (t, None, w') => (t, fe, w')
  end.
Lemma write_all_s_app ws1 ws2 : forall total w,
  write_all_s (ws1 ++ ws2) total w = match write_all_s ws1 total w with (t1, None, w1) => write_all_s ws2 t1 w1 | r => r end.
Proof.
  induction ws1 as [|b ws1 IH]; intros total w; cbn [app write_all_s]; [reflexivity|]. destruct (wr w b) as [[w' n] [e|]]; [reflexivity|apply IH].
Qed.
Lemma finish_s_app ws1 ws2 fe total w :
  finish_s (ws1 ++ ws2) fe total w = match write_all_s ws1 total w with (t, Some e, w') => (t, Some e, w') | (t, None, w') => finish_s ws2 fe t w' end.
Proof. unfold finish_s. rewrite write_all_s_app. destruct (write_all_s ws1 total w) as [[t [e|]] w']; reflexivity. Qed.
Lemma emit_groups_s_spec : forall fuel b len total w, (Z.to_nat len < fuel)%nat ->
  exists ws len',
    match write_all_s ws total w with
    | (t, Some e, w') => exists l, emit_groups_s wr fuel b len total w = Ret (l, t, Some e, w')
    | (t, None, w') => emit_groups_s wr fuel b len total w = Ret (len', t, None, w')
    end /\
    map tok_encode (run_toks fuel b len) = ws ++ (if len' =? 1 then [[b]] else []) /\ len' <= 1.
Proof.
  induction fuel as [|fuel IH]; intros b len total w Hf; [lia|]. cbn [emit_groups_s run_toks]. destruct (Z.geb_spec len 2).
  - set (rc := if len >? 257 then 255 else len - 2).
    assert (0 <= rc <= 255 /\ rc + 2 <= len) as Hrc by (unfold rc; destruct (Z.gtb_spec len 257); lia).
    rewrite u8_small by lia. destruct (wr w [b; b; rc]) as [[w' n] [e|]] eqn:Hw.
    + destruct (IH b (len - (rc + 2)) (i64 (total + 3)) w') as (ws & len' & _ & Hm & Hl'); [lia|].
      exists ([b; b; rc] :: ws), len'. split; [|split; [|exact Hl']].
      * cbn [write_all_s]. rewrite Hw. eauto.
      * cbn [map app tok_encode]. f_equal. exact Hm.
    + destruct (IH b (len - (rc + 2)) (i64 (total + n)) w') as (ws & len' & He & Hm & Hl'); [lia|].
      exists ([b; b; rc] :: ws), len'. split; [|split; [|exact Hl']].
      * cbn [write_all_s]. rewrite Hw. exact He.
      * cbn [map app tok_encode]. f_equal. exact Hm.
  - exists [], len. cbn [write_all_s app]. split; [reflexivity|]. split; [|lia]. destruct (len =? 1); reflexivity.
Qed.
Context {T : Type} (read : ioreader T).
Hypothesis HG : go_reader read.
Lemma compress_s_eq : forall fuel b e D total w rs fe, rep read b D e -> (length D < fuel)%nat -> runs fuel e D = Ret (rs, fe) ->
  compress_s read wr fuel b total w = Ret (finish_s (flat_map run_writes8 rs) fe total w).
Proof.
  induction fuel as [|fuel IH]; intros b e D total w rs fe HR Hf H; [lia|]. cbn [runs] in H. cbn [compress_s].
  destruct (next_run_sim read HG (S fuel) b D e HR ltac:(lia)) as (b' & E & HN & Ht). rewrite E. cbn [obind]. pose proof (next_run_rest D e) as HL.
  destruct (get_next_run (mkReader D e)) as [[run ge] [D2 e2]]. cbn [fst snd rdata rterm] in *. subst e2.
  destruct ge as [| |x].
  - destruct (runs fuel e D2) as [[rs1 fe1]| |] eqn:Hr; try discriminate. injection H as <- <-. cbn [flat_map]. rewrite finish_s_app.
    destruct (emit_groups_s_spec (S (Z.to_nat (rlen run))) (rbyte run) (rlen run) total w) as (ws & len' & He & Hm & Hl'); [lia|].
    change (map tok_encode (run_toks (S (Z.to_nat (rlen run))) (rbyte run) (rlen run))) with (run_writes8 run) in Hm.
    rewrite Hm, write_all_s_app. specialize (HL eq_refl).
    destruct (write_all_s ws total w) as [[t1 [e1|]] w1].
    + destruct He as (l0 & ->); reflexivity.
    + rewrite He. cbn [obind]. destruct (len' =? 1); cbn [write_all_s].
      * destruct (wr w1 [rbyte run]) as [[w2 n] [e2|]]; [reflexivity|]. apply (IH b' e D2); auto. lia.
      * apply (IH b' e D2); auto. lia.
  - injection H as <- <-. cbn [flat_map]. rewrite app_nil_r. unfold finish_s.
    destruct (emit_groups_s_spec (S (Z.to_nat (rlen run))) (rbyte run) (rlen run) total w) as (ws & len' & He & Hm & Hl'); [lia|].
    change (map tok_encode (run_toks (S (Z.to_nat (rlen run))) (rbyte run) (rlen run))) with (run_writes8 run) in Hm.
    rewrite Hm, write_all_s_app. destruct (write_all_s ws total w) as [[t1 [e1|]] w1].
    + destruct He as (l0 & ->); reflexivity.
    + rewrite He. cbn [obind]. destruct (len' =? 1); cbn [write_all_s]; [|reflexivity]. destruct (wr w1 [rbyte run]) as [[w2 n] [e2|]]; reflexivity.
  - injection H as <- <-. reflexivity.
Qed.
Lemma decompress_s_eq : forall fuel b e D last total w, rep read b D e -> (length D < fuel)%nat ->
  decompress_s read wr fuel b last total w = Ret (finish_s (fst (dec_writes D e last)) (snd (dec_writes D e last)) total w).
Proof.
  induction fuel as [|f IH]; intros b e D last total w HR Hf; [lia|]. cbn [decompress_s]. destruct D as [|c D1]; cbn [dec_writes].
  - destruct (read_byte_spec read HG b [] e HR) as [b' E]. rewrite E. cbn [obind]. destruct e; reflexivity.
  - destruct (read_byte_spec read HG b (c :: D1) e HR) as (b' & E & HR1 & _). rewrite E. cbn [obind]. cbn [length] in Hf. destruct (c =? last).
    + destruct D1 as [|rc D2].
      * destruct (read_byte_spec read HG b' [] e HR1) as [b2 E2]. rewrite E2. cbn [obind]. destruct e; reflexivity.
      * destruct (read_byte_spec read HG b' (rc :: D2) e HR1) as (b2 & E2 & HR2 & _). rewrite E2. cbn [obind].
        destruct (dec_writes D2 e (-1)) as [ws fe] eqn:Hd. cbn [fst snd]. unfold finish_s; cbn [write_all_s].
        destruct (wr w _) as [[w' n] [x|]]; [reflexivity|]. rewrite (IH b2 e D2) by (auto; cbn [length] in Hf; lia). rewrite Hd. reflexivity.
    + destruct (dec_writes D1 e c) as [ws fe] eqn:Hd. cbn [fst snd]. unfold finish_s; cbn [write_all_s].
      destruct (wr w _) as [[w' n] [x|]]; [reflexivity|]. rewrite (IH b' e D1) by (auto; lia). rewrite Hd. reflexivity.
Qed.
End Writer.

(** ** what a conforming writer holds afterwards *)
Section Got.
Context {W : Type} (wr : iowriter W) (got : W -> list Z).
Hypothesis HW : go_writer wr got.
Lemma write_all_s_got ws : forall total w t e w', write_all_s wr ws total w = (t, e, w') ->
  exists p, got w' = got w ++ p /\ prefix p (concat ws) /\ (e = None -> p = concat ws /\ (total = i64 total -> t = i64 (total + zlen (concat ws)))) /\
    (forall x, e = Some x -> exists y, x = EWriter y).
Proof.
  induction ws as [|b ws IH]; intros total w t e w'; cbn [write_all_s concat].
  - intros [= <- <- <-]. exists []. rewrite app_nil_r. split; [reflexivity|]. split; [exists []; reflexivity|]. split; [|discriminate].
    intros _. split; [reflexivity|]. intros E. change (zlen (@nil Z)) with 0. now rewrite Z.add_0_r.
  - destruct (wr w b) as [[w1 n] e1] eqn:E. destruct (HW _ _ _ _ _ E) as (Hn & Hnone & Hg). destruct e1 as [x|].
    + intros [= <- <- <-]. exists (slice 0 n b). split; [exact Hg|]. split.
      { apply prefix_app. exists (skipn (Z.to_nat n) b). unfold slice. cbn [Z.to_nat skipn]. symmetry. apply firstn_skipn. }
      split; [discriminate|]. intros y [= <-]. eauto.
    + rewrite (Hnone eq_refl) in *. rewrite slice_all in Hg. intros H. destruct (IH _ _ _ _ _ H) as (p & Hp & Hpre & HN & HE).
      exists (b ++ p). rewrite Hp, Hg, app_assoc. split; [reflexivity|]. split; [destruct Hpre as [q ->]; exists q; now rewrite app_assoc|].
      split; [|exact HE]. intros X. destruct (HN X) as [-> HT]. split; [reflexivity|]. intros _. rewrite HT by (pose proof (i64_add_l (total + zlen b) 0) as X0; rewrite !Z.add_0_r in X0; now symmetry).
      rewrite i64_add_l, zlen_app. f_equal. lia.
Qed.
Lemma do_writes_got ws : forall w k w' cnt' e, do_writes (counting wr) ws (w, i64 k) = ((w', cnt'), e) ->
  exists p, got w' = got w ++ p /\ prefix p (concat ws) /\ (e = None -> p = concat ws /\ cnt' = i64 (k + zlen (concat ws))).
Proof.
  induction ws as [|b ws IH]; intros w k w' cnt' e; cbn [do_writes concat].
  - intros [= <- <- <-]. exists []. rewrite app_nil_r. split; [reflexivity|]. split; [exists []; reflexivity|].
    intros _. split; [reflexivity|]. change (zlen (@nil Z)) with 0. now rewrite Z.add_0_r.
  - unfold counting at 1. destruct (wr w b) as [[w1 n] e1] eqn:E. destruct (HW _ _ _ _ _ E) as (Hn & Hnone & Hg). destruct e1 as [x|].
    + intros [= <- <- <-]. exists (slice 0 n b). split; [exact Hg|]. split; [|discriminate].
      apply prefix_app. exists (skipn (Z.to_nat n) b). unfold slice. cbn [Z.to_nat skipn]. symmetry. apply firstn_skipn.
    + rewrite (Hnone eq_refl) in *. rewrite slice_all in Hg. rewrite i64_add_l. intros H. destruct (IH _ _ _ _ _ H) as (p & Hp & Hpre & HN).
      exists (b ++ p). rewrite Hp, Hg, app_assoc. split; [reflexivity|]. split; [destruct Hpre as [q ->]; exists q; now rewrite app_assoc|].
      intros X. destruct (HN X) as [-> ->]. split; [reflexivity|]. rewrite zlen_app. f_equal. lia.
Qed.
End Got.
Lemma do_writes_failed {W} (wr : iowriter W) failed ws : tells_failures wr failed -> forall wc wc' e, do_writes (counting wr) ws wc = (wc', e) ->
  failed (fst wc') = failed (fst wc) || match e with Some _ => true | None => false end.
Proof.
  intros HF. induction ws as [|b ws IH]; intros [w k] wc' e; cbn [do_writes].
  - intros [= <- <-]. now rewrite orb_false_r.
  - unfold counting at 1. destruct (wr w b) as [[w1 n] e1] eqn:E. pose proof (HF _ _ _ _ _ E) as H1. destruct e1 as [x|].
    + intros [= <- <-]. exact H1.
    + intros H. rewrite (IH _ _ _ H). cbn [fst]. rewrite H1. now rewrite orb_false_r.
Qed.
Lemma do_writes_never {W} (wr : iowriter W) ws : never_fails wr -> forall wc, snd (do_writes (counting wr) ws wc) = None.
Proof.
  intros HN. induction ws as [|b ws IH]; intros [w k]; cbn [do_writes]; [reflexivity|]. unfold counting at 1. specialize (HN w b).
  destruct (wr w b) as [[w1 n] e1]. cbn [snd] in HN. subst e1. apply IH.
Qed.
Lemma do_writes_app {W} (wr : iowriter W) ws1 ws2 : forall w, do_writes wr (ws1 ++ ws2) w = match do_writes wr ws1 w with (w', None) => do_writes wr ws2 w' | r => r end.
Proof. induction ws1 as [|b ws1 IH]; intros w; cbn [app do_writes]; [reflexivity|]. destruct (wr w b) as [[w1 n] [e|]]; [reflexivity|apply IH]. Qed.

(* the series of calls RLE8 makes on the gzip writer, and the Close, seen from below *)
Lemma gzip_run {G W} (g : gzw G) (wr : iowriter W) fe bs : forall s total w,
  let '(w', de) := do_writes wr (gz_calls g s bs) w in
  exists t err st1 s' ce, finish_s (gzip_write g wr) bs fe total (s, None, w) = (t, err, st1) /\ gzip_close g wr st1 = ((s', ce, w'), ce) /\
    ce = de /\ (de = None -> err = fe) /\ (forall e, de = Some e -> err = Some (EWriter e) \/ err = fe).
Proof.
  induction bs as [|b bs IH]; intros s total w; cbn [gz_calls].
  - destruct (do_writes wr (gz_close g s) w) as [w' de] eqn:E. unfold finish_s. cbn [write_all_s].
    exists total, fe, (s, None, w), s, de. unfold gzip_close. rewrite E. split; [reflexivity|]. split; [reflexivity|]. auto.
  - destruct (gz_write g s b) as [s1 ws] eqn:Eg. rewrite do_writes_app. destruct (do_writes wr ws w) as [w1 [x|]] eqn:E.
    + exists total, (Some (EWriter x)), (s1, Some x, w1), s1, (Some x). unfold finish_s. cbn [write_all_s]. unfold gzip_write at 1. rewrite Eg, E.
      split; [reflexivity|]. split; [reflexivity|]. split; [reflexivity|]. split; [discriminate|]. intros e [= ->]. auto.
    + specialize (IH s1 (i64 (total + zlen b)) w1). destruct (do_writes wr (gz_calls g s1 bs) w1) as [w' de].
      destruct IH as (t & err & st1 & s' & ce & Hf & H). exists t, err, st1, s', ce. split; [|exact H].
      unfold finish_s in *. cbn [write_all_s]. unfold gzip_write at 1. rewrite Eg, E. exact Hf.
Qed.
(** ** CompressImage in terms of gzip's calls *)
Lemma compress_image_run {T} (read : ioreader T) t D e : go_reader read -> input_is read t D e ->
  exists bs fe n, (forall w, compress_rle8 (mkReader D e) w = Ret (finish bs fe 0 w)) /\ compress_rle8 (mkReader D e) (mkWriter [] []) = Ret (mkRes n fe (mkWriter (concat bs) [])) /\
    (match e with REOF => fe = None | RFail x => fe = Some (EReader x) end) /\
    forall G W (g : gzw G) (wr : iowriter W) fuel w, (length D < fuel)%nat ->
    let '((w', cnt), de) := do_writes (counting wr) (gz_calls g (gz_new g) bs) (w, 0) in
    exists err, CompressImage g read wr fuel t w = Ret (cnt, err, w') /\
      (err = None <-> de = None /\ fe = None) /\ (de = None -> err = option_map IRle fe) /\
      (forall x, de = Some x -> err = Some (IRle (EWriter x)) \/ err = Some (IGzip x) \/ exists y, fe = Some y /\ err = Some (IRle y)).
Proof.
  intros HG Hi. destruct (runs_spec (S (length D)) e D) as (rs & fe & tail & Hr & _ & _ & Hend & _); [lia|].
  exists (flat_map run_writes8 rs), fe. eexists. split; [intros w; unfold compress_rle8; cbn [rdata]; now rewrite (compress_rle8_loop_eq _ _ _ _ _ _ _ Hr)|].
  split; [unfold compress_rle8; cbn [rdata]; rewrite (compress_rle8_loop_eq _ _ _ _ _ _ _ Hr), finish_good; reflexivity|].
  split; [destruct e; apply Hend|]. intros G W g wr fuel w Hf.
  assert (runs fuel e D = Ret (rs, fe)) as Hr2.
  { clear - Hr Hf. revert Hr. assert (forall f1 D rs fe f2, (length D < f1)%nat -> (length D < f2)%nat -> runs f1 e D = Ret (rs, fe) -> runs f2 e D = Ret (rs, fe)) as HH.
    { induction f1 as [|f1 IH]; intros D0 rs0 fe0 f2 H1 H2; [lia|]. destruct f2 as [|f2]; [lia|]. cbn [runs]. pose proof (next_run_rest D0 e) as HL.
      destruct (get_next_run (mkReader D0 e)) as [[run ge] [D2 e2]]. cbn [fst snd rdata] in *. destruct ge; auto. specialize (HL eq_refl).
      destruct (runs f1 e D2) as [[rs1 fe1]| |] eqn:E; try discriminate. rewrite (IH D2 rs1 fe1 f2) by (auto; lia). auto. }
    apply HH; lia. }
  pose proof (gzip_run g (counting wr) fe (flat_map run_writes8 rs) (gz_new g) 0 (w, 0)) as HR.
  destruct (do_writes _ _ _) as [[w' cnt] de]. destruct HR as (tt & err & st1 & s' & ce & Hfin & Hcl & -> & HN & HE).
  unfold CompressImage, CompressRLE8_s. rewrite (compress_s_eq _ read HG fuel _ e D 0 _ rs fe (rep_new read t D e Hi) Hf Hr2), Hfin. cbn [obind]. rewrite Hcl.
  eexists. split; [reflexivity|]. destruct de as [x|].
  - destruct (HE x eq_refl) as [-> | ->].
    + split; [split; [discriminate|intros [? _]; discriminate]|]. split; [discriminate|]. intros y [= <-]. auto.
    + split; [split; [destruct fe; discriminate|intros [? _]; discriminate]|]. split; [discriminate|]. intros y [= <-]. destruct fe; [right; right; eauto|auto].
  - rewrite (HN eq_refl). split; [destruct fe; split; [discriminate|intros [_ ?]; discriminate|auto|auto]|]. split; [destruct fe; reflexivity|discriminate].
Qed.

(** ** bufio.Writer over a bytes.Buffer *)
Lemma bw_loop_0 {W} (wr : iowriter W) f b p nn : bw_err b = None -> zlen p <= 4096 - zlen (bw_buf b) ->
  bw_loop wr f b p nn = Ret (mkBw (bw_buf b ++ p) None (bw_w b), nn + zlen p, None).
Proof. intros He Hp. destruct f; cbn [bw_loop]; rewrite He; replace (zlen p >? 4096 - zlen (bw_buf b)) with false by lia; reflexivity. Qed.
Lemma bw_loop_S {W} (wr : iowriter W) f b p nn : bw_loop wr (S f) b p nn =
  match bw_err b with
  | Some e => Ret (b, nn, Some e)
  | None =>
      if zlen p >? 4096 - zlen (bw_buf b) then
        if zlen (bw_buf b) =? 0 then
          let '(w', n, e) := wr (bw_w b) p in bw_loop wr f (mkBw [] e w') (slice n (zlen p - n) p) (nn + n)
        else
          let n := Z.min (4096 - zlen (bw_buf b)) (zlen p) in
          bw_loop wr f (bw_flush wr (mkBw (bw_buf b ++ slice 0 n p) None (bw_w b))) (slice n (zlen p - n) p) (nn + n)
      else Ret (mkBw (bw_buf b ++ p) None (bw_w b), nn + zlen p, None)
  end.
Proof. reflexivity. Qed.
(* what has been written, flushed or not *)
Definition bw_got (b : bwriter (list Z)) : list Z := bw_w b ++ bw_buf b.
Definition bw_ok (b : bwriter (list Z)) : Prop := bw_err b = None /\ zlen (bw_buf b) <= 4096.
Lemma bw_direct f p w nn : zlen p > 4096 -> bw_loop buffer_write (S f) (mkBw [] None w) p nn = Ret (mkBw [] None (w ++ p), nn + zlen p, None).
Proof.
  intros Hp. rewrite bw_loop_S. cbn [bw_err bw_buf bw_w]. change (zlen (@nil Z)) with 0. replace (zlen p >? 4096 - 0) with true by lia. cbn [Z.eqb].
  unfold buffer_write at 1. rewrite Z.sub_diag. assert (slice (zlen p) 0 p = []) as -> by (unfold slice; now rewrite firstn_O).
  rewrite bw_loop_0 by (first [reflexivity | (cbn; discriminate)]). cbn [bw_buf bw_w app]. change (zlen (@nil Z)) with 0. now rewrite Z.add_0_r.
Qed.
Lemma bw_write_ok b p : bw_ok b -> exists b', bw_write buffer_write b p = Ret (b', zlen p, None) /\ bw_ok b' /\ bw_got b' = bw_got b ++ p.
Proof.
  intros [He Hb]. unfold bw_write. destruct b as [buf er w]. cbn [bw_err bw_buf] in *. subst er. pose proof (zlen_nonneg buf) as H0. pose proof (zlen_nonneg p) as H1.
  destruct (Z.le_gt_cases (zlen p) (4096 - zlen buf)) as [Hs|Hs].
  - rewrite bw_loop_0 by (cbn; auto). eexists. split; [reflexivity|]. split; [split; [reflexivity|cbn; rewrite zlen_app; lia]|]. unfold bw_got. cbn. now rewrite app_assoc.
  - destruct (zlen buf =? 0) eqn:E0.
    + apply Z.eqb_eq in E0. destruct buf as [|x buf]; [|unfold zlen in E0; cbn in E0; lia]. change (zlen (@nil Z)) with 0 in Hs. rewrite bw_direct by lia.
      eexists. split; [reflexivity|]. split; [split; [reflexivity|cbn; lia]|]. unfold bw_got. cbn. now rewrite !app_nil_r.
    + rewrite bw_loop_S. cbn [bw_err bw_buf bw_w]. replace (zlen p >? 4096 - zlen buf) with true by lia. rewrite E0. cbv zeta.
      set (n := Z.min (4096 - zlen buf) (zlen p)). assert (n = 4096 - zlen buf) as Hn by (unfold n; lia).
      assert (p = slice 0 n p ++ slice n (zlen p - n) p) as Hp.
      { unfold slice. cbn [Z.to_nat skipn]. rewrite (firstn_all2 (skipn (Z.to_nat n) p)); [symmetry; apply firstn_skipn|]. rewrite skipn_length. unfold zlen. lia. }
      assert (zlen (slice 0 n p) = n) as L1. { unfold slice, zlen. cbn [Z.to_nat skipn]. rewrite firstn_length. unfold zlen in *. lia. }
      assert (zlen (slice n (zlen p - n) p) = zlen p - n) as L2. { apply (f_equal (@zlen Z)) in Hp. rewrite zlen_app in Hp. lia. }
      unfold bw_flush. cbn [bw_err bw_buf bw_w]. rewrite zlen_app, L1. replace (zlen buf + n =? 0) with false by lia.
      assert (buffer_write w (buf ++ slice 0 n p) = (w ++ (buf ++ slice 0 n p), zlen buf + n, None)) as EB by (unfold buffer_write; now rewrite zlen_app, L1).
      rewrite EB, Z.ltb_irrefl.
      set (q := slice n (zlen p - n) p) in *. destruct (Z.le_gt_cases (zlen q) 4096) as [Hq|Hq].
      * rewrite bw_loop_0 by (cbn [bw_err bw_buf]; first [reflexivity | (change (zlen (@nil Z)) with 0; lia)]). eexists. split; [f_equal; f_equal; f_equal; lia|]. split; [split; [reflexivity|cbn; lia]|]. unfold bw_got. cbn. rewrite Hp at 2. now rewrite !app_assoc.
      * rewrite bw_direct by lia. eexists. split; [f_equal; f_equal; f_equal; lia|]. split; [split; [reflexivity|cbn; lia]|]. unfold bw_got. cbn. rewrite app_nil_r. rewrite Hp at 2. now rewrite !app_assoc.
Qed.
Lemma bufio_buffer_ok b p : bw_ok b -> exists b', bufio_buffer b p = (b', zlen p, None) /\ bw_ok b' /\ bw_got b' = bw_got b ++ p.
Proof. intros H. destruct (bw_write_ok b p H) as (b' & E & H'). exists b'. unfold bufio_buffer. now rewrite E. Qed.
Lemma bw_flush_ok b : bw_ok b -> bw_w (bw_flush buffer_write b) = bw_got b.
Proof.
  intros [He _]. unfold bw_flush. rewrite He. destruct (zlen (bw_buf b) =? 0) eqn:E.
  - apply Z.eqb_eq in E. unfold bw_got. destruct (bw_buf b); [now rewrite app_nil_r|unfold zlen in E; cbn in E; lia].
  - unfold buffer_write. rewrite Z.ltb_irrefl. reflexivity.
Qed.
Lemma bufio_finish ws fe : forall total b, bw_ok b -> exists t b', finish_s bufio_buffer ws fe total b = (t, fe, b') /\ bw_ok b' /\ bw_got b' = bw_got b ++ concat ws.
Proof.
  unfold finish_s. induction ws as [|p ws IH]; intros total b Hb; cbn [write_all_s concat].
  - do 2 eexists. split; [reflexivity|]. now rewrite app_nil_r.
  - destruct (bufio_buffer_ok b p Hb) as (b' & E & Hb' & Hg). rewrite E. destruct (IH (i64 (total + zlen p)) b' Hb') as (t & b2 & E2 & H2 & Hg2).
    exists t, b2. split; [exact E2|]. split; [exact H2|]. now rewrite Hg2, Hg, app_assoc.
Qed.
Lemma write_all_s_failed {W} (wr : iowriter W) failed ws : tells_failures wr failed -> forall total w t e w', write_all_s wr ws total w = (t, e, w') ->
  failed w' = failed w || match e with Some _ => true | None => false end.
Proof.
  intros HF. induction ws as [|b ws IH]; intros total w t e w'; cbn [write_all_s].
  - intros [= <- <- <-]. now rewrite orb_false_r.
  - destruct (wr w b) as [[w1 n] e1] eqn:E. pose proof (HF _ _ _ _ _ E) as H1. destruct e1 as [x|].
    + intros [= <- <- <-]. exact H1.
    + intros H. rewrite (IH _ _ _ _ _ H), H1. now rewrite orb_false_r.
Qed.
Lemma write_all_s_never {W} (wr : iowriter W) ws : never_fails wr -> forall total w, snd (fst (write_all_s wr ws total w)) = None.
Proof.
  intros HN. induction ws as [|b ws IH]; intros total w; cbn [write_all_s]; [reflexivity|]. specialize (HN w b).
  destruct (wr w b) as [[w1 n] e1]. cbn [snd] in HN. subst e1. apply IH.
Qed.
Lemma dec_writes_fail x : forall n D last, (length D <= n)%nat -> snd (dec_writes D (RFail x) last) <> None.
Proof.
  induction n as [|n IH]; intros [|c D] last Hn; cbn [dec_writes length] in *; try (cbn; discriminate); [lia|].
  destruct (c =? last).
  - destruct D as [|rc D]; [cbn; discriminate|]. cbn [length] in Hn. specialize (IH D (-1) ltac:(lia)). destruct (dec_writes D (RFail x) (-1)). exact IH.
  - specialize (IH D c ltac:(lia)). destruct (dec_writes D (RFail x) c). exact IH.
Qed.
Lemma Forall_concat (bs : list (list Z)) : bytes (concat bs) -> Forall bytes bs.
Proof. induction bs as [|b bs IH]; cbn [concat]; intros H; [constructor|]. apply Forall_app in H as [H1 H2]. constructor; auto. Qed.
