(** * RleProofs: lemmas for C01-C08 *)
From Verif Require Import GoBase ListZ Rle Spec_Rle.

Lemma maxint_val : maxint = 9223372036854775807.
Proof. reflexivity. Qed.
Ltac mx := rewrite maxint_val in *.

(** ** i64 *)
Lemma i64_small x : - 2^63 <= x < 2^63 -> i64 x = x.
Proof. intros; unfold i64; rewrite Z.mod_small by lia; lia. Qed.
Lemma i64_add_l x y : i64 (i64 x + y) = i64 (x + y).
Proof.
  unfold i64. replace ((x + 2^63) mod 2^64 - 2^63 + y + 2^63)
    with ((x + 2^63) mod 2^64 + y) by lia.
  rewrite Zplus_mod_idemp_l. f_equal. f_equal. lia.
Qed.

(** ** Sequences of writes *)
Lemma write_app w b : exists p, wout (fst (write w b)) = wout w ++ p /\ prefix p b /\
  (snd (write w b) = None -> p = b).
Proof.
  unfold write; destruct (wplan w) as [|[|k e] p]; cbn.
  - exists b; repeat split; auto. exists []; now rewrite app_nil_r.
  - exists b; repeat split; auto. exists []; now rewrite app_nil_r.
  - exists (firstn k b); repeat split; [|discriminate].
    exists (skipn k b); now rewrite firstn_skipn.
Qed.
Lemma prefix_app p a b : prefix p a -> prefix p (a ++ b).
Proof. intros [s ->]; exists (s ++ b); now rewrite app_assoc. Qed.
Lemma prefix_refl p : prefix p p.
Proof. exists []; now rewrite app_nil_r. Qed.

(* the write calls consumed by a run of [write_all] *)
Lemma write_all_spec ws : forall total w total' e w',
  write_all ws total w = (total', e, w') ->
  exists p used, wout w' = wout w ++ p /\ prefix p (concat ws) /\
    wplan w = used ++ wplan w' /\
    match e with
    | None => p = concat ws /\ total' = i64 (total + zlen p) \/ ws = [] /\ total' = total /\ p = []
    | Some (EWriter x) => exists u k, used = u ++ [WFail k x] /\ Forall (eq WOk) u
    | Some _ => False
    end /\ (e = None -> Forall (eq WOk) used).
Proof.
  induction ws as [|b ws IH]; cbn [write_all concat]; intros total w total' e w' H.
  - inversion H; subst; clear H. exists [], []; rewrite app_nil_r; cbn.
    repeat split; auto using prefix_refl.
  - unfold write in H. destruct (wplan w) as [|[|k x] p0] eqn:Hp; cbn in H.
    + apply IH in H; destruct H as (p & used & Ho & Hpre & Hpl & He & Hok); cbn in *.
      symmetry in Hpl; apply app_eq_nil in Hpl; destruct Hpl as [-> Hpl].
      exists (b ++ p), []. rewrite Hpl.
      rewrite Ho, app_assoc. repeat split; auto.
      * destruct Hpre as [s Hs]; exists s; rewrite Hs, app_assoc; auto.
      * destruct e as [[]|]; auto.
        left. destruct He as [[-> ->]|(-> & -> & ->)]; split; auto.
        -- rewrite i64_add_l, zlen_app; f_equal; lia.
        -- rewrite app_nil_r; f_equal; lia.
    + apply IH in H; destruct H as (p & used & Ho & Hpre & Hpl & He & Hok); cbn in *.
      exists (b ++ p), (WOk :: used). rewrite Ho, app_assoc. repeat split; auto.
      * destruct Hpre as [s Hs]; exists s; rewrite Hs, app_assoc; auto.
      * rewrite Hpl; reflexivity.
      * destruct e as [[]|]; auto.
        -- destruct He as (u & k & -> & Hu); exists (WOk :: u), k; split; auto.
        -- left. destruct He as [[-> ->]|(-> & -> & ->)]; split; auto.
           ++ rewrite i64_add_l, zlen_app; f_equal; lia.
           ++ rewrite app_nil_r; f_equal; lia.
    + inversion H; subst; clear H; cbn. exists (firstn k b), [WFail k x].
      repeat split; auto; try discriminate.
      * apply prefix_app. exists (skipn k b); now rewrite firstn_skipn.
      * exists [], k; auto.
Qed.

Lemma write_all_good ws : forall total out,
  write_all ws total (mkWriter out []) =
    (match ws with [] => total | _ => i64 (total + zlen (concat ws)) end, None,
     mkWriter (out ++ concat ws) []).
Proof.
  induction ws as [|b ws IH]; intros total out; cbn [write_all concat].
  - now rewrite app_nil_r.
  - unfold write; cbn. rewrite IH, app_assoc. f_equal; f_equal.
    destruct ws; cbn [concat].
    + now rewrite app_nil_r.
    + rewrite i64_add_l, !zlen_app; f_equal; lia.
Qed.
Lemma write_all_app ws1 ws2 total w :
  write_all (ws1 ++ ws2) total w =
    match write_all ws1 total w with
    | (t1, None, w1) => write_all ws2 t1 w1
    | r => r
    end.
Proof.
  revert total w; induction ws1 as [|b ws1 IH]; intros total w; cbn [app write_all]; [reflexivity|].
  destruct (write w b) as [w' [e|]]; [reflexivity|apply IH].
Qed.
Lemma write_all_total0 ws w t e w' :
  write_all ws 0 w = (t, e, w') -> e = None -> t = i64 (zlen (concat ws)).
Proof.
  intros H ->. apply write_all_spec in H.
  destruct H as (p & used & _ & _ & _ & [[-> ->]|(-> & -> & _)] & _); reflexivity.
Qed.

(* the outcome of a program that performs the writes [ws] and then returns [fe] *)
Definition finish (ws : list (list Z)) (fe : option cerr) (total : Z) (w : writer) : cresult :=
  match write_all ws total w with
  | (t, Some e, w') => mkRes t (Some e) w'
  | (t, None, w') => mkRes t fe w'
  end.

(** ** The grouper *)
Lemma run_loop_spec t : forall data first rl, 1 <= rl <= maxint ->
  exists k rest, data = repeat first k ++ rest /\ rl + Z.of_nat k <= maxint /\
    ((rl + Z.of_nat k < maxint /\ rest = [] /\ t = REOF /\
        run_loop first rl t data = (mkRun first (rl + Z.of_nat k), GEOF, [])) \/
     (rl + Z.of_nat k < maxint /\ rest = [] /\ (exists e, t = RFail e /\
        run_loop first rl t data = (mkRun 0 0, GErr e, []))) \/
     (rl + Z.of_nat k < maxint /\ (exists c rest', rest = c :: rest' /\ c <> first) /\
        run_loop first rl t data = (mkRun first (rl + Z.of_nat k), GNil, rest)) \/
     (rl + Z.of_nat k = maxint /\
        run_loop first rl t data = (mkRun first (rl + Z.of_nat k), GNil, rest))).
Proof.
  induction data as [|c data IH]; intros first rl Hrl; cbn [run_loop].
  - exists 0%nat, []. cbn [repeat app]. split; [reflexivity|]. split; [lia|].
    rewrite Z.add_0_r. destruct (Z.ltb_spec rl maxint).
    + destruct t; [left; auto|right; left; eauto 6].
    + do 3 right. split; [lia|reflexivity].
  - destruct (Z.ltb_spec rl maxint).
    + destruct (Z.eqb_spec c first) as [->|Hne]; cbn [negb].
      * destruct (IH first (rl + 1)) as (k & rest & Hd & Hk & Hcase); [lia|].
        exists (S k), rest. cbn [repeat app]. rewrite <- Hd.
        replace (rl + Z.of_nat (S k)) with (rl + 1 + Z.of_nat k) by lia. auto.
      * exists 0%nat, (c :: data). cbn [repeat app]. split; [reflexivity|]. split; [lia|].
        rewrite Z.add_0_r. right; right; left. eauto 8.
    + exists 0%nat, (c :: data). cbn [repeat app]. split; [reflexivity|]. split; [lia|].
      rewrite Z.add_0_r. do 3 right. split; [lia|reflexivity].
Qed.

(* run_loop with GNil does not look beyond its run *)
Lemma run_loop_extend t t' more : forall data first rl run d',
  run_loop first rl t data = (run, GNil, d') ->
  run_loop first rl t' (data ++ more) = (run, GNil, d' ++ more).
Proof.
  induction data as [|c data IH]; intros first rl run d'; cbn [run_loop app].
  - destruct (Z.ltb_spec rl maxint).
    + destruct t; discriminate.
    + intros H0; inversion H0; subst. destruct more; cbn [run_loop app];
        (destruct (Z.ltb_spec rl maxint); [lia|reflexivity]).
  - destruct (Z.ltb_spec rl maxint).
    + destruct (negb (c =? first)); [intros H0; inversion H0; subst; reflexivity|apply IH].
    + intros H0; inversion H0; subst; reflexivity.
Qed.

(* all runs delivered before the grouper stops, and the non-EOF error if any *)
Fixpoint runs (fuel : nat) (t : rend) (data : list Z) : outcome (list byterun * option cerr) :=
  match fuel with
  | O => OutOfFuel
  | S fuel' =>
      match get_next_run (mkReader data t) with
      | (run, GErr e, _) => Ret ([], Some (EReader e))
      | (run, GEOF, _) => Ret ([run], None)
      | (run, GNil, r') =>
          match runs fuel' t (rdata r') with
          | Ret (rs, fe) => Ret (run :: rs, fe)
          | Panic => Panic
          | OutOfFuel => OutOfFuel
          end
      end
  end.

Definition run_bytes (r : byterun) : list Z := repeat (rbyte r) (Z.to_nat (rlen r)).
Definition run_good (r : byterun) : Prop := 1 <= rlen r <= maxint.

Lemma get_next_run_spec data t c d : data = c :: d ->
  exists k rest, data = repeat c (S k) ++ rest /\ Z.of_nat (S k) <= maxint /\
    ((Z.of_nat (S k) < maxint /\ rest = [] /\ t = REOF /\
        get_next_run (mkReader data t) = (mkRun c (Z.of_nat (S k)), GEOF, mkReader [] t)) \/
     (Z.of_nat (S k) < maxint /\ rest = [] /\ (exists e, t = RFail e /\
        get_next_run (mkReader data t) = (mkRun 0 0, GErr e, mkReader [] t))) \/
     (Z.of_nat (S k) < maxint /\ (exists c' rest', rest = c' :: rest' /\ c' <> c) /\
        get_next_run (mkReader data t) = (mkRun c (Z.of_nat (S k)), GNil, mkReader rest t)) \/
     (Z.of_nat (S k) = maxint /\
        get_next_run (mkReader data t) = (mkRun c (Z.of_nat (S k)), GNil, mkReader rest t))).
Proof.
  intros ->. unfold get_next_run; cbn [rdata rterm].
  destruct (run_loop_spec t d c 1) as (k & rest & Hd & Hk & Hcase); [mx; lia|].
  exists k, rest. cbn [repeat app]. rewrite <- Hd.
  replace (Z.of_nat (S k)) with (1 + Z.of_nat k) by lia.
  split; [reflexivity|]. split; [lia|].
  destruct Hcase as [(H1 & H2 & H3 & ->)|[(H1 & H2 & e & H3 & ->)|[(H1 & H2 & ->)|(H1 & ->)]]];
    [left|right; left|do 2 right; left|do 3 right]; repeat split; auto; eauto.
Qed.

Lemma repeat_S_app_length (c : Z) k rest :
  length (repeat c (S k) ++ rest) = (S k + length rest)%nat.
Proof. rewrite app_length, repeat_length; reflexivity. Qed.

Lemma runs_spec : forall fuel t data, (length data < fuel)%nat ->
  exists rs fe tail, runs fuel t data = Ret (rs, fe) /\
    data = concat (map run_bytes rs) ++ tail /\
    Forall (fun r => run_good r \/ r = mkRun 0 0) rs /\
    match t with
    | REOF => fe = None /\ tail = []
    | RFail e => fe = Some (EReader e) /\ Forall run_good rs
    end /\
    (exists rs0 z, rs = rs0 ++ z /\ (z = [] \/ z = [mkRun 0 0]) /\ Forall run_good rs0 /\
       adjacent_ok rs0 /\
       (match data, rs0 with c :: _, a :: _ => rbyte a = c | [], _ => rs0 = [] | _, [] => True end)).
Proof.
  induction fuel as [|fuel IH]; intros t data Hf; [lia|].
  cbn [runs]. destruct data as [|c d].
  - unfold get_next_run; cbn [rdata rterm end_gerr]. destruct t; cbn [end_gerr].
    + exists [mkRun 0 0], None, []. cbn. repeat split; auto.
      exists [], [mkRun 0 0]; cbn; auto 8.
    + exists [], (Some (EReader e)), []. cbn. repeat split; auto.
      exists [], []; cbn; auto 8.
  - destruct (get_next_run_spec (c :: d) t c d eq_refl) as (k & rest & Hd & Hk & Hcase).
    assert (run_bytes (mkRun c (Z.of_nat (S k))) = repeat c (S k)) as Hrb.
    { unfold run_bytes; cbn [rbyte rlen]; now rewrite Nat2Z.id. }
    assert (run_good (mkRun c (Z.of_nat (S k)))) as Hg by (unfold run_good; cbn [rlen]; lia).
    destruct Hcase as [(H1 & H2 & H3 & ->)|[(H1 & H2 & e & H3 & ->)|Hcase]].
    + subst. exists [mkRun c (Z.of_nat (S k))], None, [].
      cbn [map concat]. rewrite Hrb, !app_nil_r. rewrite app_nil_r in Hd. split; [reflexivity|].
      split; [exact Hd|]. split; [constructor; [left; exact Hg|constructor]|]. split; [auto|].
      exists [mkRun c (Z.of_nat (S k))], []; cbn; auto 8.
    + subst. exists [], (Some (EReader e)), (c :: d). cbn. repeat split; auto.
      exists [], []; cbn; auto 8.
    + assert (exists r', get_next_run {| rdata := c :: d; rterm := t |} =
                (mkRun c (Z.of_nat (S k)), GNil, mkReader rest t) /\
              (Z.of_nat (S k) = maxint \/ exists c' rest', rest = c' :: rest' /\ c' <> c) /\ r' = 0) as (_ & Hg' & Hadj & _).
      { exists 0. destruct Hcase as [(H1 & H2 & ->)|(H1 & ->)]; auto. }
      rewrite Hg'. cbn [rdata].
      destruct (IH t rest) as (rs & fe & tail & Hr & Hrest & Hall & Hend & rs0 & z & Hrs & Hz & Hg0 & Ha0 & Hhd).
      { rewrite Hd, repeat_S_app_length in Hf. lia. }
      rewrite Hr. exists (mkRun c (Z.of_nat (S k)) :: rs), fe, tail.
      split; [reflexivity|]. split.
      { cbn [map concat]. rewrite Hrb. rewrite <- app_assoc, <- Hrest. exact Hd. }
      split; [constructor; auto|]. split.
      { destruct t; [exact Hend|]. destruct Hend; split; auto. }
      exists (mkRun c (Z.of_nat (S k)) :: rs0), z. split; [rewrite Hrs; reflexivity|].
      split; [exact Hz|]. split; [constructor; auto|]. split; [|reflexivity].
      cbn [adjacent_ok]. destruct rs0 as [|b rs0']; [exact I|]. split; [|exact Ha0].
      cbn [rlen rbyte]. destruct Hadj as [Hm|(c' & rest' & -> & Hc)]; [left; exact Hm|].
      right. now rewrite Hhd.
Qed.

Lemma runs_extend t' more : forall fuel data e rs, runs fuel (RFail e) data = Ret (rs, Some (EReader e)) ->
  forall fuel', (length (data ++ more) < fuel')%nat ->
  exists rs' fe', runs fuel' t' (data ++ more) = Ret (rs ++ rs', fe').
Proof.
  induction fuel as [|fuel IH]; intros data e rs H fuel' Hf'; [discriminate|].
  cbn [runs] in H.
  destruct (get_next_run (mkReader data (RFail e))) as [[run ge] r'] eqn:Hg.
  destruct ge.
  - (* GNil *)
    destruct (runs fuel (RFail e) (rdata r')) as [[rs1 fe1]| |] eqn:Hr; try discriminate.
    inversion H; subst; clear H.
    destruct data as [|c d]; [unfold get_next_run in Hg; cbn in Hg; discriminate|].
    unfold get_next_run in Hg; cbn [rdata rterm] in Hg.
    destruct (run_loop c 1 (RFail e) d) as [[run0 ge0] d'] eqn:Hl.
    inversion Hg; subst; clear Hg. cbn [rdata] in Hr.
    pose proof (run_loop_extend _ t' more _ _ _ _ _ Hl) as Hl'.
    destruct fuel' as [|fuel']; [lia|]. cbn [runs app].
    unfold get_next_run; cbn [rdata rterm]. rewrite Hl'. cbn [rdata].
    assert (length (d' ++ more) < fuel')%nat as Hlt.
    { destruct (run_loop_spec (RFail e) d c 1) as (k & rest & Hd & _ & Hc); [mx; lia|].
      assert (d' = rest) as ->.
      { rewrite Hl in Hc.
        destruct Hc as [(_&_&_&Hc)|[(_&_&?&_&Hc)|[(_&_&Hc)|(_&Hc)]]]; congruence. }
      cbn [app length] in Hf'. rewrite Hd, !app_length, repeat_length in Hf'.
      rewrite app_length. lia. }
    destruct (IH _ _ _ Hr fuel' Hlt) as (rs' & fe' & ->). cbn [app]. eauto.
  - discriminate.
  - inversion H; subst; clear H. destruct (runs_spec fuel' t' (data ++ more) Hf')
      as (rs' & fe' & _ & -> & _). cbn [app]. eauto.
Qed.

(** ** RLE8 compressor = tokens of runs *)
Fixpoint run_toks (fuel : nat) (b len : Z) : list token :=
  match fuel with
  | O => []
  | S fuel' =>
      if len >=? 2 then
        let rc := if len >? 257 then 255 else len - 2 in
        Rep b rc :: run_toks fuel' b (len - (rc + 2))
      else if len =? 1 then [Lit b] else []
  end.
Definition toks_of_run (r : byterun) : list token :=
  run_toks (S (Z.to_nat (rlen r))) (rbyte r) (rlen r).
Definition toks (rs : list byterun) : list token := flat_map toks_of_run rs.
Definition run_writes8 (r : byterun) : list (list Z) := map tok_encode (toks_of_run r).

Lemma u8_small x : 0 <= x < 256 -> u8 x = x.
Proof. intros; unfold u8; apply Z.mod_small; lia. Qed.

Lemma emit_groups_spec : forall fuel b len total w, (Z.to_nat len < fuel)%nat ->
  exists ws len',
    match write_all ws total w with
    | (t, Some e, w') => exists l, emit_groups fuel b len total w = Ret (l, t, Some e, w')
    | (t, None, w') => emit_groups fuel b len total w = Ret (len', t, None, w')
    end /\
    map tok_encode (run_toks fuel b len) = ws ++ (if len' =? 1 then [[b]] else []) /\
    len' <= 1.
Proof.
  induction fuel as [|fuel IH]; intros b len total w Hf; [lia|].
  cbn [emit_groups run_toks]. destruct (Z.geb_spec len 2).
  - set (rc := if len >? 257 then 255 else len - 2).
    assert (0 <= rc <= 255 /\ rc + 2 <= len) as Hrc
      by (unfold rc; destruct (Z.gtb_spec len 257); lia).
    rewrite u8_small by lia.
    destruct (write w [b; b; rc]) as [w' [e|]] eqn:Hw.
    + destruct (IH b (len - (rc + 2)) (i64 (total + 3)) w') as (ws & len' & _ & Hm & Hl'); [lia|].
      exists ([b; b; rc] :: ws), len'. split; [|split; [|exact Hl']].
      * cbn [write_all]. rewrite Hw. eauto.
      * cbn [map app tok_encode]. f_equal. exact Hm.
    + destruct (IH b (len - (rc + 2)) (i64 (total + 3)) w') as (ws & len' & He & Hm & Hl'); [lia|].
      exists ([b; b; rc] :: ws), len'. split; [|split; [|exact Hl']].
      * cbn [write_all]. rewrite Hw. replace (zlen [b; b; rc]) with 3 by reflexivity.
        exact He.
      * cbn [map app tok_encode]. f_equal. exact Hm.
  - exists [], len. cbn [write_all app]. split; [reflexivity|].
    split; [|lia]. destruct (len =? 1); reflexivity.
Qed.

Lemma finish_app ws1 ws2 fe total w :
  finish (ws1 ++ ws2) fe total w =
    match write_all ws1 total w with
    | (t, Some e, w') => mkRes t (Some e) w'
    | (t, None, w') => finish ws2 fe t w'
    end.
Proof.
  unfold finish; rewrite write_all_app.
  destruct (write_all ws1 total w) as [[t [e|]] w']; reflexivity.
Qed.

Lemma compress_rle8_loop_eq : forall fuel t data total w rs fe,
  runs fuel t data = Ret (rs, fe) ->
  compress_rle8_loop fuel (mkReader data t) total w =
    Ret (finish (flat_map run_writes8 rs) fe total w).
Proof.
  induction fuel as [|fuel IH]; intros t data total w rs fe H; [discriminate|].
  cbn [runs] in H; cbn [compress_rle8_loop].
  destruct (get_next_run (mkReader data t)) as [[run ge] r'] eqn:Hg.
  assert (forall x, r' = x -> rterm r' = t) as Hrt.
  { intros _ _. unfold get_next_run in Hg; destruct data as [|c d]; cbn [rdata rterm] in Hg.
    - inversion Hg; reflexivity.
    - destruct (run_loop c 1 t d) as [[? ?] ?]; inversion Hg; reflexivity. }
  specialize (Hrt r' eq_refl).
  destruct ge as [| |e].
  - destruct (runs fuel t (rdata r')) as [[rs1 fe1]| |] eqn:Hr; try discriminate.
    inversion H; subst; clear H. cbn [flat_map]. rewrite finish_app.
    destruct (emit_groups_spec (S (Z.to_nat (rlen run))) (rbyte run) (rlen run) total w)
      as (ws & len' & He & Hm & Hl'); [lia|].
    change (map tok_encode (run_toks (S (Z.to_nat (rlen run))) (rbyte run) (rlen run)))
      with (run_writes8 run) in Hm.
    rewrite Hm, write_all_app.
    destruct (write_all ws total w) as [[t1 [e1|]] w1].
    + destruct He as (l0 & ->); reflexivity.
    + rewrite He; clear He. destruct (len' =? 1); cbn [write_all].
      * destruct (write w1 [rbyte run]) as [w2 [e2|]]; [reflexivity|].
        specialize (IH (rterm r') (rdata r') (i64 (t1 + 1)) w2 _ _ Hr).
        destruct r' as [d' t']; exact IH.
      * specialize (IH (rterm r') (rdata r') t1 w1 _ _ Hr).
        destruct r' as [d' t']; exact IH.
  - inversion H; subst; clear H. cbn [flat_map]. rewrite app_nil_r. unfold finish.
    destruct (emit_groups_spec (S (Z.to_nat (rlen run))) (rbyte run) (rlen run) total w)
      as (ws & len' & He & Hm & Hl'); [lia|].
    change (map tok_encode (run_toks (S (Z.to_nat (rlen run))) (rbyte run) (rlen run)))
      with (run_writes8 run) in Hm.
    rewrite Hm, write_all_app.
    destruct (write_all ws total w) as [[t1 [e1|]] w1].
    + destruct He as (l0 & ->); reflexivity.
    + rewrite He; clear He. destruct (len' =? 1); cbn [write_all].
      * destruct (write w1 [rbyte run]) as [w2 [e2|]]; reflexivity.
      * reflexivity.
  - inversion H; subst; clear H. reflexivity.
Qed.

Lemma compress_recursive_loop_eq : forall fuel t data total w rs fe,
  runs fuel t data = Ret (rs, fe) ->
  compress_recursive_loop fuel (mkReader data t) total w =
    Ret (finish (flat_map recursive_writes rs) fe total w).
Proof.
  induction fuel as [|fuel IH]; intros t data total w rs fe H; [discriminate|].
  cbn [runs] in H; cbn [compress_recursive_loop].
  destruct (get_next_run (mkReader data t)) as [[run ge] r'] eqn:Hg.
  assert (rterm r' = t) as Hrt.
  { unfold get_next_run in Hg; destruct data as [|c d]; cbn [rdata rterm] in Hg.
    - inversion Hg; reflexivity.
    - destruct (run_loop c 1 t d) as [[? ?] ?]; inversion Hg; reflexivity. }
  destruct ge as [| |e].
  - destruct (runs fuel t (rdata r')) as [[rs1 fe1]| |] eqn:Hr; try discriminate.
    inversion H; subst; clear H. cbn [flat_map]. rewrite finish_app.
    destruct (write_all (recursive_writes run) total w) as [[t1 [e1|]] w1]; [reflexivity|].
    specialize (IH (rterm r') (rdata r') t1 w1 _ _ Hr). destruct r'; exact IH.
  - inversion H; subst; clear H. cbn [flat_map]. rewrite app_nil_r. unfold finish.
    destruct (write_all (recursive_writes run) total w) as [[t1 [e1|]] w1]; reflexivity.
  - inversion H; subst; clear H. reflexivity.
Qed.

(** ** Decompressor = list of writes *)
Fixpoint dec_writes (data : list Z) (t : rend) (last : Z) : list (list Z) * option cerr :=
  match data with
  | [] => ([], match t with REOF => None | RFail e => Some (EReader e) end)
  | cur :: data1 =>
      if cur =? last then
        match data1 with
        | [] => ([], match t with REOF => Some EUnexpectedEOF | RFail e => Some (EReader e) end)
        | rc :: data2 =>
            let '(ws, fe) := dec_writes data2 t (-1) in (zrepeat cur (rc + 1) :: ws, fe)
        end
      else let '(ws, fe) := dec_writes data1 t cur in ([cur] :: ws, fe)
  end.

Lemma decompress_loop_eq : forall n data t last total w, (length data <= n)%nat ->
  decompress_rle8_loop data t last total w =
    finish (fst (dec_writes data t last)) (snd (dec_writes data t last)) total w.
Proof.
  induction n as [|n IH]; intros data t last total w Hn.
  - destruct data; [|cbn in Hn; lia]. destruct t; reflexivity.
  - destruct data as [|cur data1]; [destruct t; reflexivity|].
    cbn [decompress_rle8_loop dec_writes]. destruct (cur =? last).
    + destruct data1 as [|rc data2]; [destruct t; reflexivity|].
      destruct (dec_writes data2 t (-1)) as [ws fe] eqn:Hd. cbn [fst snd].
      unfold finish; cbn [write_all].
      destruct (write w (zrepeat cur (rc + 1))) as [w' [e|]]; [reflexivity|].
      rewrite IH by (cbn [length] in Hn; lia). rewrite Hd; reflexivity.
    + destruct (dec_writes data1 t cur) as [ws fe] eqn:Hd. cbn [fst snd].
      unfold finish; cbn [write_all].
      destruct (write w [cur]) as [w' [e|]]; [reflexivity|].
      rewrite IH by (cbn [length] in Hn; lia). rewrite Hd; reflexivity.
Qed.
Lemma decompress_eq data t w :
  decompress_rle8 (mkReader data t) w =
    finish (fst (dec_writes data t (-1))) (snd (dec_writes data t (-1))) 0 w.
Proof. unfold decompress_rle8; apply (decompress_loop_eq (length data)); auto. Qed.

(** ** Decoding well-formed token streams *)
Definition starts_with (b : Z) (ts : list token) : Prop :=
  match ts with t :: _ => tok_byte t = b | [] => False end.

Lemma nfp_tail t ts : no_false_pair (t :: ts) -> no_false_pair ts.
Proof. destruct t, ts; cbn; tauto. Qed.

Lemma dec_tokens : forall ts last more t, well_formed ts -> ~ starts_with last ts ->
  (exists b, last = -1 \/ is_byte b /\ last = b) ->
  exists last', 
    (last' = -1 \/ exists ts0 b, ts = ts0 ++ [Lit b] /\ last' = b \/ ts = [] /\ last' = last) /\
    dec_writes (encode ts ++ more) t last =
      (fst (dec_writes (encode ts ++ more) t last), snd (dec_writes more t last')) /\
    concat (fst (dec_writes (encode ts ++ more) t last)) =
      expand ts ++ concat (fst (dec_writes more t last')).
Proof.
  induction ts as [|tk ts IH]; intros last more t [Hok Hnf] Hst Hlast.
  - exists last. split; [right; exists [], 0; auto|]. cbn.
    split; [apply surjective_pairing|reflexivity].
  - inversion Hok as [|? ? Htk Hok']; subst.
    pose proof (nfp_tail _ _ Hnf) as Hnf'.
    destruct tk as [b|b n]; cbn [starts_with tok_byte] in Hst.
    + cbn in Htk. cbn [encode map tok_encode concat app]. cbn [dec_writes].
      destruct (Z.eqb_spec b last) as [->|_]; [now elim Hst|].
      destruct (IH b more t (conj Hok' Hnf')) as (last' & Hl' & Hd & Hc).
      { destruct ts as [|t2 ts2]; [auto|]. cbn. cbn in Hnf. tauto. }
      { exists b; auto. }
      change (concat (map tok_encode ts) ++ more) with (encode ts ++ more).
      exists last'. split.
      { destruct Hl' as [->|(ts0 & b0 & [[-> ->]|[-> ->]])]; [auto| |].
        - right; exists (Lit b :: ts0), b0; auto.
        - right; exists [], b; auto. }
      rewrite Hd. cbn [fst snd concat]. split; [reflexivity|].
      rewrite Hc. cbn [expand map tok_expand concat]. reflexivity.
    + destruct Htk as [Hb Hn]. cbn [encode map tok_encode concat app]. cbn [dec_writes].
      destruct (Z.eqb_spec b last) as [->|_]; [now elim Hst|].
      rewrite Z.eqb_refl.
      destruct (IH (-1) more t (conj Hok' Hnf')) as (last' & Hl' & Hd & Hc).
      { destruct ts as [|t2 ts2]; [auto|]. cbn.
        inversion Hok' as [|? ? Ht2 _]; subst. unfold is_byte in *.
        destruct t2; cbn in *; unfold is_byte in *; lia. }
      { exists 0; auto. }
      change (concat (map tok_encode ts) ++ more) with (encode ts ++ more).
      exists last'. split.
      { destruct Hl' as [->|(ts0 & b0 & [[-> ->]|[-> ->]])]; [auto| |auto].
        right; exists (Rep b n :: ts0), b0; auto. }
      rewrite Hd. cbn [fst snd concat]. split; [reflexivity|].
      rewrite Hc. cbn [expand map tok_expand concat].
      unfold is_byte in *. replace (Z.to_nat (n + 2)) with (S (Z.to_nat (n + 1))) by lia.
      cbn [repeat app]. unfold zrepeat. now rewrite app_assoc.
Qed.

Lemma not_start_m1 ts : well_formed ts -> ~ starts_with (-1) ts.
Proof.
  intros [Hok _]. destruct ts as [|t ts]; cbn; [auto|].
  inversion Hok as [|? ? Ht _]; subst. destruct t; cbn in *; unfold is_byte in *; lia.
Qed.

Lemma dec_well_formed ts t : well_formed ts ->
  concat (fst (dec_writes (encode ts) t (-1))) = expand ts /\
  snd (dec_writes (encode ts) t (-1)) = match t with REOF => None | RFail e => Some (EReader e) end.
Proof.
  intros Hw. destruct (dec_tokens ts (-1) [] t Hw) as (l' & _ & Hd & Hc).
  { now apply not_start_m1. }
  { exists 0; auto. }
  rewrite app_nil_r in *. rewrite Hd in *. cbn [fst snd dec_writes] in *.
  rewrite Hc. cbn. rewrite app_nil_r. auto.
Qed.

(* every byte string is an encoding of well-formed tokens, possibly followed by a
   doubled byte without count *)
Lemma parse : forall n data last, (length data <= n)%nat -> bytes data ->
  exists ts, Forall tok_ok ts /\ no_false_pair ts /\ ~ starts_with last ts /\
    (data = encode ts \/
     (exists b, is_byte b /\ data = encode ts ++ [b; b] /\
        match rev ts with Lit c :: _ => c <> b | [] => b <> last | _ => True end) \/
     (ts = [] /\ data = [last]) \/
     (ts = [] /\ exists rc data', data = last :: rc :: data')).
Proof.
  induction n as [|n IH]; intros data last Hn Hb.
  { destruct data; [|cbn in Hn; lia]. exists []; cbn; auto 8. }
  destruct data as [|c data1]; [exists []; cbn; auto 8|].
  inversion Hb as [|? ? Hc Hb1]; subst.
  destruct (Z.eq_dec c last) as [->|Hcl].
  { exists []. split; [constructor|]. split; [exact I|]. split; [intros []|].
    right; right. destruct data1 as [|rc data']; [left|right]; split; auto; exists rc, data'; auto. }
  destruct (IH data1 c) as (ts & Hok & Hnf & Hst & Hcase); [cbn in Hn; lia|exact Hb1|].
  destruct Hcase as [->|[(b & Hbb & -> & Hrev)|[[-> ->]|[-> (rc & data' & ->)]]]].
  - exists (Lit c :: ts). split; [constructor; auto|]. split.
    { destruct ts as [|t2 ts]; cbn; [auto|]. cbn in Hst. auto. }
    split; [cbn; auto|]. left; reflexivity.
  - exists (Lit c :: ts). split; [constructor; auto|]. split.
    { destruct ts as [|t2 ts]; cbn; [auto|]. cbn in Hst. auto. }
    split; [cbn; auto|].
    right; left. exists b. split; [exact Hbb|]. split; [reflexivity|].
      cbn [rev]. destruct (rev ts) as [|r0 rl] eqn:Hr; cbn; [auto|exact Hrev].
  - exists []. split; [constructor|]. split; [exact I|]. split; [intros []|].
    right; left. exists c. auto.
  - inversion Hb1 as [|? ? _ Hb2]; subst. inversion Hb2 as [|? ? Hrc Hb3]; subst.
    destruct (IH data' (-1)) as (ts2 & Hok2 & Hnf2 & Hst2 & Hcase); [cbn in Hn; lia|exact Hb3|].
    exists (Rep c rc :: ts2). split; [constructor; [cbn; auto|exact Hok2]|].
    split; [exact Hnf2|]. split; [cbn; auto|].
    destruct Hcase as [->|[(b & Hbb & -> & Hrev)|[[-> ->]|[-> (rc' & data'' & ->)]]]].
    + left; reflexivity.
    + right; left. exists b. split; [exact Hbb|]. split; [reflexivity|].
      cbn [rev]. destruct (rev ts2) as [|r0 rl] eqn:Hr; cbn; [auto|exact Hrev].
    + inversion Hb3 as [|? ? Hx _]; unfold is_byte in Hx; lia.
    + inversion Hb3 as [|? ? Hx _]; unfold is_byte in Hx; lia.
Qed.

Lemma dec_dangling ts b t : well_formed ts -> is_byte b ->
  match rev ts with Lit c :: _ => c <> b | _ => True end ->
  concat (fst (dec_writes (encode ts ++ [b; b]) t (-1))) = expand ts ++ [b] /\
  snd (dec_writes (encode ts ++ [b; b]) t (-1)) =
    match t with REOF => Some EUnexpectedEOF | RFail e => Some (EReader e) end.
Proof.
  intros Hw Hb Hrev.
  destruct (dec_tokens ts (-1) [b; b] t Hw (not_start_m1 _ Hw)) as (l' & Hl' & Hd & Hc).
  { exists 0; auto. }
  rewrite Hd in *. cbn [fst snd] in *. rewrite Hc.
  assert (b <> l') as Hne.
  { destruct Hl' as [->|(ts0 & b0 & [[-> ->]|[-> ->]])]; unfold is_byte in *; try lia.
    rewrite rev_app_distr in Hrev. cbn in Hrev. congruence. }
  cbn [dec_writes]. destruct (Z.eqb_spec b l') as [|_]; [congruence|].
  rewrite Z.eqb_refl. cbn. auto.
Qed.

(** ** Tokens of a run *)
Definition ends_lit (ts : list token) (b : Z) : Prop := exists ts0, ts = ts0 ++ [Lit b].

Lemma nfp_app ts1 ts2 : no_false_pair ts1 -> no_false_pair ts2 ->
  (forall b, ends_lit ts1 b -> ~ starts_with b ts2) -> no_false_pair (ts1 ++ ts2).
Proof.
  induction ts1 as [|t ts1 IH]; intros H1 H2 H; [exact H2|].
  cbn [app].
  assert (no_false_pair (ts1 ++ ts2)) as Hr.
  { apply IH; [exact (nfp_tail _ _ H1)|exact H2|].
    intros b (ts0 & ->). apply H. exists (t :: ts0). reflexivity. }
  destruct t as [b|b n]; [|exact Hr].
  destruct ts1 as [|t1 ts1]; cbn [app] in *.
  - destruct ts2 as [|t2 ts2]; [exact I|]. split; [|exact Hr].
    specialize (H b). cbn in H. apply H. exists []; reflexivity.
  - split; [exact (proj1 H1)|exact Hr].
Qed.

Definition f_cost (L : Z) : Z :=
  3 * (L / 257) + (if L mod 257 =? 0 then 0 else if L mod 257 =? 1 then 1 else 3).

Lemma run_toks_spec : forall fuel b len, 0 <= len -> (Z.to_nat len < fuel)%nat -> is_byte b ->
  well_formed (run_toks fuel b len) /\
  expand (run_toks fuel b len) = repeat b (Z.to_nat len) /\
  (0 < len -> starts_with b (run_toks fuel b len)) /\
  (forall c, ends_lit (run_toks fuel b len) c -> c = b /\ len mod 257 = 1) /\
  zlen (encode (run_toks fuel b len)) = f_cost len /\
  Forall (fun t => tok_byte t = b) (run_toks fuel b len).
Proof.
  induction fuel as [|fuel IH]; intros b len Hl Hf Hb; [lia|].
  cbn [run_toks]. destruct (Z.geb_spec len 2) as [H2|H2].
  - set (rc := if len >? 257 then 255 else len - 2).
    assert (0 <= rc <= 255 /\ rc + 2 <= len) as Hrc
      by (unfold rc; destruct (Z.gtb_spec len 257); lia).
    destruct (IH b (len - (rc + 2))) as ([Hok Hnf] & Hex & Hst & Hend & Hcost & Hall); try lia; auto.
    assert (rc = 255 \/ len - (rc + 2) = 0) as Hrc' by (unfold rc; destruct (Z.gtb_spec len 257); lia).
    split; [split; [constructor; [cbn; unfold is_byte in *; lia|exact Hok]|exact Hnf]|].
    split.
    { cbn [expand map concat tok_expand]. change (concat (map tok_expand ?x)) with (expand x).
      rewrite Hex, <- repeat_app. f_equal. lia. }
    split; [intros _; reflexivity|]. split.
    { intros c (ts0 & Hts). destruct ts0 as [|t0 ts0]; [discriminate|].
      cbn in Hts. inversion Hts as [[Ht0 Hts']]. destruct (Hend c) as [-> Hm]; [exists ts0; auto|].
      split; [reflexivity|]. destruct Hrc' as [->|H0].
      - replace len with (len - (255 + 2) + 1 * 257) by lia. rewrite Z.mod_add by lia. exact Hm.
      - rewrite H0 in Hm. cbn in Hm. lia. }
    split; [|constructor; [reflexivity|exact Hall]].
    cbn [encode map concat tok_encode]. change (concat (map tok_encode ?x)) with (encode x).
    rewrite zlen_app, Hcost. replace (zlen [b; b; rc]) with 3 by reflexivity.
    unfold f_cost. destruct Hrc' as [->|H0].
    + clear -Hl. remember (len - (255 + 2)) as L eqn:HL.
      assert (len = L + 1 * 257) as E by lia. rewrite E.
      rewrite Z.mod_add, Z.div_add by lia. lia.
    + rewrite H0. cbn. assert (2 <= len <= 257) as Hlen by lia.
      destruct (Z.eq_dec len 257) as [->|]; [reflexivity|].
      rewrite Z.div_small, Z.mod_small by lia.
      destruct (Z.eqb_spec len 0); [lia|]. destruct (Z.eqb_spec len 1); lia.
  - destruct (Z.eqb_spec len 1) as [->|H1].
    + split; [split; [repeat constructor; unfold is_byte in *; lia|exact I]|].
      split; [reflexivity|]. split; [reflexivity|].
      split; [|split; [reflexivity|repeat constructor]].
      intros c (ts0 & Hts). destruct ts0 as [|? [|? ?]]; inversion Hts; auto.
    + assert (len = 0) as -> by lia. split; [split; [constructor|exact I]|].
      split; [reflexivity|]. split; [lia|]. split; [|split; [reflexivity|constructor]].
      intros c (ts0 & Hts). destruct ts0; discriminate.
Qed.

Lemma expand_app a b : expand (a ++ b) = expand a ++ expand b.
Proof. unfold expand; now rewrite map_app, concat_app. Qed.
Lemma encode_app a b : encode (a ++ b) = encode a ++ encode b.
Proof. unfold encode; now rewrite map_app, concat_app. Qed.

Lemma toks_spec : forall rs, Forall run_good rs -> adjacent_ok rs ->
  Forall (fun r => is_byte (rbyte r)) rs ->
  well_formed (toks rs) /\ expand (toks rs) = concat (map run_bytes rs) /\
  (forall r rs', rs = r :: rs' -> starts_with (rbyte r) (toks rs)) /\
  zlen (encode (toks rs)) = fold_right (fun r a => f_cost (rlen r) + a) 0 rs.
Proof.
  induction rs as [|r rs IH]; intros Hg Ha Hb.
  { split; [split; [constructor|exact I]|]. split; [reflexivity|]. split; [discriminate|reflexivity]. }
  inversion Hg as [|? ? Hg1 Hg2]; subst. inversion Hb as [|? ? Hb1 Hb2]; subst.
  assert (adjacent_ok rs) as Ha2 by (destruct rs; cbn in *; tauto).
  destruct (IH Hg2 Ha2 Hb2) as ([Hok Hnf] & Hex & Hst & Hcost).
  unfold run_good in Hg1.
  destruct (run_toks_spec (S (Z.to_nat (rlen r))) (rbyte r) (rlen r)) as
    ([Hok1 Hnf1] & Hex1 & Hst1 & Hend1 & Hcost1 & Hall1); try lia; auto.
  unfold toks in *; cbn [flat_map].
  change (run_toks (S (Z.to_nat (rlen r))) (rbyte r) (rlen r)) with (toks_of_run r) in *.
  specialize (Hst1 ltac:(lia)).
  split; [split|split; [|split]].
  - apply Forall_app; auto.
  - apply nfp_app; auto. intros b He. destruct (Hend1 _ He) as [-> Hm].
    destruct rs as [|r2 rs]; [cbn; auto|]. cbn in Ha. destruct Ha as [[Ha|Ha] _].
    + rewrite Ha in Hm. mx. cbn in Hm. lia.
    + intros Hs. specialize (Hst r2 rs eq_refl).
      destruct (flat_map toks_of_run (r2 :: rs)); cbn in *; [auto|congruence].
  - rewrite expand_app, Hex, Hex1. reflexivity.
  - intros r0 rs' E; inversion E; subst. destruct (toks_of_run r0); cbn in *; [tauto|exact Hst1].
  - rewrite encode_app, zlen_app, Hcost, Hcost1. reflexivity.
Qed.

(* a trailing invalid run contributes nothing *)
Lemma toks_zero : toks [mkRun 0 0] = [].
Proof. reflexivity. Qed.
Lemma toks_app a b : toks (a ++ b) = toks a ++ toks b.
Proof. unfold toks; now rewrite flat_map_app. Qed.
Lemma flat_map_map8 rs : flat_map run_writes8 rs = map tok_encode (toks rs).
Proof.
  unfold toks, run_writes8. induction rs as [|r rs IH]; [reflexivity|].
  cbn [flat_map]. now rewrite map_app, IH.
Qed.

Lemma run_bytes_bytes rs data tail : data = concat (map run_bytes rs) ++ tail ->
  Forall run_good rs -> bytes data -> Forall (fun r => is_byte (rbyte r)) rs.
Proof.
  revert data; induction rs as [|r rs IH]; intros data Hd Hg Hb; [constructor|].
  inversion Hg as [|? ? Hg1 Hg2]; subst. cbn [map concat] in Hb. unfold run_good in Hg1.
  assert (run_bytes r = rbyte r :: repeat (rbyte r) (Z.to_nat (rlen r - 1))) as Hr.
  { unfold run_bytes. replace (Z.to_nat (rlen r)) with (S (Z.to_nat (rlen r - 1))) by lia. reflexivity. }
  constructor.
  - rewrite Hr in Hb. cbn in Hb. now inversion Hb.
  - eapply IH; [reflexivity|exact Hg2|]. rewrite <- app_assoc in Hb.
    unfold bytes in Hb. rewrite Forall_app in Hb. apply Hb.
Qed.

(* summary for complete inputs *)
Lemma runs_eof data : bytes data -> exists rs rs0 z,
  runs (S (length data)) REOF data = Ret (rs, None) /\ rs = rs0 ++ z /\
  (z = [] \/ z = [mkRun 0 0]) /\ Forall run_good rs0 /\ adjacent_ok rs0 /\
  Forall (fun r => is_byte (rbyte r)) rs0 /\ concat (map run_bytes rs0) = data /\
  toks rs = toks rs0 /\ flat_map recursive_writes rs = flat_map recursive_writes rs0.
Proof.
  intros Hb. destruct (runs_spec (S (length data)) REOF data) as
    (rs & fe & tail & Hr & Hd & Hall & [-> ->] & rs0 & z & Hrs & Hz & Hg0 & Ha0 & Hhd); [lia|].
  rewrite app_nil_r in Hd.
  assert (data = concat (map run_bytes rs0)) as Hd0.
  { rewrite Hd, Hrs, map_app, concat_app. destruct Hz as [->| ->]; cbn; now rewrite app_nil_r. }
  exists rs, rs0, z. split; [exact Hr|]. split; [exact Hrs|]. split; [exact Hz|].
  split; [exact Hg0|]. split; [exact Ha0|]. split.
  { eapply (run_bytes_bytes rs0 data []); auto. now rewrite app_nil_r. }
  split; [auto|]. split.
  { rewrite Hrs, toks_app. destruct Hz as [->| ->]; cbn; now rewrite app_nil_r. }
  { rewrite Hrs, flat_map_app. destruct Hz as [->| ->]; cbn; now rewrite app_nil_r. }
Qed.

Lemma compress_eof data w : bytes data -> exists rs0,
  Forall run_good rs0 /\ adjacent_ok rs0 /\ Forall (fun r => is_byte (rbyte r)) rs0 /\
  concat (map run_bytes rs0) = data /\
  compress_rle8 (mkReader data REOF) w = Ret (finish (map tok_encode (toks rs0)) None 0 w) /\
  compress_recursive (mkReader data REOF) w =
    Ret (finish (flat_map recursive_writes rs0) None 0 w).
Proof.
  intros Hb. destruct (runs_eof data Hb) as (rs & rs0 & z & Hr & _ & _ & Hg & Ha & Hb0 & Hd & Ht & Hw).
  exists rs0. repeat split; auto.
  - unfold compress_rle8; cbn [rdata]. rewrite (compress_rle8_loop_eq _ _ _ _ _ _ _ Hr).
    now rewrite flat_map_map8, Ht.
  - unfold compress_recursive; cbn [rdata]. rewrite (compress_recursive_loop_eq _ _ _ _ _ _ _ Hr).
    now rewrite Hw.
Qed.

Lemma finish_good ws fe out :
  finish ws fe 0 (mkWriter out []) = mkRes (i64 (zlen (concat ws))) fe (mkWriter (out ++ concat ws) []).
Proof.
  unfold finish. rewrite write_all_good. f_equal. destruct ws; reflexivity.
Qed.

(** C01 *)
Lemma rle8_roundtrip data : bytes data -> exists C,
  compress_rle8 (mkReader data REOF) (mkWriter [] []) =
    Ret (mkRes (i64 (zlen C)) None (mkWriter C [])) /\ bytes C /\
  decompress_rle8 (mkReader C REOF) (mkWriter [] []) =
    mkRes (i64 (zlen data)) None (mkWriter data []).
Proof.
  intros Hb. destruct (compress_eof data (mkWriter [] []) Hb) as (rs & Hg & Ha & Hb0 & Hd & Hc & _).
  destruct (toks_spec rs Hg Ha Hb0) as (Hwf & Hex & _).
  exists (encode (toks rs)). rewrite Hc, finish_good. split; [reflexivity|]. split.
  { destruct Hwf as [Hok _]. clear -Hok. unfold encode, bytes.
    induction Hok as [|t ts Ht Hts IH]; [constructor|]. cbn [map concat].
    apply Forall_app; split; [|exact IH]. destruct t; cbn in Ht |- *; repeat (apply Forall_cons || apply Forall_nil); tauto. }
  rewrite decompress_eq, finish_good.
  destruct (dec_well_formed _ REOF Hwf) as [-> ->]. rewrite Hex, Hd. reflexivity.
Qed.

(** C02 *)
Lemma rle8_accepts data : bytes data ->
  (exists ts, well_formed ts /\ data = encode ts /\
     decompress_rle8 (mkReader data REOF) (mkWriter [] []) =
       mkRes (i64 (zlen (expand ts))) None (mkWriter (expand ts) [])) \/
  (exists ts b, well_formed ts /\ is_byte b /\ data = encode ts ++ [b; b] /\
     (forall c, ends_lit ts c -> c <> b) /\
     decompress_rle8 (mkReader data REOF) (mkWriter [] []) =
       mkRes (i64 (zlen (expand ts ++ [b]))) (Some EUnexpectedEOF) (mkWriter (expand ts ++ [b]) [])).
Proof.
  intros Hb. destruct (parse (length data) data (-1)) as (ts & Hok & Hnf & _ & Hcase); auto.
  destruct Hcase as [Hd|[(b & Hbb & Hd & Hrev)|[[_ Hd]|[_ (rc & d' & Hd)]]]].
  - left. exists ts. split; [split; auto|]. split; [exact Hd|].
    rewrite decompress_eq, finish_good. rewrite Hd.
    destruct (dec_well_formed ts REOF) as [-> ->]; [split; auto|reflexivity].
  - right. exists ts, b. split; [split; auto|]. split; [exact Hbb|]. split; [exact Hd|]. split.
    { intros c (ts0 & ->). rewrite rev_app_distr in Hrev. cbn in Hrev. exact Hrev. }
    rewrite decompress_eq, finish_good, Hd.
    destruct (dec_dangling ts b REOF) as [-> ->]; [split; auto|exact Hbb| |reflexivity].
    destruct (rev ts) as [|[c|c n] r]; auto.
  - subst. inversion Hb as [|? ? Hx _]; unfold is_byte in Hx; lia.
  - subst. inversion Hb as [|? ? Hx _]; unfold is_byte in Hx; lia.
Qed.

(** C03 *)
Fixpoint strict_runs (rs : list byterun) : Prop :=
  match rs with
  | a :: rest => 1 <= rlen a /\ match rest with b :: _ => rbyte b <> rbyte a | [] => True end /\ strict_runs rest
  | [] => True
  end.
Lemma f_cost_step L n : 0 <= L -> 2 <= n <= 257 -> f_cost (L + n) <= 3 + f_cost L.
Proof.
  intros HL Hn. unfold f_cost.
  pose proof (Z.div_mod L 257 ltac:(lia)) as H1. pose proof (Z.mod_pos_bound L 257 ltac:(lia)) as H2.
  pose proof (Z.div_mod (L + n) 257 ltac:(lia)) as H3. pose proof (Z.mod_pos_bound (L + n) 257 ltac:(lia)) as H4.
  destruct (Z.eqb_spec (L mod 257) 0); destruct (Z.eqb_spec (L mod 257) 1);
  destruct (Z.eqb_spec ((L + n) mod 257) 0); destruct (Z.eqb_spec ((L + n) mod 257) 1); nia.
Qed.
Lemma f_cost_nonneg L : 0 <= L -> 0 <= f_cost L.
Proof.
  intros. unfold f_cost. pose proof (Z.div_pos L 257 ltac:(lia) ltac:(lia)).
  destruct (Z.eqb_spec (L mod 257) 0); destruct (Z.eqb_spec (L mod 257) 1); lia.
Qed.
Lemma f_cost_bound L : 0 <= L -> 2 * f_cost L <= 3 * L.
Proof.
  intros. unfold f_cost. pose proof (Z.div_mod L 257 ltac:(lia)). pose proof (Z.mod_pos_bound L 257 ltac:(lia)).
  destruct (Z.eqb_spec (L mod 257) 0); destruct (Z.eqb_spec (L mod 257) 1); lia.
Qed.
Definition cost (rs : list byterun) : Z := fold_right (fun r a => f_cost (rlen r) + a) 0 rs.

Lemma repeat_app_split (b : Z) : forall n m x y, repeat b n ++ x = repeat b m ++ y ->
  (match y with c :: _ => c <> b | [] => True end) -> (n <= m)%nat /\ x = repeat b (m - n) ++ y.
Proof.
  induction n as [|n IH]; intros m x y H Hy; [cbn in *; split; [lia|]; now rewrite Nat.sub_0_r|].
  destruct m as [|m].
  - cbn in H. destruct y as [|c y]; [discriminate|]. inversion H; subst. now elim Hy.
  - cbn in H. inversion H as [H']. destruct (IH _ _ _ H' Hy) as [Hle ->]. split; [lia|reflexivity].
Qed.

Lemma strict_hd rs b : match rs with r :: _ => rbyte r <> b | [] => True end -> strict_runs rs ->
  match concat (map run_bytes rs) with c :: _ => c <> b | [] => True end.
Proof.
  destruct rs as [|r rs]; [cbn; auto|]. cbn [strict_runs map concat]. intros Hne (Hl & _ & _).
  unfold run_bytes at 1. destruct (Z.to_nat (rlen r)) eqn:Hn; [lia|]. cbn. exact Hne.
Qed.

Lemma cost_lower : forall ts rs, well_formed ts -> strict_runs rs ->
  expand ts = concat (map run_bytes rs) -> cost rs <= zlen (encode ts).
Proof.
  induction ts as [|t ts IH]; intros rs [Hok Hnf] Hs Hex.
  - destruct rs as [|r rs]; [cbn; lia|]. exfalso. cbn in Hex. destruct Hs as (Hl & _).
    unfold run_bytes in Hex. destruct (Z.to_nat (rlen r)) eqn:?; [lia|]. discriminate.
  - inversion Hok as [|? ? Ht Hok']; subst. pose proof (nfp_tail _ _ Hnf) as Hnf'.
    assert (exists n k, tok_expand t = repeat (tok_byte t) n /\ (0 < n)%nat /\
       zlen (tok_encode t) = k /\
       ((n = 1%nat /\ k = 1 /\ t = Lit (tok_byte t)) \/ (2 <= Z.of_nat n <= 257 /\ k = 3))) as (n & k & Hte & Hn & Hk & Hcase).
    { destruct t as [b|b n]; cbn in *.
      - exists 1%nat, 1. split; [reflexivity|]. split; [lia|]. split; [reflexivity|]. left; auto.
      - unfold is_byte in *. exists (Z.to_nat (n + 2)), 3. split; [reflexivity|]. split; [lia|]. split; [reflexivity|]. right; lia. }
    cbn [expand map concat] in Hex. change (concat (map tok_expand ts)) with (expand ts) in Hex.
    rewrite Hte in Hex.
    destruct rs as [|r rs].
    { cbn in Hex. destruct n; [lia|discriminate]. }
    cbn [map concat] in Hex. cbn [strict_runs] in Hs. destruct Hs as (Hl & Hne & Hs).
    assert (rbyte r = tok_byte t) as Hb.
    { unfold run_bytes in Hex. destruct (Z.to_nat (rlen r)) eqn:?; [lia|]. destruct n; [lia|].
      cbn in Hex. congruence. }
    unfold run_bytes at 1 in Hex. rewrite Hb in Hex.
    apply repeat_app_split in Hex.
    2:{ apply strict_hd; [|exact Hs]. destruct rs; [auto|]. now rewrite <- Hb. }
    destruct Hex as [Hle Hex].
    cbn [encode map concat]. change (concat (map tok_encode ts)) with (encode ts).
    rewrite zlen_app, Hk. cbn [cost fold_right]. change (fold_right _ 0 rs) with (cost rs).
    destruct (Nat.eq_dec n (Z.to_nat (rlen r))) as [Heq|Hneq].
    + rewrite Heq, Nat.sub_diag in Hex. cbn in Hex.
      specialize (IH rs (conj Hok' Hnf') Hs Hex).
      assert (f_cost (rlen r) <= k); [|lia].
      destruct Hcase as [(-> & -> & _)|[Hn2 ->]].
      * replace (rlen r) with 1 by lia. cbn; lia.
      * pose proof (f_cost_step 0 (rlen r) ltac:(lia) ltac:(lia)). rewrite Z.add_0_l in *.
        change (f_cost 0) with 0 in *. lia.
    + destruct Hcase as [(-> & -> & Hlit)|[Hn2 ->]].
      * exfalso. rewrite Hlit in Hnf.
        replace (Z.to_nat (rlen r) - 1)%nat with (S (Z.to_nat (rlen r) - 2)) in Hex by lia.
        cbn in Hex. destruct ts as [|t2 ts]; [discriminate|].
        cbn [no_false_pair] in Hnf. destruct Hnf as [Hnf _].
        inversion Hok' as [|? ? Ht2 _]; subst. cbn [expand map concat] in Hex.
        destruct t2 as [b2|b2 n2]; cbn in *; [congruence|].
        destruct Ht2 as [_ Hn2]. unfold is_byte in *.
        destruct (Z.to_nat (n2 + 2)) eqn:?; [lia|]. cbn in Hex. congruence.
      * specialize (IH (mkRun (tok_byte t) (rlen r - Z.of_nat n) :: rs) (conj Hok' Hnf')).
        cbn [cost fold_right rlen] in IH. change (fold_right _ 0 rs) with (cost rs) in IH.
        assert (f_cost (rlen r - Z.of_nat n) + cost rs <= zlen (encode ts)) as HI.
        { apply IH.
          - cbn [strict_runs rlen rbyte]. split; [lia|]. split; [|exact Hs].
            destruct rs; [auto|]. now rewrite <- Hb.
          - cbn [map concat]. unfold run_bytes at 1; cbn [rbyte rlen].
            rewrite Hex. f_equal. f_equal. lia. }
        pose proof (f_cost_step (rlen r - Z.of_nat n) (Z.of_nat n) ltac:(lia) ltac:(lia)) as HF.
        replace (rlen r - Z.of_nat n + Z.of_nat n) with (rlen r) in HF by lia. lia.
Qed.

Lemma concat_runs_len rs : Forall run_good rs ->
  zlen (concat (map run_bytes rs)) = fold_right (fun r a => rlen r + a) 0 rs.
Proof.
  induction 1 as [|r rs Hr Hrs IH]; [reflexivity|]. cbn [map concat fold_right].
  rewrite zlen_app, IH. unfold run_bytes, zlen. rewrite repeat_length.
  unfold run_good in Hr. lia.
Qed.
Lemma sum_nonneg rs : Forall run_good rs -> 0 <= fold_right (fun r a => rlen r + a) 0 rs.
Proof. induction 1 as [|r rs Hr _ IH]; cbn; [lia|unfold run_good in Hr; lia]. Qed.

Lemma strict_of_short rs : Forall run_good rs -> adjacent_ok rs ->
  fold_right (fun r a => rlen r + a) 0 rs < 2^63 -> strict_runs rs.
Proof.
  induction rs as [|r rs IH]; intros Hg Ha Hl; [exact I|].
  inversion Hg as [|? ? Hg1 Hg2]; subst. cbn [fold_right] in Hl.
  pose proof (sum_nonneg rs Hg2). unfold run_good in Hg1.
  cbn [strict_runs]. split; [lia|]. split.
  - destruct rs as [|r2 rs]; [auto|]. cbn in Ha. destruct Ha as [[Ha|Ha] _]; [|exact Ha].
    exfalso. inversion Hg2 as [|? ? Hg3 Hg4]; subst. unfold run_good in Hg3.
    cbn [fold_right] in Hl. pose proof (sum_nonneg rs Hg4). mx. lia.
  - apply IH; [exact Hg2| |lia]. destruct rs; cbn in *; tauto.
Qed.

Lemma cost_bound rs : Forall run_good rs ->
  2 * cost rs <= 3 * fold_right (fun r a => rlen r + a) 0 rs.
Proof.
  induction 1 as [|r rs Hr _ IH]; [cbn; lia|]. cbn [cost fold_right].
  change (fold_right _ 0 rs) with (cost rs) at 1. unfold run_good in Hr.
  pose proof (f_cost_bound (rlen r) ltac:(lia)). lia.
Qed.

Lemma rle8_minimal data C n : bytes data -> zlen data < 2^63 ->
  compress_rle8 (mkReader data REOF) (mkWriter [] []) = Ret (mkRes n None (mkWriter C [])) ->
  2 * zlen C <= 3 * zlen data /\
  forall X m, bytes X ->
    decompress_rle8 (mkReader X REOF) (mkWriter [] []) = mkRes m None (mkWriter data []) ->
    zlen C <= zlen X.
Proof.
  intros Hb Hlen H.
  destruct (compress_eof data (mkWriter [] []) Hb) as (rs & Hg & Ha & Hb0 & Hd & Hc & _).
  rewrite Hc, finish_good in H. inversion H as [[Hn HC]]; clear H.
  change (concat (map tok_encode (toks rs))) with (encode (toks rs)) in *.
  destruct (toks_spec rs Hg Ha Hb0) as (Hwf & Hex & _ & Hcost).
  change (fold_right (fun r a => f_cost (rlen r) + a) 0 rs) with (cost rs) in Hcost.
  pose proof (concat_runs_len rs Hg) as Hl. rewrite Hd in Hl. rewrite Hl in Hlen.
  cbn [app]. rewrite Hcost, Hl. split; [now apply cost_bound|].
  intros X m HX Hdec.
  destruct (rle8_accepts X HX) as [(ts & Hw & -> & He)|(ts & b & _ & _ & _ & _ & He)].
  - rewrite Hdec in He. inversion He as [[Hm Hdata]].
    apply cost_lower; [exact Hw|now apply strict_of_short|]. congruence.
  - rewrite Hdec in He. discriminate.
Qed.

(** C04 *)
Lemma dec_writes_extend : forall n data t t' more last e ws,
  (length data <= n)%nat -> t = RFail e ->
  fst (dec_writes data t last) = ws ->
  snd (dec_writes data t last) = Some (EReader e) /\
  exists ws', fst (dec_writes (data ++ more) t' last) = ws ++ ws'.
Proof.
  induction n as [|n IH]; intros data t t' more last e ws Hn -> Hw.
  { destruct data; [|cbn in Hn; lia]. cbn in *. subst. cbn. eauto. }
  destruct data as [|c d1]; [cbn in *; subst; cbn; eauto|].
  cbn [dec_writes app] in *. destruct (c =? last).
  - destruct d1 as [|rc d2]; [cbn in *; subst; cbn; eauto|]. cbn [app].
    destruct (IH d2 (RFail e) t' more (-1) e _ ltac:(cbn in Hn; lia) eq_refl eq_refl) as [Hs [ws' Hf]].
    destruct (dec_writes d2 (RFail e) (-1)) as [w1 f1]. destruct (dec_writes (d2 ++ more) t' (-1)) as [w2 f2].
    cbn in *. subst. split; [auto|]. exists ws'. reflexivity.
  - destruct (IH d1 (RFail e) t' more c e _ ltac:(cbn in Hn; lia) eq_refl eq_refl) as [Hs [ws' Hf]].
    destruct (dec_writes d1 (RFail e) c) as [w1 f1]. destruct (dec_writes (d1 ++ more) t' c) as [w2 f2].
    cbn in *. subst. split; [auto|]. exists ws'. reflexivity.
Qed.

Lemma compress_fail_prefix data e more t' :
  exists n C n' err' C',
  compress_rle8 (mkReader data (RFail e)) (mkWriter [] []) =
    Ret (mkRes n (Some (EReader e)) (mkWriter C [])) /\
  compress_rle8 (mkReader (data ++ more) t') (mkWriter [] []) =
    Ret (mkRes n' err' (mkWriter C' [])) /\ prefix C C'.
Proof.
  destruct (runs_spec (S (length data)) (RFail e) data) as (rs & fe & tail & Hr & _ & _ & [-> _] & _); [lia|].
  destruct (runs_extend t' more _ _ _ _ Hr (S (length (data ++ more)))) as (rs' & fe' & Hr'); [lia|].
  unfold compress_rle8; cbn [rdata].
  rewrite (compress_rle8_loop_eq _ _ _ _ _ _ _ Hr), (compress_rle8_loop_eq _ _ _ _ _ _ _ Hr').
  rewrite !finish_good. do 5 eexists. split; [reflexivity|]. split; [reflexivity|].
  rewrite flat_map_app, concat_app. eexists. reflexivity.
Qed.
Lemma decompress_fail_prefix data e more t' :
  exists n D n' err' D',
  decompress_rle8 (mkReader data (RFail e)) (mkWriter [] []) =
    mkRes n (Some (EReader e)) (mkWriter D []) /\
  decompress_rle8 (mkReader (data ++ more) t') (mkWriter [] []) =
    mkRes n' err' (mkWriter D' []) /\ prefix D D'.
Proof.
  rewrite !decompress_eq, !finish_good.
  destruct (dec_writes_extend (length data) data (RFail e) t' more (-1) e _ ltac:(lia) eq_refl eq_refl)
    as [Hs [ws' Hf]].
  rewrite Hs, Hf. do 5 eexists. split; [reflexivity|]. split; [reflexivity|].
  rewrite concat_app. eexists. reflexivity.
Qed.

(** any program of the form [finish]: success only without any failed write *)
Lemma finish_spec ws fe w r : finish ws fe 0 w = r ->
  exists p, wout (rwriter r) = wout w ++ p /\ prefix p (concat ws) /\
  match rerr r with
  | Some (EWriter x) =>
      exists u k, wplan w = u ++ WFail k x :: wplan (rwriter r) /\ Forall (eq WOk) u \/ fe = Some (EWriter x)
  | e => e = fe /\ p = concat ws /\ rcount r = i64 (zlen p) /\
         exists u, Forall (eq WOk) u /\ wplan w = u ++ wplan (rwriter r)
  end.
Proof.
  unfold finish. destruct (write_all ws 0 w) as [[t e] w'] eqn:Hw. intros <-.
  pose proof (write_all_total0 _ _ _ _ _ Hw) as Ht.
  apply write_all_spec in Hw. destruct Hw as (p & used & Ho & Hpre & Hpl & He & Hok).
  destruct e as [[x|x|]|]; cbn [rerr rwriter rcount]; try contradiction.
  - exists p. split; [exact Ho|]. split; [exact Hpre|].
    destruct He as (u & k & -> & Hu). exists u, k. left. split; [|exact Hu].
    rewrite Hpl; now rewrite <- app_assoc.
  - specialize (Ht eq_refl). specialize (Hok eq_refl).
    assert (p = concat ws) as Hp by (destruct He as [[-> _]|(-> & _ & ->)]; reflexivity).
    exists p. split; [exact Ho|]. split; [exact Hpre|].
    destruct fe as [[x|x|]|]; cbn [rerr]; try (exists [], 0%nat; right; reflexivity);
      (split; [reflexivity|]; split; [exact Hp|]; split; [rewrite Hp; exact Ht|]; exists used; split; [exact Hok|exact Hpl]).
Qed.

(** ** Recursive RLE *)
Definition rec_bytes (r : byterun) : list Z := concat (recursive_writes r).
Definition no_long_run (D : list Z) (n : Z) : Prop :=
  forall p b s, D <> p ++ zrepeat b (n + 1) ++ s.

Lemma short_run_same r : 1 <= rlen r <= 256 ->
  concat (run_writes8 r) = rec_bytes r.
Proof.
  intros H. unfold run_writes8, toks_of_run, rec_bytes, recursive_writes.
  cbn [run_toks]. destruct (Z.geb_spec (rlen r) 2).
  - destruct (Z.gtb_spec (rlen r) 257); [lia|].
    replace (rlen r - (rlen r - 2 + 2)) with 0 by lia.
    destruct (Z.to_nat (rlen r)) eqn:Hn; [lia|]. cbn [run_toks]. cbn [Z.geb Z.compare Z.eqb].
    destruct (Z.eqb_spec (rlen r) 1); [lia|].
    rewrite (Z.div_small (rlen r - 2) 255), (Z.mod_small (rlen r - 2) 255) by lia.
    rewrite u8_small by lia. reflexivity.
  - assert (rlen r = 1) as -> by lia. reflexivity.
Qed.

Lemma short_runs_rlen n : 0 <= n -> forall rs, Forall run_good rs ->
  no_long_run (concat (map run_bytes rs)) n -> Forall (fun r => rlen r <= n) rs.
Proof.
  intros Hn0.
  induction 1 as [|r rs Hr Hrs IH]; intros Hn; [constructor|]. cbn [map concat] in Hn.
  constructor.
  - destruct (Z_le_gt_dec (rlen r) n) as [|Hgt]; [auto|]. exfalso.
    apply (Hn [] (rbyte r) (zrepeat (rbyte r) (rlen r - (n + 1)) ++ concat (map run_bytes rs))).
    cbn [app]. unfold run_bytes at 1. change (repeat (rbyte r) (Z.to_nat (rlen r))) with (zrepeat (rbyte r) (rlen r)).
    replace (rlen r) with (n + 1 + (rlen r - (n + 1))) at 1 by lia.
    rewrite zrepeat_app by lia. now rewrite app_assoc.
  - apply IH. intros p b s Hp. apply (Hn (run_bytes r ++ p) b s). now rewrite Hp, app_assoc.
Qed.

Lemma concat_flat_map {A} (f : A -> list (list Z)) l :
  concat (flat_map f l) = flat_map (fun x => concat (f x)) l.
Proof. induction l as [|x l IH]; [reflexivity|]. cbn [flat_map]. now rewrite concat_app, IH. Qed.

(* a correct decoder for the recursive format (specification only: the repository
   has none, see C07) *)
Inductive rstate := SNone | SLast (b : Z) | SCount (b : Z).
Fixpoint rec_decode (st : rstate) (data : list Z) : list Z :=
  match data with
  | [] => []
  | c :: d =>
      match st with
      | SNone => c :: rec_decode (SLast c) d
      | SLast b => if c =? b then c :: rec_decode (SCount b) d else c :: rec_decode (SLast c) d
      | SCount b =>
          repeat b (Z.to_nat c) ++ (if c =? 255 then rec_decode (SCount b) d else rec_decode SNone d)
      end
  end.
Lemma rec_decode_255 b d : forall k, rec_decode (SCount b) (repeat 255 k ++ d) =
  repeat b (255 * k) ++ rec_decode (SCount b) d.
Proof.
  induction k as [|k IH]; [reflexivity|].
  cbn [repeat app rec_decode]. rewrite Z.eqb_refl, IH, app_assoc, <- repeat_app.
  f_equal. f_equal. lia.
Qed.
Lemma rec_roundtrip : forall rs st, Forall run_good rs -> adjacent_ok rs ->
  match st with SNone => True | SLast b => match rs with r :: _ => rbyte r <> b | [] => True end | SCount _ => False end ->
  rec_decode st (flat_map rec_bytes rs) = concat (map run_bytes rs).
Proof.
  induction rs as [|r rs IH]; intros st Hg Ha Hst; [destruct st; reflexivity|].
  inversion Hg as [|? ? Hg1 Hg2]; subst.
  assert (adjacent_ok rs) as Ha2 by (destruct rs; cbn in *; tauto).
  cbn [flat_map map concat]. unfold run_good in Hg1.
  unfold rec_bytes at 1, recursive_writes, run_bytes at 1.
  destruct (Z.eqb_spec (rlen r) 1) as [H1|H1].
  - rewrite H1. cbn [concat app Z.to_nat Pos.to_nat Pos.iter_op repeat].
    assert (rec_decode (SLast (rbyte r)) (flat_map rec_bytes rs) = concat (map run_bytes rs)) as HI.
    { apply IH; auto. destruct rs as [|r2 rs]; [auto|]. cbn in Ha.
      destruct Ha as [[Ha|Ha] _]; [mx; lia|exact Ha]. }
    destruct st as [|b|b]; [|destruct (Z.eqb_spec (rbyte r) b)|contradiction]; cbn [rec_decode].
    + change (Pos.to_nat 1) with 1%nat. cbn [repeat app]. now rewrite HI.
    + congruence.
    + destruct (Z.eqb_spec (rbyte r) b); [congruence|]. change (Pos.to_nat 1) with 1%nat. cbn [repeat app]. now rewrite HI.
  - destruct (Z.geb_spec (rlen r) 2) as [H2|H2]; [|lia].
    set (q := (rlen r - 2) / 255). set (m := (rlen r - 2) mod 255).
    pose proof (Z.div_mod (rlen r - 2) 255 ltac:(lia)) as Hdm.
    pose proof (Z.mod_pos_bound (rlen r - 2) 255 ltac:(lia)) as Hm.
    assert (0 <= q) as Hq by (apply Z.div_pos; lia).
    fold q in Hdm. fold m in Hdm, Hm. rewrite u8_small by lia.
    cbn [concat]. rewrite !app_nil_r, <- !app_assoc. cbn [app].
    assert (rec_decode (SCount (rbyte r)) (zrepeat 255 q ++ [m] ++ flat_map rec_bytes rs) =
       repeat (rbyte r) (Z.to_nat (rlen r - 2)) ++ concat (map run_bytes rs)) as HI.
    { unfold zrepeat. rewrite rec_decode_255. cbn [app rec_decode].
      destruct (Z.eqb_spec m 255); [lia|]. rewrite (IH SNone) by auto.
      rewrite app_assoc, <- repeat_app. f_equal. f_equal. lia. }
    cbn [app] in HI.
    replace (Z.to_nat (rlen r)) with (S (S (Z.to_nat (rlen r - 2)))) by lia.
    destruct st as [|b|b]; cbn [rec_decode repeat app]; rewrite ?Z.eqb_refl.
    + now rewrite HI.
    + destruct (Z.eqb_spec (rbyte r) b); [congruence|]. now rewrite HI.
    + contradiction.
Qed.

(** ** Collecting all results of GetNextRun (C06) *)
Lemma collect_spec : forall fuel data, (length data < fuel)%nat ->
  exists rs e, collect fuel (mkReader data REOF) = map (fun r => (r, GNil)) rs ++ [e] /\
    snd e = GEOF /\ Forall run_good rs /\ (run_good (fst e) \/ fst e = mkRun 0 0) /\
    concat (map run_bytes rs) ++ run_bytes (fst e) = data /\
    (match data with c :: _ => match rs with r :: _ => rbyte r = c | [] => rbyte (fst e) = c /\ run_good (fst e) end | [] => rs = [] /\ fst e = mkRun 0 0 end) /\
    (fst e = mkRun 0 0 -> rs <> [] -> exists rs' r, rs = rs' ++ [r] /\ rlen r = maxint) /\
    (run_good (fst e) -> adjacent_ok (rs ++ [fst e])) /\ adjacent_ok rs.
Proof.
  induction fuel as [|fuel IH]; intros data Hf; [lia|].
  cbn [collect]. destruct data as [|c d].
  { unfold get_next_run; cbn. exists [], (mkRun 0 0, GEOF). cbn.
    repeat split; auto; intros; try congruence. }
  destruct (get_next_run_spec (c :: d) REOF c d eq_refl) as (k & rest & Hd & Hk & Hcase).
  assert (run_bytes (mkRun c (Z.of_nat (S k))) = repeat c (S k)) as Hrb.
  { unfold run_bytes; cbn [rbyte rlen]; now rewrite Nat2Z.id. }
  assert (run_good (mkRun c (Z.of_nat (S k)))) as Hg by (unfold run_good; cbn [rlen]; lia).
  destruct Hcase as [(H1 & H2 & H3 & ->)|[(H1 & H2 & e & H3 & _)|Hcase]]; [|discriminate|].
  - exists [], (mkRun c (Z.of_nat (S k)), GEOF). cbn [map app concat fst snd].
    rewrite Hrb. subst rest. rewrite app_nil_r in Hd.
    split; [reflexivity|]. split; [reflexivity|]. split; [constructor|]. split; [left; exact Hg|].
    split; [symmetry; exact Hd|]. split; [cbn; auto|].
    split; [intros _ Hx; now elim Hx|]. split; [|exact I]. intros _; cbn; auto.
  - assert (get_next_run {| rdata := c :: d; rterm := REOF |} =
                (mkRun c (Z.of_nat (S k)), GNil, mkReader rest REOF) /\
            (Z.of_nat (S k) = maxint \/ exists c' rest', rest = c' :: rest' /\ c' <> c)) as [Hg' Hadj].
    { destruct Hcase as [(H1 & H2 & ->)|(H1 & ->)]; auto. }
    rewrite Hg'.
    destruct (IH rest) as (rs & e & Hc & He & Hgr & Hge & Hdat & Hhd & Hz & Hae & Ha).
    { rewrite Hd, repeat_S_app_length in Hf. lia. }
    rewrite Hc. exists (mkRun c (Z.of_nat (S k)) :: rs), e.
    split; [reflexivity|]. split; [exact He|]. split; [constructor; auto|]. split; [exact Hge|].
    split. { cbn [map concat]. rewrite Hrb, <- app_assoc, Hdat. symmetry; exact Hd. }
    split; [reflexivity|]. split.
    { intros Hz0 _. destruct rs as [|r2 rs2].
      - exists [], (mkRun c (Z.of_nat (S k))). split; [reflexivity|]. cbn [rlen].
        destruct Hadj as [Hm|(c' & rest' & -> & Hc')]; [exact Hm|]. exfalso.
        cbn in Hhd. rewrite Hz0 in Hhd. unfold run_good in Hhd; cbn in Hhd. lia.
      - destruct (Hz Hz0) as (rs' & r & Hrs & Hm); [discriminate|].
        exists (mkRun c (Z.of_nat (S k)) :: rs'), r. rewrite Hrs. auto. }
    split.
    { intros Hge'. cbn [app]. specialize (Hae Hge'). 
      destruct (rs ++ [fst e]) as [|a l] eqn:Hl; [destruct rs; discriminate|].
      cbn [adjacent_ok]. split; [|exact Hae]. cbn [rlen rbyte].
      destruct Hadj as [Hm|(c' & rest' & -> & Hc')]; [left; exact Hm|]. right.
      destruct rs as [|r2 rs2]; cbn [app] in Hl; injection Hl as <- <-; [destruct Hhd as [-> _]|rewrite Hhd]; exact Hc'. }
    { destruct rs as [|r2 rs2]; [exact I|]. cbn [adjacent_ok]. split; [|exact Ha]. cbn [rlen rbyte].
      destruct Hadj as [Hm|(c' & rest' & -> & Hc')]; [left; exact Hm|]. right. rewrite Hhd. exact Hc'. }
Qed.

(** C05 *)
Definition faithful (full : list Z) (n : Z) (ferr : option cerr) (w : writer) (res : cresult) : Prop :=
  exists p, wout (rwriter res) = wout w ++ p /\ prefix p full /\
    ((exists u k x, wplan w = u ++ WFail k x :: wplan (rwriter res) /\ Forall (eq WOk) u /\
        rerr res = Some (EWriter x)) \/
     (exists u, wplan w = u ++ wplan (rwriter res) /\ Forall (eq WOk) u /\
        p = full /\ rerr res = ferr /\ rcount res = n)).

Lemma finish_faithful ws fe w : (forall x, fe <> Some (EWriter x)) ->
  faithful (concat ws) (i64 (zlen (concat ws))) fe w (finish ws fe 0 w).
Proof.
  intros Hfe. destruct (finish_spec ws fe w _ eq_refl) as (p & Ho & Hp & Hm).
  exists p. split; [exact Ho|]. split; [exact Hp|].
  destruct (rerr (finish ws fe 0 w)) as [[x|x|]|].
  - destruct Hm as (E & -> & Hc & u & Hu & Hpl). right. exists u; auto.
  - destruct Hm as (u & k & [[Hpl Hu]|Hx]); [left; exists u, k, x; auto|].
    now elim (Hfe x).
  - destruct Hm as (E & -> & Hc & u & Hu & Hpl). right. exists u; auto.
  - destruct Hm as (E & -> & Hc & u & Hu & Hpl). right. exists u; auto.
Qed.
Lemma runs_err fuel t data rs fe : (length data < fuel)%nat -> runs fuel t data = Ret (rs, fe) ->
  forall x, fe <> Some (EWriter x).
Proof.
  intros Hf Hr x. destruct (runs_spec fuel t data Hf) as (rs' & fe' & tl & Hr' & _ & _ & Ht & _).
  rewrite Hr in Hr'; inversion Hr'; subst. destruct t; destruct Ht as [Hx _]; rewrite Hx; discriminate.
Qed.
Lemma compress_faithful D t w : exists n full ferr res,
  compress_rle8 (mkReader D t) (mkWriter [] []) = Ret (mkRes n ferr (mkWriter full [])) /\
  compress_rle8 (mkReader D t) w = Ret res /\ faithful full n ferr w res.
Proof.
  destruct (runs_spec (S (length D)) t D) as (rs & fe & tail & Hr & _); [lia|].
  pose proof (runs_err (S (length D)) t D _ _ ltac:(lia) Hr) as Hne.
  unfold compress_rle8; cbn [rdata]. rewrite !(compress_rle8_loop_eq _ _ _ _ _ _ _ Hr).
  rewrite finish_good. do 4 eexists. split; [reflexivity|]. split; [reflexivity|].
  now apply finish_faithful.
Qed.
Lemma compress_recursive_faithful D t w : exists n full ferr res,
  compress_recursive (mkReader D t) (mkWriter [] []) = Ret (mkRes n ferr (mkWriter full [])) /\
  compress_recursive (mkReader D t) w = Ret res /\ faithful full n ferr w res.
Proof.
  destruct (runs_spec (S (length D)) t D) as (rs & fe & tail & Hr & _); [lia|].
  pose proof (runs_err (S (length D)) t D _ _ ltac:(lia) Hr) as Hne.
  unfold compress_recursive; cbn [rdata]. rewrite !(compress_recursive_loop_eq _ _ _ _ _ _ _ Hr).
  rewrite finish_good. do 4 eexists. split; [reflexivity|]. split; [reflexivity|].
  now apply finish_faithful.
Qed.
Lemma dec_err : forall n data t last x, (length data <= n)%nat ->
  snd (dec_writes data t last) <> Some (EWriter x).
Proof.
  induction n as [|n IH]; intros data t last x Hn.
  { destruct data; [|cbn in Hn; lia]. destruct t; discriminate. }
  destruct data as [|c d1]; [destruct t; discriminate|]. cbn [dec_writes].
  destruct (c =? last).
  - destruct d1 as [|rc d2]; [destruct t; discriminate|].
    specialize (IH d2 t (-1) x ltac:(cbn in Hn; lia)). destruct (dec_writes d2 t (-1)); exact IH.
  - specialize (IH d1 t c x ltac:(cbn in Hn; lia)). destruct (dec_writes d1 t c); exact IH.
Qed.
Lemma decompress_faithful C t w : exists n full ferr,
  decompress_rle8 (mkReader C t) (mkWriter [] []) = mkRes n ferr (mkWriter full []) /\
  faithful full n ferr w (decompress_rle8 (mkReader C t) w).
Proof.
  rewrite !decompress_eq, finish_good. do 3 eexists. split; [reflexivity|].
  apply finish_faithful. intros x. now apply (dec_err (length C)).
Qed.

(** C07, C08 *)
Lemma recursive_same D : bytes D -> no_long_run D 256 ->
  compress_recursive (mkReader D REOF) (mkWriter [] []) =
  compress_rle8 (mkReader D REOF) (mkWriter [] []).
Proof.
  intros Hb Hn. destruct (compress_eof D (mkWriter [] []) Hb) as (rs & Hg & Ha & Hb0 & Hd & -> & ->).
  rewrite !finish_good.
  assert (concat (map tok_encode (toks rs)) = concat (flat_map recursive_writes rs)) as ->; [|reflexivity].
  rewrite <- flat_map_map8, !concat_flat_map.
  pose proof (short_runs_rlen 256 ltac:(lia) rs Hg) as Hs. rewrite Hd in Hs. specialize (Hs Hn). clear - Hg Hs.
  induction rs as [|r rs IH]; [reflexivity|]. inversion Hg; inversion Hs; subst. cbn [flat_map].
  rewrite IH by auto. f_equal. apply short_run_same. unfold run_good in *. lia.
Qed.
Lemma recursive_decodable D : bytes D -> exists C,
  compress_recursive (mkReader D REOF) (mkWriter [] []) = Ret (mkRes (i64 (zlen C)) None (mkWriter C [])) /\
  rec_decode SNone C = D.
Proof.
  intros Hb. destruct (compress_eof D (mkWriter [] []) Hb) as (rs & Hg & Ha & Hb0 & Hd & _ & ->).
  rewrite finish_good. eexists. split; [reflexivity|]. cbn [app].
  rewrite concat_flat_map. change (fun x => concat (recursive_writes x)) with rec_bytes.
  rewrite (rec_roundtrip rs SNone Hg Ha I). exact Hd.
Qed.
Lemma recursive_injective D1 D2 n1 n2 C : bytes D1 -> bytes D2 ->
  compress_recursive (mkReader D1 REOF) (mkWriter [] []) = Ret (mkRes n1 None (mkWriter C [])) ->
  compress_recursive (mkReader D2 REOF) (mkWriter [] []) = Ret (mkRes n2 None (mkWriter C [])) ->
  D1 = D2.
Proof.
  intros H1 H2 E1 E2. destruct (recursive_decodable D1 H1) as (C1 & F1 & R1).
  destruct (recursive_decodable D2 H2) as (C2 & F2 & R2).
  rewrite E1 in F1; rewrite E2 in F2. inversion F1; inversion F2; subst. reflexivity.
Qed.

Lemma recursive_identity D w : bytes D -> no_long_run D 1 ->
  exists ws, concat ws = D /\ compress_recursive (mkReader D REOF) w = Ret (finish ws None 0 w).
Proof.
  intros Hb Hn. destruct (compress_eof D w Hb) as (rs & Hg & Ha & Hb0 & Hd & _ & ->).
  exists (flat_map recursive_writes rs). split; [|reflexivity]. rewrite <- Hd.
  pose proof (short_runs_rlen 1 ltac:(lia) rs Hg) as Hs. rewrite Hd in Hs. specialize (Hs Hn).
  clear - Hg Hs. rewrite concat_flat_map, flat_map_concat_map. f_equal.
  apply map_ext_Forall. rewrite Forall_forall in *. intros r Hr. specialize (Hg r Hr). specialize (Hs r Hr).
  unfold run_good in Hg. unfold recursive_writes, run_bytes. replace (rlen r) with 1 by lia. reflexivity.
Qed.
Lemma recursive_roundtrip_norep D : bytes D -> no_long_run D 1 ->
  compress_recursive (mkReader D REOF) (mkWriter [] []) =
    Ret (mkRes (i64 (zlen D)) None (mkWriter D [])) /\
  decompress_recursive (mkReader D REOF) (mkWriter [] []) =
    Ret (mkRes (i64 (zlen D)) None (mkWriter D [])).
Proof.
  intros Hb Hn. unfold decompress_recursive.
  destruct (recursive_identity D (mkWriter [] []) Hb Hn) as (ws & Hws & ->).
  rewrite finish_good, Hws. auto.
Qed.

(* an input that ends in a failure gives the same runs but for the last *)
Lemma run_loop_fail first e : forall D n, 
  match run_loop first n REOF D with
  | (run, GNil, D') => run_loop first n (RFail e) D = (run, GNil, D')
  | (_, GEOF, _) => snd (fst (run_loop first n (RFail e) D)) = GErr e /\ fst (fst (run_loop first n (RFail e) D)) = mkRun 0 0
  | (_, GErr _, _) => False
  end.
Proof.
  induction D as [|c D IH]; intros n; cbn [run_loop]; destruct (n <? maxint); try reflexivity; [split; reflexivity|].
  destruct (negb (c =? first)); [reflexivity|apply IH].
Qed.
Lemma collect_fail e k : forall D rs last, collect k (mkReader D REOF) = map (fun r => (r, GNil)) rs ++ [(last, GEOF)] ->
  collect k (mkReader D (RFail e)) = map (fun r => (r, GNil)) rs ++ [(mkRun 0 0, GErr e)].
Proof.
  induction k as [|k IH]; intros D rs last H; [destruct rs; discriminate|]. cbn [collect] in *. unfold get_next_run in *. cbn [rdata rterm] in *.
  destruct D as [|c D]; cbn [end_gerr] in *.
  - destruct rs as [|r [|]]; cbn in H; try discriminate. reflexivity.
  - pose proof (run_loop_fail c e D 1) as L. destruct (run_loop c 1 REOF D) as [[run [| |x]] D2]; [| |contradiction].
    + rewrite L. destruct rs as [|r rs]; [discriminate|]. cbn [map app] in *. injection H as <- H. f_equal. eapply IH, H.
    + destruct (run_loop c 1 (RFail e) D) as [[run' ge'] D2']. cbn [fst snd] in L. destruct L as [-> ->].
      destruct rs as [|r [|]]; cbn in H; try discriminate. reflexivity.
Qed.
