(** * BufioProofs: the codecs see only the bytes and the error that the reader delivers *)
From Verif Require Import GoBase ListZ Rle Bufio Spec_Bufio.

Section Sim.
Context {T : Type} (read : ioreader T).
Hypothesis HG : go_reader read.
(* what the bufio.Reader still holds for its user *)
Definition rep (b : bufio T) (D : list Z) (e : rend) : Prop :=
  0 <= b_r b /\ Forall is_byte (b_unread b) /\
  ((b_err b = Some e /\ D = b_unread b) \/ (b_err b = None /\ exists D', delivers read 100 (b_rd b) D' e /\ D = b_unread b ++ D')).
Lemma rep_new t D e : input_is read t D e -> rep (new_reader t) D e.
Proof. intros H. split; [cbn; lia|]. split; [constructor|]. right. split; [reflexivity|]. exists D. auto. Qed.

Lemma fill_loop_spec k : forall b D e, delivers read k (b_rd b) D e -> b_unread b = [] -> b_err b = None -> 0 <= b_r b ->
  rep (fill_loop read k b) D e /\ (b_unread (fill_loop read k b) <> [] \/ b_err (fill_loop read k b) = Some e).
Proof.
  induction k as [|k IH]; intros b D e Hd Hu He Hr.
  - inversion Hd; subst. cbn [fill_loop]. rewrite Hu. split; [|right; reflexivity]. split; [exact Hr|]. split; [constructor|]. left. now split.
  - cbn [fill_loop]. rewrite Hu. change (4096 - zlen []) with 4096. cbn [app].
    inversion Hd as [k0 t t' c e0 E|k0 t t' c D0 e0 E Hne Hd0|k0 t t' D0 e0 E Hd0|]; subst; rewrite E.
    + destruct (HG _ 4096 _ _ _ ltac:(lia) E) as [_ Hc]. split; [|right; reflexivity]. split; [exact Hr|]. split; [exact Hc|]. left. now split.
    + destruct (HG _ 4096 _ _ _ ltac:(lia) E) as [_ Hc]. replace (zlen c >? 0) with true.
      2:{ destruct c; [congruence|]. symmetry. apply Z.gtb_lt. unfold zlen. cbn. lia. }
      split; [|left; exact Hne]. split; [exact Hr|]. split; [exact Hc|]. right. split; [reflexivity|]. exists D0. auto.
    + change (zlen [] >? 0) with false. cbv iota. apply IH; auto.
Qed.
Lemma read_byte_S f b : read_byte read (S f) b = match b_unread b with
  | c :: u => Ret (mkBuf (b_rd b) u (b_r b + 1) (b_err b) c, inl c)
  | [] => match b_err b with Some e => Ret (mkBuf (b_rd b) [] (b_r b) None (b_last b), inr e) | None => obind (fill read b) (read_byte read f) end
  end.
Proof. reflexivity. Qed.
Lemma read_byte_spec b D e : rep b D e ->
  match D with
  | [] => exists b', read_byte read 3 b = Ret (b', inr e)
  | c :: D1 => exists b', read_byte read 3 b = Ret (b', inl c) /\ rep b' D1 e /\ b_last b' = c /\ 0 < b_r b' /\ is_byte c
  end.
Proof.
  intros (Hr & Hb & HD). destruct (b_unread b) as [|c u] eqn:Eu.
  - destruct HD as [[He ->]|[He (D' & Hd & ->)]]; rewrite read_byte_S, Eu, He.
    + eexists. reflexivity.
    + cbn [app]. unfold fill. rewrite Eu. change (zlen [] >=? 4096) with false. cbv iota.
      rewrite He. set (b0 := mkBuf (b_rd b) [] 0 None (b_last b)).
      destruct (fill_loop_spec 100 b0 D' e Hd eq_refl eq_refl ltac:(cbn; lia)) as [(Hr1 & Hb1 & HD1) Hor].
      set (b1 := fill_loop read 100 b0) in *. clearbody b1. cbn [obind]. rewrite read_byte_S. destruct (b_unread b1) as [|c u] eqn:Eu1.
      * destruct Hor as [Hor|Hor]; [congruence|]. destruct HD1 as [[_ ->]|[X _]]; [|congruence]. rewrite Hor. eexists. reflexivity.
      * inversion Hb1 as [|? ? Hc Hu']; subst. destruct HD1 as [[He1 ->]|[He1 (D2 & Hd2 & ->)]]; cbn [app].
        -- eexists. split; [reflexivity|]. split; [|split; [reflexivity|split; [cbn; lia|exact Hc]]].
           split; [cbn; lia|]. split; [exact Hu'|]. left. cbn. now rewrite He1.
        -- eexists. split; [reflexivity|]. split; [|split; [reflexivity|split; [cbn; lia|exact Hc]]].
           split; [cbn; lia|]. split; [exact Hu'|]. right. cbn. rewrite He1. split; [reflexivity|]. exists D2. auto.
  - inversion Hb as [|? ? Hc Hu']; subst. destruct HD as [[He ->]|[He (D' & Hd & ->)]]; rewrite read_byte_S, Eu; cbn [app].
    + eexists. split; [reflexivity|]. split; [|split; [reflexivity|split; [cbn; lia|exact Hc]]].
      split; [cbn; lia|]. split; [exact Hu'|]. left. cbn. auto.
    + eexists. split; [reflexivity|]. split; [|split; [reflexivity|split; [cbn; lia|exact Hc]]].
      split; [cbn; lia|]. split; [exact Hu'|]. right. cbn. split; [exact He|]. exists D'. auto.
Qed.
Lemma unread_spec b D e : rep b D e -> 0 < b_r b -> is_byte (b_last b) ->
  snd (unread_byte b) = true /\ rep (fst (unread_byte b)) (b_last b :: D) e.
Proof.
  intros (Hr & Hb & HD) H0 [Hl Hl']. unfold unread_byte. replace (b_last b <? 0) with false by lia. replace (b_r b =? 0) with false by lia. cbn [orb andb].
  replace (b_r b >? 0) with true by lia. cbn [fst snd]. split; [reflexivity|]. split; [cbn; lia|]. cbn [b_unread b_err b_rd]. split; [constructor; [split; assumption|exact Hb]|].
  destruct HD as [[He ->]|[He (D' & Hd & ->)]]; [left; auto|right]. split; [exact He|]. exists D'. auto.
Qed.
Lemma run_loop_sim fuel : forall first n b D e, rep b D e -> (length D < fuel)%nat ->
  exists b', run_loop_b read fuel first n b = Ret (fst (fst (run_loop first n e D)), snd (fst (run_loop first n e D)), b') /\
    (snd (fst (run_loop first n e D)) = GNil -> rep b' (snd (run_loop first n e D)) e).
Proof.
  induction fuel as [|f IH]; intros first n b D e HR Hf; [lia|]. cbn [run_loop_b]. destruct D as [|c D1]; cbn [run_loop].
  - destruct (n <? maxint).
    + destruct (read_byte_spec b [] e HR) as [b' E]. rewrite E. cbn [obind]. destruct e; cbn [fst snd]; eexists; (split; [reflexivity|discriminate]).
    + cbn [fst snd]. eauto.
  - destruct (n <? maxint); [|cbn [fst snd]; eauto].
    destruct (read_byte_spec b (c :: D1) e HR) as (b' & E & HR1 & Hl & H0 & Hc). rewrite E. cbn [obind].
    destruct (negb (c =? first)); cbn [fst snd].
    + eexists. split; [reflexivity|]. intros _. subst c. now apply unread_spec.
    + apply IH; [exact HR1|]. cbn in Hf. lia.
Qed.
Lemma next_run_sim fuel b D e : rep b D e -> (length D <= fuel)%nat ->
  let r := get_next_run (mkReader D e) in
  exists b', get_next_run_b read fuel b = Ret (fst (fst r), snd (fst r), b') /\
    (snd (fst r) = GNil -> rep b' (rdata (snd r)) e) /\ rterm (snd r) = e.
Proof.
  intros HR Hf r. subst r. unfold get_next_run_b, get_next_run. cbn [rdata rterm]. destruct D as [|c D1].
  - destruct (read_byte_spec b [] e HR) as [b' E]. rewrite E. cbn [obind fst snd rterm]. eexists. split; [reflexivity|]. split; [destruct e; discriminate|reflexivity].
  - destruct (read_byte_spec b (c :: D1) e HR) as (b' & E & HR1 & Hl & H0 & Hc). rewrite E. cbn [obind].
    destruct (run_loop_sim fuel c 1 b' D1 e HR1) as (b2 & E2 & H2); [cbn in Hf; lia|]. rewrite E2.
    destruct (run_loop c 1 e D1) as [[run ge] D2]. cbn [fst snd rdata rterm] in *. eauto.
Qed.
(* a run that does not end the input uses up at least one byte *)
Lemma run_loop_rest first n e : forall D, (length (snd (run_loop first n e D)) <= length D)%nat.
Proof.
  intros D. revert n. induction D as [|c D IH]; intros n; cbn [run_loop]; destruct (n <? maxint); try destruct e; cbn [snd length]; try lia;
    (destruct (negb (c =? first)); cbn [snd length]; [lia|specialize (IH (n + 1)); lia]).
Qed.
Lemma next_run_rest D e : snd (fst (get_next_run (mkReader D e))) = GNil -> (length (rdata (snd (get_next_run (mkReader D e)))) < length D)%nat.
Proof.
  unfold get_next_run. cbn [rdata rterm]. destruct D as [|c D]; [destruct e; discriminate|]. pose proof (run_loop_rest c 1 e D) as H.
  destruct (run_loop c 1 e D) as [[run ge] D2]. cbn [fst snd rdata length] in *. lia.
Qed.
Lemma compress_sim fuel : forall b D e total w, rep b D e -> (length D < fuel)%nat ->
  compress_rle8_b read fuel b total w = compress_rle8_loop fuel (mkReader D e) total w.
Proof.
  induction fuel as [|f IH]; intros b D e total w HR Hf; [lia|]. cbn [compress_rle8_b compress_rle8_loop].
  destruct (next_run_sim (S f) b D e HR ltac:(lia)) as (b' & E & HN & Ht). rewrite E. cbn [obind]. pose proof (next_run_rest D e) as HL.
  destruct (get_next_run (mkReader D e)) as [[run ge] [D2 e2]]. cbn [fst snd rdata rterm] in *. subst e2.
  destruct ge as [| |x]; [| |reflexivity].
  - destruct (emit_groups _ _ _ _ _) as [[[[l1 t1] [e1|]] w1]| |]; cbn [obind]; try reflexivity.
    destruct (if l1 =? 1 then _ else _) as [[w2 [x|]] t2]; [reflexivity|]. apply IH; [now apply HN|]. specialize (HL eq_refl). lia.
  - destruct (emit_groups _ _ _ _ _) as [[[[l1 t1] [e1|]] w1]| |]; cbn [obind]; try reflexivity.
Qed.
Lemma recursive_sim fuel : forall b D e total w, rep b D e -> (length D < fuel)%nat ->
  compress_recursive_b read fuel b total w = compress_recursive_loop fuel (mkReader D e) total w.
Proof.
  induction fuel as [|f IH]; intros b D e total w HR Hf; [lia|]. cbn [compress_recursive_b compress_recursive_loop].
  destruct (next_run_sim (S f) b D e HR ltac:(lia)) as (b' & E & HN & Ht). rewrite E. cbn [obind]. pose proof (next_run_rest D e) as HL.
  destruct (get_next_run (mkReader D e)) as [[run ge] [D2 e2]]. cbn [fst snd rdata rterm] in *. subst e2.
  destruct ge as [| |x]; [| |reflexivity].
  - destruct (write_all _ _ _) as [[t1 [e1|]] w1]; [reflexivity|]. apply IH; [now apply HN|]. specialize (HL eq_refl). lia.
  - reflexivity.
Qed.
Lemma decompress_sim fuel : forall b D e last total w, rep b D e -> (length D < fuel)%nat ->
  decompress_rle8_b read fuel b last total w = Ret (decompress_rle8_loop D e last total w).
Proof.
  induction fuel as [|f IH]; intros b D e last total w HR Hf; [lia|]. cbn [decompress_rle8_b]. destruct D as [|c D1]; cbn [decompress_rle8_loop].
  - destruct (read_byte_spec b [] e HR) as [b' E]. rewrite E. cbn [obind]. destruct e; reflexivity.
  - destruct (read_byte_spec b (c :: D1) e HR) as (b' & E & HR1 & _). rewrite E. cbn [obind]. cbn [length] in Hf. destruct (c =? last).
    + destruct D1 as [|rc D2].
      * destruct (read_byte_spec b' [] e HR1) as [b2 E2]. rewrite E2. cbn [obind]. destruct e; reflexivity.
      * destruct (read_byte_spec b' (rc :: D2) e HR1) as (b2 & E2 & HR2 & _). rewrite E2. cbn [obind].
        destruct (write w _) as [w' [x|]]; [reflexivity|]. apply IH; [exact HR2|]. cbn [length] in Hf. lia.
    + destruct (write w _) as [w' [x|]]; [reflexivity|]. apply IH; [exact HR1|lia].
Qed.
End Sim.

(** ** enough fuel is enough *)
Lemma compress_fuel f : forall f' D e total w, (length D < f)%nat -> (length D < f')%nat ->
  compress_rle8_loop f (mkReader D e) total w = compress_rle8_loop f' (mkReader D e) total w.
Proof.
  induction f as [|f IH]; intros [|f'] D e total w H1 H2; try lia. cbn [compress_rle8_loop]. pose proof (next_run_rest D e) as HL.
  assert (rterm (snd (get_next_run (mkReader D e))) = e) as Ht by (unfold get_next_run; cbn [rdata rterm]; destruct D as [|c D1]; [reflexivity|]; destruct (run_loop c 1 e D1) as [[? ?] ?]; reflexivity).
  destruct (get_next_run (mkReader D e)) as [[run ge] [D2 e2]]. cbn [fst snd rdata rterm] in *. subst e2. destruct ge as [| |x]; [| |reflexivity].
  - destruct (emit_groups _ _ _ _ _) as [[[[l1 t1] [e1|]] w1]| |]; try reflexivity.
    destruct (if l1 =? 1 then _ else _) as [[w2 [x|]] t2]; [reflexivity|]. specialize (HL eq_refl). apply IH; lia.
  - destruct (emit_groups _ _ _ _ _) as [[[[l1 t1] [e1|]] w1]| |]; try reflexivity.
Qed.
Lemma recursive_fuel f : forall f' D e total w, (length D < f)%nat -> (length D < f')%nat ->
  compress_recursive_loop f (mkReader D e) total w = compress_recursive_loop f' (mkReader D e) total w.
Proof.
  induction f as [|f IH]; intros [|f'] D e total w H1 H2; try lia. cbn [compress_recursive_loop]. pose proof (next_run_rest D e) as HL.
  assert (rterm (snd (get_next_run (mkReader D e))) = e) as Ht by (unfold get_next_run; cbn [rdata rterm]; destruct D as [|c D1]; [reflexivity|]; destruct (run_loop c 1 e D1) as [[? ?] ?]; reflexivity).
  destruct (get_next_run (mkReader D e)) as [[run ge] [D2 e2]]. cbn [fst snd rdata rterm] in *. subst e2. destruct ge as [| |x]; [| |reflexivity].
  - destruct (write_all _ _ _) as [[t1 [e1|]] w1]; [reflexivity|]. specialize (HL eq_refl). apply IH; lia.
  - reflexivity.
Qed.

(** ** the readers of Spec_Bufio *)
Lemma u8_bytes l : Forall is_byte (map u8 l).
Proof. apply Forall_forall. intros x Hx. apply in_map_iff in Hx as (y & <- & _). unfold is_byte, u8. apply Z.mod_pos_bound. lia. Qed.
Lemma u8_id l : bytes l -> map u8 l = l.
Proof. induction 1 as [|c l Hc _ IH]; cbn; [reflexivity|]. rewrite IH. f_equal. unfold u8, is_byte in *. apply Z.mod_small. lia. Qed.
Lemma zlen_u8 l : zlen (map u8 l) = zlen l.
Proof. unfold zlen. now rewrite map_length. Qed.
Lemma pieces_go early fin : go_reader (pieces early fin).
Proof.
  intros t n t' c e Hn. unfold pieces. destruct t as [|x t0]; [intros [= <- <- <-]; split; [cbn; lia|constructor]|].
  destruct (Z.leb_spec (zlen x) n); intros [= <- <- <-]; rewrite zlen_u8; (split; [|apply u8_bytes]); [lia|]. rewrite zlen_slice; lia.
Qed.
Lemma pieces_deliver early fin l : Forall (fun c => c <> [] /\ zlen c <= 4096) l -> Forall bytes l -> input_is (pieces early fin) l (concat l) fin.
Proof.
  unfold input_is. induction l as [|c l IH]; intros HF HB; [now apply (d_end _ 99 [] [])|]. inversion HF as [|? ? [Hne Hlen] HF']; subst. inversion HB as [|? ? Hc HB']; subst. cbn [concat].
  assert (E : pieces early fin (c :: l) 4096 = (l, c, match l with [] => if early then Some fin else None | _ => None end)) by (unfold pieces; rewrite (proj2 (Z.leb_le _ _) Hlen); now rewrite (u8_id c Hc)).
  destruct l as [|c2 l].
  - destruct early; [cbn [concat]; rewrite app_nil_r; eapply d_end; exact E|]. eapply d_more; [exact E|exact Hne|]. now apply IH.
  - eapply d_more; [exact E|exact Hne|]. now apply IH.
Qed.
