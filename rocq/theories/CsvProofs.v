(** * CsvProofs *)
From Coq Require Import String ListDec.
From Verif Require Import GoBase ListZ Errors GoPath GoPathProofs Spec_Path Disks Csv Spec_Csv.

(** ** lines *)
(* the first line of a text with line feeds only, and the rest *)
Fixpoint lineu (s : list Z) : list Z * list Z :=
  match s with [] => ([], []) | c :: s' => if c =? 10 then ([10], s') else let '(l, r) := lineu s' in (c :: l, r) end.
Lemma lineu_cons c s : c <> 10 -> lineu (c :: s) = (c :: fst (lineu s), snd (lineu s)).
Proof. intros H. cbn [lineu]. destruct (Z.eqb_spec c 10); [tauto|]. destruct (lineu s); reflexivity. Qed.
Lemma lineu_nl s : lineu (10 :: s) = ([10], s). Proof. reflexivity. Qed.
Lemma lineu_app t s : ~ In 10 t -> lineu (t ++ s) = (t ++ fst (lineu s), snd (lineu s)).
Proof.
  induction t as [|c t IH]; intros H; cbn [app]; [destruct (lineu s); reflexivity|]. cbn [In] in *.
  rewrite lineu_cons by tauto. rewrite IH by tauto. reflexivity.
Qed.
Definition special (c : Z) (s : list Z) : bool := (c =? 13) && match s with [] => true | d :: _ => d =? 10 end.
Lemma line_of_lf s : fst (line_of s) = fst (lineu (lf_only s)) /\ lf_only (snd (line_of s)) = snd (lineu (lf_only s)).
Proof.
  induction s as [|c s [I1 I2]]; [split; reflexivity|]. cbn [line_of lf_only]. unfold NL, CR. destruct (Z.eqb_spec c 10) as [->|Hc]; [split; reflexivity|].
  destruct ((c =? 13) && match s with [] => true | d :: _ => d =? 10 end) eqn:E.
  - destruct s as [|d s]; [split; reflexivity|]. apply andb_prop in E as [_ E]. apply Z.eqb_eq in E. subst d. split; reflexivity.
  - rewrite lineu_cons by exact Hc. destruct (line_of s). cbn [fst snd] in *. rewrite I1. auto.
Qed.
Lemma line_of_S c s : line_of (c :: s) = if c =? NL then ([NL], s)
      else if (c =? CR) && match s with [] => true | d :: _ => d =? NL end then match s with [] => ([], []) | _ :: s2 => ([NL], s2) end
      else let '(l, r) := line_of s in (c :: l, r).
Proof. reflexivity. Qed.
Lemma line_of_shorter c s : (length (snd (line_of (c :: s))) < length (c :: s))%nat.
Proof.
  revert c. induction s as [|d s IH]; intros c; rewrite line_of_S.
  - destruct (c =? NL); [cbn; lia|]. destruct (c =? CR); cbn; lia.
  - destruct (c =? NL); [cbn; lia|]. destruct ((c =? CR) && (d =? NL)); [cbn; lia|]. specialize (IH d). destruct (line_of (d :: s)). cbn [snd length] in *. lia.
Qed.
Lemma lf_length s : (length (lf_only s) <= length s)%nat.
Proof. induction s as [|c s IH]; cbn [lf_only length]; [lia|]. destruct (_ && _); cbn [length]; lia. Qed.
Lemma lf_nil s : lf_only s = [] -> s = [] \/ s = [13].
Proof.
  destruct s as [|c s]; [auto|]. cbn [lf_only]. destruct (Z.eqb_spec c 13) as [->|]; cbn [andb]; [|discriminate]. destruct s as [|d s]; [auto|].
  destruct (Z.eqb_spec d 10) as [->|]; discriminate.
Qed.
Lemma cut_app c a s : ~ In c a -> cut c (a ++ c :: s) = Some (a, s).
Proof. induction a as [|x a IH]; intros H; cbn [app cut]; [now rewrite Z.eqb_refl|]. cbn [In] in H. destruct (Z.eqb_spec x c); [tauto|]. now rewrite IH by tauto. Qed.
Lemma cut_none c a : ~ In c a -> cut c a = None.
Proof. induction a as [|x a IH]; intros H; cbn [cut]; [reflexivity|]. cbn [In] in H. destruct (Z.eqb_spec x c); [tauto|]. now rewrite IH by tauto. Qed.
Lemma no_quote f : ~ In 34 f -> has_quote f = false.
Proof. unfold has_quote, QUOTE. induction f as [|c f IH]; cbn; [reflexivity|]. intros H. destruct (Z.eqb_spec c 34); [tauto|]. cbn. apply IH. tauto. Qed.
Lemma drop_nl_app f : drop_nl (f ++ [10]) = f.
Proof. induction f as [|c f IH]; [reflexivity|]. cbn [app drop_nl]. destruct (f ++ [10]) eqn:E; [destruct f; discriminate|]. now rewrite IH. Qed.
Lemma drop_nl_none f : ~ In 10 f -> drop_nl f = f.
Proof.
  induction f as [|c f IH]; [reflexivity|]. intros H. cbn [In] in H. cbn [drop_nl]. destruct f as [|d f].
  - unfold NL. destruct (Z.eqb_spec c 10); [tauto|reflexivity].
  - now rewrite IH by tauto.
Qed.
Lemma after_none c l : ~ In c l -> after c l = None.
Proof. destruct l as [|x l]; intros H; [reflexivity|]. cbn. cbn [In] in H. destruct (Z.eqb_spec x c); [tauto|reflexivity]. Qed.
Lemma parse_S f inq line rest acc : parse_rec (S f) inq line rest acc =
      match inq with
      | None =>
          match after QUOTE line with
          | Some line' => parse_rec f (Some []) line' rest acc
          | None =>
              match cut BAR line with
              | Some (field, line') =>
                  if has_quote field then Ret (inr ErrBareQuote) else parse_rec f None line' rest (acc ++ [field])
              | None =>
                  if has_quote (drop_nl line) then Ret (inr ErrBareQuote) else Ret (inl (acc ++ [drop_nl line], rest))
              end
          end
      | Some buf =>
          match cut QUOTE line with
          | Some (part, line') =>
              match after QUOTE line', after BAR line' with
              | Some line2, _ => parse_rec f (Some (buf ++ part ++ [QUOTE])) line2 rest acc
              | None, Some line2 => parse_rec f None line2 rest (acc ++ [buf ++ part])
              | None, None => if only_nl line' then Ret (inl (acc ++ [buf ++ part], rest)) else Ret (inr ErrQuote)
              end
          | None =>
              match line with
              | [] => Ret (inr ErrQuote)
              | _ => match readLine rest with
                     | Some (line', rest') => parse_rec f (Some (buf ++ line)) line' rest' acc
                     | None => parse_rec f (Some (buf ++ line)) [] [] acc
                     end
              end
          end
      end.
Proof. reflexivity. Qed.
(* the reader on texts with line feeds only *)
Fixpoint parse_recU (fuel : nat) (inq : option (list Z)) (line rest : list Z) (acc : list (list Z)) : outcome (list (list Z) * list Z + csverr) :=
  match fuel with
  | O => OutOfFuel
  | S f =>
      match inq with
      | None =>
          match after QUOTE line with
          | Some line' => parse_recU f (Some []) line' rest acc
          | None =>
              match cut BAR line with
              | Some (field, line') =>
                  if has_quote field then Ret (inr ErrBareQuote) else parse_recU f None line' rest (acc ++ [field])
              | None =>
                  if has_quote (drop_nl line) then Ret (inr ErrBareQuote) else Ret (inl (acc ++ [drop_nl line], rest))
              end
          end
      | Some buf =>
          match cut QUOTE line with
          | Some (part, line') =>
              match after QUOTE line', after BAR line' with
              | Some line2, _ => parse_recU f (Some (buf ++ part ++ [QUOTE])) line2 rest acc
              | None, Some line2 => parse_recU f None line2 rest (acc ++ [buf ++ part])
              | None, None => if only_nl line' then Ret (inl (acc ++ [buf ++ part], rest)) else Ret (inr ErrQuote)
              end
          | None =>
              match line with
              | [] => Ret (inr ErrQuote)
              | _ => parse_recU f (Some (buf ++ line)) (fst (lineu rest)) (snd (lineu rest)) acc
              end
          end
      end
  end.
Definition lf_result (r : list (list Z) * list Z + csverr) : list (list Z) * list Z + csverr :=
  match r with inl (x, rest) => inl (x, lf_only rest) | inr e => inr e end.
Lemma parse_U : forall fuel inq line rest acc,
  parse_recU fuel inq line (lf_only rest) acc = obind (parse_rec fuel inq line rest acc) (fun r => Ret (lf_result r)) /\
  forall x r, parse_rec fuel inq line rest acc = Ret (inl (x, r)) -> (length r <= length rest)%nat.
Proof.
  induction fuel as [|f IH]; intros inq line rest acc; [split; [reflexivity|discriminate]|]. rewrite parse_S. cbn [parse_recU]. destruct inq as [buf|].
  - destruct (cut QUOTE line) as [[p l']|].
    + destruct (after QUOTE l'); [apply IH|]. destruct (after BAR l'); [apply IH|]. destruct (only_nl l'); [split; [reflexivity|]|split; [reflexivity|discriminate]]. intros x r [= _ <-]. lia.
    + destruct line as [|c line]; [split; [reflexivity|discriminate]|]. pose proof (line_of_lf rest) as [L1 L2]. rewrite <- L1, <- L2. unfold readLine. destruct rest as [|d rest].
      * cbn [line_of fst snd]. apply IH.
      * pose proof (line_of_shorter d rest) as L. destruct (line_of (d :: rest)) as [l' r']. cbn [fst snd] in *. destruct (IH (Some (buf ++ c :: line)) l' r' acc) as [I1 I2]. split; [exact I1|].
        intros x r H. apply I2 in H. lia.
  - destruct (after QUOTE line); [apply IH|]. destruct (cut BAR line) as [[fd l']|].
    + destruct (has_quote fd); [split; [reflexivity|discriminate]|apply IH].
    + destruct (has_quote (drop_nl line)); [split; [reflexivity|discriminate]|]. split; [reflexivity|]. intros x r [= _ <-]. lia.
Qed.
Lemma parse_SU f inq line rest acc : parse_recU (S f) inq line rest acc =
      match inq with
      | None =>
          match after QUOTE line with
          | Some line' => parse_recU f (Some []) line' rest acc
          | None =>
              match cut BAR line with
              | Some (field, line') =>
                  if has_quote field then Ret (inr ErrBareQuote) else parse_recU f None line' rest (acc ++ [field])
              | None =>
                  if has_quote (drop_nl line) then Ret (inr ErrBareQuote) else Ret (inl (acc ++ [drop_nl line], rest))
              end
          end
      | Some buf =>
          match cut QUOTE line with
          | Some (part, line') =>
              match after QUOTE line', after BAR line' with
              | Some line2, _ => parse_recU f (Some (buf ++ part ++ [QUOTE])) line2 rest acc
              | None, Some line2 => parse_recU f None line2 rest (acc ++ [buf ++ part])
              | None, None => if only_nl line' then Ret (inl (acc ++ [buf ++ part], rest)) else Ret (inr ErrQuote)
              end
          | None =>
              match line with
              | [] => Ret (inr ErrQuote)
              | _ => parse_recU f (Some (buf ++ line)) (fst (lineu rest)) (snd (lineu rest)) acc
              end
          end
      end.
Proof. reflexivity. Qed.
(* reading from the text s *)
Definition parse_at (fuel : nat) (inq : option (list Z)) (s : list Z) (acc : list (list Z)) := parse_recU fuel inq (fst (lineu s)) (snd (lineu s)) acc.

(* inside quotation marks an ordinary character goes to the buffer *)
Lemma quoted_char fuel buf c line rest acc : c <> 34 -> line <> [] -> parse_recU fuel (Some buf) (c :: line) rest acc = parse_recU fuel (Some (buf ++ [c])) line rest acc.
Proof.
  intros Hc Hl. destruct fuel as [|f]; [reflexivity|]. rewrite !parse_SU. cbn [cut]. unfold QUOTE at 1. destruct (Z.eqb_spec c 34); [tauto|].
  destruct (cut QUOTE line) as [[p l']|].
  - rewrite <- !app_assoc. reflexivity.
  - destruct line as [|d line]; [tauto|]. rewrite <- !app_assoc. cbn [app]. reflexivity.
Qed.
Lemma lineu_nonempty c s : fst (lineu (c :: s)) <> [].
Proof. destruct (Z.eq_dec c 10) as [->|H0]; [cbn; discriminate|]. rewrite lineu_cons by lia. discriminate. Qed.
Lemma parse_quoted f : forall m fuel buf s acc, (length (doubled f) + m <= fuel)%nat ->
  exists fuel', (m <= fuel')%nat /\ parse_at fuel (Some buf) (doubled f ++ 34 :: s) acc = parse_at fuel' (Some (buf ++ f)) (34 :: s) acc.
Proof.
  induction f as [|c f IH]; intros m fuel buf s acc Hm.
  - exists fuel. rewrite app_nil_r. auto.
  - assert (doubled (c :: f) = (if c =? 34 then [34; 34] else [c]) ++ doubled f) as E by reflexivity. rewrite E in *. clear E.
    replace (buf ++ c :: f) with ((buf ++ [c]) ++ f) by now rewrite <- app_assoc. destruct (Z.eqb_spec c 34) as [->|Hc]; cbn [app length] in *.
    + destruct fuel as [|fuel]; [lia|]. destruct (IH m fuel (buf ++ [34]) s acc) as (f' & H1 & H2); [lia|]. exists f'. split; [exact H1|]. rewrite <- H2.
      unfold parse_at. rewrite !(lineu_cons 34) by lia. cbn [fst snd]. rewrite parse_SU. cbn [cut]. unfold QUOTE. rewrite Z.eqb_refl. cbn [after]. rewrite Z.eqb_refl. reflexivity.
    + destruct (Z.eq_dec c 10) as [->|Hn].
      * destruct fuel as [|fuel]; [lia|]. destruct (IH m fuel (buf ++ [10]) s acc) as (f' & H1 & H2); [lia|]. exists f'. split; [exact H1|]. rewrite <- H2.
        unfold parse_at. rewrite lineu_nl. cbn [fst snd]. rewrite parse_SU. cbn [cut]. unfold QUOTE. cbn [Z.eqb Pos.eqb]. reflexivity.
      * destruct (IH m fuel (buf ++ [c]) s acc) as (f' & H1 & H2); [lia|]. exists f'. split; [exact H1|]. rewrite <- H2.
        unfold parse_at. rewrite (lineu_cons c) by tauto. cbn [fst snd]. apply quoted_char; [exact Hc|].
        destruct (doubled f) as [|y l]; cbn [app]; apply lineu_nonempty.
Qed.
(* one field and the bar after it *)
Lemma parse_field f t m fuel s acc : field_text f t -> (length t + 1 + m <= fuel)%nat ->
  exists fuel', (m <= fuel')%nat /\ parse_at fuel None (t ++ 124 :: s) acc = parse_at fuel' None s (acc ++ [f]).
Proof.
  intros [g H1 H2 H3|g] Hm.
  - destruct fuel as [|fuel]; [lia|]. exists fuel. split; [lia|]. unfold parse_at. rewrite lineu_app by auto. rewrite lineu_cons by lia. cbn [fst snd]. rewrite parse_SU.
    rewrite (cut_app BAR g) by exact H2. rewrite no_quote by exact H1.
    assert (after QUOTE (g ++ 124 :: fst (lineu s)) = None) as ->. { destruct g as [|x g]; [reflexivity|]. cbn. cbn [In] in H1. unfold QUOTE. destruct (Z.eqb_spec x 34); [tauto|reflexivity]. }
    reflexivity.
  - cbn [app length] in *. rewrite app_length in Hm. cbn [length] in Hm. destruct fuel as [|fuel]; [lia|].
    destruct (parse_quoted g (S m) fuel [] (124 :: s) acc) as (f1 & L1 & E1); [lia|]. destruct f1 as [|f1]; [lia|]. exists f1. split; [lia|].
    replace ((doubled g ++ [34]) ++ 124 :: s) with (doubled g ++ 34 :: 124 :: s) by now rewrite <- app_assoc.
    unfold parse_at at 1. rewrite lineu_cons by lia. cbn [fst snd]. rewrite parse_SU. cbn [after]. unfold QUOTE. rewrite Z.eqb_refl.
    change (parse_recU fuel (Some []) (fst (lineu (doubled g ++ 34 :: 124 :: s))) (snd (lineu (doubled g ++ 34 :: 124 :: s))) acc) with (parse_at fuel (Some []) (doubled g ++ 34 :: 124 :: s) acc).
    rewrite E1. unfold parse_at. rewrite !lineu_cons by lia. cbn [fst snd app]. rewrite parse_SU. cbn [cut]. unfold QUOTE. rewrite Z.eqb_refl. cbn [after]. unfold BAR.
    cbn [Z.eqb Pos.eqb]. now rewrite app_nil_r.
Qed.
(* the last field of a record; [e] is its line end, or nothing at the end of the text *)
Definition ends (e s : list Z) : Prop := e = [10] \/ (e = [] /\ s = []).
Lemma ends_line e s : ends e s -> (fst (lineu (e ++ s)) = [10] \/ fst (lineu (e ++ s)) = []) /\ snd (lineu (e ++ s)) = s.
Proof. intros [-> | [-> ->]]; cbn; auto. Qed.
Lemma parse_last f t fuel e s acc : field_text f t -> ends e s -> (length t + 1 <= fuel)%nat ->
  parse_at fuel None (t ++ e ++ s) acc = Ret (inl (acc ++ [f], s)).
Proof.
  intros Ht He Hm. destruct (ends_line e s He) as [Hl Hs]. destruct Ht as [g H1 H2 H3|g].
  - destruct fuel as [|fuel]; [lia|]. unfold parse_at. rewrite lineu_app by auto. cbn [fst snd]. rewrite Hs. rewrite parse_SU.
    assert (after QUOTE (g ++ fst (lineu (e ++ s))) = None) as ->.
    { destruct g as [|x g]; [destruct Hl as [-> | ->]; reflexivity|]. cbn. cbn [In] in H1. unfold QUOTE. destruct (Z.eqb_spec x 34); [tauto|reflexivity]. }
    rewrite cut_none. 2:{ rewrite in_app_iff. unfold BAR. intros [X|X]; [tauto|]. destruct Hl as [E|E]; rewrite E in X; cbn in X; intuition lia. }
    assert (drop_nl (g ++ fst (lineu (e ++ s))) = g) as ->. { destruct Hl as [-> | ->]; [apply drop_nl_app|rewrite app_nil_r; now apply drop_nl_none]. }
    rewrite no_quote by exact H1. reflexivity.
  - cbn [app length] in *. rewrite app_length in Hm. cbn [length] in Hm. destruct fuel as [|fuel]; [lia|].
    destruct (parse_quoted g 1 fuel [] (e ++ s) acc) as (f1 & L1 & E1); [lia|]. destruct f1 as [|f1]; [lia|].
    replace ((doubled g ++ [34]) ++ e ++ s) with (doubled g ++ 34 :: e ++ s) by now rewrite <- app_assoc.
    unfold parse_at at 1. rewrite lineu_cons by lia. cbn [fst snd]. rewrite parse_SU. cbn [after]. unfold QUOTE. rewrite Z.eqb_refl.
    change (parse_recU fuel (Some []) (fst (lineu (doubled g ++ 34 :: e ++ s))) (snd (lineu (doubled g ++ 34 :: e ++ s))) acc) with (parse_at fuel (Some []) (doubled g ++ 34 :: e ++ s) acc).
    rewrite E1. unfold parse_at. rewrite !lineu_cons by lia. cbn [fst snd app]. rewrite Hs, parse_SU. cbn [cut]. unfold QUOTE. rewrite Z.eqb_refl, app_nil_r.
    destruct Hl as [-> | ->]; reflexivity.
Qed.
Lemma parse_record r t : record_text r t -> forall fuel e s acc, ends e s -> (length t + 1 <= fuel)%nat ->
  parse_at fuel None (t ++ e ++ s) acc = Ret (inl (acc ++ r, s)).
Proof.
  induction 1 as [f t Hf|f t fs ts Hf Hr IH]; intros fuel e s acc He Hm.
  - apply (parse_last f t); auto.
  - rewrite !app_length in Hm. cbn [length] in Hm. rewrite <- !app_assoc. cbn [app].
    destruct (parse_field f t (length ts + 1) fuel (ts ++ e ++ s) acc Hf) as (f' & L & E); [lia|]. rewrite E, IH by auto. now rewrite <- app_assoc.
Qed.
Lemma field_first f t c t' : field_text f t -> t = c :: t' -> c <> 10.
Proof. intros [g H1 H2 H3|g]; [intros ->; cbn [In] in H3; intros ->; tauto|]. cbn [app]. intros [= <- _]. lia. Qed.
Lemma first_char r t : record_text r t -> t <> [] -> exists c t', t = c :: t' /\ c <> 10.
Proof.
  intros H Ht. destruct t as [|c t']; [tauto|]. exists c, t'. split; [reflexivity|]. remember (c :: t') as t0 eqn:E. destruct H as [f t0 Hf|f t0 fs ts Hf _].
  - eapply field_first; eauto.
  - destruct t0 as [|x t0]; [injection E as <- _; lia|]. injection E as <- _. eapply field_first; eauto.
Qed.
Lemma read_record_S f s : read_record (S f) s =
      match readLine s with
      | None => Ret (inl None)
      | Some (line, rest) =>
          if only_nl line then read_record f rest
          else obind (parse_rec (S f) None line rest []) (fun r => Ret (match r with inl x => inl (Some x) | inr e => inr e end))
      end.
Proof. reflexivity. Qed.
(* reading a record from raw text, in terms of the text with line feeds only *)
Lemma read_line_lf f s c u : lf_only s = c :: u -> c <> 10 -> exists line rest,
  line = fst (lineu (c :: u)) /\ lf_only rest = snd (lineu (c :: u)) /\ (length rest < length s)%nat /\
  read_record (S f) s = obind (parse_rec (S f) None line rest []) (fun r => Ret (match r with inl x => inl (Some x) | inr e => inr e end)).
Proof.
  intros E Hc. destruct s as [|d s]; [discriminate|]. rewrite read_record_S. unfold readLine. pose proof (line_of_shorter d s) as L. pose proof (line_of_lf (d :: s)) as [L1 L2].
  rewrite E in L1, L2. destruct (line_of (d :: s)) as [line rest]. cbn [fst snd] in *. exists line, rest. repeat split; auto.
  rewrite lineu_cons in L1 by exact Hc. cbn [fst] in L1. subst line.
  assert (only_nl (c :: fst (lineu u)) = false) as ->; [|reflexivity]. destruct (fst (lineu u)); cbn; [unfold NL; now apply Z.eqb_neq|reflexivity].
Qed.
Lemma read_empty_lf f s u : lf_only s = 10 :: u -> exists rest, lf_only rest = u /\ (length rest < length s)%nat /\ read_record (S f) s = read_record f rest.
Proof.
  intros E. destruct s as [|d s]; [discriminate|]. rewrite read_record_S. unfold readLine. pose proof (line_of_shorter d s) as L. pose proof (line_of_lf (d :: s)) as [L1 L2].
  rewrite E, lineu_nl in L1, L2. destruct (line_of (d :: s)) as [line rest]. cbn [fst snd] in *. exists rest. subst line. cbn [only_nl NL]. rewrite Z.eqb_refl. auto.
Qed.
Lemma read_one r t e u s fuel : record_text r t -> t <> [] -> ends e u -> lf_only s = t ++ e ++ u -> (length s < fuel)%nat ->
  exists s', lf_only s' = u /\ (length s' < length s)%nat /\ read_record fuel s = Ret (inl (Some (r, s'))).
Proof.
  intros Hr Ht He Es Hf. destruct fuel as [|fuel]; [lia|]. pose proof (lf_length s) as HL. rewrite Es, app_length in HL.
  pose proof (parse_record r t Hr (S fuel) e u [] He ltac:(lia)) as HP. unfold parse_at in HP. cbn [app] in HP.
  destruct (first_char r t Hr Ht) as (c & t' & -> & Hc). cbn [app] in Es, HP.
  destruct (read_line_lf fuel s c (t' ++ e ++ u) Es Hc) as (line & rest & L1 & L2 & L3 & ->). rewrite <- L1, <- L2 in HP.
  destruct (parse_U (S fuel) None line rest []) as [P1 P2]. rewrite HP in P1. destruct (parse_rec (S fuel) None line rest []) as [[[x q]|e']| |]; cbn [obind lf_result] in P1; try discriminate.
  injection P1 as E1 E2. subst. specialize (P2 x q eq_refl). exists q. repeat split; auto. lia.
Qed.
Lemma read_file_none u : table_text [] u -> forall s fuel, lf_only s = u -> (length s < fuel)%nat -> read_record fuel s = Ret (inl None).
Proof.
  intros H. remember [] as rs eqn:E. induction H as [|rs u Hs IH|r t rs u|r t]; try discriminate; intros s fuel Es Hf.
  - apply lf_nil in Es as [-> | ->]; [destruct fuel; [lia|reflexivity]|]. destruct fuel as [|[|fuel]]; cbn [length] in Hf; try lia. reflexivity.
  - destruct fuel as [|fuel]; [lia|]. destruct (read_empty_lf fuel s u Es) as (rest & R1 & R2 & ->). apply (IH E); [exact R1|lia].
Qed.
Lemma read_file_some r rs s : file_text (r :: rs) s -> exists s', (length s' < length s)%nat /\ file_text rs s' /\ read_record (S (S (length s))) s = Ret (inl (Some (r, s'))).
Proof.
  unfold file_text. intros H. remember (lf_only s) as u eqn:Es. symmetry in Es.
  enough (forall s fuel, lf_only s = u -> (length s < fuel)%nat -> exists s', (length s' < length s)%nat /\ table_text rs (lf_only s') /\ read_record fuel s = Ret (inl (Some (r, s')))) as X by (apply X; [exact Es|lia]).
  clear s Es. remember (r :: rs) as rs0 eqn:E. revert r rs E. induction H as [|rs0 u Hs IH|r0 t rs0 u Hr Ht Hs IH|r0 t Hr Ht]; intros r rs E s fuel Es Hf; try discriminate.
  - destruct fuel as [|fuel]; [lia|]. destruct (read_empty_lf fuel s u Es) as (rest & R1 & R2 & ->). destruct (IH r rs E rest fuel R1 ltac:(lia)) as (s' & L & HF & HR). exists s'. repeat split; auto; lia.
  - injection E as <- <-. destruct (read_one r0 t [10] u s fuel Hr Ht (or_introl eq_refl) Es Hf) as (s' & H1 & H2 & H3). exists s'. rewrite H1. auto.
  - injection E as <- <-. destruct (read_one r0 t [] [] s fuel Hr Ht (or_intror (conj eq_refl eq_refl))) as (s' & H1 & H2 & H3); [now rewrite !app_nil_r|exact Hf|]. exists s'. rewrite H1. repeat split; auto. constructor.
Qed.

(** ** columns *)
Lemma column_none name header row : length row = length header -> column name header row = None <-> ~ In name header.
Proof.
  revert row. induction header as [|h hs IH]; intros [|x xs] HL; try discriminate; cbn [column In]; [tauto|]. injection HL as HL. specialize (IH xs HL). destruct (column name hs xs) as [y|].
  - split; [discriminate|]. intros X. destruct (in_dec (list_eq_dec Z.eq_dec) name hs) as [Y|Y]; [tauto|]. apply IH in Y. discriminate.
  - destruct (beqb h name) eqn:E; [apply beqb_eq in E; split; [discriminate|tauto]|]. split; [|reflexivity]. intros _ [->|X]; [assert (beqb name name = true) by (now apply beqb_eq); congruence|]. now apply IH.
Qed.
Lemma column_some name : forall header row v, length row = length header -> column name header row = Some v <-> in_column header row name v.
Proof.
  unfold in_column. induction header as [|h hs IH]; intros row v HL; cbn [column].
  - split; [discriminate|]. intros ([|i] & H & _); discriminate.
  - destruct row as [|x xs]; [discriminate|]. injection HL as HL. destruct (column name hs xs) as [y|] eqn:E.
    + apply IH in E as (i & E1 & E2 & E3); [|exact HL]. split.
      * intros [= <-]. exists (S i). repeat split; auto. intros [|j] Hj; [lia|]. apply E3. lia.
      * intros ([|j] & J1 & J2 & J3); [exfalso; apply (J3 (S i)); [lia|exact E1]|]. cbn [nth_error] in *. assert (i = j) as <-; [|congruence].
        destruct (Nat.lt_trichotomy i j) as [X|[X|X]]; [exfalso; apply (E3 j X J1)|exact X|]. exfalso. apply (J3 (S i)); [lia|exact E1].
    + assert (forall j, nth_error hs j <> Some name) as HN.
      { intros j X. apply nth_error_In in X. apply (column_none name hs xs HL) in E. tauto. }
      destruct (beqb h name) eqn:Eb.
      * apply beqb_eq in Eb. subst h. split; [intros [= <-]; exists 0%nat; repeat split; auto; intros [|j] Hj; [lia|apply HN]|]. intros ([|j] & J1 & J2 & _); [cbn in J2; congruence|]. exfalso. apply (HN j J1).
      * split; [discriminate|]. intros ([|j] & J1 & J2 & _); [injection J1 as ->; assert (beqb name name = true) by (now apply beqb_eq); congruence|]. exfalso. apply (HN j J1).
Qed.
Lemma digits_spec : forall l n m, 0 <= n < 2^64 -> digits l n = Some m <-> Forall is_digit l /\ fold_left (fun n c => 10 * n + (c - 48)) l n = m /\ m < 2^64.
Proof.
  induction l as [|c l IH]; intros n m Hn; cbn [digits fold_left].
  - split; [intros [= <-]; repeat split; auto; lia|intros (_ & <- & _); reflexivity].
  - unfold digit. assert (forall l n, Forall is_digit l -> 0 <= n -> n <= fold_left (fun n c => 10 * n + (c - 48)) l n) as HM.
    { clear. induction l as [|c l IH]; intros n H Hn; cbn [fold_left]; [lia|]. inversion H as [|? ? Hc Hl]; subst. unfold is_digit in Hc. specialize (IH (10 * n + (c - 48)) Hl ltac:(lia)). lia. }
    destruct (Z.leb_spec 48 c), (Z.leb_spec c 57); cbn [andb].
    1: { replace (n * 10 + (c - 48)) with (10 * n + (c - 48)) by lia. destruct (Z.ltb_spec (10 * n + (c - 48)) (2^64)).
         - rewrite IH by lia. split; [intros (A & B & C); split; [constructor; [unfold is_digit; lia|exact A]|auto]|intros (A & B & C); inversion A; auto].
         - split; [discriminate|]. intros (A & B & C). inversion A as [|? ? A1 A2]; subst. specialize (HM l (10 * n + (c - 48)) A2 ltac:(lia)). lia. }
    all: split; [discriminate|]; intros (A & _); inversion A as [|? ? A1 A2]; subst; unfold is_digit in A1; lia.
Qed.
Lemma ParseUint_spec l n : ParseUint l = Some n <-> is_number l n.
Proof.
  unfold is_number, value, ParseUint. destruct l as [|c l]; [split; [discriminate|intros [X _]; tauto]|]. rewrite digits_spec by lia. split; [intros (A & B & C)|intros (_ & A & B & C)]; repeat split; auto; discriminate.
Qed.
Lemma str_field_spec name header row v : length row = length header -> str_field name header row = v <-> text_is header row name v.
Proof.
  intros HL. unfold str_field, text_is. destruct (column name header row) as [x|] eqn:E.
  - pose proof (proj1 (column_some name header row x HL) E) as HX. split; [intros <-; auto|]. intros [X|[X _]].
    + apply column_some in X; [congruence|exact HL].
    + destruct HX as (i & HX & _). apply nth_error_In in HX. tauto.
  - pose proof (proj1 (column_none name header row HL) E) as HX. split; [intros <-; auto|]. intros [X|[_ X]]; [|auto]. apply column_some in X; [congruence|exact HL].
Qed.
Lemma num_field_spec name header row n : length row = length header -> num_field ParseUint name header row = Some n <-> number_is header row name n.
Proof.
  intros HL. unfold num_field, number_is. destruct (column name header row) as [x|] eqn:E.
  - pose proof (proj1 (column_some name header row x HL) E) as HX. rewrite ParseUint_spec. split; [intros H; left; eauto|]. intros [(y & X & Y)|[X _]].
    + apply column_some in X; [congruence|exact HL].
    + destruct HX as (i & HX & _). apply nth_error_In in HX. tauto.
  - pose proof (proj1 (column_none name header row HL) E) as HX. split; [intros [= <-]; auto|]. intros [(y & X & _)|[_ ->]]; [|auto]. apply column_some in X; [congruence|exact HL].
Qed.
Lemma decode_row_spec header row d : length row = length header -> decode_row ParseUint header row = Some d <-> disk_of header row d.
Proof.
  intros HL. unfold disk_of. rewrite <- !str_field_spec, <- !num_field_spec by exact HL. unfold decode_row.
  destruct d as [[sl y r b u s t h hd] nm fm nt]. cbn [d_geo d_name d_form d_notes g_slug g_year g_removable g_bits g_units g_sectors g_tracks g_hidden g_heads].
  destruct (num_field ParseUint (B "first_year_available") header row); cbn [bindo]; [|split; [discriminate|intros (_ & _ & ? & _); discriminate]].
  destruct (num_field ParseUint (B "is_removable") header row); cbn [bindo]; [|split; [discriminate|intros (_ & _ & _ & _ & ? & _); discriminate]].
  destruct (num_field ParseUint (B "bits_per_address_unit") header row); cbn [bindo]; [|split; [discriminate|intros (_ & _ & _ & _ & _ & ? & _); discriminate]].
  destruct (num_field ParseUint (B "address_units_per_sector") header row); cbn [bindo]; [|split; [discriminate|intros (_ & _ & _ & _ & _ & _ & ? & _); discriminate]].
  destruct (num_field ParseUint (B "sectors_per_track") header row); cbn [bindo]; [|split; [discriminate|intros (_ & _ & _ & _ & _ & _ & _ & ? & _); discriminate]].
  destruct (num_field ParseUint (B "total_data_tracks") header row); cbn [bindo]; [|split; [discriminate|intros (_ & _ & _ & _ & _ & _ & _ & _ & ? & _); discriminate]].
  destruct (num_field ParseUint (B "hidden_tracks") header row); cbn [bindo]; [|split; [discriminate|intros (_ & _ & _ & _ & _ & _ & _ & _ & _ & ? & _); discriminate]].
  destruct (num_field ParseUint (B "heads") header row); cbn [bindo]; [|split; [discriminate|intros (_ & _ & _ & _ & _ & _ & _ & _ & _ & _ & ? & _); discriminate]].
  generalize (str_field (B "name") header row), (str_field (B "slug") header row), (str_field (B "form_factor") header row), (str_field (B "notes") header row). intros v1 v2 v3 v4.
  split.
  - intros [= -> -> -> -> -> -> -> -> -> -> -> ->]. repeat split.
  - intros (-> & -> & [= ->] & -> & [= ->] & [= ->] & [= ->] & [= ->] & [= ->] & [= ->] & [= ->] & ->). reflexivity.
Qed.
(** ** the table *)
Definition slug (d : disk) : list Z := g_slug (d_geo d).
Lemma find_none sl m : find_disk sl m = None <-> ~ In sl (map slug m).
Proof.
  induction m as [|d m IH]; cbn [find_disk map In]; [tauto|]. destruct (beqb (g_slug (d_geo d)) sl) eqn:E.
  - apply beqb_eq in E. split; [discriminate|]. unfold slug. tauto.
  - rewrite IH. split; [intros H [X|X]; [|tauto]|tauto]. assert (beqb (g_slug (d_geo d)) sl = true) by now apply beqb_eq. congruence.
Qed.
Lemma find_some sl m d : NoDup (map slug m) -> find_disk sl m = Some d <-> In d m /\ slug d = sl.
Proof.
  induction m as [|x m IH]; cbn [find_disk map In]; intros HN; [split; [discriminate|tauto]|]. inversion HN; subst. destruct (beqb (g_slug (d_geo x)) sl) eqn:E.
  - apply beqb_eq in E. split; [intros [= <-]; auto|]. intros [[X|X] Y]; [congruence|]. exfalso. apply (in_map slug) in X. rewrite Y in X. unfold slug in X at 1. rewrite <- E in X. tauto.
  - rewrite IH by assumption. split; [tauto|]. intros [[X|X] Y]; [|tauto]. subst. assert (beqb (g_slug (d_geo d)) (slug d) = true) by now apply beqb_eq. congruence.
Qed.
Lemma init_rows_S num f header s m : init_rows num (S f) header s m =
      obind (read_record (S (S (length s))) s) (fun r =>
        match r with
        | inl None => Ret m
        | inr _ => Panic
        | inl (Some (row, s')) =>
            if negb (zlen row =? zlen header) then Panic
            else match decode_row num header row with
                 | None => Panic
                 | Some d => match find_disk (g_slug (d_geo d)) m with Some _ => Panic | None => init_rows num f header s' (d :: m) end
                 end
        end).
Proof. reflexivity. Qed.
Lemma init_rows_good header : forall rows ds s m fuel, file_text rows s -> (length s < fuel)%nat -> Forall (fun r => length r = length header) rows ->
  Forall2 (disk_of header) rows ds -> NoDup (map slug (rev ds ++ m)) -> init_rows ParseUint fuel header s m = Ret (rev ds ++ m).
Proof.
  induction rows as [|r rows IH]; intros ds s m fuel Hs Hf HL HD HU; (destruct fuel as [|fuel]; [lia|]); rewrite init_rows_S.
  - rewrite (read_file_none _ Hs s _ eq_refl) by lia. inversion HD; subst. reflexivity.
  - destruct (read_file_some r rows s Hs) as (s' & L & HF & HR). rewrite HR. cbn [obind]. inversion HL; subst. inversion HD as [|? d ? ds' Hd Hds]; subst.
    unfold zlen. replace (Z.of_nat (length r) =? Z.of_nat (length header)) with true by lia. cbn [negb]. apply decode_row_spec in Hd; auto. rewrite Hd.
    cbn [rev] in HU |- *. rewrite <- app_assoc in HU |- *. cbn [app] in HU |- *.
    rewrite (proj2 (find_none (g_slug (d_geo d)) m)). 2:{ rewrite map_app in HU. apply NoDup_remove_2 in HU. rewrite in_app_iff in HU. unfold slug in HU at 1. tauto. }
    apply IH; auto. lia.
Qed.
Lemma init_rows_bad header : forall rows s m fuel, file_text rows s -> (length s < fuel)%nat -> NoDup (map slug m) ->
  ~ (Forall (fun r => length r = length header) rows /\ exists ds, Forall2 (disk_of header) rows ds /\ NoDup (map slug (rev ds ++ m))) ->
  init_rows ParseUint fuel header s m = Panic.
Proof.
  induction rows as [|r rows IH]; intros s m fuel Hs Hf Hm HB; (destruct fuel as [|fuel]; [lia|]); rewrite init_rows_S.
  - exfalso. apply HB. split; [constructor|]. exists []. split; [constructor|exact Hm].
  - destruct (read_file_some r rows s Hs) as (s' & L & HF & HR). rewrite HR. cbn [obind]. unfold zlen. destruct (Z.eqb_spec (Z.of_nat (length r)) (Z.of_nat (length header))) as [E|]; cbn [negb]; [|reflexivity].
    apply Nat2Z.inj in E. destruct (decode_row ParseUint header r) as [d|] eqn:Ed; [|reflexivity]. destruct (find_disk _ m) eqn:Ef; [reflexivity|]. apply find_none in Ef. apply decode_row_spec in Ed; auto.
    apply IH; auto; [lia|constructor; auto|]. intros (A & ds & D1 & D2). apply HB. split; [constructor; auto|]. exists (d :: ds). split; [constructor; auto|]. cbn [rev]. now rewrite <- app_assoc.
Qed.
Lemma disks_determined header rows : Forall (fun r => length r = length header) rows -> forall ds ds', Forall2 (disk_of header) rows ds -> Forall2 (disk_of header) rows ds' -> ds = ds'.
Proof.
  induction 1 as [|r rows Hr HL IH]; intros ds ds' H1 H2; inversion H1 as [|? d ? ds0 A1 A2]; inversion H2 as [|? d' ? ds0' A3 A4]; subst; [reflexivity|]. f_equal; [|now apply IH].
  apply decode_row_spec in A1, A3; auto. congruence.
Qed.
Lemma table_decidable header rows :
  (Forall (fun r => length r = length header) rows /\ exists ds, Forall2 (disk_of header) rows ds /\ NoDup (map (fun d => g_slug (d_geo d)) ds)) \/
  ~ (Forall (fun r => length r = length header) rows /\ exists ds, Forall2 (disk_of header) rows ds /\ NoDup (map (fun d => g_slug (d_geo d)) ds)).
Proof.
  assert (Forall (fun r => length r = length header) rows \/ ~ Forall (fun r => length r = length header) rows) as [HL|HL].
  { destruct (Forall_dec (fun r : list (list Z) => length r = length header) (fun r => Nat.eq_dec _ _) rows); auto. }
  2: { right. tauto. }
  assert ((exists ds, Forall2 (disk_of header) rows ds) \/ ~ exists ds, Forall2 (disk_of header) rows ds) as [[ds HD]|HD].
  { clear - HL. induction rows as [|r rows IH]; [left; exists []; constructor|]. inversion HL; subst. destruct IH as [[ds IH]|IH]; [assumption| |].
    - destruct (decode_row ParseUint header r) as [d|] eqn:E.
      + left. exists (d :: ds). constructor; [now apply decode_row_spec|exact IH].
      + right. intros [ds2 X]. inversion X as [|? d ? ? Hd]; subst. apply decode_row_spec in Hd; auto. congruence.
    - right. intros [ds2 X]. inversion X; subst. eauto. }
  2: { right. intros (_ & ds & H & _). eauto. }
  destruct (ListDec.NoDup_dec (list_eq_dec Z.eq_dec) (map (fun d => g_slug (d_geo d)) ds)) as [HU|HU].
  - left. eauto.
  - right. intros (_ & ds2 & H2 & HU2). assert (ds2 = ds) as -> by (apply (disks_determined header rows HL); auto). tauto.
Qed.
Lemma init_loop_rev rows : forall m m', init_loop rows m = Ret m' -> m' = rev rows ++ m.
Proof.
  induction rows as [|r rows IH]; intros m m'; cbn [init_loop]; [intros [= <-]; reflexivity|]. destruct (find_slug _ m); [discriminate|]. intros H. rewrite (IH _ _ H). cbn [rev]. now rewrite <- app_assoc.
Qed.
Lemma init_rev rows m : init_geometries rows = Ret m -> m = rev rows.
Proof. intros H. apply init_loop_rev in H. now rewrite app_nil_r in H. Qed.
(** ** malformed records *)
Lemma quote_in f : In 34 f -> has_quote f = true.
Proof. intros H. unfold has_quote. apply existsb_exists. exists 34. auto. Qed.
Lemma cut_in c a x l : ~ In c a -> x <> c -> match cut c (a ++ x :: l) with Some (p, _) => In x p | None => True end.
Proof.
  induction a as [|y a IH]; intros H Hx; cbn [app cut].
  - destruct (Z.eqb_spec x c); [tauto|]. destruct (cut c l) as [[p q]|]; cbn; auto.
  - cbn [In] in H. destruct (Z.eqb_spec y c); [tauto|]. specialize (IH ltac:(tauto) Hx). destruct (cut c (a ++ x :: l)) as [[p q]|]; cbn; auto.
Qed.
Lemma drop_in x l : x <> 10 -> In x l -> In x (drop_nl l).
Proof.
  intros Hx. induction l as [|c l IH]; [tauto|]. intros H. cbn [drop_nl]. destruct l as [|d l].
  - destruct H as [->|[]]. unfold NL. destruct (Z.eqb_spec x 10); [tauto|]. now left.
  - destruct H as [->|H]; [now left|right; auto].
Qed.
(* a quoted field that never ends *)
Lemma parse_open f : forall fuel buf acc, (length (doubled f) + 2 <= fuel)%nat -> parse_at fuel (Some buf) (doubled f) acc = Ret (inr ErrQuote).
Proof.
  induction f as [|c f IH]; intros fuel buf acc Hm.
  - destruct fuel; [cbn in Hm; lia|]. reflexivity.
  - assert (doubled (c :: f) = (if c =? 34 then [34; 34] else [c]) ++ doubled f) as E by reflexivity. rewrite E in *. clear E.
    destruct (Z.eqb_spec c 34) as [->|Hc]; cbn [app length] in *.
    + destruct fuel as [|fuel]; [lia|]. rewrite <- (IH fuel (buf ++ [34]) acc) by lia.
      unfold parse_at. rewrite !(lineu_cons 34) by lia. cbn [fst snd]. rewrite parse_SU. cbn [cut]. unfold QUOTE. rewrite Z.eqb_refl. cbn [after]. rewrite Z.eqb_refl. reflexivity.
    + destruct (Z.eq_dec c 10) as [->|Hn].
      * destruct fuel as [|fuel]; [lia|]. rewrite <- (IH fuel (buf ++ [10]) acc) by lia.
        unfold parse_at. rewrite lineu_nl. cbn [fst snd]. rewrite parse_SU. cbn [cut]. unfold QUOTE. cbn [Z.eqb Pos.eqb]. reflexivity.
      * destruct (list_eq_dec Z.eq_dec (doubled f) []) as [E|E].
        -- rewrite E in *. destruct fuel as [|[|fuel]]; cbn [length] in Hm; try lia. unfold parse_at. rewrite (lineu_cons c) by tauto. cbn [fst snd lineu]. rewrite parse_SU. cbn [cut]. unfold QUOTE.
           destruct (Z.eqb_spec c 34); [tauto|]. reflexivity.
        -- rewrite <- (IH fuel (buf ++ [c]) acc) by lia. unfold parse_at. rewrite (lineu_cons c) by tauto. cbn [fst snd]. apply quoted_char; [exact Hc|].
           destruct (doubled f) as [|y l]; [tauto|]. apply lineu_nonempty.
Qed.
Lemma parse_bad s : bad_record s -> forall fuel acc, (length s + 2 <= fuel)%nat -> exists e, parse_at fuel None s acc = Ret (inr e).
Proof.
  induction 1 as [a s Ha H1 H2 H3|f c s Hc|f|f t s Hf Hb IH]; intros fuel acc Hm.
  - exists ErrBareQuote. destruct fuel as [|fuel]; [lia|]. unfold parse_at. rewrite lineu_app by auto. cbn [app]. rewrite lineu_cons by lia. cbn [fst snd]. rewrite parse_SU.
    assert (after QUOTE (a ++ 34 :: fst (lineu s)) = None) as ->. { destruct a as [|x a]; [tauto|]. cbn. cbn [In] in H1. unfold QUOTE. destruct (Z.eqb_spec x 34); [tauto|reflexivity]. }
    pose proof (cut_in BAR a 34 (fst (lineu s)) H2 ltac:(unfold BAR; lia)) as X. destruct (cut BAR (a ++ 34 :: fst (lineu s))) as [[p q]|].
    + now rewrite quote_in.
    + rewrite quote_in; [reflexivity|]. apply drop_in; [lia|]. rewrite in_app_iff. right. now left.
  - exists ErrQuote. cbn [app length] in *. rewrite !app_length in Hm. cbn [length] in Hm. destruct fuel as [|fuel]; [lia|].
    destruct (parse_quoted f 1 fuel [] (c :: s) acc) as (f1 & L1 & E1); [lia|]. destruct f1 as [|f1]; [lia|].
    unfold parse_at at 1. rewrite lineu_cons by lia. cbn [fst snd]. rewrite parse_SU. cbn [after]. unfold QUOTE. rewrite Z.eqb_refl.
    change (parse_recU fuel (Some []) (fst (lineu (doubled f ++ 34 :: c :: s))) (snd (lineu (doubled f ++ 34 :: c :: s))) acc) with (parse_at fuel (Some []) (doubled f ++ 34 :: c :: s) acc).
    cbn [In] in Hc. rewrite E1. unfold parse_at. rewrite (lineu_cons 34) by lia. rewrite lineu_cons by (intros ->; tauto). cbn [fst snd app]. rewrite parse_SU. cbn [cut]. unfold QUOTE. rewrite Z.eqb_refl.
    cbn [after]. unfold BAR. destruct (Z.eqb_spec c 34); [subst; tauto|]. destruct (Z.eqb_spec c 124); [subst; tauto|].
    assert (only_nl (c :: fst (lineu s)) = false) as ->; [|reflexivity]. destruct (fst (lineu s)); cbn; [unfold NL; destruct (Z.eqb_spec c 10); [subst; tauto|reflexivity]|reflexivity].
  - exists ErrQuote. cbn [app length] in *. destruct fuel as [|fuel]; [lia|]. unfold parse_at. rewrite lineu_cons by lia. cbn [fst snd]. rewrite parse_SU. cbn [after]. unfold QUOTE. rewrite Z.eqb_refl.
    apply (parse_open f fuel [] acc). lia.
  - rewrite !app_length in Hm. cbn [length] in Hm. cbn [app]. destruct (parse_field f t (length s + 2) fuel s acc Hf) as (f' & L & E); [lia|]. rewrite E. apply IH. lia.
Qed.
Lemma bad_first u : bad_record u -> exists c u', u = c :: u' /\ c <> 10.
Proof.
  intros [a s Ha _ _ H3|f c s _|f|f t s Hf _]; cbn [app]; try (do 2 eexists; split; [reflexivity|lia]).
  - destruct a as [|x a]; [tauto|]. cbn [In app] in *. do 2 eexists. split; [reflexivity|]. intros ->; tauto.
  - destruct t as [|x t]; cbn [app]; do 2 eexists; (split; [reflexivity|]); [lia|]. eapply field_first; eauto.
Qed.
Lemma read_bad u : bad_record u -> forall s fuel, lf_only s = u -> (length s + 2 <= fuel)%nat -> exists e, read_record fuel s = Ret (inr e).
Proof.
  intros HB s fuel Es Hf. destruct fuel as [|fuel]; [lia|]. pose proof (lf_length s) as HL. rewrite Es in HL. destruct (parse_bad u HB (S fuel) [] ltac:(lia)) as [e HP]. exists e. unfold parse_at in HP.
  destruct (bad_first u HB) as (c & u' & -> & Hc). destruct (read_line_lf fuel s c u' Es Hc) as (line & rest & L1 & L2 & L3 & ->). rewrite <- L1, <- L2 in HP.
  destruct (parse_U (S fuel) None line rest []) as [P1 P2]. rewrite HP in P1. destruct (parse_rec (S fuel) None line rest []) as [[[x q]|e']| |]; cbn [obind lf_result] in P1 |- *; try discriminate.
  injection P1 as <-. reflexivity.
Qed.
Lemma read_lines_none u0 u : lines_text [] u0 -> bad_record u -> forall s fuel, lf_only s = u0 ++ u -> (length s + 2 <= fuel)%nat -> exists e, read_record fuel s = Ret (inr e).
Proof.
  intros H HB. remember [] as rs eqn:E. induction H as [|rs u0 Hs IH|r t rs u0]; try discriminate; intros s fuel Es Hf.
  - now apply (read_bad u).
  - cbn [app] in Es. destruct fuel as [|fuel]; [lia|]. destruct (read_empty_lf fuel s _ Es) as (rest & R1 & R2 & ->). apply (IH E); [exact R1|lia].
Qed.
Lemma read_lines_some r rs s : malformed_text (r :: rs) s -> exists s', (length s' < length s)%nat /\ malformed_text rs s' /\ read_record (S (S (length s))) s = Ret (inl (Some (r, s'))).
Proof.
  intros (u0 & u & Es & H & HB).
  enough (forall s fuel, lf_only s = u0 ++ u -> (length s < fuel)%nat -> exists s', (length s' < length s)%nat /\ malformed_text rs s' /\ read_record fuel s = Ret (inl (Some (r, s')))) as X by (apply X; [exact Es|lia]).
  clear s Es. remember (r :: rs) as rs0 eqn:E. revert r rs E. induction H as [|rs0 u0 Hs IH|r0 t rs0 u0 Hr Ht Hs IH]; intros r rs E s fuel Es Hf; try discriminate.
  - cbn [app] in Es. destruct fuel as [|fuel]; [lia|]. destruct (read_empty_lf fuel s _ Es) as (rest & R1 & R2 & ->). destruct (IH r rs E rest fuel R1 ltac:(lia)) as (s' & L & HF & HR). exists s'. repeat split; auto; lia.
  - injection E as <- <-. rewrite <- !app_assoc in Es. destruct (read_one r0 t [10] (u0 ++ u) s fuel Hr Ht (or_introl eq_refl) Es Hf) as (s' & H1 & H2 & H3). exists s'. repeat split; auto. exists u0, u. auto.
Qed.
Lemma init_rows_malformed num header : forall rows s m fuel, malformed_text rows s -> (length s < fuel)%nat -> init_rows num fuel header s m = Panic.
Proof.
  induction rows as [|r rows IH]; intros s m fuel Hs Hf; (destruct fuel as [|fuel]; [lia|]); rewrite init_rows_S.
  - destruct Hs as (u0 & u & Es & Hs & HB). destruct (read_lines_none u0 u Hs HB s (S (S (length s))) Es) as [e ->]; [lia|reflexivity].
  - destruct (read_lines_some r rows s Hs) as (s' & L & HF & HR). rewrite HR. cbn [obind]. destruct (negb _); [reflexivity|]. destruct (decode_row num header r); [|reflexivity].
    destruct (find_disk _ m); [reflexivity|]. apply IH; [exact HF|lia].
Qed.

(** ** every text is one or the other *)
Lemma split_quoted : forall n s, (length s <= n)%nat -> (exists f, s = doubled f) \/ exists f s', s = doubled f ++ 34 :: s' /\ forall k, s' <> 34 :: k.
Proof.
  induction n as [|n IH]; intros s Hn.
  - destruct s; [|cbn in Hn; lia]. left. exists []. reflexivity.
  - destruct s as [|c s]; [left; exists []; reflexivity|]. cbn [length] in Hn. destruct (Z.eq_dec c 34) as [->|Hc].
    + destruct s as [|d s]; [right; exists [], []; split; [reflexivity|discriminate]|]. destruct (Z.eq_dec d 34) as [->|Hd].
      * cbn [length] in Hn. destruct (IH s ltac:(lia)) as [[f ->]|(f & s' & -> & H)].
        -- left. exists (34 :: f). reflexivity.
        -- right. exists (34 :: f), s'. split; [reflexivity|exact H].
      * right. exists [], (d :: s). split; [reflexivity|]. intros k [= X _]. tauto.
    + assert (forall f, doubled (c :: f) = c :: doubled f) as E. { intros f. unfold doubled. cbn [flat_map]. destruct (Z.eqb_spec c 34); [tauto|reflexivity]. }
      destruct (IH s ltac:(lia)) as [[f ->]|(f & s' & -> & H)].
      * left. exists (c :: f). now rewrite E.
      * right. exists (c :: f), s'. rewrite E. auto.
Qed.
Lemma split_bare s : exists a s', s = a ++ s' /\ ~ In 34 a /\ ~ In 124 a /\ ~ In 10 a /\ match s' with [] => True | c :: _ => c = 34 \/ c = 124 \/ c = 10 end.
Proof.
  induction s as [|c s (a & s' & -> & H1 & H2 & H3 & H4)]; [exists [], []; cbn; tauto|].
  destruct (Z.eq_dec c 34) as [->|]; [exists [], (34 :: a ++ s'); cbn; tauto|]. destruct (Z.eq_dec c 124) as [->|]; [exists [], (124 :: a ++ s'); cbn; tauto|].
  destruct (Z.eq_dec c 10) as [->|]; [exists [], (10 :: a ++ s'); cbn; tauto|]. exists (c :: a), s'. cbn [In app]. intuition congruence.
Qed.
Lemma record_or_bad : forall n s, (length s <= n)%nat -> (exists r t e s', record_text r t /\ s = t ++ e ++ s' /\ ends e s') \/ bad_record s.
Proof.
  induction n as [|n IH]; intros s Hn.
  - destruct s; [|cbn in Hn; lia]. left. exists [[]], [], [], []. split; [|split; [reflexivity|right; auto]]. constructor. constructor; auto.
  - assert (forall f t s', field_text f t -> s = t ++ 124 :: s' -> (exists r t e s', record_text r t /\ s = t ++ e ++ s' /\ ends e s') \/ bad_record s) as HM.
    { intros f t s' Hf ->. rewrite app_length in Hn. cbn [length] in Hn. destruct (IH s' ltac:(lia)) as [(r & t2 & e & s2 & H1 & -> & H2)|HB].
      - left. exists (f :: r), (t ++ [124] ++ t2), e, s2. split; [constructor; auto|]. split; [|exact H2]. now rewrite <- !app_assoc.
      - right. now apply (br_more f t s'). }
    assert (forall f t s', field_text f t -> s = t ++ 10 :: s' -> (exists r t e s', record_text r t /\ s = t ++ e ++ s' /\ ends e s') \/ bad_record s) as HE.
    { intros f t s' Hf ->. left. exists [f], t, [10], s'. split; [now constructor|]. split; [reflexivity|left; reflexivity]. }
    assert (forall f t, field_text f t -> s = t -> (exists r t e s', record_text r t /\ s = t ++ e ++ s' /\ ends e s') \/ bad_record s) as HL.
    { intros f t Hf ->. left. exists [f], t, [], []. split; [now constructor|]. rewrite !app_nil_r. split; [reflexivity|right; auto]. }
    destruct (split_bare s) as (a & s' & E & H1 & H2 & H3 & H4). destruct s' as [|c s'].
    + rewrite app_nil_r in E. apply (HL a a); [now constructor|exact E].
    + destruct H4 as [->|[->| ->]]; [|apply (HM a a s'); [now constructor|exact E]|apply (HE a a s'); [now constructor|exact E]].
      destruct a as [|x a].
      * cbn [app] in E. destruct (split_quoted (length s') s' (le_n _)) as [[f Ef]|(f & s2 & Ef & Hx)].
        -- right. rewrite E, Ef. apply (br_open f).
        -- assert (forall k, 34 :: doubled f ++ 34 :: k = ([34] ++ doubled f ++ [34]) ++ k) as EK by (intros; cbn [app]; now rewrite <- app_assoc).
           destruct s2 as [|d s2].
           ++ apply (HL f ([34] ++ doubled f ++ [34])); [constructor|]. rewrite E, Ef. reflexivity.
           ++ destruct (Z.eq_dec d 34) as [->|]; [destruct (Hx s2); reflexivity|]. destruct (Z.eq_dec d 124) as [->|]; [apply (HM f ([34] ++ doubled f ++ [34]) s2); [constructor|now rewrite E, Ef, EK]|].
              destruct (Z.eq_dec d 10) as [->|]; [apply (HE f ([34] ++ doubled f ++ [34]) s2); [constructor|now rewrite E, Ef, EK]|].
              right. rewrite E, Ef. apply (br_after f d s2). cbn [In]. intuition.
      * right. rewrite E. apply (br_bare (x :: a) s'); auto. discriminate.
Qed.
Lemma text_or_bad : forall n u, (length u <= n)%nat -> exists rs, table_text rs u \/ exists s0 s, u = s0 ++ s /\ lines_text rs s0 /\ bad_record s.
Proof.
  induction n as [|n IH]; intros u Hn.
  - destruct u; [|cbn in Hn; lia]. exists []. left. constructor.
  - destruct u as [|c u]; [exists []; left; constructor|]. cbn [length] in Hn. destruct (Z.eq_dec c 10) as [->|Hc].
    + destruct (IH u ltac:(lia)) as (rs & [H|(s0 & s & -> & H & HB)]); exists rs.
      * left. now apply (tb_empty rs u).
      * right. exists (10 :: s0), s. split; [reflexivity|]. split; [now apply (ln_empty rs s0)|exact HB].
    + destruct (record_or_bad (length (c :: u)) (c :: u) (le_n _)) as [(r & t & e & s' & Hr & E & He)|HB].
      2: { exists []. right. exists [], (c :: u). split; [reflexivity|]. split; [constructor|exact HB]. }
      assert (t <> []) as Ht. { intros ->. cbn [app] in E. destruct He as [-> | [-> ->]]; [injection E as -> _; tauto|discriminate]. }
      destruct He as [-> | [-> ->]].
      * assert (length (c :: u) = length (t ++ [10] ++ s')) as EL by now rewrite E. rewrite !app_length in EL. cbn [length] in EL.
        destruct (IH s' ltac:(lia)) as (rs & [H|(s0 & s & -> & H & HB)]); exists (r :: rs); rewrite E.
        -- left. now apply tb_record.
        -- right. exists (t ++ [10] ++ s0), s. rewrite <- !app_assoc. split; [reflexivity|]. split; [now apply ln_record|exact HB].
      * exists [r]. left. rewrite E, !app_nil_r. now constructor.
Qed.
