(** * Props_Scanner: C167 and C168, the run grouper on any io.ByteScanner and any io.Reader *)
From Verif Require Import GoBase ListZ Rle Spec_Rle RleProofs Props_Rle Bufio Spec_Bufio BufioProofs Scanner Spec_Scanner ScannerProofs.

(** ** C167 *)
(* one call, stated run by run: from a scanner that holds the bytes D it takes the longest run of the first byte
   (at most math.MaxInt) and leaves the scanner in front of the byte after it *)
Theorem C167_next_run {T} (sc : scanner T) holds t c n D e fuel : byte_scanner sc holds -> holds t (repeat c (S n) ++ D) e ->
  hd_error D <> Some c -> Z.of_nat (S n) < maxint -> (length (repeat c (S n) ++ D) <= fuel)%nat ->
  exists t', (D <> [] -> GetNextRun sc fuel t = Ret (mkRun c (Z.of_nat (S n)), GNil, t') /\ holds t' D e) /\
    (D = [] -> e = REOF -> GetNextRun sc fuel t = Ret (mkRun c (Z.of_nat (S n)), GEOF, t')) /\
    (forall x, D = [] -> e = RFail x -> GetNextRun sc fuel t = Ret (mkRun 0 0, GErr x, t')).
Proof.
  intros HS HR Hne Hn Hf. destruct (next_sim sc holds HS fuel t _ e HR Hf) as (t' & E & H2 & _). exists t'.
  assert (R : get_next_run (mkReader (repeat c (S n) ++ D) e) =
    match D with [] => match e with REOF => (mkRun c (Z.of_nat (S n)), GEOF, mkReader [] e) | RFail x => (mkRun 0 0, GErr x, mkReader [] e) end
               | _ => (mkRun c (Z.of_nat (S n)), GNil, mkReader D e) end).
  { unfold get_next_run. cbn [repeat app rdata rterm]. assert (L : forall k m, m + Z.of_nat k < maxint -> run_loop c m e (repeat c k ++ D) =
      match D with [] => match e with REOF => (mkRun c (m + Z.of_nat k), GEOF, []) | RFail x => (mkRun 0 0, GErr x, []) end | _ => (mkRun c (m + Z.of_nat k), GNil, D) end).
    { induction k as [|k IH]; intros m Hm; cbn [repeat app].
      - rewrite Z.add_0_r in *. destruct D as [|c' D']; cbn [run_loop]; (replace (m <? maxint) with true by lia); [destruct e; reflexivity|].
        cbn in Hne. replace (c' =? c) with false by (symmetry; apply Z.eqb_neq; congruence). reflexivity.
      - cbn [run_loop]. replace (m <? maxint) with true by lia. rewrite Z.eqb_refl. cbn [negb]. rewrite IH by lia. replace (m + 1 + Z.of_nat k) with (m + Z.of_nat (S k)) by lia. reflexivity. }
    rewrite L by lia. replace (1 + Z.of_nat n) with (Z.of_nat (S n)) by lia. destruct D; [destruct e|]; reflexivity. }
  rewrite R in *. destruct D as [|c' D']; [destruct e as [|x]|]; cbn [fst snd rdata] in *; (split; [|split]); intros; try congruence; try (split; auto; congruence).
Qed.
(* at the end of the input there is no run, only the error *)
Theorem C167_no_run {T} (sc : scanner T) holds t e fuel : byte_scanner sc holds -> holds t [] e ->
  exists t', GetNextRun sc fuel t = Ret (mkRun 0 0, match e with REOF => GEOF | RFail x => GErr x end, t').
Proof. intros HS HR. destruct (next_sim sc holds HS fuel t [] e HR (Nat.le_0_l _)) as (t' & E & _). exists t'. rewrite E. now destruct e. Qed.
(* all calls: the runs spell the input, and are as long as they can be *)
Theorem C167_all_runs {T} (sc : scanner T) holds t D e fuel : byte_scanner sc holds -> holds t D e -> (length D < fuel)%nat ->
  exists rs last, all_runs sc fuel fuel t = Ret (map (fun r => (r, GNil)) rs ++ [match e with REOF => (last, GEOF) | RFail x => (mkRun 0 0, GErr x) end]) /\
    spells (rs ++ [last]) = D /\ Forall (fun r => 1 <= rlen r <= maxint) rs /\ (1 <= rlen last <= maxint \/ last = mkRun 0 0) /\
    adjacent_ok rs /\ (1 <= rlen last -> adjacent_ok (rs ++ [last])).
Proof.
  intros HS HR Hf. rewrite (all_runs_sim sc holds HS fuel fuel t D e HR) by lia.
  destruct (C06_grouper_maximal_runs D fuel Hf) as (rs & last & Hc & Hg & Hl & Hd & Ha & Hae & _). exists rs, last. split; [|split; [|auto]].
  - f_equal. destruct e as [|x]; [exact Hc|]. eapply collect_fail, Hc.
  - unfold spells. rewrite map_app, concat_app. cbn [map concat]. rewrite app_nil_r. exact Hd.
Qed.
(* a bufio.Reader over any io.Reader is such a scanner, from its start on: NewRLEGrouperFromReader *)
Theorem C167_from_reader {T} (read : ioreader T) t D e : go_reader read -> input_is read t D e ->
  exists holds, byte_scanner (bufio_scanner read) holds /\ holds (new_reader t) D e.
Proof. intros HG HI. exists (rep read). split; [now apply bufio_is_scanner|now apply rep_new]. Qed.

(** ** C168 *)
(* a scanner whose UnreadByte fails: [taken] from the front of the list; it keeps a list of the errors it gave *)
Definition no_unread : scanner (list Z * list failure) :=
  mkScanner (fun '(l, fs) => match l with c :: l' => Ret ((l', fs), inl c) | [] => Ret (([], fs ++ [FRead REOF]), inr REOF) end)
            (fun '(l, fs) => ((l, fs ++ [FUnread 7]), Some 7)).
(* the code as it is: the failure of UnreadByte is not reported, and the byte is lost *)
Theorem C168_unread_refuted : keeps_failures no_unread snd /\
  GetNextRun no_unread 9 ([1; 2; 3], []) = Ret (mkRun 1 1, GNil, ([3], [FUnread 7])) /\
  all_runs no_unread 9 9 ([1; 2; 3], []) = Ret [(mkRun 1 1, GNil); (mkRun 3 1, GEOF)].
Proof.
  split; [|split; reflexivity]. split.
  - intros [[|c l] fs] t' r H; cbn in H; injection H as <- <-; cbn; rewrite ?app_nil_r; reflexivity.
  - intros [l fs] t' r H. injection H as <- <-. reflexivity.
Qed.
(* it makes no difference to any call whether UnreadByte says that it failed *)
Theorem C168_deaf_refuted {T} (sc : scanner T) fuel t : GetNextRun (silenced sc) fuel t = GetNextRun sc fuel t.
Proof. apply next_silenced. Qed.
(* exactly: every failure of ReadByte is the result, the end of the input with the run before it and any other with none;
   a call that returns no error has met none, or a single one of UnreadByte *)
Theorem C168_reads_partial {T} (sc : scanner T) failures fuel t run e t' : keeps_failures sc failures -> GetNextRun sc fuel t = Ret (run, e, t') ->
  match e with
  | GNil => failures t' = failures t \/ exists x, failures t' = failures t ++ [FUnread x]
  | GEOF => failures t' = failures t ++ [FRead REOF]
  | GErr x => run = mkRun 0 0 /\ failures t' = failures t ++ [FRead (RFail x)]
  end.
Proof. intros HK. apply (next_tells sc failures HK). Qed.
(* so with a scanner whose UnreadByte works no failure is hidden *)
Theorem C168_reported_partial {T} (sc : scanner T) failures fuel t run e t' : keeps_failures sc failures -> (forall t, snd (sc_unread sc t) = None) ->
  GetNextRun sc fuel t = Ret (run, e, t') ->
  failures t' = failures t ++ match e with GNil => [] | GEOF => [FRead REOF] | GErr x => [FRead (RFail x)] end.
Proof.
  intros [KR KU] HU H. assert (HK : keeps_failures (silenced sc) failures).
  { split; [exact KR|]. intros u u' r E. cbn in E. injection E as <- <-. pose proof (HU u) as X. destruct (sc_unread sc u) as [u2 r2] eqn:E2. cbn in *. subst r2. apply (KU _ _ _ E2). }
  rewrite <- (next_silenced sc) in H. pose proof (next_tells _ _ HK _ _ _ _ _ H) as P.
  destruct e; cbn [tells] in P; [|exact P|now destruct P]. rewrite app_nil_r. destruct P as [P|[x P]]; [exact P|exfalso].
  assert (Q : forall fuel first n u run e u', run_loop_sc (silenced sc) fuel first n u = Ret (run, e, u') -> forall y, failures u' <> failures u ++ [FUnread y]).
  { clear - KR KU HU. induction fuel as [|f IH]; intros first n u run e u' E y; [discriminate|]. cbn [run_loop_sc] in E. destruct (n <? maxint).
    - cbn [silenced sc_read sc_unread fst] in E. destruct (sc_read sc u) as [[u1 [c|[|z]]]| |] eqn:R; try discriminate; cbn [obind] in E; pose proof (KR _ _ _ R) as F.
      + rewrite app_nil_r in F. rewrite <- F. destruct (negb (c =? first)).
        * injection E as <- <- <-. pose proof (HU u1) as X. destruct (sc_unread sc u1) as [u2 r2] eqn:E2. cbn in *. subst r2. rewrite (KU _ _ _ E2), app_nil_r.
          intros G. apply (f_equal (@length failure)) in G. rewrite app_length in G. cbn in G. lia.
        * apply (IH _ _ _ _ _ _ E).
      + injection E as <- <- <-. rewrite F. intros G. apply app_inv_head in G. discriminate.
      + injection E as <- <- <-. rewrite F. intros G. apply app_inv_head in G. discriminate.
    - injection E as <- <- <-. intros G. apply (f_equal (@length failure)) in G. rewrite app_length in G. cbn in G. lia. }
  unfold GetNextRun in H. cbn [silenced sc_read] in H. destruct (sc_read sc t) as [[t1 [c|z]]| |] eqn:R; try discriminate; cbn [obind] in H; pose proof (KR _ _ _ R) as F.
  - rewrite app_nil_r in F. rewrite <- F in P. apply (Q _ _ _ _ _ _ _ H _ P).
  - injection H as <- E <-. rewrite F in P. apply app_inv_head in P. discriminate.
Qed.

(* a scanner over a list that puts bytes back: it keeps what it gave out; and the runs of 7 7 7 3 3 followed by a failure *)
Definition on_list : scanner (list Z * list Z) :=
  mkScanner (fun '(l, g) => match l with c :: l' => Ret ((l', c :: g), inl c) | [] => Ret ((l, g), inr (RFail 5)) end)
            (fun '(l, g) => match g with c :: g' => ((c :: l, g'), None) | [] => ((l, g), Some 1) end).
Example C167_example : byte_scanner on_list (fun t D e => fst t = D /\ e = RFail 5) /\
  GetNextRun on_list 9 ([7; 7; 7; 3; 3], []) = Ret (mkRun 7 3, GNil, ([3; 3], [7; 7; 7])) /\
  all_runs on_list 9 9 ([7; 7; 7; 3; 3], []) = Ret [(mkRun 7 3, GNil); (mkRun 0 0, GErr 5)] /\
  input_is (pieces true REOF) [[7; 7]; [7; 3]] [7; 7; 7; 3] REOF /\
  all_runs (bufio_scanner (pieces true REOF)) 9 9 (new_reader [[7; 7]; [7; 3]]) = Ret [(mkRun 7 3, GNil); (mkRun 3 1, GEOF)].
Proof.
  split; [|split; [reflexivity|split; [reflexivity|split; [|reflexivity]]]].
  - intros [l g] D e [E ->]. cbn [fst] in E. subst l. destruct D as [|c D]; cbn; [eexists; reflexivity|].
    eexists. split; [reflexivity|]. split; [auto|]. eexists. split; [reflexivity|]. auto.
  - change [7; 7; 7; 3] with (concat [[7; 7]; [7; 3]]). apply pieces_deliver; repeat constructor; discriminate.
Qed.
Print Assumptions C167_next_run.
Print Assumptions C167_no_run.
Print Assumptions C167_all_runs.
Print Assumptions C167_from_reader.
Print Assumptions C168_unread_refuted.
Print Assumptions C168_deaf_refuted.
Print Assumptions C168_reads_partial.
Print Assumptions C168_reported_partial.
