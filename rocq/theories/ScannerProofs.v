(** * ScannerProofs: GetNextRun over any io.ByteScanner *)
From Verif Require Import GoBase ListZ Rle Spec_Rle RleProofs Bufio Spec_Bufio BufioProofs Scanner Spec_Scanner.

Section Sim.
Context {T : Type} (sc : scanner T) (holds : T -> list Z -> rend -> Prop).
Hypothesis HS : byte_scanner sc holds.
Lemma loop_sim fuel : forall first n t D e, holds t D e -> (length D < fuel)%nat ->
  exists t', run_loop_sc sc fuel first n t = Ret (fst (fst (run_loop first n e D)), snd (fst (run_loop first n e D)), t') /\
    (snd (fst (run_loop first n e D)) = GNil -> holds t' (snd (run_loop first n e D)) e).
Proof.
  induction fuel as [|f IH]; intros first n t D e HR Hf; [lia|]. cbn [run_loop_sc]. pose proof (HS _ _ _ HR) as H. destruct D as [|c D1]; cbn [run_loop].
  - destruct (n <? maxint).
    + destruct H as [t' E]. rewrite E. cbn [obind]. destruct e; cbn [fst snd]; eexists; (split; [reflexivity|discriminate]).
    + cbn [fst snd]. eauto.
  - destruct (n <? maxint); [|cbn [fst snd]; eauto].
    destruct H as (t' & E & HR1 & t2 & E2 & HR2). rewrite E. cbn [obind].
    destruct (negb (c =? first)); cbn [fst snd].
    + rewrite E2. cbn [fst]. eauto.
    + apply IH; [exact HR1|]. cbn in Hf. lia.
Qed.
Lemma next_sim fuel t D e : holds t D e -> (length D <= fuel)%nat ->
  let r := get_next_run (mkReader D e) in
  exists t', GetNextRun sc fuel t = Ret (fst (fst r), snd (fst r), t') /\
    (snd (fst r) = GNil -> holds t' (rdata (snd r)) e) /\ rterm (snd r) = e.
Proof.
  intros HR Hf r. subst r. unfold GetNextRun, get_next_run. cbn [rdata rterm]. pose proof (HS _ _ _ HR) as H. destruct D as [|c D1].
  - destruct H as [t' E]. rewrite E. cbn [obind fst snd rterm]. eexists. split; [reflexivity|]. split; [destruct e; discriminate|reflexivity].
  - destruct H as (t' & E & HR1 & _). rewrite E. cbn [obind].
    destruct (loop_sim fuel c 1 t' D1 e HR1) as (t2 & E2 & H2); [cbn in Hf; lia|]. rewrite E2.
    destruct (run_loop c 1 e D1) as [[run ge] D2]. cbn [fst snd rdata rterm] in *. eauto.
Qed.
Lemma all_runs_sim k fuel : forall t D e, holds t D e -> (length D <= fuel)%nat -> all_runs sc k fuel t = Ret (collect k (mkReader D e)).
Proof.
  induction k as [|k IH]; intros t D e HR Hf; [reflexivity|]. cbn [all_runs collect].
  destruct (next_sim fuel t D e HR Hf) as (t' & E & H2 & H3). rewrite E. cbn [obind].
  pose proof (next_run_rest D e) as Hlen. destruct (get_next_run (mkReader D e)) as [[run ge] [D2 e2]]. cbn [fst snd rdata rterm] in *. subst e2.
  destruct ge; try reflexivity. rewrite (IH t' D2 e (H2 eq_refl)); [reflexivity|]. specialize (Hlen eq_refl). lia.
Qed.
End Sim.

(* a bufio.Reader over a reader *)
Definition bufio_scanner {T} (read : ioreader T) : scanner (bufio T) :=
  mkScanner (read_byte read 3) (fun b => let '(b', ok) := unread_byte b in (b', if ok then None else Some (-2))).
Lemma bufio_is_scanner {T} (read : ioreader T) : go_reader read -> byte_scanner (bufio_scanner read) (rep read).
Proof.
  intros HG b D e HR. pose proof (read_byte_spec read HG b D e HR) as H. destruct D as [|c D1]; cbn [bufio_scanner sc_read sc_unread]; [exact H|].
  destruct H as (b' & E & HR1 & Hl & H0 & Hc). exists b'. split; [exact E|]. split; [exact HR1|]. subst c.
  destruct (unread_spec read b' D1 e HR1 H0 Hc) as [A B]. destruct (unread_byte b') as [b2 ok]. cbn [fst snd] in *. subst ok. eauto.
Qed.

Section Fail.
Context {T : Type} (sc : scanner T) (failures : T -> list failure).
Hypothesis HK : keeps_failures sc failures.
(* what a result says about the failures that were met *)
Definition tells (before after : list failure) (run : byterun) (e : gerr) : Prop :=
  match e with
  | GNil => after = before \/ exists x, after = before ++ [FUnread x]
  | GEOF => after = before ++ [FRead REOF]
  | GErr x => run = mkRun 0 0 /\ after = before ++ [FRead (RFail x)]
  end.
Lemma loop_tells fuel : forall first n t run e t', run_loop_sc sc fuel first n t = Ret (run, e, t') -> tells (failures t) (failures t') run e.
Proof.
  destruct HK as [KR KU]. induction fuel as [|f IH]; intros first n t run e t' H; [discriminate|]. cbn [run_loop_sc] in H. destruct (n <? maxint).
  - destruct (sc_read sc t) as [[t1 [c|[|x]]]| |] eqn:E; try discriminate; cbn [obind] in H; pose proof (KR _ _ _ E) as F.
    + rewrite app_nil_r in F. destruct (negb (c =? first)).
      * injection H as <- <- <-. destruct (sc_unread sc t1) as [t2 [x|]] eqn:E2; pose proof (KU _ _ _ E2) as F2; cbn [fst tells]; rewrite F2, F; [right; eauto|left; now rewrite ?app_nil_r].
      * apply IH in H. now rewrite F in H.
    + injection H as <- <- <-. exact F.
    + injection H as <- <- <-. split; [reflexivity|exact F].
  - injection H as <- <- <-. left. reflexivity.
Qed.
Lemma next_tells fuel t run e t' : GetNextRun sc fuel t = Ret (run, e, t') -> tells (failures t) (failures t') run e.
Proof.
  unfold GetNextRun. destruct (sc_read sc t) as [[t1 [c|x]]| |] eqn:E; try discriminate; cbn [obind]; intros H; pose proof (proj1 HK _ _ _ E) as F.
  - rewrite app_nil_r in F. apply loop_tells in H. now rewrite F in H.
  - injection H as <- <- <-. destruct x; cbn [end_gerr tells]; auto.
Qed.
End Fail.
Lemma next_silenced {T} (sc : scanner T) fuel t : GetNextRun (silenced sc) fuel t = GetNextRun sc fuel t.
Proof.
  reflexivity.
Qed.
