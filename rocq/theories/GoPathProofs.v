(** * GoPathProofs: path.Clean, path.Join, path.Split and NormalizePath against Spec_Path *)
From Coq Require Import String.
From Verif Require Import GoBase ListZ GoPath Spec_Path.

Lemma beqb_eq a b : beqb a b = true <-> a = b.
Proof.
  revert b. induction a as [|x a IH]; intros [|y b]; cbn; try (split; [discriminate|discriminate]); [tauto|].
  rewrite andb_true_iff, IH. split; [intros [E ->]; f_equal; lia|intros [= -> ->]; split; [lia|reflexivity]].
Qed.
Lemma beqb_refl a : beqb a a = true. Proof. now apply beqb_eq. Qed.
Lemma beqb_neq a b : a <> b -> beqb a b = false.
Proof. intros. destruct (beqb a b) eqn:E; auto. apply beqb_eq in E. contradiction. Qed.

(** ** fields *)
Definition noslash (n : list Z) : Prop := ~ In 47 n.
Lemma fields_acc_name cur n p : noslash n -> fields_acc cur (n ++ p) = fields_acc (cur ++ n) p.
Proof.
  revert cur. induction n as [|c n IH]; intros cur Hn; cbn [app]; [now rewrite app_nil_r|].
  cbn [fields_acc]. assert (c <> 47) by (intros ->; apply Hn; now left). replace (c =? 47) with false by lia.
  rewrite IH by (intros Hi; apply Hn; now right). now rewrite <- app_assoc.
Qed.
Lemma fields_acc_end cur p : cur <> [] -> (p = [] \/ exists p', p = 47 :: p') -> fields_acc cur p = cur :: fields p.
Proof.
  intros Hc [->|[p' ->]]; cbn.
  - destruct cur; [congruence|reflexivity].
  - destruct cur; [congruence|reflexivity].
Qed.
Lemma fields_name n p : n <> [] -> noslash n -> (p = [] \/ exists p', p = 47 :: p') -> fields (n ++ p) = n :: fields p.
Proof. intros. unfold fields. rewrite fields_acc_name by auto. cbn [app]. apply fields_acc_end; auto. Qed.
Lemma fields_slash p : fields (47 :: p) = fields p.
Proof. reflexivity. Qed.
Lemma fields_nil : fields [] = []. Proof. reflexivity. Qed.

Lemma span_spec l : let '(a, b) := span l in l = a ++ b /\ noslash a /\ (b = [] \/ exists p', b = 47 :: p').
Proof.
  induction l as [|c l IH]; cbn; [split; [reflexivity|]; split; [easy|auto]|].
  destruct (c =? slash) eqn:E.
  - unfold slash in E. assert (c = 47) by lia. subst. split; [reflexivity|]. split; [easy|]. right. eauto.
  - destruct (span l) as [a b]. destruct IH as (-> & Ha & Hb). split; [reflexivity|]. split; [|exact Hb].
    unfold slash in E. intros [->|Hi]; [lia|exact (Ha Hi)].
Qed.
Lemma at_end_spec l : at_end l = true <-> (l = [] \/ exists p', l = 47 :: p').
Proof.
  destruct l as [|c l]; cbn; [split; auto|]. unfold slash. split.
  - intros E. right. exists l. f_equal. lia.
  - intros [?|[p' [= -> ->]]]; [discriminate|lia].
Qed.
Lemma fields_proper p : Forall (fun n => n <> [] /\ noslash n) (fields p).
Proof.
  unfold fields. assert (forall cur, noslash cur -> Forall (fun n => n <> [] /\ noslash n) (fields_acc cur p)) as H.
  { induction p as [|c p IH]; intros cur Hc; cbn.
    - destruct cur; constructor; auto. split; [discriminate|auto].
    - destruct (c =? 47) eqn:E.
      + destruct cur; [apply IH; easy|]. constructor; [split; [discriminate|auto]|apply IH; easy].
      + apply IH. intros Hi. apply in_app_or in Hi as [Hi|[->|[]]]; [exact (Hc Hi)|lia]. }
  apply H. easy.
Qed.
Lemma fields_app_slash p q : fields (p ++ 47 :: q) = fields p ++ fields q.
Proof.
  unfold fields. assert (forall cur, fields_acc cur (p ++ 47 :: q) = fields_acc cur p ++ fields_acc [] q) as H; [|apply H].
  induction p as [|c p IH]; intros cur; cbn.
  - destruct cur; reflexivity.
  - destruct (c =? 47); [|apply IH]. destruct cur; rewrite IH; reflexivity.
Qed.

(** ** walking, with the stack of names reversed *)
Definition wk1 (st : list (list Z)) (c : list Z) : list (list Z) :=
  if beqb c str_dot then st else if beqb c str_dotdot then tl st else c :: st.
Definition wk (st : list (list Z)) (cs : list (list Z)) : list (list Z) := fold_left wk1 cs st.
Lemma wk1_step st c d1 : step_to (rev st) c d1 <-> d1 = rev (wk1 st c).
Proof.
  unfold wk1. split.
  - intros H. remember (rev st) as d eqn:Ed. destruct H as [d|d n| |d n N1 N2].
    + exact Ed.
    + replace (beqb (B "..") str_dot) with false by reflexivity. replace (beqb (B "..") str_dotdot) with true by reflexivity.
      destruct st as [|x st]; cbn [rev] in Ed; [destruct d; discriminate|]. apply app_inj_tail in Ed as [-> _]. reflexivity.
    + replace (beqb (B "..") str_dot) with false by reflexivity. replace (beqb (B "..") str_dotdot) with true by reflexivity.
      destruct st as [|x st]; [reflexivity|]. cbn [rev] in Ed. destruct (rev st); discriminate.
    + rewrite beqb_neq by exact N1. rewrite beqb_neq by exact N2. cbn [rev]. now rewrite Ed.
  - intros ->. destruct (beqb c str_dot) eqn:E1; [apply beqb_eq in E1; subst; constructor|].
    destruct (beqb c str_dotdot) eqn:E2.
    + apply beqb_eq in E2; subst. destruct st as [|x st]; cbn [tl rev]; [apply st_up_root|apply st_up].
    + cbn [rev]. constructor; intros ->; [now rewrite beqb_refl in E1|now rewrite beqb_refl in E2].
Qed.
Lemma wk_walk cs : forall st d, walk_to (rev st) cs d <-> d = rev (wk st cs).
Proof.
  induction cs as [|c cs IH]; intros st d; cbn.
  - split; [now inversion 1|intros ->; constructor].
  - split.
    + inversion 1; subst. apply wk1_step in H3. subst. now apply IH.
    + intros ->. econstructor; [now apply wk1_step|]. now apply IH.
Qed.

(** ** Clean of a rooted path *)
Definition name (n : list Z) : Prop := n <> [] /\ noslash n /\ n <> str_dot /\ n <> str_dotdot.
Lemma name_proper n : name n <-> proper n.
Proof. unfold name, proper, noslash. change (B ".") with str_dot. change (B "..") with str_dotdot. tauto. Qed.

Lemma backtrack_slash n X dd : noslash n -> dd <= zlen X -> backtrack (rev n ++ 47 :: X) dd = X.
Proof.
  intros Hn Hd. assert (forall m, ~ In 47 m -> backtrack (m ++ 47 :: X) dd = X) as HH.
  { induction m as [|c m IH]; intros Hm; cbn [app backtrack].
    - unfold slash. replace (47 =? 47) with true by reflexivity. cbn [negb]. now rewrite andb_false_r.
    - assert (c <> 47) by (intros ->; apply Hm; now left). unfold slash at 1. replace (c =? 47) with false by lia.
      replace (zlen (m ++ 47 :: X) >? dd) with true; [cbn [negb andb]; apply IH; intros Hi; apply Hm; now right|].
      rewrite zlen_app. unfold zlen in *. cbn [length]. lia. }
  apply HH. intros Hi. apply Hn. now apply in_rev in Hi.
Qed.
Lemma backtrack_base n X : n <> [] -> noslash n -> backtrack (rev n ++ X) (zlen X) = X.
Proof.
  intros H0 Hn. assert (forall m, m <> [] -> ~ In 47 m -> backtrack (m ++ X) (zlen X) = X) as HH.
  { induction m as [|c m IH]; intros Hm0 Hm; [congruence|]. cbn [app backtrack].
    assert (c <> 47) by (intros ->; apply Hm; now left). unfold slash. replace (c =? 47) with false by lia. cbn [negb].
    rewrite andb_true_r. destruct m as [|d m].
    - cbn [app]. replace (zlen X >? zlen X) with false by lia. reflexivity.
    - replace (zlen ((d :: m) ++ X) >? zlen X) with true; [apply IH; [discriminate|intros Hi; apply Hm; now right]|].
      rewrite zlen_app. unfold zlen. cbn [length]. lia. }
  apply HH; [|intros Hi; apply Hn; now apply in_rev in Hi]. intros E. apply H0. rewrite <- (rev_involutive n), E. reflexivity.
Qed.

Fixpoint rout (st : list (list Z)) : list Z :=
  match st with
  | [] => [47]
  | n :: st' => rev n ++ match st' with [] => [47] | _ => 47 :: rout st' end
  end.
Lemma rout_len st : Forall name st -> (st = [] -> zlen (rout st) = 1) /\ (st <> [] -> zlen (rout st) > 1).
Proof.
  induction st as [|n st IH]; intros Hf; [split; [reflexivity|congruence]|]. inversion Hf as [|? ? Hn Hf']; subst.
  split; [discriminate|]. intros _. cbn [rout]. rewrite zlen_app. 
  assert (0 < zlen (rev n)). { destruct Hn as [Hn _]. unfold zlen. rewrite rev_length. destruct n; [congruence|cbn; lia]. }
  destruct st; [unfold zlen at 2; cbn; lia|]. destruct (IH Hf') as [_ IH2]. specialize (IH2 ltac:(discriminate)).
  unfold zlen in *. cbn [length] in *. lia.
Qed.
Lemma rout_render st : Forall name st -> rev (rout st) = render (rev st).
Proof.
  intros Hf. assert (forall st, st <> [] -> rev (rout st) = concat (map (fun n => 47 :: n) (rev st))) as H.
  { clear. induction st as [|n st IH]; [congruence|]. intros _. cbn [rout rev]. rewrite map_app, concat_app. cbn [map concat].
    rewrite app_nil_r, rev_app_distr, rev_involutive. destruct st as [|m st]; [reflexivity|].
    rewrite <- (IH ltac:(discriminate)). cbn [rev]. rewrite <- app_assoc. reflexivity. }
  destruct st as [|n st]; [reflexivity|]. rewrite H by discriminate. unfold render.
  destruct (rev (n :: st)) eqn:E; [|reflexivity]. apply (f_equal (@length _)) in E. rewrite rev_length in E. discriminate.
Qed.

(* one component at the head of the remaining path *)
Lemma comp_cases c r1 : c <> 47 -> let rest := c :: r1 in let '(a, b) := span rest in
  rest = a ++ b /\ a <> [] /\ noslash a /\ fields rest = a :: fields b /\ (length b < length rest)%nat /\
  (((c =? dot) && at_end r1 = true /\ a = str_dot /\ r1 = b) \/
   ((c =? dot) && at_end r1 = false /\
    (c =? dot) && match r1 with [] => false | d :: r2 => (d =? dot) && at_end r2 end = true /\ a = str_dotdot /\ tl r1 = b) \/
   ((c =? dot) && at_end r1 = false /\
    (c =? dot) && match r1 with [] => false | d :: r2 => (d =? dot) && at_end r2 end = false /\ name a)).
Proof.
  intros Hc rest. pose proof (span_spec rest) as HS. destruct (span rest) as [a b] eqn:ES. destruct HS as (E & Ha & Hb).
  assert (a <> []) as Ha0. { intros ->. cbn in E. destruct Hb as [->|[p' ->]]; [discriminate|]. subst rest. congruence. }
  split; [exact E|]. split; [exact Ha0|]. split; [exact Ha|]. split; [rewrite E; apply fields_name; auto|].
  split. { rewrite E, app_length. destruct a; [congruence|cbn; lia]. }
  unfold rest in ES. cbn [span] in ES. unfold slash in ES. replace (c =? 47) with false in ES by lia.
  destruct (span r1) as [a1 b1] eqn:ES1. injection ES as <- <-.
  pose proof (span_spec r1) as HS1. rewrite ES1 in HS1. destruct HS1 as (E1 & Ha1 & Hb1).
  assert (at_end r1 = true <-> a1 = []) as HE1.
  { rewrite at_end_spec. split.
    - intros [->|[p' ->]]; cbn in ES1; congruence.
    - intros ->. cbn in E1. subst r1. exact Hb1. }
  destruct (c =? dot) eqn:Ed; cbn [andb].
  2:{ right. right. split; [reflexivity|]. split; [reflexivity|]. split; [discriminate|]. split; [exact Ha|]. unfold str_dot, str_dotdot.
      split; intros [= X]; unfold dot in *; lia. }
  assert (c = dot) by lia. subst c. destruct (at_end r1) eqn:Ee1.
  { left. pose proof (proj1 HE1 eq_refl) as ->. cbn in E1. subst. auto. }
  right. destruct r1 as [|d r2]; [discriminate|]. cbn [at_end] in Ee1. unfold slash in Ee1.
  cbn [span] in ES1. unfold slash in ES1. rewrite Ee1 in ES1. destruct (span r2) as [a2 b2] eqn:ES2. injection ES1 as <- <-.
  pose proof (span_spec r2) as HS2. rewrite ES2 in HS2. destruct HS2 as (E2 & Ha2 & Hb2).
  assert (at_end r2 = true <-> a2 = []) as HE2.
  { rewrite at_end_spec. split.
    - intros [->|[p' ->]]; cbn in ES2; congruence.
    - intros ->. cbn in E2. subst r2. exact Hb2. }
  destruct (d =? dot) eqn:Edd; cbn [andb].
  2:{ right. split; [reflexivity|]. split; [reflexivity|]. split; [discriminate|]. split; [exact Ha|]. unfold str_dot, str_dotdot.
      split; intros [= X]; unfold dot in *; lia. }
  assert (d = dot) by lia. subst d. destruct (at_end r2) eqn:Ee2.
  - left. pose proof (proj1 HE2 eq_refl) as ->. cbn in E2. subst. auto.
  - right. split; [reflexivity|]. split; [reflexivity|]. split; [discriminate|]. split; [exact Ha|]. unfold str_dot, str_dotdot.
    split; [intros [= X]|intros [= X]]. apply HE2 in X. discriminate.
Qed.
Lemma wk1_name st a : name a -> wk1 st a = a :: st.
Proof. intros (_ & _ & A & C). unfold wk1. now rewrite !beqb_neq. Qed.

Lemma clean_loop_rooted fuel : forall rest st, (length rest <= fuel)%nat -> Forall name st ->
  clean_loop fuel true rest (rout st) 1 = rout (wk st (fields rest)) /\ Forall name (wk st (fields rest)).
Proof.
  induction fuel as [|f IH]; intros rest st Hl Hf.
  { destruct rest; [|cbn in Hl; lia]. cbn. auto. }
  destruct rest as [|c r1]; [cbn; auto|]. cbn [length] in Hl. cbn [clean_loop].
  destruct (c =? slash) eqn:Es.
  { assert (c = 47) by (unfold slash in Es; lia). subst c. rewrite fields_slash. apply IH; [lia|exact Hf]. }
  assert (c <> 47) as Hc by (unfold slash in Es; lia). pose proof (comp_cases c r1 Hc) as HC. cbn zeta in HC.
  destruct (span (c :: r1)) as [a b]. destruct HC as (E & Ha0 & Ha & HF & Hlb & HC). cbn [length] in Hlb. rewrite HF. cbn [wk fold_left].
  fold (wk (wk1 st a) (fields b)).
  destruct HC as [(-> & -> & ->)|[(-> & -> & -> & Hb)|(-> & -> & Hn)]].
  - apply IH; [lia|exact Hf].
  - cbn zeta. rewrite Hb. unfold wk1. replace (beqb str_dotdot str_dot) with false by reflexivity. rewrite beqb_refl. 
    destruct (rout_len st Hf) as [L1 L2]. destruct st as [|n st].
    + rewrite (L1 eq_refl). replace (1 >? 1) with false by lia. cbn [negb]. apply (IH b []); [lia|constructor].
    + specialize (L2 ltac:(discriminate)). replace (zlen (rout (n :: st)) >? 1) with true by lia.
      inversion Hf as [|? ? Hn Hf']; subst. destruct Hn as (Hn0 & Hn1 & _). cbn [tl].
      replace (backtrack (rout (n :: st)) 1) with (rout st); [apply IH; [lia|exact Hf']|].
      cbn [rout]. destruct st as [|m st]; symmetry; [apply (backtrack_base n [47]); auto|apply backtrack_slash; auto].
      destruct (rout_len (m :: st) Hf') as [_ L]. specialize (L ltac:(discriminate)). lia.
  - rewrite wk1_name by exact Hn. cbn [negb andb orb]. rewrite orb_false_r.
    replace (rev a ++ (if negb (zlen (rout st) =? 1) then slash :: rout st else rout st)) with (rout (a :: st)).
    + apply IH; [lia|]. constructor; auto.
    + cbn [rout]. f_equal. destruct (rout_len st Hf) as [L1 L2]. destruct st as [|m st]; [reflexivity|].
      specialize (L2 ltac:(discriminate)). replace (zlen (rout (m :: st)) =? 1) with false by lia. reflexivity.
Qed.
Lemma clean_rooted p : clean (47 :: p) = render (rev (wk [] (fields p))) /\ Forall name (wk [] (fields p)).
Proof.
  unfold clean. cbn [length]. replace (47 =? slash) with true by reflexivity.
  destruct (clean_loop_rooted (S (length p)) p [] ltac:(lia) ltac:(constructor)) as [E Hf]. change (rout []) with [slash] in E. rewrite E.
  split; [|exact Hf]. destruct (rout_len _ Hf) as [L1 L2].
  replace (zlen (rout (wk [] (fields p))) =? 0) with false; [apply rout_render; exact Hf|].
  destruct (wk [] (fields p)); [rewrite L1; auto|specialize (L2 ltac:(discriminate)); lia].
Qed.

(** ** Clean of a relative path: k times "..", then names *)
Fixpoint base (k : nat) : list Z :=
  match k with O => [] | S O => [46; 46] | S k' => [46; 46] ++ 47 :: base k' end.
Fixpoint uout (k : nat) (st : list (list Z)) : list Z :=
  match st with
  | [] => base k
  | n :: st' => rev n ++ match k, st' with O, [] => [] | _, _ => 47 :: uout k st' end
  end.
Definition uw1 (s : nat * list (list Z)) (c : list Z) : nat * list (list Z) :=
  let '(k, st) := s in
  if beqb c str_dot then (k, st)
  else if beqb c str_dotdot then match st with [] => (S k, []) | _ :: st' => (k, st') end
  else (k, c :: st).
Definition uw s cs := fold_left uw1 cs s.
Lemma base_S k : base (S k) = 46 :: 46 :: (if zlen (base k) >? 0 then 47 :: base k else base k).
Proof. destruct k as [|k]; [reflexivity|]. replace (zlen (base (S k)) >? 0) with true; [reflexivity|]. destruct k; unfold zlen; cbn [base length app]; lia. Qed.
Lemma uout_len k st : Forall name st -> (k = O /\ st = [] <-> uout k st = []) /\ (st <> [] -> zlen (uout k st) > zlen (base k)) .
Proof.
  intros Hf. split.
  - split; [intros [-> ->]; reflexivity|]. destruct st as [|n st]; cbn [uout].
    + destruct k as [|[|k]]; cbn; [auto|discriminate|discriminate].
    + inversion Hf as [|? ? Hn _]; subst. destruct Hn as [Hn _]. intros E. apply app_eq_nil in E as [E _].
      apply (f_equal (@rev Z)) in E. rewrite rev_involutive in E. now subst.
  - induction Hf as [|n st Hn Hf IH]; [congruence|]. intros _. cbn [uout]. rewrite zlen_app.
    assert (0 < zlen (rev n)). { destruct Hn as [Hn _]. unfold zlen. rewrite rev_length. destruct n; [congruence|cbn; lia]. }
    destruct k; destruct st; cbn [uout base] in *; try specialize (IH ltac:(discriminate)); unfold zlen in *; cbn [length] in *; lia.
Qed.
Lemma clean_loop_rel fuel : forall rest k st, (length rest <= fuel)%nat -> Forall name st ->
  let '(k', st') := uw (k, st) (fields rest) in
  clean_loop fuel false rest (uout k st) (zlen (base k)) = uout k' st' /\ Forall name st'.
Proof.
  induction fuel as [|f IH]; intros rest k st Hl Hf.
  { destruct rest; [|cbn in Hl; lia]. cbn. auto. }
  destruct rest as [|c r1]; [cbn; auto|]. cbn [length] in Hl. cbn [clean_loop].
  destruct (c =? slash) eqn:Es.
  { assert (c = 47) by (unfold slash in Es; lia). subst c. rewrite fields_slash. apply IH; [lia|exact Hf]. }
  assert (c <> 47) as Hc by (unfold slash in Es; lia). pose proof (comp_cases c r1 Hc) as HC. cbn zeta in HC.
  destruct (span (c :: r1)) as [a b]. destruct HC as (E & Ha0 & Ha & HF & Hlb & HC). cbn [length] in Hlb. rewrite HF.
  change (uw (k, st) (a :: fields b)) with (uw (uw1 (k, st) a) (fields b)).
  destruct HC as [(-> & -> & ->)|[(-> & -> & -> & Hb)|(-> & -> & Hn)]].
  - apply IH; [lia|exact Hf].
  - cbn zeta. rewrite Hb. unfold uw1. replace (beqb str_dotdot str_dot) with false by reflexivity. rewrite beqb_refl.
    destruct (uout_len k st Hf) as [L1 L2]. destruct st as [|n st].
    + cbn [uout]. replace (zlen (base k) >? zlen (base k)) with false by lia. cbn [negb].
      change (46 :: 46 :: (if zlen (base k) >? 0 then 47 :: base k else base k)) with
             (dot :: dot :: (if zlen (base k) >? 0 then slash :: base k else base k)) in *.
      pose proof (base_S k) as EB. unfold dot, slash. rewrite <- EB. apply (IH b (S k) []); [lia|constructor].
    + specialize (L2 ltac:(discriminate)). replace (zlen (uout k (n :: st)) >? zlen (base k)) with true by lia.
      inversion Hf as [|? ? Hn Hf']; subst. destruct Hn as (Hn0 & Hn1 & _).
      replace (backtrack (uout k (n :: st)) (zlen (base k))) with (uout k st); [apply IH; [lia|exact Hf']|].
      symmetry. cbn [uout]. destruct k as [|k]; [destruct st as [|m st]|].
      * apply (backtrack_base n []); auto.
      * apply backtrack_slash; auto. unfold base, zlen. cbn [length]. lia.
      * apply backtrack_slash; auto. destruct st as [|m st]; [cbn [uout]; lia|].
        destruct (uout_len (S k) (m :: st) Hf') as [_ L]. specialize (L ltac:(discriminate)). lia.
  - destruct Hn as (Hn0 & Hn1 & Hn2 & Hn3). unfold uw1. rewrite !beqb_neq by assumption. cbn [negb andb orb].
    replace (rev a ++ (if negb (zlen (uout k st) =? 0) then slash :: uout k st else uout k st)) with (uout k (a :: st)).
    + apply IH; [lia|]. constructor; auto. split; auto.
    + cbn [uout]. f_equal. destruct (uout_len k st Hf) as [L1 L2].
      destruct (zlen (uout k st) =? 0) eqn:EZ; cbn [negb].
      * assert (uout k st = []) as EU by (destruct (uout k st); [reflexivity|unfold zlen in EZ; cbn [length] in EZ; lia]).
        destruct (proj2 L1 EU) as [-> ->]. reflexivity.
      * destruct k; [destruct st; [cbn in EZ; discriminate|reflexivity]|reflexivity].
Qed.
Definition rrel (s : nat * list (list Z)) : list Z := let '(k, st) := s in match uout k st with [] => str_dot | l => rev l end.
Lemma clean_rel p : p <> [] -> is_abs p = false ->
  clean p = rrel (uw (O, []) (fields p)) /\ Forall name (snd (uw (O, []) (fields p))).
Proof.
  intros H0 Hr. destruct p as [|c p]; [congruence|]. cbn in Hr. unfold clean. rewrite Hr.
  pose proof (clean_loop_rel (length (c :: p)) (c :: p) O [] ltac:(lia) ltac:(constructor)) as H.
  destruct (uw (O, []) (fields (c :: p))) as [k st]. destruct H as [E Hf]. change (zlen (base 0)) with 0 in E. change (uout 0 []) with (@nil Z) in E.
  rewrite E. cbn [snd rrel]. split; [|exact Hf]. destruct (uout k st); [reflexivity|]. unfold zlen. cbn [length].
  destruct (Z.of_nat (S (length l)) =? 0) eqn:X; [lia|reflexivity].
Qed.

(* the fields of a cleaned relative path *)
Lemma fields_base k : forall X, (X = [] \/ exists p', X = 47 :: p') -> fields (rev (base k) ++ X) = repeat str_dotdot k ++ fields X.
Proof.
  induction k as [|k IH]; intros X HX; [reflexivity|].
  rewrite base_S. destruct (zlen (base k) >? 0) eqn:E.
  - cbn [rev]. rewrite <- !app_assoc. rewrite IH by (right; cbn [app]; eauto). cbn [app].
    rewrite fields_slash. change (46 :: 46 :: X) with (str_dotdot ++ X). rewrite (fields_name str_dotdot X); [|discriminate|intros [?|[?|[]]]; discriminate|exact HX].
    cbn [repeat]. rewrite (repeat_cons k str_dotdot). rewrite <- app_assoc. reflexivity.
  - assert (k = O) as -> by (destruct k as [|[|k]]; [reflexivity|vm_compute in E; discriminate|unfold zlen in E; cbn [base app length] in E; lia]).
    cbn. apply (fields_name str_dotdot X); auto; [discriminate|]. intros [?|[?|[]]]; discriminate.
Qed.
Lemma fields_uout k st : Forall name st -> forall X, (X = [] \/ exists p', X = 47 :: p') ->
  fields (rev (uout k st) ++ X) = (repeat str_dotdot k ++ rev st) ++ fields X.
Proof.
  induction 1 as [|n st Hn Hf IH]; intros X HX.
  - cbn [uout rev]. rewrite app_nil_r. now apply fields_base.
  - destruct Hn as (Hn0 & Hn1 & _). cbn [uout]. rewrite rev_app_distr, rev_involutive.
    assert (fields (n ++ X) = n :: fields X) as EN by (apply fields_name; auto).
    destruct k as [|k]; [destruct st as [|m st]|].
    + cbn [rev app repeat]. exact EN.
    + cbn [rev]. rewrite <- !app_assoc. rewrite IH by (right; cbn [app]; eauto). cbn [repeat app]. rewrite fields_slash, EN.
      cbn [rev]. rewrite <- !app_assoc. reflexivity.
    + cbn [rev]. rewrite <- !app_assoc. rewrite IH by (right; cbn [app]; eauto). cbn [app]. rewrite fields_slash, EN.
      cbn [rev]. rewrite <- !app_assoc. reflexivity.
Qed.
Lemma wk_rel cs : forall k st s0, wk (st ++ skipn k s0) cs = let '(k', st') := uw (k, st) cs in st' ++ skipn k' s0.
Proof.
  induction cs as [|c cs IH]; intros k st s0; [reflexivity|].
  change (uw (k, st) (c :: cs)) with (uw (uw1 (k, st) c) cs). change (wk (st ++ skipn k s0) (c :: cs)) with (wk (wk1 (st ++ skipn k s0) c) cs).
  unfold wk1, uw1. destruct (beqb c str_dot); [apply IH|]. destruct (beqb c str_dotdot); [|apply (IH k (c :: st))].
  destruct st as [|n st]; [|apply IH]. cbn [app]. rewrite <- (IH (S k) [] s0). f_equal. cbn [app].
  clear. revert s0. induction k as [|k IH]; intros [|x s0]; try reflexivity. cbn [skipn]. rewrite IH. destruct s0; reflexivity.
Qed.
Lemma wk_app s a b : wk s (a ++ b) = wk (wk s a) b.
Proof. apply fold_left_app. Qed.
Lemma wk_dotdots k s0 : wk s0 (repeat str_dotdot k) = skipn k s0.
Proof.
  revert s0. induction k as [|k IH]; intros s0; [reflexivity|]. cbn [repeat]. change (wk s0 (str_dotdot :: repeat str_dotdot k)) with (wk (tl s0) (repeat str_dotdot k)).
  rewrite IH. destruct s0; [destruct k; reflexivity|reflexivity].
Qed.
Lemma wk_names ns s0 : Forall name ns -> wk s0 ns = rev ns ++ s0.
Proof.
  intros Hf. revert s0. induction Hf as [|n ns Hn _ IH]; intros s0; [reflexivity|].
  change (wk s0 (n :: ns)) with (wk (wk1 s0 n) ns). rewrite wk1_name by exact Hn. rewrite IH. cbn [rev]. now rewrite <- app_assoc.
Qed.
Lemma fields_render ns : Forall name ns -> fields (render ns) = ns.
Proof.
  intros Hf. destruct ns as [|n ns]; [reflexivity|]. unfold render.
  assert (forall l, Forall name l -> fields (concat (map (fun n => 47 :: n) l)) = l) as H; [|apply H; exact Hf].
  clear. induction l as [|n l IH]; intros Hf; [reflexivity|]. inversion Hf as [|? ? (Hn0 & Hn1 & _) Hf']; subst.
  cbn [map concat app]. rewrite fields_slash. rewrite fields_name; auto; [now rewrite IH|].
  destruct l as [|m l]; [left; reflexivity|]. right. cbn. eauto.
Qed.
Lemma render_abs ns : exists q, render ns = 47 :: q /\ fields q = fields (render ns).
Proof. destruct ns as [|n ns]; [exists []; auto|]. cbn. eexists. split; [reflexivity|]. reflexivity. Qed.
Lemma clean_render ns : Forall name ns -> clean (render ns) = render ns.
Proof.
  intros Hf. destruct (render_abs ns) as (q & E & F). rewrite E. destruct (clean_rooted q) as [-> _]. rewrite <- E.
  rewrite F, fields_render by exact Hf. rewrite wk_names by exact Hf. now rewrite app_nil_r, rev_involutive.
Qed.

Lemma clean_dot_iff p : is_abs p = false -> (clean p = str_dot <-> uw (O, []) (fields p) = (O, [])).
Proof.
  intros Hr. destruct p as [|c p]; [split; reflexivity|]. destruct (clean_rel (c :: p) ltac:(discriminate) Hr) as [-> Hf].
  destruct (uw (O, []) (fields (c :: p))) as [k st]. cbn [snd] in Hf. cbn [rrel]. destruct (uout_len k st Hf) as [L1 L2]. split.
  - intros E. destruct (uout k st) eqn:EU; [destruct (proj2 L1 eq_refl) as [-> ->]; reflexivity|]. exfalso.
    assert (fields (rev (uout k st) ++ []) = fields str_dot) as X by (rewrite app_nil_r, EU, E; reflexivity).
    rewrite fields_uout in X by auto. rewrite app_nil_r in X. change (fields str_dot) with [str_dot] in X.
    destruct k as [|k]; [|cbn [repeat app] in X; discriminate]. cbn [repeat app] in X.
    apply (f_equal (@rev _)) in X. rewrite rev_involutive in X. cbn in X. subst st. inversion Hf as [|? ? (_ & _ & N & _) _]; subst. congruence.
  - intros [= -> ->]. reflexivity.
Qed.
Lemma rrel_not_abs k st : Forall name st -> is_abs (rrel (k, st)) = false.
Proof.
  intros Hf. cbn [rrel]. destruct (uout k st) eqn:EU; [reflexivity|]. rewrite <- EU. clear EU.
  assert (forall k X, is_abs (rev (base (S k)) ++ X) = false) as HB.
  { clear. induction k as [|k IH]; intros X; [reflexivity|]. rewrite base_S. destruct (zlen (base (S k)) >? 0) eqn:E.
    - cbn [rev]. rewrite <- !app_assoc. apply IH.
    - exfalso. assert (0 < zlen (base (S k))) by (destruct k; unfold zlen; cbn [base app length]; lia). lia. }
  assert (forall X, X = [] \/ True -> k <> O \/ st <> [] -> is_abs (rev (uout k st) ++ X) = false) as HU.
  { induction Hf as [|n st Hn Hf IH]; intros X _ Hk; cbn [uout].
    - destruct k; [destruct Hk; congruence|]. apply HB.
    - rewrite rev_app_distr, rev_involutive. destruct k as [|k]; [destruct st as [|m st]|].
      + cbn [rev app]. destruct Hn as (Hn0 & Hn1 & _). destruct n as [|c n]; [congruence|]. cbn. unfold slash.
        assert (c <> 47) by (intros ->; apply Hn1; now left). lia.
      + cbn [rev]. rewrite <- !app_assoc. apply IH; [auto|right; discriminate].
      + cbn [rev]. rewrite <- !app_assoc. apply IH; [auto|left; discriminate]. }
  rewrite <- (app_nil_r (rev (uout k st))). destruct k; [destruct st; [reflexivity|]|]; (apply HU; [auto|]); [right|left]; discriminate.
Qed.

(** ** NormalizePath *)
Lemma join_clean cwd p : cwd <> [] -> p <> [] -> join cwd p = clean (cwd ++ slash :: p).
Proof. destruct cwd; [congruence|]. destruct p; [congruence|]. reflexivity. Qed.

Lemma normalize_abs ns p : is_abs p = true -> normalize_path (render ns) p = render (rev (wk [] (fields p))).
Proof.
  intros Ha. destruct p as [|c p]; [discriminate|]. cbn in Ha. assert (c = 47) as -> by (unfold slash in Ha; lia).
  unfold normalize_path. cbn zeta. destruct (clean_rooted p) as [-> Hf]. rewrite fields_slash.
  destruct (render_abs (rev (wk [] (fields p)))) as (q & E & _). rewrite E.
  rewrite beqb_neq by (unfold str_dot, dot; intros [= ?]; discriminate). cbn [is_abs]. reflexivity.
Qed.
Lemma normalize_rel ns p : Forall name ns -> is_abs p = false -> clean p <> str_dot ->
  normalize_path (render ns) p = render (rev (wk (rev ns) (fields p))).
Proof.
  intros Hns Hr Hd. unfold normalize_path. cbn zeta. rewrite beqb_neq by exact Hd.
  destruct p as [|c p]; [exfalso; apply Hd; reflexivity|].
  destruct (clean_rel (c :: p) ltac:(discriminate) Hr) as [E Hf]. pose proof (clean_dot_iff _ Hr) as HD.
  rewrite E in *. destruct (uw (O, []) (fields (c :: p))) as [k st] eqn:EU. cbn [snd] in Hf.
  rewrite rrel_not_abs by exact Hf.
  destruct (render_abs ns) as (q & ER & EF).
  assert (fields (rrel (k, st)) = repeat str_dotdot k ++ rev st /\ rrel (k, st) <> []) as [FR N0].
  { cbn [rrel] in *. destruct (uout k st) eqn:EO; [exfalso; apply Hd; reflexivity|]. rewrite <- EO. split.
    - pose proof (fields_uout k st Hf [] (or_introl eq_refl)) as X. now rewrite !app_nil_r in X.
    - rewrite EO. cbn [rev]. destruct (rev l); discriminate. }
  rewrite join_clean; [|rewrite ER; discriminate|exact N0]. rewrite ER. cbn [app]. destruct (clean_rooted (q ++ slash :: rrel (k, st))) as [-> _].
  unfold slash. rewrite fields_app_slash, EF, fields_render, FR by exact Hns. rewrite !wk_app, (wk_names ns) by exact Hns.
  rewrite app_nil_r, wk_dotdots, wk_names by (apply Forall_rev; exact Hf). rewrite rev_involutive.
  do 2 f_equal. pose proof (wk_rel (fields (c :: p)) O [] (rev ns)) as X. cbn [skipn app] in X. rewrite X, EU. reflexivity.
Qed.
Lemma normalize_dot ns p : clean p = str_dot -> normalize_path (render ns) p = [47].
Proof. intros E. unfold normalize_path. rewrite E. reflexivity. Qed.
Lemma wk_names_ok s cs : Forall name s -> Forall (fun n => n <> [] /\ noslash n) cs -> Forall name (wk s cs).
Proof.
  intros Hs Hc. revert s Hs. induction Hc as [|c cs [H0 H1] _ IH]; intros s Hs; [exact Hs|].
  change (wk s (c :: cs)) with (wk (wk1 s c) cs). apply IH. unfold wk1. destruct (beqb c str_dot) eqn:E1; [exact Hs|].
  destruct (beqb c str_dotdot) eqn:E2; [destruct Hs; [constructor|assumption]|]. constructor; [|exact Hs].
  split; [exact H0|]. split; [exact H1|]. split; intros ->; [now rewrite beqb_refl in E1|now rewrite beqb_refl in E2].
Qed.
Lemma Forall_name_proper ns : Forall name ns <-> Forall proper ns.
Proof. split; apply Forall_impl; intros; now apply name_proper. Qed.

Lemma normalize_canonical cwd p : canonical cwd -> canonical (normalize_path cwd p).
Proof.
  intros (ns & Hns & ->). apply Forall_name_proper in Hns.
  destruct (is_abs p) eqn:Ha.
  - rewrite normalize_abs by exact Ha. eexists. split; [|reflexivity]. apply Forall_rev, Forall_name_proper, wk_names_ok; [constructor|apply fields_proper].
  - destruct (beqb (clean p) str_dot) eqn:Ed.
    + apply beqb_eq in Ed. rewrite normalize_dot by exact Ed. exists []. split; [constructor|reflexivity].
    + rewrite normalize_rel; auto; [|intros X; rewrite X in Ed; discriminate].
      eexists. split; [|reflexivity]. apply Forall_rev, Forall_name_proper, wk_names_ok; [now apply Forall_rev|apply fields_proper].
Qed.
Lemma normalize_fixed cwd p : canonical p -> normalize_path cwd p = p.
Proof.
  intros (ns & Hns & ->). apply Forall_name_proper in Hns. unfold normalize_path. cbn zeta. rewrite clean_render by exact Hns.
  destruct (render_abs ns) as (q & E & _). rewrite E. rewrite beqb_neq by (unfold str_dot, dot; intros [= ?]; discriminate). reflexivity.
Qed.

(** ** Join with a name, Split *)
Lemma join_name ns n : Forall name ns -> name n -> join (render ns) n = render (ns ++ [n]).
Proof.
  intros Hns Hn. destruct (render_abs ns) as (q & E & F). pose proof Hn as (H0 & H1 & _).
  rewrite join_clean; [|rewrite E; discriminate|exact H0]. rewrite E. cbn [app]. destruct (clean_rooted (q ++ slash :: n)) as [-> _].
  unfold slash. rewrite fields_app_slash, F, fields_render by exact Hns.
  rewrite <- (app_nil_r n) at 1. rewrite fields_name by auto. cbn [fields fields_acc]. rewrite wk_app, (wk_names ns) by exact Hns.
  rewrite app_nil_r. cbn [wk fold_left]. rewrite wk1_name by exact Hn. cbn [rev]. now rewrite rev_involutive.
Qed.
Lemma join_canonical p n : canonical p -> canonical (join p n).
Proof.
  intros (ns & Hns & ->). apply Forall_name_proper in Hns. destruct (render_abs ns) as (q & E & F).
  destruct n as [|c n].
  - unfold join. rewrite E. rewrite <- E. rewrite clean_render by exact Hns. exists ns. split; [now apply Forall_name_proper|reflexivity].
  - rewrite join_clean; [|rewrite E; discriminate|discriminate]. rewrite E. cbn [app]. destruct (clean_rooted (q ++ slash :: c :: n)) as [-> Hf].
    eexists. split; [|reflexivity]. apply Forall_rev, Forall_name_proper, Hf.
Qed.
Lemma split_slash p n : noslash n -> split_path (p ++ 47 :: n) = (p ++ [47], n).
Proof.
  intros Hn. assert (split_path n = ([], n)) as E0.
  { induction n as [|c n IH]; [reflexivity|]. cbn [split_path]. rewrite IH by (intros Hi; apply Hn; now right).
    unfold slash. assert (c <> 47) by (intros ->; apply Hn; now left). replace (c =? 47) with false by lia. reflexivity. }
  induction p as [|c p IH]; cbn [app split_path].
  - rewrite E0. reflexivity.
  - rewrite IH. destruct (p ++ [47]) eqn:E; [destruct p; discriminate|reflexivity].
Qed.
Lemma split_one n : name n -> split_path (render [n]) = ([47], n).
Proof. intros (_ & Hn & _). unfold render. cbn [map concat]. rewrite app_nil_r. apply (split_slash [] n Hn). Qed.
Lemma split_trailing p : split_path (p ++ [47]) = (p ++ [47], []).
Proof. apply (split_slash p []). easy. Qed.
Lemma render_app ns n : ns <> [] -> render (ns ++ [n]) = render ns ++ 47 :: n.
Proof.
  intros H. unfold render. destruct ns as [|m ns]; [congruence|]. cbn [app]. change (m :: ns ++ [n]) with ((m :: ns) ++ [n]).
  rewrite map_app, concat_app. cbn [map concat]. now rewrite app_nil_r.
Qed.
