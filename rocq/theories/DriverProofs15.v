(** * DriverProofs15: facts for Props_Driver3. *)
From Coq Require Import String.
From Verif Require Import GoBase ListZ Errors Flags GoPath Spec_Path GoPathProofs BlockCache BlockCacheProofs BasicStream Driver DriverFile Spec_Driver Spec_Driver2
  DriverProofs DriverProofs2 DriverProofs3 DriverProofs4 DriverProofs8 DriverProofs10 DriverProofs11 DriverProofs12 DriverProofs13 DriverProofs14.

Lemma norm_name ns n : Forall proper ns -> proper n -> normalize_path (render ns) n = render (ns ++ [n]).
Proof.
  intros Hns Hn. apply Forall_name_proper in Hns. pose proof Hn as (N1 & N2 & N3 & N4). pose proof (proj2 (name_proper n) Hn) as Hnm.
  assert (is_abs n = false) as Ha. { destruct n as [|c n]; [reflexivity|]. cbn. apply Z.eqb_neq. intros ->. apply N4. now left. }
  assert (fields n = [n]) as Ef. { rewrite <- (app_nil_r n) at 1. rewrite fields_name; auto. }
  rewrite normalize_rel; auto.
  - rewrite Ef. cbn [wk fold_left]. unfold wk. cbn [fold_left]. rewrite wk1_name by exact Hnm. cbn [rev]. now rewrite rev_involutive.
  - intros E. apply (clean_dot_iff n Ha) in E. rewrite Ef in E. unfold uw in E. cbn [fold_left] in E. unfold uw1 in E.
    rewrite !beqb_neq in E by assumption. discriminate E.
Qed.
Lemma mc_calls {F A} (m : M F A) k s : mc k m -> (creations (calls s (m s)) <= k)%nat.
Proof. intros Hm. destruct (Hm s) as (l & E & Hl). unfold calls. rewrite E, skipn_app, skipn_all, Nat.sub_diag. exact Hl. Qed.

Section Facts.
Context {F H : Type} (im : impl F H) (wm : wmode) (d : drv).
Lemma following_stat_err fuel p s s1 e : following im wm d fuel (norm d p) s = Done s1 (inr e) -> stat_path im wm d fuel p s = Done s1 (inr e).
Proof. intros E. unfold stat_path. now apply try_err. Qed.
Lemma open_creates_missing fuel p fl perm s i n m : In (EvCreate i n m) (calls s (open_file im wm d fuel p fl perm s)) ->
  io_create fl = true /\ m = perm /\ last_name d p n /\ exists s' e, stat_path im wm d fuel p s = Done s' (inr e) /\ kerr_is e ErrNotFound = true.
Proof.
  intros Hin.
  assert (calls s (open_file im wm d fuel p fl perm s) = calls s (run_op im wm d fuel (POpenFile p fl perm) s)) as EC.
  { unfold calls. cbn [run_op]. unfold outc, bind. now destruct (open_file im wm d fuel p fl perm s). }
  assert (may im d (POpenFile p fl perm) (EvCreate i n m)) as (A & B & C).
  { rewrite EC in Hin. pose proof (ext_calls _ _ _ (op_may im wm d fuel (POpenFile p fl perm) s)) as HF. rewrite Forall_forall in HF. now apply HF. }
  split; [exact A|]. split; [exact B|]. split; [exact C|].
  destruct (following im wm d fuel (norm d p) s) as [s1 [x|e]|s1|s1] eqn:E.
  2:{ destruct (kerr_is e ErrNotFound) eqn:Ee; [exists s1, e; split; [now apply following_stat_err|exact Ee]|].
      exfalso; pose proof (open_no_create im wm d fuel p fl perm s) as HN; rewrite E in HN; specialize (HN ltac:(intros ? ? [= <- <-]; exact Ee));
        apply ext_calls in HN; rewrite Forall_forall in HN; exact (HN _ Hin). }
  all: exfalso; pose proof (open_no_create im wm d fuel p fl perm s) as HN; rewrite E in HN; specialize (HN ltac:(discriminate));
        apply ext_calls in HN; rewrite Forall_forall in HN; exact (HN _ Hin).
Qed.
Lemma in_creations l : (forall i n m, ~ In (EvCreate i n m) l) -> creations l = 0%nat.
Proof.
  intros HN. apply creations_none. rewrite Forall_forall. intros e He. destruct e; try exact I. exact (HN _ _ _ He).
Qed.
Lemma open_existing_no_create fuel p fl perm s st s' : stat_path im wm d fuel p s = Done s' (inl st) ->
  creations (calls s (open_file im wm d fuel p fl perm s)) = 0%nat.
Proof.
  intros E. apply in_creations. intros i n m Hin. destruct (open_creates_missing _ _ _ _ _ _ _ _ Hin) as (_ & _ & _ & s2 & e2 & E2 & _). congruence.
Qed.

Lemma info_frozen f s s' f' :
  (forall b n e, fl_write im f b s = Done s' (f', n, e) -> fl_info f' = fl_info f) /\
  (forall n e, fl_truncate im f n s = Done s' (f', e) -> fl_info f' = fl_info f) /\
  (forall b off n e, fl_write_at im f b off s = Done s' (f', n, e) -> fl_info f' = fl_info f) /\
  (forall e, fl_sync im f s = Done s' (f', e) -> fl_info f' = fl_info f).
Proof.
  unfold fl_write, fl_truncate, fl_write_at, fl_sync. split; [|split; [|split]].
  - intros b n e. destruct (s_write _ _ _ _) as [[[[a1 a2] a3] a4]| |]; [|discriminate|discriminate]. intros [= _ <- _ _]. reflexivity.
  - intros n e. destruct (s_truncate _ _ _ _) as [[[a1 a2] a3]| |]; [|discriminate|discriminate]. intros [= _ <- _]. reflexivity.
  - intros b off n e. destruct (s_write_at _ _ _ _ _) as [[[[a1 a2] a3] a4]| |]; [|discriminate|discriminate]. intros [= _ <- _ _]. reflexivity.
  - intros e. destruct (s_sync _ _ _) as [[[a1 a2] a3]| |]; [|discriminate|discriminate]. intros [= _ <- _]. reflexivity.
Qed.

Hypothesis Hwm : wm <> AsIs.
Lemma open_close_leaks f p n fl perm s fs2 rh h s1 fl' s2 e : proper n -> normalize_path (cwd d) p = render [n] ->
  entry_of im (d_fs s) n fs2 rh h -> io_truncate fl = false ->
  open_file im wm d (S (S (S (S f)))) p fl perm s = Done s1 (inl fl') -> fl_close im fl' s1 = Done s2 e ->
  exists l, d_log s2 = d_log s ++ l /\ acquisitions (x_id (fl_obj fl')) l = 1%nat /\ releases (x_id (fl_obj fl')) l = 0%nat.
Proof.
  intros Hn Ep He Ht E1 E2. destruct (open_entry im wm d Hwm f p n fl perm s fs2 rh h s1 fl' Hn Ep He Ht E1) as (El & Eo & _).
  destruct (close_ext im fl' s1) as [(l & E & HF) _]. rewrite E2 in E. cbn [end_state] in E. rewrite Eo. cbn [x_id].
  exists (look_calls (d_next s) n ++ l). rewrite app_assoc, <- El. split; [exact E|].
  unfold acquisitions, releases. rewrite !filter_app, !app_length. fold (releases (S (d_next s)) l). rewrite (io_only_no_release l _ HF).
  assert (filter (fun e => match e with EvAcquire i => (i =? S (d_next s))%nat | _ => false end) l = []) as ->.
  { clear -HF. induction HF as [|e l He _ IH]; [reflexivity|]. destruct e; try destruct He; exact IH. }
  unfold look_calls. cbn -[Nat.eqb]. rewrite Nat.eqb_refl. replace (d_next s =? S (d_next s))%nat with false by (symmetry; apply Nat.eqb_neq; lia). split; reflexivity.
Qed.
End Facts.
Lemma path_base_last ns n : proper n -> Forall proper ns -> path_base (render (ns ++ [n])) = n.
Proof.
  intros (N1 & N2 & N3 & N4) _. unfold path_base. set (p := render (ns ++ [n])).
  assert (exists q, p = q ++ 47 :: n) as (q & Eq).
  { unfold p. destruct ns as [|m ns]; [exists []; cbn; now rewrite app_nil_r|]. rewrite render_app by discriminate. eauto. }
  assert (rev (strip_slashes (rev p)) = p) as ES.
  { assert (strip_slashes (rev p) = rev p) as ->; [|apply rev_involutive].
    rewrite Eq, rev_app_distr. cbn [rev]. rewrite <- app_assoc. destruct (rev n) as [|c r] eqn:ER.
    - exfalso. apply N1. now rewrite <- (rev_involutive n), ER.
    - cbn [app strip_slashes]. assert (c <> 47). { intros ->. apply N4. apply in_rev. rewrite ER. now left. }
      unfold slash. now replace (c =? 47) with false by lia. }
  destruct p as [|c p'] eqn:EP; [destruct q; discriminate|]. rewrite ES, Eq, split_slash by exact N4. cbn [snd]. destruct n; [congruence|reflexivity].
Qed.
Lemma exists_last_or_nil {A} (l : list A) : l = [] \/ exists l' a, l = l' ++ [a].
Proof. destruct l as [|x l]; [now left|right]. destruct (exists_last (l := x :: l) ltac:(discriminate)) as (l' & a & E). eauto. Qed.
Lemma info_name_last ns st : Forall proper ns -> info_name (mkInfo st (render ns)) = match ns with [] => B "/" | _ => last ns [] end.
Proof.
  intros Hf. unfold info_name. cbn [in_path]. destruct (exists_last_or_nil ns) as [->|(l & n & ->)]; [reflexivity|].
  apply Forall_app in Hf as [H1 H2]. rewrite path_base_last by (now inversion H2 || exact H1). rewrite last_last. destruct l; reflexivity.
Qed.
Lemma info_at_open {F H} (im : impl F H) wm d (Hwm : wm <> AsIs) f p n fl perm s fs2 rh h s' f' : proper n -> normalize_path (cwd d) p = render [n] ->
  entry_of im (d_fs s) n fs2 rh h -> io_truncate fl = false -> open_file im wm d (S (S (S (S f)))) p fl perm s = Done s' (inl f') ->
  info_sys (fl_info f') = h_stat im (d_fs s') h /\ info_name (fl_info f') = n /\ fl_name im f' s' = Done s' (h_name im (d_fs s') h).
Proof.
  intros Hn Ep He Ht E. destruct (open_entry im wm d Hwm f p n fl perm s fs2 rh h s' f' Hn Ep He Ht E) as (_ & Eo & Es).
  split; [exact Es|]. split.
  - unfold info_name, fl_info. rewrite Eo. cbn [in_path x_path]. apply (path_base_last [] n); [exact Hn|constructor].
  - unfold fl_name. rewrite Eo. unfold meth. cbn [x_mode x_h]. now destruct wm.
Qed.
