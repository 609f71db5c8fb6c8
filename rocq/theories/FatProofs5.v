(** * FatProofs5: which calls the operations of the FAT driver make *)
From Verif Require Import GoBase GoPath Spec_Path GoPathProofs ListZ Errors Flags GoPath Spec_Path BlockCache BasicStream Driver FatBoot FatDirent FatDriver Spec_Fat FatProofs FatProofs2 FatProofs3 Spec_Fat3.
Local Open Scope fat_scope.

Section Calls.
Context {F : Type} (fi : fatimpl F) (rep : bool).
(* changes nothing *)
Definition mute {A} (m : FM F A) : Prop := forall s, exists l, x_log (fend (m s)) = x_log s ++ l /\ filter changing l = [].
Lemma mute_changes {A} (m : FM F A) s : mute m -> changes s (m s) = [].
Proof. intros H. destruct (H s) as (l & E & El). unfold changes. rewrite E, skipn_app, skipn_all, Nat.sub_diag. exact El. Qed.
Lemma mute_ret {A} (a : A) : mute (fret a). Proof. intros s. exists []. now rewrite app_nil_r. Qed.
Lemma mute_spin {A} : mute (@fspin F A). Proof. intros s. exists []. now rewrite app_nil_r. Qed.
Lemma mute_crash {A} : mute (@fcrash F A). Proof. intros s. exists []. now rewrite app_nil_r. Qed.
Lemma mute_pure {A} (f : F -> A) : mute (pureF f). Proof. intros s. exists []. now rewrite app_nil_r. Qed.
Lemma mute_bind {A B} (m : FM F A) (k : A -> FM F B) : mute m -> (forall a, mute (k a)) -> mute (fbind m k).
Proof.
  intros Hm Hk s. destruct (Hm s) as (l & E & El). unfold fbind. destruct (m s) as [s1 a|s1|s1]; cbn [fend] in *; [|eauto|eauto].
  destruct (Hk a s1) as (l2 & E2 & El2). exists (l ++ l2). rewrite E2, E, app_assoc, filter_app, El, El2. auto.
Qed.
Lemma mute_try {A B} (m : FM F (A + kerr)) (k : A -> FM F (B + kerr)) : mute m -> (forall a, mute (k a)) -> mute (ftry m k).
Proof. intros Hm Hk. apply mute_bind; [exact Hm|]. intros [a|e]; [apply Hk|apply mute_ret]. Qed.
Lemma mute_lift {A} (o : outcome A) : mute (lift o).
Proof. destruct o; [apply mute_ret|apply mute_crash|apply mute_spin]. Qed.
Lemma mute_get c : mute (get_cluster fi c).
Proof. intros s. unfold get_cluster. destruct (fi_get fi (x_fs s) c). exists []. now rewrite app_nil_r. Qed.
Lemma mute_root : mute (list_root fi).
Proof. intros s. unfold list_root. destruct (fi_root fi (x_fs s)). exists []. now rewrite app_nil_r. Qed.
Lemma mute_cluster c : mute (readCluster fi c).
Proof.
  intros s. unfold readCluster, readAbsoluteSectors. destruct (fi_read_at fi _ _ _) as [fs [[buf n] e]]. eexists [_]. split; [reflexivity|reflexivity].
Qed.
Lemma mute_chain_loop fuel : forall cur chain, mute (chain_loop fi fuel cur chain).
Proof.
  induction fuel as [|f IH]; intros cur chain; [apply mute_spin|]. cbn [chain_loop]. apply mute_bind; [apply mute_pure|]. intros [|]; [apply mute_ret|].
  apply mute_bind; [apply mute_get|]. intros [next|e]; [|apply mute_ret]. apply mute_bind; [apply mute_pure|]. intros [|]; [apply IH|apply mute_ret].
Qed.
Lemma mute_list fuel c : mute (listClusters fi fuel c).
Proof. apply mute_bind; [apply mute_pure|]. intros [|]; [apply mute_chain_loop|apply mute_ret]. Qed.
Lemma mute_nth n : forall c, mute (nth_loop fi n c).
Proof.
  induction n as [|n IH]; intros c; [apply mute_ret|]. cbn [nth_loop]. apply mute_try; [apply mute_get|]. intros next. apply mute_bind; [apply mute_pure|]. intros [|]; [apply mute_ret|].
  apply mute_bind; [apply mute_pure|]. intros [|]; [apply IH|apply mute_ret].
Qed.
Lemma mute_read_dir fuel d : mute (readDirFromDirent fi rep fuel d).
Proof.
  unfold readDirFromDirent. destruct (negb _); [apply mute_ret|]. generalize 0%nat as i, (@nil dirent) as acc.
  induction fuel as [|f IH]; intros i acc; [apply mute_spin|]. cbn [read_dir_loop]. apply mute_try; [apply mute_try; [apply mute_nth|]; intros; apply mute_cluster|].
  intros data. apply mute_bind; [apply mute_pure|]. intros b. apply mute_try; [apply mute_lift|]. intros ds. destruct (_ <? _); [apply mute_ret|apply IH].
Qed.
Lemma mute_entries fuel comp es : forall cur cont, mute (match_entries fi rep fuel comp es cur cont).
Proof.
  induction es as [|e es IH]; intros cur cont; [apply mute_ret|]. cbn [match_entries]. destruct (beqb _ _); [|apply IH]. apply mute_try; [apply mute_read_dir|]. intros. apply IH.
Qed.
Lemma mute_parts fuel ps : forall cur cont, mute (match_parts fi rep fuel ps cur cont).
Proof.
  induction ps as [|p ps IH]; intros cur cont; [apply mute_ret|]. cbn [match_parts]. apply mute_try; [apply mute_entries|]. intros. apply IH.
Qed.
Lemma mute_resolve fuel p : mute (resolvePath fi rep fuel p).
Proof.
  unfold resolvePath. destruct (SplitList (clean p)); [apply mute_ret|]. apply mute_bind; [apply mute_root|]. intros [c|e]; [apply mute_parts|apply mute_ret].
Qed.
Lemma mute_clusters cs : forall r acc, mute (read_clusters fi cs r acc).
Proof.
  induction cs as [|c cs IH]; intros r acc; [apply mute_ret|]. cbn [read_clusters]. apply mute_try; [apply mute_cluster|]. intros data. apply mute_bind; [apply mute_pure|].
  intros b. cbv zeta. destruct (_ <? _); [|apply IH]. destruct (_ || _); [apply mute_crash|apply IH].
Qed.
Lemma mute_stat fuel p : mute (Stat fi rep fuel p).
Proof. apply mute_try; [apply mute_resolve|]. intros. apply mute_ret. Qed.
Lemma mute_readdir fuel p : mute (Readdir fi rep fuel p).
Proof. apply mute_try; [apply mute_resolve|]. intros d. destruct (negb _); [apply mute_ret|apply mute_read_dir]. Qed.
Lemma mute_read_file fuel p : mute (ReadFile fi rep fuel p).
Proof.
  apply mute_try; [apply mute_resolve|]. intros d. unfold read_contents. destruct (de_is_dir d); [apply mute_ret|].
  apply mute_bind; [apply mute_list|]. intros r. destruct (snd r); [apply mute_ret|apply mute_clusters].
Qed.

(* the changing calls of a composition *)
Lemma changes_log {A} s (r : fres F A) l : x_log (fend r) = x_log s ++ l -> changes s r = filter changing l.
Proof. intros E. unfold changes. now rewrite E, skipn_app, skipn_all, Nat.sub_diag. Qed.
Lemma update_call d s : exists l r, update_dirent fi d s = FDone l r /\ x_log l = x_log s ++ [FvUpdate d].
Proof. unfold update_dirent, call_. destruct (fi_update fi (x_fs s) d) as [fs r]. do 2 eexists. split; reflexivity. Qed.
Lemma after_resolve {A} fuel p s (k : dirent -> FM F (A + kerr)) :
  (changes s (ftry (resolvePath fi rep fuel p) k s) = [] /\ (forall s1 d, resolvePath fi rep fuel p s <> FDone s1 (inl d))) \/
  exists s1 d l, resolvePath fi rep fuel p s = FDone s1 (inl d) /\ x_log s1 = x_log s ++ l /\ filter changing l = [] /\ ftry (resolvePath fi rep fuel p) k s = k d s1.
Proof.
  unfold ftry, fbind. destruct (mute_resolve fuel p s) as (l & E & El).
  destruct (resolvePath fi rep fuel p s) as [s1 [d|e]|s1|s1]; cbn [fend] in E; [right; exists s1, d, l; auto| | |]; (left; split; [|discriminate]); rewrite (changes_log s _ l); auto.
Qed.
Lemma chmod_changes fuel p mode s : changes s (Chmod fi rep fuel p mode s) = [] \/
  exists s1 d m, resolvePath fi rep fuel p s = FDone s1 (inl d) /\ changes s (Chmod fi rep fuel p mode s) = [FvUpdate (set_mode d m)].
Proof.
  unfold Chmod. match goal with |- context [ftry (resolvePath fi rep fuel p) ?k] => destruct (after_resolve fuel p s k) as [[E _]|(s1 & d & l & R & E & El & EX)] end; [now left|right].
  rewrite EX. cbv zeta. match goal with |- context [set_mode d ?m] => set (mm := m) end. exists s1, d, mm. split; [exact R|].
  destruct (update_call (set_mode d mm) s1) as (s2 & r & EU & EL). rewrite EU. rewrite (changes_log s _ (l ++ [FvUpdate (set_mode d mm)])); [now rewrite filter_app, El|].
  cbn [fend]. now rewrite EL, E, app_assoc.
Qed.
Lemma chtimes_changes epoch fuel p a m s : changes s (Chtimes fi rep epoch fuel p a m s) = [] \/
  exists s1 d d', resolvePath fi rep fuel p s = FDone s1 (inl d) /\ changes s (Chtimes fi rep epoch fuel p a m s) = [FvUpdate d'] /\
    same_but_times d d'.
Proof.
  unfold Chtimes. match goal with |- context [ftry (resolvePath fi rep fuel p) ?k] => destruct (after_resolve fuel p s k) as [[E _]|(s1 & d & l & R & E & El & EX)] end; [now left|right].
  rewrite EX. cbv zeta. match goal with |- context [update_dirent fi ?x] => set (d' := x) end. exists s1, d, d'. split; [exact R|]. split.
  - destruct (update_call d' s1) as (s2 & r & EU & EL). rewrite EU. rewrite (changes_log s _ (l ++ [FvUpdate d'])); [now rewrite filter_app, El|].
    cbn [fend]. now rewrite EL, E, app_assoc.
  - unfold d', SetLastModifiedAt, SetLastAccessedAt, same_but_times, same_entry. destruct (a <? epoch), (m <? epoch); cbn; auto 25.
Qed.
Lemma free_changes n : forall s, exists l k, x_log (fend (free_loop fi n s)) = x_log s ++ map FvFree l /\ (k <= n)%nat /\ l = map (fun i => u32 (Z.of_nat i)) (rev (seq k (n - k))).
Proof.
  induction n as [|n IH]; intros s; [exists [], 0%nat; cbn; rewrite app_nil_r; auto|]. cbn [free_loop]. unfold ftry, fbind, free_cluster, call_.
  destruct (fi_free fi (x_fs s) (u32 (Z.of_nat n))) as [fs [e|]]; cbn [x_fs].
  - exists [u32 (Z.of_nat n)], n. split; [reflexivity|]. split; [lia|]. replace (S n - n)%nat with 1%nat by lia. reflexivity.
  - destruct (IH (mkFs fs (x_log s ++ [FvFree (u32 (Z.of_nat n))]))) as (l & k & E & Hk & El). exists (u32 (Z.of_nat n) :: l), k. rewrite E. cbn [x_log map]. rewrite <- app_assoc.
    split; [reflexivity|]. split; [lia|]. rewrite El. replace (S n - k)%nat with (S (n - k)) by lia. rewrite seq_S, rev_app_distr. cbn [rev app map]. replace (k + (n - k))%nat with n by lia. reflexivity.
Qed.
Lemma filter_free l : filter changing (map FvFree l) = map FvFree l.
Proof. induction l as [|c l IH]; [reflexivity|]. cbn. now rewrite IH. Qed.
Lemma remove_changes fuel p s : changes s (Remove fi rep fuel p s) = [] \/
  exists s1 s2 d pd l, resolvePath fi rep fuel p s = FDone s1 (inl d) /\ resolvePath fi rep fuel (dir_of p) s1 = FDone s2 (inl pd) /\ de_is_dir d = false /\
    changes s (Remove fi rep fuel p s) = FvDelete d pd :: map FvFree l /\ (l <> [] -> snd (fi_delete fi (x_fs s2) d pd) = None).
Proof.
  unfold Remove. match goal with |- context [ftry (resolvePath fi rep fuel p) ?k] => destruct (after_resolve fuel p s k) as [[E _]|(s1 & d & l & R & E & El & EX)] end; [now left|].
  rewrite EX. destruct (de_is_dir d) eqn:Hd; [left; rewrite (changes_log s _ l); auto|].
  match goal with |- context [ftry (resolvePath fi rep fuel (dir_of p)) ?k] => destruct (after_resolve fuel (dir_of p) s1 k) as [[E2 HN]|(s2 & pd & l2 & R2 & E2 & El2 & EX2)] end.
  { left. match goal with |- changes _ ?r = _ => set (rr := r) in * end. unfold changes in *. rewrite E in E2.
    assert (exists m, x_log (fend rr) = (x_log s ++ l) ++ m) as [m Em].
    { subst rr. unfold ftry, fbind. destruct (mute_resolve fuel (dir_of p) s1) as (m & Em & Hm). rewrite E in Em.
      destruct (resolvePath fi rep fuel (dir_of p) s1) as [s2 [pd|e]|s2|s2]; cbn [fend] in *; eauto. now destruct (HN s2 pd). }
    rewrite Em. rewrite Em in E2. rewrite skipn_app, skipn_all, Nat.sub_diag in E2. cbn [app skipn] in E2.
    rewrite <- app_assoc, skipn_app, skipn_all, Nat.sub_diag. cbn [app skipn]. now rewrite filter_app, El, E2. }
  right. rewrite EX2. exists s1, s2, d, pd.
  assert (x_log s2 = x_log s ++ (l ++ l2)) as EL by (rewrite E2, E, app_assoc; reflexivity). assert (filter changing (l ++ l2) = []) as Ef by now rewrite filter_app, El, El2.
  unfold ftry at 1, fbind at 1, delete_dirent, call_. destruct (fi_delete fi (x_fs s2) d pd) as [fs [e|]] eqn:ED.
  - exists []. split; [exact R|]. split; [exact R2|]. split; [exact Hd|]. split; [|congruence]. rewrite (changes_log s _ (l ++ l2 ++ [FvDelete d pd])); [now rewrite !app_assoc, filter_app, Ef|].
    cbn [fend fret x_log]. rewrite EL, <- !app_assoc. reflexivity.
  - set (s3 := mkFs fs (x_log s2 ++ [FvDelete d pd])). destruct (mute_list fuel (de_first d) s3) as (m3 & Em3 & Hm3).
    assert (exists lf, x_log (fend ((r <~ listClusters fi fuel (de_first d);; match snd r with Some e => fret (inr e) | None => free_loop fi (length (fst r)) end) s3)) = x_log s ++ (l ++ l2) ++ [FvDelete d pd] ++ m3 ++ map FvFree lf) as [lf EF].
    { unfold fbind. destruct (listClusters fi fuel (de_first d) s3) as [s4 [cs [e|]]|s4|s4]; cbn [fend snd fst fret] in *; try (exists []; rewrite Em3; subst s3; cbn [x_log map]; rewrite EL, !app_nil_r, <- !app_assoc; reflexivity).
      destruct (free_changes (length cs) s4) as (lf & k & EF & _). exists lf. rewrite EF, Em3. subst s3. cbn [x_log]. rewrite EL, <- !app_assoc. reflexivity. }
    exists lf. split; [exact R|]. split; [exact R2|]. split; [exact Hd|]. split; [|auto].
    rewrite (changes_log s _ _ EF), !filter_app, El, El2, Hm3, filter_free. reflexivity.
Qed.
(* what Stat finds is an entry of the root directory *)
Lemma stat_entry fuel path s s' st fs es : ~ In 58 (clean path) -> fi_root fi (x_fs s) = (fs, inl es) -> Stat fi rep fuel path s = FDone s' (inl st) ->
  (st = de_stat zero_dirent) \/ exists d, In d es /\ de_name d = clean path /\ de_is_dir d = true /\ st = de_stat d.
Proof.
  intros Hc Er. unfold Stat, ftry at 1, fbind at 1. rewrite (resolve_one fi rep fuel path s fs es Hc Er). unfold ftry, fbind.
  destruct (match_entries fi rep fuel (clean path) es zero_dirent es (mkFs fs (x_log s))) as [s1 [r|e]|s1|s1] eqn:EM; try discriminate.
  cbn [fret]. intros [= <- <-]. apply entries_found in EM as [->|(A & B & C)]; [now left|right; eauto].
Qed.
End Calls.
(* the parent of a path is the path without its last name *)
Lemma dir_of_render ns n : Forall proper ns -> proper n -> dir_of (render (ns ++ [n])) = render ns.
Proof.
  intros Hns Hn. apply Forall_name_proper in Hns. apply name_proper in Hn. unfold dir_of. destruct ns as [|m ns].
  - cbn [app]. rewrite split_one by exact Hn. reflexivity.
  - rewrite render_app by discriminate. rewrite split_slash by apply Hn. cbn [fst]. pose proof (fields_render _ Hns) as Fr.
    destruct (render_abs (m :: ns)) as (q & E & _). rewrite E in *. cbn [app]. destruct (clean_rooted (q ++ [47])) as [-> _].
    rewrite fields_app_slash, fields_nil, app_nil_r. rewrite fields_slash in Fr. rewrite Fr. rewrite <- E.
    pose proof (clean_render _ Hns) as C. rewrite E in C. destruct (clean_rooted q) as [C2 _]. rewrite C in C2. rewrite Fr in C2. rewrite E. now rewrite C2.
Qed.
Lemma dir_of_name n : proper n -> dir_of n = [46].
Proof.
  intros Hn. apply name_proper in Hn. destruct Hn as (_ & Hn & _). unfold dir_of.
  assert (split_path n = ([], n)) as ->; [|reflexivity].
  induction n as [|c n IH]; [reflexivity|]. cbn [split_path]. rewrite IH by (intros Hi; apply Hn; now right).
  unfold slash. assert (c <> 47) by (intros ->; apply Hn; now left). replace (c =? 47) with false by lia. reflexivity.
Qed.
