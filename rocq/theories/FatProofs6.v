(** * FatProofs6: the FAT driver reports failures *)
From Verif Require Import GoBase ListZ Errors Flags GoPath Spec_Path BlockCache BasicStream Driver FatBoot FatDirent FatDriver Spec_Fat Spec_Fat3 Spec_Fat4.
Local Open Scope fat_scope.

Section Reports.
Context {F : Type} (fi : fatimpl F) (hist : F -> list (option kerr)) (R : remembers fi hist) (rep : bool).
Definition honest {A} (m : FM F (A + kerr)) : Prop := forall s, reports hist s (m s).
(* no failing call *)
Definition quiet {A} (m : FM F A) : Prop := forall s, exists n, hist (x_fs (fend (m s))) = hist (x_fs s) ++ repeat None n.
Lemma quiet_hon {A} (m : FM F (A + kerr)) : quiet m -> honest m.
Proof. intros H s. destruct (H s) as [n E]. exists n. now left. Qed.
Lemma q_ret {A} (a : A) : quiet (fret a). Proof. intros s. exists 0%nat. symmetry. apply app_nil_r. Qed.
Lemma q_spin {A} : quiet (@fspin F A). Proof. intros s. exists 0%nat. symmetry. apply app_nil_r. Qed.
Lemma q_crash {A} : quiet (@fcrash F A). Proof. intros s. exists 0%nat. symmetry. apply app_nil_r. Qed.
Lemma q_pure {A} (f : F -> A) : quiet (pureF f). Proof. intros s. exists 0%nat. symmetry. apply app_nil_r. Qed.
Lemma hon_ret {A} (a : A + kerr) : honest (fret a). Proof. apply quiet_hon, q_ret. Qed.
Lemma hon_crash {A} : honest (@fcrash F (A + kerr)). Proof. apply quiet_hon, q_crash. Qed.
Lemma hon_spin {A} : honest (@fspin F (A + kerr)). Proof. apply quiet_hon, q_spin. Qed.
Lemma after {A} s s1 n (r : fres F (A + kerr)) : hist (x_fs s1) = hist (x_fs s) ++ repeat None n -> reports hist s1 r -> reports hist s r.
Proof.
  intros E (k & [H|(e & H & Er)]); exists (n + k)%nat; [left|right; exists e; split; [|exact Er]]; rewrite H, E, <- !app_assoc, repeat_app; [reflexivity|]. now rewrite <- !app_assoc.
Qed.
Lemma hon_bind {A B} (m : FM F A) (k : A -> FM F (B + kerr)) : quiet m -> (forall a, honest (k a)) -> honest (fbind m k).
Proof.
  intros Hm Hk s. destruct (Hm s) as [n E]. unfold fbind. destruct (m s) as [s1 a|s1|s1]; cbn [fend] in E; [exact (after s s1 n _ E (Hk a s1))| |]; exists n; left; exact E.
Qed.
Lemma hon_try {A B} (m : FM F (A + kerr)) (k : A -> FM F (B + kerr)) : honest m -> (forall a, honest (k a)) -> honest (ftry m k).
Proof.
  intros Hm Hk s. destruct (Hm s) as (n & [E|(e & E & Er)]).
  - unfold ftry, fbind. destruct (m s) as [s1 [a|e]|s1|s1]; cbn [fend] in E; [exact (after s s1 n _ E (Hk a s1))| | |]; exists n; left; exact E.
  - exists n. right. exists e. unfold ftry, fbind. rewrite Er in *. cbn [fend] in *. split; [exact E|reflexivity].
Qed.
Lemma hon_lift {A} (o : outcome (A + kerr)) : honest (lift o).
Proof. destruct o; [apply hon_ret|apply hon_crash|apply hon_spin]. Qed.
(* one call *)
Lemma one_call {A} s (s1 : fstate F) (r : A + kerr) : hist (x_fs s1) = hist (x_fs s) ++ [error_of r] -> reports hist s (FDone s1 r).
Proof.
  intros E. destruct r as [a|e]; [exists 1%nat; left; exact E|]. exists 0%nat. right. exists e. split; [exact E|reflexivity].
Qed.
Lemma hon_get c : honest (get_cluster fi c).
Proof. intros s. unfold get_cluster. pose proof (rem_get fi hist R (x_fs s) c) as H. destruct (fi_get fi (x_fs s) c) as [fs r]. apply one_call. exact H. Qed.
Lemma q_root : quiet (list_root fi).
Proof. intros s. unfold list_root. pose proof (rem_root fi hist R (x_fs s)) as H. destruct (fi_root fi (x_fs s)) as [fs r]. exists 1%nat. exact H. Qed.
Lemma hon_call e g : (forall fs, hist (fst (g fs)) = hist fs ++ [snd (g fs)]) -> honest (call_ e g).
Proof. intros H s. unfold call_. specialize (H (x_fs s)). destruct (g (x_fs s)) as [fs [er|]]; apply one_call; exact H. Qed.
Lemma hon_cluster c : honest (readCluster fi c).
Proof.
  intros s. unfold readCluster, readAbsoluteSectors. set (off := i64 _). set (n := BytesPerSector _). pose proof (rem_read fi hist R (x_fs s) off n) as H.
  destruct (fi_read_at fi (x_fs s) off n) as [fs [[buf k] e]]. unfold read_error in H. cbn [fst snd] in H. apply one_call. cbn [x_fs]. rewrite H.
  destruct e as [e|]; [reflexivity|]. now destruct (k <? n).
Qed.
(* listClusters returns the clusters with the error *)
Definition list_reports (s : fstate F) (r : fres F (list Z * option kerr)) : Prop :=
  exists n, hist (x_fs (fend r)) = hist (x_fs s) ++ repeat None n \/
  exists l e, hist (x_fs (fend r)) = hist (x_fs s) ++ repeat None n ++ [Some e] /\ r = FDone (fend r) (l, Some e).
Lemma list_after s s1 n r : hist (x_fs s1) = hist (x_fs s) ++ repeat None n -> list_reports s1 r -> list_reports s r.
Proof.
  intros E (k & [H|(l & e & H & Er)]); exists (n + k)%nat; [left|right; exists l, e; split; [|exact Er]]; rewrite H, E, <- !app_assoc, repeat_app; [reflexivity|]. now rewrite <- !app_assoc.
Qed.
Lemma list_now s s1 r : x_fs s1 = x_fs s -> list_reports s (FDone s1 r).
Proof. intros E. exists 0%nat. left. cbn [fend]. rewrite E. symmetry. apply app_nil_r. Qed.
Lemma chain_honest fuel : forall cur chain s, list_reports s (chain_loop fi fuel cur chain s).
Proof.
  induction fuel as [|f IH]; intros cur chain s; [exists 0%nat; left; symmetry; apply app_nil_r|]. cbn [chain_loop]. unfold fbind at 1, pureF at 1.
  destruct (fi_eoc fi (x_fs s) cur); [now apply list_now|]. unfold fbind at 1. destruct (hon_get cur s) as (n & [E|(e & E & Er)]).
  - destruct (get_cluster fi cur s) as [s1 [next|e]|s1|s1]; cbn [fend] in E; try (exists n; left; exact E). unfold fbind at 1, pureF at 1.
    destruct (fi_valid fi (x_fs s1) next); [exact (list_after s s1 n _ E (IH _ _ _))|]. exists n. left. exact E.
  - rewrite Er in *. cbn [fend] in *. exists n. right. exists [], e. split; [exact E|reflexivity].
Qed.
Lemma list_honest fuel c s : list_reports s (listClusters fi fuel c s).
Proof. unfold listClusters, fbind at 1, pureF at 1. destruct (fi_valid fi (x_fs s) c); [apply chain_honest|now apply list_now]. Qed.
Lemma hon_list {A} fuel c (k : list Z -> FM F (A + kerr)) : (forall l, honest (k l)) ->
  honest (r <~ listClusters fi fuel c ;; match snd r with Some e => fret (inr e) | None => k (fst r) end).
Proof.
  intros Hk s. unfold fbind. destruct (list_honest fuel c s) as (n & [E|(l & e & E & Er)]).
  - destruct (listClusters fi fuel c s) as [s1 [l [e|]]|s1|s1]; cbn [fst snd fend fret] in *; [| exact (after s s1 n _ E (Hk l s1))| |]; exists n; left; exact E.
  - rewrite Er in *. cbn [fst snd fend fret] in *. exists n. right. exists e. split; [exact E|reflexivity].
Qed.
Lemma hon_nth n : forall c, honest (nth_loop fi n c).
Proof.
  induction n as [|n IH]; intros c; [apply hon_ret|]. cbn [nth_loop]. apply hon_try; [apply hon_get|]. intros next. apply hon_bind; [apply q_pure|]. intros [|]; [apply hon_ret|].
  apply hon_bind; [apply q_pure|]. intros [|]; [apply IH|apply hon_ret].
Qed.
Lemma hon_read_dir fuel d : honest (readDirFromDirent fi rep fuel d).
Proof.
  unfold readDirFromDirent. destruct (negb _); [apply hon_ret|]. generalize 0%nat as i, (@nil dirent) as acc.
  induction fuel as [|f IH]; intros i acc; [apply hon_spin|]. cbn [read_dir_loop]. apply hon_try; [apply hon_try; [apply hon_nth|]; intros; apply hon_cluster|].
  intros data. apply hon_bind; [apply q_pure|]. intros b. apply hon_try; [apply hon_lift|]. intros ds. destruct (_ <? _); [apply hon_ret|apply IH].
Qed.
Lemma hon_entries fuel comp es : forall cur cont, honest (match_entries fi rep fuel comp es cur cont).
Proof.
  induction es as [|e es IH]; intros cur cont; [apply hon_ret|]. cbn [match_entries]. destruct (beqb _ _); [|apply IH]. apply hon_try; [apply hon_read_dir|]. intros. apply IH.
Qed.
Lemma hon_parts fuel ps : forall cur cont, honest (match_parts fi rep fuel ps cur cont).
Proof. induction ps as [|p ps IH]; intros cur cont; [apply hon_ret|]. cbn [match_parts]. apply hon_try; [apply hon_entries|]. intros. apply IH. Qed.
Lemma hon_resolve fuel p : honest (resolvePath fi rep fuel p).
Proof. unfold resolvePath. destruct (SplitList (clean p)); [apply hon_ret|]. apply hon_bind; [apply q_root|]. intros [c|e]; [apply hon_parts|apply hon_ret]. Qed.
Lemma hon_clusters cs : forall r acc, honest (read_clusters fi cs r acc).
Proof.
  induction cs as [|c cs IH]; intros r acc; [apply hon_ret|]. cbn [read_clusters]. apply hon_try; [apply hon_cluster|]. intros data. apply hon_bind; [apply q_pure|].
  intros b. cbv zeta. destruct (_ <? _); [|apply IH]. destruct (_ || _); [apply hon_crash|apply IH].
Qed.
Lemma hon_stat fuel p : honest (Stat fi rep fuel p).
Proof. apply hon_try; [apply hon_resolve|]. intros. apply hon_ret. Qed.
Lemma hon_readdir fuel p : honest (Readdir fi rep fuel p).
Proof. apply hon_try; [apply hon_resolve|]. intros d. destruct (negb _); [apply hon_ret|apply hon_read_dir]. Qed.
Lemma hon_read_file fuel p : honest (ReadFile fi rep fuel p).
Proof. apply hon_try; [apply hon_resolve|]. intros d. unfold read_contents. destruct (de_is_dir d); [apply hon_ret|].
  apply (hon_list fuel (de_first d) (fun l => read_clusters fi l (de_size d) [])). intros. apply hon_clusters.
Qed.
Lemma hon_update d : honest (update_dirent fi d). Proof. apply hon_call. intros. apply (rem_update fi hist R). Qed.
Lemma hon_chmod fuel p m : honest (Chmod fi rep fuel p m).
Proof. apply hon_try; [apply hon_resolve|]. intros d. apply hon_update. Qed.
Lemma hon_chtimes ep fuel p a m : honest (Chtimes fi rep ep fuel p a m).
Proof. apply hon_try; [apply hon_resolve|]. intros d. apply hon_update. Qed.
Lemma hon_free n : honest (free_loop fi n).
Proof. induction n as [|n IH]; [apply hon_ret|]. cbn [free_loop]. apply hon_try; [|intros; exact IH]. apply hon_call. intros. apply (rem_free fi hist R). Qed.
Lemma hon_remove fuel p : honest (Remove fi rep fuel p).
Proof.
  apply hon_try; [apply hon_resolve|]. intros d. destruct (de_is_dir d); [apply hon_ret|]. apply hon_try; [apply hon_resolve|]. intros pd.
  apply hon_try; [apply hon_call; intros; apply (rem_delete fi hist R)|]. intros _. apply (hon_list fuel (de_first d) (fun l => free_loop fi (length l))). intros. apply hon_free.
Qed.
End Reports.
