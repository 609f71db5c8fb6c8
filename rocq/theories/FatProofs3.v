(** * FatProofs3: path lookup, file contents, Remove *)
From Coq Require Import String.
From Verif Require Import GoBase ListZ Errors Flags GoPath Spec_Path GoPathProofs BlockCache BasicStream Driver FatBoot FatDirent FatDriver Spec_Fat FatProofs FatProofs2.
Local Open Scope fat_scope.

Section Lookup.
Context {F : Type} (fi : fatimpl F).
Lemma dirents_asis loc bpc data off n : dirents_from loc false bpc data off n = match n with O => Ret (inl []) | S _ => Panic end.
Proof. destruct n; [reflexivity|]. cbn [dirents_from]. destruct (zlen data <? off + 32); [reflexivity|]. unfold new_raw_dirent. cbn [negb]. destruct (_ <? 32); reflexivity. Qed.
Lemma read_dir_asis fuel d : forall i acc s s' l, read_dir_loop fi false fuel d i acc s <> FDone s' (inl l).
Proof.
  induction fuel as [|f IH]; intros i acc s s' l E; [discriminate|]. cbn [read_dir_loop] in E. unfold ftry at 1, fbind at 1 in E.
  destruct (readClusterOfDirent fi d i s) as [s1 [data|e]|s1|s1]; try discriminate. unfold fbind at 1, pureF in E. unfold ftry, fbind, clusterToDirentSlice in E. rewrite dirents_asis in E.
  destruct (Z.to_nat (DirentsPerCluster (fi_boot fi (x_fs s1)))) eqn:EN; cbn [lift fret fcrash] in E; [|discriminate].
  assert (zlen (@nil dirent) <? DirentsPerCluster (fi_boot fi (x_fs s1)) = false) as EZ by (cbn; lia). rewrite EZ in E. now apply IH in E.
Qed.
Lemma readdir_asis fuel d s s' l : readDirFromDirent fi false fuel d s <> FDone s' (inl l).
Proof. unfold readDirFromDirent. destruct (negb (de_is_dir d)); [discriminate|apply read_dir_asis]. Qed.
Lemma entries_asis fuel comp es : forall cur cont s s' r, match_entries fi false fuel comp es cur cont s = FDone s' (inl r) ->
  s' = s /\ r = (cur, cont) /\ Forall (fun e => de_name e <> comp) es.
Proof.
  induction es as [|e es IH]; intros cur cont s s' r E; [cbn in E; injection E as <- <-; auto|]. cbn [match_entries] in E. destruct (beqb (de_name e) comp) eqn:EB.
  - unfold ftry, fbind in E. destruct (readDirFromDirent fi false fuel e s) as [s1 [l|er]|s1|s1] eqn:ER; try discriminate. now apply readdir_asis in ER.
  - apply IH in E as (A & B & C). split; [exact A|]. split; [exact B|]. constructor; [|exact C]. intros X. rewrite X, beqb_refl in EB. discriminate.
Qed.
Lemma parts_asis fuel ps : forall cur cont s s' d, match_parts fi false fuel ps cur cont s = FDone s' (inl d) ->
  s' = s /\ d = cur /\ Forall (fun e => ~ In (de_name e) ps) cont.
Proof.
  induction ps as [|p ps IH]; intros cur cont s s' d E.
  - cbn in E. injection E as <- <-. split; [reflexivity|]. split; [reflexivity|]. apply Forall_forall. intros e _ [].
  - cbn [match_parts] in E. unfold ftry, fbind in E. destruct (match_entries fi false fuel p cont cur cont s) as [s1 [r|er]|s1|s1] eqn:EM; try discriminate.
    apply entries_asis in EM as (-> & -> & HN). cbn [fst snd] in E. apply IH in E as (A & B & C). split; [exact A|]. split; [exact B|].
    rewrite Forall_forall in *. intros e He [X|X]; [now apply (HN e He)|now apply (C e He)].
Qed.
Lemma resolve_asis fuel path s s' d : resolvePath fi false fuel path s = FDone s' (inl d) -> d = zero_dirent /\ x_log s' = x_log s.
Proof.
  unfold resolvePath. destruct (SplitList (clean path)) as [|p ps]; [discriminate|]. unfold fbind, list_root.
  destruct (fi_root fi (x_fs s)) as [fs [l|e]].
  - intros E. apply parts_asis in E as (-> & -> & _). auto.
  - intros E. injection E as <- <-. auto.
Qed.
Lemma resolve_root_fails rep fuel path s e : snd (fi_root fi (x_fs s)) = inr e -> SplitList (clean path) <> [] ->
  resolvePath fi rep fuel path s = FDone (mkFs (fst (fi_root fi (x_fs s))) (x_log s)) (inl zero_dirent).
Proof.
  intros Er Hp. unfold resolvePath. destruct (SplitList (clean path)) as [|p ps]; [congruence|]. unfold fbind, list_root. destruct (fi_root fi (x_fs s)) as [fs r]. cbn in Er. rewrite Er. reflexivity.
Qed.
Lemma split_nonempty l : split_colon l <> [].
Proof. induction l as [|c l IH]; [discriminate|]. cbn. destruct (c =? 58); [discriminate|]. destruct (split_colon l); discriminate. Qed.
Lemma split_one_colon l : ~ In 58 l -> split_colon l = [l].
Proof.
  induction l as [|c l IH]; intros H; [reflexivity|]. cbn [split_colon]. destruct (c =? 58) eqn:E; [destruct H; left; lia|]. rewrite IH; [reflexivity|]. intros X. apply H. now right.
Qed.
Lemma clean_nonempty p : clean p <> [].
Proof.
  unfold clean. destruct p as [|c p]; [discriminate|]. cbv zeta. match goal with |- (if zlen ?r =? 0 then _ else _) <> _ => set (ro := r) end. destruct (zlen ro =? 0) eqn:E; [discriminate|].
  intros X. apply (f_equal (@length Z)) in X. rewrite rev_length in X. cbn in X. unfold zlen in E. lia.
Qed.
Lemma SplitList_clean p : SplitList (clean p) <> [].
Proof. unfold SplitList. destruct (clean p) eqn:E; [now apply clean_nonempty in E|]. apply split_nonempty. Qed.
Lemma SplitList_one p : ~ In 58 (clean p) -> SplitList (clean p) = [clean p].
Proof. intros H. unfold SplitList. destruct (clean p) eqn:E; [now apply clean_nonempty in E|]. now apply split_one_colon. Qed.
Lemma entries_skip rep fuel comp es : forall cur cont s, Forall (fun e => de_name e <> comp) es -> match_entries fi rep fuel comp es cur cont s = FDone s (inl (cur, cont)).
Proof.
  induction es as [|e es IH]; intros cur cont s H; [reflexivity|]. inversion H; subst. cbn [match_entries]. rewrite beqb_neq by assumption. now apply IH.
Qed.
Lemma entries_app rep fuel comp es es' : forall cur cont s, Forall (fun e => de_name e <> comp) es -> match_entries fi rep fuel comp (es ++ es') cur cont s = match_entries fi rep fuel comp es' cur cont s.
Proof.
  induction es as [|e es IH]; intros cur cont s H; [reflexivity|]. inversion H; subst. cbn [match_entries app]. rewrite beqb_neq by assumption. now apply IH.
Qed.
(* looking up a path without ':' in the root listing l *)
Lemma resolve_one rep fuel path s fs l : ~ In 58 (clean path) -> fi_root fi (x_fs s) = (fs, inl l) ->
  resolvePath fi rep fuel path s = (r <~? match_entries fi rep fuel (clean path) l zero_dirent l ;; fret (inl (fst r))) (mkFs fs (x_log s)).
Proof.
  intros Hc Er. unfold resolvePath. rewrite SplitList_one by exact Hc. unfold fbind at 1, list_root. rewrite Er. cbn [match_parts]. reflexivity.
Qed.
Lemma resolve_missing rep fuel path s fs l : ~ In 58 (clean path) -> fi_root fi (x_fs s) = (fs, inl l) -> Forall (fun e => de_name e <> clean path) l ->
  resolvePath fi rep fuel path s = FDone (mkFs fs (x_log s)) (inl zero_dirent).
Proof. intros Hc Er Hn. rewrite (resolve_one rep fuel path s fs l Hc Er). unfold ftry, fbind. rewrite entries_skip by exact Hn. reflexivity. Qed.
Lemma resolve_file rep fuel path s fs l1 e l2 : ~ In 58 (clean path) -> fi_root fi (x_fs s) = (fs, inl (l1 ++ e :: l2)) -> Forall (fun x => de_name x <> clean path) l1 ->
  de_name e = clean path -> de_is_dir e = false ->
  resolvePath fi rep fuel path s = FDone (mkFs fs (x_log s)) (inr (K ErrNotADirectory)).
Proof.
  intros Hc Er Hn He Hd. rewrite (resolve_one rep fuel path s fs _ Hc Er). unfold ftry, fbind. rewrite entries_app by exact Hn. cbn [match_entries]. rewrite (proj2 (beqb_eq _ _)) by exact He.
  unfold ftry, fbind, readDirFromDirent. rewrite Hd. reflexivity.
Qed.
(* whatever is found is a directory whose name is a component of the path *)
Lemma entries_found rep fuel comp es : forall cur cont s s' r, match_entries fi rep fuel comp es cur cont s = FDone s' (inl r) ->
  fst r = cur \/ (In (fst r) es /\ de_name (fst r) = comp /\ de_is_dir (fst r) = true).
Proof.
  induction es as [|e es IH]; intros cur cont s s' r E; [cbn in E; injection E as <- <-; now left|]. cbn [match_entries] in E. destruct (beqb (de_name e) comp) eqn:EB.
  - unfold ftry, fbind in E. destruct (readDirFromDirent fi rep fuel e s) as [s1 [l|er]|s1|s1] eqn:ER; try discriminate.
    assert (de_is_dir e = true) as HD by (unfold readDirFromDirent in ER; destruct (de_is_dir e); [reflexivity|discriminate]). apply beqb_eq in EB.
    apply IH in E as [E|(A & B & C)]; right; [rewrite E; split; [now left|auto]|split; [now right|auto]].
  - apply IH in E as [E|(A & B & C)]; [now left|right; split; [now right|auto]].
Qed.
Lemma parts_found rep fuel ps : forall cur cont s s' d, match_parts fi rep fuel ps cur cont s = FDone s' (inl d) ->
  d = cur \/ (In (de_name d) ps /\ de_is_dir d = true).
Proof.
  induction ps as [|p ps IH]; intros cur cont s s' d E; [cbn in E; injection E as <- <-; now left|].
  cbn [match_parts] in E. unfold ftry, fbind in E. destruct (match_entries fi rep fuel p cont cur cont s) as [s1 [r|er]|s1|s1] eqn:EM; try discriminate.
  apply entries_found in EM. apply IH in E. destruct E as [-> |(A & B)]; [|right; split; [now right|exact B]].
  destruct EM as [EM|(_ & A & B)]; [left; exact EM|right; split; [left; now symmetry|exact B]].
Qed.
Lemma resolve_found rep fuel path s s' d : resolvePath fi rep fuel path s = FDone s' (inl d) ->
  d = zero_dirent \/ (In (de_name d) (SplitList (clean path)) /\ de_is_dir d = true).
Proof.
  unfold resolvePath. destruct (SplitList (clean path)) as [|p ps]; [discriminate|]. unfold fbind, list_root.
  destruct (fi_root fi (x_fs s)) as [fs [l|e]]; intros E; [now apply parts_found in E|]. injection E as <- <-. now left.
Qed.
(* a directory of the root with a unique name, when its contents can be read *)
Lemma resolve_dir rep fuel path s fs l1 e l2 s1 cont : ~ In 58 (clean path) -> fi_root fi (x_fs s) = (fs, inl (l1 ++ e :: l2)) ->
  Forall (fun x => de_name x <> clean path) (l1 ++ l2) -> de_name e = clean path -> readDirFromDirent fi rep fuel e (mkFs fs (x_log s)) = FDone s1 (inl cont) ->
  resolvePath fi rep fuel path s = FDone s1 (inl e).
Proof.
  intros Hc Er Hn He Hd. apply Forall_app in Hn as [Hn1 Hn2]. rewrite (resolve_one rep fuel path s fs _ Hc Er). unfold ftry, fbind. rewrite entries_app by exact Hn1. cbn [match_entries]. rewrite (proj2 (beqb_eq _ _)) by exact He.
  unfold ftry, fbind. rewrite Hd. rewrite entries_skip by exact Hn2. reflexivity.
Qed.
End Lookup.

(** ** Clusters on the device *)
Section Device.
Context {F : Type} (fi : fatimpl F).
Variables (b : boot) (disk : list Z) (fs : F).
Hypothesis Hb : fi_boot fi fs = b.
Hypothesis Hd : disk_is fi fs disk.
Notation bps := (BytesPerSector (raw b)).
Notation spc := (SectorsPerCluster (raw b)).
Hypothesis Hbps : 0 <= bps < 2^16.
Hypothesis Hspc : 0 <= spc < 2^8.
Lemma sector_small c : in_range b disk c -> getFirstSectorOfCluster b c = FirstDataSector b + spc * c.
Proof.
  intros (A & B & C & _). unfold getFirstSectorOfCluster. assert (0 <= spc * c) by nia. unfold u32. rewrite (Z.mod_small (spc * c)) by lia. apply Z.mod_small. lia.
Qed.
Lemma read_cluster_ok c log : in_range b disk c -> readCluster fi c (mkFs fs log) = FDone (mkFs fs (log ++ [FvReadAt (code_offset b c) bps])) (inl (slice (code_offset b c) bps disk)).
Proof.
  intros Hr. pose proof Hr as (A & B & C & D). unfold readCluster, readAbsoluteSectors. cbn [x_fs x_log]. rewrite Hb. rewrite sector_small by exact Hr. 
  set (S := FirstDataSector b + spc * c) in *. assert (0 <= S) by (unfold S; nia).
  assert (0 <= bps * S < 2^48) by (split; [nia|]; apply Z.le_lt_trans with (2^16 * S); [nia|lia]).
  assert (0 <= bps * S * spc < 2^56) by (split; [nia|]; apply Z.le_lt_trans with (bps * S * 2^8); [nia|lia]).
  assert (i64 (i64 (bps * S) * spc) = code_offset b c) as ->.
  { unfold i64. rewrite (Z.mod_small (bps * S + _)) by lia. replace (bps * S + 2 ^ 63 - 2 ^ 63) with (bps * S) by lia. rewrite (Z.mod_small (bps * S * spc + _)) by lia. unfold code_offset. fold S. lia. }
  rewrite Hd; [|unfold code_offset; fold S; nia|lia|exact D]. rewrite Z.ltb_irrefl. reflexivity.
Qed.
Lemma sector_len c : in_range b disk c -> zlen (sector_read b disk c) = bps.
Proof. intros (A & B & C & D). unfold sector_read. apply zlen_slice; [|lia|exact D]. unfold code_offset. nia. Qed.
Lemma sectors_len cs : Forall (in_range b disk) cs -> zlen (concat (map (sector_read b disk) cs)) = zlen cs * bps.
Proof. induction cs as [|x cs IH]; intros H; [reflexivity|]. cbn [map concat]. rewrite zlen_app, zlen_cons, IH, sector_len by (first [exact (Forall_inv H)|exact (Forall_inv_tail H)]). lia. Qed.
Hypothesis Hbpc : BytesPerCluster b = bps * spc.
Hypothesis Hpos : 0 < bps * spc <= 2^15.
Lemma clusters_S c cs rem acc log : in_range b disk c -> - 2^62 <= rem < 2^62 ->
  read_clusters fi (c :: cs) rem acc (mkFs fs log) =
    (let s' := mkFs fs (log ++ [FvReadAt (code_offset b c) bps]) in
     if rem <? bps * spc then if (rem <? 0) || (bps <? rem) then FCrash s' else read_clusters fi cs (rem - bps * spc) (acc ++ slice 0 rem (sector_read b disk c)) s'
     else read_clusters fi cs (rem - bps * spc) (acc ++ sector_read b disk c) s').
Proof.
  intros Hr Hrem. cbn [read_clusters]. unfold ftry, fbind at 1. rewrite read_cluster_ok by exact Hr. unfold fbind, pureF. cbn [x_fs]. rewrite Hb, Hbpc.
  assert (i64 (bps * spc) = bps * spc) as -> by (unfold i64; rewrite Z.mod_small; lia). assert (i64 (rem - bps * spc) = rem - bps * spc) as -> by (unfold i64; rewrite Z.mod_small; lia).
  assert (zlen (slice (code_offset b c) bps disk) = bps) as -> by exact (sector_len c Hr). destruct (rem <? bps * spc); [|reflexivity]. unfold sector_read. destruct ((rem <? 0) || _); reflexivity.
Qed.
Lemma spare_crashes cs : forall rem acc log, Forall (in_range b disk) cs -> - 2^61 <= rem < 2^61 -> zlen cs < 2^40 -> rem < (zlen cs - 1) * (bps * spc) -> cs <> [] ->
  exists s', read_clusters fi cs rem acc (mkFs fs log) = FCrash s'.
Proof.
  induction cs as [|c cs IH]; intros rem acc log Hr Hrem Hn Hlt Hne; [congruence|]. pose proof (Forall_inv Hr) as Hr1. pose proof (Forall_inv_tail Hr) as Hr2. rewrite zlen_cons in *. pose proof (zlen_nonneg cs).
  rewrite clusters_S by (try assumption; lia). cbv zeta. destruct (rem <? bps * spc) eqn:E1.
  - destruct ((rem <? 0) || (bps <? rem)) eqn:E2; [eexists; reflexivity|]. assert (cs <> []) by (intros ->; cbn in Hlt; lia).
    assert (0 < zlen cs) by (destruct cs; [congruence|rewrite zlen_cons; pose proof (zlen_nonneg cs); lia]).
    apply IH; [exact Hr2|lia|lia| |assumption]. assert (0 <= (zlen cs - 1) * (bps * spc)) by nia. lia.
  - assert (cs <> []) by (intros ->; cbn in Hlt; lia). apply IH; [exact Hr2|lia|lia|lia|assumption].
Qed.
Lemma one_sector_clusters cs : spc = 1 -> forall rem acc log, Forall (in_range b disk) cs -> cs <> [] -> (zlen cs - 1) * bps < rem <= zlen cs * bps -> zlen cs < 2^40 ->
  exists log', read_clusters fi cs rem acc (mkFs fs log) = FDone (mkFs fs (log ++ log')) (inl (acc ++ slice 0 rem (concat (map (sector_read b disk) cs)))).
Proof.
  intros Hone. induction cs as [|c cs IH]; intros rem acc log Hr Hne Hrem Hn; [congruence|]. pose proof (Forall_inv Hr) as Hr1. pose proof (Forall_inv_tail Hr) as Hr2. rewrite zlen_cons in *. pose proof (zlen_nonneg cs) as HZ. pose proof (sector_len c Hr1) as SL.
  rewrite clusters_S; [|exact Hr1|rewrite Hone in *; assert (zlen cs * bps <= zlen cs * 2^15) by nia; nia]. cbv zeta. rewrite Hone in *. rewrite !Z.mul_1_r in *. cbn [map concat].
  destruct cs as [|c2 cs].
  - cbn [map concat] in *. rewrite app_nil_r. change (zlen (@nil Z)) with 0 in *. destruct (rem <? bps) eqn:E1.
    + assert ((rem <? 0) || (bps <? rem) = false) as -> by lia. cbn [read_clusters fret]. eexists. reflexivity.
    + cbn [read_clusters fret]. eexists. do 3 f_equal. assert (rem = zlen (sector_read b disk c)) as -> by (rewrite SL; lia). unfold slice. cbn [skipn Z.to_nat]. unfold zlen. rewrite Nat2Z.id. now rewrite firstn_all.
  - assert (0 < zlen (c2 :: cs)) by (rewrite zlen_cons; pose proof (zlen_nonneg cs); lia). assert (bps <= rem) as HB by nia. assert (rem <? bps = false) as -> by lia.
    destruct (IH (rem - bps) (acc ++ sector_read b disk c) (log ++ [FvReadAt (code_offset b c) bps]) Hr2) as [log' E]; [discriminate|lia|lia|].
    exists ([FvReadAt (code_offset b c) bps] ++ log'). rewrite E, <- !app_assoc. do 3 f_equal.
    assert (slice 0 rem (sector_read b disk c ++ concat (map (sector_read b disk) (c2 :: cs))) = sector_read b disk c ++ slice 0 (rem - bps) (concat (map (sector_read b disk) (c2 :: cs)))) as ->; [|reflexivity].
    unfold slice. cbn [Z.to_nat skipn]. rewrite firstn_app. rewrite firstn_all2 by (unfold zlen in SL; lia). do 2 f_equal. unfold zlen in SL. lia.
Qed.
Lemma whole_clusters cs : forall rem acc log, Forall (in_range b disk) cs -> rem = zlen cs * (bps * spc) -> zlen cs < 2^40 ->
  exists log', read_clusters fi cs rem acc (mkFs fs log) = FDone (mkFs fs (log ++ log')) (inl (acc ++ concat (map (sector_read b disk) cs))).
Proof.
  induction cs as [|c cs IH]; intros rem acc log Hr Hrem Hn; [exists []; cbn; now rewrite !app_nil_r|]. pose proof (Forall_inv Hr) as Hr1. pose proof (Forall_inv_tail Hr) as Hr2. rewrite zlen_cons in *. pose proof (zlen_nonneg cs) as HZ. subst rem.
  rewrite clusters_S; [|exact Hr1|nia]. cbv zeta. assert ((1 + zlen cs) * (bps * spc) <? bps * spc = false) as -> by nia.
  destruct (IH ((1 + zlen cs) * (bps * spc) - bps * spc) (acc ++ sector_read b disk c) (log ++ [FvReadAt (code_offset b c) bps]) Hr2) as [log' E]; [lia|lia|].
  exists ([FvReadAt (code_offset b c) bps] ++ log'). rewrite E, <- !app_assoc. reflexivity.
Qed.
End Device.

(** ** Remove *)
Lemma free_loop_log {F} (fi : fatimpl F) n : Z.of_nat n < 2^32 -> forall s s', free_loop fi n s = FDone s' (inl tt) ->
  x_log s' = x_log s ++ map (fun i => FvFree (Z.of_nat i)) (rev (seq 0 n)).
Proof.
  induction n as [|n IH]; intros Hn s s' E; [cbn in *; injection E as <-; now rewrite app_nil_r|].
  cbn [free_loop] in E. unfold ftry, fbind, free_cluster, call_ in E. destruct (fi_free fi (x_fs s) (u32 (Z.of_nat n))) as [fs [e|]]; [discriminate|].
  apply IH in E; [|lia]. rewrite E. cbn [x_log]. rewrite seq_S, rev_app_distr. cbn [rev app map Nat.add]. rewrite <- app_assoc. cbn [app]. unfold u32. rewrite Z.mod_small by lia. reflexivity.
Qed.
