(** * FatProofs4: broken chains, timestamps, directory clusters, ReadFile, Remove, cluster locations *)
From Coq Require Import String.
From Verif Require Import GoBase ListZ Errors Flags GoPath Spec_Path GoPathProofs BlockCache BasicStream Driver FatBoot FatDirent FatDriver Spec_Fat FatProofs FatProofs2 FatProofs3.
Local Open Scope fat_scope.

Section Chains.
Context {F : Type} (fi : fatimpl F).
Variables (next : Z -> Z) (valid eoc : Z -> bool) (s : fstate F).
Hypothesis HF : fat_is fi (x_fs s) next valid eoc.
Lemma loop_broken c cs : broken next valid eoc c cs -> forall acc f, (length cs <= f)%nat ->
  chain_loop fi f c acc s = FDone s (acc ++ cs, Some (K ErrFileSystemCorrupted)).
Proof.
  induction 1 as [c He Hv Hn|c cs He Hv Hn Hb IH]; intros acc f Hf; (destruct f as [|f]; [cbn in Hf; lia|]); rewrite (loop_S fi next valid eoc s HF), He, Hv; [reflexivity|].
  rewrite IH by (cbn in Hf; lia). now rewrite <- app_assoc.
Qed.
Lemma nth_broken c cs : broken next valid eoc c cs -> forall i,
  nth_loop fi i c s = FDone s (match nth_error cs i with Some x => inl x | None => inr (K ErrFileSystemCorrupted) end).
Proof.
  induction 1 as [c He Hv Hn|c cs He Hv Hn Hb IH]; intros i; (destruct i as [|i]; [reflexivity|]); rewrite (nth_S fi next valid eoc s HF), Hn, Hv; [now destruct i|]. cbn [nth_error]. apply IH.
Qed.
End Chains.

(** ** Timestamps *)
Lemma last_snoc_ (l : list Z) x d : last (l ++ [x]) d = x.
Proof. induction l as [|a l IH]; [reflexivity|]. cbn [app last]. destruct (l ++ [x]) eqn:E; [now destruct l|exact IH]. Qed.
Lemma last_set_snoc epoch ts t init : last_set epoch (ts ++ [t]) init = if t <? epoch then last_set epoch ts init else t.
Proof.
  unfold last_set. rewrite filter_app. cbn [filter]. destruct (t <? epoch) eqn:E.
  - assert (epoch <=? t = false) as -> by lia. now rewrite app_nil_r.
  - assert (epoch <=? t = true) as -> by lia. apply last_snoc_.
Qed.
Lemma existsb_snoc {A} (f : A -> bool) l x : existsb f (l ++ [x]) = existsb f l || f x.
Proof. rewrite existsb_app. cbn. now rewrite orb_false_r. Qed.
Lemma run_snoc epoch os o d : run epoch (os ++ [o]) d = fst (run1 epoch o (run epoch os d)).
Proof. unfold run. now rewrite fold_left_app. Qed.
Lemma until_snoc epoch os o : until_deleted epoch (os ++ [o]) =
  if existsb (fun t => epoch <=? t) (times_D os) then until_deleted epoch os
  else until_deleted epoch os ++ (match o with SetD t => if t <? epoch then [o] else [] | _ => [o] end).
Proof.
  induction os as [|a os IH]; [cbn; destruct o; try reflexivity; now destruct (_ <? _)|].
  destruct a as [t|t|t|t]; cbn [app until_deleted times_D flat_map]; try (fold (times_D os); rewrite IH; destruct (existsb _ _); reflexivity).
  fold (times_D os). cbn [existsb]. destruct (t <? epoch) eqn:E.
  - assert (epoch <=? t = false) as -> by lia. cbn [orb]. rewrite IH. destruct (existsb _ _); reflexivity.
  - assert (epoch <=? t = true) as -> by lia. reflexivity.
Qed.
Lemma run_spec epoch os d : de_deleted d = false ->
  let r := run epoch os d in
  f_accessed (de_stat r) = last_set epoch (times_A os) (f_accessed (de_stat d)) /\
  f_modified (de_stat r) = last_set epoch (times_M os) (f_modified (de_stat d)) /\
  f_created (de_stat r) = last_set epoch (times_C (until_deleted epoch os)) (f_created (de_stat d)) /\
  f_deleted (de_stat r) = f_deleted (de_stat d) /\
  de_deleted r = existsb (fun t => epoch <=? t) (times_D os) /\
  de_name r = de_name d /\ de_first r = de_first d /\ de_size r = de_size d /\ f_mode (de_stat r) = f_mode (de_stat d) /\ f_size (de_stat r) = f_size (de_stat d).
Proof.
  intros Hd. cbv zeta. induction os as [|o os IH] using rev_ind; [cbn; auto 12|].
  rewrite run_snoc, until_snoc. unfold times_A, times_M, times_D, times_C in *. rewrite !flat_map_app. cbn [flat_map].
  destruct IH as (A & B & C & D & E & G1 & G2 & G3 & G4 & G5). set (r := run epoch os d) in *.
  assert (HC : forall t, de_deleted r = true -> fst (SetCreatedAt epoch t r) = r) by (intros t X; unfold SetCreatedAt; rewrite X; now destruct (t <? epoch)).
  destruct o as [t|t|t|t]; cbn [run1 flat_map]; rewrite ?app_nil_r, ?last_set_snoc.
  - unfold SetLastAccessedAt. destruct (t <? epoch); cbn [fst set_times de_stat f_accessed f_modified f_created f_deleted de_deleted de_name de_first de_size f_mode f_size]; destruct (existsb _ _); rewrite ?flat_map_app, ?app_nil_r; cbn [flat_map]; rewrite ?app_nil_r; auto 12.
  - unfold SetLastModifiedAt. destruct (t <? epoch); cbn [fst set_times de_stat f_accessed f_modified f_created f_deleted de_deleted de_name de_first de_size f_mode f_size]; destruct (existsb _ _); rewrite ?flat_map_app, ?app_nil_r; cbn [flat_map]; rewrite ?app_nil_r; auto 12.
  - unfold SetCreatedAt. rewrite E. destruct (t <? epoch) eqn:Et.
    + cbn [fst]. destruct (existsb _ _); rewrite ?flat_map_app; cbn [flat_map]; rewrite ?app_nil_r, ?last_set_snoc, ?Et; auto 12.
    + destruct (existsb _ _) eqn:EX; [cbn [fst]; auto 12|].
      cbn [fst set_times de_stat f_accessed f_modified f_created f_deleted de_deleted de_name de_first de_size f_mode f_size]. rewrite flat_map_app. cbn [flat_map]. rewrite app_nil_r, last_set_snoc, Et. auto 12.
  - rewrite existsb_snoc. unfold SetDeletedAt. destruct (t <? epoch) eqn:Et.
    + assert (epoch <=? t = false) as -> by lia. rewrite orb_false_r. cbn [fst]. destruct (existsb _ _); rewrite ?flat_map_app; cbn [flat_map]; rewrite ?app_nil_r; auto 12.
    + assert (epoch <=? t = true) as -> by lia. rewrite orb_true_r, app_nil_r. unfold SetCreatedAt. rewrite Et. cbn [fst set_times de_stat f_accessed f_modified f_created f_deleted de_deleted de_name de_first de_size f_mode f_size].
      destruct (existsb _ _); auto 12.
Qed.

(** ** Decoding slots of a directory cluster *)
Lemma new_dirent_cases bpc r : 0 < i64 bpc ->
  match trim_right (r_name r) with
  | [] => new_dirent true bpc r = Panic
  | c :: _ => if c =? 0 then new_dirent true bpc r = Ret (inr (K ErrNotFound)) else exists d, new_dirent true bpc r = Ret (inl d)
  end.
Proof.
  intros Hb. unfold new_dirent. destruct (timestamp_total (r_mdate r) (r_mtime r) 0) as [t1 E1]. rewrite E1. cbn [obind]. rewrite (proj2 (Z.eqb_neq (i64 bpc) 0)) by lia.
  destruct (timestamp_total (r_cdate r) (r_ctime r) (r_cmillis r)) as [t2 E2].
  assert (exists tc, (if znth 0 (r_name r) 0 =? 229 then Ret unixZero else TimestampFromParts true (r_cdate r) (r_ctime r) (r_cmillis r)) = Ret tc) as [tc E3].
  { destruct (_ =? 229); eauto. }
  rewrite E3. cbn [obind]. unfold DateFromInt. cbn [obind]. destruct (trim_right (r_name r)) as [|c rest]; [reflexivity|]. destruct (c =? 0); [reflexivity|]. eexists. reflexivity.
Qed.
Lemma trim_head c l : c <> 32 -> exists rest, trim_right (c :: l) = c :: rest.
Proof. intros H. cbn [trim_right]. destruct (trim_right l); [|eauto]. rewrite (proj2 (Z.eqb_neq c 32)) by assumption. eauto. Qed.
Lemma trim_cons_nonempty c l : trim_right l <> [] -> trim_right (c :: l) = c :: trim_right l.
Proof. intros H. cbn [trim_right]. destruct (trim_right l); [congruence|reflexivity]. Qed.
Lemma trim_some l : forall j, 0 <= j < zlen l -> znth 0 l j <> 32 -> exists rest, trim_right l = znth 0 l 0 :: rest.
Proof.
  induction l as [|c l IH]; intros j Hj Hn; [cbn in Hj; lia|]. change (znth 0 (c :: l) 0) with c. destruct (Z.eq_dec j 0) as [->|Hj0]; [now apply trim_head|].
  rewrite zlen_cons in Hj. destruct (IH (j - 1)) as [rest E]; [lia| |].
  - unfold znth in *. replace (Z.to_nat j) with (S (Z.to_nat (j - 1))) in Hn by lia. exact Hn.
  - exists (trim_right l). apply trim_cons_nonempty. rewrite E. discriminate.
Qed.
Lemma trim_blank l : (forall j, 0 <= j < zlen l -> znth 0 l j = 32) -> trim_right l = [].
Proof.
  induction l as [|c l IH]; intros H; [reflexivity|]. cbn [trim_right]. rewrite IH.
  - pose proof (H 0 ltac:(rewrite zlen_cons; pose proof (zlen_nonneg l); lia)) as E. cbn in E. rewrite E. reflexivity.
  - intros j Hj. rewrite <- (H (j + 1)) by (rewrite zlen_cons; lia). unfold znth. replace (Z.to_nat (j + 1)) with (S (Z.to_nat j)) by lia. reflexivity.
Qed.
Definition decode_slot (bpc : Z) (b : list Z) : outcome (dirent + kerr) := obind (new_raw_dirent true b) (new_dirent true bpc).
Lemma slot_cases bpc data i : 0 < i64 bpc -> 0 <= i -> 32 * i + 32 <= zlen data ->
  (named data i -> slot_end data i -> decode_slot bpc (slot data i) = Ret (inr (K ErrNotFound))) /\
  (named data i -> ~ slot_end data i -> exists d, decode_slot bpc (slot data i) = Ret (inl d)) /\
  (~ named data i -> decode_slot bpc (slot data i) = Panic).
Proof.
  intros Hb Hi HL. unfold decode_slot, new_raw_dirent. assert (zlen (slot data i) = 32) as L by (unfold slot; rewrite zlen_slice; lia). rewrite L. cbn [Z.ltb negb obind Z.compare Pos.compare Pos.compare_cont].
  match goal with |- context [new_dirent true bpc ?x] => set (r := x) end. pose proof (new_dirent_cases bpc r Hb) as HC.
  assert (r_name r = slice (32 * i) 8 data) as EN. { unfold r. cbn [r_name]. unfold slot. rewrite slice_slice by lia. f_equal. lia. }
  assert (LN : zlen (r_name r) = 8) by (rewrite EN, zlen_slice; lia).
  assert (NZ : forall j, 0 <= j < 8 -> znth 0 (r_name r) j = znth 0 data (32 * i + j)). { intros j Hj. rewrite EN. now rewrite znth_slice by lia. }
  assert (HN : named data i -> exists rest, trim_right (r_name r) = znth 0 data (32 * i) :: rest).
  { intros (j & Hj & Hne). destruct (trim_some (r_name r) j) as [rest E]; [lia|now rewrite NZ|]. exists rest. rewrite E. rewrite NZ by lia. do 2 f_equal. lia. }
  split; [|split].
  - intros Hn He. destruct (HN Hn) as [rest E]. rewrite E in HC. rewrite He in HC. exact HC.
  - intros Hn He. destruct (HN Hn) as [rest E]. rewrite E in HC. unfold slot_end in He. rewrite (proj2 (Z.eqb_neq _ 0) He) in HC. exact HC.
  - intros Hn. rewrite trim_blank in HC; [exact HC|]. intros j Hj. rewrite LN in Hj. rewrite NZ by exact Hj. destruct (Z.eq_dec (znth 0 data (32 * i + j)) 32) as [E|E]; [exact E|]. destruct Hn. exists j. auto.
Qed.
Lemma dirents_list bpc data : forall ds n i, (length ds <= n)%nat -> 0 <= i -> 32 * (i + Z.of_nat n) <= zlen data ->
  (forall k d, nth_error ds k = Some d -> decode_slot bpc (slot data (i + Z.of_nat k)) = Ret (inl d)) ->
  (length ds = n \/ decode_slot bpc (slot data (i + zlen ds)) = Ret (inr (K ErrNotFound))) ->
  dirents_from true true bpc data (32 * i) n = Ret (inl ds).
Proof.
  induction ds as [|d ds IH]; intros n i Hn Hi HL Hd He.
  - destruct n as [|n]; [reflexivity|]. cbn [dirents_from]. assert (zlen data <? 32 * i + 32 = false) as -> by lia. destruct He as [He|He]; [discriminate|].
    unfold decode_slot, slot in He. change (zlen (@nil dirent)) with 0 in He. rewrite Z.add_0_r in He. destruct (new_raw_dirent true (slice (32 * i) 32 data)) as [r| |]; try discriminate. cbn [obind] in *. rewrite He. reflexivity.
  - destruct n as [|n]; [cbn in Hn; lia|]. cbn [dirents_from]. assert (zlen data <? 32 * i + 32 = false) as -> by lia.
    pose proof (Hd O d eq_refl) as E0. unfold decode_slot, slot in E0. cbn [Z.of_nat] in E0. rewrite Z.add_0_r in E0. destruct (new_raw_dirent true (slice (32 * i) 32 data)) as [r| |]; try discriminate. cbn [obind] in *. rewrite E0. cbn [obind].
    replace (32 * i + 32) with (32 * (i + 1)) by lia. rewrite (IH n (i + 1)).
    + reflexivity.
    + cbn in Hn. lia.
    + lia.
    + lia.
    + intros k d' Hk. specialize (Hd (S k) d' Hk). replace (i + 1 + Z.of_nat k) with (i + Z.of_nat (S k)) by lia. exact Hd.
    + destruct He as [He|He]; [left; cbn in He; lia|right]. rewrite zlen_cons in He. replace (i + 1 + zlen ds) with (i + (1 + zlen ds)) by lia. exact He.
Qed.
Lemma dirents_blank bpc data : forall k n i, (k < n)%nat -> 0 <= i -> 32 * (i + Z.of_nat n) <= zlen data ->
  (forall j, (j < k)%nat -> exists d, decode_slot bpc (slot data (i + Z.of_nat j)) = Ret (inl d)) ->
  decode_slot bpc (slot data (i + Z.of_nat k)) = Panic -> dirents_from true true bpc data (32 * i) n = Panic.
Proof.
  induction k as [|k IH]; intros n i Hk Hi HL Hd Hp; (destruct n as [|n]; [lia|]); cbn [dirents_from]; assert (zlen data <? 32 * i + 32 = false) as -> by lia.
  - unfold decode_slot, slot in Hp. cbn [Z.of_nat] in Hp. rewrite Z.add_0_r in Hp. destruct (new_raw_dirent true (slice (32 * i) 32 data)) as [r| |]; [|reflexivity|discriminate]. cbn [obind] in *. rewrite Hp. reflexivity.
  - destruct (Hd O ltac:(lia)) as [d E0]. unfold decode_slot, slot in E0. cbn [Z.of_nat] in E0. rewrite Z.add_0_r in E0. destruct (new_raw_dirent true (slice (32 * i) 32 data)) as [r| |]; try discriminate. cbn [obind] in *. rewrite E0. cbn [obind].
    replace (32 * i + 32) with (32 * (i + 1)) by lia. rewrite (IH n (i + 1)); [reflexivity|lia|lia|lia| |].
    + intros j Hj. destruct (Hd (S j) ltac:(lia)) as [d' E]. exists d'. replace (i + 1 + Z.of_nat j) with (i + Z.of_nat (S j)) by lia. exact E.
    + replace (i + 1 + Z.of_nat k) with (i + Z.of_nat (S k)) by lia. exact Hp.
Qed.

(** ** ReadFile never returns data *)
Lemma read_none {F} (fi : fatimpl F) (Hb : forall fs, 0 < i64 (BytesPerCluster (fi_boot fi fs))) cs : forall rem acc s s' out, rem <= 0 -> read_clusters fi cs rem acc s = FDone s' (inl out) -> out = acc.
Proof.
  induction cs as [|c cs IH]; intros rem acc s s' out Hr E; [cbn in E; injection E as _ <-; reflexivity|].
  cbn [read_clusters] in E. unfold ftry, fbind in E. destruct (readCluster fi c s) as [s1 [data|e]|s1|s1]; try discriminate. unfold pureF in E. set (bpc := i64 (BytesPerCluster (fi_boot fi (x_fs s1)))) in E.
  pose proof (Hb (x_fs s1)) as HB. fold bpc in HB. assert (rem <? bpc = true) as EL by lia. rewrite EL in E. destruct (rem <? 0) eqn:E0; cbn [orb] in E; [discriminate|]. assert (rem = 0) as -> by lia.
  assert (bpc < 2^63) by (unfold bpc, i64; pose proof (Z.mod_pos_bound (BytesPerCluster (fi_boot fi (x_fs s1)) + 2 ^ 63) (2^64) ltac:(lia)); lia).
  destruct (zlen data <? 0); [discriminate|]. apply IH in E.
  - rewrite E. unfold slice. cbn. now rewrite app_nil_r.
  - unfold i64. rewrite Z.mod_small; lia.
Qed.
Lemma read_contents_zero {F} (fi : fatimpl F) (Hb : forall fs, 0 < i64 (BytesPerCluster (fi_boot fi fs))) fuel s s' data : read_contents fi fuel zero_dirent s = FDone s' (inl data) -> data = [].
Proof.
  unfold read_contents. change (de_is_dir zero_dirent) with false. unfold fbind. destruct (listClusters fi fuel (de_first zero_dirent) s) as [s1 [cs [e|]]|s1|s1]; try discriminate. cbn [fst snd]. intros E. apply (read_none fi Hb) in E; [exact E|]. cbn. lia.
Qed.
Lemma readfile_none {F} (fi : fatimpl F) (Hb : forall fs, 0 < i64 (BytesPerCluster (fi_boot fi fs))) rep fuel path s s' data : ReadFile fi rep fuel path s = FDone s' (inl data) -> data = [].
Proof.
  unfold ReadFile, ftry, fbind. destruct (resolvePath fi rep fuel path s) as [s1 [d|e]|s1|s1] eqn:ER; try discriminate. apply resolve_found in ER as [-> |(_ & Hd)].
  - now apply read_contents_zero.
  - unfold read_contents. rewrite Hd. discriminate.
Qed.

(** ** Remove *)
Lemma free_loop_prefix {F} (fi : fatimpl F) n : Z.of_nat n < 2^32 -> forall s s' r, free_loop fi n s = FDone s' r ->
  exists k, (k <= n)%nat /\ x_log s' = x_log s ++ map (fun i => FvFree (Z.of_nat i)) (firstn k (rev (seq 0 n))) /\ (r = inl tt -> k = n).
Proof.
  induction n as [|n IH]; intros Hn s s' r E; [cbn in E; injection E as <- <-; exists O; cbn; rewrite app_nil_r; auto|].
  cbn [free_loop] in E. unfold ftry, fbind, free_cluster, call_ in E. destruct (fi_free fi (x_fs s) (u32 (Z.of_nat n))) as [fs [e|]].
  - injection E as <- <-. exists 1%nat. split; [lia|]. cbn [x_log]. rewrite seq_S, rev_app_distr. cbn [rev app firstn map Nat.add]. unfold u32. rewrite Z.mod_small by lia. split; [reflexivity|discriminate].
  - apply IH in E as (k & Hk & EL & Hr); [|lia]. exists (S k). split; [lia|]. rewrite EL. cbn [x_log]. rewrite seq_S, rev_app_distr. cbn [rev app firstn map Nat.add]. rewrite <- app_assoc. cbn [app]. unfold u32. rewrite Z.mod_small by lia. split; [reflexivity|]. intros X. rewrite (Hr X). reflexivity.
Qed.

(** ** Reading a directory *)
Lemma skipn_cons {A} i : forall (cs l : list A) x, skipn i cs = x :: l -> nth_error cs i = Some x /\ skipn (S i) cs = l.
Proof. induction i as [|i IH]; intros cs l x Ei; [cbn in Ei; subst; auto|]. destruct cs as [|y cs]; [discriminate|]. cbn in *. now apply IH. Qed.
Lemma skipn_nil_nth {A} i : forall cs : list A, skipn i cs = [] -> nth_error cs i = None.
Proof. induction i as [|i IH]; intros cs Ei; [cbn in Ei; subst; auto|]. destruct cs as [|y cs]; [reflexivity|]. cbn in *. now apply IH. Qed.
Section ReadDir.
Context {F : Type} (fi : fatimpl F).
Variables (b : boot) (disk : list Z) (fs : F) (next : Z -> Z) (valid eoc : Z -> bool) (d : dirent) (cs : list Z) (e : Z) (E : Z -> list dirent).
Hypothesis Hb : fi_boot fi fs = b.
Hypothesis Hd : disk_is fi fs disk.
Hypothesis HF : fat_is fi fs next valid eoc.
Hypothesis Hbps : 0 <= BytesPerSector (raw b) < 2^16.
Hypothesis Hspc : 0 <= SectorsPerCluster (raw b) < 2^8.
Hypothesis Hch : chain next eoc (de_first d) cs e.
Hypothesis Hne : cs <> [].
Hypothesis Hv : Forall (fun x => valid x = true) (tl cs).
Hypothesis Hr : Forall (in_range b disk) cs.
Hypothesis HE : Forall (fun c => clusterToDirentSlice true true b (sector_read b disk c) = Ret (inl (E c))) cs.
Lemma read_dir_step fuel i acc log : read_dir_loop fi true (S fuel) d i acc (mkFs fs log) =
  match nth_error cs i with
  | None => FDone (mkFs fs log) (inr (K ErrInvalidArgument))
  | Some c =>
      let s' := mkFs fs (log ++ [FvReadAt (code_offset b c) (BytesPerSector (raw b))]) in
      if zlen (E c) <? DirentsPerCluster b then FDone s' (inl (acc ++ E c)) else read_dir_loop fi true fuel d (S i) (acc ++ E c) s'
  end.
Proof.
  cbn [read_dir_loop]. unfold readClusterOfDirent, getClusterInChain. unfold ftry at 1 2. unfold fbind at 1 2.
  rewrite (nth_chain fi next valid eoc (mkFs fs log) HF _ _ _ Hch i Hne Hv). destruct (nth_error cs i) as [c|] eqn:EN; [|reflexivity].
  assert (In c cs) as HI by (now apply nth_error_In in EN). rewrite (read_cluster_ok fi b disk fs Hb Hd Hbps Hspc c log) by (rewrite Forall_forall in Hr; now apply Hr).
  unfold fbind at 1, pureF. cbn [x_fs]. rewrite Hb. unfold ftry, fbind. rewrite Forall_forall in HE. specialize (HE c HI). unfold sector_read in HE. rewrite HE. cbn [lift fret]. destruct (_ <? _); reflexivity.
Qed.
Lemma read_dir_at pre : forall post i acc log fuel, skipn i cs = pre ++ post -> Forall (fun c => DirentsPerCluster b <= zlen (E c)) pre -> (length pre < fuel)%nat ->
  exists log', match post with
  | [] => read_dir_loop fi true fuel d i acc (mkFs fs log) = FDone (mkFs fs (log ++ log')) (inr (K ErrInvalidArgument))
  | c :: _ => zlen (E c) < DirentsPerCluster b -> read_dir_loop fi true fuel d i acc (mkFs fs log) = FDone (mkFs fs (log ++ log')) (inl (acc ++ concat (map E (pre ++ [c]))))
  end.
Proof.
  induction pre as [|p pre IH]; intros post i acc log fuel Ei Hf Hfuel; (destruct fuel as [|fuel]; [cbn in Hfuel; lia|]).
  - cbn [app map concat]. destruct post as [|c post].
    + exists []. rewrite read_dir_step, (skipn_nil_nth i cs Ei), app_nil_r. reflexivity.
    + exists [FvReadAt (code_offset b c) (BytesPerSector (raw b))]. intros Hlt. rewrite read_dir_step. apply skipn_cons in Ei as [-> _]. cbv zeta. rewrite (proj2 (Z.ltb_lt _ _) Hlt), app_nil_r. reflexivity.
  - pose proof (Forall_inv Hf) as Hf1. pose proof (Forall_inv_tail Hf) as Hf2. cbn [app] in Ei. apply skipn_cons in Ei as [EN ES].
    destruct (IH post (S i) (acc ++ E p) (log ++ [FvReadAt (code_offset b p) (BytesPerSector (raw b))]) fuel ES Hf2 ltac:(cbn in Hfuel; lia)) as [log' EL].
    exists ([FvReadAt (code_offset b p) (BytesPerSector (raw b))] ++ log'). destruct post as [|c post]; [|intros Hlt; specialize (EL Hlt)]; rewrite read_dir_step, EN; cbv zeta; rewrite (proj2 (Z.ltb_ge _ _) Hf1), EL, <- !app_assoc; reflexivity.
Qed.
End ReadDir.

(** ** Repetition *)
Lemma repeats_gen (next : Z -> Z) (P : Z -> bool) (N : nat) c : (forall x, P x = true -> 0 <= x < Z.of_nat N) -> (forall j, (j <= N)%nat -> P (iter next j c) = true) ->
  exists i p, (0 < p)%nat /\ (i + p <= N)%nat /\ iter next (p + i) c = iter next i c.
Proof.
  intros HP Hin. set (l := map (fun i => iter next i c) (seq 0 (S N))).
  assert (Forall (fun x => 0 <= x < Z.of_nat N) l) as Hr.
  { apply Forall_forall. intros x Hx. apply in_map_iff in Hx as (i & <- & Hi). apply in_seq in Hi. apply HP, Hin. lia. }
  destruct (ListDec.NoDup_dec Z.eq_dec l) as [Hnd|Hnd].
  - exfalso. assert (length l <= length (map Z.of_nat (seq 0 N)))%nat as HL.
    { apply NoDup_incl_length; [exact Hnd|]. intros x Hx. rewrite Forall_forall in Hr. apply Hr in Hx. apply in_map_iff. exists (Z.to_nat x). split; [lia|]. apply in_seq. lia. }
    unfold l in HL. rewrite !map_length, !seq_length in HL. lia.
  - assert (forall m, ~ NoDup (map (fun i => iter next i c) (seq 0 m)) -> exists i j, (i < j < m)%nat /\ iter next i c = iter next j c) as Dup.
    { clear. induction m as [|m IH]; intros Hnd; [destruct Hnd; constructor|]. rewrite seq_S, map_app in Hnd. cbn in Hnd.
      destruct (ListDec.NoDup_dec Z.eq_dec (map (fun i => iter next i c) (seq 0 m))) as [H1|H1].
      - destruct (in_dec Z.eq_dec (iter next m c) (map (fun i => iter next i c) (seq 0 m))) as [H2|H2].
        + apply in_map_iff in H2 as (i & E & Hi). apply in_seq in Hi. exists i, m. split; [lia|exact E].
        + exfalso. apply Hnd. apply NoDup_app_snoc_; assumption.
      - destruct (IH H1) as (i & j & Hij & E). exists i, j. split; [lia|exact E]. }
    destruct (Dup _ Hnd) as (i & j & Hij & E). exists i, (j - i)%nat. split; [lia|]. split; [lia|]. replace (j - i + i)%nat with j by lia. now symmetry.
Qed.
Lemma periodic next c i p : (0 < p)%nat -> iter next (p + i) c = iter next i c -> forall j, exists j', (j' < i + p)%nat /\ iter next j c = iter next j' c.
Proof.
  intros Hp E j. induction j as [|j (j' & Hj & IH)]; [exists O; split; [lia|reflexivity]|]. cbn [iter]. rewrite IH. change (next (iter next j' c)) with (iter next (S j') c).
  destruct (Nat.eq_dec (S j') (i + p)) as [E'|]; [|exists (S j'); split; [lia|reflexivity]]. exists i. split; [lia|]. rewrite E', Nat.add_comm. exact E.
Qed.

(** ** Logs *)
Lemma chain_log {F} (fi : fatimpl F) fuel : forall c acc s s' r, chain_loop fi fuel c acc s = FDone s' r -> x_log s' = x_log s.
Proof.
  induction fuel as [|f IH]; intros c acc s s' r E; [discriminate|]. cbn [chain_loop] in E. unfold fbind, pureF in E. destruct (fi_eoc fi (x_fs s) c); [injection E as <- _; reflexivity|].
  unfold get_cluster in E. destruct (fi_get fi (x_fs s) c) as [fs [n|e]]; cbn [x_fs x_log] in E; [|injection E as <- _; reflexivity].
  destruct (fi_valid fi fs n); [apply IH in E; exact E|injection E as <- _; reflexivity].
Qed.
Lemma list_log {F} (fi : fatimpl F) fuel c s s' r : listClusters fi fuel c s = FDone s' r -> x_log s' = x_log s.
Proof. unfold listClusters, fbind, pureF. destruct (fi_valid fi (x_fs s) c); [apply chain_log|]. intros E. injection E as <- _. reflexivity. Qed.
Lemma free_loop_frees {F} (fi : fatimpl F) n : forall s s' r, free_loop fi n s = FDone s' r -> exists frees, x_log s' = x_log s ++ map FvFree frees.
Proof.
  induction n as [|n IH]; intros s s' r E; [cbn in E; injection E as <- _; exists []; now rewrite app_nil_r|]. cbn [free_loop] in E. unfold ftry, fbind, free_cluster, call_ in E.
  destruct (fi_free fi (x_fs s) (u32 (Z.of_nat n))) as [fs [e|]]; [injection E as <- _; exists [u32 (Z.of_nat n)]; reflexivity|]. apply IH in E as [fr E]. exists (u32 (Z.of_nat n) :: fr). rewrite E. cbn [x_log map]. now rewrite <- app_assoc.
Qed.
Lemma dirents_short bpc data : forall k n i, (k < n)%nat -> 0 <= i -> 32 * (i + Z.of_nat k) <= zlen data < 32 * (i + Z.of_nat k) + 32 ->
  (forall j, (j < k)%nat -> exists d, decode_slot bpc (slot data (i + Z.of_nat j)) = Ret (inl d)) -> dirents_from true true bpc data (32 * i) n = Panic.
Proof.
  induction k as [|k IH]; intros n i Hk Hi HL Hd; (destruct n as [|n]; [lia|]); cbn [dirents_from].
  - assert (zlen data <? 32 * i + 32 = true) as -> by lia. reflexivity.
  - assert (zlen data <? 32 * i + 32 = false) as -> by lia. destruct (Hd O ltac:(lia)) as [d E0]. unfold decode_slot, slot in E0. cbn [Z.of_nat] in E0. rewrite Z.add_0_r in E0. destruct (new_raw_dirent true (slice (32 * i) 32 data)) as [r| |]; try discriminate. cbn [obind] in *. rewrite E0. cbn [obind].
    replace (32 * i + 32) with (32 * (i + 1)) by lia. rewrite (IH n (i + 1)); [reflexivity|lia|lia|lia|].
    intros j Hj. destruct (Hd (S j) ltac:(lia)) as [d' E]. exists d'. replace (i + 1 + Z.of_nat j) with (i + Z.of_nat (S j)) by lia. exact E.
Qed.
