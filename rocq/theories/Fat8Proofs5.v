From Verif Require Import GoBase ListZ Errors Flags GoPath GoPathProofs OsFile Fat8 Spec_Fat8 Fat8Proofs Fat8Proofs2 Fat8Proofs3 Fat8Proofs4.

Lemma run_K os : forall d f d' f', Forall op_ok os -> J d f -> Kh d f -> run8 d f os = Ret (d', f') -> J d' f' /\ Kh d' f'.
Proof.
  induction os as [|o os IH]; intros d f d' f' Ho HJ HK; cbn [run8]; [intros [= <- <-]; auto|].
  inversion Ho; subst. destruct (step8 d f o) as [[d1 f1]| |] eqn:E; cbn [obind fst snd]; try discriminate. intros ER.
  pose proof (step_K d f o d1 f1 H1 HJ HK E). apply step_J in E; eauto.
Qed.
Lemma reachable_K d f : reachable_healthy d f -> J d f /\ Kh d f.
Proof. intros (f0 & os & Hh & Ho & Hr). eapply run_K; eauto; [apply J_new|]. split; [exact Hh|]. split; [now left|discriminate]. Qed.
Lemma healthy_reachable d f : reachable_healthy d f -> reachable d f.
Proof. intros (f0 & os & Hh & Ho & Hr). exists f0, os. auto. Qed.

(* nothing panics but a read of absurdly many blocks *)
Lemma step_no_panic d f o : J d f -> match o with OReadBlocks _ c => 0 <= c < 2^50 | _ => True end -> exists r, step8 d f o = Ret r.
Proof.
  intros HJ Ho. destruct HJ as (_ & J2 & _). destruct o; cbn [step8]; try (eexists; reflexivity).
  - destruct (format_no_panic d f size) as [r ->]. cbn. eauto.
  - destruct (mount_no_panic d f) as [r ->]. cbn. eauto.
  - destruct (read_blocks_panic d f start count) as [P1 P2]. specialize (P2 Ho). destruct (read_blocks d f start count); try contradiction. cbn. eauto.
  - unfold read_cluster. destruct (negb _); [cbn; eauto|].
    match goal with |- context [read_blocks d f ?s ?n] => destruct (read_blocks_panic d f s n) as [P1 P2]; destruct (read_blocks d f s n) end; try contradiction; [cbn; eauto|].
    exfalso. apply P2; [|reflexivity]. destruct J2 as [->|HG]; [cbn; lia|geos; cbn; lia].
  - destruct (get_fat_panic d f J2) as [P1 P2]. destruct (get_fat d f); try contradiction. cbn. eauto.
Qed.

(** ** Clusters *)
Lemma write_cluster_spec d f c b : healthy f -> good_geo (geo d) -> 1 <= c <= TotalClusters (geo d) -> zlen b = BytesPerCluster (geo d) ->
  0 <= TotalBlocks (st8 d) < 2^50 -> 128 * TotalBlocks (st8 d) <= zlen (contents f) ->
  let g := geo d in
  if (2 * (c - 1) + 1) * SectorsPerCluster g <=? TotalBlocks (st8 d)
  then write_cluster d f c b = (mkFile (splice (128 * ((2 * c - 1 - 1) * SectorsPerCluster g)) b (contents f)) [], None)
  else exists e, write_cluster d f c b = (f, Some e).
Proof.
  intros Hh HG Hc Hb Ht Hl g. assert (SectorsPerTrack g = 2 * SectorsPerCluster g /\ BytesPerCluster g = 128 * SectorsPerCluster g /\ 0 < SectorsPerCluster g <= 13 /\ TotalClusters g <= 146) as (G1 & G2 & G3 & G4).
  { subst g. clear -HG. geos; vm_compute; intuition congruence. }
  fold g in Hc, Hb. unfold write_cluster, valid_cluster. fold g. replace ((c >=? 1) && (c <=? TotalClusters g)) with true by lia. cbn [negb].
  rewrite Hb, i64_id8 by lia. rewrite Z.eqb_refl. cbn [negb]. rewrite (u64_id (c - 1)) by lia. rewrite (u64_id ((c - 1) * SectorsPerTrack g)) by nia.
  assert (uint ((c - 1) * SectorsPerTrack g)) as Hu by (unfold uint; nia).
  destruct (write_blocks_cases d f ((c - 1) * SectorsPerTrack g) b Hh Hu ltac:(lia) Ht Hl) as [(n & Hn & Hle & E)|(Hgt & e & E)].
  - assert (n = SectorsPerCluster g) by lia. subst n. replace ((2 * (c - 1) + 1) * SectorsPerCluster g <=? TotalBlocks (st8 d)) with true by nia. rewrite E.
    do 3 f_equal. rewrite G1. ring.
  - specialize (Hgt (SectorsPerCluster g) ltac:(lia)). replace ((2 * (c - 1) + 1) * SectorsPerCluster g <=? TotalBlocks (st8 d)) with false by nia. eauto.
Qed.
Lemma read_cluster_in d f c : healthy f -> good_geo (geo d) -> 1 <= c <= TotalClusters (geo d) -> TotalBlocks (st8 d) < 2^50 ->
  c * SectorsPerCluster (geo d) < TotalBlocks (st8 d) -> 128 * (c * SectorsPerCluster (geo d)) <= zlen (contents f) ->
  read_cluster d f c = Ret (f, inl (cluster_of (geo d) f c)).
Proof.
  intros Hh HG Hc Ht Ht2 Hl. set (g := geo d) in *. assert (0 < SectorsPerCluster g <= 13 /\ TotalClusters g <= 146) as (G3 & G4) by (clear -HG; geos; vm_compute; intuition congruence).
  unfold read_cluster, valid_cluster. fold g. replace ((c >=? 1) && (c <=? TotalClusters g)) with true by lia. cbn [negb].
  rewrite (u64_id (c - 1)) by lia. rewrite (u64_id ((c - 1) * SectorsPerCluster g)) by nia. apply read_blocks_in; try assumption; nia.
Qed.
Lemma read_cluster_out d f c : good_geo (geo d) -> 1 <= c <= TotalClusters (geo d) -> TotalBlocks (st8 d) <= c * SectorsPerCluster (geo d) ->
  read_cluster d f c = Ret (f, inr err_read_past_end).
Proof.
  intros HG Hc Ht2. set (g := geo d) in *. assert (0 < SectorsPerCluster g <= 13 /\ TotalClusters g <= 146) as (G3 & G4) by (clear -HG; geos; vm_compute; intuition congruence).
  unfold read_cluster, valid_cluster. fold g. replace ((c >=? 1) && (c <=? TotalClusters g)) with true by lia. cbn [negb].
  rewrite (u64_id (c - 1)) by lia. rewrite (u64_id ((c - 1) * SectorsPerCluster g)) by nia. unfold read_blocks. rewrite u64_id by nia.
  now replace (_ >=? TotalBlocks (st8 d)) with true by nia.
Qed.
Lemma cluster_splice g f c c' b : 0 < SectorsPerCluster g -> 1 <= c -> 1 <= c' -> zlen b = 128 * SectorsPerCluster g ->
  128 * (c * SectorsPerCluster g) <= zlen (contents f) -> 128 * (c' * SectorsPerCluster g) <= zlen (contents f) ->
  cluster_of g (mkFile (splice (128 * ((c - 1) * SectorsPerCluster g)) b (contents f)) []) c' = if c =? c' then b else cluster_of g f c'.
Proof.
  intros Hs Hc Hc' Hb Hl Hl'. unfold cluster_of, blocks_of. cbn [contents]. destruct (c =? c') eqn:E.
  - replace c' with c by lia. rewrite <- Hb. apply slice_splice_same; nia.
  - apply slice_splice_disj; nia.
Qed.

(** ** The free list *)
Lemma free_from_spec ft : forall i x, 0 <= i -> i + zlen ft <= 255 -> In x (free_from i ft) <-> exists j, 0 <= j < zlen ft /\ znth 0 ft j = 255 /\ x = i + j + 1.
Proof.
  induction ft as [|c ft IH]; intros i x Hi Hl.
  - cbn [free_from]. split; [intros []|]. intros (j & Hj & _). change (zlen (@nil Z)) with 0 in Hj. lia.
  - rewrite zlen_cons in Hl. pose proof (zlen_nonneg ft) as Hn. cbn [free_from].
    assert (In x (free_from (i + 1) ft) <-> exists j, 0 <= j < zlen ft /\ znth 0 ft j = 255 /\ x = i + 1 + j + 1) as IH1 by (apply IH; lia).
    assert ((exists j, 0 <= j < zlen (c :: ft) /\ znth 0 (c :: ft) j = 255 /\ x = i + j + 1) <-> (c = 255 /\ x = i + 1) \/ (exists j, 0 <= j < zlen ft /\ znth 0 ft j = 255 /\ x = i + 1 + j + 1)) as HE.
    { rewrite zlen_cons. split.
      - intros (j & Hj & Hv & ->). destruct (Z.eq_dec j 0) as [->|Hne]; [left; rewrite znth_cons_0 in Hv; split; [exact Hv|lia]|].
        right. exists (j - 1). rewrite znth_cons_S in Hv by lia. split; [lia|]. split; [exact Hv|lia].
      - intros [[-> ->]|(j & Hj & Hv & ->)]; [exists 0; split; [lia|]; split; [reflexivity|lia]|]. exists (j + 1). split; [lia|]. rewrite znth_cons_S by lia. replace (j + 1 - 1) with j by lia. split; [exact Hv|lia]. }
    rewrite HE. destruct (c =? 255) eqn:E.
    + cbn [In]. rewrite IH1. unfold u8. rewrite Z.mod_small by lia. split; (intros [H|H]; [left|right; exact H]); lia.
    + rewrite IH1. split; [auto|]. intros [[-> _]|H]; [lia|exact H].
Qed.
Lemma free_from_app a b i : free_from i (a ++ b) = free_from i a ++ free_from (i + zlen a) b.
Proof.
  revert i. induction a as [|c a IH]; intros i; [cbn; now rewrite Z.add_0_r|]. rewrite zlen_cons. cbn [free_from app]. rewrite IH.
  replace (i + (1 + zlen a)) with (i + 1 + zlen a) by lia. now destruct (c =? 255).
Qed.
Lemma free_from_nodup ft : forall i, 0 <= i -> i + zlen ft <= 256 -> NoDup (free_from i ft) /\ forall x, In x (free_from i ft) -> x = 0 \/ i < x.
Proof.
  induction ft as [|c ft IH]; intros i Hi Hl; [cbn; split; [constructor|tauto]|]. rewrite zlen_cons in Hl. pose proof (zlen_nonneg ft). cbn [free_from].
  destruct (IH (i + 1) ltac:(lia) ltac:(lia)) as [I1 I2]. destruct (c =? 255).
  - unfold u8 at 1 2. split.
    + constructor; [|exact I1]. intros HI. destruct (Z.eq_dec i 255) as [->|Hne].
      * assert (zlen ft = 0) as E by lia. apply zlen_zero_nil in E. subst ft. destruct HI.
      * rewrite Z.mod_small in HI by lia. apply I2 in HI. lia.
    + intros x [<-|HI]; [|apply I2 in HI; lia]. destruct (Z.eq_dec i 255) as [->|Hne]; [left; reflexivity|right; rewrite Z.mod_small by lia; lia].
  - split; [exact I1|]. intros x HI. apply I2 in HI. lia.
Qed.
(* cluster numbers that a FAT of one or two sectors lists as free *)
Lemma free_list_valid ft c : zlen ft <= 256 -> 1 <= c < 256 -> In c (free_from 0 ft) <-> c <= zlen ft /\ znth 0 ft (c - 1) = 255.
Proof.
  intros Hl Hc. pose proof (zlen_nonneg ft) as Hn. destruct (Z.le_gt_cases (zlen ft) 255) as [Hs|Hs].
  - rewrite free_from_spec by lia. split; [intros (j & Hj & Hv & ->); replace (0 + j + 1 - 1) with j by lia; split; [lia|exact Hv]|]. intros [H1 H2]. exists (c - 1). split; [lia|]. split; [exact H2|lia].
  - assert (zlen ft = 256) as E by lia. rewrite <- (firstn_skipn (Z.to_nat 255) ft) at 1. rewrite free_from_app, in_app_iff.
    assert (zlen (firstn (Z.to_nat 255) ft) = 255) as E1 by (apply zlen_firstn; lia). rewrite E1, free_from_spec by (rewrite ?E1; lia).
    assert (zlen (skipn (Z.to_nat 255) ft) = 1) as E2 by (rewrite zlen_skipn; lia).
    assert (~ In c (free_from (0 + 255) (skipn (Z.to_nat 255) ft))) as HX.
    { destruct (skipn (Z.to_nat 255) ft) as [|y [|y' rest]] eqn:Ey; [intros []| |rewrite !zlen_cons in E2; pose proof (zlen_nonneg rest); lia].
      cbn [free_from]. destruct (y =? 255); [|intros []]. intros [X|[]]. vm_compute in X. lia. }
    rewrite E1. split.
    + intros [(j & Hj & Hv & ->)|X]; [|contradiction]. replace (0 + j + 1 - 1) with j by lia. rewrite znth_firstn in Hv by lia. split; [lia|exact Hv].
    + intros [H1 H2]. left. exists (c - 1). rewrite znth_firstn by lia. split; [lia|]. split; [exact H2|lia].
Qed.
