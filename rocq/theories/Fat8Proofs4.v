From Verif Require Import GoBase ListZ Errors Flags GoPath GoPathProofs OsFile Fat8 Spec_Fat8 Fat8Proofs Fat8Proofs2 Fat8Proofs3.

Lemma fill_any d : forall n f i f' e, fill_sectors d f i n = (f', e) -> zlen (contents f) <= zlen (contents f') /\ (faults f = [] -> faults f' = []).
Proof.
  induction n as [|n IH]; intros f i f' e; cbn [fill_sectors]; [intros [= <- <-]; split; [lia|tauto]|].
  destruct (write_blocks d f i (zrepeat 255 128)) as [f1 [e1|]] eqn:E1; apply write_blocks_any in E1.
  - intros [= <- <-]. exact E1.
  - intros E. apply IH in E. destruct E1, E. split; [lia|auto].
Qed.
Lemma format_any d f size d' f' e : format8 d f size = Ret (d', f', e) ->
  (d' = d /\ f' = f /\ e <> None) \/
  (isMounted d = false /\ isMounted d' = false /\ (dirents d' = dirents d /\ fat d' = fat d) /\ good_geo (geo d') /\ get_geometry (TotalBlocks (st8 d')) = inl (geo d') /\ (faults f = [] -> faults f' = [])).
Proof.
  unfold format8. destruct (isMounted d) eqn:Hm; [intros [= <- <- <-]; left; repeat split; discriminate|].
  destruct (negb _); [intros [= <- <- <-]; left; repeat split; discriminate|].
  destruct (get_geometry (u64 size / 128)) as [g|ge] eqn:Hg; [|intros [= <- <- <-]; left; repeat split; discriminate].
  intros E. right. set (d1 := mkD8 g _ _ _ _ _ _) in E.
  assert (forall f1 e1, f_truncate f (i64 (u64 (u64 (128 * TrueTotalTracks g) * SectorsPerTrack g))) = (f1, e1) -> faults f = [] -> faults f1 = []) as HT.
  { intros f1 e1. unfold f_truncate, syscall. destruct (faults f) as [|[k|] rest] eqn:EF.
    - destruct (_ <? 0); intros [= <- <-] _; cbn; auto.
    - discriminate.
    - discriminate. }
  destruct (f_truncate f _) as [f1 e1]. specialize (HT f1 e1 eq_refl).
  destruct (fill_sectors d1 f1 _ _) as [f2 [e2|]] eqn:EF; apply fill_any in EF; destruct EF as [_ EF].
  { injection E as <- <- <-. cbn. repeat split; auto. now apply get_geo_good in Hg. }
  destruct (write_blocks d1 f2 _ _) as [f3 [e3|]] eqn:EW; apply write_blocks_any in EW; destruct EW as [_ EW].
  { injection E as <- <- <-. cbn. repeat split; auto. now apply get_geo_good in Hg. }
  destruct (zlen _ <=? _); [discriminate|]. destruct (write_blocks d1 f3 _ _) as [f4 e4] eqn:E4; apply write_blocks_any in E4; destruct E4 as [_ E4].
  injection E as <- <- <-. cbn. repeat split; auto. now apply get_geo_good in Hg.
Qed.
Lemma format_no_panic d f size : exists r, format8 d f size = Ret r.
Proof.
  unfold format8. destruct (isMounted d); [eauto|]. destruct (negb _); [eauto|]. destruct (get_geometry (u64 size / 128)) as [g|ge] eqn:Hg; [|eauto].
  apply get_geo_good in Hg. destruct (f_truncate _ _) as [f1 e1]. destruct (fill_sectors _ _ _ _) as [f2 [e2|]]; [eauto|].
  destruct (write_blocks _ f2 _ _) as [f3 [e3|]]; [eauto|]. replace (zlen _ <=? _) with false by (geos; reflexivity). destruct (write_blocks _ f3 _ _). eauto.
Qed.

Lemma mount_any d f d' f' e : mount8 d f = Ret (d', f', e) -> J d f ->
  contents f' = contents f /\ (faults f = [] -> faults f' = []) /\ st8 d' = st8 d /\ J d' f' /\
  (e = None <-> (isMounted d = false /\ isMounted d' = true)) /\
  (e <> None -> isMounted d' = isMounted d) /\
  (isMounted d' = true -> isMounted d = false -> get_geometry (zlen (contents f) / 128) = inl (geo d') \/ 2^64 <= zlen (contents f)) /\
  (isMounted d = true -> geo d' = geo d).
Proof.
  intros E HJ. pose proof HJ as (J1 & J2 & J3 & J4). unfold mount8 in E. destruct (isMounted d) eqn:Hm.
  { injection E as <- <- <-. repeat split; auto; try discriminate; rewrite ?Hm; try tauto; try discriminate. intros [X _]; congruence. }
  unfold f_size_of in E. destruct (syscall f) as [ft f1] eqn:ES.
  assert (contents f1 = contents f /\ (faults f = [] -> faults f1 = [])) as [S1 S2].
  { unfold syscall in ES. destruct (faults f) eqn:EF; injection ES as <- <-; cbn; split; auto; discriminate. }
  destruct ft.
  { injection E as <- <- <-. split; [exact S1|]. split; [auto|]. split; [reflexivity|]. split; [apply (J_grow d f); [exact HJ|rewrite S1; lia]|]. rewrite Hm. intuition congruence. }
  destruct (get_geometry (u64 (zlen (contents f1)) / 128)) as [g|ge] eqn:Hg.
  2:{ injection E as <- <- <-. split; [exact S1|]. split; [auto|]. split; [reflexivity|]. split; [apply (J_grow d f); [exact HJ|rewrite S1; lia]|]. rewrite Hm. intuition congruence. }
  pose proof (get_geo_good _ _ Hg) as HG.
  destruct (get_fat (with_geo d g) f1) as [[f2 [ftb|ge]]| |] eqn:EG; try discriminate.
  2:{ apply get_fat_any in EG. destruct EG as (T1 & T2 & _). injection E as <- <- <-. cbn [with_geo st8 isMounted geo]. rewrite Hm.
      split; [congruence|]. split; [auto|]. split; [reflexivity|]. split; [|intuition congruence].
      split; [exact J1|]. split; [right; exact HG|]. split; [exact J3|]. cbn [with_geo isMounted]. congruence. }
  apply get_fat_any in EG. destruct EG as (T1 & T2 & T3). destruct (T3 ftb eq_refl HG) as (T4 & T5 & T6). cbn [with_geo geo st8 dflags freeClusters dirents] in *.
  set (d2 := mkD8 g (dflags d) (st8 d) (freeClusters d ++ free_from 0 ftb) ftb false (dirents d)) in *.
  destruct (read_blocks d2 f2 (InfoSectorStart g) 1) as [[f3 [info|ie]]| |] eqn:EI; try discriminate.
  2:{ apply read_blocks_any in EI. destruct EI as (U1 & U2 & _). injection E as <- <- <-. cbn [d2 st8 isMounted geo].
      split; [congruence|]. split; [auto|]. split; [reflexivity|]. split; [|intuition congruence].
      split; [split; [exact (proj1 J1)|cbn [d2 fat]; rewrite T4; clear -HG; geos; vm_compute; discriminate]|]. split; [right; exact HG|]. split; [exact J3|]. discriminate. }
  destruct info as [|b info]; [discriminate|]. apply read_blocks_any in EI. destruct EI as (U1 & U2 & _). injection E as <- <- <-. cbn [st8 isMounted geo].
  split; [congruence|]. split; [auto|]. split; [reflexivity|]. split; [|split; [tauto|split; [congruence|split; [|discriminate]]]].
  - split; [split; [exact (proj1 J1)|cbn [fat]; rewrite T4; clear -HG; geos; vm_compute; discriminate]|]. split; [right; exact HG|]. split; [exact J3|]. cbn [isMounted geo st8 fat]. intros _. repeat split; auto. rewrite U1, T1. exact T6.
  - intros _ _. rewrite S1 in Hg. pose proof (zlen_nonneg (contents f)). destruct (Z.lt_ge_cases (zlen (contents f)) (2^64)); [left|right; lia]. now rewrite u64_id in Hg by lia.
Qed.
Lemma mount_no_panic d f : exists r, mount8 d f = Ret r.
Proof.
  unfold mount8. destruct (isMounted d); [eauto|]. destruct (f_size_of f) as [f1 [off|e]]; [|eauto]. destruct (get_geometry (u64 off / 128)) as [g|ge] eqn:Hg; [|eauto].
  apply get_geo_good in Hg. destruct (get_fat_panic (with_geo d g) f1 (or_intror Hg)) as [P1 P2].
  destruct (get_fat (with_geo d g) f1) as [[f2 [ftb|e]]| |]; [|eauto|contradiction|contradiction].
  match goal with |- context [read_blocks ?d2 f2 ?s 1] => destruct (read_blocks_panic d2 f2 s 1) as [Q1 Q2]; destruct (read_blocks d2 f2 s 1) as [[f3 [info|e]]| |] eqn:EI end;
    [|eauto|exfalso; apply Q2; [lia|reflexivity]|contradiction].
  destruct info; [|eauto]. exfalso. apply read_blocks_any in EI. destruct EI as (_ & _ & H). destruct (H [] eq_refl) as [H1 _]; try lia; try (geos; cbn; lia). discriminate.
Qed.

Lemma step_J d f o d' f' : op_ok o -> J d f -> step8 d f o = Ret (d', f') -> J d' f'.
Proof.
  intros Ho HJ. destruct o; cbn [step8].
  - destruct (format8 d f size) as [[[d1 f1] e]| |] eqn:E; cbn [obind]; try discriminate. intros [= <- <-]. apply format_any in E.
    destruct E as [(-> & -> & _)|(H1 & H2 & H3 & H4 & H5 & _)]; [exact HJ|]. destruct HJ as (J1 & _). destruct H3 as [H3 H6]. split; [rewrite H3, H6; exact J1|]. split; [now right|]. split; [right; eauto|congruence].
  - destruct (mount8 d f) as [[[d1 f1] e]| |] eqn:E; cbn [obind]; try discriminate. intros [= <- <-]. now apply mount_any in E.
  - intros [= <- <-]. unfold flush8, write_fat. destruct (write_blocks _ _ _ _) as [f1 e] eqn:E. apply write_blocks_any in E. cbn. now apply (J_grow d f).
  - intros [= <- <-]. destruct HJ as (J1 & J2 & J3 & _). split; [exact J1|]. split; [exact J2|]. split; [exact J3|]. discriminate.
  - destruct (read_blocks d f start count) as [[f1 e]| |] eqn:E; cbn [obind]; try discriminate. intros [= <- <-]. apply read_blocks_any in E. destruct E as (E & _). apply (J_grow d f); [exact HJ|cbn; rewrite E; lia].
  - intros [= <- <-]. destruct (write_blocks _ _ _ _) as [f1 e] eqn:E. apply write_blocks_any in E. cbn. now apply (J_grow d f).
  - destruct (read_cluster d f c) as [[f1 e]| |] eqn:E; cbn [obind]; try discriminate. intros [= <- <-]. unfold read_cluster in E. destruct (negb _); [injection E as <- <-; exact HJ|].
    apply read_blocks_any in E. destruct E as (E & _). apply (J_grow d f); [exact HJ|cbn; rewrite E; lia].
  - intros [= <- <-]. unfold write_cluster. destruct (negb _); [exact HJ|]. destruct (negb _); [exact HJ|]. destruct (write_blocks _ _ _ _) as [f1 e] eqn:E. apply write_blocks_any in E. cbn. now apply (J_grow d f).
  - destruct (get_fat d f) as [[f1 e]| |] eqn:E; cbn [obind]; try discriminate. intros [= <- <-]. apply get_fat_any in E. destruct E as (E & _). apply (J_grow d f); [exact HJ|cbn; rewrite E; lia].
  - intros [= <- <-]. exact HJ.
Qed.
Lemma run_J os : forall d f d' f', Forall op_ok os -> J d f -> run8 d f os = Ret (d', f') -> J d' f'.
Proof.
  induction os as [|o os IH]; intros d f d' f' Ho HJ; cbn [run8]; [intros [= <- <-]; exact HJ|].
  inversion Ho; subst. destruct (step8 d f o) as [[d1 f1]| |] eqn:E; cbn [obind fst snd]; try discriminate. intros ER. apply step_J in E; eauto.
Qed.
Lemma J_new f : J new_driver f.
Proof. split; [split; [reflexivity|discriminate]|]. split; [now left|]. split; [now left|discriminate]. Qed.
Lemma reachable_J d f : reachable d f -> J d f.
Proof. intros (f0 & os & Ho & Hr). eapply run_J; eauto. apply J_new. Qed.

Lemma write_len d f s b : healthy f -> uint s -> zlen b < 2^63 -> 0 <= TotalBlocks (st8 d) < 2^50 -> 128 * TotalBlocks (st8 d) <= zlen (contents f) ->
  healthy (fst (write_blocks d f s b)) /\ zlen (contents (fst (write_blocks d f s b))) = zlen (contents f).
Proof.
  intros Hh Hs Hb Ht Hl. destruct (write_blocks_cases d f s b Hh Hs Hb Ht Hl) as [(n & Hn & Hle & ->)|(_ & e & ->)]; [|now split].
  split; [reflexivity|]. cbn [fst contents]. apply zlen_splice; unfold uint in *; lia.
Qed.
Lemma zlen_formatted tb g c : get_geometry tb = inl g -> zlen (splice (128 * DirectoryTrackStart g) (new_track g) (resized (128 * tb) c)) = 128 * tb.
Proof.
  intros Hg. pose proof (geometry_facts _ _ Hg) as HF. pose proof (get_geo_good _ _ Hg) as HG. assert (0 <= tb) by (apply get_geo_cases in Hg; lia).
  pose proof (zlen_resized (128 * tb) c ltac:(lia)). pose proof (zlen_new_track g HG).
  assert (DirectoryTrackStart g + SectorsPerTrack g <= tb) by (clear -Hg; apply get_geo_cases in Hg; destruct Hg as [[-> ->]|[[-> ->]|[-> ->]]]; vm_compute; discriminate).
  rewrite zlen_splice; lia.
Qed.
Lemma step_K d f o d' f' : op_ok o -> J d f -> Kh d f -> step8 d f o = Ret (d', f') -> Kh d' f'.
Proof.
  intros Ho HJ HK. pose proof HK as (K1 & K2 & K3). pose proof (J_total d f HJ) as HT. pose proof (zlen_nonneg (contents f)).
  assert (128 * TotalBlocks (st8 d) <= zlen (contents f)) as HL by (destruct K2; lia).
  assert (forall s b, uint s -> zlen b < 2^63 -> Kh d (fst (write_blocks d f s b))) as HW.
  { intros s b Hs Hb. destruct (write_len d f s b K1 Hs Hb ltac:(lia) HL) as [W1 W2]. split; [exact W1|]. split; [|exact K3]. destruct K2; [auto|right; congruence]. }
  assert (forall f1 : osfile, contents f1 = contents f -> (faults f = [] -> faults f1 = []) -> Kh d f1) as HR.
  { intros f1 E1 E2. split; [apply E2, K1|]. split; [|exact K3]. rewrite E1. exact K2. }
  destruct o; cbn [step8].
  - destruct (format_iff d f size K1 Ho) as [(tb & g & -> & Hg & Hm)|(e & -> & _)].
    + rewrite (format_ok d f tb g K1 Hm Hg). cbn [obind fst]. intros [= <- <-]. split; [reflexivity|]. split; [|cbn; discriminate]. right. cbn [formatted st8 TotalBlocks contents].
      apply zlen_formatted; auto.
    + cbn [obind fst]. intros [= <- <-]. exact HK.
  - destruct (mount8 d f) as [[[d1 f1] e]| |] eqn:E; cbn [obind fst]; try discriminate. intros [= <- <-]. apply mount_any in E; [|exact HJ].
    destruct E as (M1 & M2 & M3 & M4 & M5 & M6 & M7 & M8). split; [apply M2, K1|]. rewrite M3, M1. split; [exact K2|]. intros Hm1. destruct (isMounted d) eqn:Hm; [rewrite M8 by reflexivity; now apply K3|].
    destruct (M7 Hm1 eq_refl) as [HG|HG].
    + destruct K2 as [K2|K2]; [|rewrite K2, Z.mul_comm, Z.div_mul in HG by lia; exact HG]. destruct M4 as (_ & _ & _ & M4). destruct (M4 Hm1) as (M9 & M10 & _). exfalso. rewrite M3, K2 in M10. clear -M9 M10. destruct M9 as [E|[E|E]]; rewrite E in M10; vm_compute in M10; congruence.
    + destruct K2 as [K2|K2]; [|lia]. destruct M4 as (_ & _ & _ & M4). destruct (M4 Hm1) as (M9 & M10 & _). exfalso. rewrite M3, K2 in M10. clear -M9 M10. destruct M9 as [E|[E|E]]; rewrite E in M10; vm_compute in M10; congruence.
  - intros [= <- <-]. unfold flush8, write_fat. destruct HJ as ([_ J1] & J2 & _ & J4).
    apply HW; [|rewrite !zlen_app; lia]. destruct J2 as [-> | HG]; [unfold uint; cbn; lia|unfold uint; geos; cbn; lia].
  - intros [= <- <-]. split; [exact K1|]. split; [exact K2|discriminate].
  - destruct (read_blocks d f start count) as [[f1 e]| |] eqn:E; cbn [obind fst]; try discriminate. intros [= <- <-]. apply read_blocks_any in E. destruct E as (E1 & E2 & _). now apply HR.
  - intros [= <- <-]. destruct Ho. now apply HW.
  - destruct (read_cluster d f c) as [[f1 e]| |] eqn:E; cbn [obind fst]; try discriminate. intros [= <- <-]. unfold read_cluster in E. destruct (negb _); [injection E as <- <-; exact HK|].
    apply read_blocks_any in E. destruct E as (E1 & E2 & _). now apply HR.
  - intros [= <- <-]. unfold write_cluster. destruct Ho. destruct (negb _); [exact HK|]. destruct (negb _); [exact HK|]. apply HW; [apply u64_range|assumption].
  - destruct (get_fat d f) as [[f1 e]| |] eqn:E; cbn [obind fst]; try discriminate. intros [= <- <-]. apply get_fat_any in E. destruct E as (E1 & E2 & _). now apply HR.
  - intros [= <- <-]. exact HK.
Qed.
