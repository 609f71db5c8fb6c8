From Verif Require Import GoBase ListZ Errors Flags GoPath GoPathProofs OsFile Fat8 Spec_Fat8 Fat8Proofs Fat8Proofs2.

(** ** any device *)
Lemma read_at_any f off n f' r : f_read_at f off n = (f', r) -> contents f' = contents f /\
  (faults f = [] -> faults f' = []) /\ (forall b, r = inl b -> 0 <= n -> zlen b = n /\ (0 < n -> 0 <= off /\ off + n <= zlen (contents f))).
Proof.
  unfold f_read_at, syscall. destruct (off <? 0) eqn:E1; [intros [= <- <-]; repeat split; try tauto; discriminate|].
  destruct (n =? 0) eqn:E2; [intros [= <- <-]; split; [reflexivity|split; [tauto|]]; intros b [= <-] _; split; [change (zlen (@nil Z)) with 0; lia|lia]|].
  destruct (faults f) as [|ft rest] eqn:EF.
  - destruct (off + n <=? zlen (contents f)) eqn:E3; intros [= <- <-]; (split; [reflexivity|split; [auto|]]); [|discriminate].
    intros b [= <-] Hn. rewrite zlen_slice by lia. lia.
  - destruct ft; cbn [contents faults].
    + intros [= <- <-]. split; [reflexivity|]. split; discriminate.
    + destruct (off + n <=? zlen (contents f)) eqn:E3; intros [= <- <-]; (split; [reflexivity|split; [discriminate|]]); [|discriminate].
      intros b [= <-] Hn. rewrite zlen_slice by lia. lia.
Qed.
Lemma read_blocks_any d f s c f' r : read_blocks d f s c = Ret (f', r) -> contents f' = contents f /\ (faults f = [] -> faults f' = []) /\
  (forall b, r = inl b -> 0 <= s -> 0 <= c -> s + c < 2^50 -> zlen b = 128 * c /\ s + c < TotalBlocks (st8 d) /\ (0 < c -> 128 * (s + c) <= zlen (contents f))).
Proof.
  unfold read_blocks. destruct (u64 (s + c) >=? TotalBlocks (st8 d)) eqn:E1; [intros [= <- <-]; repeat split; try tauto; discriminate|].
  destruct (u64 (128 * c) >? maxint); [discriminate|]. intros E. assert (f_read_at f (i64 (i64 s * 128)) (u64 (128 * c)) = (f', r)) as E' by congruence.
  apply read_at_any in E'. destruct E' as (H1 & H2 & H3). split; [exact H1|]. split; [exact H2|].
  intros b -> Hs Hc Hsc. rewrite (u64_id (s + c)) in E1 by lia. rewrite (u64_id (128 * c)), (i64_id8 s), (i64_id8 (s * 128)) in H3 by lia.
  destruct (H3 b eq_refl ltac:(lia)) as [H4 H5]. split; [exact H4|]. split; lia.
Qed.
Lemma read_blocks_panic d f s c : read_blocks d f s c <> OutOfFuel /\ (0 <= c < 2^50 -> read_blocks d f s c <> Panic).
Proof.
  unfold read_blocks. split.
  - destruct (_ >=? _); [discriminate|]. destruct (_ >? _); discriminate.
  - intros Hc. destruct (_ >=? _); [discriminate|]. rewrite u64_id by lia. unfold maxint. replace (128 * c >? 2^63 - 1) with false by lia. discriminate.
Qed.
Lemma write_at_any f off b f' r : f_write_at f off b = (f', r) -> zlen (contents f) <= zlen (contents f') /\ (faults f = [] -> faults f' = []).
Proof.
  unfold f_write_at, syscall. destruct (off <? 0) eqn:E1; [intros [= <- <-]; split; [lia|tauto]|].
  destruct (zlen b =? 0); [intros [= <- <-]; split; [lia|tauto]|]. destruct (faults f) as [|[k|] rest] eqn:EF; intros [= <- <-]; cbn [contents faults]; (split; [|try discriminate; auto]).
  - rewrite zlen_write by lia. lia.
  - destruct (zlen (slice 0 k b) =? 0); [lia|]. rewrite zlen_write by lia. lia.
  - rewrite zlen_write by lia. lia.
Qed.
Lemma write_blocks_any d f s b f' r : write_blocks d f s b = (f', r) -> zlen (contents f) <= zlen (contents f') /\ (faults f = [] -> faults f' = []).
Proof.
  unfold write_blocks. destruct (negb _); [intros [= <- <-]; split; [lia|tauto]|]. destruct (_ >? _); [intros [= <- <-]; split; [lia|tauto]|]. apply write_at_any.
Qed.
(* WriteDiskBlocks on a working device: all or nothing *)
Lemma write_blocks_cases d f s b : healthy f -> uint s -> zlen b < 2^63 -> 0 <= TotalBlocks (st8 d) < 2^50 -> 128 * TotalBlocks (st8 d) <= zlen (contents f) ->
  (exists n, zlen b = 128 * n /\ s + n <= TotalBlocks (st8 d) /\ write_blocks d f s b = (mkFile (splice (128 * s) b (contents f)) [], None)) \/
  ((forall n, zlen b = 128 * n -> TotalBlocks (st8 d) < s + n) /\ exists e, write_blocks d f s b = (f, Some e)).
Proof.
  intros Hh Hs Hb Ht Hl. unfold uint in Hs. pose proof (zlen_nonneg b) as Hb0. destruct (Z.eq_dec (zlen b mod 128) 0) as [E|E].
  - set (n := zlen b / 128). assert (zlen b = 128 * n) as Hn by (unfold n; pose proof (Z.div_mod (zlen b) 128); lia).
    destruct (Z.le_gt_cases (s + n) (TotalBlocks (st8 d))) as [Hle|Hgt].
    + left. exists n. split; [exact Hn|]. split; [exact Hle|]. apply (write_blocks_in d f s b n); try assumption; lia.
    + right. split; [intros m Hm; lia|]. unfold write_blocks. rewrite Z.rem_mod_nonneg, Z.quot_div_nonneg by lia. rewrite E. cbn [negb Z.eqb]. fold n.
      destruct (u64 (s + n) >? TotalBlocks (st8 d)) eqn:EW; [eauto|].
      assert (2^64 <= s + n) as Hw. { destruct (Z.lt_ge_cases (s + n) (2^64)); [|lia]. rewrite u64_id in EW by lia. lia. }
      assert (i64 s = s - 2^64) as ES. { unfold i64. rewrite <- (Z.mod_unique (s + 2^63) (2^64) 1 (s - 2^63)) by lia. lia. }
      rewrite ES, i64_id8 by lia. unfold f_write_at. replace ((s - 2 ^ 64) * 128 <? 0) with true by lia. eauto.
  - right. split; [intros m Hm; rewrite Hm, Z.mul_comm, Z.mod_mul in E; lia|]. unfold write_blocks. rewrite Z.rem_mod_nonneg by lia.
    replace (zlen b mod 128 =? 0) with false by lia. cbn [negb]. eauto.
Qed.

(** ** Histories *)
Definition J (d : driver8) (f : osfile) : Prop :=
  (dirents d = [] /\ zlen (fat d) <= 256) /\ (geo d = zero_geo \/ good_geo (geo d)) /\
  (TotalBlocks (st8 d) = 0 \/ exists g, get_geometry (TotalBlocks (st8 d)) = inl g) /\
  (isMounted d = true -> good_geo (geo d) /\ fat_end (geo d) < TotalBlocks (st8 d) /\ zlen (fat d) = 128 * SectorsPerFAT (geo d) /\ 128 * fat_end (geo d) <= zlen (contents f)).
Definition Kh (d : driver8) (f : osfile) : Prop :=
  healthy f /\ (TotalBlocks (st8 d) = 0 \/ zlen (contents f) = 128 * TotalBlocks (st8 d)) /\ (isMounted d = true -> get_geometry (TotalBlocks (st8 d)) = inl (geo d)).

Lemma J_grow d f f' : J d f -> zlen (contents f) <= zlen (contents f') -> J d f'.
Proof. intros (H1 & H2 & H3 & H4) Hl. split; [|split; [|split]]; auto. intros Hm. destruct (H4 Hm) as (? & ? & ? & ?). repeat split; auto. lia. Qed.
Lemma J_total d f : J d f -> 0 <= TotalBlocks (st8 d) < 2^12.
Proof. intros (_ & _ & [->|(g & Hg)] & _); [lia|]. apply get_geo_cases in Hg. lia. Qed.

Lemma get_fat_any d f f' r : get_fat d f = Ret (f', r) -> contents f' = contents f /\ (faults f = [] -> faults f' = []) /\
  (forall b, r = inl b -> good_geo (geo d) -> zlen b = 128 * SectorsPerFAT (geo d) /\ fat_end (geo d) < TotalBlocks (st8 d) /\ 128 * fat_end (geo d) <= zlen (contents f)).
Proof.
  unfold get_fat. set (g := geo d). intros E.
  destruct (read_blocks d f (FATsStart g) (SectorsPerFAT g)) as [[f1 [b1|e1]]| |] eqn:E1; cbn [rbind] in E; try discriminate.
  2:{ injection E as <- <-. apply read_blocks_any in E1. destruct E1 as (? & ? & _). repeat split; auto; discriminate. }
  apply read_blocks_any in E1. destruct E1 as (A1 & A2 & A3).
  destruct (read_blocks d f1 _ (SectorsPerFAT g)) as [[f2 [b2|e2]]| |] eqn:E2; cbn [rbind] in E; try discriminate.
  2:{ injection E as <- <-. apply read_blocks_any in E2. destruct E2 as (? & ? & _). repeat split; try discriminate; auto. congruence. }
  apply read_blocks_any in E2. destruct E2 as (B1 & B2 & _).
  destruct (read_blocks d f2 _ (SectorsPerFAT g)) as [[f3 [b3|e3]]| |] eqn:E3; cbn [rbind] in E; try discriminate.
  2:{ injection E as <- <-. apply read_blocks_any in E3. destruct E3 as (? & ? & _). repeat split; try discriminate; auto. congruence. }
  apply read_blocks_any in E3. destruct E3 as (C1 & C2 & C3).
  assert (contents f3 = contents f) as EC by congruence.
  destruct (negb (beqb b1 b2)); [injection E as <- <-; repeat split; try discriminate; auto|].
  destruct (negb (beqb b1 b3)); [injection E as <- <-; repeat split; try discriminate; auto|].
  injection E as <- <-. split; [exact EC|]. split; [auto|]. intros b [= <-] HG. unfold fat_end.
  assert (0 <= FATsStart g < 2^12 /\ 0 < SectorsPerFAT g <= 2) as [G1 G2] by (clear -HG; subst g; geos; vm_compute; intuition congruence).
  rewrite (u64_id (2 * SectorsPerFAT g)), (u64_id (FATsStart g + 2 * SectorsPerFAT g)) in C3 by lia.
  destruct (A3 b1 eq_refl) as (? & ? & ?); try lia. destruct (C3 b3 eq_refl) as (? & ? & HH); try lia. rewrite B1, A1 in HH. split; [assumption|]. split; [lia|]. specialize (HH ltac:(lia)). lia.
Qed.
Lemma get_fat_panic d f : geo d = zero_geo \/ good_geo (geo d) -> get_fat d f <> Panic /\ get_fat d f <> OutOfFuel.
Proof.
  intros HG. unfold get_fat. assert (0 <= SectorsPerFAT (geo d) < 2^50) as Hs by (destruct HG as [->|HG]; [cbn; lia|geos; cbn; lia]).
  assert (forall f s, read_blocks d f s (SectorsPerFAT (geo d)) <> Panic /\ read_blocks d f s (SectorsPerFAT (geo d)) <> OutOfFuel) as HP.
  { intros f1 s. destruct (read_blocks_panic d f1 s (SectorsPerFAT (geo d))). auto. }
  destruct (read_blocks d f _ _) as [[f1 [b1|e1]]| |] eqn:E1; cbn [rbind]; try (split; discriminate); [|exfalso; eapply (proj1 (HP _ _)); eassumption|exfalso; eapply (proj2 (HP _ _)); eassumption].
  destruct (read_blocks d f1 _ _) as [[f2 [b2|e2]]| |] eqn:E2; cbn [rbind]; try (split; discriminate); [|exfalso; eapply (proj1 (HP _ _)); eassumption|exfalso; eapply (proj2 (HP _ _)); eassumption].
  destruct (read_blocks d f2 _ _) as [[f3 [b3|e3]]| |] eqn:E3; cbn [rbind]; try (split; discriminate); [|exfalso; eapply (proj1 (HP _ _)); eassumption|exfalso; eapply (proj2 (HP _ _)); eassumption].
  destruct (negb _); [split; discriminate|]. destruct (negb _); split; discriminate.
Qed.
