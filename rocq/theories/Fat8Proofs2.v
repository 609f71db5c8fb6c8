From Verif Require Import GoBase ListZ Errors Flags GoPath GoPathProofs OsFile Fat8 Spec_Fat8 Fat8Proofs.

Lemma format_iff d f size : healthy f -> - 2^63 <= size < 2^63 ->
  (exists tb g, size = 128 * tb /\ get_geometry tb = inl g /\ isMounted d = false) \/
  (exists e, format8 d f size = Ret (d, f, Some e) /\ (isMounted d = true \/ ~ exists tb g, size = 128 * tb /\ get_geometry tb = inl g)).
Proof.
  intros Hh Hs. unfold format8. destruct (isMounted d); [right; eexists; split; [reflexivity|now left]|].
  destruct (Z.rem size 128 =? 0) eqn:E1; cbn [negb].
  - destruct (get_geometry (u64 size / 128)) as [g|e] eqn:E2.
    + left. assert (0 <= size) as Hp.
      { apply get_geo_cases in E2. destruct (Z.lt_ge_cases size 0); [|lia]. exfalso. unfold u64 in E2. rewrite <- (Z.mod_unique size (2^64) (-1) (size + 2^64)) in E2 by lia.
        assert (2^56 <= (size + 2^64) / 128) by (apply Z.div_le_lower_bound; lia). lia. }
      rewrite Z.rem_mod_nonneg in E1 by lia. rewrite u64_id in E2 by lia. exists (size / 128), g. split; [|auto]. pose proof (Z.div_mod size 128). lia.
    + right. exists e. split; [reflexivity|]. right. intros (tb & g & -> & Hg). rewrite u64_id in E2 by (apply get_geo_cases in Hg; lia).
      rewrite Z.mul_comm, Z.div_mul in E2 by lia. congruence.
  - right. eexists. split; [reflexivity|]. right. intros (tb & g & -> & Hg). rewrite Z.rem_mod_nonneg in E1 by (apply get_geo_cases in Hg; lia).
    rewrite Z.mul_comm, Z.mod_mul in E1 by lia. discriminate.
Qed.

(** ** GetFAT *)
Lemma get_fat_spec d f : healthy f -> good_geo (geo d) -> fat_end (geo d) < TotalBlocks (st8 d) -> TotalBlocks (st8 d) < 2^50 ->
  128 * fat_end (geo d) <= zlen (contents f) ->
  get_fat d f = Ret (f, if beqb (fat_copy (geo d) f 0) (fat_copy (geo d) f 1) && beqb (fat_copy (geo d) f 0) (fat_copy (geo d) f 2)
                        then inl (fat_copy (geo d) f 0) else inr (K ErrFileSystemCorrupted)).
Proof.
  intros Hh HG Ht Hb Hl. set (g := geo d) in *. unfold fat_end in *. assert (0 <= FATsStart g /\ 0 < SectorsPerFAT g) as [H1 H2] by (geos; split; [discriminate|reflexivity| |reflexivity| |reflexivity]; discriminate).
  unfold get_fat. fold g. rewrite (u64_id (2 * SectorsPerFAT g)), (u64_id (FATsStart g + 2 * SectorsPerFAT g)), (u64_id (FATsStart g + SectorsPerFAT g)) by (geos; cbv; intuition congruence).
  do 3 (rewrite (read_blocks_in d f) by (try assumption; lia); cbn [rbind]). unfold fat_copy. rewrite Z.mul_0_l, Z.mul_1_l, Z.add_0_r.
  destruct (beqb _ (blocks_of f (FATsStart g + SectorsPerFAT g) _)); cbn [negb andb]; [|reflexivity]. now destruct (beqb _ _).
Qed.

(** ** Mount *)
Definition mounted_as (d : driver8) (g : geometry) (f : osfile) : driver8 :=
  mkD8 g (byte_at f (128 * InfoSectorStart g)) (st8 d) (freeClusters d ++ free_from 0 (fat_copy g f 0)) (fat_copy g f 0) true (dirents d).
Lemma mount_ok d f tb g : healthy f -> isMounted d = false -> get_geometry tb = inl g -> zlen (contents f) = 128 * tb ->
  fat_end g < TotalBlocks (st8 d) < 2^50 -> fat_copy g f 0 = fat_copy g f 1 -> fat_copy g f 0 = fat_copy g f 2 ->
  mount8 d f = Ret (mounted_as d g f, f, None).
Proof.
  intros Hh Hm Hg Hl Ht C1 C2. pose proof (geometry_facts tb g Hg) as HF. pose proof (get_geo_good tb g Hg) as HG.
  assert (0 <= tb < 2^12 /\ fat_end g < tb) as [Htb He] by (clear -Hg; apply get_geo_cases in Hg; destruct Hg as [[-> ->]|[[-> ->]|[-> ->]]]; vm_compute; intuition congruence).
  unfold mount8. rewrite Hm. unfold f_size_of, syscall. rewrite Hh, Hl, (u64_id (128 * tb)) by lia. rewrite Z.mul_comm, Z.div_mul by lia. rewrite Hg.
  rewrite get_fat_spec by (cbn [with_geo geo st8]; try assumption; lia). cbn [with_geo geo]. rewrite <- C1, <- C2, !beqb_refl. cbn [andb].
  assert (0 < SectorsPerFAT g) as HSPF by (clear -HG; geos; reflexivity).
  rewrite read_blocks_in by (cbn [st8 with_geo]; unfold fat_end in *; try assumption; lia).
  destruct (blocks_of f (InfoSectorStart g) 1) as [|b l] eqn:EB.
  - exfalso. apply (f_equal zlen) in EB. unfold blocks_of in EB. rewrite zlen_slice in EB by (unfold fat_end in *; lia). discriminate.
  - do 3 f_equal. unfold mounted_as. cbn [with_geo dflags st8 freeClusters dirents]. f_equal. unfold byte_at.
    assert (znth 0 (blocks_of f (InfoSectorStart g) 1) 0 = b) as Eb by (now rewrite EB). unfold blocks_of in Eb.
    rewrite znth_slice in Eb by (unfold fat_end in *; lia). now rewrite Z.add_0_r in Eb.
Qed.
Lemma mount_zero d f : isMounted d = false -> TotalBlocks (st8 d) <= 0 -> exists d' f' e, mount8 d f = Ret (d', f', Some e) /\ isMounted d' = false.
Proof.
  intros Hm Ht. unfold mount8. rewrite Hm. destruct (f_size_of f) as [f1 [off|e]]; [|eauto].
  destruct (get_geometry (u64 off / 128)) as [g|e]; [|eauto]. unfold get_fat, read_blocks at 1. cbn [with_geo geo st8].
  pose proof (u64_range (FATsStart g + SectorsPerFAT g)). replace (u64 (FATsStart g + SectorsPerFAT g) >=? TotalBlocks (st8 d)) with true by lia.
  cbn [rbind]. eauto 10.
Qed.

(** ** Flush *)
Lemma flush_spec d f : healthy f -> good_geo (geo d) -> zlen (fat d) = 128 * SectorsPerFAT (geo d) -> fat_end (geo d) <= TotalBlocks (st8 d) < 2^50 ->
  128 * fat_end (geo d) <= zlen (contents f) ->
  flush8 d f = (mkFile (splice (128 * FATsStart (geo d)) (fat d ++ fat d ++ fat d) (contents f)) [], None).
Proof.
  intros Hh HG Hf Ht Hl. unfold flush8, write_fat. set (g := geo d) in *. unfold fat_end in *. assert (0 <= FATsStart g) by (geos; discriminate).
  apply (write_blocks_in d f (FATsStart g) _ (3 * SectorsPerFAT g)); try assumption; try lia. rewrite !zlen_app. lia.
Qed.
Lemma slice_in_splice o (a l : list Z) k n : 0 <= o -> o + zlen a <= zlen l -> 0 <= k -> 0 <= n -> k + n <= zlen a -> slice (o + k) n (splice o a l) = slice k n a.
Proof.
  intros Ho Hl Hk Hn Hkn. assert (zlen (splice o a l) = zlen l) as E by (now apply zlen_splice). apply (list_ext 0).
  - rewrite !zlen_slice; lia.
  - intros i Hi. rewrite zlen_slice in Hi by lia. rewrite !znth_slice by lia. rewrite znth_splice by lia.
    replace ((o <=? o + k + i) && (o + k + i <? o + zlen a)) with true by lia. f_equal. lia.
Qed.
Lemma copies_of_splice g c a b e : good_geo g -> zlen a = 128 * SectorsPerFAT g -> zlen b = 128 * SectorsPerFAT g -> zlen e = 128 * SectorsPerFAT g ->
  128 * fat_end g <= zlen c -> let f := mkFile (splice (128 * FATsStart g) (a ++ b ++ e) c) [] in
  fat_copy g f 0 = a /\ fat_copy g f 1 = b /\ fat_copy g f 2 = e.
Proof.
  intros HG Ha Hb He Hl f. unfold fat_end in *. assert (0 <= FATsStart g /\ 0 < SectorsPerFAT g) as [H1 H2] by (clear -HG; geos; vm_compute; intuition congruence).
  set (n := 128 * SectorsPerFAT g) in *. unfold fat_copy, blocks_of, f. cbn [contents]. fold n.
  replace (128 * (FATsStart g + 0 * SectorsPerFAT g)) with (128 * FATsStart g + 0) by lia.
  replace (128 * (FATsStart g + 1 * SectorsPerFAT g)) with (128 * FATsStart g + n) by lia.
  replace (128 * (FATsStart g + 2 * SectorsPerFAT g)) with (128 * FATsStart g + 2 * n) by lia.
  rewrite !slice_in_splice by (rewrite ?zlen_app; lia). repeat split.
  - rewrite slice_app_l by lia. now apply slice_full.
  - rewrite slice_app_r by lia. rewrite slice_app_l by lia. replace (n - zlen a) with 0 by lia. now apply slice_full.
  - rewrite slice_app_r by lia. rewrite slice_app_r by lia. replace (2 * n - zlen a - zlen b) with 0 by lia. now apply slice_full.
Qed.

(** ** Crash in the middle of Flush *)
Lemma crash_spec d f f1 k rest e old : faults f = Some k :: rest -> flush8 d f = (f1, Some e) -> good_geo (geo d) -> zlen (fat d) = 128 * SectorsPerFAT (geo d) ->
  fat_end (geo d) <= TotalBlocks (st8 d) < 2^50 -> 128 * fat_end (geo d) <= zlen (contents f) ->
  fat_copy (geo d) f 0 = old -> fat_copy (geo d) f 1 = old -> fat_copy (geo d) f 2 = old ->
  zlen (contents f1) = zlen (contents f) /\ (fat_copy (geo d) f1 0 = fat d \/ fat_copy (geo d) f1 2 = old).
Proof.
  intros Hft Hfl HG Hf Ht Hl O0 O1 O2. set (g := geo d) in *. unfold fat_end in *. assert (0 <= FATsStart g /\ 0 < SectorsPerFAT g) as [H1 H2] by (clear -HG; geos; vm_compute; intuition congruence).
  unfold flush8, write_fat, write_blocks in Hfl. fold g in Hfl. set (new := fat d) in *. set (b := new ++ new ++ new) in *.
  assert (zlen b = 3 * SectorsPerFAT g * 128) as Hb by (unfold b; rewrite !zlen_app; lia).
  rewrite Hb, Z.rem_mod_nonneg, Z.quot_div_nonneg, Z.mod_mul, Z.div_mul in Hfl by lia. cbn [negb Z.eqb] in Hfl.
  rewrite (u64_id (FATsStart g + 3 * SectorsPerFAT g)), (i64_id8 (FATsStart g)), (i64_id8 (FATsStart g * 128)) in Hfl by lia.
  replace (FATsStart g + 3 * SectorsPerFAT g >? TotalBlocks (st8 d)) with false in Hfl by lia.
  unfold f_write_at, syscall in Hfl. rewrite Hft in Hfl. replace (FATsStart g * 128 <? 0) with false in Hfl by lia. rewrite Hb in Hfl.
  replace (3 * SectorsPerFAT g * 128 =? 0) with false in Hfl by lia. injection Hfl as <- _. cbn [contents].
  set (part := slice 0 k b). set (n := 128 * SectorsPerFAT g) in *.
  assert (zlen part = Z.min (Z.max 0 k) (zlen b)) as Hp.
  { unfold part. destruct (Z.le_gt_cases 0 k); [rewrite zlen_slice_min by lia; lia|]. unfold slice. replace (Z.to_nat k) with 0%nat by lia. cbn. pose proof (zlen_nonneg b). change (zlen (@nil Z)) with 0. lia. }
  set (c1 := if zlen part =? 0 then contents f else write_bytes (FATsStart g * 128) part (contents f)).
  assert (zlen c1 = zlen (contents f)) as Hc1.
  { unfold c1. destruct (zlen part =? 0); [reflexivity|]. rewrite zlen_write by lia. lia. }
  assert (forall j, 0 <= j -> znth 0 c1 (FATsStart g * 128 + j) = if j <? zlen part then znth 0 b j else znth 0 (contents f) (FATsStart g * 128 + j)) as Hn.
  { intros j Hj. unfold c1. destruct (zlen part =? 0) eqn:E0; [now replace (j <? zlen part) with false by lia|]. rewrite znth_write by lia.
    replace (FATsStart g * 128 <=? FATsStart g * 128 + j) with true by lia. cbn [andb].
    replace (FATsStart g * 128 + j <? FATsStart g * 128 + zlen part) with (j <? zlen part) by lia. destruct (j <? zlen part) eqn:E; [|reflexivity].
    replace (FATsStart g * 128 + j - FATsStart g * 128) with j by lia. unfold part. rewrite znth_slice by lia. reflexivity. }
  split; [exact Hc1|]. destruct (Z.le_gt_cases n (zlen part)) as [Hk|Hk].
  - left. unfold fat_copy, blocks_of. cbn [contents]. fold n. apply (list_ext 0).
    + rewrite zlen_slice by lia. lia.
    + intros i Hi. rewrite zlen_slice in Hi by lia. rewrite znth_slice by lia. replace (128 * (FATsStart g + 0 * SectorsPerFAT g) + i) with (FATsStart g * 128 + i) by lia.
      rewrite Hn by lia. replace (i <? zlen part) with true by lia. unfold b. rewrite znth_app by lia. now replace (i <? zlen new) with true by lia.
  - right. rewrite <- O2. unfold fat_copy, blocks_of. cbn [contents]. fold n. apply (list_ext 0).
    + rewrite !zlen_slice by lia. reflexivity.
    + intros i Hi. rewrite zlen_slice in Hi by lia. rewrite !znth_slice by lia. replace (128 * (FATsStart g + 2 * SectorsPerFAT g) + i) with (FATsStart g * 128 + (2 * n + i)) by lia.
      rewrite Hn by lia. now replace (2 * n + i <? zlen part) with false by lia.
Qed.
