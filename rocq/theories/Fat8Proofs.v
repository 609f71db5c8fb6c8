From Verif Require Import GoBase ListZ Errors Flags GoPath GoPathProofs OsFile Fat8 Spec_Fat8.

Lemma u64_id x : 0 <= x < 2^64 -> u64 x = x.
Proof. intros. unfold u64. now apply Z.mod_small. Qed.
Lemma i64_id8 x : - 2^63 <= x < 2^63 -> i64 x = x.
Proof. intros. unfold i64. rewrite Z.mod_small; lia. Qed.
Lemma u64_range x : 0 <= u64 x < 2^64.
Proof. unfold u64. now apply Z.mod_pos_bound. Qed.

Definition G640 := Eval vm_compute in finish_geometry 40 40 16 18.
Definition G1898 := Eval vm_compute in finish_geometry 73 73 26 35.
Definition G2002 := Eval vm_compute in finish_geometry 73 77 26 35.
Lemma get_geo_cases tb g : get_geometry tb = inl g -> (tb = 640 /\ g = G640) \/ (tb = 1898 /\ g = G1898) \/ (tb = 2002 /\ g = G2002).
Proof.
  unfold get_geometry. destruct (tb =? 640) eqn:E1; [intros [= <-]; left; split; [lia|reflexivity]|].
  destruct (tb =? 1898) eqn:E2; [intros [= <-]; right; left; split; [lia|reflexivity]|].
  destruct (tb =? 2002) eqn:E3; [intros [= <-]; right; right; split; [lia|reflexivity]|]. discriminate.
Qed.
Definition good_geo (g : geometry) : Prop := g = G640 \/ g = G1898 \/ g = G2002.
Lemma get_geo_good tb g : get_geometry tb = inl g -> good_geo g.
Proof. intros E. apply get_geo_cases in E. unfold good_geo. tauto. Qed.
Ltac geos := match goal with H : good_geo ?g |- _ => destruct H as [-> | [-> | ->]] end.

Lemma geometry_facts tb g : get_geometry tb = inl g ->
  TrueTotalTracks g * SectorsPerTrack g = tb /\ TotalTracks g <= TrueTotalTracks g /\
  DirectoryTrackStart g = (DirectoryTrackNumber g - 1) * SectorsPerTrack g /\
  DirectoryTrackStart g + SectorsPerTrack g <= TotalTracks g * SectorsPerTrack g /\
  0 < DirectoryTrackStart g < InfoSectorStart g /\ InfoSectorStart g + 1 = FATsStart g /\
  fat_end g = DirectoryTrackStart g + SectorsPerTrack g /\
  TotalClusters g <= 128 * SectorsPerFAT g < TotalClusters g + 128 /\
  TotalClusters g * SectorsPerCluster g = TotalTracks g * SectorsPerTrack g /\
  BytesPerCluster g = 128 * SectorsPerCluster g /\ SectorsPerTrack g = 2 * SectorsPerCluster g.
Proof. intros E. apply get_geo_cases in E. destruct E as [[-> ->]|[[-> ->]|[-> ->]]]; cbv; intuition congruence. Qed.

(** ** the file *)
Lemma zlen_pad n l : zlen (pad_to n l) = Z.max n (zlen l).
Proof.
  unfold pad_to. rewrite zlen_app. pose proof (zlen_nonneg l). destruct (Z.le_gt_cases 0 (n - zlen l)).
  - rewrite zlen_repeat; lia.
  - unfold zrepeat. replace (Z.to_nat (n - zlen l)) with 0%nat by lia. cbn. change (zlen (@nil Z)) with 0. lia.
Qed.
Lemma znth_pad n l i : 0 <= i -> znth 0 (pad_to n l) i = znth 0 l i.
Proof.
  intros Hi. unfold pad_to. rewrite znth_app by lia. destruct (i <? zlen l) eqn:E; [reflexivity|]. rewrite (znth_overflow 0 l i) by lia.
  destruct (Z.lt_ge_cases (i - zlen l) (n - zlen l)); [now rewrite znth_repeat by lia|].
  apply znth_overflow. unfold zrepeat, zlen at 1. rewrite repeat_length. lia.
Qed.
Lemma pad_id n l : n <= zlen l -> pad_to n l = l.
Proof. intros. unfold pad_to, zrepeat. replace (Z.to_nat (n - zlen l)) with 0%nat by lia. cbn. apply app_nil_r. Qed.
Lemma zlen_write off b l : 0 <= off -> zlen (write_bytes off b l) = Z.max (off + zlen b) (zlen l).
Proof. intros. unfold write_bytes. pose proof (zlen_pad (off + zlen b) l). rewrite zlen_splice; lia. Qed.
Lemma znth_write off b l i : 0 <= off -> 0 <= i ->
  znth 0 (write_bytes off b l) i = if (off <=? i) && (i <? off + zlen b) then znth 0 b (i - off) else znth 0 l i.
Proof.
  intros Ho Hi. unfold write_bytes. pose proof (zlen_pad (off + zlen b) l). pose proof (zlen_nonneg b).
  rewrite znth_splice by lia. destruct ((off <=? i) && (i <? off + zlen b)); [reflexivity|]. now apply znth_pad.
Qed.
Lemma write_in off b l : off + zlen b <= zlen l -> write_bytes off b l = splice off b l.
Proof. intros. unfold write_bytes. now rewrite pad_id. Qed.

Lemma read_at_healthy f off n : healthy f -> 0 <= off -> 0 <= n -> off + n <= zlen (contents f) ->
  f_read_at f off n = (f, inl (slice off n (contents f))).
Proof.
  intros Hh Ho Hn Hl. unfold f_read_at, syscall. rewrite Hh. replace (off <? 0) with false by lia.
  destruct (n =? 0) eqn:E; [replace n with 0 by lia; now rewrite slice_nil|]. cbn [contents faults]. now replace (off + n <=? zlen (contents f)) with true by lia.
Qed.
Lemma write_at_healthy f off b : healthy f -> 0 <= off -> off + zlen b <= zlen (contents f) ->
  f_write_at f off b = (mkFile (splice off b (contents f)) [], None).
Proof.
  intros Hh Ho Hl. unfold f_write_at, syscall. rewrite Hh. replace (off <? 0) with false by lia.
  destruct (zlen b =? 0) eqn:E.
  - rewrite (zlen_zero_nil b) by lia. rewrite splice_nil by lia. destruct f. unfold healthy in Hh. cbn in Hh. now subst.
  - rewrite Hh. now rewrite write_in by lia.
Qed.

(** ** block access *)
Lemma read_blocks_in d f s c : healthy f -> 0 <= s -> 0 <= c -> s + c < TotalBlocks (st8 d) -> TotalBlocks (st8 d) < 2^50 ->
  128 * (s + c) <= zlen (contents f) -> read_blocks d f s c = Ret (f, inl (blocks_of f s c)).
Proof.
  intros Hh Hs Hc Ht Hb Hl. unfold read_blocks. rewrite (u64_id (s + c)), (u64_id (128 * c)), (i64_id8 s), (i64_id8 (s * 128)) by lia.
  replace (s + c >=? TotalBlocks (st8 d)) with false by lia. unfold maxint. replace (128 * c >? 2^63 - 1) with false by lia.
  replace (s * 128) with (128 * s) by lia. now rewrite read_at_healthy by (try assumption; lia).
Qed.
Lemma write_blocks_in d f s b n : healthy f -> 0 <= s -> zlen b = 128 * n -> s + n <= TotalBlocks (st8 d) -> TotalBlocks (st8 d) < 2^50 ->
  128 * (s + n) <= zlen (contents f) -> write_blocks d f s b = (mkFile (splice (128 * s) b (contents f)) [], None).
Proof.
  intros Hh Hs Hn Ht Hb Hl. pose proof (zlen_nonneg b). unfold write_blocks. rewrite Z.rem_mod_nonneg, Z.quot_div_nonneg by lia.
  rewrite Hn, (Z.mul_comm 128 n), Z.mod_mul, Z.div_mul by lia. cbn [negb Z.eqb]. rewrite (u64_id (s + n)), (i64_id8 s), (i64_id8 (s * 128)) by lia.
  replace (s + n >? TotalBlocks (st8 d)) with false by lia. replace (s * 128) with (128 * s) by lia. now rewrite write_at_healthy by (try assumption; lia).
Qed.

(** ** FormatImage *)
Lemma splice_adj o (a b l : list Z) : 0 <= o -> o + zlen a + zlen b <= zlen l -> splice (o + zlen a) b (splice o a l) = splice o (a ++ b) l.
Proof.
  intros Ho Hl. pose proof (zlen_nonneg a). pose proof (zlen_nonneg b). assert (zlen (splice o a l) = zlen l) as E1 by (apply zlen_splice; lia).
  apply (list_ext 0).
  - rewrite !zlen_splice; rewrite ?zlen_app; try lia.
  - intros i Hi. rewrite zlen_splice in Hi by lia. rewrite !znth_splice by (rewrite ?zlen_app; lia). rewrite zlen_app.
    destruct ((o + zlen a <=? i) && (i <? o + zlen a + zlen b)) eqn:E2.
    + replace ((o <=? i) && (i <? o + (zlen a + zlen b))) with true by lia. rewrite znth_app by lia. replace (i - o <? zlen a) with false by lia.
      f_equal. lia.
    + destruct ((o <=? i) && (i <? o + zlen a)) eqn:E3.
      * replace ((o <=? i) && (i <? o + (zlen a + zlen b))) with true by lia. rewrite znth_app by lia. now replace (i - o <? zlen a) with true by lia.
      * now replace ((o <=? i) && (i <? o + (zlen a + zlen b))) with false by lia.
Qed.

Lemma fill_spec d : TotalBlocks (st8 d) < 2^50 -> forall n f i, healthy f -> 0 <= i -> i + Z.of_nat n <= TotalBlocks (st8 d) -> 128 * (i + Z.of_nat n) <= zlen (contents f) ->
  fill_sectors d f i n = (mkFile (splice (128 * i) (zrepeat 255 (128 * Z.of_nat n)) (contents f)) [], None).
Proof.
  intros Hb. induction n as [|n IH]; intros f i Hh Hi Ht Hl.
  - cbn [fill_sectors]. change (zrepeat 255 (128 * Z.of_nat 0)) with (@nil Z). rewrite splice_nil by lia. destruct f. unfold healthy in Hh. cbn in Hh. now subst.
  - cbn [fill_sectors]. rewrite (write_blocks_in d f i _ 1) by (try assumption; try (rewrite zlen_repeat; lia); lia).
    set (f1 := mkFile (splice (128 * i) (zrepeat 255 128) (contents f)) []).
    assert (zlen (contents f1) = zlen (contents f)) as E1 by (apply zlen_splice; [lia|rewrite zlen_repeat; lia]).
    rewrite (IH f1 (i + 1)) by (try reflexivity; lia). f_equal. f_equal. unfold f1. cbn [contents].
    replace (128 * (i + 1)) with (128 * i + zlen (zrepeat 255 128)) by (rewrite zlen_repeat; lia).
    rewrite splice_adj by (rewrite ?zlen_repeat; lia). rewrite <- zrepeat_app by lia. do 2 f_equal. lia.
Qed.

(* the FAT that FormatImage writes *)
Definition new_fat (g : geometry) : list Z :=
  splice (DirectoryTrackNumber g) [254] (splice (DirectoryTrackNumber g - 1) [254] (zrepeat 255 (128 * SectorsPerFAT g))).
Definition new_track (g : geometry) : list Z :=
  zrepeat 255 (128 * (InfoSectorStart g - DirectoryTrackStart g)) ++ zrepeat 0 128 ++ new_fat g ++ new_fat g ++ new_fat g.
Definition resized (n : Z) (l : list Z) : list Z := slice 0 n (pad_to n l).
Definition formatted (d : driver8) (tb : Z) (g : geometry) : driver8 :=
  mkD8 g (dflags d) (mkFs 128 tb ((TotalTracks g - 1) * SectorsPerTrack g) ((TotalTracks g - 1) * SectorsPerTrack g) 0
      ((SectorsPerTrack g - 1 - 3 * SectorsPerFAT g) * 8) 10) (freeClusters d) (fat d) false (dirents d).

Lemma zlen_resized n l : 0 <= n -> zlen (resized n l) = n.
Proof. intros. unfold resized. apply zlen_slice; [lia|lia|]. rewrite zlen_pad. lia. Qed.
Lemma znth_resized n l i : 0 <= i < n -> znth 0 (resized n l) i = znth 0 l i.
Proof. intros. unfold resized. rewrite znth_slice by lia. now rewrite Z.add_0_l, znth_pad by lia. Qed.
Lemma zlen_new_fat g : good_geo g -> zlen (new_fat g) = 128 * SectorsPerFAT g.
Proof. intros. geos; reflexivity. Qed.
Lemma zlen_new_track g : good_geo g -> zlen (new_track g) = 128 * SectorsPerTrack g.
Proof. intros. geos; vm_compute; reflexivity. Qed.

Lemma format_ok d f tb g : healthy f -> isMounted d = false -> get_geometry tb = inl g ->
  format8 d f (128 * tb) = Ret (formatted d tb g, mkFile (splice (128 * DirectoryTrackStart g) (new_track g) (resized (128 * tb) (contents f))) [], None).
Proof.
  intros Hh Hm Hg. pose proof (geometry_facts tb g Hg) as HF. pose proof (get_geo_good tb g Hg) as HG.
  assert (0 <= tb < 2^12) as Htb by (apply get_geo_cases in Hg; lia).
  unfold format8. rewrite Hm. rewrite Z.rem_mod_nonneg by lia. replace (128 * tb mod 128) with 0 by (rewrite Z.mul_comm, Z.mod_mul; lia). cbn [negb Z.eqb].
  rewrite (u64_id (128 * tb)) by lia. replace (128 * tb / 128) with tb by (rewrite Z.mul_comm, Z.div_mul; lia). rewrite Hg.
  replace (u64 (u64 (TotalTracks g - 1) * SectorsPerTrack g)) with ((TotalTracks g - 1) * SectorsPerTrack g) by (geos; reflexivity).
  replace (u64 (u64 (u64 (SectorsPerTrack g - 1) - u64 (SectorsPerFAT g * 3)) * 8)) with ((SectorsPerTrack g - 1 - 3 * SectorsPerFAT g) * 8) by (geos; reflexivity).
  fold (formatted d tb g).
  assert (i64 (u64 (u64 (128 * TrueTotalTracks g) * SectorsPerTrack g)) = 128 * tb) as ->.
  { destruct HF as (<- & _). geos; reflexivity. }
  unfold f_truncate, syscall. rewrite Hh. replace (128 * tb <? 0) with false by lia. rewrite Hh. fold (resized (128 * tb) (contents f)).
  set (c0 := resized (128 * tb) (contents f)). assert (zlen c0 = 128 * tb) as Hc0 by (apply zlen_resized; lia).
  set (f1 := mkFile c0 []). assert (DirectoryTrackStart g + SectorsPerTrack g <= tb) as HD.
  { clear -Hg. apply get_geo_cases in Hg. destruct Hg as [[-> ->]|[[-> ->]|[-> ->]]]; vm_compute; discriminate. }
  set (n1 := InfoSectorStart g - DirectoryTrackStart g). assert (0 < n1) by (unfold n1; lia).
  assert (FATsStart g + 3 * SectorsPerFAT g = DirectoryTrackStart g + SectorsPerTrack g) as HE by (unfold fat_end in HF; lia).
  assert (0 < SectorsPerFAT g) as HS by (geos; reflexivity).
  rewrite (fill_spec (formatted d tb g)); cbn [formatted st8 TotalBlocks]; try reflexivity; try lia; [|unfold f1; cbn [contents]; lia].
  rewrite Z2Nat.id by lia. set (a := zrepeat 255 (128 * n1)). assert (zlen a = 128 * n1) as Ha by (apply zlen_repeat; lia).
  set (f2 := mkFile (splice (128 * DirectoryTrackStart g) a (contents f1)) []).
  assert (zlen (contents f2) = 128 * tb) as H2 by (unfold f2; cbn [contents f1]; rewrite zlen_splice; lia).
  rewrite (write_blocks_in (formatted d tb g) f2 (InfoSectorStart g) _ 1); cbn [formatted st8 TotalBlocks]; try reflexivity; try lia.
  set (b := zrepeat 0 128). assert (zlen b = 128) as Hb by (apply zlen_repeat; lia).
  set (f3 := mkFile (splice (128 * InfoSectorStart g) b (contents f2)) []).
  assert (zlen (contents f3) = 128 * tb) as H3 by (unfold f3; cbn [contents]; rewrite zlen_splice; lia).
  replace (SectorsPerFAT g * 128) with (128 * SectorsPerFAT g) by lia.
  replace (DirectoryTrackStart g / SectorsPerTrack g) with (DirectoryTrackNumber g - 1) by (geos; reflexivity).
  replace (DirectoryTrackNumber g - 1 + 1) with (DirectoryTrackNumber g) by lia. fold (new_fat g).
  rewrite zlen_repeat by lia. replace (128 * SectorsPerFAT g <=? DirectoryTrackNumber g) with false by (geos; reflexivity).
  pose proof (zlen_new_fat g HG) as Hf.
  rewrite (write_blocks_in (formatted d tb g) f3 (FATsStart g) _ (3 * SectorsPerFAT g)); cbn [formatted st8 TotalBlocks]; try reflexivity; try lia.
  2:{ rewrite !zlen_app. lia. }
  do 3 f_equal. unfold f3, f2, f1. cbn [contents].
  replace (128 * InfoSectorStart g) with (128 * DirectoryTrackStart g + zlen a) by lia.
  replace (128 * FATsStart g) with (128 * DirectoryTrackStart g + zlen (a ++ b)) by (rewrite zlen_app; lia).
  rewrite splice_adj by lia. rewrite splice_adj by (rewrite ?zlen_app; lia). f_equal. rewrite <- app_assoc. reflexivity.
Qed.
