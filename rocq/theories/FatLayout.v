(** * FatLayout: the layout fields of a FAT volume for every accepted header (C73). *)
From Coq Require Import String.
From Verif Require Import GoBase ListZ Errors Flags GoPath Spec_Path BlockCache BasicStream Driver FatBoot FatDirent FatDriver Spec_Fat FatProofs.

Lemma layout_any h spf32 b : raw_ok h -> 0 <= spf32 < 2^32 -> process_boot h spf32 = Ret (inl b) ->
  let root := ((32 * RootEntryCount h + BytesPerSector h - 1) mod 2^16) / BytesPerSector h in
  RootDirSectors b = root /\ SectorsPerFAT b = vol_fat_size h spf32 /\ TotalFATSectors b = vol_fats h spf32 /\
  FirstDataSector b = ReservedSectors h + root /\
  TotalDataSectors b = (vol_sectors h - ReservedSectors h - vol_fats h spf32 - root) mod 2^64 /\
  TotalClusters b = ((vol_sectors h - ReservedSectors h + vol_fats h spf32 + root) mod 2^64) / SectorsPerCluster h.
Proof.
  intros Hr Hs Hp. cbv zeta. destruct (process_accepts _ _ _ Hp) as (H1 & H2 & A & B & _ & Hc & ->). destruct (vol_facts h spf32 Hr Hs) as [F1 F2].
  pose proof (root_code_range h Hr A) as RR.
  assert (ER : root_code h = ((32 * RootEntryCount h + BytesPerSector h - 1) mod 2^16) / BytesPerSector h).
  { unfold root_code, u16. rewrite <- Z.add_mod by discriminate. f_equal. f_equal. lia. }
  rewrite <- ER. destruct Hr as (R1 & R2 & R3 & R4 & R5 & _).
  cbn [boot_code RootDirSectors SectorsPerFAT TotalFATSectors BytesPerCluster TotalDataSectors FirstDataSector TotalClusters FATVersion].
  unfold clusters_code. rewrite (u64_small' (vol_fats h spf32)) by lia.
  split; [reflexivity|]. split; [reflexivity|]. split; [reflexivity|].
  rewrite (u64_small' (ReservedSectors h + root_code h)) by lia. split; [unfold u32; rewrite Z.mod_small; lia|].
  rewrite (u64_small' (ReservedSectors h + vol_fats h spf32)) by lia. rewrite (u64_small' (ReservedSectors h + vol_fats h spf32 + root_code h)) by lia.
  split; [unfold u64; f_equal; lia|]. rewrite !u64_add. rewrite <- Z.add_assoc, u64_add. unfold u64. f_equal. f_equal. lia.
Qed.
(* 32 bytes per entry, rounded up: right as long as the sum fits in 16 bits *)
Lemma root_wrong h : raw_ok h -> In (BytesPerSector h) sector_sizes ->
  let x := 32 * RootEntryCount h + BytesPerSector h - 1 in
  (x < 2^16 -> (x mod 2^16) / BytesPerSector h = vol_root h) /\ (2^16 <= x -> (x mod 2^16) / BytesPerSector h < vol_root h).
Proof.
  intros (A & B & C & D & E & _) Hs. cbv zeta. unfold vol_root. set (x := 32 * RootEntryCount h + BytesPerSector h - 1).
  assert (512 <= BytesPerSector h <= 4096) by (cbn in Hs; lia). split; intros H1.
  - rewrite Z.mod_small by lia. reflexivity.
  - apply Z.lt_le_trans with ((x mod 2^16 + 1 * BytesPerSector h) / BytesPerSector h); [rewrite Z.div_add by lia; lia|].
    apply Z.div_le_mono; [lia|]. pose proof (Z.mod_pos_bound x (2^16) ltac:(lia)). pose proof (Z.div_mod x (2^16) ltac:(lia)).
    assert (1 <= x / 2^16) by (apply Z.div_le_lower_bound; lia). lia.
Qed.
Lemma layout_right h spf32 b : raw_ok h -> 0 <= spf32 < 2^32 -> process_boot h spf32 = Ret (inl b) ->
  (RootDirSectors b = vol_root h <-> 32 * RootEntryCount h + BytesPerSector h <= 2^16) /\
  (FirstDataSector b = vol_first_data h spf32 <-> vol_fats h spf32 = 0 /\ 32 * RootEntryCount h + BytesPerSector h <= 2^16) /\
  (TotalDataSectors b = vol_data h spf32 <-> 0 <= vol_data h spf32 /\ 32 * RootEntryCount h + BytesPerSector h <= 2^16).
Proof.
  intros Hr Hs Hp. destruct (layout_any h spf32 b Hr Hs Hp) as (E1 & _ & _ & E2 & E3 & _). rewrite E1, E2, E3. clear E1 E2 E3.
  destruct (process_accepts _ _ _ Hp) as (_ & _ & A & _). destruct (vol_facts h spf32 Hr Hs) as [F1 F2].
  destruct (root_wrong h Hr A) as [W1 W2]. pose proof Hr as (R1 & R2 & R3 & R4 & R5 & _).
  assert (V : 0 <= vol_root h < 2^22).
  { unfold vol_root. assert (512 <= BytesPerSector h) by (cbn in A; lia). split; [apply Z.div_pos; lia|]. apply Z.div_lt_upper_bound; [lia|]. nia. }
  assert (V0 : 0 <= (32 * RootEntryCount h + BytesPerSector h - 1) mod 2 ^ 16 / BytesPerSector h).
  { assert (512 <= BytesPerSector h) by (cbn in A; lia). apply Z.div_pos; [|lia]. apply Z.mod_pos_bound. lia. }
  set (w := (32 * RootEntryCount h + BytesPerSector h - 1) mod 2 ^ 16 / BytesPerSector h) in *. clearbody w.
  unfold vol_data, vol_first_data. assert (HC : 32 * RootEntryCount h + BytesPerSector h <= 2^16 \/ 2^16 < 32 * RootEntryCount h + BytesPerSector h) by lia.
  split; [|split].
  - split; intros; [destruct HC; [assumption|]|]; [specialize (W2 ltac:(lia))|specialize (W1 ltac:(lia))]; lia.
  - split; intros.
    + destruct HC; [specialize (W1 ltac:(lia))|specialize (W2 ltac:(lia))]; lia.
    + specialize (W1 ltac:(lia)). lia.
  - destruct (Z_le_gt_dec 0 (vol_sectors h - ReservedSectors h - vol_fats h spf32 - w)) as [Hn|Hn].
    + rewrite Z.mod_small by lia. split; intros.
      * destruct HC; [specialize (W1 ltac:(lia))|specialize (W2 ltac:(lia))]; lia.
      * specialize (W1 ltac:(lia)). lia.
    + replace ((vol_sectors h - ReservedSectors h - vol_fats h spf32 - w) mod 2^64) with (vol_sectors h - ReservedSectors h - vol_fats h spf32 - w + 2^64).
      2:{ symmetry. rewrite <- (Z.mod_add _ 1) by lia. rewrite Z.mod_small; lia. }
      split; intros; [lia|]. specialize (W1 ltac:(lia)). lia.
Qed.
(* the wrapped root directory size is right or 16 or more sectors too small *)
Lemma root_gap h spf32 b : raw_ok h -> 0 <= spf32 < 2^32 -> process_boot h spf32 = Ret (inl b) ->
  RootDirSectors b = vol_root h \/ (2^16 < 32 * RootEntryCount h + BytesPerSector h /\ RootDirSectors b + 16 <= vol_root h).
Proof.
  intros Hr Hs Hp. destruct (layout_any h spf32 b Hr Hs Hp) as (E1 & _). destruct (process_accepts _ _ _ Hp) as (_ & _ & A & _). rewrite E1. clear E1.
  destruct Hr as (R1 & _ & _ & _ & R5 & _). unfold vol_root. set (x := 32 * RootEntryCount h + BytesPerSector h - 1).
  assert (HB : 512 <= BytesPerSector h <= 4096) by (cbn in A; lia). destruct (Z_lt_le_dec x (2^16)) as [H|H]; [left; rewrite Z.mod_small by lia; reflexivity|right].
  split; [lia|]. pose proof (Z.mod_pos_bound x (2^16) ltac:(lia)). pose proof (Z.div_mod x (2^16) ltac:(lia)).
  assert (1 <= x / 2^16) by (apply Z.div_le_lower_bound; lia).
  rewrite <- Z.div_add by lia. apply Z.div_le_mono; lia.
Qed.
