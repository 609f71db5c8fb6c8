(** * FatProofs: the boot sector and dates *)
From Coq Require Import String.
From Verif Require Import GoBase ListZ Errors Flags GoPath Spec_Path GoPathProofs BlockCache BasicStream Driver FatBoot FatDirent FatDriver Spec_Fat.

Lemma existsb_eqb x l : existsb (Z.eqb x) l = true <-> In x l.
Proof.
  rewrite existsb_exists. split.
  - intros (y & Hy & E). apply Z.eqb_eq in E. congruence.
  - intros H. exists x. split; [exact H|]. apply Z.eqb_refl.
Qed.
Definition sector_sizes : list Z := [512; 1024; 2048; 4096].
Definition cluster_sizes : list Z := [1; 2; 4; 8; 16; 32; 64; 128].
(* the numbers the code computes, when nothing panics *)
Definition root_code (h : raw_boot) : Z := u16 (u16 (RootEntryCount h * 32) + u16 (BytesPerSector h - 1)) / BytesPerSector h.
Definition clusters_code (h : raw_boot) (spf32 : Z) : Z :=
  u64 (u64 (u64 (vol_sectors h - ReservedSectors h) + u64 (vol_fats h spf32)) + root_code h) / SectorsPerCluster h.
Definition boot_code (h : raw_boot) (spf32 : Z) : boot :=
  mkBoot h (vol_fat_size h spf32) (u64 (vol_fats h spf32)) (root_code h) (u64 (BytesPerSector h * SectorsPerCluster h)) (clusters_code h spf32)
    (u64 (vol_sectors h - u64 (u64 (ReservedSectors h + u64 (vol_fats h spf32)) + root_code h)))
    (u32 (u64 (ReservedSectors h + root_code h))) (DetermineFATVersion (clusters_code h spf32)) (i64 (u64 (BytesPerSector h * SectorsPerCluster h)) / 32).
Lemma process_cases h spf32 : BytesPerSector h <> 0 -> SectorsPerCluster h <> 0 ->
  process_boot h spf32 = Ret (if existsb (Z.eqb (BytesPerSector h)) sector_sizes && existsb (Z.eqb (SectorsPerCluster h)) cluster_sizes &&
      negb ((DetermineFATVersion (clusters_code h spf32) =? 32) && negb (root_code h =? 0)) && (u64 (BytesPerSector h * SectorsPerCluster h) <=? 32768)
    then inl (boot_code h spf32) else inr (K ErrFileSystemCorrupted)).
Proof.
  intros H1 H2. unfold process_boot. rewrite (proj2 (Z.eqb_neq _ _) H1), (proj2 (Z.eqb_neq _ _) H2). cbv zeta.
  assert ((if negb (sectorsPerFAT16 h =? 0) then sectorsPerFAT16 h else spf32) = vol_fat_size h spf32) as -> by (unfold vol_fat_size; destruct (_ =? 0); reflexivity).
  assert ((if negb (totalSectors16 h =? 0) then totalSectors16 h else totalSectors32 h) = vol_sectors h) as -> by (unfold vol_sectors; destruct (_ =? 0); reflexivity).
  fold (root_code h) (vol_fats h spf32). fold (clusters_code h spf32). fold sector_sizes cluster_sizes.
  destruct (existsb (Z.eqb (BytesPerSector h)) sector_sizes); cbn [negb andb]; [|reflexivity].
  destruct (existsb (Z.eqb (SectorsPerCluster h)) cluster_sizes); cbn [negb andb]; [|reflexivity].
  destruct ((DetermineFATVersion (clusters_code h spf32) =? 32) && negb (root_code h =? 0)); cbn [negb andb]; [reflexivity|].
  rewrite Z.gtb_ltb, Z.leb_antisym. destruct (32768 <? _); reflexivity.
Qed.
Lemma process_accepts h spf32 b : process_boot h spf32 = Ret (inl b) ->
  BytesPerSector h <> 0 /\ SectorsPerCluster h <> 0 /\ In (BytesPerSector h) sector_sizes /\ In (SectorsPerCluster h) cluster_sizes /\
  (DetermineFATVersion (clusters_code h spf32) = 32 -> root_code h = 0) /\ BytesPerSector h * SectorsPerCluster h <= 32768 /\ b = boot_code h spf32.
Proof.
  intros E. assert (BytesPerSector h <> 0) as H1. { intros X. unfold process_boot in E. rewrite X in E. discriminate. }
  assert (SectorsPerCluster h <> 0) as H2. { intros X. unfold process_boot in E. rewrite X in E. cbn in E. destruct (BytesPerSector h =? 0); discriminate. }
  rewrite (process_cases h spf32 H1 H2) in E. destruct (_ && _) eqn:EC in E; [|discriminate]. rewrite !andb_true_iff, !existsb_eqb in EC.
  destruct EC as (((A & B) & C) & D). split; [exact H1|]. split; [exact H2|]. split; [exact A|]. split; [exact B|].
  assert (u64 (BytesPerSector h * SectorsPerCluster h) = BytesPerSector h * SectorsPerCluster h) as EU.
  { unfold u64. apply Z.mod_small. cbn in A, B. clear -A B. split; [|apply Z.lt_trans with (4097 * 129)]; try lia; nia. }
  split; [|split].
  - intros V. rewrite V in C. cbn [negb andb] in C. rewrite andb_true_l, negb_involutive in C. lia.
  - rewrite EU in D. lia.
  - congruence.
Qed.
Lemma process_panics h spf32 : process_boot h spf32 = Panic <-> BytesPerSector h = 0 \/ SectorsPerCluster h = 0.
Proof.
  split.
  - intros E. destruct (Z.eq_dec (BytesPerSector h) 0) as [|H1]; [now left|]. destruct (Z.eq_dec (SectorsPerCluster h) 0) as [|H2]; [now right|].
    rewrite (process_cases h spf32 H1 H2) in E. discriminate.
  - unfold process_boot. intros [-> | E]; [reflexivity|]. rewrite E. cbn. destruct (_ =? 0); reflexivity.
Qed.

Lemma u64_small' x : 0 <= x < 2^64 -> u64 x = x.
Proof. apply Z.mod_small. Qed.
Lemma u64_add a b : u64 (u64 a + b) = u64 (a + b).
Proof. unfold u64. now rewrite Z.add_mod_idemp_l by discriminate. Qed.
Lemma vol_facts h spf32 : raw_ok h -> 0 <= spf32 < 2^32 -> 0 <= vol_fats h spf32 < 2^40 /\ 0 <= vol_sectors h < 2^32.
Proof.
  intros (A & B & C & D & E & G & I & J) HS. unfold vol_fats, vol_fat_size, vol_sectors. assert (0 <= (if sectorsPerFAT16 h =? 0 then spf32 else sectorsPerFAT16 h) < 2^32) by (destruct (_ =? 0); lia).
  split; [split; [apply Z.mul_nonneg_nonneg; lia|]|destruct (totalSectors16 h =? 0); lia]. apply Z.le_lt_trans with (255 * (2^32 - 1)); [apply Z.mul_le_mono_nonneg; lia|reflexivity].
Qed.
Lemma root_code_right h : raw_ok h -> In (BytesPerSector h) sector_sizes -> 32 * RootEntryCount h + BytesPerSector h <= 2^16 -> root_code h = vol_root h.
Proof.
  intros (A & B & C & D & E & _) Hs Hr. assert (0 < BytesPerSector h <= 4096) by (cbn in Hs; lia). unfold root_code, vol_root, u16. rewrite !Z.mod_small; try lia.
  f_equal; lia.
Qed.
Lemma u16_range x : 0 <= u16 x < 2^16.
Proof. apply Z.mod_pos_bound. reflexivity. Qed.
Lemma root_code_range h : raw_ok h -> In (BytesPerSector h) sector_sizes -> 0 <= root_code h < 2^16.
Proof.
  intros (A & _) Hs. assert (0 < BytesPerSector h) by (cbn in Hs; lia). unfold root_code. pose proof (u16_range (u16 (RootEntryCount h * 32) + u16 (BytesPerSector h - 1))).
  split; [apply Z.div_pos; lia|]. apply Z.div_lt_upper_bound; [lia|]. assert (1 * 2^16 <= BytesPerSector h * 2^16) by (apply Z.mul_le_mono_nonneg_r; lia). lia.
Qed.
(* the layout the code computes, for volumes whose root directory size is computed without overflow and
   that are large enough for their own tables *)
Lemma layout_code h spf32 b : raw_ok h -> 0 <= spf32 < 2^32 -> process_boot h spf32 = Ret (inl b) ->
  32 * RootEntryCount h + BytesPerSector h <= 2^16 -> 0 <= vol_data h spf32 ->
  RootDirSectors b = vol_root h /\ SectorsPerFAT b = vol_fat_size h spf32 /\ TotalFATSectors b = vol_fats h spf32 /\
  BytesPerCluster b = BytesPerSector h * SectorsPerCluster h /\ TotalDataSectors b = vol_data h spf32 /\
  FirstDataSector b = vol_first_data h spf32 - vol_fats h spf32 /\
  TotalClusters b = (vol_data h spf32 + 2 * (vol_fats h spf32 + vol_root h)) / SectorsPerCluster h /\
  FATVersion b = vol_version (TotalClusters b).
Proof.
  intros Hr Hs Hp Hroot Hd. destruct (process_accepts _ _ _ Hp) as (H1 & H2 & A & B & _ & Hc & ->). destruct (vol_facts h spf32 Hr Hs) as [F1 F2].
  pose proof (root_code_right h Hr A Hroot) as ER. pose proof (root_code_range h Hr A) as RR. destruct Hr as (R1 & R2 & R3 & R4 & R5 & _).
  unfold vol_data, vol_first_data in *.
  cbn [boot_code RootDirSectors SectorsPerFAT TotalFATSectors BytesPerCluster TotalDataSectors FirstDataSector TotalClusters FATVersion].
  unfold clusters_code. rewrite ER in *. rewrite (u64_small' (vol_fats h spf32)) by lia.
  rewrite (u64_small' (vol_sectors h - ReservedSectors h)) by lia. rewrite (u64_add (vol_sectors h - ReservedSectors h + vol_fats h spf32)). rewrite (u64_small' (vol_sectors h - ReservedSectors h + vol_fats h spf32 + vol_root h)) by lia.
  rewrite (u64_add (ReservedSectors h + vol_fats h spf32)). rewrite (u64_small' (ReservedSectors h + vol_fats h spf32 + vol_root h)) by lia. rewrite (u64_small' (vol_sectors h - _)) by lia.
  rewrite (u64_small' (ReservedSectors h + vol_root h)) by lia. rewrite (u64_small' (BytesPerSector h * _)) by nia.
  split; [reflexivity|]. split; [reflexivity|]. split; [reflexivity|]. split; [reflexivity|]. split; [reflexivity|].
  split; [unfold u32; rewrite Z.mod_small; lia|]. split; [f_equal; lia|]. reflexivity.
Qed.

(** ** Dates *)
(* year and day of the year *)
Definition year_and_day (d : Z) : Z * Z :=
  let n := d / 146097 in let y := 400 * n in let d := d - 146097 * n in
  let n := d / 36524 in let n := n - n / 4 in let y := y + 100 * n in let d := d - 36524 * n in
  let n := d / 1461 in let y := y + 4 * n in let d := d - 1461 * n in
  let n := d / 365 in let n := n - n / 4 in let y := y + n in let d := d - 365 * n in
  (y + 1, d).
Definition in_year (leap : bool) (day : Z) : Z * Z :=
  if leap && (day =? 59) then (2, 29) else
  let day := if leap && (day >? 59) then day - 1 else day in
  let month := day / 31 in
  let end_ := daysBefore (month + 1) in
  if day >=? end_ then (month + 2, day - end_ + 1) else (month + 1, day - daysBefore month + 1).
Lemma abs_date_split d : abs_date d = (fst (year_and_day d), fst (in_year (isLeap (fst (year_and_day d))) (snd (year_and_day d))), snd (in_year (isLeap (fst (year_and_day d))) (snd (year_and_day d)))).
Proof.
  unfold abs_date, year_and_day, in_year. cbv zeta. cbn [fst snd].
  match goal with |- context [isLeap ?y] => generalize (isLeap y); intros L; generalize y; intros yy end.
  match goal with |- context [if L && (?x =? 59) then _ else _] => generalize x; intros x0 end.
  destruct (L && (x0 =? 59)); [reflexivity|]. destruct (_ >=? _); reflexivity.
Qed.
Lemma leap_same y : isLeap y = leap_year y.
Proof.
  unfold isLeap, leap_year. destruct (y mod 400 =? 0) eqn:E4; [|destruct (y mod 100 =? 0) eqn:E1; [|destruct (y mod 4 =? 0); reflexivity]].
  - rewrite orb_true_r, andb_true_r. apply Z.eqb_eq in E4. apply Z.eqb_eq. pose proof (Z.div_mod y 400 ltac:(discriminate)). symmetry. apply (Z.mod_unique _ _ (100 * (y / 400))); lia.
  - now rewrite andb_false_r.
Qed.
Lemma cycles y : exists a b c e, y - 1 = 400 * a + 100 * b + 4 * c + e /\ 0 <= b < 4 /\ 0 <= c < 25 /\ 0 <= e < 4 /\
  daysBeforeYear y = 146097 * a + 36524 * b + 1461 * c + 365 * e /\ isLeap y = (e =? 3) && (negb (c =? 24) || (b =? 3)).
Proof.
  set (x := y - 1). set (a := x / 400). set (r := x mod 400). set (b := r / 100). set (s := r mod 100). set (c := s / 4). set (e := s mod 4).
  pose proof (Z.div_mod x 400 ltac:(discriminate)) as D1. fold a r in D1. pose proof (Z.mod_pos_bound x 400 ltac:(lia)) as B1. fold r in B1.
  pose proof (Z.div_mod r 100 ltac:(discriminate)) as D2. fold b s in D2. pose proof (Z.mod_pos_bound r 100 ltac:(lia)) as B2. fold s in B2.
  pose proof (Z.div_mod s 4 ltac:(discriminate)) as D3. fold c e in D3. pose proof (Z.mod_pos_bound s 4 ltac:(lia)) as B3. fold e in B3.
  exists a, b, c, e. split; [lia|]. split; [lia|]. split; [lia|]. split; [lia|]. split.
  - unfold daysBeforeYear. fold x. replace (x / 4) with (100 * a + 25 * b + c) by (apply (Z.div_unique _ _ _ e); lia). replace (x / 100) with (4 * a + b) by (apply (Z.div_unique _ _ _ s); lia). fold a. lia.
  - unfold isLeap. assert (y = x + 1) as Ey by (unfold x; lia).
    replace (y mod 4) with (if e =? 3 then 0 else e + 1) by (destruct (e =? 3) eqn:E; [apply (Z.mod_unique _ _ (100 * a + 25 * b + c + 1))|apply (Z.mod_unique _ _ (100 * a + 25 * b + c))]; lia).
    replace (y mod 100) with (if s =? 99 then 0 else s + 1) by (destruct (s =? 99) eqn:E; [apply (Z.mod_unique _ _ (4 * a + b + 1))|apply (Z.mod_unique _ _ (4 * a + b))]; lia).
    replace (y mod 400) with (if r =? 399 then 0 else r + 1) by (destruct (r =? 399) eqn:E; [apply (Z.mod_unique _ _ (a + 1))|apply (Z.mod_unique _ _ a)]; lia).
    destruct (e =? 3) eqn:E1; [|cbn [andb]; lia]. destruct (s =? 99) eqn:E2; destruct (r =? 399) eqn:E3; lia.
Qed.
Lemma year_of_day y yd : 0 <= yd < 365 + (if isLeap y then 1 else 0) -> year_and_day (daysBeforeYear y + yd) = (y, yd).
Proof.
  intros H. destruct (cycles y) as (a & b & c & e & Ey & Hb & Hc & He & -> & L). rewrite L in H. unfold year_and_day. cbv zeta.
  assert (0 <= yd <= 365 /\ (yd = 365 -> e = 3 /\ (c = 24 -> b = 3))) as [Hy HL] by (destruct ((e =? 3) && (negb (c =? 24) || (b =? 3))) eqn:E; [split; [lia|]; intros; split; lia|lia]). clear H L.
  assert ((146097 * a + 36524 * b + 1461 * c + 365 * e + yd) / 146097 = a) as -> by (symmetry; apply (Z.div_unique _ _ _ (36524 * b + 1461 * c + 365 * e + yd)); lia).
  replace (146097 * a + 36524 * b + 1461 * c + 365 * e + yd - 146097 * a) with (36524 * b + 1461 * c + 365 * e + yd) by lia.
  assert ((36524 * b + 1461 * c + 365 * e + yd) / 36524 - (36524 * b + 1461 * c + 365 * e + yd) / 36524 / 4 = b) as ->.
  { destruct (Z_lt_ge_dec (1461 * c + 365 * e + yd) 36524) as [Hl|Hl].
    - assert ((36524 * b + 1461 * c + 365 * e + yd) / 36524 = b) as -> by (symmetry; apply (Z.div_unique _ _ _ (1461 * c + 365 * e + yd)); lia). rewrite Z.div_small by lia. lia.
    - assert ((36524 * b + 1461 * c + 365 * e + yd) / 36524 = b + 1) as -> by (symmetry; apply (Z.div_unique _ _ _ (1461 * c + 365 * e + yd - 36524)); lia). assert (b = 3) as -> by lia. reflexivity. }
  replace (36524 * b + 1461 * c + 365 * e + yd - 36524 * b) with (1461 * c + 365 * e + yd) by lia.
  assert ((1461 * c + 365 * e + yd) / 1461 = c) as -> by (symmetry; apply (Z.div_unique _ _ _ (365 * e + yd)); lia).
  replace (1461 * c + 365 * e + yd - 1461 * c) with (365 * e + yd) by lia.
  assert ((365 * e + yd) / 365 - (365 * e + yd) / 365 / 4 = e) as ->.
  { destruct (Z.eq_dec yd 365) as [->|].
    - assert (e = 3) as -> by lia. reflexivity.
    - assert ((365 * e + yd) / 365 = e) as -> by (symmetry; apply (Z.div_unique _ _ _ yd); lia). rewrite Z.div_small by lia. lia. }
  f_equal; lia.
Qed.
Definition month_start (leap : bool) (m : Z) : Z := daysBefore (m - 1) + (if leap && (m - 1 >=? 2) then 1 else 0).
Definition month_len (leap : bool) (m : Z) : Z := if m =? 2 then if leap then 29 else 28 else if (m =? 4) || (m =? 6) || (m =? 9) || (m =? 11) then 30 else 31.
Definition month_ok (leap : bool) (m : Z) : bool :=
  forallb (fun k => let d := Z.of_nat k + 1 in (month_len leap m <? d) || (let (m', d') := in_year leap (month_start leap m + (d - 1)) in (m' =? m) && (d' =? d))) (seq 0 31).
Lemma months_ok : forallb (fun k => month_ok true (Z.of_nat k + 1) && month_ok false (Z.of_nat k + 1)) (seq 0 12) = true.
Proof. vm_compute. reflexivity. Qed.
Lemma day_of_year leap m d : 1 <= m <= 12 -> 1 <= d <= month_len leap m -> in_year leap (month_start leap m + (d - 1)) = (m, d).
Proof.
  intros Hm Hd. assert (month_len leap m <= 31) by (unfold month_len; destruct (m =? 2), leap; try lia; destruct (_ || _); lia).
  assert (month_ok leap m = true) as Hok.
  { pose proof months_ok as H0. rewrite forallb_forall in H0. specialize (H0 (Z.to_nat (m - 1))). replace (Z.of_nat (Z.to_nat (m - 1)) + 1) with m in H0 by lia. assert (In (Z.to_nat (m - 1)) (seq 0 12)) as Hin by (apply in_seq; lia). apply H0 in Hin. apply andb_true_iff in Hin. destruct leap; apply Hin. }
  unfold month_ok in Hok. rewrite forallb_forall in Hok. specialize (Hok (Z.to_nat (d - 1))). cbv zeta in Hok. replace (Z.of_nat (Z.to_nat (d - 1)) + 1) with d in Hok by lia.
  assert (In (Z.to_nat (d - 1)) (seq 0 31)) as Hin by (apply in_seq; lia). apply Hok in Hin. apply orb_true_iff in Hin as [|Hin]; [lia|].
  destruct (in_year leap _) as [m' d']. f_equal; lia.
Qed.
Lemma month_len_spec y m : month_len (isLeap y) m = days_in_month y m.
Proof. rewrite leap_same. unfold month_len, days_in_month. destruct (m =? 2) eqn:E2; [|now destruct (_ || _)]. apply Z.eqb_eq in E2. subst m. cbn. destruct (leap_year y); reflexivity. Qed.
Lemma month_fits leap m : 1 <= m <= 12 -> 0 <= month_start leap m /\ month_start leap m + month_len leap m <= 365 + (if leap then 1 else 0).
Proof.
  intros Hm. assert (m = 1 \/ m = 2 \/ m = 3 \/ m = 4 \/ m = 5 \/ m = 6 \/ m = 7 \/ m = 8 \/ m = 9 \/ m = 10 \/ m = 11 \/ m = 12) as Hc by lia.
  destruct leap; repeat destruct Hc as [->|Hc]; try subst m; split; vm_compute; discriminate.
Qed.
(* every date of every year *)
Lemma civil y m d : 1 <= m <= 12 -> 1 <= d <= days_in_month y m ->
  abs_date (time_date y m d 0 0 0 0 / dayNs) = (y, m, d) /\ time_date y m d 0 0 0 0 mod dayNs = 0.
Proof.
  intros Hm Hd. assert (time_date y m d 0 0 0 0 = (daysBeforeYear y + (month_start (isLeap y) m + (d - 1))) * dayNs) as ->.
  { unfold time_date, month_start, dayNs. cbv zeta. rewrite (Z.div_small (m - 1)), (Z.mod_small (m - 1)) by lia. rewrite !Z.add_0_r. lia. }
  rewrite Z.div_mul, Z.mod_mul by discriminate. split; [|reflexivity]. rewrite <- month_len_spec in Hd.
  assert (0 <= month_start (isLeap y) m + (d - 1) < 365 + (if isLeap y then 1 else 0)) as Hr.
  { destruct (month_fits (isLeap y) m Hm) as [A B]. lia. }
  rewrite abs_date_split, (year_of_day y _ Hr). cbn [fst snd]. rewrite day_of_year by lia. reflexivity.
Qed.
Lemma stored_fields v y m d : stored_date v y m d -> 0 <= v < 2^16 /\ v / 512 = y - 1980 /\ v / 32 mod 16 = m /\ v mod 32 = d /\ 1 <= m <= 12 /\ 1 <= d <= 31.
Proof.
  intros (-> & Hy & Hm & Hd). assert (days_in_month y m <= 31) by (unfold days_in_month; repeat destruct (_ =? _); cbn [orb]; destruct (leap_year y); lia).
  assert (((y - 1980) * 512 + m * 32 + d) / 32 = (y - 1980) * 16 + m) as E.
  { symmetry. apply (Z.div_unique _ _ _ d); lia. }
  split; [lia|]. split; [symmetry; apply (Z.div_unique _ _ _ (m * 32 + d)); lia|]. split.
  - rewrite E. symmetry. apply (Z.mod_unique _ _ (y - 1980)); lia.
  - split; [|lia]. symmetry. apply (Z.mod_unique _ _ ((y - 1980) * 16 + m)); lia.
Qed.
Lemma date_right v y m d : stored_date v y m d ->
  exists t, DateFromInt true v = Ret t /\ time_date y m d 0 0 0 0 = t /\ abs_date (t / dayNs) = (y, m, d) /\ t mod dayNs = 0.
Proof.
  intros Hs. pose proof (stored_fields _ _ _ _ Hs) as (Hv & Ey & Em & Ed & Hm & Hd).
  destruct Hs as (_ & Hy & Hm' & Hdm). destruct (civil y m d Hm' Hdm) as [HA HB].
  exists (time_date y m d 0 0 0 0). split.
  - unfold DateFromInt. rewrite !Z.shiftr_div_pow2 by lia. change 0x1f with (Z.ones 5). change 0xf with (Z.ones 4). rewrite !Z.land_ones by lia.
    change (2^5) with 32. change (2^4) with 16. change (2^9) with 512. rewrite Ey, Em, Ed. unfold u16. rewrite Z.mod_small by lia. do 2 f_equal. lia.
  - auto.
Qed.
Lemma time_fields v h mi s2 : stored_time v h mi s2 -> 0 <= v < 2^16 /\ v / 2048 = h /\ v / 32 mod 64 = mi /\ v mod 32 = s2.
Proof.
  intros (-> & Hh & Hm & Hs). assert ((h * 2048 + mi * 32 + s2) / 32 = h * 64 + mi) as E by (symmetry; apply (Z.div_unique _ _ _ s2); lia).
  split; [lia|]. split; [symmetry; apply (Z.div_unique _ _ _ (mi * 32 + s2)); lia|]. split.
  - rewrite E. symmetry. apply (Z.mod_unique _ _ h); lia.
  - symmetry. apply (Z.mod_unique _ _ (h * 64 + mi)); lia.
Qed.
Definition tod (h mi s ns : Z) : Z := ((h * 60 + mi) * 60 + s) * secondNs + ns.
Lemma time_date_tod y m d h mi s ns : time_date y m d h mi s ns = time_date y m d 0 0 0 0 + tod h mi s ns.
Proof. unfold time_date, tod, secondNs. cbv zeta. lia. Qed.
Lemma tod_fields D h mi s ns : 0 <= h <= 23 -> 0 <= mi <= 59 -> 0 <= s <= 59 -> 0 <= ns < secondNs ->
  let t := D * dayNs + tod h mi s ns in t / dayNs = D /\ t_hour t = h /\ t_minute t = mi /\ t_second t = s /\ t_nanosecond t = ns.
Proof.
  intros Hh Hm Hs Hn t. assert (0 <= tod h mi s ns < dayNs) as HT by (unfold tod, dayNs, secondNs in *; lia).
  assert (t mod dayNs = tod h mi s ns) as E by (symmetry; apply (Z.mod_unique _ _ D); [lia|unfold t; lia]).
  unfold t_hour, t_minute, t_second, t_nanosecond. rewrite E.
  split; [symmetry; apply (Z.div_unique _ _ _ (tod h mi s ns)); [lia|unfold t; lia]|].
  split; [symmetry; apply (Z.div_unique _ _ _ ((mi * 60 + s) * secondNs + ns)); unfold tod, secondNs in *; lia|].
  assert (t mod (3600 * secondNs) = (mi * 60 + s) * secondNs + ns) as ->.
  { symmetry. apply (Z.mod_unique _ _ (D * 24 + h)); unfold t, tod, dayNs, secondNs in *; lia. }
  assert (t mod (60 * secondNs) = s * secondNs + ns) as ->.
  { symmetry. apply (Z.mod_unique _ _ ((D * 24 + h) * 60 + mi)); unfold t, tod, dayNs, secondNs in *; lia. }
  split; [symmetry; apply (Z.div_unique _ _ _ (s * secondNs + ns)); unfold secondNs in *; lia|].
  split; [symmetry; apply (Z.div_unique _ _ _ ns); lia|].
  symmetry. apply (Z.mod_unique _ _ (((D * 24 + h) * 60 + mi) * 60 + s)); [lia|unfold t, tod, dayNs, secondNs in *; lia].
Qed.
Lemma timestamp_right v y m d tv h mi s2 hund : stored_date v y m d -> stored_time tv h mi s2 -> 0 <= hund < 200 ->
  exists t, TimestampFromParts true v tv hund = Ret t /\ t_year t = y /\ t_month t = m /\ t_day t = d /\ t_hour t = h /\ t_minute t = mi /\
    t_second t = 2 * s2 + hund / 100 /\ t_nanosecond t = (tv * 10000) mod 2^16.
Proof.
  intros Hd Ht Hh. destruct (date_right _ _ _ _ Hd) as (t0 & E0 & ED & Ea & Em). destruct (time_fields _ _ _ _ Ht) as (Htv & T1 & T2 & T3). destruct Ht as (_ & Hh' & Hm' & Hs').
  assert (exists sec, TimestampFromParts true v tv hund = Ret (time_date y m d h mi sec ((tv * 10000) mod 2^16)) /\ sec = 2 * s2 + hund / 100) as (sec & ET & Es).
  { unfold TimestampFromParts. rewrite E0. cbn [obind]. unfold t_year, t_month, t_day. rewrite Ea. rewrite !Z.shiftr_div_pow2 by lia. change 0x1f with (Z.ones 5). change 0x3f with (Z.ones 6).
    rewrite !Z.land_ones by lia. change (2^5) with 32. change (2^6) with 64. change (2^11) with 2048. rewrite T1, T2, T3. unfold u16.
    rewrite (Z.mod_small (s2 * 2)) by lia. destruct (hund >=? 100) eqn:EG.
    - exists (s2 * 2 + 1). split; [reflexivity|]. replace (hund / 100) with 1 by (apply (Z.div_unique _ _ _ (hund - 100)); lia). lia.
    - exists (s2 * 2). split; [reflexivity|]. rewrite Z.div_small by lia. lia. }
  pose proof (Z.mod_pos_bound (tv * 10000) (2^16) ltac:(lia)) as HN.
  assert (0 <= hund / 100 <= 1) by (split; [apply Z.div_pos; lia|apply Z.lt_succ_r, Z.div_lt_upper_bound; lia]).
  rewrite time_date_tod, ED in ET. assert (t0 = (t0 / dayNs) * dayNs) as E1 by (pose proof (Z.div_mod t0 dayNs ltac:(discriminate)); lia).
  destruct (tod_fields (t0 / dayNs) h mi sec ((tv * 10000) mod 2^16)) as (D1 & D2 & D3 & D4 & D5); try lia; [unfold secondNs; lia|].
  rewrite <- E1 in *. eexists. split; [exact ET|]. unfold t_year, t_month, t_day. rewrite D1, Ea. repeat split; try assumption. lia.
Qed.

(** ** Reading a header back *)
Lemma byte1 v : 0 <= v < 2^8 -> v mod 256 = v.
Proof. intros. apply Z.mod_small. lia. Qed.
Lemma byte2 v : 0 <= v < 2^16 -> v mod 256 + 2^8 * (v / 256 mod 256) = v.
Proof. intros. rewrite (Z.mod_small (v / 256)) by (split; [apply Z.div_pos; lia|apply Z.div_lt_upper_bound; lia]). pose proof (Z.div_mod v 256 ltac:(lia)). lia. Qed.
Lemma byte4 v : 0 <= v < 2^32 -> v mod 256 + 2^8 * (v / 256 mod 256) + 2^16 * (v / 256 / 256 mod 256 + 2^8 * (v / 256 / 256 / 256 mod 256)) = v.
Proof.
  intros. rewrite (byte2 (v / 256 / 256)) by (rewrite Z.div_div by lia; split; [apply Z.div_pos; lia|apply Z.div_lt_upper_bound; lia]).
  pose proof (Z.div_mod v 256 ltac:(lia)). pose proof (Z.div_mod (v / 256) 256 ltac:(lia)). lia.
Qed.
Lemma decode_bytes j0 j1 j2 o0 o1 o2 o3 o4 o5 o6 o7 b11 b12 b13 b14 b15 b16 b17 b18 b19 b20 b21 b22 b23 b24 b25 b26 b27 b28 b29 b30 b31 b32 b33 b34 b35 rest :
  decode_boot (j0 :: j1 :: j2 :: o0 :: o1 :: o2 :: o3 :: o4 :: o5 :: o6 :: o7 :: b11 :: b12 :: b13 :: b14 :: b15 :: b16 :: b17 :: b18 :: b19 :: b20 :: b21 :: b22 :: b23 :: b24 :: b25 :: b26 :: b27 :: b28 :: b29 :: b30 :: b31 :: b32 :: b33 :: b34 :: b35 :: rest) =
  mkRaw [j0; j1; j2] [o0; o1; o2; o3; o4; o5; o6; o7] (b11 + 2^8 * b12) b13 (b14 + 2^8 * b15) b16 (b17 + 2^8 * b18) (b19 + 2^8 * b20) b21 (b22 + 2^8 * b23) (b24 + 2^8 * b25) (b26 + 2^8 * b27)
    (b28 + 2^8 * b29 + 2^16 * (b30 + 2^8 * b31)) (b32 + 2^8 * b33 + 2^16 * (b34 + 2^8 * b35)).
Proof. reflexivity. Qed.
Lemma boot_roundtrip h spf32 rest : header_ok h -> 0 <= spf32 < 2^32 -> new_boot true (boot_bytes h spf32 ++ rest) = process_boot h spf32.
Proof.
  destruct h as [j o f1 f2 f3 f4 f5 f6 f7 f8 f9 f10 f11 f12]. unfold header_ok, raw_ok.
  cbn [JmpBoot OEMName BytesPerSector SectorsPerCluster ReservedSectors NumFATs RootEntryCount totalSectors16 Media sectorsPerFAT16 SectorsPerTrack NumHeads HiddenSectors totalSectors32].
  intros ((H1 & H2 & H3 & H4 & H5 & H6 & H8 & H12) & Lj & Lo & H7 & H9 & H10 & H11) H13.
  unfold zlen in Lj, Lo.
  destruct j as [|j0 [|j1 [|j2 [|]]]]; cbn [length] in Lj; try (exfalso; lia).
  destruct o as [|o0 [|o1 [|o2 [|o3 [|o4 [|o5 [|o6 [|o7 [|]]]]]]]]]; cbn [length] in Lo; try (exfalso; lia).
  unfold boot_bytes. cbn [JmpBoot OEMName BytesPerSector SectorsPerCluster ReservedSectors NumFATs RootEntryCount totalSectors16 Media sectorsPerFAT16 SectorsPerTrack NumHeads HiddenSectors totalSectors32 le_bytes app].
  unfold new_boot. match goal with |- context [zlen ?l <? 36] => assert (40 <= zlen l) as L by (unfold zlen; cbn [length]; lia); assert (zlen l <? 36 = false) as -> by lia; assert (zlen l <? 40 = false) as -> by lia end.
  cbn [negb]. clear L. rewrite decode_bytes, !byte2, !byte4, !byte1 by assumption.
  match goal with |- process_boot _ ?b = process_boot _ ?d => assert (b = d) as ->; [|reflexivity] end.
  match goal with |- le32 ?l 36 = _ => transitivity (spf32 mod 256 + 2^8 * (spf32 / 256 mod 256) + 2^16 * (spf32 / 256 / 256 mod 256 + 2^8 * (spf32 / 256 / 256 / 256 mod 256))) end; [reflexivity|apply byte4; exact H13].
Qed.
