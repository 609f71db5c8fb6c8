(** * Property theorems C161: FormatImage and the reference images (proofs in Fat8RefProofs). *)
From Verif Require Import GoBase ListZ Errors OsFile Fat8 Spec_Fat8 Fat8Proofs Fat8Proofs2 Fat8Proofs3 Fat8Proofs4 Fat8Proofs5 Fat8Proofs6 Props_Fat8 Spec_Fat8Ref Fat8RefProofs.

(* the bytes in which the two differ: four entries of each FAT copy *)
Definition differing (sectors p : Z) : Prop :=
  exists k e, In k [0; 1; 2] /\
    (sectors = 2002 /\ In e [34; 35; 70; 71] /\ p = 128 * (904 + 2 * k) + e \/
     sectors = 640 /\ In e [17; 18; 34; 35] /\ p = 128 * (285 + k) + e).
(* a blank file (an empty one is blank) formatted at the size of a reference image differs from it in exactly twelve bytes *)
Theorem C161_difference d f sectors R d' f' : healthy f -> Forall (fun b => b = 0) (contents f) -> reference sectors R ->
  format8 d f (128 * sectors) = Ret (d', f', None) ->
  zlen (contents f') = zlen R /\ forall p, 0 <= p < zlen R -> (byte_at f' p <> znth 0 R p <-> differing sectors p).
Proof.
  intros Hh Hb HR H. assert (exists g, get_geometry sectors = inl g) as [g Hg] by (destruct HR; eexists; reflexivity).
  assert (isMounted d = false) as Hm.
  { apply (C59_format_iff d f (128 * sectors) Hh ltac:(destruct HR; lia)). eauto. }
  destruct (format_blank d f sectors g Hh Hm Hg Hb) as (f1 & E & EC). rewrite E in H. assert (f' = f1) as -> by congruence. unfold byte_at. rewrite EC.
  destruct HR as [|]; injection Hg as <-.
  - change (DirectoryTrackStart (finish_geometry 73 77 26 35)) with 884. change (InfoSectorStart (finish_geometry 73 77 26 35)) with 903.
    change (SectorsPerFAT (finish_geometry 73 77 26 35)) with 2. change (DirectoryTrackNumber (finish_geometry 73 77 26 35) - 1) with 34.
    unfold empty_floppy_img. rewrite !zlen_blank by (unfold sane; lia). split; [reflexivity|]. intros p Hp. rewrite !znth_blank by (unfold sane; lia).
    unfold differing. cbn [In]. cbv zeta. set (q := p - 128 * (903 + 1)). pose proof (Z.div_mod q (128 * 2) ltac:(lia)) as HD. pose proof (Z.mod_pos_bound q (128 * 2) ltac:(lia)) as HB.
    destruct (p <? 128 * 884) eqn:E1; [split; [congruence|intros (k & e & HX); lia]|].
    destruct (p <? 128 * 903) eqn:E2; [split; [congruence|intros (k & e & HX); lia]|].
    destruct (p <? 128 * (903 + 1)) eqn:E3; [split; [congruence|intros (k & e & HX); lia]|].
    destruct (p <? 128 * (903 + 1 + 3 * 2)) eqn:E4; [|split; [congruence|intros (k & e & HX); lia]].
    set (m := q mod (128 * 2)) in *. set (k := q / (128 * 2)) in *. assert (q = p - 128 * (903 + 1)) as Eq by reflexivity. clearbody m k q. split.
    + intros HN. exists k, m. split; [lia|]. left. split; [reflexivity|].
      destruct ((m =? 34) || (m =? 34 + 1)) eqn:A; destruct ((m =? 70) || (m =? 70 + 1)) eqn:B; try congruence; lia.
    + intros (k' & e & Hk & [(_ & He & Hp')|(Hs & _)]); [|lia].
      assert (k' = k /\ e = m) as [-> ->] by lia.
      destruct ((m =? 34) || (m =? 34 + 1)) eqn:A; destruct ((m =? 70) || (m =? 70 + 1)) eqn:B; try congruence; lia.
  - change (DirectoryTrackStart (finish_geometry 40 40 16 18)) with 272. change (InfoSectorStart (finish_geometry 40 40 16 18)) with 284.
    change (SectorsPerFAT (finish_geometry 40 40 16 18)) with 1. change (DirectoryTrackNumber (finish_geometry 40 40 16 18) - 1) with 17.
    unfold empty_minifloppy_img. rewrite !zlen_blank by (unfold sane; lia). split; [reflexivity|]. intros p Hp. rewrite !znth_blank by (unfold sane; lia).
    unfold differing. cbn [In]. cbv zeta. set (q := p - 128 * (284 + 1)). pose proof (Z.div_mod q (128 * 1) ltac:(lia)) as HD. pose proof (Z.mod_pos_bound q (128 * 1) ltac:(lia)) as HB.
    destruct (p <? 128 * 272) eqn:E1; [split; [congruence|intros (k & e & HX); lia]|].
    destruct (p <? 128 * 284) eqn:E2; [split; [congruence|intros (k & e & HX); lia]|].
    destruct (p <? 128 * (284 + 1)) eqn:E3; [split; [congruence|intros (k & e & HX); lia]|].
    destruct (p <? 128 * (284 + 1 + 3 * 1)) eqn:E4; [|split; [congruence|intros (k & e & HX); lia]].
    set (m := q mod (128 * 1)) in *. set (k := q / (128 * 1)) in *. assert (q = p - 128 * (284 + 1)) as Eq by reflexivity. clearbody m k q. split.
    + intros HN. exists k, m. split; [lia|]. right. split; [reflexivity|].
      destruct ((m =? 17) || (m =? 17 + 1)) eqn:A; destruct ((m =? 34) || (m =? 34 + 1)) eqn:B; try congruence; lia.
    + intros (k' & e & Hk & [(Hs & _)|(_ & He & Hp')]); [lia|].
      assert (k' = k /\ e = m) as [-> ->] by lia.
      destruct ((m =? 17) || (m =? 17 + 1)) eqn:A; destruct ((m =? 34) || (m =? 34 + 1)) eqn:B; try congruence; lia.
Qed.
(* so FormatImage never produces the reference image, from whatever blank file and driver *)
Theorem C161_reference_refuted d f sectors R d' f' : healthy f -> Forall (fun b => b = 0) (contents f) -> reference sectors R ->
  format8 d f (128 * sectors) = Ret (d', f', None) -> contents f' <> R.
Proof.
  intros Hh Hb HR H E. destruct (C161_difference d f sectors R d' f' Hh Hb HR H) as [_ HD]. unfold byte_at in HD. rewrite E in HD.
  destruct HR as [|].
  - apply (proj2 (HD (128 * 904 + 34) ltac:(change (zlen empty_floppy_img) with (zlen (blank_image 2002 884 903 2 70)); rewrite zlen_blank by (unfold sane; lia); lia))); [|reflexivity].
    exists 0, 34. cbn [In]. lia.
  - apply (proj2 (HD (128 * 285 + 34) ltac:(change (zlen empty_minifloppy_img) with (zlen (blank_image 640 272 284 1 34)); rewrite zlen_blank by (unfold sane; lia); lia))); [|reflexivity].
    exists 0, 34. cbn [In]. lia.
Qed.
(* everything else is as in the reference image: the size, the directory, the information sector, the data area, and the FATs except for those
   entries; the entries that are reserved are two, as in the reference image *)
Theorem C161_formatted_partial d f tb g : healthy f -> isMounted d = false -> get_geometry tb = inl g -> Forall (fun b => b = 0) (contents f) ->
  exists d' f', format8 d f (128 * tb) = Ret (d', f', None) /\
    contents f' = blank_image tb (DirectoryTrackStart g) (InfoSectorStart g) (SectorsPerFAT g) (DirectoryTrackNumber g - 1).
Proof. intros Hh Hm Hg Hb. destruct (format_blank d f tb g Hh Hm Hg Hb) as (f' & E & EC). eauto. Qed.
(* in the reference minifloppy the reserved entries are those of the clusters that make up the directory track, and only those; in the reference
   floppy they are those of the track behind it, and the clusters of the directory track are free *)
Theorem C161_reference_marks sectors R g k c : reference sectors R -> get_geometry sectors = inl g -> k = 0 \/ k = 1 \/ k = 2 ->
  1 <= c <= TotalClusters g ->
  let entry := znth 0 (fat_copy g (mkFile R []) k) (c - 1) in
  let holds s := sector_in_cluster g s c in
  (sectors = 640 -> (entry = 254 <-> exists s, sector_in_directory g s /\ holds s) /\ (entry = 255 <-> ~ exists s, sector_in_directory g s /\ holds s)) /\
  (sectors = 2002 -> (entry = 254 <-> exists s, sector_in_directory g (s - SectorsPerTrack g) /\ holds s) /\
                     (entry = 255 <-> ~ exists s, sector_in_directory g (s - SectorsPerTrack g) /\ holds s)).
Proof.
  intros HR Hg Hk Hc entry holds.
  assert (forall sectors dir info spf mark, sane sectors dir info spf mark -> FATsStart g = info + 1 -> SectorsPerFAT g = spf -> TotalClusters g <= 128 * spf ->
    R = blank_image sectors dir info spf mark -> entry = if (c - 1 =? mark) || (c - 1 =? mark + 1) then 254 else 255) as HE.
  { intros sec dir info spf mark HS E1 E2 E3 ->. unfold entry, fat_copy, blocks_of. cbn [contents]. rewrite E1, E2. destruct HS as (S1 & S2 & S3 & S4 & S5).
    rewrite znth_slice by lia. rewrite znth_blank by (try (repeat split; lia); nia).
    replace (_ <? 128 * dir) with false by nia. replace (_ <? 128 * info) with false by nia. replace (_ <? 128 * (info + 1)) with false by nia.
    replace (_ <? 128 * (info + 1 + 3 * spf)) with true by nia. cbv zeta.
    replace ((_ - _) mod (128 * spf)) with (c - 1); [reflexivity|]. apply Z.mod_unique_pos with k; nia. }
  destruct HR as [|]; injection Hg as <-; (split; [intros E|intros E]; try discriminate).
  - rewrite (HE 2002 884 903 2 70) by (try reflexivity; unfold sane; try lia; vm_compute; congruence). clear HE. subst holds.
    unfold sector_in_cluster, sector_in_directory. cbn [finish_geometry SectorsPerTrack SectorsPerCluster DirectoryTrackStart].
    change (26 / 2) with 13. change (u64 (u64 (35 - 1) * 26)) with 884.
    destruct ((c - 1 =? 70) || (c - 1 =? 70 + 1)) eqn:B; (split; split; [intros X|intros X|intros X|intros X]); try congruence; try (exfalso; lia).
    all: try (exists ((c - 1) * 13); lia). all: try (intros (s & ? & ?); lia). all: try (destruct X as (s & ? & ?); lia). exfalso. apply X. exists ((c - 1) * 13). lia.
  - rewrite (HE 640 272 284 1 34) by (try reflexivity; unfold sane; try lia; vm_compute; congruence). clear HE. subst holds.
    unfold sector_in_cluster, sector_in_directory. cbn [finish_geometry SectorsPerTrack SectorsPerCluster DirectoryTrackStart].
    change (16 / 2) with 8. change (u64 (u64 (18 - 1) * 16)) with 272.
    destruct ((c - 1 =? 34) || (c - 1 =? 34 + 1)) eqn:B; (split; split; [intros X|intros X|intros X|intros X]); try congruence; try (exfalso; lia).
    all: try (exists ((c - 1) * 8); lia). all: try (intros (s & ? & ?); lia). all: try (destruct X as (s & ? & ?); lia). exfalso. apply X. exists ((c - 1) * 8). lia.
Qed.
Example C161_example : healthy empty_file /\ Forall (fun b => b = 0) (contents empty_file) /\ reference 640 empty_minifloppy_img /\
  (exists f', format8 new_driver empty_file (128 * 640) = Ret (demo8, f', None)) /\ differing 640 (128 * 285 + 17) /\ differing 640 (128 * 285 + 34) /\
  get_geometry 640 = inl G640 /\ 1 <= 35 <= TotalClusters G640.
Proof.
  split; [reflexivity|]. split; [constructor|]. split; [constructor|]. split; [exists demo_img; apply demo_formats|].
  split; [exists 0, 17; cbn [In]; lia|]. split; [exists 0, 34; cbn [In]; lia|]. split; [reflexivity|]. vm_compute. split; congruence.
Qed.
Print Assumptions C161_difference.
Print Assumptions C161_reference_refuted.
Print Assumptions C161_formatted_partial.
Print Assumptions C161_reference_marks.
