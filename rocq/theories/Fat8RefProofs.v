(** * Fat8RefProofs: FormatImage and the reference images (C161). *)
From Verif Require Import GoBase ListZ Errors OsFile Fat8 Spec_Fat8 Fat8Proofs Fat8Proofs2 Fat8Proofs3 Fat8Proofs4 Fat8Proofs5 Fat8Proofs6 Spec_Fat8Ref.

Lemma zlen_one_fat spf mark : 0 <= mark -> mark + 2 <= 128 * spf -> zlen (one_fat spf mark) = 128 * spf.
Proof. intros. unfold one_fat. rewrite !zlen_app, !zlen_repeat by lia. change (zlen [254; 254]) with 2. lia. Qed.
Lemma znth_one_fat spf mark i : 0 <= mark -> mark + 2 <= 128 * spf -> 0 <= i < 128 * spf ->
  znth 0 (one_fat spf mark) i = if (i =? mark) || (i =? mark + 1) then 254 else 255.
Proof.
  intros Hm Hs Hi. unfold one_fat. rewrite znth_app, zlen_repeat by lia. destruct (i <? mark) eqn:E1.
  - rewrite znth_repeat by lia. now replace ((i =? mark) || (i =? mark + 1)) with false by lia.
  - rewrite znth_app by lia. change (zlen [254; 254]) with 2. destruct (i - mark <? 2) eqn:E2.
    + replace ((i =? mark) || (i =? mark + 1)) with true by lia. assert (i - mark = 0 \/ i - mark = 1) as [-> | ->] by lia; reflexivity.
    + rewrite znth_repeat by lia. now replace ((i =? mark) || (i =? mark + 1)) with false by lia.
Qed.
(* the fields of the description make sense *)
Definition sane (sectors dir info spf mark : Z) : Prop := 0 < dir < info /\ 0 < spf /\ info + 1 + 3 * spf <= sectors /\ 0 <= mark /\ mark + 2 <= 128 * spf.
Lemma zlen_blank sectors dir info spf mark : sane sectors dir info spf mark -> zlen (blank_image sectors dir info spf mark) = 128 * sectors.
Proof. intros (H1 & H2 & H3 & H4 & H5). unfold blank_image. rewrite !zlen_app, !zlen_repeat, !zlen_one_fat by lia. lia. Qed.
(* byte p, by position *)
Lemma znth_blank sectors dir info spf mark p : sane sectors dir info spf mark -> 0 <= p < 128 * sectors ->
  znth 0 (blank_image sectors dir info spf mark) p =
  if p <? 128 * dir then 0 else if p <? 128 * info then 255 else if p <? 128 * (info + 1) then 0
  else if p <? 128 * (info + 1 + 3 * spf) then
    let e := (p - 128 * (info + 1)) mod (128 * spf) in if (e =? mark) || (e =? mark + 1) then 254 else 255
  else 0.
Proof.
  intros (H1 & H2 & H3 & H4 & H5) Hp. unfold blank_image.
  rewrite znth_app, zlen_repeat by lia. destruct (p <? 128 * dir) eqn:E1; [rewrite znth_repeat by lia; reflexivity|].
  rewrite znth_app, zlen_repeat by lia. destruct (p <? 128 * info) eqn:E2.
  { replace (_ <? _) with true by lia. rewrite znth_repeat by lia. reflexivity. } replace (_ <? _) with false by lia.
  rewrite znth_app, zlen_repeat by lia. destruct (p <? 128 * (info + 1)) eqn:E3.
  { replace (_ <? _) with true by lia. rewrite znth_repeat by lia. reflexivity. } replace (_ <? _) with false by lia.
  set (q := p - 128 * (info + 1)). replace (p - 128 * dir - 128 * (info - dir) - 128) with q by (unfold q; lia).
  assert (0 <= q) as Hq by (unfold q; lia). set (n := 128 * spf) in *. assert (0 < n) as Hn by lia.
  assert (forall k, 0 <= k -> k * n <= q < (k + 1) * n -> q mod n = q - k * n) as HM.
  { intros k Hk Hr. symmetry. apply Z.mod_unique_pos with k; nia. }
  rewrite znth_app, zlen_one_fat by lia. fold n. destruct (q <? n) eqn:A1.
  { replace (p <? _) with true by lia. rewrite znth_one_fat by lia. cbv zeta. rewrite (HM 0) by lia. replace (q - 0 * n) with q by lia. reflexivity. }
  rewrite znth_app, zlen_one_fat by lia. fold n. destruct (q - n <? n) eqn:A2.
  { replace (p <? _) with true by lia. rewrite znth_one_fat by lia. cbv zeta. rewrite (HM 1) by lia. now replace (q - 1 * n) with (q - n) by lia. }
  rewrite znth_app, zlen_one_fat by lia. fold n. destruct (q - n - n <? n) eqn:A3.
  { replace (p <? _) with true by lia. rewrite znth_one_fat by lia. cbv zeta. rewrite (HM 2) by lia. now replace (q - 2 * n) with (q - n - n) by lia. }
  replace (p <? _) with false by lia. rewrite znth_repeat by lia. reflexivity.
Qed.
(* FormatImage on a blank file *)
Lemma blank_resized n c : 0 <= n -> Forall (fun b => b = 0) c -> resized n c = zrepeat 0 n.
Proof.
  intros Hn Hc. apply (list_ext 0); [rewrite zlen_resized, zlen_repeat by lia; reflexivity|].
  intros i Hi. rewrite zlen_resized in Hi by lia. rewrite znth_resized, znth_repeat by lia.
  destruct (Z.lt_ge_cases i (zlen c)) as [L|L]; [|now apply znth_overflow]. rewrite Forall_forall in Hc. apply Hc. apply znth_In. lia.
Qed.
Lemma splice_mid o (T a b c : list Z) : zlen a = o -> zlen T = zlen b -> splice o T (a ++ b ++ c) = a ++ T ++ c.
Proof.
  intros Ha HT. unfold splice. subst o. rewrite HT. f_equal.
  - rewrite firstn_app. replace (Z.to_nat (zlen a)) with (length a) by (unfold zlen; lia).
    rewrite Nat.sub_diag, firstn_all. cbn [firstn]. apply app_nil_r.
  - f_equal. rewrite app_assoc, skipn_app. replace (Z.to_nat (zlen a + zlen b)) with (length (a ++ b)) by (rewrite app_length; unfold zlen; lia).
    now rewrite Nat.sub_diag, skipn_all.
Qed.
Lemma format_blank d f tb g : healthy f -> isMounted d = false -> get_geometry tb = inl g -> Forall (fun b => b = 0) (contents f) ->
  exists f', format8 d f (128 * tb) = Ret (formatted d tb g, f', None) /\ contents f' = blank_image tb (DirectoryTrackStart g) (InfoSectorStart g) (SectorsPerFAT g) (DirectoryTrackNumber g - 1).
Proof.
  intros Hh Hm Hg Hb. eexists. split; [apply (format_ok d f tb g Hh Hm Hg)|]. cbn [contents]. rewrite blank_resized by (try assumption; apply get_geo_cases in Hg; lia).
  pose proof (geometry_facts tb g Hg) as HF.
  assert (new_fat g = one_fat (SectorsPerFAT g) (DirectoryTrackNumber g - 1)) as EF by (destruct (get_geo_cases _ _ Hg) as [[-> ->]|[[-> ->]|[-> ->]]]; reflexivity).
  unfold blank_image, new_track. rewrite EF. set (F := one_fat _ _).
  assert (zlen F = 128 * SectorsPerFAT g) as LF.
  { apply zlen_one_fat; destruct (get_geo_cases _ _ Hg) as [[-> ->]|[[-> ->]|[-> ->]]]; vm_compute; congruence. }
  assert (0 < DirectoryTrackStart g < InfoSectorStart g /\ 0 < SectorsPerFAT g /\ InfoSectorStart g + 1 + 3 * SectorsPerFAT g <= tb) as (H1 & H2 & H3).
  { destruct (get_geo_cases _ _ Hg) as [[-> ->]|[[-> ->]|[-> ->]]]; vm_compute; intuition congruence. }
  clear HF. set (i := InfoSectorStart g) in *. set (s := DirectoryTrackStart g) in *. set (n := SectorsPerFAT g) in *.
  replace (zrepeat 0 (128 * tb)) with (zrepeat 0 (128 * s) ++ zrepeat 0 (128 * (i - s) + 128 + 3 * (128 * n)) ++ zrepeat 0 (128 * (tb - i - 1 - 3 * n))) 
    by (rewrite <- !zrepeat_app by lia; f_equal; lia).
  rewrite splice_mid.
  - rewrite <- !app_assoc. reflexivity.
  - rewrite zlen_repeat; lia.
  - rewrite !zlen_app, !zlen_repeat, LF by lia. lia.
Qed.
