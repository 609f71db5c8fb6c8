(** * MiscProofs: UnixV6 and Disks *)
From Coq Require Import String.
From Verif Require Import GoBase ListZ Errors Flags GoPath Spec_Path GoPathProofs BlockCache BasicStream Driver UnixV6 Disks Spec_Misc.

Lemma has_bit flags n : 0 <= n -> has flags (2^n) = Z.testbit flags n.
Proof.
  intros Hn. unfold has. destruct (Z.testbit flags n) eqn:E.
  - apply negb_true_iff, Z.eqb_neq. intros X. assert (Z.testbit (Z.land flags (2^n)) n = true) as Y by (rewrite Z.land_spec, E, Z.pow2_bits_true by lia; reflexivity). rewrite X, Z.bits_0 in Y. discriminate.
  - apply negb_false_iff, Z.eqb_eq. apply Z.bits_inj'. intros i Hi. rewrite Z.land_spec, Z.bits_0, Z.pow2_bits_eqb by lia. destruct (n =? i) eqn:EI; [|apply andb_false_r]. apply Z.eqb_eq in EI. subst i. now rewrite E.
Qed.
Lemma land_bit flags n : 0 <= n -> Z.land flags (2^n) = if Z.testbit flags n then 2^n else 0.
Proof.
  intros Hn. apply Z.bits_inj'. intros i Hi. rewrite Z.land_spec, Z.pow2_bits_eqb by lia. destruct (n =? i) eqn:EI.
  - apply Z.eqb_eq in EI. subst i. rewrite andb_true_r. destruct (Z.testbit flags n); [now rewrite Z.pow2_bits_true by lia|now rewrite Z.bits_0].
  - rewrite andb_false_r. destruct (Z.testbit flags n); [|now rewrite Z.bits_0]. rewrite Z.pow2_bits_eqb by lia. now rewrite EI.
Qed.
(* to V6 flags and back: a function of the permission bits, the type and two bits *)
Definition type_word (t : Z) : Z := if t =? ModeCharDevice then FileTypeCharDevice else if t =? ModeDevice then FileTypeBlockDevice else if t =? ModeDir then FileTypeDirectory else 0.
Definition word (p t : Z) (sg su : bool) : Z :=
  Z.lor (Z.lor (Z.lor (Z.lor p FlagIsAllocated) (type_word t)) (if sg then FlagSetGID else 0)) (if su then FlagSetUID else 0).
Definition mode_of (p t : Z) (sg su : bool) : Z := Z.lor (Z.lor (Z.lor p t) (if sg then ModeSetgid else 0)) (if su then ModeSetuid else 0).
Definition supported : list Z := [0; ModeDir; ModeDevice; ModeCharDevice].
(* permission bits do not touch the others *)
Lemma perm_off p mask : Z.land p ModePerm = p -> Z.land ModePerm mask = 0 -> Z.land p mask = 0.
Proof. intros <- H. rewrite <- Z.land_assoc, H. apply Z.land_0_r. Qed.
Lemma perm_below p : 0 <= p < 512 -> Z.land p ModePerm = p.
Proof. intros H. change ModePerm with (Z.ones 9). rewrite Z.land_ones by lia. apply Z.mod_small. exact H. Qed.
Ltac bits p H := unfold word, mode_of, type_word, has; cbv zeta; rewrite ?Z.land_lor_distr_l, ?H;
  repeat match goal with |- context [Z.land p ?m] => lazymatch m with ModePerm => fail | _ => rewrite (perm_off p m H eq_refl) end end.
Ltac settle p := repeat match goal with |- context [if ?c then _ else _] => let v := eval vm_compute in c in lazymatch v with true => idtac | false => idtac end; change c with v; cbv iota end;
  rewrite <- ?Z.lor_assoc; lazymatch goal with |- (?a, None) = (?b, None) => apply (f_equal (fun x => (x, None))) | _ => idtac end; apply (f_equal (Z.lor p)); vm_compute; reflexivity.
Lemma word_range p t sg su : 0 <= p < 512 -> In t supported -> 0 <= word p t sg su < 2^16.
Proof.
  intros Hp Ht. assert (exists w, word p t sg su = Z.lor p w /\ 0 <= w < 2^16) as (w & -> & Hw).
  { unfold word. exists (Z.lor (Z.lor (Z.lor FlagIsAllocated (type_word t)) (if sg then FlagSetGID else 0)) (if su then FlagSetUID else 0)). split; [now rewrite !Z.lor_assoc|].
    cbn [In supported] in Ht. destruct Ht as [<-|[<-|[<-|[<-|[]]]]]; destruct sg, su; vm_compute; (split; [discriminate|reflexivity]). }
  split; [apply Z.lor_nonneg; lia|]. destruct (Z.eq_dec (Z.lor p w) 0) as [->|Hne]; [reflexivity|]. apply Z.log2_lt_pow2; [assert (0 <= Z.lor p w) by (apply Z.lor_nonneg; lia); lia|].
  rewrite Z.log2_lor by lia. apply Z.max_lub_lt.
  - destruct (Z.eq_dec p 0) as [->|]; [reflexivity|]. apply Z.log2_lt_pow2; lia.
  - destruct (Z.eq_dec w 0) as [->|]; [reflexivity|]. apply Z.log2_lt_pow2; lia.
Qed.
Lemma word_back p t sg su : 0 <= p < 512 -> In t supported ->
  ConvertFSFlagsToStandard (word p t sg su) = mode_of p t sg su /\ Z.land (word p t sg su) FlagIsAllocated = FlagIsAllocated /\ 0 <= word p t sg su < 2^16.
Proof.
  intros Hp Ht. split; [|split; [|now apply word_range]]; pose proof (perm_below p Hp) as H; cbn [In supported] in Ht.
  - unfold ConvertFSFlagsToStandard. destruct Ht as [<-|[<-|[<-|[<-|[]]]]]; destruct sg, su; bits p H; settle p.
  - destruct Ht as [<-|[<-|[<-|[<-|[]]]]]; destruct sg, su; bits p H; reflexivity.
Qed.
Lemma perm_range flags : 0 <= Z.land flags ModePerm < 512.
Proof. change ModePerm with (Z.ones 9). rewrite Z.land_ones by lia. apply Z.mod_pos_bound. lia. Qed.
Lemma lor_if (b : bool) x y : (if b then Z.lor x y else x) = Z.lor x (if b then y else 0).
Proof. destruct b; [reflexivity|now rewrite Z.lor_0_r]. Qed.
Lemma to_fs_word flags : In (Z.land flags ModeType) supported ->
  ConvertStandardFlagsToFS flags = (word (Z.land flags ModePerm) (Z.land flags ModeType) (Z.testbit flags 22) (Z.testbit flags 23), None).
Proof.
  intros Ht. unfold ConvertStandardFlagsToFS. cbv zeta. change ModeSetgid with (2^22). change ModeSetuid with (2^23). rewrite !(has_bit flags 22), !(has_bit flags 23) by lia. rewrite !lor_if. unfold word, type_word. set (t := Z.land flags ModeType) in *.
  cbn in Ht. destruct Ht as [<-|[<-|[<-|[<-|[]]]]]; cbn [Z.eqb Pos.eqb ModeCharDevice ModeDevice ModeDir]; rewrite ?Z.lor_0_r; reflexivity.
Qed.
Lemma to_fs_rejects flags : ~ In (Z.land flags ModeType) supported -> snd (ConvertStandardFlagsToFS flags) = Some (KExt 0).
Proof.
  intros Hn. unfold ConvertStandardFlagsToFS. cbv zeta.
  destruct (Z.land flags ModeType =? ModeCharDevice) eqn:E1; [exfalso; apply Hn; apply Z.eqb_eq in E1; rewrite E1; cbn; auto|]. destruct (Z.land flags ModeType =? ModeDevice) eqn:E2; [exfalso; apply Hn; apply Z.eqb_eq in E2; rewrite E2; cbn; auto|].
  destruct (Z.land flags ModeType =? ModeDir) eqn:E3; [exfalso; apply Hn; apply Z.eqb_eq in E3; rewrite E3; cbn; auto|]. destruct (Z.land flags ModeType =? 0) eqn:E4; [exfalso; apply Hn; apply Z.eqb_eq in E4; rewrite E4; cbn; auto|]. reflexivity.
Qed.
Lemma mode_land flags : mode_of (Z.land flags ModePerm) (Z.land flags ModeType) (Z.testbit flags 22) (Z.testbit flags 23) = Z.land flags (ModePerm + ModeType + ModeSetgid + ModeSetuid).
Proof.
  replace (ModePerm + ModeType + ModeSetgid + ModeSetuid) with (Z.lor (Z.lor (Z.lor ModePerm ModeType) ModeSetgid) ModeSetuid) by reflexivity. rewrite !Z.land_lor_distr_r.
  unfold mode_of. change ModeSetgid with (2^22). change ModeSetuid with (2^23). rewrite <- (land_bit flags 22), <- (land_bit flags 23) by lia. reflexivity.
Qed.
(* a V6 mode word is its permission bits, its type and two bits *)
Definition type_mode (t : Z) : Z := if t =? FileTypeBlockDevice then ModeDevice else if t =? FileTypeCharDevice then ModeCharDevice else if t =? FileTypeDirectory then ModeDir else 0.
Lemma to_std f : ConvertFSFlagsToStandard f = mode_of (Z.land f ModePerm) (type_mode (Z.land f FileTypeMask)) (Z.testbit f 10) (Z.testbit f 11).
Proof.
  unfold ConvertFSFlagsToStandard, mode_of, type_mode. cbv zeta. change FlagSetGID with (2^10). change FlagSetUID with (2^11). rewrite (has_bit f 10), (has_bit f 11) by lia. rewrite !lor_if.
  destruct (_ =? _); [reflexivity|]. destruct (_ =? _); [reflexivity|]. destruct (_ =? _); [reflexivity|]. now rewrite Z.lor_0_r.
Qed.
Lemma type_bits f : Z.land f FileTypeMask = Z.lor (if Z.testbit f 13 then 0x2000 else 0) (if Z.testbit f 14 then 0x4000 else 0).
Proof. replace FileTypeMask with (Z.lor (2^13) (2^14)) by reflexivity. rewrite Z.land_lor_distr_r, !land_bit by lia. reflexivity. Qed.
Lemma fs_roundtrip f : 0 <= f < 2^16 -> ConvertStandardFlagsToFS (ConvertFSFlagsToStandard f) = (Z.lor (Z.land f 0x6DFF) 0x8000, None).
Proof.
  intros _. rewrite to_std. set (p := Z.land f ModePerm). assert (Z.land p ModePerm = p) as H by (unfold p; rewrite <- Z.land_assoc; reflexivity).
  assert (Z.land f 0x6DFF = Z.lor (Z.lor p (Z.land f FileTypeMask)) (Z.lor (if Z.testbit f 10 then 2^10 else 0) (if Z.testbit f 11 then 2^11 else 0))) as ->.
  { unfold p. rewrite <- (land_bit f 10), <- (land_bit f 11) by lia. rewrite <- !Z.land_lor_distr_r. reflexivity. }
  rewrite type_bits. unfold ConvertStandardFlagsToFS. destruct (Z.testbit f 13), (Z.testbit f 14), (Z.testbit f 10), (Z.testbit f 11); bits p H.
  all: unfold type_mode; settle p.
Qed.
(* lor of disjoint bytes is a sum *)
Lemma lor_add a k b : 0 <= k -> 0 <= a < 2^k -> 0 <= b -> Z.lor a (Z.shiftl b k) = a + b * 2^k.
Proof.
  intros Hk Ha Hb. rewrite Z.shiftl_mul_pow2 by lia. rewrite Z.lor_comm, Z.add_comm. enough (Z.land (b * 2^k) a = 0) as E0 by now rewrite <- Z.lxor_lor, <- Z.add_nocarry_lxor.
  apply Z.bits_inj'. intros i Hi. rewrite Z.land_spec, Z.bits_0. destruct (Z_lt_ge_dec i k) as [Hlt|Hge].
  - rewrite Z.mul_pow2_bits_low by lia. reflexivity.
  - destruct (Z.eq_dec a 0) as [->|]; [rewrite Z.bits_0; apply andb_false_r|]. rewrite (Z.bits_above_log2 a i); [apply andb_false_r|lia|]. assert (Z.log2 a < k) by (apply Z.log2_lt_pow2; lia). lia.
Qed.
Lemma v6_size n i : is_byte (v_size0 n) -> is_byte (v_size1 n) -> is_byte (v_size2 n) ->
  f_size (RawInodeToStat i n) = v_size0 n + 256 * v_size1 n + 65536 * v_size2 n.
Proof.
  unfold is_byte. intros A B C. unfold RawInodeToStat. cbv zeta. cbn [f_size]. rewrite (lor_add (v_size0 n) 8) by lia. rewrite (lor_add _ 16) by (change (2^8) with 256; change (2^16) with 65536; lia). change (2^8) with 256. change (2^16) with 65536. lia.
Qed.
Lemma least_ceil u n : 0 < u -> 0 <= n -> least_holding u n (if negb (n mod u =? 0) then n / u + 1 else n / u).
Proof.
  intros Hu Hn. pose proof (Z.div_mod n u ltac:(lia)) as DM. pose proof (Z.mod_pos_bound n u Hu) as MB. destruct (n mod u =? 0) eqn:E; cbn [negb]; (split; [lia|]); intros k' Hk'.
  - assert (n / u <= k') by (apply Z.div_le_upper_bound; lia). lia.
  - assert (n / u < k'); [|lia]. destruct (Z_lt_le_dec (n / u) k') as [|H]; [assumption|]. assert (u * k' <= u * (n / u)) by (apply Z.mul_le_mono_nonneg_l; lia). lia.
Qed.
Lemma u64_mul a b : u64 (u64 a * b) = u64 (a * b).
Proof. unfold u64. now rewrite Z.mul_mod_idemp_l by discriminate. Qed.
Lemma size_fits g : geometry_ok g -> geometry_bits g < 2^63 -> least_holding 8 (geometry_bits g) (GeometrySizeBytes g).
Proof.
  intros (A & B & C & D & E) H. unfold GeometrySizeBytes. rewrite (u64_mul (g_bits g * g_units g)), (u64_mul (g_bits g * g_units g * g_sectors g)), (u64_mul (g_bits g * g_units g * g_sectors g * g_tracks g)). fold (geometry_bits g).
  assert (0 <= geometry_bits g) as H0 by (unfold geometry_bits; repeat apply Z.mul_nonneg_nonneg; lia).
  assert (u64 (geometry_bits g) = geometry_bits g) as -> by (unfold u64; apply Z.mod_small; lia). assert (i64 (geometry_bits g) = geometry_bits g) as -> by (unfold i64; rewrite Z.mod_small; lia). cbv zeta.
  rewrite Z.rem_mod_nonneg, Z.quot_div_nonneg by lia. pose proof (least_ceil 8 (geometry_bits g) ltac:(lia) H0) as L. destruct (geometry_bits g mod 8 =? 0) eqn:EM; cbn [negb] in L; [exact L|].
  assert (i64 (geometry_bits g / 8 + 1) = geometry_bits g / 8 + 1) as ->; [|exact L]. assert (0 <= geometry_bits g / 8) by (apply Z.div_pos; lia). assert (geometry_bits g / 8 <= 2^60) by (apply Z.div_le_upper_bound; lia). unfold i64. rewrite Z.mod_small; lia.
Qed.
(** ** the table *)
Lemma find_none slug m : find_slug slug m = None <-> ~ In slug (map g_slug m).
Proof.
  induction m as [|g m IH]; [cbn; tauto|]. cbn [find_slug map In]. destruct (beqb (g_slug g) slug) eqn:E.
  - apply beqb_eq in E. split; [discriminate|]. intros H. destruct H. now left.
  - rewrite IH. split; [|tauto]. intros H [X|X]; [rewrite X, beqb_refl in E; discriminate|tauto].
Qed.
Lemma find_some slug m g : NoDup (map g_slug m) -> (find_slug slug m = Some g <-> In g m /\ g_slug g = slug).
Proof.
  induction m as [|x m IH]; intros HN; [cbn; split; [discriminate|tauto]|]. cbn [find_slug map] in *. inversion HN as [|? ? H1 H2]; subst. destruct (beqb (g_slug x) slug) eqn:E.
  - apply beqb_eq in E. split.
    + intros X. injection X as <-. split; [now left|exact E].
    + intros [[->|X] Y]; [reflexivity|]. exfalso. apply H1. rewrite E, <- Y. now apply in_map.
  - rewrite IH by exact H2. split; [intros [X Y]; split; [now right|exact Y]|]. intros [[->|X] Y]; [rewrite Y, beqb_refl in E; discriminate|auto].
Qed.
Lemma init_spec rows : forall m, NoDup (map g_slug m) ->
  init_loop rows m = (if ListDec.NoDup_dec (list_eq_dec Z.eq_dec) (map g_slug (rev rows ++ m)) then Ret (rev rows ++ m) else Panic).
Proof.
  induction rows as [|r rows IH]; intros m Hm.
  - cbn [rev app init_loop]. destruct (ListDec.NoDup_dec _ _); [reflexivity|contradiction].
  - cbn [init_loop rev]. rewrite <- app_assoc. cbn [app]. destruct (find_slug (g_slug r) m) eqn:E.
    + destruct (ListDec.NoDup_dec _ _) as [HN|]; [|reflexivity]. exfalso. rewrite map_app in HN. cbn [map] in HN. apply NoDup_remove_2 in HN. apply HN. apply in_or_app. right. apply (find_some _ _ _ Hm) in E as [E1 E2]. rewrite <- E2. now apply in_map.
    + apply IH. cbn [map]. constructor; [now apply find_none|exact Hm].
Qed.
Lemma i64_range x : - 2^63 <= i64 x < 2^63.
Proof. unfold i64. pose proof (Z.mod_pos_bound (x + 2^63) (2^64) ltac:(lia)). lia. Qed.
Lemma size_upper g : 8 * GeometrySizeBytes g <= 2^63.
Proof.
  unfold GeometrySizeBytes. cbv zeta. set (b := i64 _). pose proof (i64_range (u64 (u64 (u64 (u64 (g_bits g * g_units g) * g_sectors g) * g_tracks g) * g_heads g))) as R. fold b in R.
  pose proof (Z.quot_rem' b 8) as Q. assert (- 8 < Z.rem b 8 < 8) as RB by (pose proof (Z.rem_bound_abs b 8 ltac:(lia)); lia). destruct (Z.rem b 8 =? 0) eqn:E; [lia|]. unfold i64. rewrite Z.mod_small by lia. lia.
Qed.
Lemma i64_mul a b : i64 (a * b) = i64 (i64 a * i64 b).
Proof.
  assert (forall x, exists k, i64 x = x + k * 2^64) as HK.
  { intros x. exists (- ((x + 2^63) / 2^64)). unfold i64. pose proof (Z.div_mod (x + 2^63) (2^64) ltac:(lia)). lia. }
  destruct (HK a) as [k Ek], (HK b) as [l El]. rewrite Ek, El. unfold i64. f_equal. replace ((a + k * 2^64) * (b + l * 2^64) + 2^63) with (a * b + 2^63 + (a * l + k * b + k * l * 2^64) * 2^64) by ring. now rewrite Z_mod_plus_full.
Qed.
Lemma size_edge g : geometry_bits g = 2^63 -> GeometrySizeBytes g < 0.
Proof.
  intros E. unfold GeometrySizeBytes. rewrite (u64_mul (g_bits g * g_units g)), (u64_mul (g_bits g * g_units g * g_sectors g)), (u64_mul (g_bits g * g_units g * g_sectors g * g_tracks g)). fold (geometry_bits g). rewrite E. vm_compute. reflexivity.
Qed.
