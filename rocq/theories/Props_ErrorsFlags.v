(** * Property theorems C10-C14 *)
From Coq Require Import String.
From Verif Require Import GoBase Errors Spec_Errors ErrorsProofs Flags.
Local Open Scope string_scope.
Local Open Scope Z_scope.

(** C10 *)
Theorem C10_identity_survives_with_message : forall x y ms,
  errors_is (fold_left with_message ms (sentinel_err x)) (sentinel_err y) = true <-> y = x.
Proof.
  intros x y ms. assert (forall e, fold_left with_message ms e = with_messages e ms) as E.
  { induction ms as [|m ms IH]; intros e; [reflexivity|]. cbn. apply IH. }
  rewrite E. apply chain_is, with_messages_chain; [constructor|reflexivity].
Qed.
Print Assumptions C10_identity_survives_with_message.
Theorem C10_text : forall x ms,
  error_text (fold_left with_message ms (sentinel_err x)) =
  fold_left (fun t m => (t ++ ": " ++ m)%string) ms (sentinel_text x).
Proof.
  intros x ms. unfold sentinel_err, with_message at 2, rootError.
  generalize (sentinel_text x) as t, (EBase "") as o.
  induction ms as [|m ms IH]; intros t o; [reflexivity|]. cbn [fold_left with_message error_text].
  apply IH.
Qed.
Print Assumptions C10_text.
Example C10_example : error_text (fold_left with_message ["a"; "b"] (sentinel_err ErrNotFound))
  = "No such file or directory: a: b"%string.
Proof. reflexivity. Qed.

(* an error made by NewError(t), unlike a sentinel, has no text of its own left once a message is added; it is still the same error *)
Theorem C10_new_error : forall t m ms,
  error_text (new_error t) = t /\
  error_text (fold_left with_message (m :: ms) (new_error t)) = fold_left (fun u n => (u ++ ": " ++ n)%string) ms m /\
  errors_is (fold_left with_message (m :: ms) (new_error t)) (new_error t) = true.
Proof.
  intros t m ms. split; [reflexivity|]. cbn [fold_left with_message new_error]. split.
  - change (EBase t) with (new_error t). generalize (new_error t) as o. revert m. induction ms as [|n ms IH]; intros m o; [reflexivity|]. cbn [fold_left with_message error_text]. apply IH.
  - assert (forall e, errors_is e (new_error t) = true -> errors_is (fold_left with_message ms e) (new_error t) = true) as H.
    { induction ms as [|n ms IH]; intros e He; [exact He|]. cbn [fold_left]. apply IH. destruct e; cbn [with_message errors_is]; rewrite ?He; now rewrite ?orb_true_r. }
    apply H. cbn. now rewrite String.eqb_refl.
Qed.
Print Assumptions C10_new_error.

(** C11.  [wrap id e (Some x)] is e.Wrap(x); [id] is the address of the multierror
    object it allocates.  Every DriverError of the package is an EBase or ECustom. *)
Theorem C11_wrap_keeps_receiver : forall id e x w t, is_driver_error e = true ->
  wrap id e (Some x) = Ret w -> errors_is e t = true -> errors_is w t = true.
Proof. intros id e x w t Hd Hw. exact (wrap_keeps_left id e x w t Hw Hd). Qed.
Print Assumptions C11_wrap_keeps_receiver.
(* keeps what the argument matched, except the identity of a bare *multierror.Error *)
Theorem C11_wrap_keeps_argument_partial : forall id e x w t, is_driver_error e = true ->
  wrap id e (Some x) = Ret w -> errors_is x t = true ->
  (forall i es, x = EMulti i es -> same x t = false) ->
  errors_is w t = true.
Proof.
  intros id e x w t Hd Hw Hi Hm. eapply wrap_keeps_right; eauto.
  destruct x; try discriminate. intros _. eapply Hm. reflexivity.
Qed.
Print Assumptions C11_wrap_keeps_argument_partial.
(* the excluded case is real: go-multierror flattens a wrapped multierror *)
Theorem C11_wrap_keeps_argument_refuted :
  exists id e x w, is_driver_error e = true /\ wrap id e (Some x) = Ret w /\
    errors_is x x = true /\ errors_is w x = false.
Proof.
  exists 1, (sentinel_err ErrIOFailed), (EMulti 0 [EForeign 5 "x" None]).
  eexists. split; [reflexivity|]. split; [reflexivity|]. split; reflexivity.
Qed.
Print Assumptions C11_wrap_keeps_argument_refuted.
(* nothing else is matched: exactly the receiver's and the argument's identities,
   and the freshly allocated objects *)
Theorem C11_wrap_exact : forall id e x w y,
  is_driver_error e = true -> wrap id e (Some x) = Ret w ->
  (errors_is w (sentinel_err y) = true <->
   errors_is e (sentinel_err y) = true \/ errors_is x (sentinel_err y) = true).
Proof.
  intros id e x w y Hd Hw. rewrite (wrap_is _ _ _ _ _ Hw Hd).
  assert (same w (sentinel_err y) = false) as ->.
  { unfold wrap in Hw. injection Hw as <-. unfold sentinel_err, with_message, rootError. cbn [same].
    apply andb_false_r. }
  cbn [same orb sentinel_err with_message rootError].
  change (ECustom (sentinel_text y) (EBase "")) with (sentinel_err y).
  rewrite orb_true_iff. destruct x; cbn [is_bare_multi]; try reflexivity.
Qed.
Print Assumptions C11_wrap_exact.
Theorem C11_cast : forall id,
  cast_to_driver_error id None = Ret None /\
  (forall e, is_driver_error e = true -> cast_to_driver_error id (Some e) = Ret (Some e)) /\
  (forall e, is_driver_error e = false -> exists d,
     cast_to_driver_error id (Some e) = Ret (Some d) /\ is_driver_error d = true /\
     forall t, errors_is e t = true -> (forall i es, e = EMulti i es -> same e t = false) ->
       errors_is d t = true).
Proof.
  intros id. split; [reflexivity|]. split.
  - intros e He. unfold cast_to_driver_error. now rewrite He.
  - intros e He. unfold cast_to_driver_error. rewrite He. eexists. split; [reflexivity|].
    split; [reflexivity|]. intros t Ht Hm.
    eapply (C11_wrap_keeps_argument_partial id rootError e); [reflexivity|reflexivity|exact Ht|exact Hm].
Qed.
Print Assumptions C11_cast.
(* nested wrapping: an error wrapped any number of times keeps its identity *)
Theorem C11_wrap_chain : forall (l : list (Z * sentinel)) x e,
  is_driver_error e = true -> errors_is e (sentinel_err x) = true ->
  exists w, fold_left (fun acc p => match acc with
      | Ret a => wrap (fst p) (sentinel_err (snd p)) (Some a) | o => o end) l (Ret e) = Ret w /\
    errors_is w (sentinel_err x) = true.
Proof.
  induction l as [|[i s] l IH]; intros x e Hd Hi; cbn [fold_left]; [eauto|].
  unfold wrap at 2. cbn [fst snd]. apply IH; [reflexivity|].
  eapply (C11_wrap_keeps_argument_partial i (sentinel_err s) e); [reflexivity|reflexivity|exact Hi|].
  intros ? ? ->. discriminate.
Qed.
Print Assumptions C11_wrap_chain.
(* the error classes of the model are exact: whatever messages are added and however often it is wrapped,
   errors.Is finds in an error the sentinels [kerr_is] finds in its class, and no others *)
Theorem C11_classes : forall k e, has_class k e -> forall s, errors_is e (sentinel_err s) = kerr_is k s.
Proof. intros k e Hc. apply (class_is k e Hc). Qed.
Print Assumptions C11_classes.
Example C11_classes_example : exists e w, e = with_message (sentinel_err ErrNotFound) "/etc" /\
  wrap 7 (sentinel_err ErrIOFailed) (Some e) = Ret w /\ has_class (KMsg (KWrap ErrIOFailed (K ErrNotFound))) (EForeign 9 "reading" (Some w)) /\
  kerr_is (KMsg (KWrap ErrIOFailed (K ErrNotFound))) ErrNotFound = true /\ foreign (EForeign 1 "EOF" None).
Proof.
  eexists _, _. split; [reflexivity|]. split; [reflexivity|]. split; [|split; [reflexivity|split; [discriminate|reflexivity]]].
  apply hc_errorf. eapply (hc_wrap ErrIOFailed (K ErrNotFound) (sentinel_err ErrIOFailed) _ 7);
    [apply hc_sentinel|reflexivity|apply hc_message, hc_sentinel|reflexivity].
Qed.

(** C12 *)
Theorem C12_os_flags_translate : forall os flags,
  let io := os_flags_to_io os flags in
  let mode := Z.land flags 3 in
  (io_read io = true <-> mode <> 1) /\
  (io_write io = true <-> mode = 1 \/ mode = 2) /\
  (io_append io = true <-> Z.land flags (os_append os) <> 0) /\
  (io_create io = true <-> Z.land flags (os_create os) <> 0) /\
  (io_exclusive io = true <-> Z.land flags (os_excl os) <> 0) /\
  (io_truncate io = true <-> Z.land flags (os_trunc os) <> 0) /\
  (io_synchronous io = true <-> Z.land flags (os_sync os) <> 0) /\
  (* nothing else is set *)
  Z.land io (Z.lnot (O_ACCMODE + O_APPEND + O_CREATE + O_EXCL + O_TRUNC + O_SYNC)) = 0.
Proof.
  intros os flags io mode. unfold io, os_flags_to_io. fold os_mode_mask.
  change (Z.land flags os_mode_mask) with mode. unfold os_wronly, os_rdwr, has.
  destruct (Z.eqb_spec (Z.land flags (os_append os)) 0); cbn [negb];
  destruct (Z.eqb_spec (Z.land flags (os_create os)) 0); cbn [negb];
  destruct (Z.eqb_spec (Z.land flags (os_excl os)) 0); cbn [negb];
  destruct (Z.eqb_spec (Z.land flags (os_trunc os)) 0); cbn [negb];
  destruct (Z.eqb_spec (Z.land flags (os_sync os)) 0); cbn [negb];
  destruct (Z.eqb_spec mode 1); try (destruct (Z.eqb_spec mode 2));
  vm_compute Z.lor;
  repeat split; intros; try reflexivity; try congruence; try tauto;
  try (vm_compute in H; congruence); try (vm_compute in H; destruct H; congruence);
  try (exfalso; lia); try (destruct H; lia).
Qed.
Print Assumptions C12_os_flags_translate.
Example C12_example : os_flags_to_io linux_amd64 (2 + 0x40 + 0x200) = O_RDWR + O_CREATE + O_TRUNC.
Proof. reflexivity. Qed.

(** C13 *)
Theorem C13_access_bits : forall f g, Z.land f 3 = Z.land g 3 ->
  io_read f = io_read g /\ io_write f = io_write g.
Proof. intros f g H. unfold io_read, io_write. change O_ACCMODE with 3. now rewrite H. Qed.
Print Assumptions C13_access_bits.
Lemma land3_cases f : Z.land f 3 = 0 \/ Z.land f 3 = 1 \/ Z.land f 3 = 2 \/ Z.land f 3 = 3.
Proof.
  change 3 with (Z.ones 2). rewrite Z.land_ones by lia.
  pose proof (Z.mod_pos_bound f (2^2) ltac:(lia)). change (2^2) with 4 in *. change (Z.ones 2) with 3. lia.
Qed.
Theorem C13_read_or_write : forall f,
  (io_read f || io_write f = true <-> Z.land f 3 <> 3) /\
  (io_requires_write_perm f = true <-> io_write f = true \/ Z.land f O_TRUNC <> 0).
Proof.
  intros f. split.
  - unfold io_read, io_write. change O_ACCMODE with 3.
    destruct (land3_cases f) as [H|[H|[H|H]]]; rewrite H; cbn; split; congruence.
  - unfold io_requires_write_perm, io_truncate, has. rewrite orb_true_iff.
    destruct (Z.eqb_spec (Z.land f O_TRUNC) 0); cbn [negb]; intuition congruence.
Qed.
Print Assumptions C13_read_or_write.
Theorem C13_custom_mount_flags : forall f c, Z.land c 63 = 0 ->
  can_read (Z.lor f c) = can_read f /\ can_write (Z.lor f c) = can_write f /\
  can_delete (Z.lor f c) = can_delete f.
Proof.
  intros f c Hc.
  assert (forall m, Z.land 63 m = m -> Z.land (Z.lor f c) m = Z.land f m) as H.
  { intros m Hm. rewrite Z.land_lor_distr_l.
    assert (Z.land c m = 0) as ->; [|apply Z.lor_0_r].
    rewrite <- Hm, Z.land_assoc, Hc. apply Z.land_0_l. }
  unfold can_read, can_write, can_delete, has. rewrite !H by reflexivity. auto.
Qed.
Print Assumptions C13_custom_mount_flags.
(* each predicate tests its own bit, and the standard flags are distinct bits below
   the first custom one *)
Lemma has_pow2 f k : 0 <= k -> has f (2^k) = Z.testbit f k.
Proof.
  intros Hk. unfold has. destruct (Z.testbit f k) eqn:B.
  - destruct (Z.eqb_spec (Z.land f (2^k)) 0) as [E|E]; [|reflexivity]. exfalso.
    assert (Z.testbit (Z.land f (2^k)) k = false) as F by (rewrite E; apply Z.bits_0).
    rewrite Z.land_spec, B, Z.pow2_bits_true in F by assumption. discriminate.
  - replace (Z.land f (2^k)) with 0; [reflexivity|]. apply Z.bits_inj'. intros n Hn.
    rewrite Z.land_spec, Z.bits_0, Z.pow2_bits_eqb by lia.
    destruct (Z.eqb_spec k n) as [<-|]; [now rewrite B|now rewrite andb_false_r].
Qed.
Theorem C13_mount_flag_bits : forall f,
  can_read f = Z.testbit f 0 /\ can_write f = Z.testbit f 1 /\ can_delete f = Z.testbit f 3 /\
  NoDup [MountFlagsAllowRead; MountFlagsAllowWrite; MountFlagsAllowInsert; MountFlagsAllowDelete;
         MountFlagsAllowAdminister; MountFlagsPreserveTimestamps; MountFlagsCustomStart] /\
  (forall m, In m [MountFlagsAllowRead; MountFlagsAllowWrite; MountFlagsAllowInsert;
                   MountFlagsAllowDelete; MountFlagsAllowAdminister; MountFlagsPreserveTimestamps] ->
     exists k, m = 2^k /\ 0 <= k /\ Z.testbit MountFlagsMask k = true) /\
  (forall k, 0 <= k -> Z.testbit MountFlagsMask k = false <-> MountFlagsCustomStart <= 2^k).
Proof.
  intros f. split; [apply (has_pow2 f 0); lia|]. split; [apply (has_pow2 f 1); lia|].
  split; [apply (has_pow2 f 3); lia|]. split.
  { repeat constructor; cbn; intuition discriminate. }
  split.
  { cbn [In]. intros m Hm. destruct Hm as [<-|[<-|[<-|[<-|[<-|[<-|[]]]]]]];
      [exists 0|exists 1|exists 2|exists 3|exists 4|exists 5]; repeat split; lia. }
  intros k Hk. change MountFlagsMask with (Z.ones 6). change MountFlagsCustomStart with (2^6).
  rewrite Z.testbit_ones_nonneg by lia. rewrite <- Z.pow_le_mono_r_iff by lia. lia.
Qed.
Print Assumptions C13_mount_flag_bits.
Example C13_example : can_write (Z.lor 2 192) = true /\ Z.land 192 63 = 0.
Proof. split; reflexivity. Qed.

(** C14 *)
Lemma bit31 mode : Z.testbit mode 31 = true <-> stat_is_dir mode = true.
Proof.
  unfold stat_is_dir, has. change ModeDir with (2^31).
  split; intros H.
  - destruct (Z.eqb_spec (Z.land mode (2^31)) 0) as [E|E]; [|reflexivity]. exfalso.
    assert (Z.testbit (Z.land mode (2^31)) 31 = false) as F by (rewrite E; apply Z.bits_0).
    rewrite Z.land_spec, H in F. cbn in F. discriminate.
  - destruct (Z.eqb_spec (Z.land mode (2^31)) 0) as [E|E]; [discriminate|].
    destruct (Z.testbit mode 31) eqn:B; [reflexivity|]. exfalso. apply E.
    apply Z.bits_inj'. intros n Hn. rewrite Z.land_spec, Z.bits_0, Z.pow2_bits_eqb by lia.
    destruct (Z.eqb_spec 31 n) as [<-|]; [now rewrite B|apply andb_false_r].
Qed.
Theorem C14_one_kind : forall mode,
  ~ (stat_is_dir mode = true /\ stat_is_file mode = true) /\
  ~ (stat_is_dir mode = true /\ stat_is_symlink mode = true) /\
  ~ (stat_is_file mode = true /\ stat_is_symlink mode = true).
Proof.
  intros mode.
  assert (forall v, Z.land mode ModeType = v -> Z.testbit v 31 = false -> stat_is_dir mode = true -> False) as K.
  { intros v Hv Hb Hd. apply bit31 in Hd. rewrite <- Hv, Z.land_spec, Hd in Hb. cbn in Hb. discriminate. }
  repeat split.
  - intros [Hd Hf]. apply Z.eqb_eq in Hf. eapply K; eauto.
  - intros [Hd Hf]. apply Z.eqb_eq in Hf. eapply K; eauto.
  - intros [Hd Hf]. apply Z.eqb_eq in Hd, Hf. rewrite Hd in Hf. discriminate.
Qed.
Print Assumptions C14_one_kind.
Theorem C14_permission_bits_irrelevant : forall mode p, Z.land p ModeType = 0 ->
  stat_is_dir (Z.lor mode p) = stat_is_dir mode /\
  stat_is_file (Z.lor mode p) = stat_is_file mode /\
  stat_is_symlink (Z.lor mode p) = stat_is_symlink mode.
Proof.
  intros mode p Hp.
  assert (forall m, Z.land ModeType m = m -> Z.land (Z.lor mode p) m = Z.land mode m) as H.
  { intros m Hm. rewrite Z.land_lor_distr_l.
    assert (Z.land p m = 0) as ->; [|apply Z.lor_0_r].
    rewrite <- Hm, Z.land_assoc, Hp. apply Z.land_0_l. }
  unfold stat_is_dir, stat_is_file, stat_is_symlink, has. rewrite !H by reflexivity. auto.
Qed.
Print Assumptions C14_permission_bits_irrelevant.
Theorem C14_mkdir_mode_is_directory : forall perm,
  stat_is_dir (mkdir_mode perm) = true /\ stat_is_file (mkdir_mode perm) = false /\
  stat_is_symlink (mkdir_mode perm) = false /\
  (* and the non-type bits are the caller's *)
  forall n, 0 <= n -> Z.testbit ModeType n = false ->
    Z.testbit (mkdir_mode perm) n = Z.testbit perm n.
Proof.
  intros perm.
  assert (stat_is_dir (mkdir_mode perm) = true) as Hd.
  { apply bit31. unfold mkdir_mode. rewrite Z.lor_spec. apply orb_true_iff. right. reflexivity. }
  destruct (C14_one_kind (mkdir_mode perm)) as (H1 & H2 & _).
  split; [exact Hd|]. split; [|split].
  - destruct (stat_is_file (mkdir_mode perm)); auto. elim H1; auto.
  - destruct (stat_is_symlink (mkdir_mode perm)); auto. elim H2; auto.
  - intros n Hn Ht. unfold mkdir_mode. rewrite Z.lor_spec, Z.ldiff_spec, Ht by lia. cbn [negb].
    rewrite andb_true_r. change ModeDir with (2^31). rewrite Z.pow2_bits_eqb by lia.
    destruct (Z.eqb_spec 31 n) as [<-|]; [|apply orb_false_r]. vm_compute in Ht. discriminate.
Qed.
Print Assumptions C14_mkdir_mode_is_directory.

(** ** The parts that hold of claims refuted above, as claims of their own (the examples above are theirs too) *)
Theorem C128_wrap_keeps_receiver : forall id e x w t, is_driver_error e = true ->
  wrap id e (Some x) = Ret w -> errors_is e t = true -> errors_is w t = true.
Proof. apply C11_wrap_keeps_receiver. Qed.
Theorem C128_wrap_exact : forall id e x w y,
  is_driver_error e = true -> wrap id e (Some x) = Ret w ->
  (errors_is w (sentinel_err y) = true <->
   errors_is e (sentinel_err y) = true \/ errors_is x (sentinel_err y) = true).
Proof. apply C11_wrap_exact. Qed.
Theorem C128_wrap_chain : forall (l : list (Z * sentinel)) x e,
  is_driver_error e = true -> errors_is e (sentinel_err x) = true ->
  exists w, fold_left (fun acc p => match acc with
      | Ret a => wrap (fst p) (sentinel_err (snd p)) (Some a) | o => o end) l (Ret e) = Ret w /\
    errors_is w (sentinel_err x) = true.
Proof. apply C11_wrap_chain. Qed.
Print Assumptions C128_wrap_keeps_receiver.
Print Assumptions C128_wrap_exact.
Print Assumptions C128_wrap_chain.
