(** * AccessProofs4: the handle of an open file *)
From Verif Require Import GoBase ListZ Errors Flags GoPath BlockCache BasicStream Driver DriverFile Spec_Driver Spec_Access
  DriverProofs DriverProofs2 DriverProofs16 AccessProofs.

Section Mode.
Context {F H : Type} (im : impl F H) (wm : wmode) (d : drv).
Definition moded {A} (P : A -> Prop) (m : mres F (A + kerr)) : Prop := match m with Done _ (inl x) => P x | _ => True end.
Definition wrapped (x : xh H) : Prop := x_mode x = wm.
Lemma moded_try {A C} (P : A -> Prop) (Q : C -> Prop) (m : M F (A + kerr)) k s : moded P (m s) -> (forall a s1, P a -> moded Q (k a s1)) -> moded Q (try m k s).
Proof. unfold try, bind. destruct (m s) as [s1 [a|e]|s1|s1]; cbn [moded ret]; auto. Qed.
Lemma moded_bind {A C} (Q : C -> Prop) (m : M F A) (k : A -> M F (C + kerr)) s : (forall a s1, moded Q (k a s1)) -> moded Q (bind m k s).
Proof. unfold bind. destruct (m s) as [s1 a|s1|s1]; cbn [moded]; auto. Qed.
Lemma moded_defer {A} (Q : A -> Prop) x (m : M F (A + kerr)) s : moded Q (m s) -> moded Q (deferring im x m s).
Proof. unfold deferring, close. destruct (m s) as [s1 [a|e]|s1|s1]; destruct (meth x); cbn [moded]; auto. Qed.
Lemma get_ext_mode n p s : moded wrapped (get_ext im wm n p s).
Proof. unfold get_ext. apply (moded_try (fun _ => True)); [destruct (get_object im n p s) as [? [?|?]| |]; exact Logic.I|]. intros. reflexivity. Qed.
Lemma create_ext_mode n p md s : moded wrapped (create_ext im wm n p md s).
Proof. unfold create_ext. apply (moded_try (fun _ => True)); [destruct (create_object im n p md s) as [? [?|?]| |]; exact Logic.I|]. intros. reflexivity. Qed.
Lemma lookup_modes fuel :
  (forall p s, moded wrapped (no_follow im wm d fuel p s)) /\ (forall p s, moded wrapped (following im wm d fuel p s)) /\
  (forall x s, wrapped x -> moded wrapped (follow_loop im wm d fuel x s)) /\ (forall x s, wrapped x -> moded wrapped (resolve_symlink im wm d fuel x s)) /\
  (forall o x s, wrapped x -> moded wrapped (link_loop im wm d fuel o x s)).
Proof.
  induction fuel as [|f (I1 & I2 & I3 & I4 & I5)]; [repeat split; intros; exact Logic.I|].
  split; [|split; [|split; [|split]]]; intros; rewrite ?no_follow_S, ?following_S, ?follow_loop_S, ?resolve_symlink_S, ?link_loop_S.
  - destruct (_ || _); [apply moded_bind; reflexivity|]. destruct (split_path p) as [pp bn].
    eapply moded_try; [apply I2|]. intros x s1 _. apply moded_defer. apply moded_bind. intros st s2. destruct (negb _); [exact Logic.I|apply get_ext_mode].
  - eapply moded_try; [apply I1|]. intros x s1 Hx. now apply I3.
  - apply moded_bind. intros st s1. destruct (is_symlink st); [|assumption]. unfold bind at 1. specialize (I4 x s1 ltac:(assumption)).
    destruct (resolve_symlink im wm d f x s1) as [s2 [nx|e]|s2|s2]; cbn [moded] in *; auto; apply moded_bind; intros; cbn; auto.
  - apply moded_bind. intros st s1. destruct (negb _); [assumption|]. now apply I5.
  - apply moded_bind. intros st s1. destruct (is_symlink st); [|assumption]. apply moded_bind. intros [t|e] s2; apply moded_bind; intros _ s3; [|exact Logic.I].
    cbv zeta. destruct (beqb _ _); [exact Logic.I|]. eapply moded_try; [apply I1|]. intros y s4 Hy. now apply I5.
Qed.
Lemma open_mode fuel p flags perm s s1 f : open_file im wm d fuel p flags perm s = Done s1 (inl f) -> x_mode (fl_obj f) = wm.
Proof.
  intros E. assert (moded (fun f => x_mode (fl_obj f) = wm) (open_file im wm d fuel p flags perm s)) as HM; [|rewrite E in HM; exact HM]. clear E s1 f.
  unfold open_file. destruct (_ && _); [exact Logic.I|]. unfold bind at 1. destruct (lookup_modes fuel) as (_ & HF & _). pose proof (HF (norm d p) s) as H0.
  destruct (following im wm d fuel (norm d p) s) as [s2 r|s2|s2]; try exact Logic.I. eapply (moded_try wrapped).
  - destruct r as [x|e]; [exact H0|]. destruct (_ && _); [|exact Logic.I].
    destruct (split_path _) as [pp bn]. eapply moded_try; [apply HF|]. intros x s3 _. unfold bind at 1. pose proof (create_ext_mode bn x perm s3) as HC.
    destruct (create_ext _ _ _ _ _ s3) as [s4 r|s4|s4]; try exact Logic.I. apply moded_bind. intros _ s5. exact HC.
  - intros x s3 Hx. apply moded_bind. intros st s4. destruct (negb _); [exact Logic.I|].
    destruct (new_file im x flags s4) as [s5 [g|e]|s5|s5] eqn:E; try exact Logic.I. apply new_file_inv in E as (_ & Eg & _). cbn [moded]. rewrite Eg. exact Hx.
Qed.
End Mode.
Lemma file_not_dir st : is_file st = true -> is_dir st = false.
Proof.
  unfold is_file, is_dir, stat_is_file, stat_is_dir, has. intros E. apply Z.eqb_eq in E. apply Bool.negb_false_iff, Z.eqb_eq.
  replace ModeDir with (Z.land ModeType ModeDir) by reflexivity. rewrite Z.land_assoc, E. reflexivity.
Qed.
(** ** Directory listings *)
Section Listing.
Context {F H : Type} (im : impl F H) (P : F -> Prop) (dh : H).
Hypothesis Pget : forall fs n, P fs -> P (fst (i_get im fs n dh)).
Hypothesis Pclose : forall fs h, P fs -> P (h_close im fs h).
Definition entry_for (n : list Z) (e : dirent) : Prop :=
  exists fs0 fs1 h, P fs0 /\ P fs1 /\ i_get im fs0 n dh = (fs1, inl h) /\ de_name e = h_name im fs1 h /\ de_stat e = h_stat im fs1 h.
Lemma entries_described x : x_h x = dh -> meth x = true -> forall names acc s s' es e, P (d_fs s) -> read_entries im x names acc s = Done s' (es, e) ->
  exists ns1 ns2 new, filter (fun n => negb (is_dots n)) names = ns1 ++ ns2 /\ es = acc ++ new /\ Forall2 entry_for ns1 new /\
    match e with None => ns2 = [] | Some er => exists n r fs0 fs1, ns2 = n :: r /\ P fs0 /\ i_get im fs0 n dh = (fs1, inr er) end.
Proof.
  intros Ex Hm. induction names as [|n ns IH]; intros acc s s' es e HP; cbn [read_entries filter].
  - intros [= <- <- <-]. exists [], [], []. rewrite !app_nil_r. auto.
  - destruct (is_dots n) eqn:Ed; cbn [negb]; [now apply IH|]. unfold bind at 1, get_object. rewrite Hm, Ex. pose proof (Pget (d_fs s) n HP) as HP1.
    destruct (i_get im (d_fs s) n dh) as [fs1 [h|er]] eqn:EG; cbn [fst] in HP1.
    + cbn [emit fresh d_fs]. unfold bind, close. cbn [meth raw x_mode x_h]. intros E. apply IH in E; [|cbn; auto].
      destruct E as (ns1 & ns2 & new & E1 & E2 & E3 & E4). cbn [d_fs] in E2.
      exists (n :: ns1), ns2, (mkDirent (h_name im fs1 h) (h_stat im fs1 h) :: new). split; [cbn; now rewrite E1|]. split; [rewrite E2, <- app_assoc; reflexivity|]. split; [|exact E4].
      constructor; [|exact E3]. exists (d_fs s), fs1, h. auto.
    + intros [= <- <- <-]. exists [], (n :: filter (fun n => negb (is_dots n)) ns), []. rewrite !app_nil_r. split; [reflexivity|]. split; [reflexivity|]. split; [constructor|].
      exists n, (filter (fun n => negb (is_dots n)) ns), (d_fs s), fs1. auto.
Qed.
End Listing.
