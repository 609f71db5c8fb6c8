(** * DriverProofs18: operations of the driver report the failures of the implementation *)
From Verif Require Import GoBase ListZ Errors Flags GoPath Spec_Path GoPathProofs BlockCache BasicStream Driver Spec_Driver DriverProofs Spec_Report ReportProofs Spec_Driver5.

Section Accounted.
Context {F H : Type} (im : impl F H) (wm : wmode) (d : drv) (hist : F -> list (option kerr)) (HR : remembers im hist).
Notation acc ok := (accounted hist ok).

Lemma acc_refl ok a e : acc ok a a e.
Proof. exists []. split; [constructor|]. left. now rewrite app_nil_r. Qed.
Lemma acc_same ok a b e : hist b = hist a -> acc ok a b e.
Proof. intros E. exists []. split; [constructor|]. left. now rewrite app_nil_r. Qed.
Lemma acc_none ok a b : acc ok a b None -> exists l, Forall (fun o => match o with None => True | Some x => ok x end) l /\ hist b = hist a ++ l.
Proof. intros (l & Hl & [E|(x & _ & [[X|X]|(y & _ & X)])]); [eauto|discriminate|discriminate|discriminate]. Qed.
Lemma acc_more ok a b c e : acc ok a b None -> acc ok b c e -> acc ok a c e.
Proof.
  intros H1 (l2 & H2 & Hc). destruct (acc_none _ _ _ H1) as (l1 & Hl1 & E1). exists (l1 ++ l2). split; [now apply Forall_app|].
  destruct Hc as [E|(x & E & HX)]; [left|right; exists x; split; [|exact HX]]; now rewrite E, E1, <- !app_assoc.
Qed.
(* after a failure that is allowed, one may go on *)
Lemma acc_forget (ok : kerr -> Prop) a b y e : acc ok a b (Some y) -> (forall x, is_report x (Some y) -> ok x) -> acc ok a b e.
Proof.
  intros (l & Hl & Hc) Hok. destruct Hc as [E|(x & E & HX)]; [exists l; auto|].
  exists (l ++ [Some x]). split; [apply Forall_app; split; [exact Hl|]; constructor; [now apply Hok|constructor]|left; exact E].
Qed.
Lemma acc_ok ok a b e : acc ok a b None -> acc ok a b e.
Proof. intros Hn. eapply acc_more; [exact Hn|apply acc_refl]. Qed.
Lemma acc_eq ok a b c e : acc ok a b e -> hist c = hist b -> acc ok a c e.
Proof. intros (l & Hl & Hc) E. exists l. rewrite E. auto. Qed.
Lemma acc_eq_l ok a b c e : hist b = hist a -> acc ok b c e -> acc ok a c e.
Proof. intros E (l & Hl & Hc). exists l. rewrite <- E. auto. Qed.
Lemma acc_weaken (ok ok' : kerr -> Prop) a b e : (forall x, ok x -> ok' x) -> acc ok a b e -> acc ok' a b e.
Proof. intros Hw (l & Hl & Hc). exists l. split; [|exact Hc]. eapply Forall_impl; [|exact Hl]. intros [x|]; auto. Qed.
Lemma acc_one ok a b e : hist b = hist a ++ [e] -> acc ok a b e.
Proof.
  intros E. destruct e as [x|]; [exists []; split; [constructor|]; right; exists x; split; [exact E|left; left; reflexivity]|].
  exists [None]. split; [repeat constructor|]. now left.
Qed.
Lemma told_acc ok (s s' : dst F) e : told (fun s => hist (d_fs s)) s s' e -> acc ok (d_fs s) (d_fs s') e.
Proof.
  intros (n & Hc). exists (repeat None n). split; [apply Forall_forall; intros x Hx; apply repeat_spec in Hx; now subst|].
  destruct Hc as [E|(x & E & X)]; [left; exact E|right; exists x; split; [exact E|left; exact X]].
Qed.
Lemma told_acc_wrap ok (s s' : dst F) e : told (fun s => hist (d_fs s)) s s' (Some e) -> acc ok (d_fs s) (d_fs s') (Some (KWrap ErrIOFailed e)).
Proof.
  intros (n & Hc). exists (repeat None n). split; [apply Forall_forall; intros x Hx; apply repeat_spec in Hx; now subst|].
  destruct Hc as [E|(x & E & X)]; [left; exact E|right; exists x; split; [exact E|right; exists e; split; [exact X|reflexivity]]].
Qed.
Lemma obj_recalls x : recalls (obj_callbacks im x) (fun s => hist (d_fs s)).
Proof.
  constructor; cbn; intros s i; [intros b|intros b|].
  - pose proof (rm_read _ _ HR (d_fs s) (x_h x) i b) as E. destruct (h_read im (d_fs s) (x_h x) i b) as [[fs b'] e]. exact E.
  - pose proof (rm_write _ _ HR (d_fs s) (x_h x) i b) as E. destruct (h_write im (d_fs s) (x_h x) i b) as [fs e]. exact E.
  - pose proof (rm_resize _ _ HR (d_fs s) (x_h x) i) as E. destruct (h_resize im (d_fs s) (x_h x) i) as [fs e]. exact E.
Qed.

(** ** the monad *)
Definition tells (ok : kerr -> Prop) {A} (err : A -> option kerr) (m : M F A) : Prop := forall s s' a, m s = Done s' a -> acc ok (d_fs s) (d_fs s') (err a).
Definition still {A} (m : M F A) : Prop := forall s s' a, m s = Done s' a -> hist (d_fs s') = hist (d_fs s).
Lemma tells_ret ok {A} (err : A -> option kerr) a : tells ok err (ret a).
Proof. intros s s' b [= <- _]. apply acc_refl. Qed.
Lemma tells_crash ok {A} (err : A -> option kerr) : tells ok err crash.
Proof. intros s s' b E. discriminate. Qed.
Lemma tells_spin ok {A} (err : A -> option kerr) : tells ok err spin.
Proof. intros s s' b E. discriminate. Qed.
Lemma tells_still ok {A B} (err : B -> option kerr) (m : M F A) k : still m -> (forall a, tells ok err (k a)) -> tells ok err (bind m k).
Proof.
  intros Hm Hk s s' b E. unfold bind in E. destruct (m s) as [s1 a| |] eqn:Em; try discriminate.
  eapply acc_eq_l; [eapply Hm; exact Em|]. eapply Hk; exact E.
Qed.
Lemma tells_try ok {A B} (m : M F (A + kerr)) (k : A -> M F (B + kerr)) : tells ok failure m -> (forall a, tells ok failure (k a)) -> tells ok failure (try m k).
Proof.
  intros Hm Hk s s' b E. unfold try, bind in E. destruct (m s) as [s1 [a|x]| |] eqn:Em; try discriminate.
  - eapply acc_more; [exact (Hm _ _ _ Em)|]. eapply Hk; exact E.
  - injection E as <- <-. exact (Hm _ _ _ Em).
Qed.
(* a step, something quiet, and then on, unless the step failed *)
Lemma tells_then ok {A B C} (m : M F (A + kerr)) (q : M F B) (k : A + kerr -> M F (C + kerr)) : tells ok failure m -> still q ->
  (forall a, tells ok failure (k (inl a))) -> (forall e, k (inr e) = ret (inr e)) -> tells ok failure (r <- m ;; _ <- q ;; k r).
Proof.
  intros Hm Hq Hk He s s' b E. unfold bind in E. destruct (m s) as [s1 r| |] eqn:Em; try discriminate. destruct (q s1) as [s2 u| |] eqn:Eq; try discriminate.
  pose proof (Hm _ _ _ Em) as H1. pose proof (Hq _ _ _ Eq) as H2. destruct r as [a|x]; cbn [failure] in H1.
  - eapply acc_more; [eapply acc_eq; [exact H1|exact H2]|]. eapply Hk; exact E.
  - rewrite He in E. injection E as <- <-. eapply acc_eq; [exact H1|exact H2].
Qed.
Lemma still_stat x : still (stat im x).
Proof. intros s s' a. unfold stat. destruct (meth x); [intros [= <- _]; reflexivity|discriminate]. Qed.
Lemma still_close x : still (close im x).
Proof. intros s s' a. unfold close. destruct (meth x); [intros [= <- _]; apply (rm_close _ _ HR)|discriminate]. Qed.
Lemma still_root : still (get_root im).
Proof.
  intros s s' a. unfold get_root. pose proof (rm_root _ _ HR (d_fs s)) as E. destruct (i_root im (d_fs s)) as [fs h]. cbn. intros [= <- _]. exact E.
Qed.
Lemma tells_deferring ok {A} (err : A -> option kerr) x m : tells ok err m -> tells ok err (deferring im x m).
Proof.
  intros Hm s s' a E. unfold deferring in E. destruct (m s) as [s1 b|s1|s1] eqn:Em; try discriminate.
  - destruct (close im x s1) as [s2 u| |] eqn:Ec; try discriminate. injection E as <- <-. eapply acc_eq; [exact (Hm _ _ _ Em)|exact (still_close _ _ _ _ Ec)].
  - destruct (close im x s1); discriminate.
Qed.

(** ** single calls *)
Lemma tells_get ok n x : tells ok failure (get_object im n x).
Proof.
  intros s s' a. unfold get_object. destruct (meth x); [|discriminate]. pose proof (rm_get _ _ HR (d_fs s) n (x_h x)) as E.
  destruct (i_get im (d_fs s) n (x_h x)) as [fs [h|e]]; cbn in E |- *; intros [= <- <-]; apply acc_one; exact E.
Qed.
Lemma tells_create ok n x m : tells ok failure (create_object im n x m).
Proof.
  intros s s' a. unfold create_object. destruct (meth x); [|discriminate]. pose proof (rm_create _ _ HR (d_fs s) n (x_h x) m) as E.
  destruct (i_create im (d_fs s) n (x_h x) m) as [fs [h|e]]; cbn in E |- *; intros [= <- <-]; apply acc_one; exact E.
Qed.
Lemma tells_call ok s r ev s' a : hist (fst r) = hist (d_fs s) ++ [snd r] -> call_err r ev s = Done s' a -> acc ok (d_fs s) (d_fs s') (failure a).
Proof. intros E. unfold call_err. destruct r as [fs [e|]]; intros [= <- <-]; apply acc_one; exact E. Qed.
Lemma tells_unlink ok x : tells ok failure (unlink im x).
Proof. intros s s' a. unfold unlink. destruct (meth x); [|discriminate]. apply tells_call. apply (rm_unlink _ _ HR). Qed.
Lemma tells_resize ok x n : tells ok failure (resize_obj im x n).
Proof. intros s s' a. unfold resize_obj. destruct (meth x); [|discriminate]. apply tells_call. apply (rm_resize _ _ HR). Qed.
Lemma tells_list ok x : tells ok failure (list_dir im x).
Proof.
  intros s s' a. unfold list_dir. destruct (opt_meth x); [|discriminate]. destruct (h_listdir im (d_fs s) (x_h x)) as [[fs r]|] eqn:EL; [|discriminate].
  intros [= <- <-]. apply acc_one. exact (rm_listdir _ _ HR _ _ _ EL).
Qed.
Lemma tells_opt ok (x : xh H) (g : F -> H -> option (F * option kerr)) ev : (forall fs r, g fs (x_h x) = Some r -> hist (fst r) = hist fs ++ [snd r]) -> tells ok failure (opt_call x g ev).
Proof.
  intros Hg s s' a. unfold opt_call. destruct (opt_meth x); [|intros [= <- _]; apply acc_refl]. destruct (g (d_fs s) (x_h x)) as [r|] eqn:EG; [|intros [= <- _]; apply acc_refl].
  apply tells_call. apply Hg. exact EG.
Qed.

(** ** files *)
Lemma tells_new_file ok x fl : tells ok failure (new_file im x fl).
Proof.
  unfold new_file. apply tells_still; [apply still_stat|]. intros st s s' a. destruct (negb (new_fits _ _)); [discriminate|]. destruct (s_new _ _ _ _ _) as [[[s1 o] e]| |] eqn:EN; try discriminate.
  apply (s_new_told _ _ (obj_recalls x)) in EN. apply (told_acc ok) in EN. destruct o as [stm|], e as [e|]; try discriminate; now intros [= <- <-].
Qed.
Lemma tells_contents ok x : tells ok failure (get_contents im x).
Proof.
  intros s s' a. unfold get_contents, bind. destruct (new_file im x O_RDONLY s) as [s1 [f|e]| |] eqn:EN; try discriminate.
  - assert (acc ok (d_fs s) (d_fs s1) None /\ clean_bits (dirty (scache (fl_stream f))) /\ fl_obj f = x) as (H1 & HC & HO).
    { split; [exact (tells_new_file ok _ _ _ _ _ EN)|]. unfold new_file, bind in EN. destruct (stat im x s) as [s0 st| |]; try discriminate. destruct (negb (new_fits _ _)); [discriminate|]. unfold s_new in EN.
      destruct (_ || _); [discriminate|]. change (io_truncate O_RDONLY) with false in EN. cbv zeta iota in EN. injection EN as _ <-. cbn. split; [|reflexivity].
      unfold clean_bits, bitmap_new, zrepeat. apply Forall_forall. intros y Hy. now apply repeat_spec in Hy. }
    destruct (stat im x s1) as [s2 st| |] eqn:ES; try discriminate. apply still_stat in ES. destruct (f_size st <? 0); [discriminate|].
    unfold fl_read. destruct (s_read (obj_callbacks im (fl_obj f)) s2 (fl_stream f) (zrepeat 0 (f_size st))) as [[[[[s3 stm] b] n] e]| |] eqn:ER; try discriminate.
    unfold fl_close. cbn [with_stream fl_obj fl_stream].
    destruct (s_read_pres (obj_callbacks im (fl_obj f)) (fun _ => True) (fun _ _ _ _ _ _ _ _ => I) _ _ _ _ _ _ _ _ I HC ER) as [_ HC2].
    rewrite HO in *. unfold s_close, s_sync. destruct (flush_all (obj_callbacks im x) s3 (scache stm)) as [[[s4 c4] e4]| |] eqn:EF; try discriminate.
    apply flush_all_clean in EF as [-> _]; [|exact HC2]. intros [= <- <-]. apply (s_read_told _ _ (obj_recalls x)) in ER.
    eapply acc_more; [exact H1|]. eapply acc_eq_l; [exact ES|]. destruct e as [e|]; cbn [failure]; [now apply told_acc_wrap|now apply told_acc].
  - intros [= <- <-]. unfold new_file, bind in EN. destruct (stat im x s) as [s0 st| |] eqn:ES; try discriminate. destruct (negb (new_fits _ _)); [discriminate|]. apply still_stat in ES.
    destruct (s_new _ _ _ _ _) as [[[s2 o] e2]| |] eqn:E2; try discriminate. apply (s_new_told _ _ (obj_recalls x)) in E2.
    eapply acc_eq_l; [exact ES|]. destruct o, e2 as [e2|]; try discriminate; injection EN as -> ->; now apply told_acc_wrap.
Qed.

(** ** resolving *)
Lemma tells_get_ext ok n x : tells ok failure (get_ext im wm n x).
Proof. apply tells_try; [apply tells_get|]. intros a. apply tells_ret. Qed.
Lemma tells_create_ext ok n x m : tells ok failure (create_ext im wm n x m).
Proof. apply tells_try; [apply tells_create|]. intros a. apply tells_ret. Qed.
Lemma tells_resolve ok f : (forall p, tells ok failure (no_follow im wm d f p)) /\ (forall p, tells ok failure (following im wm d f p)) /\ (forall x, tells ok failure (follow_loop im wm d f x)) /\
  (forall x, tells ok failure (resolve_symlink im wm d f x)) /\ (forall o x, tells ok failure (link_loop im wm d f o x)).
Proof.
  induction f as [|f (N & Fw & FL & RS & LL)]; [repeat split; intros; apply tells_spin|].
  split; [|split; [|split; [|split]]].
  - intros p. rewrite no_follow_S. destruct (_ || _); [apply tells_still; [apply still_root|]; intros a; apply tells_ret|]. destruct (split_path p) as [pp bn].
    apply tells_try; [apply Fw|]. intros parent. apply tells_deferring. apply tells_still; [apply still_stat|]. intros st. destruct (negb _); [apply tells_ret|apply tells_get_ext].
  - intros p. rewrite following_S. apply tells_try; [apply N|]. intros x. apply FL.
  - intros x. rewrite follow_loop_S. apply tells_still; [apply still_stat|]. intros st. destruct (is_symlink st); [|apply tells_ret].
    apply (tells_then ok (resolve_symlink im wm d f x) (close im x) (fun r => match r with inr e => ret (inr e) | inl next => follow_loop im wm d f next end)); [apply RS|apply still_close|intros a; apply FL|reflexivity].
  - intros x. rewrite resolve_symlink_S. apply tells_still; [apply still_stat|]. intros st. destruct (negb _); [apply tells_ret|apply LL].
  - intros o x. rewrite link_loop_S. apply tells_still; [apply still_stat|]. intros st. destruct (is_symlink st); [|apply tells_ret].
    apply (tells_then ok (get_contents im x) (close im x) (fun t => match t with inr e => ret (inr e) | inl text => let next := normalize_path (cwd d) text in
         if beqb next o then ret (inr (K ErrLinkCycleDetected)) else o2 <-? no_follow im wm d f next ;; link_loop im wm d f o o2 end)); [apply tells_contents|apply still_close| |reflexivity].
    intros text. cbv zeta. destruct (beqb _ _); [apply tells_ret|]. apply tells_try; [apply N|]. intros x2. apply LL.
Qed.
Lemma tells_following ok f p : tells ok failure (following im wm d f p). Proof. apply tells_resolve. Qed.
Lemma tells_no_follow ok f p : tells ok failure (no_follow im wm d f p). Proof. apply tells_resolve. Qed.

(** ** operations *)
Lemma tells_outc ok {A} (m : M F (A + kerr)) : tells ok failure m -> tells ok (fun e => e) (outc m).
Proof.
  intros Hm s s' e E. unfold outc, bind in E. destruct (m s) as [s1 r| |] eqn:Em; try discriminate. injection E as <- <-.
  pose proof (Hm _ _ _ Em) as H1. now destruct r.
Qed.
Variable fuel : nat.
(* OpenFile: without O_CREATE strictly, with it up to errors that say "not found" *)
Lemma tells_open (ok : kerr -> Prop) p fl perm : (io_create fl = false \/ forall x, not_found x -> ok x) -> tells ok failure (open_file im wm d fuel p fl perm).
Proof.
  intros Hok s s' a. unfold open_file. destruct (_ && _); [intros [= <- _]; apply acc_refl|]. unfold bind at 1.
  destruct (following im wm d fuel (norm d p) s) as [s1 r| |] eqn:EF; try discriminate. apply (tells_following ok) in EF.
  match goal with |- try ?m ?k s1 = _ -> _ => set (mm := m); set (kk := k) end.
  assert (forall o, tells ok failure (kk o)) as Hk.
  { intros o. unfold kk. apply tells_still; [apply still_stat|]. intros st. destruct (negb _); [apply tells_ret|apply tells_new_file]. }
  destruct r as [o|e].
  - intros E. eapply acc_more; [exact EF|]. revert E. apply tells_try; [apply tells_ret|exact Hk].
  - unfold mm. destruct (kerr_is e ErrNotFound && io_create fl) eqn:EC.
    + apply andb_true_iff in EC as [E1 E2]. destruct Hok as [Hok|Hok]; [congruence|]. destruct (split_path (norm d p)) as [pd bn]. intros E.
      eapply acc_more; [|revert E; apply tells_try; [|exact Hk]].
      * eapply acc_forget; [exact EF|]. intros x [[X|X]|(y & [X|X] & Y)]; injection X as ->; try (injection Y as ->); apply Hok; unfold not_found; cbn in E1; exact E1.
      * apply tells_try; [apply tells_following|]. intros parent.
        apply (tells_then ok (create_ext im wm bn parent perm) (close im parent) (fun r => ret r)); [apply tells_create_ext|apply still_close|intros; apply tells_ret|reflexivity].
    + intros E. unfold try, bind, ret in E. injection E as <- <-. exact EF.
Qed.
Lemma tells_entries ok dir names : forall l, tells ok snd (read_entries im dir names l).
Proof.
  induction names as [|n ns IH]; intros l; cbn [read_entries]; [intros s s' a [= <- _]; apply acc_refl|].
  destruct (is_dots n); [apply IH|]. intros s s' a E. unfold bind in E. destruct (get_object im n dir s) as [s1 [[id h]|e]| |] eqn:EG; try discriminate; apply (tells_get ok) in EG; cbn [failure] in EG.
  - destruct (close im (raw id h) s1) as [s2 u| |] eqn:EC; try discriminate. apply still_close in EC. eapply acc_more; [eapply acc_eq; [exact EG|exact EC]|]. eapply IH; exact E.
  - injection E as <- <-. exact EG.
Qed.
Lemma tells_read_dir_obj ok dir : tells ok snd (read_dir_obj im dir).
Proof.
  intros s s' a E. unfold read_dir_obj, bind in E. destruct (list_dir im dir s) as [s1 [ns|e]| |] eqn:EL; try discriminate; apply (tells_list ok) in EL; cbn [failure] in EL.
  - eapply acc_more; [exact EL|]. eapply tells_entries; exact E.
  - injection E as <- <-. exact EL.
Qed.
Lemma tells_read_dir ok p : tells ok snd (read_dir im wm d fuel p).
Proof.
  intros s s' a E. unfold read_dir, bind in E. destruct (following im wm d fuel (norm d p) s) as [s1 [x|e]| |] eqn:EF; try discriminate; apply (tells_following ok) in EF; cbn [failure] in EF.
  - eapply acc_more; [exact EF|]. revert E. apply tells_deferring. apply tells_read_dir_obj.
  - injection E as <- <-. exact EF.
Qed.
Lemma tells_mkdir ok p perm : tells ok failure (mkdir im wm d fuel p perm).
Proof.
  unfold mkdir. destruct (split_path _) as [pd bn]. apply tells_try; [apply tells_following|]. intros x. apply tells_deferring. apply tells_still; [apply still_stat|]. intros st.
  destruct (negb _); [apply tells_ret|]. apply tells_try; [apply tells_create|]. intros r. apply tells_still; [apply still_close|]. intros u. apply tells_ret.
Qed.
Lemma tells_mkdir_all ok n : forall p perm, tells ok failure (mkdir_all im wm d fuel n p perm).
Proof.
  induction n as [|n IH]; intros p perm; cbn [mkdir_all]; [apply tells_spin|]. destruct (split_path _) as [pd bn]. intros s s' a E. unfold bind at 1 in E.
  destruct (following im wm d fuel pd s) as [s1 [x|e]| |] eqn:EF; try discriminate; apply (tells_following ok) in EF; cbn [failure] in EF.
  - eapply acc_more; [exact EF|]. revert E. apply tells_deferring. apply tells_try; [apply tells_create|]. intros r. apply tells_still; [apply still_close|]. intros u. apply tells_ret.
  - destruct (kerr_is e ErrNotFound).
    + unfold bind, crash in E. destruct (mkdir_all im wm d fuel n pd (mkdir_mode perm) s1); discriminate.
    + injection E as <- <-. exact EF.
Qed.
Lemma tells_remove_directory ok n : forall dir, tells ok failure (remove_directory im wm n dir).
Proof.
  induction n as [|n IH]; intros dir; cbn [remove_directory]; [apply tells_spin|]. apply tells_try; [apply tells_list|].
  induction a as [|nm rest IHr]; [apply tells_ret|]. destruct (is_dots nm); [exact IHr|].
  apply tells_try; [apply tells_get_ext|]. intros ent. apply tells_still; [apply still_stat|]. intros st s s' b E. unfold bind in E at 1.
  match type of E with match ?m s with _ => _ end = _ => assert (tells ok failure m) as Hm by (destruct (is_dir st); [apply IH|apply tells_ret]); destruct (m s) as [s1 [u|e]| |] eqn:Em end;
    try discriminate; apply Hm in Em; cbn [failure] in Em; clear Hm.
  - eapply acc_more; [exact Em|]. clear Em. revert s1 s' b E.
    apply (tells_then ok (unlink im ent) (close im ent) (fun r => match r with inr e => ret (inr e) | inl _ => (fix entries (names : list (list Z)) : M F (unit + kerr) :=
         match names with
         | [] => ret (inl tt)
         | nm :: rest =>
             if is_dots nm then entries rest
             else
               ent <-? get_ext im wm nm dir ;;
               st <- stat im ent ;;
               r <- (if is_dir st then
                       remove_directory im wm n (mkX (x_id ent) (join (x_path dir) nm) (x_mode ent) (x_h ent))
                     else ret (inl tt)) ;;
               match r with
               | inr e => _ <- close im ent ;; ret (inr e)
               | inl _ =>
                   u <- unlink im ent ;;
                   _ <- close im ent ;;
                   match u with inr e => ret (inr e) | inl _ => entries rest end
               end
         end) rest end)); [apply tells_unlink|apply still_close|intros _; exact IHr|reflexivity].
  - unfold bind in E. destruct (close im ent s1) as [s2 u| |] eqn:EC; try discriminate. injection E as <- <-. apply still_close in EC. eapply acc_eq; [exact Em|exact EC].
Qed.
Lemma tells_remove_all ok p : tells ok failure (remove_all im wm d fuel p).
Proof.
  unfold remove_all. apply tells_try; [apply tells_following|]. intros x. apply tells_deferring. apply tells_still; [apply still_stat|]. intros st.
  destruct (negb _); [apply tells_ret|]. apply tells_still; [apply still_root|]. intros r s s' a E. destruct (h_same _ _ _ _); [injection E as <- <-; apply acc_refl|].
  eapply tells_remove_directory; exact E.
Qed.
Lemma tells_remove ok p : tells ok failure (remove im wm d fuel p).
Proof.
  unfold remove. apply tells_try; [apply tells_following|]. intros x. apply tells_deferring. apply tells_still; [apply still_stat|]. intros st.
  destruct (is_dir st); [apply tells_try; [apply tells_list|]; intros ns; destruct (_ >? 0); [apply tells_ret|apply tells_unlink]|]. destruct (negb _); [apply tells_ret|apply tells_unlink].
Qed.
Lemma run_op_tells ok o : strict_op o -> tells ok (fun e => e) (run_op im wm d fuel o).
Proof.
  destruct o; cbn [strict_op run_op]; intros Ho; try contradiction; try (apply tells_outc).
  - apply tells_try; [apply tells_following|]. intros x. apply tells_deferring. apply tells_still; [apply still_stat|]. intros st. apply tells_ret.
  - apply tells_try; [apply tells_no_follow|]. intros x. apply tells_deferring. apply tells_try; [apply tells_resolve|]. intros y. apply tells_deferring. apply tells_still; [apply still_stat|]. intros st. apply tells_ret.
  - apply tells_try; [apply tells_following|]. intros x. apply tells_deferring. apply tells_contents.
  - apply tells_open. now left.
  - intros s s' a E. unfold bind in E. destruct (read_dir im wm d fuel p s) as [s1 r| |] eqn:ER; try discriminate. injection E as <- <-. eapply tells_read_dir; exact ER.
  - apply tells_try; [apply tells_following|]. intros x. apply tells_deferring. apply tells_still; [apply still_stat|]. intros st. destruct (negb _); apply tells_ret.
  - apply tells_mkdir.
  - apply tells_mkdir_all.
  - apply tells_remove.
  - apply tells_remove_all.
  - apply tells_try; [apply tells_following|]. intros x. apply tells_deferring. apply tells_still; [apply still_stat|]. intros st. destruct (is_dir st); [apply tells_ret|apply tells_resize].
  - apply tells_try; [apply tells_following|]. intros x. apply tells_opt. intros fs r. destruct (h_chmod im fs (x_h x)) as [g|] eqn:EG; [|discriminate]. intros [= <-]. apply (rm_chmod _ _ HR _ _ _ EG).
  - apply tells_try; [apply tells_following|]. intros x. apply tells_opt. intros fs r. destruct (h_chown im fs (x_h x)) as [g|] eqn:EG; [|discriminate]. intros [= <-]. apply (rm_chown _ _ HR _ _ _ EG).
  - apply tells_try; [apply tells_no_follow|]. intros x. apply tells_opt. intros fs r. destruct (h_chown im fs (x_h x)) as [g|] eqn:EG; [|discriminate]. intros [= <-]. apply (rm_chown _ _ HR _ _ _ EG).
  - apply tells_try; [apply tells_following|]. intros x. cbv zeta. apply tells_opt. intros fs r. destruct (h_chtimes im fs (x_h x)) as [g|] eqn:EG; [|discriminate]. intros [= <-]. apply (rm_chtimes _ _ HR _ _ _ EG).
  - unfold readlink. destruct (negb _); [apply tells_ret|]. apply tells_try; [apply tells_no_follow|]. intros x. apply tells_deferring. apply tells_still; [apply still_stat|]. intros st.
    destruct (negb _); [apply tells_ret|apply tells_contents].
Qed.
(* Link: the lookup of the new name is the only thing whose failure is ignored *)
Lemma link_parts ok old new s s' r : link im wm d fuel old new s = Done s' r ->
  acc ok (d_fs s) (d_fs s') (failure r) \/
  exists s1 s2 e, acc ok (d_fs s) (d_fs s1) None /\ following im wm d fuel (norm d new) s1 = Done s2 (inr e) /\ acc ok (d_fs s2) (d_fs s') (failure r).
Proof.
  unfold link. destruct (i_link im) as [mk|] eqn:EL; [|intros [= <- _]; left; apply acc_refl]. unfold try at 1, bind at 1.
  destruct (following im wm d fuel (norm d old) s) as [s1 [x|e]| |] eqn:E1; try discriminate; apply (tells_following ok) in E1; [|intros [= <- <-]; left; exact E1].
  unfold bind at 1. destruct (following im wm d fuel (norm d new) s1) as [s2 [y|e]| |] eqn:E2; try discriminate.
  - intros [= <- <-]. left. apply (tells_following ok) in E2. cbn [failure] in E1, E2 |- *. apply acc_ok. eapply acc_more; eassumption.
  - destruct (split_path _) as [pp nm]. intros E. right. exists s1, s2, e. split; [exact E1|]. split; [exact E2|]. revert E. apply tells_try; [apply tells_following|].
    intros par s3 s4 a. pose proof (rm_link _ _ HR _ EL (d_fs s3) (x_h x) (x_h par) nm) as EK. destruct (mk (d_fs s3) (x_h x) (x_h par) nm) as [fs [h|z]]; cbn in EK |- *; intros [= <- <-]; apply acc_one; exact EK.
Qed.
(* WriteFile: opening, writing and closing, one after the other *)
Lemma write_file_parts (ok : kerr -> Prop) p b perm s s' r : (forall x, not_found x -> ok x) -> write_file im wm d fuel p b perm s = Done s' r ->
  acc ok (d_fs s) (d_fs s') (failure r) \/
  exists s1 f s2 f' n e s3 c, open_file im wm d fuel p (Z.lor (Z.lor O_WRONLY O_CREATE) O_TRUNC) perm s = Done s1 (inl f) /\ acc ok (d_fs s) (d_fs s1) None /\
    fl_write im f b s1 = Done s2 (f', n, e) /\ acc ok (d_fs s1) (d_fs s2) e /\ fl_close im f' s2 = Done s3 c /\ acc ok (d_fs s2) (d_fs s3) c /\ s' = s3 /\
    r = match e with None => inl tt | Some e => inr e end.
Proof.
  intros Hok. unfold write_file, try, bind. destruct (open_file im wm d fuel p _ perm s) as [s1 [f|e]| |] eqn:EO; try discriminate; pose proof (tells_open ok p _ perm (or_intror Hok) _ _ _ EO) as H1; [|intros [= <- <-]; left; exact H1].
  destruct (fl_write im f b s1) as [s2 [[f' n] e]| |] eqn:EW; try discriminate. destruct (fl_close im f' s2) as [s3 c| |] eqn:EC; try discriminate. intros [= <- <-]. right.
  exists s1, f, s2, f', n, e, s3, c. split; [reflexivity|]. split; [exact H1|]. split; [exact EW|]. split.
  { unfold fl_write in EW. destruct (s_write _ _ _ _) as [[[[s4 st4] n4] e4]| |] eqn:ES; try discriminate. injection EW as -> _ _ ->. apply told_acc. eapply s_write_told; [apply obj_recalls|exact ES]. }
  split; [exact EC|]. split; [|auto].
  unfold fl_close in EC. destruct (s_close _ _ _) as [[[s4 st4] e4]| |] eqn:ES; try discriminate. injection EC as -> ->. apply told_acc. eapply s_sync_told; [apply obj_recalls|exact ES].
Qed.
End Accounted.
Lemma noted_remembers {F H} (im : impl F H) : remembers (noted im) snd.
Proof.
  constructor; intros; try reflexivity.
  - unfold noted in H0. cbn in H0. destruct (i_link im) as [mk0|]; [|discriminate]. injection H0 as <-. reflexivity.
  - cbn in H0. destruct (h_listdir im (fst fs) h) as [q|]; [|discriminate]. injection H0 as <-. reflexivity.
  - cbn in H0. destruct (h_chmod im (fst fs) h) as [q|]; [|discriminate]. injection H0 as <-. reflexivity.
  - cbn in H0. destruct (h_chown im (fst fs) h) as [q|]; [|discriminate]. injection H0 as <-. reflexivity.
  - cbn in H0. destruct (h_chtimes im (fst fs) h) as [q|]; [|discriminate]. injection H0 as <-. reflexivity.
Qed.
