(** * DriverProofs6: RemoveAll *)
From Verif Require Import GoBase ListZ Errors Flags GoPath Spec_Path GoPathProofs BlockCache Spec_BlockCache BlockCacheProofs
  BasicStream Spec_BasicStream BasicStreamProofs Driver Spec_Driver DriverProofs DriverProofs2 DriverProofs3 DriverProofs4 DriverProofs5.

(** ** Handles are numbered in order *)
Section Ids.
Context {F H : Type} (im : impl F H) (wm : wmode) (d : drv).
Definition anyev (e : event) : Prop := True.
Notation ext := (ext anyev).
Definition goodi (r : mres F (xh H + kerr)) : Prop := match r with Done s (inl x) => (x_id x < d_next s)%nat | _ => True end.
Lemma goodi_try {A} (m : M F (A + kerr)) (k : A -> M F (xh H + kerr)) (P : dst F -> A -> Prop) s :
  match m s with Done s' (inl a) => P s' a | _ => True end -> (forall a s, P s a -> goodi (k a s)) -> goodi (try m k s).
Proof. intros Hm Hk. unfold try, bind. destruct (m s) as [s' [a|e]|s'|s']; cbn; auto. Qed.
Lemma goodi_bind {A} (m : M F A) (k : A -> M F (xh H + kerr)) (P : dst F -> A -> Prop) s :
  match m s with Done s' a => P s' a | _ => True end -> (forall a s, P s a -> goodi (k a s)) -> goodi (bind m k s).
Proof. intros Hm Hk. unfold bind. destruct (m s) as [s' a|s'|s']; cbn; auto. Qed.
Lemma goodi_stat x (k : fstat -> M F (xh H + kerr)) s : (forall a, goodi (k a s)) -> goodi (bind (stat im x) k s).
Proof. intros Hk. unfold bind, stat. destruct (meth x); cbn; auto. Qed.
Lemma goodi_defer x (m : M F (xh H + kerr)) s : goodi (m s) -> goodi (deferring im x m s).
Proof.
  intros Hm. unfold deferring, close. destruct (m s) as [s' [a|e]|s'|s']; cbn in *; auto; destruct (meth x); cbn; auto.
Qed.
Lemma get_ext_id n x s s' y : get_ext im wm n x s = Done s' (inl y) -> (d_next s <= x_id y < d_next s')%nat.
Proof.
  unfold get_ext, try, bind, get_object. destruct (meth x); [|discriminate]. destruct (i_get im (d_fs s) n (x_h x)) as [fs [h|e]]; [|discriminate].
  unfold fresh, ret. cbn. intros [= <- <-]. cbn. lia.
Qed.
Lemma mono_next {A} (m : M F A) s s' a : mok anyev m -> m s = Done s' a -> (d_next s <= d_next s')%nat.
Proof. intros Hm E. specialize (Hm s). rewrite E in Hm. apply Hm. Qed.
Lemma contents_next x s s' t : get_contents im x s = Done s' t -> (d_next s <= d_next s')%nat.
Proof. apply mono_next, mok_contents. intros; exact I. Qed.
Lemma close_next x s s' t : close im x s = Done s' t -> (d_next s <= d_next s')%nat.
Proof. apply mono_next, mok_close. intros; exact I. Qed.
Lemma ids_resolution fuel :
  (forall p s, goodi (no_follow im wm d fuel p s)) /\ (forall p s, goodi (following im wm d fuel p s)) /\
  (forall x s, (x_id x < d_next s)%nat -> goodi (follow_loop im wm d fuel x s)) /\
  (forall x s, (x_id x < d_next s)%nat -> goodi (resolve_symlink im wm d fuel x s)) /\
  (forall o x s, (x_id x < d_next s)%nat -> goodi (link_loop im wm d fuel o x s)).
Proof.
  induction fuel as [|f (I1 & I2 & I3 & I4 & I5)]; [repeat split; intros; exact I|].
  split; [|split; [|split; [|split]]].
  - intros p s. rewrite no_follow_S. destruct (_ || _).
    + unfold bind, get_root. destruct (i_root im (d_fs s)) as [fs h]. cbn. lia.
    + destruct (split_path p) as [pp bn]. apply (goodi_try _ _ (fun s x => True)); [destruct (following im wm d f pp s) as [? [?|?]|?|?]; exact I|].
      intros x s1 _. apply goodi_defer. apply goodi_stat. intros st. destruct (negb _); [exact I|].
      destruct (get_ext im wm bn x s1) as [s2 [y|e]|?|?] eqn:E; cbn; auto. apply get_ext_id in E. lia.
  - intros p s. rewrite following_S. apply (goodi_try _ _ (fun s x => (x_id x < d_next s)%nat)); [apply I1|]. intros x s1 Hx. now apply I3.
  - intros x s Hx. rewrite follow_loop_S. apply goodi_stat. intros st. destruct (is_symlink st); [|exact Hx].
    apply (goodi_bind _ _ (fun s r => match r with inl y => (x_id y < d_next s)%nat | _ => True end)).
    + pose proof (I4 x s Hx) as G. destruct (resolve_symlink im wm d f x s) as [s2 [r|e]|?|?]; exact G || exact I.
    + intros r s2 Hr. apply (goodi_bind _ _ (fun s _ => match r with inl y => (x_id y < d_next s)%nat | _ => True end)).
      * destruct (close im x s2) as [s3 u|?|?] eqn:E; auto. apply close_next in E. destruct r; auto. lia.
      * intros _ s3 Hr3. destruct r; [apply I3; exact Hr3|exact I].
  - intros x s Hx. rewrite resolve_symlink_S. apply goodi_stat. intros st. destruct (negb _); [exact Hx|apply I5; exact Hx].
  - intros o x s Hx. rewrite link_loop_S. apply goodi_stat. intros st. destruct (is_symlink st); [|exact Hx].
    apply (goodi_bind _ _ (fun _ _ => True)); [destruct (get_contents im x s); exact I|]. intros t s2 _.
    apply (goodi_bind _ _ (fun _ _ => True)); [destruct (close im x s2); exact I|]. intros _ s3 _. destruct t as [t|e]; [|exact I]. cbn zeta.
    destruct (beqb _ o); [exact I|]. apply (goodi_try _ _ (fun s x => (x_id x < d_next s)%nat)); [apply I1|]. intros y s4 Hy. now apply I5.
Qed.
Lemma following_id fuel p s s' x : following im wm d fuel p s = Done s' (inl x) -> (x_id x < d_next s')%nat.
Proof. intros E. destruct (ids_resolution fuel) as (_ & G & _). specialize (G p s). rewrite E in G. exact G. Qed.
End Ids.

(** ** The directory given to RemoveAll is never unlinked *)
Section Top.
Context {F H : Type} (im : impl F H) (wm : wmode) (d : drv) (top : nat).
Definition notop (e : event) : Prop := e <> EvUnlink top.
Notation ext := (ext notop).
Definition mokt {A} (m : M F A) : Prop := forall s, (top < d_next s)%nat -> ext s (end_state (m s)).
Lemma mok_t {A} (m : M F A) : mok notop m -> mokt m.
Proof. intros Hm s _. apply Hm. Qed.
Lemma mokt_bind {A C} (m : M F A) (k : A -> M F C) : mokt m -> (forall a, mokt (k a)) -> mokt (bind m k).
Proof.
  intros Hm Hk s Hs. unfold bind. specialize (Hm s Hs). destruct (m s) as [s' a|s'|s']; cbn [end_state] in *; auto.
  eapply ext_trans; [exact Hm|apply Hk]. destruct Hm as [_ Hm]. lia.
Qed.
Lemma notops : (forall i, notop (EvAcquire i)) /\ (forall i, notop (EvRelease i)) /\ (forall i n, notop (EvGet i n)) /\
  (forall i n, notop (EvRead i n)) /\ (forall i, notop (EvList i)).
Proof. repeat split; intros; discriminate. Qed.
Lemma mokt_rmdir n : forall x, mokt (remove_directory im wm n x).
Proof.
  destruct notops as (N1 & N2 & N3 & N4 & N5).
  induction n as [|n IH]; intros x; [apply mok_t, mok_spin|]. cbn [remove_directory].
  apply mokt_bind; [apply mok_t, mok_list; auto|]. intros [names|e]; [|apply mok_t, mok_ret].
  induction names as [|nm ns IHn]; [apply mok_t, mok_ret|]. destruct (is_dots nm); [apply IHn|].
  intros s Hs. unfold try, bind at 1. pose proof (mok_get_ext im wm notop N1 N3 nm x s) as HG.
  destruct (get_ext im wm nm x s) as [s1 [ent|e]|s1|s1] eqn:EG; cbn [end_state] in HG; try exact HG.
  apply get_ext_id in EG. eapply ext_trans; [exact HG|]. assert (top < d_next s1)%nat as Hs1 by lia.
  assert (x_id ent <> top) as Hne by lia. revert s1 EG HG Hs1. cut (mokt (bind (stat im ent) (fun st =>
      r <- (if is_dir st then remove_directory im wm n (mkX (x_id ent) (join (x_path x) nm) (x_mode ent) (x_h ent)) else ret (inl tt));;
      match r with
      | inl _ => u <- unlink im ent;; _ <- close im ent;; match u with
           | inl _ => (fix entries (names : list (list Z)) : M F (unit + kerr) :=
         match names with
         | [] => ret (inl tt)
         | nm :: rest =>
             if is_dots nm then entries rest
             else
               ent <-? get_ext im wm nm x ;;
               st <- stat im ent ;;
               r <- (if is_dir st then
                       remove_directory im wm n (mkX (x_id ent) (join (x_path x) nm) (x_mode ent) (x_h ent))
                     else ret (inl tt)) ;;
               match r with
               | inr e => _ <- close im ent ;; ret (inr e)
               | inl _ =>
                   u <- unlink im ent ;;
                   _ <- close im ent ;;
                   match u with inr e => ret (inr e) | inl _ => entries rest end
               end
         end) ns | inr e => ret (inr e) end
      | inr e => _ <- close im ent;; ret (inr e)
      end))); [intros HM s1 _ _ Hs1; exact (HM s1 Hs1)|].
  apply mokt_bind; [apply mok_t, mok_stat|]. intros st. apply mokt_bind.
  - destruct (is_dir st); [apply IH|apply mok_t, mok_ret].
  - intros [u|e]; [|apply mokt_bind; [apply mok_t, mok_close; auto|intros; apply mok_t, mok_ret]].
    apply mokt_bind.
    + apply mok_t. intros s1. unfold unlink. destruct (meth ent); [|apply ext_refl]. unfold call_err.
      destruct (h_unlink im (d_fs s1) (x_h ent)). apply ext_emit. unfold notop. congruence.
    + intros v. apply mokt_bind; [apply mok_t, mok_close; auto|]. intros _. destruct v; [apply IHn|apply mok_t, mok_ret].
Qed.
End Top.
Section Top2.
Context {F H : Type} (im : impl F H) (wm : wmode) (d : drv).
Lemma remove_all_top fuel path s s1 x : following im wm d fuel (normalize_path (cwd d) path) s = Done s1 (inl x) ->
  ~ In (EvUnlink (x_id x)) (calls s1 (remove_all im wm d fuel path s)).
Proof.
  intros E. pose proof (following_id im wm d fuel _ s s1 x E) as Hid. set (top := x_id x).
  assert (ext (notop top) s1 (end_state (remove_all im wm d fuel path s))) as HE.
  { unfold remove_all, norm. erewrite try_done by exact E. destruct (notops top) as (N1 & N2 & N3 & N4 & N5).
    assert (mokt top (bind (stat im x) (fun st => if negb (is_dir st) then ret (inr (K ErrNotADirectory)) else
       bind (get_root im) (fun r s => if h_same im (d_fs s) (snd r) (x_h x) then Done s (inr (K ErrPermissionDenied)) else remove_directory im wm fuel x s)))) as HB.
    { apply mokt_bind; [apply mok_t, mok_stat|]. intros st. destruct (negb _); [apply mok_t, mok_ret|].
      apply mokt_bind; [apply mok_t, mok_root; auto|]. intros r s2 Hs2. destruct (h_same _ _ _ _); [apply ext_refl|now apply mokt_rmdir]. }
    specialize (HB s1 Hid). unfold deferring. destruct (bind (stat im x) _ s1) as [s2 v|s2|s2]; cbn [end_state] in *; auto.
    - pose proof (mok_close im (notop top) N2 x s2) as Hc. destruct (close im x s2); cbn [end_state] in *; eapply ext_trans; eauto.
    - pose proof (mok_close im (notop top) N2 x s2) as Hc. destruct (close im x s2); cbn [end_state] in *; auto. eapply ext_trans; eauto. }
  apply ext_calls in HE. rewrite Forall_forall in HE. intros Hin. now apply (HE _ Hin).
Qed.
End Top2.

(** ** RemoveAll on the in-memory file system *)
Lemma lookup_app t h k : lookup t (h ++ k) = match lookup t h with Some x => lookup x k | None => None end.
Proof.
  revert t. induction h as [|n h IH]; intros t; [reflexivity|]. cbn. destruct t; auto. destruct (lookup_in n es); auto.
Qed.
Lemma set_in_get n y es : lookup_in n es <> None -> lookup_in n (set_in n (Some y) es) = Some y.
Proof.
  induction es as [|[m x] es IH]; cbn; [congruence|]. destruct (beqb m n) eqn:E; cbn; rewrite E; auto.
Qed.
Lemma set_in_set n y v es : set_in n v (set_in n (Some y) es) = set_in n v es.
Proof. induction es as [|[m x] es IH]; cbn; [reflexivity|]. destruct (beqb m n) eqn:E; cbn; rewrite E; [reflexivity|now rewrite IH]. Qed.
Lemma update_get t h x y : lookup t h = Some x -> lookup (update t h (Some y)) h = Some y.
Proof.
  revert t. induction h as [|n h IH]; intros t; [reflexivity|]. cbn. destruct t; try discriminate.
  destruct (lookup_in n es) as [z|] eqn:E; [|discriminate]. intros Hl. destruct h as [|m h].
  - cbn. rewrite set_in_get; congruence.
  - cbn [lookup]. rewrite set_in_get by congruence. now apply IH.
Qed.
Lemma update_update t h x y v : lookup t h = Some x -> update (update t h (Some y)) h (Some v) = update t h (Some v).
Proof.
  revert t. induction h as [|n h IH]; intros t; [reflexivity|]. cbn. destruct t; try discriminate.
  destruct (lookup_in n es) as [z|] eqn:E; [|discriminate]. intros Hl. destruct h as [|m h].
  - now rewrite set_in_set.
  - rewrite set_in_get by congruence. rewrite set_in_set. now rewrite IH.
Qed.
Lemma update_snoc t h es n v : lookup t h = Some (NDir es) -> update t (h ++ [n]) v = update t h (Some (NDir (set_in n v es))).
Proof.
  revert t. induction h as [|m h IH]; intros t; [now intros [= ->]|]. cbn. destruct t as [| |es0]; try discriminate.
  destruct (lookup_in m es0) as [z|] eqn:E; [|discriminate]. intros Hl. rewrite (IH z Hl). destruct h; reflexivity.
Qed.
Lemma proper_not_dots n : proper n -> is_dots n = false.
Proof. intros (_ & A & B & _). apply is_dots_spec. now split. Qed.
Section MemRm.
Variable bs : Z.
Notation fs := (memfs bs).
Lemma mem_is_dir t h : is_dir (h_stat fs t h) = match mem_node t h with NDir _ => true | _ => false end.
Proof. unfold is_dir. cbn. destruct (mem_node t h); reflexivity. Qed.
Lemma rmdir_mem n : forall t x es s, d_fs s = t -> opt_meth x = true -> lookup t (x_h x) = Some (NDir es) -> tree_ok n (NDir es) ->
  exists s', remove_directory fs Full n x s = Done s' (inl tt) /\ d_fs s' = update t (x_h x) (Some (NDir [])).
Proof.
  induction n as [|n IH]; intros t x es s Hs Ho Hl Hok; [destruct Hok|]. destruct Hok as [Hnd Hall].
  assert (meth x = true) as Hm by (unfold opt_meth, meth in *; now destruct (x_mode x)).
  cbn [remove_directory].
  assert (list_dir fs x s = Done (emit t (EvList (x_id x)) s) (inl (map fst es))) as EL.
  { unfold list_dir. rewrite Ho, Hs. cbn. unfold mem_node. now rewrite Hl. }
  erewrite try_done by exact EL. set (s0 := emit t (EvList (x_id x)) s).
  assert (d_fs s0 = update t (x_h x) (Some (NDir es)) /\ True) as [H0 _].
  { cbn. split; [|exact I]. clear - Hl. revert t Hl. induction (x_h x) as [|n h IH]; intros t; [now intros [= ->]|]. cbn.
    destruct t as [| |es0]; try discriminate. destruct (lookup_in n es0) as [z|] eqn:E; [|discriminate]. intros Hz.
    assert (forall y, lookup_in n es0 = Some y -> set_in n (Some y) es0 = es0) as HS.
    { clear. induction es0 as [|[m w] es0 IH]; cbn; [discriminate|]. intros y. destruct (beqb m n); [now intros [= ->]|]. intros E. now rewrite IH. }
    destruct h; [cbn in Hz; injection Hz as ->; now rewrite HS|]. now rewrite <- (IH z Hz), (HS z E). }
  clearbody s0. clear EL. assert (exists e0, lookup t (x_h x) = Some e0) as [e0 He0] by eauto. clear Hl Hs s.
  revert s0 H0 Hnd Hall. induction es as [|[nm v] es IHes]; intros s0 H0 Hnd Hall; [exists s0; split; [reflexivity|exact H0]|].
  inversion Hall as [|? ? [Hp Hv] Hall']; subst. inversion Hnd as [|? ? Hni Hnd']; subst. cbn [fst snd] in *.
  pose proof (update_get t (x_h x) e0 (NDir ((nm, v) :: es)) He0) as HU. rewrite <- H0 in HU.
  assert (lookup (d_fs s0) (x_h x ++ [nm]) = Some v) as HL by (rewrite lookup_app, HU; cbn; now rewrite beqb_refl).
  cbn [map fst]. rewrite (proper_not_dots nm Hp).
  set (ent := mkX (S (d_next s0) - 1)%nat (join (x_path x) nm) Full (x_h x ++ [nm])).
  assert (exists s1, get_ext fs Full nm x s0 = Done s1 (inl (mkX (d_next s0) (join (x_path x) nm) Full (x_h x ++ [nm]))) /\ d_fs s1 = d_fs s0) as (s1 & EG & Hd1).
  { unfold get_ext, try, bind, get_object. rewrite Hm. cbn [memfs i_get]. rewrite HL. eexists. split; reflexivity. }
  clear ent. erewrite try_done by exact EG. set (ent := mkX (d_next s0) (join (x_path x) nm) Full (x_h x ++ [nm])) in *.
  rewrite bind_stat by reflexivity. rewrite mem_is_dir. cbn [ent x_h]. unfold mem_node. rewrite Hd1, HL.
  assert (exists s2 w, (if match v with NDir _ => true | _ => false end
      then remove_directory fs Full n (mkX (x_id ent) (join (x_path x) nm) (x_mode ent) (x_h x ++ [nm])) else ret (inl tt)) s1 = Done s2 (inl tt) /\
      d_fs s2 = update t (x_h x) (Some (NDir ((nm, w) :: es)))) as (s2 & w & E2 & Hd2).
  { destruct v as [b|tt'|es2].
    - exists s1, (NFile b). split; [reflexivity|]. now rewrite Hd1, H0.
    - exists s1, (NLink tt'). split; [reflexivity|]. now rewrite Hd1, H0.
    - destruct (IH (d_fs s1) (mkX (x_id ent) (join (x_path x) nm) Full (x_h x ++ [nm])) es2 s1 eq_refl eq_refl) as (s2 & E2 & Hd2).
      + cbn [x_h]. now rewrite Hd1.
      + exact Hv.
      + exists s2, (NDir []). split; [exact E2|]. rewrite Hd2. cbn [x_h]. rewrite Hd1. erewrite update_snoc by exact HU. cbn [set_in]. rewrite beqb_refl.
        rewrite H0. eapply update_update. exact He0. }
  unfold bind at 1. rewrite E2.
  pose proof (update_get t (x_h x) e0 (NDir ((nm, w) :: es)) He0) as HU2. rewrite <- Hd2 in HU2.
  assert (lookup (d_fs s2) (x_h x ++ [nm]) = Some w) as HL2 by (rewrite lookup_app, HU2; cbn; now rewrite beqb_refl).
  assert (exists s3, unlink fs ent s2 = Done s3 (inl tt) /\ d_fs s3 = update t (x_h x) (Some (NDir es))) as (s3 & E3 & Hd3).
  { unfold unlink. cbn [ent meth x_mode x_h memfs h_unlink]. rewrite HL2. eexists. split; [reflexivity|]. cbn.
    erewrite update_snoc by exact HU2. cbn [set_in]. rewrite beqb_refl. rewrite Hd2. eapply update_update. exact He0. }
  erewrite bind_done by exact E3. erewrite bind_done by now apply close_eq. cbv iota. apply IHes; auto.
Qed.
End MemRm.
