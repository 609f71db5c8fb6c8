(** * HandlesProofs: handles are obtained before and not used after they are closed. *)
From Coq Require Import String.
From Verif Require Import GoBase ListZ Errors Flags GoPath Spec_Path BlockCache BasicStream Driver DriverFile Spec_Driver Spec_Handles
  DriverProofs DriverProofs2 DriverProofs4 DriverProofs10 DriverProofs13.

Section P.
Context {F H : Type} (im : impl F H) (wm : wmode).
Notation dst := (dst F).
Definition none : nat -> Prop := fun _ => False.
Definition plus (L : nat -> Prop) (id : nat) : nat -> Prop := fun i => L i \/ i = id.

(* L: handles known to be open *)
Record inv (L : nat -> Prop) (s : dst) : Prop := {
  v_uac : no_use_after_close (d_log s);
  v_obt : only_obtained (d_log s);
  v_cnt : forall id, acquisitions id (d_log s) = (if (id <? d_next s)%nat then 1 else 0)%nat;
  v_open : forall id, L id -> (id < d_next s)%nat /\ ~ In (EvRelease id) (d_log s) }.

Lemma inv_weak (L L' : nat -> Prop) s : inv L s -> (forall i, L' i -> L i) -> inv L' s.
Proof. intros [A B C D] HL. split; auto. Qed.
Lemma acq_in id l : In (EvAcquire id) l <-> (0 < acquisitions id l)%nat.
Proof.
  unfold acquisitions. split.
  - intros Hi. assert (In (EvAcquire id) (filter (fun e => match e with EvAcquire i => Nat.eqb i id | _ => false end) l)) as X.
    { apply filter_In. split; [exact Hi|]. apply Nat.eqb_refl. }
    destruct (filter _ l); [contradiction|cbn; lia].
  - intros Hl. destruct (filter _ l) as [|e t] eqn:E; [cbn in Hl; lia|].
    assert (In e (filter (fun e => match e with EvAcquire i => Nat.eqb i id | _ => false end) l)) as X by (rewrite E; now left).
    apply filter_In in X as [X1 X2]. destruct e; try discriminate. apply Nat.eqb_eq in X2. now subst.
Qed.
Lemma issued L s id : inv L s -> (id < d_next s)%nat -> In (EvAcquire id) (d_log s).
Proof. intros V Hi. apply acq_in. rewrite (v_cnt _ _ V). destruct (Nat.ltb_spec id (d_next s)); lia. Qed.
Lemma released_issued L s id : inv L s -> In (EvRelease id) (d_log s) -> (id < d_next s)%nat.
Proof.
  intros V Hi. apply in_split in Hi as (l1 & l2 & E). pose proof (v_obt _ _ V l1 (EvRelease id) l2 id E (or_intror eq_refl)) as Ha.
  assert (In (EvAcquire id) (d_log s)) as Hb by (rewrite E; apply in_or_app; now left).
  apply acq_in in Hb. rewrite (v_cnt _ _ V) in Hb. destruct (Nat.ltb_spec id (d_next s)); lia.
Qed.
Lemma snoc_split {A} (l l1 l2 : list A) e x : l ++ [e] = l1 ++ x :: l2 -> (l2 = [] /\ l = l1 /\ x = e) \/ (exists l2', l2 = l2' ++ [e] /\ l = l1 ++ x :: l2').
Proof.
  destruct l2 as [|y l2] using rev_ind; intros E.
  - left. apply app_inj_tail in E as [-> ->]. auto.
  - right. exists l2. rewrite app_comm_cons, app_assoc in E. apply app_inj_tail in E as [-> ->]. auto.
Qed.
(* adding one event *)
Lemma inv_snoc (L : nat -> Prop) s fs next e (L' : nat -> Prop) : inv L s ->
  (forall id, uses id e -> (id < d_next s)%nat /\ ~ In (EvRelease id) (d_log s)) ->
  (forall id, e = EvRelease id -> (id < d_next s)%nat) ->
  (d_next s <= next)%nat ->
  (forall id, acquisitions id [e] = (if (d_next s <=? id)%nat && (id <? next)%nat then 1 else 0)%nat) ->
  (forall id, L' id -> (id < next)%nat /\ (L id \/ (d_next s <= id)%nat) /\ e <> EvRelease id) ->
  inv L' (mkD fs next (d_log s ++ [e])).
Proof.
  intros V HU HR Hn HA HL. split; cbn [d_log d_next].
  - intros l1 id l2 x E Hx Hu. apply snoc_split in E as [(-> & _ & _)|(l2' & -> & E)]; [contradiction|].
    apply in_app_or in Hx as [Hx|[<-|[]]].
    + exact (v_uac _ _ V l1 id l2' x E Hx Hu).
    + destruct (HU id Hu) as [_ Hr]. apply Hr. rewrite E. apply in_or_app. right. now left.
  - intros l1 x l2 id E Hx. apply snoc_split in E as [(-> & <- & ->)|(l2' & -> & E)]; [|exact (v_obt _ _ V l1 x l2' id E Hx)].
    apply (issued L); [exact V|]. destruct Hx as [Hx|Hx]; [apply HU; exact Hx|apply HR; exact Hx].
  - intros id. rewrite acq_app, (v_cnt _ _ V), HA.
    destruct (Nat.ltb_spec id (d_next s)), (Nat.leb_spec (d_next s) id), (Nat.ltb_spec id next); cbn [andb]; lia.
  - intros id Hi. destruct (HL id Hi) as (H1 & H2 & H3). split; [exact H1|]. intros Hr. apply in_app_or in Hr as [Hr|[Hr|[]]]; [|now apply H3].
    destruct H2 as [H2|H2]; [now apply (v_open _ _ V) in H2|]. pose proof (released_issued L s id V Hr). lia.
Qed.
Lemma acq_none e id : (forall i, e <> EvAcquire i) -> acquisitions id [e] = 0%nat.
Proof. intros He. unfold acquisitions. cbn. destruct e; try reflexivity. now destruct (He id0). Qed.
Lemma rng_none (a id : nat) : ((if (a <=? id)%nat && (id <? a)%nat then 1 else 0) = 0)%nat.
Proof. destruct (Nat.leb_spec a id), (Nat.ltb_spec id a); cbn [andb]; lia. Qed.
Lemma inv_emit L s fs e : inv L s -> (forall id, uses id e -> L id) -> (forall i, e <> EvAcquire i) -> (forall i, e <> EvRelease i) -> inv L (emit fs e s).
Proof.
  intros V HU HA HR. eapply inv_snoc; eauto.
  - intros id Hu. now apply (v_open _ _ V), HU.
  - intros id Hi. now destruct (HR id).
  - intros id. now rewrite acq_none, rng_none.
  - intros id Hi. split; [now apply (v_open _ _ V)|]. auto.
Qed.
Lemma inv_fresh L s fs : inv L s -> inv (plus L (d_next s)) (snd (fresh fs s)).
Proof.
  intros V. cbn. eapply inv_snoc; eauto.
  - intros id [].
  - discriminate.
  - intros id. unfold acquisitions. cbn [filter]. destruct (Nat.eqb_spec (d_next s) id), (Nat.leb_spec (d_next s) id), (Nat.ltb_spec id (S (d_next s))); cbn; lia.
  - intros id [Hi| ->]; (split; [|split; [|discriminate]]).
    + apply (v_open _ _ V) in Hi. lia.
    + now left.
    + lia.
    + right. lia.
Qed.
Lemma inv_release (L L' : nat -> Prop) s fs id : inv L s -> (id < d_next s)%nat -> (forall i, L' i -> L i /\ i <> id) -> inv L' (emit fs (EvRelease id) s).
Proof.
  intros V Hid HL. eapply inv_snoc; eauto.
  - intros i [].
  - intros i [= <-]. exact Hid.
  - intros i. now rewrite acq_none, rng_none.
  - intros i Hi. destruct (HL i Hi) as [H1 H2]. split; [now apply (v_open _ _ V)|]. split; [now left|]. congruence.
Qed.

(** ** A weakest precondition *)
Definition wp {A} (m : M F A) (s : dst) (Q : dst -> A -> Prop) : Prop :=
  match m s with
  | Done s' a => (d_next s <= d_next s')%nat /\ Q s' a
  | Crash s' | Spin s' => (d_next s <= d_next s')%nat /\ inv none s'
  end.
Lemma wp_bind {A C} (m : M F A) (k : A -> M F C) s Q : wp m s (fun s1 a => (d_next s <= d_next s1)%nat -> wp (k a) s1 Q) -> wp (bind m k) s Q.
Proof.
  unfold wp, bind. destruct (m s) as [s1 a|s1|s1]; auto. intros [H1 H2]. specialize (H2 H1). destruct (k a s1); destruct H2; split; auto; lia.
Qed.
Lemma wp_mono {A} (m : M F A) s (Q Q' : dst -> A -> Prop) : wp m s Q -> (forall s' a, (d_next s <= d_next s')%nat -> Q s' a -> Q' s' a) -> wp m s Q'.
Proof. unfold wp. destruct (m s); auto. intros [] HQ. auto. Qed.
Lemma wp_ret {A} (a : A) s (Q : dst -> A -> Prop) : Q s a -> wp (ret a) s Q.
Proof. intros HQ. unfold wp, ret. auto. Qed.
Lemma wp_try {A C} (m : M F (A + kerr)) (k : A -> M F (C + kerr)) s Q :
  wp m s (fun s1 r => (d_next s <= d_next s1)%nat -> match r with inl a => wp (k a) s1 Q | inr e => Q s1 (inr e) end) -> wp (try m k) s Q.
Proof. intros W. apply wp_bind. eapply wp_mono; [exact W|]. intros s1 [a|e] Hn Hq Hn1; [auto|apply wp_ret; auto]. Qed.
Lemma inv_none L s : inv L s -> inv none s. Proof. intros V. apply (inv_weak L); auto. intros i []. Qed.
Lemma wp_stat L x s (Q : dst -> fstat -> Prop) : inv L s -> (forall st, st = h_stat im (d_fs s) (x_h x) -> Q s st) -> wp (stat im x) s Q.
Proof. intros V HQ. unfold wp, stat. destruct (meth x); (split; [lia|]); [now apply HQ|exact (inv_none _ _ V)]. Qed.
Lemma wp_close (L L' : nat -> Prop) x s (Q : dst -> unit -> Prop) : inv L s -> (x_id x < d_next s)%nat -> (forall i, L' i -> L i /\ i <> x_id x) ->
  (forall s', inv L' s' -> Q s' tt) -> wp (close im x) s Q.
Proof.
  intros V Hx HL HQ. unfold wp, close. destruct (meth x); (split; [cbn; lia|]); [|exact (inv_none _ _ V)]. apply HQ. eapply inv_release; eauto.
Qed.
Lemma wp_defer {A} (L L' : A -> nat -> Prop) x (m : M F A) s (Q : dst -> A -> Prop) : wp m s (fun s1 a => inv (L a) s1 /\ (forall s2, inv (L' a) s2 -> Q s2 a) /\ (forall i, L' a i -> L a i /\ i <> x_id x)) ->
  (x_id x < d_next s)%nat -> wp (deferring im x m) s Q.
Proof.
  unfold wp, deferring. intros W Hx. destruct (m s) as [s1 a|s1|s1]; [| |exact W].
  - destruct W as (Hn & V & HQ & HL). unfold close. destruct (meth x); (split; [cbn; lia|]); [|exact (inv_none _ _ V)]. apply HQ. apply (inv_release (L a)); [exact V|lia|exact HL].
  - destruct W as (Hn & V). unfold close. destruct (meth x); (split; [cbn; lia|]); [|exact V]. apply (inv_release none none); [exact V|lia|intros i []].
Qed.
Definition got (L : nat -> Prop) (s : dst) {A} (idf : A -> nat) (s1 : dst) (r : A + kerr) : Prop :=
  match r with inl q => inv (plus L (idf q)) s1 /\ (d_next s <= idf q)%nat | inr _ => inv L s1 end.
Lemma wp_root L s : inv L s -> wp (get_root im) s (fun s1 r => inv (plus L (fst r)) s1 /\ (d_next s <= fst r)%nat).
Proof. intros V. unfold wp, get_root. destruct (i_root im (d_fs s)) as [fs h]. cbn [fresh]. split; [cbn; lia|]. split; [exact (inv_fresh L s fs V)|cbn; lia]. Qed.
Lemma wp_get L n x s : inv L s -> L (x_id x) -> wp (get_object im n x) s (got L s fst).
Proof.
  intros V Hx. unfold wp, get_object. destruct (meth x); [|split; [apply le_n|exact (inv_none _ _ V)]]. destruct (i_get im (d_fs s) n (x_h x)) as [fs r].
  assert (inv L (emit fs (EvGet (x_id x) n) s)) as V1 by (apply inv_emit; auto; [intros id ->; exact Hx|discriminate..]).
  destruct r as [h|e]; [|split; [cbn; lia|exact V1]]. cbn [fresh]. split; [cbn; lia|]. split; [exact (inv_fresh L _ fs V1)|cbn; lia].
Qed.
Lemma wp_create L n x md s : inv L s -> L (x_id x) -> wp (create_object im n x md) s (got L s fst).
Proof.
  intros V Hx. unfold wp, create_object. destruct (meth x); [|split; [apply le_n|exact (inv_none _ _ V)]]. destruct (i_create im (d_fs s) n (x_h x) md) as [fs r].
  assert (inv L (emit fs (EvCreate (x_id x) n md) s)) as V1 by (apply inv_emit; auto; [intros id ->; exact Hx|discriminate..]).
  destruct r as [h|e]; [|split; [cbn; lia|exact V1]]. cbn [fresh]. split; [cbn; lia|]. split; [exact (inv_fresh L _ fs V1)|cbn; lia].
Qed.
Lemma wp_get_ext L n x s : inv L s -> L (x_id x) -> wp (get_ext im wm n x) s (got L s (@x_id H)).
Proof. intros V Hx. apply wp_try. eapply wp_mono; [apply (wp_get L); auto|]. intros s1 [q|e] Hn HG _; [|exact HG]. now apply wp_ret. Qed.
Lemma wp_create_ext L n x md s : inv L s -> L (x_id x) -> wp (create_ext im wm n x md) s (got L s (@x_id H)).
Proof. intros V Hx. apply wp_try. eapply wp_mono; [apply (wp_create L); auto|]. intros s1 [q|e] Hn HG _; [|exact HG]. now apply wp_ret. Qed.
Lemma wp_call L r e s : inv L s -> (forall id, uses id e -> L id) -> (forall i, e <> EvAcquire i) -> (forall i, e <> EvRelease i) ->
  wp (call_err r e) s (fun s1 _ => inv L s1).
Proof. intros V HU HA HR. unfold wp, call_err. destruct r as [fs er]. split; [cbn; lia|]. now apply inv_emit. Qed.
Lemma wp_unlink L x s : inv L s -> L (x_id x) -> wp (unlink im x) s (fun s1 _ => inv L s1).
Proof. intros V Hx. unfold wp, unlink. destruct (meth x); [|split; [apply le_n|exact (inv_none _ _ V)]]. apply (wp_call L); auto; [intros id ->; exact Hx|discriminate..]. Qed.
Lemma wp_resize L x n s : inv L s -> L (x_id x) -> wp (resize_obj im x n) s (fun s1 _ => inv L s1).
Proof. intros V Hx. unfold wp, resize_obj. destruct (meth x); [|split; [apply le_n|exact (inv_none _ _ V)]]. apply (wp_call L); auto; [intros id ->; exact Hx|discriminate..]. Qed.
Lemma wp_list L x s : inv L s -> L (x_id x) -> wp (list_dir im x) s (fun s1 _ => inv L s1).
Proof.
  intros V Hx. unfold wp, list_dir. destruct (opt_meth x); [|split; [apply le_n|exact (inv_none _ _ V)]]. destruct (h_listdir im _ _) as [[fs r]|]; [|split; [apply le_n|exact (inv_none _ _ V)]].
  split; [cbn; lia|]. apply inv_emit; auto; [intros id ->; exact Hx|discriminate..].
Qed.
Lemma wp_opt L (x : xh H) g e s : inv L s -> (forall id, uses id e -> L id) -> (forall i, e <> EvAcquire i) -> (forall i, e <> EvRelease i) ->
  wp (opt_call x g e) s (fun s1 _ => inv L s1) /\ wp (opt_call_ns x g e) s (fun s1 _ => inv L s1).
Proof.
  intros V HU HA HR. unfold wp, opt_call, opt_call_ns. destruct (opt_meth x); [|split; (split; [apply le_n|exact V])].
  destruct (g (d_fs s) (x_h x)) as [r|]; [|split; (split; [apply le_n|exact V])]. split; apply (wp_call L); auto.
Qed.

(** ** Files *)
Definition same_or_more (L : nat -> Prop) (s s1 : dst) : Prop := (d_next s <= d_next s1)%nat /\ inv L s1.
Section Cb.
Variables (L : nat -> Prop) (x : xh H) (s0 : dst).
Hypothesis Hx : L (x_id x).
Let P (s : dst) := same_or_more L s0 s.
Lemma cbP : forall s i b s' b' e, P s -> cb_fetch (obj_callbacks im x) s i b = (s', b', e) -> P s'.
Proof.
  intros s i b s' b' e [Hn V] E. cbn in E. destruct (h_read im (d_fs s) (x_h x) i b) as [[fs b1] e1]. injection E as <- _ _.
  split; [cbn; lia|]. apply inv_emit; auto; [intros id ->; exact Hx|discriminate..].
Qed.
Lemma cbW : forall s i b s' e, P s -> cb_flush (obj_callbacks im x) s i b = (s', e) -> P s'.
Proof.
  intros s i b s' e [Hn V] E. cbn in E. destruct (h_write im (d_fs s) (x_h x) i b) as [fs e1]. injection E as <- _.
  split; [cbn; lia|]. apply inv_emit; auto; [intros id ->; exact Hx|discriminate..].
Qed.
Lemma cbR : forall s n s' e, P s -> cb_resize (obj_callbacks im x) s n = (s', e) -> P s'.
Proof.
  intros s n s' e [Hn V] E. cbn in E. destruct (h_resize im (d_fs s) (x_h x) n) as [fs e1]. injection E as <- _.
  split; [cbn; lia|]. apply inv_emit; auto; [intros id ->; exact Hx|discriminate..].
Qed.
End Cb.
Lemma s_read_at_pres3 {S} (cb : callbacks S) (P : S -> Prop) (HP : forall s i b s' b' e, P s -> cb_fetch cb s i b = (s', b', e) -> P s')
  s st b off s' st' b' n e : P s -> s_read_at cb s st b off = Ret (s', st', b', n, e) -> P s'.
Proof.
  intros Hs E. unfold s_read_at in E. destruct (negb (io_read (sflags st))); [injection E as <- <- <- <- <-; auto|].
  cbn zeta in E. destruct (zlen b =? 0); [injection E as <- <- <- <- <-; auto|]. destruct (_ >=? ssize st); [injection E as <- <- <- <- <-; auto|].
  destruct (conv_addr _ _) as [[f1 so]| |]; try discriminate. destruct (conv_addr _ _) as [[l1 so1]| |]; try discriminate.
  destruct (get_slice cb s _ _ _) as [[[s2 c2] [r|r]]| |] eqn:EG; try discriminate; pose proof (get_slice_pres3 cb P HP _ _ _ _ _ _ _ Hs EG).
  - destruct (reslice _ _ _ _); try discriminate. injection E as <- <- <- <- <-. auto.
  - injection E as <- <- <- <- <-. auto.
Qed.
Lemma s_read_pres4 {S} (cb : callbacks S) (P : S -> Prop) (HP : forall s i b s' b' e, P s -> cb_fetch cb s i b = (s', b', e) -> P s')
  s st b s' st' b' n e : P s -> s_read cb s st b = Ret (s', st', b', n, e) -> P s'.
Proof.
  intros Hs E. unfold s_read in E. destruct (s_read_at cb s st b (spos st)) as [[[[[s1 st1] b1] n1] [e1|]]| |] eqn:E1; try discriminate;
    pose proof (s_read_at_pres3 cb P HP _ _ _ _ _ _ _ _ _ Hs E1); injection E as <- <- <- <- <-; auto.
Qed.
Lemma wp_contents L x s : inv L s -> L (x_id x) -> wp (get_contents im x) s (fun s1 _ => inv L s1).
Proof.
  intros V Hx. pose proof (contents_pres im x (same_or_more L s) (cbP L x s Hx) s (conj (le_n _) V)) as [Hn V1].
  unfold wp. destruct (get_contents im x s) as [s1 r|s1|s1]; cbn in Hn, V1; (split; [exact Hn|]); auto; exact (inv_none _ _ V1).
Qed.
Lemma wp_new_file L x fl s : inv L s -> L (x_id x) ->
  wp (new_file im x fl) s (fun s1 r => inv L s1 /\ match r with inl f => fl_obj f = x | inr _ => True end).
Proof.
  intros V Hx. apply wp_bind. eapply wp_stat; [exact V|]. intros st _ _. unfold wp.
  destruct (negb (new_fits _ _)); [split; [apply le_n|exact (inv_none _ _ V)]|].
  destruct (s_new _ s _ _ fl) as [[[s1 o] e]| |] eqn:E; [|split; [apply le_n|exact (inv_none _ _ V)]..].
  assert (same_or_more L s s1) as [Hn V1].
  { unfold s_new in E. destruct (_ || _); [injection E as <- <- <-; split; [apply le_n|exact V]|]. destruct (io_truncate fl); [|injection E as <- <- <-; split; [apply le_n|exact V]].
    destruct (s_truncate _ s _ 0) as [[[s2 st2] e2]| |] eqn:ET; try discriminate. injection E as <- <- <-.
    eapply (s_truncate_pres3 _ (same_or_more L s)); [apply cbP|apply cbW|apply cbR|split; [apply le_n|exact V]|exact ET]; exact Hx. }
  destruct e as [e|]; destruct o as [stm|]; (split; [exact Hn|]); try (split; auto; fail). exact (inv_none _ _ V1).
Qed.
Lemma wp_fl_read L f b s : inv L s -> L (x_id (fl_obj f)) -> wp (fl_read im f b) s (fun s1 r => inv L s1 /\ fl_obj (fst (fst (fst r))) = fl_obj f).
Proof.
  intros V Hx. unfold wp, fl_read. destruct (s_read _ s _ b) as [[[[[s1 st1] b1] n1] e1]| |] eqn:E; [|split; [apply le_n|exact (inv_none _ _ V)]..].
  destruct (s_read_pres4 _ (same_or_more L s) (cbP L (fl_obj f) s Hx) _ _ _ _ _ _ _ _ (conj (le_n _) V) E) as [Hn V1]. split; [exact Hn|]. split; auto.
Qed.
Lemma wp_fl_read_at L f b off s : inv L s -> L (x_id (fl_obj f)) -> wp (fl_read_at im f b off) s (fun s1 r => inv L s1 /\ fl_obj (fst (fst (fst r))) = fl_obj f).
Proof.
  intros V Hx. unfold wp, fl_read_at. destruct (s_read_at _ s _ b off) as [[[[[s1 st1] b1] n1] e1]| |] eqn:E; [|split; [apply le_n|exact (inv_none _ _ V)]..].
  destruct (s_read_at_pres3 _ (same_or_more L s) (cbP L (fl_obj f) s Hx) _ _ _ _ _ _ _ _ _ (conj (le_n _) V) E) as [Hn V1]. split; [exact Hn|]. split; auto.
Qed.
Lemma wp_fl_write L f b s : inv L s -> L (x_id (fl_obj f)) -> wp (fl_write im f b) s (fun s1 r => inv L s1 /\ fl_obj (fst (fst r)) = fl_obj f).
Proof.
  intros V Hx. unfold wp, fl_write. destruct (s_write _ s _ b) as [[[[s1 st1] n1] e1]| |] eqn:E; [|split; [apply le_n|exact (inv_none _ _ V)]..].
  destruct (s_write_pres3 _ (same_or_more L s) (cbP _ _ _ Hx) (cbW _ _ _ Hx) (cbR _ _ _ Hx) _ _ _ _ _ _ _ (conj (le_n _) V) E) as [Hn V1]. split; [exact Hn|]. split; auto.
Qed.
Lemma wp_fl_write_at L f b off s : inv L s -> L (x_id (fl_obj f)) -> wp (fl_write_at im f b off) s (fun s1 r => inv L s1 /\ fl_obj (fst (fst r)) = fl_obj f).
Proof.
  intros V Hx. unfold wp, fl_write_at. destruct (s_write_at _ s _ b off) as [[[[s1 st1] n1] e1]| |] eqn:E; [|split; [apply le_n|exact (inv_none _ _ V)]..].
  assert (same_or_more L s s1) as [Hn V1].
  { unfold s_write_at in E. destruct (io_append _); [injection E as <- <- <- <-; split; [apply le_n|exact V]|].
    exact (s_impl_write_pres3 _ (same_or_more L s) (cbP _ _ _ Hx) (cbW _ _ _ Hx) (cbR _ _ _ Hx) _ _ _ _ _ _ _ _ (conj (le_n _) V) E). }
  split; [exact Hn|]. split; auto.
Qed.
Lemma wp_fl_truncate L f n s : inv L s -> L (x_id (fl_obj f)) -> wp (fl_truncate im f n) s (fun s1 r => inv L s1 /\ fl_obj (fst r) = fl_obj f).
Proof.
  intros V Hx. unfold wp, fl_truncate. destruct (s_truncate _ s _ n) as [[[s1 st1] e1]| |] eqn:E; [|split; [apply le_n|exact (inv_none _ _ V)]..].
  destruct (s_truncate_pres3 _ (same_or_more L s) (cbP _ _ _ Hx) (cbW _ _ _ Hx) (cbR _ _ _ Hx) _ _ _ _ _ _ (conj (le_n _) V) E) as [Hn V1]. split; [exact Hn|]. split; auto.
Qed.
Lemma wp_fl_sync L f s : inv L s -> L (x_id (fl_obj f)) -> wp (fl_sync im f) s (fun s1 r => inv L s1 /\ fl_obj (fst r) = fl_obj f).
Proof.
  intros V Hx. unfold wp, fl_sync. destruct (s_sync _ s _) as [[[s1 st1] e1]| |] eqn:E; [|split; [apply le_n|exact (inv_none _ _ V)]..].
  destruct (s_sync_pres3 _ (same_or_more L s) (cbP _ _ _ Hx) (cbW _ _ _ Hx) _ _ _ _ _ (conj (le_n _) V) E) as [Hn V1]. split; [exact Hn|]. split; auto.
Qed.
Lemma wp_fl_close L f s : inv L s -> L (x_id (fl_obj f)) -> wp (fl_close im f) s (fun s1 _ => inv L s1).
Proof.
  intros V Hx. unfold wp, fl_close, s_close. destruct (s_sync _ s _) as [[[s1 st1] e1]| |] eqn:E; [|split; [apply le_n|exact (inv_none _ _ V)]..].
  destruct (s_sync_pres3 _ (same_or_more L s) (cbP _ _ _ Hx) (cbW _ _ _ Hx) _ _ _ _ _ (conj (le_n _) V) E) as [Hn V1]. split; auto.
Qed.

(** ** Resolving paths *)
Variable d : drv.
Lemma plus_close L s id i : inv L s -> (d_next s <= id)%nat -> L i -> plus L id i /\ i <> id.
Proof. intros V Hn Hi. split; [now left|]. apply (v_open _ _ V) in Hi. lia. Qed.
Lemma plus_lt L s1 id : inv (plus L id) s1 -> (id < d_next s1)%nat.
Proof. intros V. apply (v_open _ _ V). now right. Qed.
Lemma inv_pw L s id : inv (plus L id) s -> inv L s.
Proof. intros V. apply (inv_weak _ _ _ V). intros i Hi. now left. Qed.

Lemma resolution f :
  (forall L p s, inv L s -> wp (no_follow im wm d f p) s (got L s (@x_id H))) /\
  (forall L p s, inv L s -> wp (following im wm d f p) s (got L s (@x_id H))) /\
  (forall L x s, inv (plus L (x_id x)) s -> ~ L (x_id x) -> wp (follow_loop im wm d f x) s
     (fun s1 r => match r with inl y => inv (plus L (x_id y)) s1 /\ (y = x \/ d_next s <= x_id y)%nat | inr _ => inv L s1 end)) /\
  (forall L x s, inv (plus L (x_id x)) s -> ~ L (x_id x) -> wp (resolve_symlink im wm d f x) s
     (fun s1 r => match r with inl y => inv (plus L (x_id y)) s1 /\ (y = x /\ is_symlink (h_stat im (d_fs s) (x_h x)) = false \/ d_next s <= x_id y)%nat | inr _ => inv L s1 end)) /\
  (forall L o x s, inv (plus L (x_id x)) s -> ~ L (x_id x) -> wp (link_loop im wm d f o x) s
     (fun s1 r => match r with inl y => inv (plus L (x_id y)) s1 /\ (y = x /\ is_symlink (h_stat im (d_fs s) (x_h x)) = false \/ d_next s <= x_id y)%nat | inr _ => inv L s1 end)).
Proof.
  induction f as [|f (I1 & I2 & I3 & I4 & I5)].
  - split; [|split; [|split; [|split]]]; intros; (split; [apply le_n|eapply inv_none; eassumption]).
  - split; [|split; [|split; [|split]]].
    + intros L p s V. rewrite no_follow_S. destruct (_ || _).
      * apply wp_bind. eapply wp_mono; [apply (wp_root L); exact V|]. intros s1 r Hn [V1 Hr] _. apply wp_ret. split; [exact V1|exact Hr].
      * destruct (split_path p) as [pp bn]. apply wp_try. eapply wp_mono; [apply (I2 L); exact V|]. intros s1 [x|e] Hn HG _; [|exact HG].
        destruct HG as [V1 Hx]. pose proof (plus_lt _ _ _ V1) as Hxn.
        eapply (wp_defer (fun r => match r with inl y => plus (plus L (x_id x)) (x_id y) | inr _ => plus L (x_id x) end)
                        (fun r => match r with inl y => plus L (x_id y) | inr _ => L end)); [|exact Hxn].
        apply wp_bind. eapply wp_stat; [exact V1|]. intros st _ _. destruct (negb (is_dir st)).
        -- apply wp_ret. split; [exact V1|]. split; [intros s2 V2; exact V2|]. intros i Hi. eapply plus_close; eauto.
        -- eapply wp_mono; [apply (wp_get_ext (plus L (x_id x))); [exact V1|now right]|]. intros s2 [y|e] Hn2 HG2.
           ++ destruct HG2 as [V2 Hy]. split; [exact V2|]. split; [intros s3 V3; split; [exact V3|lia]|].
              intros i [Hi| ->]; [split; [left; now left|]|split; [now right|lia]]. apply (v_open _ _ V) in Hi. lia.
           ++ split; [exact HG2|]. split; [intros s3 V3; exact V3|]. intros i Hi. eapply plus_close; eauto.
    + intros L p s V. rewrite following_S. apply wp_try. eapply wp_mono; [apply (I1 L); exact V|]. intros s1 [x|e] Hn HG _; [|exact HG].
      destruct HG as [V1 Hx]. eapply wp_mono; [apply (I3 L); [exact V1|]|].
      * intros Hl. apply (v_open _ _ V) in Hl. lia.
      * intros s2 [y|e] Hn2 HQ; [|exact HQ]. destruct HQ as [V2 [-> |Hy]]; (split; [exact V2|lia]).
    + intros L x s V Hx. rewrite follow_loop_S. apply wp_bind. eapply wp_stat; [exact V|]. intros st Hst _. destruct (is_symlink st) eqn:Es.
      * apply wp_bind. eapply wp_mono; [apply (I4 L); auto|]. intros s1 r Hn HQ _. apply wp_bind. destruct r as [y|e].
        -- destruct HQ as [V1 [[-> Hns]|Hy]]; [rewrite <- Hst in Hns; congruence|].
           pose proof (plus_lt _ _ _ V) as Hxn.
           eapply (wp_close (plus L (x_id y)) (plus L (x_id y))); [exact V1|lia| |].
           ++ intros i [Hi| ->]; [split; [now left|congruence]|split; [now right|lia]].
           ++ intros s2 V2 Hn2. eapply wp_mono; [apply (I3 L); [exact V2|]|].
              ** intros Hl. pose proof (inv_pw _ _ _ V) as V0. apply (v_open _ _ V0) in Hl. lia.
              ** intros s3 [z|e] Hn3 HQ3; [|exact HQ3]. destruct HQ3 as [V3 [-> |Hz]]; (split; [exact V3|right; lia]).
        -- pose proof (plus_lt _ _ _ V) as Hxn. eapply (wp_close L L); [exact HQ|lia|intros i Hi; split; [exact Hi|congruence]|].
           intros s2 V2 _. apply wp_ret. exact V2.
      * apply wp_ret. split; auto.
    + intros L x s V Hx. rewrite resolve_symlink_S. apply wp_bind. eapply wp_stat; [exact V|]. intros st Hst _. destruct (is_symlink st) eqn:Es; cbn [negb].
      * eapply wp_mono; [apply (I5 L); auto|]. intros s1 r Hn HQ. exact HQ.
      * apply wp_ret. split; [exact V|]. left. split; [reflexivity|]. congruence.
    + intros L o x s V Hx. rewrite link_loop_S. apply wp_bind. eapply wp_stat; [exact V|]. intros st Hst _. destruct (is_symlink st) eqn:Es.
      * apply wp_bind. eapply wp_mono; [apply (wp_contents (plus L (x_id x))); [exact V|now right]|]. intros s1 t Hn V1 _. apply wp_bind.
        pose proof (plus_lt _ _ _ V1) as Hxn. eapply (wp_close _ L); [exact V1|exact Hxn|intros i Hi; split; [now left|congruence]|]. intros s2 V2 Hn2.
        destruct t as [text|e]; [|now apply wp_ret]. cbv zeta. destruct (beqb _ o); [now apply wp_ret|].
        apply wp_try. eapply wp_mono; [apply (I1 L); exact V2|]. intros s3 [y|e] Hn3 HG _; [|exact HG]. destruct HG as [V3 Hy].
        eapply wp_mono; [apply (I5 L); [exact V3|]|].
        -- intros Hl. apply (v_open _ _ V2) in Hl. lia.
        -- intros s4 [z|e] Hn4 HQ; [|exact HQ]. destruct HQ as [V4 [[-> _]|Hz]]; (split; [exact V4|right; lia]).
      * apply wp_ret. split; [exact V|]. left. split; [reflexivity|congruence].
Qed.
Lemma wp_nof f L p s : inv L s -> wp (no_follow im wm d f p) s (got L s (@x_id H)). Proof. apply resolution. Qed.
Lemma wp_fol f L p s : inv L s -> wp (following im wm d f p) s (got L s (@x_id H)). Proof. apply resolution. Qed.

(** ** Operations *)
Definition keeps {A} (m : M F A) : Prop := forall L s, inv L s -> wp m s (fun s1 _ => inv L s1).
Lemma keeps_outc {A} (m : M F (A + kerr)) : keeps m -> keeps (outc m).
Proof. intros Hm L s V. apply wp_bind. eapply wp_mono; [apply (Hm L); exact V|]. intros s1 a Hn V1 _. now apply wp_ret. Qed.
(* look something up, use it, close it *)
Lemma keeps_with {A} (look : M F (xh H + kerr)) (k : xh H -> M F (A + kerr)) :
  (forall L s, inv L s -> wp look s (got L s (@x_id H))) ->
  (forall x L s, inv L s -> L (x_id x) -> wp (k x) s (fun s1 _ => inv L s1)) ->
  keeps (x <-? look ;; deferring im x (k x)).
Proof.
  intros Hl Hk L s V. apply wp_try. eapply wp_mono; [apply Hl; exact V|]. intros s1 [x|e] Hn HG _; [|exact HG]. destruct HG as [V1 Hx].
  eapply (wp_defer (fun _ => plus L (x_id x)) (fun _ => L)); [|exact (plus_lt _ _ _ V1)].
  eapply wp_mono; [apply Hk; [exact V1|now right]|]. intros s2 a Hn2 V2. split; [exact V2|]. split; [auto|]. intros i Hi. eapply plus_close; eauto.
Qed.
(* look something up and use it *)
Lemma keeps_use {A} (look : M F (xh H + kerr)) (k : xh H -> M F (A + kerr)) :
  (forall L s, inv L s -> wp look s (got L s (@x_id H))) ->
  (forall x L s, inv L s -> L (x_id x) -> wp (k x) s (fun s1 _ => inv L s1)) ->
  keeps (x <-? look ;; k x).
Proof.
  intros Hl Hk L s V. apply wp_try. eapply wp_mono; [apply Hl; exact V|]. intros s1 [x|e] Hn HG _; [|exact HG]. destruct HG as [V1 Hx].
  eapply wp_mono; [apply Hk; [exact V1|now right]|]. intros s2 a Hn2 V2. exact (inv_pw _ _ _ V2).
Qed.
Lemma wp_mk L n x md s : inv L s -> L (x_id x) ->
  wp (r <-? create_object im n x md ;; (_ <- close im (raw (fst r) (snd r)) ;; ret (inl tt))) s (fun s1 (_ : unit + kerr) => inv L s1).
Proof.
  intros V Hx. apply wp_try. eapply wp_mono; [apply (wp_create L); auto|]. intros s1 [q|e] Hn HG _; [|exact HG]. destruct HG as [V1 Hq].
  apply wp_bind. eapply (wp_close _ L); [exact V1|exact (plus_lt _ _ _ V1)|intros i Hi; eapply plus_close; eauto|]. intros s2 V2 _. now apply wp_ret.
Qed.
Lemma wp_entries (L : nat -> Prop) x ns : L (x_id x) -> forall acc s, inv L s -> wp (read_entries im x ns acc) s (fun s1 _ => inv L s1).
Proof.
  intros Hx. induction ns as [|n ns IH]; intros acc s V; cbn [read_entries]; [now apply wp_ret|]. destruct (is_dots n); [now apply IH|].
  apply wp_bind. eapply wp_mono; [apply (wp_get L); auto|]. intros s1 [[id h]|e] Hn HG _; [|now apply wp_ret]. destruct HG as [V1 Hq]. cbn [fst] in *.
  match goal with |- wp ?m _ _ => change (wp (_ <- close im (raw id h) ;; read_entries im x ns (acc ++ [mkDirent (h_name im (d_fs s1) h) (h_stat im (d_fs s1) h)])) s1 (fun s2 _ => inv L s2)) end.
  apply wp_bind. eapply (wp_close _ L (raw id h)); [exact V1|exact (plus_lt _ _ _ V1)|intros i Hi; eapply plus_close; eauto|]. intros s2 V2 _. now apply IH.
Qed.
Lemma wp_read_dir_obj L x s : inv L s -> L (x_id x) -> wp (read_dir_obj im x) s (fun s1 _ => inv L s1).
Proof.
  intros V Hx. apply wp_bind. eapply wp_mono; [apply (wp_list L); auto|]. intros s1 [ns|e] Hn V1 _; [now apply wp_entries|now apply wp_ret].
Qed.
Lemma wp_open_file fuel p fl perm L s : inv L s ->
  wp (open_file im wm d fuel p fl perm) s (fun s1 r => match r with inl f => inv (plus L (x_id (fl_obj f))) s1 | inr _ => inv L s1 end).
Proof.
  intros V. unfold open_file. cbv zeta. destruct (_ && _); [now apply wp_ret|]. apply wp_bind.
  eapply wp_mono; [apply (wp_fol fuel L); exact V|]. intros s1 r Hn HG _. apply wp_try.
  eapply (wp_mono _ _ (fun s2 (q : xh H + kerr) => match q with inl x => inv (plus L (x_id x)) s2 | inr _ => inv L s2 end)).
  2:{ intros s2 [x|e] Hn2 V2 _; [|exact V2]. apply wp_bind. eapply wp_stat; [exact V2|]. intros st _ _.
      destruct (negb (is_file st)); [apply wp_ret; exact (inv_pw _ _ _ V2)|]. eapply wp_mono; [apply (wp_new_file (plus L (x_id x))); [exact V2|now right]|].
      intros s3 [f|e] Hn3 [V3 Hf]; [now rewrite Hf|exact (inv_pw _ _ _ V3)]. }
  assert (forall e, wp (ret (@inr (xh H) kerr e)) s1 (fun s2 (q : xh H + kerr) => match q with inl x => inv (plus L (x_id x)) s2 | inr _ => inv L s2 end) \/ exists x, r = inl x) as HE.
  { intros e. destruct r as [x|e1]; [right; eauto|left; now apply wp_ret]. }
  destruct r as [x|e0]; [apply wp_ret; apply HG|]. assert (inv L s1) as V1 by exact HG. clear HE HG.
  destruct (_ && _); [|now apply wp_ret]. destruct (split_path _) as [pd bn].
  apply wp_try. eapply wp_mono; [apply (wp_fol fuel L); exact V1|]. intros s2 [x|e] Hn2 HG _; [|exact HG]. destruct HG as [V2 Hx].
  apply wp_bind. eapply wp_mono; [apply (wp_create_ext (plus L (x_id x))); [exact V2|now right]|]. intros s3 [y|e] Hn3 HG _.
  - destruct HG as [V3 Hy]. pose proof (plus_lt _ _ _ V2) as Hxn. apply wp_bind. eapply (wp_close _ (plus L (x_id y))); [exact V3|lia| |].
    + intros i [Hi| ->]; [split; [left; now left|]|split; [now right|lia]]. apply (v_open _ _ V1) in Hi. lia.
    + intros s4 V4 _. now apply wp_ret.
  - pose proof (plus_lt _ _ _ V2) as Hxn. apply wp_bind. eapply (wp_close _ L); [exact HG|lia|intros i Hi; eapply plus_close; eauto|]. intros s4 V4 _. now apply wp_ret.
Qed.
Lemma wp_remove_directory n : forall L x s, inv L s -> L (x_id x) -> wp (remove_directory im wm n x) s (fun s1 _ => inv L s1).
Proof.
  induction n as [|n IH]; intros L x s V Hx; [split; [apply le_n|exact (inv_none _ _ V)]|]. cbn [remove_directory].
  apply wp_try. eapply wp_mono; [apply (wp_list L); auto|]. intros s1 [names|e] Hn V1 _; [|exact V1].
  clear s V Hn. revert s1 V1. induction names as [|nm rest IHn]; intros s V; [now apply wp_ret|]. destruct (is_dots nm); [now apply IHn|].
  apply wp_try. eapply wp_mono; [apply (wp_get_ext L); auto|]. intros s1 [y|e] Hn HG _; [|exact HG]. destruct HG as [V1 Hy].
  apply wp_bind. eapply wp_stat; [exact V1|]. intros st _ _. apply wp_bind.
  eapply (wp_mono _ _ (fun s2 _ => inv (plus L (x_id y)) s2)).
  { destruct (is_dir st); [|now apply wp_ret]. apply IH; [exact V1|now right]. }
  intros s2 r Hn2 V2 _. assert (forall s', inv (plus L (x_id y)) s' -> (forall i, L i -> plus L (x_id y) i /\ i <> x_id y)) as HL.
  { intros s' _ i Hi. eapply plus_close; eauto. }
  destruct r as [[]|e].
  - apply wp_bind. eapply wp_mono; [apply (wp_unlink (plus L (x_id y))); [exact V2|now right]|]. intros s3 u Hn3 V3 _. apply wp_bind.
    eapply (wp_close _ L); [exact V3|exact (plus_lt _ _ _ V3)|apply (HL s3 V3)|]. intros s4 V4 _. destruct u as [u|e]; [now apply IHn|now apply wp_ret].
  - apply wp_bind. eapply (wp_close _ L); [exact V2|exact (plus_lt _ _ _ V2)|apply (HL s2 V2)|]. intros s4 V4 _. now apply wp_ret.
Qed.
Lemma keeps_mkdir_all fuel n : forall p perm, keeps (mkdir_all im wm d fuel n p perm).
Proof.
  induction n as [|n IH]; intros p perm L s V; [split; [apply le_n|exact (inv_none _ _ V)]|]. cbn [mkdir_all]. destruct (split_path _) as [pd bn].
  apply wp_bind. eapply wp_mono; [apply (wp_fol fuel L); exact V|]. intros s1 [x|e] Hn HG _.
  - destruct HG as [V1 Hx]. eapply (wp_defer (fun _ => plus L (x_id x)) (fun _ => L)); [|exact (plus_lt _ _ _ V1)].
    eapply wp_mono; [apply wp_mk; [exact V1|now right]|]. intros s2 a Hn2 V2. split; [exact V2|]. split; [auto|]. intros i Hi. eapply plus_close; eauto.
  - destruct (kerr_is e _); [|now apply wp_ret]. apply wp_bind. eapply wp_mono; [apply (IH _ _ L); exact HG|]. intros s2 a Hn2 V2 _.
    split; [apply le_n|exact (inv_none _ _ V2)].
Qed.
Lemma keeps_op fuel o : keeps (run_op im wm d fuel o).
Proof.
  destruct o; cbn [run_op].
  - apply keeps_outc, keeps_with; [intros; now apply wp_fol|]. intros x L s V Hx. apply wp_bind. eapply wp_stat; [exact V|]. intros. now apply wp_ret.
  - (* Lstat *) apply keeps_outc. intros L s V. apply wp_try. eapply wp_mono; [apply (wp_nof fuel L); exact V|]. intros s1 [x|e] Hn HG _; [|exact HG]. destruct HG as [V1 Hx].
    pose proof (plus_lt _ _ _ V1) as Hxn. eapply (wp_defer (fun _ => L) (fun _ => L)); [|exact Hxn].
    assert (~ L (x_id x)) as Hxl by (intros Hl; apply (v_open _ _ V) in Hl; lia).
    apply wp_try. eapply wp_mono; [apply resolution; [exact V1|exact Hxl]|]. intros s2 [y|e] Hn2 HQ _.
    + destruct HQ as [V2 Hy]. eapply (wp_defer (fun _ => plus L (x_id y)) (fun _ => L)); [|exact (plus_lt _ _ _ V2)].
      apply wp_bind. eapply wp_stat; [exact V2|]. intros st _ _. apply wp_ret. split; [exact V2|]. split.
      * intros s3 V3. split; [exact V3|]. split; [auto|]. intros i Hi. split; [exact Hi|congruence].
      * intros i Hi. split; [now left|]. intros ->. destruct Hy as [[-> _]|Hy]; [contradiction|]. apply (v_open _ _ V) in Hi. lia.
    + split; [exact HQ|]. split; [auto|]. intros i Hi. split; [exact Hi|congruence].
  - apply keeps_outc, keeps_with; [intros; now apply wp_fol|]. intros x L s V Hx. now apply wp_contents.
  - apply keeps_outc. intros L s V. eapply wp_mono; [apply (wp_open_file fuel _ _ _ L); exact V|]. intros s1 [f|e] Hn V1; [exact (inv_pw _ _ _ V1)|exact V1].
  - apply keeps_outc. intros L s V. eapply wp_mono; [apply (wp_open_file fuel _ _ _ L); exact V|]. intros s1 [f|e] Hn V1; [exact (inv_pw _ _ _ V1)|exact V1].
  - intros L s V. apply wp_bind. eapply (wp_mono _ _ (fun s1 _ => inv L s1)); [|intros s1 a _ V1 _; now apply wp_ret]. apply wp_bind.
    eapply wp_mono; [apply (wp_fol fuel L); exact V|]. intros s1 [x|e] Hn HG _; [|now apply wp_ret]. destruct HG as [V1 Hx].
    eapply (wp_defer (fun _ => plus L (x_id x)) (fun _ => L)); [|exact (plus_lt _ _ _ V1)].
    eapply wp_mono; [apply wp_read_dir_obj; [exact V1|now right]|]. intros s2 a Hn2 V2. split; [exact V2|]. split; [auto|]. intros i Hi. eapply plus_close; eauto.
  - apply keeps_outc, keeps_with; [intros; now apply wp_fol|]. intros x L s V Hx. apply wp_bind. eapply wp_stat; [exact V|]. intros. destruct (negb _); now apply wp_ret.
  - apply keeps_outc. unfold mkdir. destruct (split_path _) as [pd bn]. apply keeps_with; [intros; now apply wp_fol|]. intros x L s V Hx. apply wp_bind. eapply wp_stat; [exact V|].
    intros. destruct (negb _); [now apply wp_ret|now apply wp_mk].
  - apply keeps_outc, keeps_mkdir_all.
  - apply keeps_outc, keeps_with; [intros; now apply wp_fol|]. intros x L s V Hx. apply wp_bind. eapply wp_stat; [exact V|]. intros st _ _. destruct (is_dir st).
    + apply wp_try. eapply wp_mono; [apply (wp_list L); auto|]. intros s1 [ns|e] Hn V1 _; [|exact V1]. destruct (_ >? 0); [now apply wp_ret|now apply wp_unlink].
    + destruct (negb _); [now apply wp_ret|now apply wp_unlink].
  - apply keeps_outc, keeps_with; [intros; now apply wp_fol|]. intros x L s V Hx. apply wp_bind. eapply wp_stat; [exact V|]. intros st _ _. destruct (negb _); [now apply wp_ret|].
    apply wp_bind. eapply wp_mono; [apply (wp_root L); exact V|]. intros s1 r Hn [V1 Hr] _. apply inv_pw in V1.
    unfold wp at 1. destruct (h_same im _ _ _); [split; [apply le_n|exact V1]|]. now apply wp_remove_directory.
  - apply keeps_outc, keeps_with; [intros; now apply wp_fol|]. intros x L s V Hx. apply wp_bind. eapply wp_stat; [exact V|]. intros st _ _. destruct (is_dir st); [now apply wp_ret|now apply wp_resize].
  - apply keeps_outc, keeps_use; [intros; now apply wp_fol|]. intros x L s V Hx. apply wp_opt; auto; [intros id ->; exact Hx|discriminate..].
  - apply keeps_outc, keeps_use; [intros; now apply wp_fol|]. intros x L s V Hx. apply wp_opt; auto; [intros id ->; exact Hx|discriminate..].
  - apply keeps_outc, keeps_use; [intros; now apply wp_nof|]. intros x L s V Hx. apply wp_opt; auto; [intros id ->; exact Hx|discriminate..].
  - apply keeps_outc, keeps_use; [intros; now apply wp_fol|]. intros x L s V Hx. apply wp_opt; auto; [intros id ->; exact Hx|discriminate..].
  - (* Link *) apply keeps_outc. unfold link. destruct (i_link im) as [mk|]; [|intros L s V; now apply wp_ret].
    apply keeps_use; [intros; now apply wp_fol|]. intros x L s V Hx. apply wp_bind. eapply wp_mono; [apply (wp_fol fuel L); exact V|]. intros s1 [y|e] Hn HG _.
    + destruct HG as [V1 _]. apply wp_ret. exact (inv_pw _ _ _ V1).
    + destruct (split_path _) as [pd bn]. apply wp_try. eapply wp_mono; [apply (wp_fol fuel L); exact HG|]. intros s2 [y|e2] Hn2 HG2 _; [|exact HG2].
      destruct HG2 as [V2 _]. unfold wp. destruct (mk (d_fs s2) (x_h x) (x_h y) bn) as [fs r].
      assert (inv (plus L (x_id y)) (emit fs (EvLink (x_id x) (x_id y) bn) s2)) as V3.
      { apply inv_emit; auto; [intros id [-> | ->]; [left; exact Hx|now right]|discriminate..]. }
      destruct r as [h|e2]; cbn [fresh]; (split; [cbn; lia|]).
      * apply (inv_pw _ _ (x_id y)). apply (inv_pw _ _ (d_next s2)). exact (inv_fresh _ _ fs V3).
      * exact (inv_pw _ _ _ V3).
  - apply keeps_outc. unfold readlink. destruct (negb _); [intros L s V; now apply wp_ret|]. apply keeps_with; [intros; now apply wp_nof|]. intros x L s V Hx.
    apply wp_bind. eapply wp_stat; [exact V|]. intros. destruct (negb _); [now apply wp_ret|now apply wp_contents].
  - apply keeps_outc. intros L s V. apply wp_try. eapply wp_mono; [apply (wp_open_file fuel _ _ _ L); exact V|]. intros s1 [f|e] Hn V1 _; [|exact V1].
    apply wp_bind. eapply wp_mono; [apply (wp_fl_write (plus L (x_id (fl_obj f)))); [exact V1|now right]|]. intros s2 [[f' n] e] Hn2 [V2 Hf] _. cbn [fst] in Hf.
    apply wp_bind. eapply wp_mono; [apply (wp_fl_close (plus L (x_id (fl_obj f)))); [exact V2|rewrite Hf; now right]|]. intros s3 r Hn3 V3 _. apply wp_ret. exact (inv_pw _ _ _ V3).
Qed.
Lemma wp_fl_read_dir L f n s : inv L s -> L (x_id (fl_obj f)) -> wp (fl_read_dir im f n) s (fun s1 r => inv L s1 /\ fl_obj (fst (fst r)) = fl_obj f).
Proof.
  intros V Hx. apply wp_bind. eapply wp_stat; [exact V|]. intros st _ _. destruct (negb _); [now apply wp_ret|]. apply wp_bind.
  eapply (wp_mono _ _ (fun s1 q => inv L s1 /\ match q with inl (f1, _) => fl_obj f1 = fl_obj f | inr _ => True end)).
  { destruct (fl_last f) as [es|]; [now apply wp_ret|]. apply wp_bind. eapply wp_mono; [apply (wp_read_dir_obj L); auto|]. intros s1 [es [e|]] Hn V1 _; now apply wp_ret. }
  intros s1 [[f1 es]|e] Hn [V1 Hf] _; [|now apply wp_ret]. cbv zeta. destruct (_ =? 0); apply wp_ret; (split; [exact V1|exact Hf]).
Qed.
Lemma wp_fop L o f s : inv L s -> L (x_id (fl_obj f)) -> wp (run_fop im o f) s (fun s1 f' => inv L s1 /\ fl_obj f' = fl_obj f).
Proof.
  intros V Hx. destruct o; cbn [run_fop]; apply wp_bind.
  - eapply wp_mono; [apply (wp_fl_read L); auto|]. intros s1 r Hn [V1 Hf] _. now apply wp_ret.
  - eapply wp_mono; [apply (wp_fl_read_at L); auto|]. intros s1 r Hn [V1 Hf] _. now apply wp_ret.
  - eapply wp_mono; [apply (wp_fl_write L); auto|]. intros s1 r Hn [V1 Hf] _. now apply wp_ret.
  - eapply wp_mono; [apply (wp_fl_write_at L); auto|]. intros s1 r Hn [V1 Hf] _. now apply wp_ret.
  - eapply wp_mono; [apply (wp_fl_truncate L); auto|]. intros s1 r Hn [V1 Hf] _. now apply wp_ret.
  - eapply wp_mono; [apply (wp_fl_sync L); auto|]. intros s1 r Hn [V1 Hf] _. now apply wp_ret.
  - eapply wp_mono; [apply (wp_fl_close L); auto|]. intros s1 r Hn V1 _. now apply wp_ret.
  - eapply wp_mono; [apply (wp_fl_read_dir L); auto|]. intros s1 r Hn [V1 Hf] _. now apply wp_ret.
  - eapply wp_mono; [apply (wp_opt L); auto; [intros id ->; exact Hx|discriminate..]|]. intros s1 r Hn V1 _. now apply wp_ret.
  - eapply wp_mono; [apply (wp_opt L); auto; [intros id ->; exact Hx|discriminate..]|]. intros s1 r Hn V1 _. now apply wp_ret.
Qed.
End P.

Section Prog.
Context {F H : Type} (im : impl F H) (wm : wmode).
Definition held (files : list (file H)) : nat -> Prop := fun id => exists f, In f files /\ x_id (fl_obj f) = id.
Lemma inv_start (fs : F) : inv none (mkD fs 0%nat []).
Proof.
  split; cbn [d_log d_next].
  - intros l1 id l2 e E. destruct l1; discriminate.
  - intros l1 e l2 id E. destruct l1; discriminate.
  - intros id. reflexivity.
  - intros id [].
Qed.
Lemma wp_end {A} (m : M F A) s (L : nat -> Prop) Q : wp m s Q -> (forall s' a, m s = Done s' a -> Q s' a -> inv L s') -> inv none (end_state (m s)).
Proof. unfold wp. intros W HQ. destruct (m s); cbn; [|apply W..]. destruct W as [_ W]. eapply inv_none, HQ; eauto. Qed.
Lemma program_inv files s : program im wm files s -> inv (held files) s.
Proof.
  induction 1 as [fs|files s d fuel o s' r _ IH E|files s d fuel p fl perm s' f _ IH E|files s f o s' f' _ IH Hf E].
  - eapply inv_weak; [apply inv_start|]. intros i (f & [] & _).
  - pose proof (keeps_op im wm d fuel o _ _ IH) as W. unfold wp in W. rewrite E in W. apply W.
  - pose proof (wp_open_file im wm d fuel p fl perm _ _ IH) as W. unfold wp in W. rewrite E in W. destruct W as [_ W].
    eapply inv_weak; [exact W|]. intros i (g & [<- |Hg] & <-); [now right|left]. now exists g.
  - assert (held files (x_id (fl_obj f))) as Hh by now exists f.
    pose proof (wp_fop im _ o f _ IH Hh) as W. unfold wp in W. rewrite E in W. destruct W as (_ & W & Ho).
    eapply inv_weak; [exact W|]. intros i (g & [<- |Hg] & <-); [now rewrite Ho|]. now exists g.
Qed.
Lemma observed_inv l : observed im wm l -> exists s : dst F, inv none s /\ d_log s = l.
Proof.
  destruct 1 as [files s HP|files s d fuel o HP|files s d fuel p fl perm HP|files s f o HP Hf]; pose proof (program_inv _ _ HP) as V; eexists; (split; [|reflexivity]).
  - exact (inv_none _ _ V).
  - eapply (wp_end _ _ (held files)); [apply keeps_op; exact V|]. intros s' a _ Hq. exact Hq.
  - eapply (wp_end _ _ (held files)); [apply wp_open_file; exact V|]. intros s' [g|e] _ Hq; [exact (inv_pw _ _ _ Hq)|exact Hq].
  - eapply (wp_end _ _ (held files)); [apply wp_fop; [exact V|now exists f]|]. intros s' a _ Hq. apply Hq.
Qed.
End Prog.
