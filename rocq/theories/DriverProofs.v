(** * DriverProofs: calls the driver can make, the wrapper as it is, nested paths *)
From Verif Require Import GoBase ListZ Errors Flags GoPath Spec_Path GoPathProofs BlockCache BasicStream Driver Spec_Driver.

(** ** Reading does not write *)
Definition clean_bits (b : list bool) : Prop := Forall (fun x => x = false) b.
Lemma bset_clean b i b' : clean_bits b -> bset b i false = Ret b' -> clean_bits b'.
Proof.
  unfold bset. destruct ((0 <=? i) && (i <? zlen b)); [|discriminate]. intros Hc [= <-].
  unfold clean_bits, splice in *. apply Forall_app. split; [|constructor; [reflexivity|]].
  - rewrite Forall_forall in *. intros x Hx. apply Hc. rewrite <- (firstn_skipn (Z.to_nat i) b). apply in_or_app. now left.
  - rewrite Forall_forall in *. intros x Hx. apply Hc. rewrite <- (firstn_skipn (Z.to_nat (i + zlen [false])) b). apply in_or_app. now right.
Qed.
Lemma bget_clean b i v : clean_bits b -> bget b i = Ret v -> v = false.
Proof.
  unfold bget. destruct ((0 <=? i) && (i <? zlen b)) eqn:E; [|discriminate]. intros Hc [= <-].
  unfold clean_bits in Hc. rewrite Forall_forall in Hc. apply Hc. unfold znth. apply nth_In. unfold zlen in E. lia.
Qed.
Section Pres.
Context {S : Type} (cb : callbacks S) (P : S -> Prop).
Hypothesis HP : forall s i b s' b' e, P s -> cb_fetch cb s i b = (s', b', e) -> P s'.
Lemma load_loop_pres fuel : forall i stop s c s' c' e, P s -> clean_bits (dirty c) ->
  load_loop cb fuel i stop s c = Ret (s', c', e) -> P s' /\ clean_bits (dirty c') /\ bpb c' = bpb c /\ total c' = total c.
Proof.
  induction fuel as [|f IH]; intros i stop s c s' c' e Hs Hc E; cbn [load_loop] in E; [discriminate|].
  destruct (i <? stop); [|injection E as <- <- <-; auto].
  destruct (bget (loaded c) (i64 i)) as [[|]| |]; try discriminate; [eapply IH; eauto|].
  destruct (data_slice (data c) _ _) as [buf| |]; try discriminate.
  destruct (cb_fetch cb s i buf) as [[s1 b1] e1] eqn:EF. pose proof (HP _ _ _ _ _ _ Hs EF) as H1.
  destruct e1 as [e1|]; [injection E as <- <- <-; auto|].
  destruct (bset (loaded c) (i64 i) true) as [l'| |]; try discriminate.
  destruct (bset (dirty c) (i64 i) false) as [y'| |] eqn:EB; try discriminate.
  apply IH in E; [exact E|exact H1|]. cbn [dirty]. eapply bset_clean; eauto.
Qed.
Lemma get_slice_pres s c start count s' c' r : P s -> clean_bits (dirty c) ->
  get_slice cb s c start count = Ret (s', c', r) -> P s' /\ clean_bits (dirty c').
Proof.
  intros Hs Hc E. unfold get_slice, load_range in E.
  destruct (check_bounds c start _) as [[e|]| |]; try discriminate; [injection E as <- <- <-; auto|].
  destruct (load_loop cb _ _ _ s c) as [[[s1 c1] e1]| |] eqn:EL; try discriminate.
  destruct (load_loop_pres _ _ _ _ _ _ _ _ Hs Hc EL) as (A & B & _).
  destruct e1; [injection E as <- <- <-; auto|]. destruct (data_slice _ _ _); [injection E as <- <- <-; auto|discriminate|discriminate].
Qed.
Lemma flush_loop_clean fuel : forall i stop s c s' c' e, clean_bits (dirty c) ->
  flush_loop cb fuel i stop s c = Ret (s', c', e) -> s' = s /\ c' = c.
Proof.
  induction fuel as [|f IH]; intros i stop s c s' c' e Hc E; cbn [flush_loop] in E; [discriminate|].
  destruct (u64 i <? stop); [|injection E as <- <- <-; auto].
  destruct (bget (dirty c) i) as [[|]| |] eqn:EB; try discriminate; [|eapply IH; eauto].
  apply bget_clean in EB; [discriminate|exact Hc].
Qed.
Lemma flush_all_clean s c s' c' e : clean_bits (dirty c) -> flush_all cb s c = Ret (s', c', e) -> s' = s /\ c' = c.
Proof.
  intros Hc E. unfold flush_all, flush_range in E. destruct (check_bounds _ _ _) as [[e1|]| |]; try discriminate; [injection E as <- <- <-; auto|].
  eapply flush_loop_clean; eauto.
Qed.
Lemma s_read_pres s st b s' st' b' n e : P s -> clean_bits (dirty (scache st)) ->
  s_read cb s st b = Ret (s', st', b', n, e) -> P s' /\ clean_bits (dirty (scache st')).
Proof.
  intros Hs Hc E. unfold s_read in E.
  assert (forall s' st' b' n e, s_read_at cb s st b (spos st) = Ret (s', st', b', n, e) -> P s' /\ clean_bits (dirty (scache st'))) as HA.
  { clear E. intros s1 st1 b1 n1 e1 E. unfold s_read_at in E. destruct (negb (io_read (sflags st))); [injection E as <- <- <- <- <-; auto|].
    cbn zeta in E. destruct (zlen b =? 0); [injection E as <- <- <- <- <-; auto|]. destruct (_ >=? ssize st); [injection E as <- <- <- <- <-; auto|].
    destruct (conv_addr _ _) as [[f1 so]| |]; try discriminate. destruct (conv_addr _ _) as [[l1 so1]| |]; try discriminate.
    destruct (get_slice cb s _ _ _) as [[[s2 c2] [r|r]]| |] eqn:EG; try discriminate;
      destruct (get_slice_pres _ _ _ _ _ _ _ Hs Hc EG) as [A B].
    - destruct (reslice _ _ _ _); try discriminate. injection E as <- <- <- <- <-. auto.
    - injection E as <- <- <- <- <-. auto. }
  destruct (s_read_at cb s st b (spos st)) as [[[[[s1 st1] b1] n1] [e1|]]| |]; try discriminate;
    destruct (HA _ _ _ _ _ eq_refl); injection E as <- <- <- <- <-; auto.
Qed.
End Pres.

(** ** Unfolding the resolution functions one step *)
Section Unfold.
Context {F H : Type} (im : impl F H) (wm : wmode) (d : drv) (f : nat).
Lemma no_follow_S path : no_follow im wm d (S f) path =
  if beqb path str_slash || beqb path str_empty then
    r <- get_root im ;; ret (inl (wrap wm (fst r) (snd r) path))
  else
    let '(parentPath, baseName) := split_path path in
    parent <-? following im wm d f parentPath ;;
    deferring im parent
      (st <- stat im parent ;;
       if negb (is_dir st) then ret (inr (K ErrNotADirectory)) else get_ext im wm baseName parent).
Proof. reflexivity. Qed.
Lemma following_S path : following im wm d (S f) path = (obj <-? no_follow im wm d f path ;; follow_loop im wm d f obj).
Proof. reflexivity. Qed.
Lemma follow_loop_S obj : follow_loop im wm d (S f) obj =
  (st <- stat im obj ;;
   if is_symlink st then
     r <- resolve_symlink im wm d f obj ;;
     _ <- close im obj ;;
     match r with inr e => ret (inr e) | inl next => follow_loop im wm d f next end
   else ret (inl obj)).
Proof. reflexivity. Qed.
Lemma resolve_symlink_S obj : resolve_symlink im wm d (S f) obj =
  (st <- stat im obj ;; if negb (is_symlink st) then ret (inl obj) else link_loop im wm d f (x_path obj) obj).
Proof. reflexivity. Qed.
Lemma link_loop_S original obj : link_loop im wm d (S f) original obj =
  (st <- stat im obj ;;
   if is_symlink st then
     t <- get_contents im obj ;;
     _ <- close im obj ;;
     match t with
     | inr e => ret (inr e)
     | inl text =>
         let next := normalize_path (cwd d) text in
         if beqb next original then ret (inr (K ErrLinkCycleDetected))
         else o <-? no_follow im wm d f next ;; link_loop im wm d f original o
     end
   else ret (inl obj)).
Proof. reflexivity. Qed.
End Unfold.

(** ** Runs that only make calls satisfying Q *)
Section Quiet.
Context {F H : Type} (im : impl F H) (wm : wmode) (d : drv).
Variable Q : event -> Prop.
Definition ext (s s' : dst F) : Prop :=
  (exists l, d_log s' = d_log s ++ l /\ Forall Q l) /\ (d_next s <= d_next s')%nat.
Lemma ext_refl s : ext s s.
Proof. split; [exists []; rewrite app_nil_r; auto|lia]. Qed.
Lemma ext_trans a b c : ext a b -> ext b c -> ext a c.
Proof.
  intros [(l1 & E1 & H1) L1] [(l2 & E2 & H2) L2]. split; [|lia]. exists (l1 ++ l2). rewrite E2, E1, app_assoc.
  split; [reflexivity|]. apply Forall_app; auto.
Qed.
Lemma ext_calls {A} s (r : mres F A) : ext s (end_state r) -> Forall Q (calls s r).
Proof.
  intros [(l & E & Hl) _]. unfold calls. rewrite E. rewrite skipn_app, skipn_all, Nat.sub_diag. exact Hl.
Qed.
Lemma ext_emit fs e s : Q e -> ext s (emit fs e s).
Proof. intros He. split; [exists [e]; cbn; auto|cbn; lia]. Qed.
Definition mok {A} (m : M F A) : Prop := forall s, ext s (end_state (m s)).
Lemma mok_ret {A} (a : A) : mok (ret a). Proof. intros s. apply ext_refl. Qed.
Lemma mok_crash {A} : mok (@crash F A). Proof. intros s. apply ext_refl. Qed.
Lemma mok_spin {A} : mok (@spin F A). Proof. intros s. apply ext_refl. Qed.
Lemma mok_bind {A C} (m : M F A) (k : A -> M F C) : mok m -> (forall a, mok (k a)) -> mok (bind m k).
Proof.
  intros Hm Hk s. unfold bind. specialize (Hm s). destruct (m s) as [s' a|s'|s']; cbn [end_state] in *; auto.
  eapply ext_trans; [exact Hm|apply Hk].
Qed.
Lemma mok_try {A C} (m : M F (A + kerr)) (k : A -> M F (C + kerr)) : mok m -> (forall a, mok (k a)) -> mok (try m k).
Proof. intros Hm Hk. apply mok_bind; [exact Hm|]. intros [a|e]; [apply Hk|apply mok_ret]. Qed.
Lemma mok_stat x : mok (stat im x).
Proof. intros s. unfold stat. destruct (meth x); apply ext_refl. Qed.
(* what is known about the intermediate state, too *)
Lemma mok_stat_bind {C} x (k : fstat -> M F C) : (forall a, mok (k a)) -> mok (bind (stat im x) k).
Proof. intros. apply mok_bind; [apply mok_stat|assumption]. Qed.

Hypothesis Qacq : forall i, Q (EvAcquire i).
Hypothesis Qrel : forall i, Q (EvRelease i).
Hypothesis Qget : forall i n, Q (EvGet i n).
Hypothesis Qread : forall i n, Q (EvRead i n).
Hypothesis Qlist : forall i, Q (EvList i).

Lemma ext_fresh fs s : ext s (snd (fresh fs s)).
Proof. unfold fresh. cbn. split; [eexists; split; [reflexivity|]; auto|cbn; lia]. Qed.
Lemma mok_root : mok (get_root im).
Proof. intros s. unfold get_root. destruct (i_root im (d_fs s)) as [fs h]. apply (ext_fresh fs s). Qed.
Lemma mok_close x : mok (close im x).
Proof. intros s. unfold close. destruct (meth x); [apply ext_emit; auto|apply ext_refl]. Qed.
Lemma mok_get n x : mok (get_object im n x).
Proof.
  intros s. unfold get_object. destruct (meth x); [|apply ext_refl]. destruct (i_get im (d_fs s) n (x_h x)) as [fs [h|e]].
  - eapply ext_trans; [apply ext_emit|apply ext_fresh]. auto.
  - apply ext_emit. auto.
Qed.
Lemma mok_list x : mok (list_dir im x).
Proof. intros s. unfold list_dir. destruct (opt_meth x); [|apply ext_refl]. destruct (h_listdir im _ _) as [[fs r]|]; [apply ext_emit; auto|apply ext_refl]. Qed.
Lemma mok_defer {A} x (m : M F A) : mok m -> mok (deferring im x m).
Proof.
  intros Hm s. unfold deferring. specialize (Hm s). destruct (m s) as [s' a|s'|s']; cbn [end_state] in *; auto.
  - pose proof (mok_close x s') as Hc. destruct (close im x s'); cbn [end_state] in *; eapply ext_trans; eauto.
  - pose proof (mok_close x s') as Hc. destruct (close im x s'); cbn [end_state] in *; auto. eapply ext_trans; eauto.
Qed.

Lemma rdonly_no_trunc : io_truncate O_RDONLY = false /\ io_write O_RDONLY = false. Proof. split; reflexivity. Qed.
Lemma clean_new n : clean_bits (bitmap_new n).
Proof. unfold bitmap_new, clean_bits. apply Forall_forall. intros x Hx. unfold zrepeat in Hx. now apply repeat_spec in Hx. Qed.
(* a file opened without truncation *)
Lemma new_file_quiet x flags s : io_truncate flags = false ->
  match new_file im x flags s with
  | Done s' (inl f) => s' = s /\ fl_obj f = x /\ clean_bits (dirty (scache (fl_stream f)))
  | r => end_state r = s
  end.
Proof.
  intros Ht. unfold new_file, bind, stat. destruct (meth x); [|reflexivity]. destruct (negb (new_fits _ _)); [reflexivity|]. unfold s_new. rewrite Ht.
  destruct (_ || _); [reflexivity|]. cbn. split; [reflexivity|]. split; [reflexivity|]. apply clean_new.
Qed.
Lemma mok_new_file x flags : io_truncate flags = false -> mok (new_file im x flags).
Proof.
  intros Ht s. pose proof (new_file_quiet x flags s Ht) as HN. destruct (new_file im x flags s) as [s' [f|e]|s'|s']; cbn [end_state] in *;
    try (rewrite HN; apply ext_refl). destruct HN as (-> & _). apply ext_refl.
Qed.
Lemma fetch_ext x s0 s i b s' b' e : ext s0 s -> cb_fetch (obj_callbacks im x) s i b = (s', b', e) -> ext s0 s'.
Proof.
  intros HE. cbn. destruct (h_read im (d_fs s) (x_h x) i b) as [[fs b1] e1]. intros [= <- <- <-].
  eapply ext_trans; [exact HE|]. apply ext_emit. auto.
Qed.
Lemma mok_contents x : mok (get_contents im x).
Proof.
  intros s. unfold get_contents. unfold bind at 1. pose proof (new_file_quiet x O_RDONLY s eq_refl) as HN.
  destruct (new_file im x O_RDONLY s) as [s1 [f|e]|s1|s1]; cbn [end_state] in *; try (rewrite HN; apply ext_refl).
  destruct HN as (-> & Ex & Hc). unfold bind at 1, stat. destruct (meth x); [|apply ext_refl].
  destruct (_ <? 0); [apply ext_refl|]. unfold bind at 1, fl_read. rewrite Ex.
  destruct (s_read (obj_callbacks im x) s (fl_stream f) _) as [[[[[s2 st2] b2] n2] e2]| |] eqn:ER; cbn [end_state]; try apply ext_refl.
  destruct (s_read_pres (obj_callbacks im x) (ext s) (fun s1 i b s' b' e => fetch_ext x s s1 i b s' b' e) _ _ _ _ _ _ _ _ (ext_refl s) Hc ER) as [H1 H2].
  unfold bind, fl_close. cbn [with_stream fl_obj fl_stream]. rewrite Ex. unfold s_close, s_sync.
  destruct (flush_all (obj_callbacks im x) s2 (scache st2)) as [[[s3 c3] e3]| |] eqn:EF; cbn [end_state ret]; auto.
  apply flush_all_clean in EF as [-> _]; auto.
Qed.
Lemma mok_get_ext n x : mok (get_ext im wm n x).
Proof. apply mok_try; [apply mok_get|]. intros. apply mok_ret. Qed.

Lemma mok_resolution fuel :
  (forall p, mok (no_follow im wm d fuel p)) /\ (forall p, mok (following im wm d fuel p)) /\
  (forall x, mok (follow_loop im wm d fuel x)) /\ (forall x, mok (resolve_symlink im wm d fuel x)) /\
  (forall o x, mok (link_loop im wm d fuel o x)).
Proof.
  induction fuel as [|f (I1 & I2 & I3 & I4 & I5)]; [repeat split; intros; apply mok_spin|].
  split; [|split; [|split; [|split]]]; intros; rewrite ?no_follow_S, ?following_S, ?follow_loop_S, ?resolve_symlink_S, ?link_loop_S.
  - destruct (_ || _); [apply mok_bind; [apply mok_root|intros; apply mok_ret]|].
    destruct (split_path p) as [pp bn]. apply mok_try; [apply I2|]. intros. apply mok_defer. apply mok_stat_bind. intros st.
    destruct (negb _); [apply mok_ret|apply mok_get_ext].
  - apply mok_try; [apply I1|apply I3].
  - apply mok_stat_bind. intros st. destruct (is_symlink st); [|apply mok_ret]. apply mok_bind; [apply I4|]. intros r.
    apply mok_bind; [apply mok_close|]. intros _. destruct r; [apply I3|apply mok_ret].
  - apply mok_stat_bind. intros st. destruct (negb _); [apply mok_ret|apply I5].
  - apply mok_stat_bind. intros st. destruct (is_symlink st); [|apply mok_ret]. apply mok_bind; [apply mok_contents|]. intros t.
    apply mok_bind; [apply mok_close|]. intros _. destruct t as [t|e]; [|apply mok_ret]. cbn zeta.
    destruct (beqb _ _); [apply mok_ret|]. apply mok_try; [apply I1|apply I5].
Qed.
Lemma mok_following fuel p : mok (following im wm d fuel p). Proof. apply mok_resolution. Qed.
Lemma mok_no_follow fuel p : mok (no_follow im wm d fuel p). Proof. apply mok_resolution. Qed.

Lemma mok_stat_path fuel p : mok (stat_path im wm d fuel p).
Proof. apply mok_try; [apply mok_following|]. intros. apply mok_defer. apply mok_stat_bind. intros. apply mok_ret. Qed.
Lemma mok_lstat fuel p : mok (lstat im wm d fuel p).
Proof.
  apply mok_try; [apply mok_no_follow|]. intros. apply mok_defer. apply mok_try; [apply mok_resolution|]. intros. apply mok_defer.
  apply mok_stat_bind. intros. apply mok_ret.
Qed.
Lemma mok_read_file fuel p : mok (read_file im wm d fuel p).
Proof. apply mok_try; [apply mok_following|]. intros. apply mok_defer. apply mok_contents. Qed.
Lemma mok_readlink fuel p : mok (readlink im wm d fuel p).
Proof.
  unfold readlink. destruct (negb _); [apply mok_ret|]. apply mok_try; [apply mok_no_follow|]. intros. apply mok_defer.
  apply mok_stat_bind. intros. destruct (negb _); [apply mok_ret|apply mok_contents].
Qed.
Lemma mok_chdir fuel p : mok (chdir im wm d fuel p).
Proof.
  apply mok_try; [apply mok_following|]. intros. apply mok_defer. apply mok_stat_bind. intros. destruct (negb _); apply mok_ret.
Qed.
Lemma mok_entries x ns : forall acc, mok (read_entries im x ns acc).
Proof.
  induction ns as [|n ns IH]; intros acc; cbn [read_entries]; [apply mok_ret|]. destruct (is_dots n); [apply IH|].
  apply mok_bind; [apply mok_get|]. intros [[id h]|e]; [|apply mok_ret]. intros s.
  apply (mok_bind (close im (raw id h)) (fun _ => read_entries im x ns (acc ++ [mkDirent (h_name im (d_fs s) h) (h_stat im (d_fs s) h)]))); [apply mok_close|intros; apply IH].
Qed.
Lemma mok_read_dir fuel p : mok (read_dir im wm d fuel p).
Proof.
  apply mok_bind; [apply mok_following|]. intros [x|e]; [|apply mok_ret]. apply mok_defer.
  apply mok_bind; [apply mok_list|]. intros [ns|e]; [apply mok_entries|apply mok_ret].
Qed.
Lemma mok_open fuel p flags perm : io_create flags = false -> io_truncate flags = false -> mok (open_file im wm d fuel p flags perm).
Proof.
  intros Hc Ht. unfold open_file. cbn zeta. destruct (_ && _); [apply mok_ret|]. apply mok_bind; [apply mok_following|]. intros r.
  apply mok_try.
  - rewrite Hc. destruct r as [x|e]; [apply mok_ret|]. rewrite andb_false_r. apply mok_ret.
  - intros. apply mok_stat_bind. intros. destruct (negb _); [apply mok_ret|]. apply mok_new_file. exact Ht.
Qed.
End Quiet.

(** ** The wrapper as it is *)
Section AsIs.
Context {F H : Type} (im : impl F H) (d : drv).
Definition only_acq (e : event) : Prop := match e with EvAcquire _ => True | _ => False end.
Notation ext := (ext only_acq).
Lemma asis_root s : exists id h s', get_root im s = Done s' (id, h) /\ ext s s'.
Proof.
  unfold get_root. destruct (i_root im (d_fs s)) as [fs h]. do 3 eexists. split; [reflexivity|].
  apply (ext_fresh only_acq (fun _ => I)).
Qed.
Definition dead {A} (s : dst F) (r : mres F A) : Prop := match r with Done _ _ => False | Crash s' | Spin s' => ext s s' end.
Lemma dead_bind {A C} s (m : M F A) (k : A -> M F C) : dead s (m s) -> dead s (bind m k s).
Proof. unfold bind. destruct (m s); cbn; tauto. Qed.
Lemma dead_try {A C} s (m : M F (A + kerr)) (k : A -> M F (C + kerr)) : dead s (m s) -> dead s (try m k s).
Proof. apply dead_bind. Qed.
Lemma dead_weak A s (r : mres F (xh H + kerr)) : dead s r ->
  match r with
  | Done s' (inl x) => x_mode x = A /\ ext s s'
  | Done _ (inr _) => False
  | Crash s' | Spin s' => ext s s' end.
Proof. destruct r; cbn; tauto. Qed.
Lemma dead_try_obj {C} s (m : M F (xh H + kerr)) (k : xh H -> M F (C + kerr)) :
  match m s with
  | Done s' (inl x) => x_mode x = AsIs /\ ext s s'
  | Done _ (inr _) => False
  | Crash s' | Spin s' => ext s s' end ->
  (forall x s', x_mode x = AsIs -> ext s s' -> dead s (k x s')) -> dead s (try m k s).
Proof. intros Hm Hk. unfold try, bind. destruct (m s) as [s' [x|e]|s'|s']; cbn in *; try (exact Hm); try contradiction. destruct Hm; auto. Qed.
Lemma dead_stat {C} s s' x (k : fstat -> M F C) : x_mode x = AsIs -> ext s s' -> dead s (bind (stat im x) k s').
Proof. intros Hm He. unfold bind, stat, meth. now rewrite Hm. Qed.
Lemma asis_resolution fuel :
  (forall p s, match no_follow im AsIs d fuel p s with
               | Done s' (inl x) => x_mode x = AsIs /\ ext s s'
               | Done _ (inr _) => False
               | Crash s' | Spin s' => ext s s' end) /\
  (forall p s, dead s (following im AsIs d fuel p s)).
Proof.
  induction fuel as [|f [I1 I2]]; [split; intros; apply ext_refl|]. split; intros p s; rewrite ?no_follow_S, ?following_S.
  - destruct (_ || _).
    + unfold bind at 1. destruct (asis_root s) as (id & h & s' & -> & He). cbn. auto.
    + destruct (split_path p) as [pp bn]. apply (dead_weak AsIs), dead_try, I2.
  - apply dead_try_obj; [apply I1|]. intros x s' Hm He. destruct f; rewrite ?follow_loop_S; [exact He|].
    now apply dead_stat.
Qed.
Lemma asis_following fuel p s : dead s (following im AsIs d fuel p s).
Proof. apply asis_resolution. Qed.
End AsIs.

(** ** Nested paths *)
Section Nested.
Context {F H : Type} (im : impl F H) (wm : wmode) (d : drv).
Lemma spin_try {A C} s (m : M F (A + kerr)) (k : A -> M F (C + kerr)) : m s = Spin s -> try m k s = Spin s.
Proof. intros E. unfold try, bind. now rewrite E. Qed.
Lemma spin_trailing fuel : forall p s, p <> [] -> no_follow im wm d fuel (p ++ [47]) s = Spin s /\ following im wm d fuel (p ++ [47]) s = Spin s.
Proof.
  induction fuel as [|f IH]; intros p s Hp; [split; reflexivity|]. destruct (IH p s Hp) as [I1 I2]. split; rewrite ?no_follow_S, ?following_S.
  - replace (beqb (p ++ [47]) str_slash || beqb (p ++ [47]) str_empty) with false.
    + rewrite split_trailing. now apply spin_try.
    + destruct p as [|c p]; [congruence|]. symmetry. apply orb_false_iff. split; apply beqb_neq; [|discriminate].
      cbn. unfold str_slash, slash. intros [= _ X]. destruct p; discriminate.
  - now apply spin_try.
Qed.
Lemma spin_nested fuel ns n s : ns <> [] -> noslash n ->
  no_follow im wm d fuel (render (ns ++ [n])) s = Spin s /\ following im wm d fuel (render (ns ++ [n])) s = Spin s.
Proof.
  intros Hn Hs. rewrite render_app by exact Hn.
  assert (render ns <> []) as HR by (destruct (render_abs ns) as (q & E & _); rewrite E; discriminate).
  assert (forall f, no_follow im wm d f (render ns ++ 47 :: n) s = Spin s) as HNF.
  { intros [|f]; [reflexivity|]. rewrite ?no_follow_S. replace (beqb _ str_slash || beqb _ str_empty) with false.
    - rewrite split_slash by exact Hs. destruct (spin_trailing f (render ns) s HR) as [_ E]. now apply spin_try.
    - symmetry. destruct (render ns) as [|c r] eqn:E; [congruence|]. apply orb_false_iff. split; apply beqb_neq; [|discriminate].
      cbn. unfold str_slash. intros [= _ X]. destruct r; discriminate. }
  split; [apply HNF|]. destruct fuel as [|f]; [reflexivity|]. rewrite ?following_S. apply spin_try, HNF.
Qed.
End Nested.

(** ** Handles carry canonical paths *)
Section Paths.
Context {F H : Type} (im : impl F H) (wm : wmode) (d : drv).
Hypothesis Hcwd : canonical (cwd d).
Definition rooted (p : list Z) : Prop := exists q, p = 47 :: q.
Lemma canonical_rooted p : canonical p -> rooted p.
Proof. intros (ns & _ & ->). destruct (render_abs ns) as (q & E & _). exists q. exact E. Qed.
Lemma split_rooted p : rooted p -> rooted (fst (split_path p)).
Proof.
  intros [q ->]. cbn [split_path]. destruct (split_path q) as [dd f]. destruct dd; [|exists (z :: dd); reflexivity].
  replace (47 =? slash) with true by reflexivity. exists []. reflexivity.
Qed.
Definition goodx (r : mres F (xh H + kerr)) : Prop := match r with Done _ (inl x) => canonical (x_path x) | _ => True end.
Lemma goodx_try {A} (m : M F (A + kerr)) (k : A -> M F (xh H + kerr)) (P : A -> Prop) s :
  match m s with Done _ (inl a) => P a | _ => True end -> (forall a s, P a -> goodx (k a s)) -> goodx (try m k s).
Proof. intros Hm Hk. unfold try, bind. destruct (m s) as [s' [a|e]|s'|s']; cbn; auto. Qed.
Lemma goodx_bind {A} (m : M F A) (k : A -> M F (xh H + kerr)) s : (forall a s, goodx (k a s)) -> goodx (bind m k s).
Proof. intros Hk. unfold bind. destruct (m s); cbn; auto. Qed.
Lemma goodx_bindP {A} (m : M F A) (k : A -> M F (xh H + kerr)) (P : A -> Prop) s :
  match m s with Done _ a => P a | _ => True end -> (forall a s, P a -> goodx (k a s)) -> goodx (bind m k s).
Proof. intros Hm Hk. unfold bind. destruct (m s) as [s' a|s'|s']; cbn; auto. Qed.
Lemma goodx_defer x (m : M F (xh H + kerr)) s : goodx (m s) -> goodx (deferring im x m s).
Proof. intros Hm. unfold deferring. destruct (m s) as [s' [a|e]|s'|s']; cbn in *; auto; destruct (close im x s'); cbn; auto. Qed.
Lemma goodx_resolution fuel :
  (forall p s, rooted p -> goodx (no_follow im wm d fuel p s)) /\ (forall p s, rooted p -> goodx (following im wm d fuel p s)) /\
  (forall x s, canonical (x_path x) -> goodx (follow_loop im wm d fuel x s)) /\
  (forall x s, canonical (x_path x) -> goodx (resolve_symlink im wm d fuel x s)) /\
  (forall o x s, canonical (x_path x) -> goodx (link_loop im wm d fuel o x s)).
Proof.
  induction fuel as [|f (I1 & I2 & I3 & I4 & I5)]; [repeat split; intros; exact I|].
  split; [|split; [|split; [|split]]].
  - intros p s Hp. rewrite ?no_follow_S. destruct (beqb p str_slash || beqb p str_empty) eqn:E.
    + unfold bind, get_root. destruct (i_root im (d_fs s)) as [fs h]. cbn. destruct Hp as [q ->].
      apply orb_true_iff in E as [E|E]; apply beqb_eq in E; [|discriminate]. rewrite E. exists []. split; [constructor|reflexivity].
    + destruct (split_path p) as [pp bn] eqn:ES. apply (goodx_try _ _ (fun x => canonical (x_path x))).
      * apply I2. replace pp with (fst (split_path p)) by now rewrite ES. now apply split_rooted.
      * intros x s1 Hx. apply goodx_defer. apply goodx_bind. intros st s2. destruct (negb _); [exact I|].
        unfold get_ext. apply (goodx_try _ _ (fun _ => True)); [destruct (get_object im bn x s2) as [? [?|?]|?|?]; exact I|].
        intros [id h] s3 _. cbn. now apply join_canonical.
  - intros p s Hp. rewrite ?following_S. apply (goodx_try _ _ (fun x => canonical (x_path x))); [apply I1; exact Hp|apply I3].
  - intros x s Hx. rewrite ?follow_loop_S. apply goodx_bind. intros st s1. destruct (is_symlink st); [|exact Hx].
    apply (goodx_bindP _ _ (fun r => match r with inl y => canonical (x_path y) | inr _ => True end)).
    + pose proof (I4 x s1 Hx) as G. destruct (resolve_symlink im wm d f x s1) as [s2 [r|e]|?|?]; exact G || exact I.
    + intros r s2 Hr. apply goodx_bind. intros ? s3. destruct r; [apply I3; exact Hr|exact I].
  - intros x s Hx. rewrite ?resolve_symlink_S. apply goodx_bind. intros st s1. destruct (negb _); [exact Hx|apply I5; exact Hx].
  - intros o x s Hx. rewrite ?link_loop_S. apply goodx_bind. intros st s1. destruct (is_symlink st); [|exact Hx].
    apply goodx_bind. intros t s2. apply goodx_bind. intros _ s3. destruct t as [t|e]; [|exact I]. cbn zeta.
    destruct (beqb _ o); [exact I|]. apply (goodx_try _ _ (fun x => canonical (x_path x))); [|apply I5].
    apply I1. apply canonical_rooted, normalize_canonical, Hcwd.
Qed.
Lemma chdir_canonical fuel path s s' p : chdir im wm d fuel path s = Done s' (inl p) -> canonical p.
Proof.
  unfold chdir, try, bind. destruct (goodx_resolution fuel) as (_ & G & _).
  specialize (G (norm d path) s ltac:(apply canonical_rooted, normalize_canonical, Hcwd)).
  destruct (following im wm d fuel (norm d path) s) as [s1 [x|e]|s1|s1]; try discriminate. cbn in G.
  unfold deferring, chdir_to, bind, stat, ret. destruct (meth x); [|destruct (close im x s1); discriminate].
  destruct (negb _); [destruct (close im x s1); discriminate|]. destruct (close im x s1); intros E; try discriminate. injection E as _ E. rewrite <- E. exact G.
Qed.
End Paths.
