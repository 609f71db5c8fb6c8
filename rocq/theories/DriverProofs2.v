(** * DriverProofs2: fuel, shallow paths, handles *)
From Verif Require Import GoBase ListZ Errors Flags GoPath Spec_Path GoPathProofs BlockCache BasicStream Driver Spec_Driver DriverProofs.

(** ** More fuel never changes an answer *)
Section Fuel.
Context {F H : Type} (im : impl F H) (wm : wmode) (d : drv).
Definition le_m {A} (m m' : M F A) : Prop := forall s, match m s with Spin _ => True | r => m' s = r end.
Lemma le_refl {A} (m : M F A) : le_m m m.
Proof. intros s. destruct (m s); auto. Qed.
Lemma le_spin {A} (m : M F A) : le_m spin m.
Proof. intros s. exact I. Qed.
Lemma le_bind {A C} (m m' : M F A) (k k' : A -> M F C) : le_m m m' -> (forall a, le_m (k a) (k' a)) -> le_m (bind m k) (bind m' k').
Proof.
  intros Hm Hk s. unfold bind. specialize (Hm s). destruct (m s) as [s1 a|s1|s1]; [rewrite Hm; apply Hk|now rewrite Hm|exact I].
Qed.
Lemma le_try {A C} (m m' : M F (A + kerr)) (k k' : A -> M F (C + kerr)) :
  le_m m m' -> (forall a, le_m (k a) (k' a)) -> le_m (try m k) (try m' k').
Proof. intros Hm Hk. apply le_bind; [exact Hm|]. intros [a|e]; [apply Hk|apply le_refl]. Qed.
Lemma le_defer {A} x (m m' : M F A) : le_m m m' -> le_m (deferring im x m) (deferring im x m').
Proof.
  intros Hm s. unfold deferring. specialize (Hm s). destruct (m s) as [s1 a|s1|s1]; try rewrite Hm; auto;
    destruct (close im x s1); auto.
Qed.
Lemma le_resolution f :
  (forall p, le_m (no_follow im wm d f p) (no_follow im wm d (S f) p)) /\
  (forall p, le_m (following im wm d f p) (following im wm d (S f) p)) /\
  (forall x, le_m (follow_loop im wm d f x) (follow_loop im wm d (S f) x)) /\
  (forall x, le_m (resolve_symlink im wm d f x) (resolve_symlink im wm d (S f) x)) /\
  (forall o x, le_m (link_loop im wm d f o x) (link_loop im wm d (S f) o x)).
Proof.
  induction f as [|f (I1 & I2 & I3 & I4 & I5)]; [repeat split; intros; apply le_spin|].
  split; [|split; [|split; [|split]]]; intros.
  - rewrite !no_follow_S. destruct (_ || _); [apply le_refl|]. destruct (split_path p). apply le_try; [apply I2|intros; apply le_refl].
  - rewrite !following_S. apply le_try; auto.
  - rewrite !follow_loop_S. apply le_bind; [apply le_refl|]. intros st. destruct (is_symlink st); [|apply le_refl].
    apply le_bind; [apply I4|]. intros r. apply le_bind; [apply le_refl|]. intros _. destruct r; [apply I3|apply le_refl].
  - rewrite !resolve_symlink_S. apply le_bind; [apply le_refl|]. intros st. destruct (negb _); [apply le_refl|apply I5].
  - rewrite !link_loop_S. apply le_bind; [apply le_refl|]. intros st. destruct (is_symlink st); [|apply le_refl].
    apply le_bind; [apply le_refl|]. intros t. apply le_bind; [apply le_refl|]. intros _. destruct t; [|apply le_refl]. cbn zeta.
    destruct (beqb _ _); [apply le_refl|]. apply le_try; auto.
Qed.
Lemma le_open f p fl perm : le_m (open_file im wm d f p fl perm) (open_file im wm d (S f) p fl perm).
Proof.
  destruct (le_resolution f) as (_ & I2 & _).
  unfold open_file. cbn zeta. destruct (_ && _); [apply le_refl|]. apply le_bind; [apply I2|]. intros r.
  apply le_try; [|intros; apply le_refl].
  destruct r as [x|e]; [apply le_refl|]. destruct (_ && _); [|apply le_refl]. destruct (split_path _).
  apply le_try; [apply I2|intros; apply le_refl].
Qed.
Lemma le_remove_directory n : forall x, le_m (remove_directory im wm n x) (remove_directory im wm (S n) x).
Proof.
  induction n as [|n IH]; intros x; [apply le_spin|]. cbn [remove_directory]. apply le_try; [apply le_refl|]. intros names.
  induction names as [|nm ns IHn]; [apply le_refl|]. destruct (is_dots nm); [apply IHn|].
  apply le_try; [apply le_refl|]. intros ent. apply le_bind; [apply le_refl|]. intros st. apply le_bind.
  - destruct (is_dir st); [|apply le_refl]. apply IH.
  - intros [?|?]; [|apply le_refl]. apply le_bind; [apply le_refl|]. intros q. apply le_bind; [apply le_refl|]. intros _.
    destruct q; [apply IHn|apply le_refl].
Qed.
Lemma le_mkdir_all f n : forall p perm, le_m (mkdir_all im wm d f n p perm) (mkdir_all im wm d (S f) (S n) p perm).
Proof.
  destruct (le_resolution f) as (_ & I2 & _).
  induction n as [|n IH]; intros p perm; [apply le_spin|]. cbn [mkdir_all]. destruct (split_path _) as [pp bn].
  apply le_bind; [apply I2|]. intros [x|e]; [apply le_refl|]. destruct (kerr_is e _); [|apply le_refl].
  apply le_bind; [apply IH|]. intros; apply le_refl.
Qed.
Lemma le_outc {A} (m m' : M F (A + kerr)) : le_m m m' -> le_m (outc m) (outc m').
Proof. intros Hm. apply le_bind; [exact Hm|]. intros; apply le_refl. Qed.
Lemma le_run_op f o : le_m (run_op im wm d f o) (run_op im wm d (S f) o).
Proof.
  destruct (le_resolution f) as (I1 & I2 & I3 & I4 & I5).
  destruct o; unfold run_op; try apply le_outc.
  - apply le_try; [apply I2|intros; apply le_refl].
  - apply le_try; [apply I1|]. intros. apply le_defer. apply le_try; [apply I4|intros; apply le_refl].
  - apply le_try; [apply I2|intros; apply le_refl].
  - apply le_open.
  - apply le_open.
  - apply le_bind; [|intros; apply le_refl]. apply le_bind; [apply I2|intros; apply le_refl].
  - apply le_try; [apply I2|intros; apply le_refl].
  - unfold mkdir. destruct (split_path _). apply le_try; [apply I2|intros; apply le_refl].
  - apply le_mkdir_all.
  - apply le_try; [apply I2|intros; apply le_refl].
  - apply le_try; [apply I2|]. intros. apply le_defer. apply le_bind; [apply le_refl|]. intros st. destruct (negb _); [apply le_refl|].
    apply le_bind; [apply le_refl|]. intros r s. destruct (h_same _ _ _ _); [reflexivity|]. apply le_remove_directory.
  - apply le_try; [apply I2|intros; apply le_refl].
  - apply le_try; [apply I2|intros; apply le_refl].
  - apply le_try; [apply I2|intros; apply le_refl].
  - apply le_try; [apply I1|intros; apply le_refl].
  - apply le_try; [apply I2|intros; apply le_refl].
  - unfold link. destruct (i_link im); [|apply le_refl]. apply le_try; [apply I2|]. intros. apply le_bind; [apply I2|].
    intros [?|?]; [apply le_refl|]. destruct (split_path _). apply le_try; [apply I2|intros; apply le_refl].
  - unfold readlink. destruct (negb _); [apply le_refl|]. apply le_try; [apply I1|intros; apply le_refl].
  - apply le_try; [apply le_open|intros; apply le_refl].
Qed.
Lemma le_ge {A} (m : nat -> M F A) : (forall f, le_m (m f) (m (S f))) -> forall f f', (f <= f')%nat -> le_m (m f) (m f').
Proof.
  intros Hm f f' Hle. induction Hle as [|f' Hle IH]; [apply le_refl|]. intros s. specialize (IH s). specialize (Hm f' s).
  destruct (m f s); auto; rewrite IH in Hm; exact Hm.
Qed.
Lemma run_op_fuel f f' o s : (f <= f')%nat -> (forall s', run_op im wm d f o s <> Spin s') -> run_op im wm d f' o s = run_op im wm d f o s.
Proof.
  intros Hle Hs. pose proof (le_ge (fun f => run_op im wm d f o) (fun f => le_run_op f o) f f' Hle s) as HL. cbn in HL.
  destruct (run_op im wm d f o s) eqn:E; auto. now destruct (Hs s0).
Qed.
End Fuel.

(** ** Paths of depth at most one, for any implementation *)
Section Shallow.
Context {F H : Type} (im : impl F H) (wm : wmode) (d : drv).
Hypothesis Hwm : wm <> AsIs.
Lemma meth_wrap id h p : meth (wrap (H := H) wm id h p) = true.
Proof. unfold meth, wrap. cbn. now destruct wm. Qed.
Lemma meth_raw id (h : H) : meth (raw id h) = true. Proof. reflexivity. Qed.
Lemma bind_stat {C} (x : xh H) (k : fstat -> M F C) s : meth x = true -> bind (stat im x) k s = k (h_stat im (d_fs s) (x_h x)) s.
Proof. intros Hm. unfold bind, stat. now rewrite Hm. Qed.
Lemma close_eq (x : xh H) s : meth x = true -> close im x s = Done (emit (h_close im (d_fs s) (x_h x)) (EvRelease (x_id x)) s) tt.
Proof. intros Hm. unfold close. now rewrite Hm. Qed.
Lemma try_done {A C} (m : M F (A + kerr)) (k : A -> M F (C + kerr)) s s' a : m s = Done s' (inl a) -> try m k s = k a s'.
Proof. intros E. unfold try, bind. now rewrite E. Qed.
Lemma try_err {A C} (m : M F (A + kerr)) (k : A -> M F (C + kerr)) s s' e : m s = Done s' (inr e) -> try m k s = Done s' (inr e).
Proof. intros E. unfold try, bind. now rewrite E. Qed.
Lemma bind_done {A C} (m : M F A) (k : A -> M F C) s s' a : m s = Done s' a -> bind m k s = k a s'.
Proof. intros E. unfold bind. now rewrite E. Qed.
Lemma defer_done {A} (x : xh H) (m : M F A) s s' a : meth x = true -> m s = Done s' a ->
  deferring im x m s = Done (emit (h_close im (d_fs s') (x_h x)) (EvRelease (x_id x)) s') a.
Proof. intros Hm E. unfold deferring. rewrite E. now rewrite close_eq by exact Hm. Qed.

(* the root *)
Definition root_state (s : dst F) : dst F :=
  mkD (fst (i_root im (d_fs s))) (S (d_next s)) (d_log s ++ [EvAcquire (d_next s)]).
Definition root_h (s : dst F) : xh H := mkX (d_next s) [47] wm (snd (i_root im (d_fs s))).
Definition root_ok (fs : F) : Prop := let st := h_stat im (fst (i_root im fs)) (snd (i_root im fs)) in
  is_dir st = true /\ is_symlink st = false.
Lemma no_follow_root f s : no_follow im wm d (S f) [47] s = Done (root_state s) (inl (root_h s)).
Proof. rewrite no_follow_S. cbn [beqb]. unfold root_state, root_h, bind, get_root. cbn. destruct (i_root im (d_fs s)). reflexivity. Qed.
Lemma follow_loop_nolink f x s : meth x = true -> is_symlink (h_stat im (d_fs s) (x_h x)) = false ->
  follow_loop im wm d (S f) x s = Done s (inl x).
Proof. intros Hm Hl. rewrite follow_loop_S, bind_stat by exact Hm. now rewrite Hl. Qed.
Lemma meth_root_h s : meth (root_h s) = true. Proof. unfold root_h, meth. cbn. now destruct wm. Qed.
Lemma following_root f s : root_ok (d_fs s) -> following im wm d (S (S f)) [47] s = Done (root_state s) (inl (root_h s)).
Proof.
  intros Hr. rewrite following_S. erewrite try_done by apply no_follow_root. apply follow_loop_nolink; [apply meth_root_h|].
  now destruct Hr.
Qed.
(* an entry of the root *)
Definition entry_call (n : list Z) (s : dst F) : F * (H + kerr) :=
  i_get im (fst (i_root im (d_fs s))) n (snd (i_root im (d_fs s))).
Definition entry_res (n : list Z) (s : dst F) : mres F (xh H + kerr) :=
  let k := d_next s in
  let fs := h_close im (fst (entry_call n s)) (snd (i_root im (d_fs s))) in
  match snd (entry_call n s) with
  | inl h => Done (mkD fs (S (S k)) (d_log s ++ [EvAcquire k; EvGet k n; EvAcquire (S k); EvRelease k])) (inl (mkX (S k) (render [n]) wm h))
  | inr e => Done (mkD fs (S k) (d_log s ++ [EvAcquire k; EvGet k n; EvRelease k])) (inr e)
  end.
Lemma render_not_root n : name n -> beqb (render [n]) str_slash || beqb (render [n]) str_empty = false.
Proof.
  intros (Hn & _). apply orb_false_iff. split; apply beqb_neq; cbn; rewrite app_nil_r; [|discriminate].
  unfold str_slash, slash. intros [= X]. subst n. now apply Hn.
Qed.
Lemma no_follow_one f n s : root_ok (d_fs s) -> name n -> no_follow im wm d (S (S (S f))) (render [n]) s = entry_res n s.
Proof.
  intros Hr Hn. rewrite no_follow_S, (render_not_root n Hn), split_one by exact Hn.
  erewrite try_done by now apply following_root. unfold deferring. rewrite bind_stat by apply meth_root_h.
  destruct Hr as [Hd _]. cbn [root_state d_fs root_h x_h]. rewrite Hd. cbn [negb].
  unfold entry_res, entry_call, get_ext, try, bind, get_object. change (meth (mkX (d_next s) [47] wm (snd (i_root im (d_fs s))))) with (meth (root_h s)). rewrite meth_root_h.
  cbn [root_state d_fs x_h root_h]. destruct (i_get im _ n _) as [fs [h|e]]; cbn [fst snd].
  - unfold fresh. cbn [emit d_next d_log ret]. rewrite close_eq by apply meth_root_h.
    assert (join [47] n = render [n]) as EJ by (change [47] with (render []); apply (join_name [] n); auto; constructor).
    unfold emit, wrap, ret, root_state. cbn [x_path root_h x_id d_next d_log d_fs x_h fst snd]. rewrite EJ, <- !app_assoc. reflexivity.
  - unfold ret. cbv beta iota. rewrite close_eq by apply meth_root_h. unfold emit, root_state. cbn. rewrite <- !app_assoc. reflexivity.
Qed.
Lemma following_one f n s : root_ok (d_fs s) -> name n ->
  (forall s' x, entry_res n s = Done s' (inl x) -> is_symlink (h_stat im (d_fs s') (x_h x)) = false) ->
  following im wm d (S (S (S (S f)))) (render [n]) s = entry_res n s.
Proof.
  intros Hr Hn Hl. rewrite following_S. pose proof (no_follow_one f n s Hr Hn) as E.
  assert (exists s' r, entry_res n s = Done s' r) as (s' & r & ER) by (unfold entry_res; destruct (snd (entry_call n s)); eauto).
  rewrite ER in *. destruct r as [x|e].
  - erewrite try_done by exact E. apply follow_loop_nolink; [|apply Hl; reflexivity].
    unfold entry_res in ER. destruct (snd (entry_call n s)); [|discriminate]. injection ER as _ <-. unfold meth. cbn. now destruct wm.
  - erewrite try_err by exact E. reflexivity.
Qed.
End Shallow.

(** ** Lstat *)
Section Lstat.
Context {F H : Type} (im : impl F H) (wm : wmode) (d : drv).
Lemma resolve_nonlink fuel :
  (forall x s s' y, resolve_symlink im wm d fuel x s = Done s' (inl y) -> is_symlink (h_stat im (d_fs s') (x_h y)) = false) /\
  (forall o x s s' y, link_loop im wm d fuel o x s = Done s' (inl y) -> is_symlink (h_stat im (d_fs s') (x_h y)) = false).
Proof.
  induction fuel as [|f [I4 I5]]; [split; intros; discriminate|]. split.
  - intros x s s' y. rewrite resolve_symlink_S. unfold bind, stat. destruct (meth x); [|discriminate].
    destruct (is_symlink _) eqn:E; cbn [negb]; [apply I5|]. intros [= <- <-]. exact E.
  - intros o x s s' y. rewrite link_loop_S. unfold bind at 1. unfold stat. destruct (meth x); [|discriminate].
    destruct (is_symlink _) eqn:E; [|intros [= <- <-]; exact E].
    unfold bind at 1. destruct (get_contents im x s) as [s1 t|?|?]; try discriminate.
    unfold bind at 1. destruct (close im x s1) as [s2 u|?|?]; try discriminate. destruct t as [t|e]; [|discriminate]. cbn zeta.
    destruct (beqb _ o); [discriminate|]. unfold try, bind. destruct (no_follow im wm d f _ s2) as [s3 [z|e]|?|?]; try discriminate.
    apply I5.
Qed.
Lemma lstat_nonlink fuel p s s' st : lstat im wm d fuel p s = Done s' (inl st) -> is_symlink st = false.
Proof.
  unfold lstat. unfold try at 1, bind at 1. destruct (no_follow im wm d fuel (norm d p) s) as [s1 [x|e]|?|?]; try discriminate.
  unfold deferring at 1. unfold try, bind at 1.
  destruct (resolve_symlink im wm d fuel x s1) as [s2 [y|e]|?|?] eqn:E; try discriminate;
    try (cbn [ret]; destruct (close im x _); discriminate).
  apply resolve_nonlink in E. unfold deferring, bind, stat. destruct (meth y).
  - cbn [ret]. destruct (close im y s2) as [s3 u|?|?]; [|destruct (close im x _); discriminate|discriminate].
    destruct (close im x s3); try discriminate. intros [= _ <-]. exact E.
  - destruct (close im y s2); destruct (close im x _); discriminate.
Qed.
End Lstat.
