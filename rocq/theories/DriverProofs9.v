(** * DriverProofs9: all path operations, for any implementation *)
From Verif Require Import GoBase ListZ Errors Flags GoPath Spec_Path GoPathProofs BlockCache Spec_BlockCache BlockCacheProofs
  BlockCacheProofs2 BasicStream Spec_BasicStream BasicStreamProofs Driver Spec_Driver DriverProofs DriverProofs2 DriverProofs8.

(** ** Operations refused at once *)
Section Refused.
Context {F H : Type} (im : impl F H) (wm : wmode) (d : drv) (fuel : nat).
Lemma refused_op o e s : refused im d o = Some e -> run_op im wm d fuel o s = Done s (Some e).
Proof.
  destruct o; cbn [refused run_op]; try discriminate.
  - destruct (_ && _) eqn:E; [|discriminate]. intros [= <-]. unfold outc, bind, open_file. cbn zeta. now rewrite E.
  - destruct (can_write (mount d)) eqn:E; [discriminate|]. intros [= <-]. unfold outc, bind, create, open_file. cbn zeta.
    change (io_requires_write_perm _) with true. rewrite E. reflexivity.
  - destruct (i_link im) eqn:E; [discriminate|]. intros [= <-]. unfold outc, bind, link. now rewrite E.
  - destruct (i_has_symlinks im) eqn:E; [discriminate|]. intros [= <-]. unfold outc, bind, readlink. now rewrite E.
  - destruct (can_write (mount d)) eqn:E; [discriminate|]. intros [= <-]. unfold outc, bind at 1, write_file, try, bind at 1, open_file. cbn zeta.
    change (io_requires_write_perm _) with true. rewrite E. reflexivity.
Qed.
End Refused.

(** ** The wrapper as it is *)
Section AsIsOps.
Context {F H : Type} (im : impl F H) (d : drv) (fuel : nat).
Lemma dead_outc {A} s (m : M F (A + kerr)) : dead s (m s) -> dead s (outc m s).
Proof. apply dead_bind. Qed.
Lemma dead_fol {C} s p (k : xh H -> M F (C + kerr)) : dead s (try (following im AsIs d fuel p) k s).
Proof. apply dead_try, asis_following. Qed.
Lemma dead_defer {A} s s' x (m : M F A) : x_mode x = AsIs -> dead s (m s') -> dead s (deferring im x m s').
Proof.
  intros Hx. unfold deferring. destruct (m s') as [s1 a|s1|s1]; cbn; auto; [tauto|]. intros He. unfold close, meth. rewrite Hx. exact He.
Qed.
Lemma dead_open s p fl perm : io_requires_write_perm fl && negb (can_write (mount d)) = false -> dead s (open_file im AsIs d fuel p fl perm s).
Proof. intros E. unfold open_file. cbn zeta. rewrite E. apply dead_bind, asis_following. Qed.
Lemma asis_op o s : refused im d o = None ->
  match o with
  | PLchown _ _ _ =>
      match run_op im AsIs d fuel o s with
      | Done s' v => v = Some (K ErrNotImplemented) /\ ext only_acq s s'
      | Crash s' | Spin s' => ext only_acq s s'
      end
  | _ => dead s (run_op im AsIs d fuel o s)
  end.
Proof.
  intros HR. pose proof (asis_resolution im d fuel) as [I1 I2].
  destruct o; cbn [run_op refused] in *; try (apply dead_outc, dead_fol).
  - apply dead_outc, dead_try_obj; [apply I1|]. intros x s' Hx He. apply dead_defer; auto.
    unfold try at 1, bind at 1. destruct fuel; [exact He|]. rewrite resolve_symlink_S. unfold bind at 1, stat, meth. rewrite Hx. exact He.
  - apply dead_outc, dead_open. destruct (_ && _); [discriminate|reflexivity].
  - apply dead_outc, dead_open. destruct (can_write _); [reflexivity|discriminate].
  - apply dead_bind. apply dead_bind. apply asis_following.
  - apply dead_outc. unfold mkdir. destruct (split_path _). apply dead_fol.
  - apply dead_outc. destruct fuel as [|f] eqn:Ef; [apply ext_refl|]. cbn [mkdir_all]. destruct (split_path _). rewrite <- Ef in *. apply dead_bind, asis_following.
  - unfold outc, lchown. unfold bind at 1, try, bind at 1. specialize (I1 (norm d p) s).
    destruct (no_follow im AsIs d fuel (norm d p) s) as [s' [x|e]|s'|s']; try contradiction; try exact I1.
    destruct I1 as [Hx He]. unfold opt_call, opt_meth. rewrite Hx. cbn. auto.
  - unfold link. destruct (i_link im); [|discriminate]. apply dead_outc, dead_fol.
  - unfold readlink. destruct (i_has_symlinks im); [|discriminate]. cbn [negb].
    apply dead_outc, dead_try_obj; [apply I1|]. intros x s' Hx He. apply dead_defer; auto. now apply dead_stat.
  - apply dead_outc. unfold write_file. apply dead_try, dead_open. destruct (can_write _); [reflexivity|discriminate].
Qed.
End AsIsOps.

(** ** Nested paths: nothing ever returns *)
Section NestedOps.
Context {F H : Type} (im : impl F H) (wm : wmode) (d : drv) (fuel : nat).
Lemma spin_bind {A C} s (m : M F A) (k : A -> M F C) : m s = Spin s -> bind m k s = Spin s.
Proof. intros E. unfold bind. now rewrite E. Qed.
Lemma nested_op o s ns n : ns <> [] -> proper n -> normalize_path (cwd d) (op_path o) = render (ns ++ [n]) ->
  refused im d o = None -> run_op im wm d fuel o s = Spin s.
Proof.
  intros Hns Hn E HR. assert (noslash n) as Hs by (apply name_proper in Hn; apply Hn).
  assert (forall f s, no_follow im wm d f (render (ns ++ [n])) s = Spin s /\ following im wm d f (render (ns ++ [n])) s = Spin s) as HS by (intros; now apply spin_nested).
  assert (split_path (render (ns ++ [n])) = (render ns ++ [47], n)) as HSp by (rewrite render_app by exact Hns; now apply split_slash).
  assert (render ns <> []) as Hr by (destruct ns; [congruence|discriminate]).
  assert (forall fl perm, io_requires_write_perm fl && negb (can_write (mount d)) = false -> open_file im wm d fuel (op_path o) fl perm s = Spin s) as HO.
  { intros fl perm Hfl. unfold open_file, norm. rewrite E. cbn zeta. rewrite Hfl. apply spin_bind, HS. }
  destruct o; cbn [run_op op_path refused] in *;
    unfold stat_path, lstat, read_file, read_dir, chdir, mkdir, remove, remove_all, truncate, chmod, chown, lchown, chtimes, norm; rewrite ?E;
    try (apply spin_bind, spin_try, HS).
  - apply spin_bind, HO. destruct (_ && _); [discriminate|reflexivity].
  - apply spin_bind, HO. destruct (can_write _); [reflexivity|discriminate].
  - apply spin_bind, spin_bind, HS.
  - rewrite HSp. apply spin_bind, spin_try. now apply spin_trailing.
  - destruct fuel as [|f] eqn:Ef; [reflexivity|]. cbn [mkdir_all]. unfold norm. rewrite E, HSp. rewrite <- Ef. apply spin_bind, spin_bind. now apply spin_trailing.
  - unfold link, norm. rewrite E. destruct (i_link im); [|discriminate]. apply spin_bind, spin_try, HS.
  - unfold readlink, norm. rewrite E. destruct (i_has_symlinks im); [|discriminate]. cbn [negb]. apply spin_bind, spin_try, HS.
  - apply spin_bind. unfold write_file. apply spin_try, HO. destruct (can_write _); [reflexivity|discriminate].
Qed.
End NestedOps.
