(** * LstatAny: Lstat of every path, in every state (C54). *)
From Verif Require Import GoBase ListZ Errors Flags GoPath Driver DriverProofs DriverProofs2.

Section LA.
Context {F H : Type} (im : impl F H) (wm : wmode) (d : drv).
Hypothesis Hwm : wm <> AsIs.

Lemma meth_mode (x : xh H) : x_mode x = wm -> meth x = true.
Proof. intros E. unfold meth. rewrite E. now destruct wm. Qed.
Lemma defer_inv {A} (x : xh H) (m : M F A) s s' a : deferring im x m s = Done s' a -> exists s1, m s = Done s1 a.
Proof. unfold deferring. destruct (m s) as [s1 b|s1|s1]; [|destruct (close im x s1); discriminate|discriminate]. destruct (close im x s1); [intros [= _ <-]; eauto|discriminate..]. Qed.
Lemma no_follow_mode f p s s1 x : no_follow im wm d f p s = Done s1 (inl x) -> x_mode x = wm.
Proof.
  destruct f as [|f]; [discriminate|]. rewrite no_follow_S. destruct (_ || _).
  - unfold bind. destruct (get_root im s) as [s2 r|?|?]; try discriminate. intros [= _ <-]. reflexivity.
  - destruct (split_path p) as [pp bn]. unfold try at 1. unfold bind at 1. destruct (following im wm d f pp s) as [s2 [y|e]|?|?]; try discriminate.
    intros E. apply defer_inv in E. destruct E as [s3 E]. unfold bind in E. destruct (stat im y s2) as [s4 st|?|?]; try discriminate.
    destruct (negb _); [discriminate|]. unfold get_ext, try, bind in E. destruct (get_object im bn y s4) as [s5 [o|e]|?|?]; try discriminate.
    injection E as _ <-. reflexivity.
Qed.
(* an object that is not a link is described; an error on the way is reported *)
Lemma lstat_any f p s s1 r : no_follow im wm d (S f) (normalize_path (cwd d) p) s = Done s1 r ->
  match r with
  | inr e => lstat im wm d (S f) p s = Done s1 (inr e)
  | inl x => is_symlink (h_stat im (d_fs s1) (x_h x)) = false ->
      exists s', lstat im wm d (S f) p s = Done s' (inl (h_stat im (d_fs s1) (x_h x)))
  end.
Proof.
  intros E. destruct r as [x|e].
  - intros Hl. pose proof (meth_mode x (no_follow_mode _ _ _ _ _ E)) as Hm. unfold lstat, norm. eexists.
    erewrite try_done by exact E. erewrite defer_done; [reflexivity|exact Hm|].
    erewrite try_done. 2:{ rewrite resolve_symlink_S, bind_stat by exact Hm. rewrite Hl. reflexivity. }
    erewrite defer_done; [reflexivity|exact Hm|]. rewrite bind_stat by exact Hm. reflexivity.
  - unfold lstat, norm. now apply try_err.
Qed.
(* and when the path leads to a link, the answer is about what the link leads to *)
Lemma lstat_link f p s s' st : lstat im wm d f p s = Done s' (inl st) ->
  exists s1 x s2 y, no_follow im wm d f (normalize_path (cwd d) p) s = Done s1 (inl x) /\
    resolve_symlink im wm d f x s1 = Done s2 (inl y) /\ st = h_stat im (d_fs s2) (x_h y).
Proof.
  unfold lstat, norm, try at 1. unfold bind at 1. destruct (no_follow im wm d f _ s) as [s1 [x|e]|?|?] eqn:E; try discriminate.
  intros X. apply defer_inv in X. destruct X as [s2 X]. unfold try, bind in X.
  destruct (resolve_symlink im wm d f x s1) as [s3 [y|e]|?|?] eqn:ER; try discriminate. apply defer_inv in X. destruct X as [s4 X].
  unfold stat in X. destruct (meth y); [|discriminate]. injection X as _ <-. exists s1, x, s3, y. auto.
Qed.
End LA.
