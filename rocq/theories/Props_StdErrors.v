(** * Props_StdErrors: C181, the library's errors and errors from elsewhere (os.ErrNotExist, io.EOF, ...) *)
From Coq Require Import String.
From Verif Require Import GoBase Errors.

(** ** Specification: errors made with the functions of errors.go, and the errors from elsewhere they were made from.
    An error from elsewhere is a pointer, such as fs.ErrNotExist, and may wrap others *)
Definition foreign (x : err) : Prop := exists i m w, x = EForeign i m w.
Inductive made : list err -> err -> Prop :=
| made_new t : made [] (new_error t)
| made_sentinel s : made [] (sentinel_err s)
| made_with_message l e m : made l e -> made l (with_message e m)
| made_wrap l l' id e x w : made l e -> made l' x -> wrap id e (Some x) = Ret w -> made (l ++ l') w
| made_wrap_foreign l id e x w : made l e -> foreign x -> wrap id e (Some x) = Ret w -> made (l ++ [x]) w
| made_cast id x w : foreign x -> cast_to_driver_error id (Some x) = Ret (Some w) -> made [x] w.

Lemma made_shape l e : made l e -> (exists m, e = EBase m) \/ (exists m o, e = ECustom m o).
Proof.
  intros H. destruct H as [t|s|l e m H|l l' id e x w H H' E|l id e x w H H' E|id x w H E].
  - left. now exists t.
  - right. unfold sentinel_err. cbn. eauto.
  - right. unfold with_message. destruct e; eauto.
  - right. cbn in E. injection E as <-. eauto.
  - right. cbn in E. injection E as <-. eauto.
  - right. destruct H as (i & m & w' & ->). cbn in E. injection E as <-. eauto.
Qed.
Lemma made_elems l e : made l e -> multi_elems e = [e].
Proof. intros H. destruct (made_shape _ _ H) as [(m & ->)|(m & o & ->)]; reflexivity. Qed.

(** ** C181 *)
(* such an error is recognised as an error from elsewhere exactly if it was made from one that is *)
Theorem C181_exact l e t : made l e -> foreign t -> (errors_is e t = true <-> exists x, In x l /\ errors_is x t = true).
Proof.
  intros H (i & m & w & ->). induction H as [t|s|l e m0 H IH|l l' id e x w0 H IH H' IH' E|l id e x w0 H IH H' E|id x w0 H E].
  - split; [discriminate|]. intros (x & [] & _).
  - split; [cbn; discriminate|]. intros (x & [] & _).
  - rewrite <- IH. unfold with_message. destruct (made_shape _ _ H) as [(m' & ->)|(m' & o & ->)]; reflexivity.
  - cbn in E. injection E as <-. unfold multi_append. rewrite (made_elems _ _ H), (made_elems _ _ H'). cbn. rewrite !orb_true_iff, IH, IH'. split.
    + intros [(y & Hy & Ey)|[(y & Hy & Ey)|X]]; [exists y|exists y|discriminate]; (split; [apply in_or_app; auto|exact Ey]).
    + intros (y & Hy & Ey). apply in_app_or in Hy. destruct Hy as [Hy|Hy]; [left|right; left]; eauto.
  - cbn in E. injection E as <-. unfold multi_append. rewrite (made_elems _ _ H). destruct H' as (i' & m' & w' & ->). cbn [multi_elems app].
    change (errors_is (ECustom _ (EMulti id [e; EForeign i' m' w'])) (EForeign i m w)) with (errors_is e (EForeign i m w) || (errors_is (EForeign i' m' w') (EForeign i m w) || false))%bool.
    rewrite orb_false_r, orb_true_iff, IH. split.
    + intros [(y & Hy & Ey)|X]; [exists y; split; [apply in_or_app; auto|exact Ey]|eexists; split; [apply in_or_app; right; left; reflexivity|exact X]].
    + intros (y & Hy & Ey). apply in_app_or in Hy. destruct Hy as [Hy|[<-|[]]]; [left; eauto|right; exact Ey].
  - destruct H as (i' & m' & w' & ->). cbn in E. injection E as <-. unfold multi_append, rootError. cbn [multi_elems app].
    change (errors_is (ECustom _ (EMulti id [EBase ""; EForeign i' m' w'])) (EForeign i m w)) with (false || (errors_is (EForeign i' m' w') (EForeign i m w) || false))%bool.
    rewrite orb_false_r. cbn [orb]. split; [intros X; eexists; split; [left; reflexivity|exact X]|]. intros (y & [<-|[]] & Ey). exact Ey.
Qed.
(* so the library's own errors are never fs.ErrNotExist, fs.ErrExist, fs.ErrPermission, io.EOF, ..., which callers of os functions ask for *)
Theorem C181_std_refuted e t : made [] e -> foreign t -> errors_is e t = false.
Proof.
  intros H Ht. destruct (errors_is e t) eqn:E; [|reflexivity]. apply (C181_exact _ _ _ H Ht) in E. destruct E as (x & [] & _).
Qed.
(* but an error from elsewhere stays what it was, through any number of messages, wraps and casts *)
Theorem C181_kept_partial l e x t : made l e -> foreign t -> In x l -> errors_is x t = true -> errors_is e t = true.
Proof. intros H Ht Hx Ex. apply (C181_exact _ _ _ H Ht). eauto. Qed.
Print Assumptions C181_exact.
Print Assumptions C181_std_refuted.
Print Assumptions C181_kept_partial.
(* ErrNotFound is not fs.ErrNotExist; ErrIOFailed around a *fs.PathError around fs.ErrNotExist is *)
Definition not_exist : err := EForeign 1 "file does not exist" None.
Definition path_error : err := EForeign 2 "open x: file does not exist" (Some not_exist).
Example C181_example :
  made [] (with_message (sentinel_err ErrNotFound) "x") /\ errors_is (with_message (sentinel_err ErrNotFound) "x") not_exist = false /\
  exists w, wrap 3 (sentinel_err ErrIOFailed) (Some path_error) = Ret w /\ made [path_error] (with_message w "reading x") /\ errors_is (with_message w "reading x") not_exist = true.
Proof.
  split; [apply made_with_message, made_sentinel|]. split; [reflexivity|]. eexists. split; [reflexivity|].
  split; [apply made_with_message; apply (made_wrap_foreign [] 3 (sentinel_err ErrIOFailed) path_error); [apply made_sentinel|unfold foreign, path_error; eauto|reflexivity]|reflexivity].
Qed.
