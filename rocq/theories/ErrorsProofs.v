From Coq Require Import String.
From Verif Require Import GoBase Errors Spec_Errors.
Local Open Scope string_scope.

Lemma same_refl : forall e, same e e = true.
Proof.
  induction e as [m|m o IH|i es|i m w]; cbn; rewrite ?String.eqb_refl, ?Z.eqb_refl; auto.
Qed.

Lemma sentinel_text_inj a b : sentinel_text a = sentinel_text b -> a = b.
Proof. destruct a, b; intros H; first [reflexivity | discriminate H]. Qed.

Lemma errors_is_unfold e t : errors_is e t =
  same e t ||
  match e with
  | EBase _ => false
  | ECustom _ o => errors_is o t
  | EMulti _ es => existsb (fun x => errors_is x t) es
  | EForeign _ _ (Some w) => errors_is w t
  | EForeign _ _ None => false
  end.
Proof. destruct e; reflexivity. Qed.

Fixpoint with_messages (e : err) (ms : list string) : err :=
  match ms with [] => e | m :: ms' => with_messages (with_message e m) ms' end.
Fixpoint joined (t : string) (ms : list string) : string :=
  match ms with [] => t | m :: ms' => joined (t ++ ": " ++ m) ms' end.

(* a chain of custom errors over a sentinel *)
Inductive chain (x : sentinel) : err -> Prop :=
| chain0 : chain x (sentinel_err x)
| chainS e m : chain x e -> chain x (ECustom m e).

Lemma chain_is x y e : chain x e -> errors_is e (sentinel_err y) = true <-> y = x.
Proof.
  induction 1 as [|e m Hc IH].
  - rewrite errors_is_unfold. unfold sentinel_err, with_message, rootError. cbn [same errors_is].
    split; intros H.
    + apply sentinel_text_inj. rewrite !orb_false_r, !andb_true_r in H.
      now apply String.eqb_eq in H.
    + subst. now rewrite String.eqb_refl.
  - rewrite errors_is_unfold.
    assert (same (ECustom m e) (sentinel_err y) = false) as ->.
    { unfold sentinel_err, with_message, rootError. cbn [same].
      assert (same e (EBase "") = false) as ->; [destruct Hc; reflexivity|apply andb_false_r]. }
    exact IH.
Qed.

Lemma with_messages_chain ms : forall x e, chain x e -> is_driver_error e = true ->
  chain x (with_messages e ms).
Proof.
  induction ms as [|m ms IH]; intros x e Hc Hd; cbn [with_messages]; [exact Hc|].
  apply IH; [|destruct e; reflexivity].
  destruct Hc as [|e m' Hc]; cbn [with_message]; unfold sentinel_err, rootError, with_message; constructor.
  - apply (chain0 x).
  - now constructor.
Qed.
Lemma with_messages_text ms : forall e m o, e = ECustom m o ->
  error_text (with_messages e ms) = joined m ms.
Proof.
  induction ms as [|x ms IH]; intros e m o ->; cbn [with_messages joined]; [reflexivity|].
  eapply IH. reflexivity.
Qed.

(** Wrap *)
Lemma existsb_elems e t : (forall i es, e <> EMulti i es) ->
  existsb (fun x => errors_is x t) (multi_elems e) = errors_is e t.
Proof.
  intros H. destruct e as [m|m o|i es|i m w]; cbn [multi_elems existsb]; rewrite ?orb_false_r; try reflexivity.
  now elim (H i es).
Qed.
(* the elements of a bare multierror: everything it matches except its own address *)
Lemma existsb_elems_multi i es t :
  existsb (fun x => errors_is x t) (multi_elems (EMulti i es)) || same (EMulti i es) t = errors_is (EMulti i es) t.
Proof. rewrite errors_is_unfold. cbn [multi_elems]. apply orb_comm. Qed.

Definition is_bare_multi (e : err) : bool := match e with EMulti _ _ => true | _ => false end.
Lemma elems_is e t : existsb (fun x => errors_is x t) (multi_elems e) =
  if is_bare_multi e then match e with EMulti _ es => existsb (fun x => errors_is x t) es | _ => false end
  else errors_is e t.
Proof.
  destruct e; cbn [is_bare_multi]; try (apply existsb_elems; discriminate). reflexivity.
Qed.

Lemma wrap_is id e x w t : wrap id e (Some x) = Ret w -> is_driver_error e = true ->
  errors_is w t = same w t || same (EMulti id []) t || errors_is e t ||
    (if is_bare_multi x then match x with EMulti _ es => existsb (fun y => errors_is y t) es | _ => false end
     else errors_is x t).
Proof.
  intros H Hd. unfold wrap in H. injection H as <-.
  rewrite errors_is_unfold. rewrite (errors_is_unfold (multi_append _ _ _)).
  unfold multi_append. rewrite existsb_app, !elems_is.
  assert (is_bare_multi e = false) as -> by (destruct e; [reflexivity|reflexivity|discriminate|reflexivity]).
  assert (same (EMulti id (multi_elems e ++ multi_elems x)) t = same (EMulti id []) t) as -> by (destruct t; reflexivity).
  now rewrite !orb_assoc.
Qed.

Lemma wrap_keeps_left id e x w t : wrap id e (Some x) = Ret w -> is_driver_error e = true ->
  errors_is e t = true -> errors_is w t = true.
Proof.
  intros H Hd Hi. rewrite (wrap_is _ _ _ _ _ H Hd), Hi. now rewrite !orb_true_r.
Qed.
Lemma wrap_keeps_right id e x w t : wrap id e (Some x) = Ret w -> is_driver_error e = true ->
  errors_is x t = true -> (is_bare_multi x = true -> same x t = false) -> errors_is w t = true.
Proof.
  intros H Hd Hi Hb. rewrite (wrap_is _ _ _ _ _ H Hd).
  destruct x as [m|m o|i es|i m o]; cbn [is_bare_multi] in *; try (rewrite Hi; now rewrite !orb_true_r).
  rewrite errors_is_unfold in Hi. rewrite (Hb eq_refl) in Hi. cbn [orb] in Hi. rewrite Hi.
  now rewrite !orb_true_r.
Qed.

(** Classes *)
Lemma custom_not_sentinel m e y : e <> rootError -> same (ECustom m e) (sentinel_err y) = false.
Proof.
  intros Hn. unfold sentinel_err, with_message, rootError in *. cbn [same]. destruct e; cbn [same]; try apply andb_false_r.
  destruct (String.eqb msg "") eqn:E; [|apply andb_false_r]. apply String.eqb_eq in E. now subst.
Qed.
Lemma class_is k e : has_class k e -> e <> rootError /\ forall y, errors_is e (sentinel_err y) = kerr_is k y.
Proof.
  induction 1 as [s|e [Hn Hf]|e [Hn Hf]|z e [Hn Hf]|k e m _ [Hn IH]|k e id m _ [Hn IH]|s k r e id w _ [Hn IHr] Hd _ [Hne IHe] Hw]; try (split; [exact Hn|exact Hf]).
  - split; [discriminate|]. intros y. destruct (errors_is (sentinel_err s) (sentinel_err y)) eqn:E; cbn [kerr_is].
    + apply (chain_is s y) in E; [subst; now rewrite String.eqb_refl|constructor].
    + symmetry. apply String.eqb_neq. intros X. apply sentinel_text_inj in X. subst.
      assert (errors_is (sentinel_err y) (sentinel_err y) = true) as X by (apply (chain_is y y); [constructor|reflexivity]). congruence.
  - assert (exists t, with_message e m = ECustom t e) as [t ->] by (destruct e; cbn [with_message]; eauto).
    split; [discriminate|]. intros y. rewrite errors_is_unfold, custom_not_sentinel by exact Hn. exact (IH y).
  - split; [discriminate|]. intros y. rewrite errors_is_unfold. exact (IH y).
  - pose proof Hw as Hw'. unfold wrap in Hw'. injection Hw' as Ew. split; [now subst|]. intros y. rewrite (wrap_is _ _ _ _ _ Hw Hd).
    replace (same w (sentinel_err y)) with false by (subst w; symmetry; apply custom_not_sentinel; discriminate).
    change (same (EMulti id []) (sentinel_err y)) with false. cbn [orb]. rewrite IHr. cbn [kerr_is]. f_equal.
    destruct e; cbn [is_bare_multi]; apply IHe.
Qed.
