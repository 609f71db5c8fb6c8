(** * DriverProofs5: directory pages, Create, Truncate, RemoveAll in general *)
From Verif Require Import GoBase ListZ Errors Flags GoPath Spec_Path GoPathProofs BlockCache Spec_BlockCache BlockCacheProofs
  BasicStream Spec_BasicStream BasicStreamProofs Driver Spec_Driver DriverProofs DriverProofs2 DriverProofs3.

Section Pages.
Context {F H : Type} (im : impl F H).
Definition reset (f : file H) (l : option (list dirent)) (p : Z) : file H :=
  mkFile (fl_stream f) (fl_obj f) (fl_stat f) (fl_flags f) l p.
(* a file in the middle of a listing *)
Lemma page_step f es p k s : meth (fl_obj f) = true -> is_dir (h_stat im (d_fs s) (x_h (fl_obj f))) = true ->
  0 <= p <= zlen es -> 0 < k ->
  fl_read_dir im (reset f (Some es) p) k s =
    if p =? zlen es then Done s (reset f None 0, [], Some KEOF)
    else Done s (reset f (Some es) (p + Z.min k (zlen es - p)), slice p (Z.min k (zlen es - p)) es, None).
Proof.
  intros Hm Hd Hp Hk. unfold fl_read_dir. rewrite bind_stat by exact Hm. cbn [reset fl_obj]. rewrite Hd. cbn [negb fl_last reset].
  unfold bind, ret. cbn [fl_ptr reset]. destruct (p =? zlen es) eqn:E.
  - replace (zlen es - p =? 0) with true by lia. reflexivity.
  - replace (zlen es - p =? 0) with false by lia.
    replace (if (k <=? 0) || (k >? zlen es - p) then zlen es - p else k) with (Z.min k (zlen es - p)) by (destruct ((k <=? 0) || (k >? zlen es - p)) eqn:E2; lia).
    reflexivity.
Qed.
Lemma page_first f es k s s1 : meth (fl_obj f) = true -> is_dir (h_stat im (d_fs s) (x_h (fl_obj f))) = true ->
  read_dir_obj im (fl_obj f) s = Done s1 (es, None) ->
  fl_read_dir im (reset f None 0) k s =
    (if is_dir (h_stat im (d_fs s1) (x_h (fl_obj f))) then fl_read_dir im (reset f (Some es) 0) k s1 else fl_read_dir im (reset f None 0) k s).
Proof.
  intros Hm Hd E. destruct (is_dir (h_stat im (d_fs s1) (x_h (fl_obj f)))) eqn:E1; [|reflexivity].
  unfold fl_read_dir. rewrite !bind_stat by exact Hm. cbn [reset fl_obj]. rewrite Hd, E1. cbn [negb fl_last reset].
  unfold bind. rewrite E. reflexivity.
Qed.
Lemma pages_mid f es : meth (fl_obj f) = true -> forall ks s p, is_dir (h_stat im (d_fs s) (x_h (fl_obj f))) = true ->
  0 <= p <= zlen es -> Forall (fun k => 0 < k) ks ->
  exists out, read_pages im (reset f (Some es) p) ks s = Done s out /\
    (exists rest, skipn (Z.to_nat p) es = concat (map fst out) ++ rest /\ ((exists o, In (o, Some KEOF) out) -> rest = [])) /\
    (length es - Z.to_nat p < length ks -> exists o, In (o, Some KEOF) out)%nat /\
    (forall i o e, nth_error out i = Some (o, e) ->
       (e = None /\ 0 < zlen o <= nth i ks 0) \/ (e = Some KEOF /\ o = [] /\ S i = length out)).
Proof.
  intros Hm. induction ks as [|k ks IH]; intros s p Hd Hp Hk.
  - exists []. cbn [read_pages]. split; [reflexivity|]. split; [exists (skipn (Z.to_nat p) es); split; [reflexivity|intros [o []]]|].
    split; [cbn; lia|]. intros [|i]; discriminate.
  - inversion Hk as [|? ? Hk1 Hk2]; subst. cbn [read_pages]. unfold bind at 1. rewrite page_step by (auto; lia).
    destruct (p =? zlen es) eqn:E.
    + exists [([], Some KEOF)]. split; [reflexivity|]. split.
      { exists []. cbn. split; [|auto]. rewrite skipn_all2; [reflexivity|]. unfold zlen in *. lia. }
      split; [intros _; exists []; now left|]. intros [|[|i]] o e; cbn; try discriminate. intros [= <- <-]. right. auto.
    + set (m := Z.min k (zlen es - p)). destruct (IH s (p + m) Hd ltac:(lia) Hk2) as (out & EO & (rest & ER & EE) & EX & EN).
      unfold bind. rewrite EO. unfold ret. exists ((slice p m es, None) :: out). split; [reflexivity|].
      assert (Z.to_nat (p + m) = Z.to_nat p + Z.to_nat m)%nat as Epm by lia.
      split.
      { exists rest. cbn [map concat fst]. rewrite <- app_assoc, <- ER. split.
        - unfold slice. rewrite Epm, Nat.add_comm, <- skipn_skipn. symmetry. apply firstn_skipn.
        - intros [o [X|X]]; [discriminate|]. apply EE. eauto. }
      split; [cbn [length]; intros; destruct EX as [o Ho]; [unfold zlen in *; lia|]; exists o; now right|].
      intros [|i] o e; cbn [nth_error nth].
      * intros [= <- <-]. left. rewrite zlen_slice by lia. split; [reflexivity|lia].
      * intros X. destruct (EN i o e X) as [Y|(Y1 & Y2 & Y3)]; [left; exact Y|right]. cbn [length]. auto.
Qed.
(* the entries of a listing *)
Lemma entries_names x names : names_right im -> forall acc s s1 es, read_entries im x names acc s = Done s1 (es, None) ->
  map de_name es = map de_name acc ++ filter (fun n => negb (is_dots n)) names.
Proof.
  intros HN. induction names as [|n ns IH]; intros acc s s1 es; cbn [read_entries filter].
  - intros [= <- <-]. now rewrite app_nil_r.
  - destruct (is_dots n); cbn [negb]; [apply IH|]. unfold bind at 1, get_object. destruct (meth x); [|discriminate].
    destruct (i_get im (d_fs s) n (x_h x)) as [fs [h|e]] eqn:EG; [|discriminate]. unfold fresh.
    cbn [emit d_next]. unfold bind, close. cbn [raw meth x_mode]. intros E. apply IH in E. rewrite E, map_app, <- app_assoc. cbn.
    now rewrite (HN _ _ _ _ _ EG).
Qed.
Lemma is_dots_spec n : is_dots n = false <-> not_dots n.
Proof.
  unfold is_dots, not_dots. rewrite orb_false_iff. split; intros [A B]; split.
  - intros ->. now rewrite beqb_refl in A.
  - intros ->. now rewrite beqb_refl in B.
  - now apply beqb_neq.
  - now apply beqb_neq.
Qed.
Lemma read_dir_obj_names x s s1 es : names_right im -> read_dir_obj im x s = Done s1 (es, None) ->
  exists fs names, h_listdir im (d_fs s) (x_h x) = Some (fs, inl names) /\ map de_name es = filter (fun n => negb (is_dots n)) names.
Proof.
  intros HN. unfold read_dir_obj, bind, list_dir. destruct (opt_meth x); [|discriminate].
  destruct (h_listdir im (d_fs s) (x_h x)) as [[fs [names|e]]|]; try discriminate. intros E.
  apply (entries_names x names HN) in E. eauto.
Qed.
End Pages.
