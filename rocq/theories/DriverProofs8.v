(** * DriverProofs8: WriteFile, ReadFile, RemoveAll on entries of the root of the in-memory file system *)
From Verif Require Import GoBase ListZ Errors Flags GoPath Spec_Path GoPathProofs BlockCache Spec_BlockCache BlockCacheProofs
  BlockCacheProofs2 BasicStream Spec_BasicStream BasicStreamProofs Driver Spec_Driver DriverProofs DriverProofs2 DriverProofs3 DriverProofs4
  DriverProofs5 DriverProofs6 DriverProofs7.

Lemma lookup_in_set n m v es : m <> n -> lookup_in m (set_in n (Some v) es) = lookup_in m es.
Proof.
  intros Hmn. induction es as [|[k x] es IH]; cbn; [reflexivity|]. destruct (beqb k n) eqn:E; cbn; destruct (beqb k m) eqn:E2; auto.
  apply beqb_eq in E, E2. congruence.
Qed.
Lemma lookup_in_app n es es' : lookup_in n (es ++ es') = match lookup_in n es with Some x => Some x | None => lookup_in n es' end.
Proof. induction es as [|[k x] es IH]; cbn; [reflexivity|]. now destruct (beqb k n). Qed.
Lemma norm_canon w ns : Forall proper ns -> normalize_path w (render ns) = render ns.
Proof.
  intros Hf. unfold normalize_path. rewrite clean_render by (eapply Forall_impl; [|exact Hf]; intros; now apply name_proper).
  destruct (render_abs ns) as (q & E & _). rewrite E. reflexivity.
Qed.
Lemma norm_one w n : proper n -> normalize_path w (render [n]) = render [n].
Proof. intros. apply norm_canon. auto. Qed.

Section MemOps.
Variable bs : Z.
Hypothesis Hbs : 0 < bs < 2^62.
Notation fs := (memfs bs).
Variables (wm : wmode) (d : drv).
Hypothesis Hwm : wm <> AsIs.

(* what resolving "/n" does when n is not a link *)
Lemma mem_following f n es s : proper n -> d_fs s = NDir es -> (forall text, lookup_in n es <> Some (NLink text)) ->
  exists s' id, d_fs s' = NDir es /\
    following fs wm d (S (S (S (S f)))) (render [n]) s =
      Done s' (match lookup_in n es with Some _ => inl (mkX id (render [n]) wm [n]) | None => inr (K ErrNotFound) end).
Proof.
  intros Hn Hs Hl. apply name_proper in Hn.
  rewrite (following_one fs wm d Hwm f n s (mem_root_ok bs es s Hs) Hn).
  - unfold entry_res, entry_call. cbn [memfs i_root i_get fst snd h_close]. rewrite Hs. cbn [lookup app].
    destruct (lookup_in n es) eqn:EL; (eexists; exists (S (d_next s)); split; [|reflexivity]); reflexivity.
  - unfold entry_res, entry_call. cbn [memfs i_root i_get fst snd h_close]. rewrite Hs. cbn [lookup app].
    destruct (lookup_in n es) eqn:EL; intros s' x [= <- <-]. rewrite mem_is_symlink. cbn [d_fs x_h]. unfold mem_node. cbn. rewrite EL.
    destruct n0; auto. now destruct (Hl target).
Qed.
Lemma mem_is_file t h : is_file (h_stat fs t h) = match mem_node t h with NFile _ => true | _ => false end.
Proof. unfold is_file. cbn. destruct (mem_node t h); reflexivity. Qed.

Lemma write_file_mem f n D perm es s : proper n -> d_fs s = NDir es -> can_write (mount d) = true -> stat_is_dir perm = false ->
  (forall x, lookup_in n es = Some x -> exists b, x = NFile b /\ zlen b + bs < 2^63) -> zlen D + bs < 2^62 ->
  let N := ceil_div (zlen D) bs in
  exists s' es', d_fs s' = NDir es' /\ (forall m, m <> n -> lookup_in m es' = lookup_in m es) /\
  if zlen D mod bs =? 0 then
    write_file fs wm d (S (S (S (S f)))) (render [n]) D perm s = Done s' (inr (K ErrArgumentOutOfRange)) /\ lookup_in n es' = Some (NFile (zrepeat 0 N))
  else
    write_file fs wm d (S (S (S (S f)))) (render [n]) D perm s = Done s' (inl tt) /\ lookup_in n es' = Some (NFile (slice 0 N D)).
Proof.
  intros Hn Hs Hw Hp Hold HD N.
  assert (exists s1 x es1 st, open_file fs wm d (S (S (S (S f)))) (render [n]) wflags perm s = Done s1 (inl (wfile bs x st)) /\
     x_h x = [n] /\ meth x = true /\ (exists e0, lookup_in n es1 = Some e0) /\ has (NDir es1) x s1 [] /\ forall m, m <> n -> lookup_in m es1 = lookup_in m es) as HO.
  { unfold open_file. change (io_requires_write_perm wflags) with true. rewrite Hw. cbn [negb andb]. cbv iota. unfold norm. rewrite norm_one by exact Hn.
    destruct (mem_following f n es s Hn Hs) as (s1 & id & Hs1 & E).
    { intros text El. destruct (Hold _ El) as (b & Hb & _). discriminate. }
    erewrite bind_done by exact E. destruct (lookup_in n es) as [x0|] eqn:El.
    - destruct (Hold _ eq_refl) as (b & -> & Hb). set (x := mkX id (render [n]) wm [n]).
      assert (meth x = true) as Hm by (unfold x, meth; cbn; now destruct wm).
      erewrite try_done by reflexivity. rewrite bind_stat by exact Hm. rewrite mem_is_file. unfold mem_node. rewrite Hs1. cbn [x x_h lookup]. rewrite El. cbn [negb].
      destruct (new_file_mem bs Hbs (NDir es) (NFile b) x ltac:(cbn; now rewrite El) Hm s1 b) as (s2 & E2 & H2); auto.
      { unfold has. rewrite Hs1. cbn. f_equal. clear - El. induction es as [|[m w] es IH]; cbn in *; [discriminate|].
        destruct (beqb m n) eqn:Em; [congruence|]. now rewrite <- IH. }
      exists s2, x, es. eexists. split; [exact E2|]. split; [reflexivity|]. split; [exact Hm|]. split; [eauto|]. split; [exact H2|]. reflexivity.
    - change (io_create wflags) with true. cbv iota. rewrite split_one by now apply name_proper.
      pose proof (following_root fs wm d Hwm (S (S f)) s1 (mem_root_ok bs es s1 Hs1)) as ER.
      set (x := mkX (S (d_next s1)) (render [n]) wm [n]). set (es1 := es ++ [(n, NFile [])]).
      assert (meth x = true) as Hm by (unfold x, meth; cbn; now destruct wm).
      assert (exists s2, (p <-? following fs wm d (S (S (S (S f)))) [47];; o <- create_ext fs wm n p perm;; (_ <- close fs p;; ret o)) s1 = Done s2 (inl x) /\ d_fs s2 = NDir es1) as (s2 & E2 & H2).
      { erewrite try_done by exact ER. unfold bind at 1, create_ext, try, bind at 1, create_object.
        rewrite (meth_root_h fs wm Hwm s1). cbn [root_state root_h memfs i_create i_root fst snd d_fs x_h]. rewrite Hs1. cbn [mem_node lookup]. rewrite Hp.
        unfold mem_node. cbn [lookup update].
        unfold fresh, ret. cbn [emit d_next d_log root_state d_fs x_path root_h fst snd].
        assert (join [47] n = render [n]) as EJ by (change [47] with (render []); apply (join_name [] n); [constructor|now apply name_proper]).
        rewrite EJ. unfold bind. rewrite close_eq by (unfold meth; cbn; now destruct wm). eexists. split; [reflexivity|]. reflexivity. }
      erewrite try_done by exact E2. rewrite bind_stat by exact Hm. rewrite mem_is_file. unfold mem_node. rewrite H2. cbn [x x_h lookup es1].
      assert (lookup_in n es1 = Some (NFile [])) as El1 by (unfold es1; rewrite lookup_in_app, El; cbn; now rewrite beqb_refl).
      fold es1. rewrite El1. cbn [negb].
      destruct (new_file_mem bs Hbs (NDir es1) (NFile []) x ltac:(cbn; now rewrite El1) Hm s2 []) as (s3 & E3 & H3); auto.
      { unfold has. rewrite H2. cbn. f_equal. clear - El1. generalize dependent es1. induction es1 as [|[m w] es1 IH]; cbn in *; [discriminate|]. intros El.
        destruct (beqb m n) eqn:Em; [congruence|]. now rewrite <- IH. }
      { cbn. lia. }
      exists s3, x, es1. eexists. split; [exact E3|]. split; [reflexivity|]. split; [exact Hm|]. split; [eauto|]. split; [exact H3|].
      intros m Hmn. unfold es1. rewrite lookup_in_app. destruct (lookup_in m es); [reflexivity|]. cbn. rewrite beqb_neq; congruence. }
  destruct HO as (s1 & x & es1 & st & EO & Hxh & Hm & (e0 & He0) & Hh & Hes1).
  unfold write_file. erewrite try_done by exact EO.
  destruct (write_close_mem bs Hbs (NDir es1) e0 x ltac:(rewrite Hxh; cbn; now rewrite He0) Hm s1 st D Hh HD) as (s' & r & E & HR).
  rewrite E. fold N in HR.
  assert (forall b, has (NDir es1) x s' b -> d_fs s' = NDir (set_in n (Some (NFile b)) es1)) as HH by (intros b Hb; unfold has in Hb; now rewrite Hb, Hxh).
  destruct (zlen D mod bs =? 0); destruct HR as [-> Hb]; exists s'; eexists; (split; [exact (HH _ Hb)|]); (split; [intros m Hmn; rewrite lookup_in_set by exact Hmn; now apply Hes1|]);
    (split; [reflexivity|]); apply set_in_get; congruence.
Qed.

Lemma read_file_mem f n es s b : proper n -> d_fs s = NDir es -> lookup_in n es = Some (NFile b) -> zlen b + bs < 2^63 ->
  exists s', d_fs s' = NDir es /\ read_file fs wm d (S (S (S (S f)))) (render [n]) s = Done s' (inl b).
Proof.
  intros Hn Hs El Hb. unfold read_file, norm. rewrite norm_one by exact Hn.
  destruct (mem_following f n es s Hn Hs ltac:(intros; congruence)) as (s1 & id & Hs1 & E). rewrite El in E. erewrite try_done by exact E.
  set (x := mkX id (render [n]) wm [n]) in *. assert (meth x = true) as Hm by (unfold x, meth; cbn; now destruct wm).
  assert (mem_node (d_fs s1) (x_h x) = NFile b) as EN by (rewrite Hs1; unfold mem_node; cbn; now rewrite El).
  destruct (mem_contents bs Hbs x s1 Hm) as (s2 & E2 & H2 & _). { rewrite EN. exact Hb. }
  rewrite EN in E2. erewrite defer_done by (exact Hm || exact E2). eexists. split; [|reflexivity]. cbn. now rewrite H2.
Qed.
End MemOps.

Section MemRmAll.
Variable bs : Z.
Notation fs := (memfs bs).
Variable (d : drv).
Lemma remove_all_mem f n sub es s : proper n -> d_fs s = NDir es -> lookup_in n es = Some (NDir sub) -> tree_ok (S (S (S (S f)))) (NDir sub) ->
  exists s', remove_all fs Full d (S (S (S (S f)))) (render [n]) s = Done s' (inl tt) /\ d_fs s' = NDir (set_in n (Some (NDir [])) es).
Proof.
  intros Hn Hs El Hok. unfold remove_all, norm. rewrite norm_one by exact Hn.
  destruct (mem_following bs Full d ltac:(discriminate) f n es s Hn Hs ltac:(intros; congruence)) as (s1 & id & Hs1 & E). rewrite El in E. erewrite try_done by exact E.
  set (x := mkX id (render [n]) Full [n]) in *.
  assert (lookup (d_fs s1) (x_h x) = Some (NDir sub)) as EL by (rewrite Hs1; cbn; now rewrite El).
  assert (exists s2, (st <- stat fs x;; (if negb (is_dir st) then ret (inr (K ErrNotADirectory)) else r <- get_root fs;; (fun s2 =>
     if h_same fs (d_fs s2) (snd r) (x_h x) then Done s2 (inr (K ErrPermissionDenied)) else remove_directory fs Full (S (S (S (S f)))) x s2))) s1
     = Done s2 (inl tt) /\ d_fs s2 = NDir (set_in n (Some (NDir [])) es)) as (s2 & E2 & H2).
  { rewrite bind_stat by reflexivity. rewrite mem_is_dir. unfold mem_node. rewrite EL. cbn [negb]. unfold bind at 1, get_root, fresh. cbn [memfs i_root h_same].
    cbn [snd x x_h]. destruct (list_eq_dec (list_eq_dec Z.eq_dec) [] [n]) as [Q|_]; [discriminate|].
    edestruct (rmdir_mem bs (S (S (S (S f)))) (NDir es) x sub) as (s2 & E2 & H2); [| | | |exists s2; split; [exact E2|]].
    - cbn. exact Hs1.
    - reflexivity.
    - rewrite <- Hs1. exact EL.
    - exact Hok.
    - rewrite H2. reflexivity. }
  erewrite defer_done by (reflexivity || exact E2). eexists. split; [reflexivity|]. cbn. exact H2.
Qed.
End MemRmAll.
