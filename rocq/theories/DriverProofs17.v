(** * DriverProofs17: Create and OpenFile with O_CREATE on a missing name. *)
From Coq Require Import String.
From Verif Require Import GoBase ListZ Errors Flags GoPath Spec_Path GoPathProofs BlockCache Spec_BlockCache BlockCacheProofs
  BlockCacheProofs2 BasicStream Spec_BasicStream BasicStreamProofs Driver Spec_Driver DriverProofs DriverProofs2 DriverProofs3 DriverProofs4
  DriverProofs5 DriverProofs6 DriverProofs7 DriverProofs8.

Section MemCreate.
Variable bs : Z.
Hypothesis Hbs : 0 < bs < 2^62.
Notation fs := (memfs bs).
Variables (wm : wmode) (d : drv).
Hypothesis Hwm : wm <> AsIs.
Lemma set_in_self n b es : lookup_in n es = Some (NFile b) -> set_in n (Some (NFile b)) es = es.
Proof.
  induction es as [|[m w] es IH]; cbn; [discriminate|]. destruct (beqb m n) eqn:Em; [congruence|]. intros E. now rewrite IH.
Qed.
Lemma open_missing f n fl perm es s : proper n -> d_fs s = NDir es -> lookup_in n es = None -> io_create fl = true -> io_truncate fl = false ->
  (io_requires_write_perm fl = true -> can_write (mount d) = true) -> stat_is_dir perm = false ->
  exists s' x st, open_file fs wm d (S (S (S (S f)))) (render [n]) fl perm s = Done s' (inl (mkFile (mkStream 0 0 (nocache bs) fl) x st fl None 0)) /\
    d_fs s' = NDir (es ++ [(n, NFile [])]) /\ x_h x = [n] /\ meth x = true.
Proof.
  intros Hn Hs El Hc Ht Hw Hp. unfold open_file.
  replace (io_requires_write_perm fl && negb (can_write (mount d))) with false by (destruct (io_requires_write_perm fl); [rewrite Hw|]; reflexivity).
  unfold norm. rewrite norm_one by exact Hn.
  destruct (mem_following bs wm d Hwm f n es s Hn Hs) as (s1 & id & Hs1 & E); [intros; congruence|].
  erewrite bind_done by exact E. rewrite El. rewrite Hc. cbv iota. rewrite split_one by now apply name_proper.
  pose proof (following_root fs wm d Hwm (S (S f)) s1 (mem_root_ok bs es s1 Hs1)) as ER.
  set (x := mkX (S (d_next s1)) (render [n]) wm [n]). set (es1 := es ++ [(n, NFile [])]).
  assert (meth x = true) as Hm by (unfold x, meth; cbn; now destruct wm).
  assert (exists s2, (p <-? following fs wm d (S (S (S (S f)))) [47];; o <- create_ext fs wm n p perm;; (_ <- close fs p;; ret o)) s1 = Done s2 (inl x) /\ d_fs s2 = NDir es1) as (s2 & E2 & H2).
  { erewrite try_done by exact ER. unfold bind at 1, create_ext, try, bind at 1, create_object.
    rewrite (meth_root_h fs wm Hwm s1). cbn [root_state root_h memfs i_create i_root fst snd d_fs x_h]. rewrite Hs1. cbn [mem_node lookup]. rewrite Hp.
    unfold mem_node. cbn [lookup update].
    unfold fresh, ret. cbn [emit d_next d_log root_state d_fs x_path root_h fst snd].
    assert (join [47] n = render [n]) as EJ by (change [47] with (render []); apply (join_name [] n); [constructor|now apply name_proper]).
    rewrite EJ. unfold bind. rewrite close_eq by (unfold meth; cbn; now destruct wm). eexists. split; [reflexivity|]. reflexivity. }
  erewrite try_done by exact E2. rewrite bind_stat by exact Hm. rewrite mem_is_file. unfold mem_node. rewrite H2. cbn [x x_h lookup es1].
  assert (lookup_in n es1 = Some (NFile [])) as El1 by (unfold es1; rewrite lookup_in_app, El; cbn; now rewrite beqb_refl).
  fold es1. rewrite El1. cbn [negb].
  unfold new_file. rewrite bind_stat by exact Hm. cbn [memfs h_stat]. unfold mem_stat, mem_node. rewrite H2. cbn [x x_h lookup]. rewrite El1.
  cbn [node_bytes f_size f_bsize f_nblocks]. change (zlen (@nil Z)) with 0. unfold ceil_div. rewrite Z.add_0_l, (Z.div_small (bs - 1) bs) by lia.
  rewrite !u64_small by lia. assert (new_fits bs 0 = true) as -> by (unfold new_fits; rewrite Z.mul_0_r; reflexivity). cbn [negb]. unfold s_new, size, new_cache. cbn [bpb total]. rewrite Z.mul_0_r. change (i64 0) with 0. cbn [Z.ltb Z.gtb Z.compare orb].
  rewrite Ht. do 3 eexists. split; [reflexivity|]. auto.
Qed.
(* the file just made: empty, and ready for what it was opened for *)
Lemma fresh_read fl x st s buf : 0 < zlen buf -> 
  fl_read fs (mkFile (mkStream 0 0 (nocache bs) fl) x st fl None 0) buf s =
    Done s (mkFile (mkStream 0 0 (nocache bs) fl) x st fl None 0, buf, 0, Some (if io_read fl then KEOF else K ErrNotPermitted)).
Proof.
  intros Hb. unfold fl_read, s_read, s_read_at. cbn [fl_obj fl_stream sflags spos ssize]. destruct (io_read fl); cbn [negb]; [|reflexivity].
  replace (zlen buf =? 0) with false by lia. reflexivity.
Qed.
Lemma fresh_truncate fl x st s es n : d_fs s = NDir es -> lookup_in n es = Some (NFile []) -> x_h x = [n] -> meth x = true -> io_synchronous fl = false ->
  exists s' f', fl_truncate fs (mkFile (mkStream 0 0 (nocache bs) fl) x st fl None 0) 0 s = Done s' (f', if io_write fl then None else Some (K ErrNotPermitted)) /\ d_fs s' = NDir es.
Proof.
  intros Hs El Hx Hm Hsy. unfold fl_truncate, s_truncate. cbn [fl_obj fl_stream sflags]. destruct (io_write fl) eqn:Ew; cbn [negb]; [|eauto].
  cbn [Z.ltb Z.compare].
  unfold min_blocks. cbn [scache nocache bpb]. replace (bs =? 0) with false by lia. rewrite (u64_small 0) by lia. rewrite Z.add_0_l, (u64_small bs) by lia.
  rewrite (u64_small (bs - 1)) by lia. rewrite (Z.div_small (bs - 1) bs) by lia.
  assert (has (NDir es) x s []) as Hh. { unfold has. rewrite Hs, Hx. cbn. now rewrite set_in_self. }
  destruct (resize_mem bs (NDir es) (NFile []) x ltac:(rewrite Hx; cbn; now rewrite El) s [] 0 Hh ltac:(lia)) as (s' & E & Hs').
  erewrite (resize_zero (obj_callbacks fs x) bs) by (cbn [nocache bpb total]; first [reflexivity | lia | exact E]).
  rewrite Hsy. do 2 eexists. split; [reflexivity|]. unfold has in Hs'. rewrite Hs', Hx. cbn. now rewrite set_in_self.
Qed.
End MemCreate.
