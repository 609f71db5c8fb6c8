(** * Props_FatChain: C76 for every implementation, failures included *)
From Verif Require Import GoBase ListZ Errors FatBoot FatDirent FatDriver Spec_Fat Spec_FatChain Props_Fat.

(* listClusters, whenever it returns: all clusters up to the end marker; or an entry of the table could not be read:
   no clusters and that error; or an entry is not valid: the clusters up to it and ErrFileSystemCorrupted *)
Theorem C76_listing {F} (fi : fatimpl F) fuel c s s' l r : listClusters fi fuel c s = FDone s' (l, r) -> fi_valid fi (x_fs s) c = true ->
  x_log s' = x_log s /\
  exists cs fs2 c2, trail fi (x_fs s) c cs fs2 c2 /\
    ((fi_eoc fi fs2 c2 = true /\ l = cs /\ r = None /\ x_fs s' = fs2) \/
     (fi_eoc fi fs2 c2 = false /\ exists e, fi_get fi fs2 c2 = (x_fs s', inr e) /\ l = [] /\ r = Some e) \/
     (fi_eoc fi fs2 c2 = false /\ exists c3, fi_get fi fs2 c2 = (x_fs s', inl c3) /\ fi_valid fi (x_fs s') c3 = false /\ l = cs ++ [c2] /\ r = Some (K ErrFileSystemCorrupted))).
Proof.
  intros E Hv. unfold listClusters, fbind, pureF in E. rewrite Hv in E.
  assert (forall fuel c acc s, chain_loop fi fuel c acc s = FDone s' (l, r) -> x_log s' = x_log s /\ exists cs fs2 c2, trail fi (x_fs s) c cs fs2 c2 /\
    ((fi_eoc fi fs2 c2 = true /\ l = acc ++ cs /\ r = None /\ x_fs s' = fs2) \/
     (fi_eoc fi fs2 c2 = false /\ exists e, fi_get fi fs2 c2 = (x_fs s', inr e) /\ l = [] /\ r = Some e) \/
     (fi_eoc fi fs2 c2 = false /\ exists c3, fi_get fi fs2 c2 = (x_fs s', inl c3) /\ fi_valid fi (x_fs s') c3 = false /\ l = acc ++ cs ++ [c2] /\ r = Some (K ErrFileSystemCorrupted)))) as HA;
    [|exact (HA fuel c [] s E)].
  clear. induction fuel as [|f IH]; intros c acc s; cbn [chain_loop]; [discriminate|]. unfold fbind at 1, pureF at 1. destruct (fi_eoc fi (x_fs s) c) eqn:He.
  { intros [= <- <- <-]. split; [reflexivity|]. exists [], (x_fs s), c. split; [constructor|]. left. rewrite app_nil_r. auto. }
  unfold fbind at 1, get_cluster. destruct (fi_get fi (x_fs s) c) as [fs1 [c1|e]] eqn:Eg.
  - unfold fbind, pureF. cbn [x_fs]. destruct (fi_valid fi fs1 c1) eqn:Hv.
    + intros E. apply IH in E as (HL & cs & fs2 & c2 & T & R). cbn [x_log x_fs] in *. split; [exact HL|]. exists (c :: cs), fs2, c2. split; [econstructor; eauto|].
      rewrite <- !app_assoc in R. exact R.
    + intros [= <- <- <-]. split; [reflexivity|]. exists [], (x_fs s), c. split; [constructor|]. right. right. split; [exact He|]. exists c1. cbn [x_fs]. auto.
  - intros [= <- <- <-]. split; [reflexivity|]. exists [], (x_fs s), c. split; [constructor|]. right. left. split; [exact He|]. exists e. auto.
Qed.
(* getClusterInChain: always returns; the cluster reached by that many links, or what the first link that cannot be
   followed says: its read error, the end of the chain, or an invalid number *)
Theorem C76_nth {F} (fi : fatimpl F) c i s : exists s' r, getClusterInChain fi c i s = FDone s' r /\ x_log s' = x_log s /\
  ((exists x, r = inl x /\ hops fi i (x_fs s) c (x_fs s') x) \/
   (exists k fs2 c2, (k < i)%nat /\ hops fi k (x_fs s) c fs2 c2 /\
     ((exists e, fi_get fi fs2 c2 = (x_fs s', inr e) /\ r = inr e) \/
      (exists c3, fi_get fi fs2 c2 = (x_fs s', inl c3) /\
        r = inr (K (if fi_eoc fi (x_fs s') c3 then ErrInvalidArgument else ErrFileSystemCorrupted)) /\
        (fi_eoc fi (x_fs s') c3 = false -> fi_valid fi (x_fs s') c3 = false))))).
Proof.
  unfold getClusterInChain. revert c s. induction i as [|i IH]; intros c s; cbn [nth_loop].
  { exists s, (inl c). split; [reflexivity|]. split; [reflexivity|]. left. exists c. split; [reflexivity|constructor]. }
  unfold ftry, fbind, get_cluster, pureF. destruct (fi_get fi (x_fs s) c) as [fs1 [c1|e]] eqn:Eg.
  2:{ do 2 eexists. split; [reflexivity|]. split; [reflexivity|]. right. exists O, (x_fs s), c. split; [lia|]. split; [constructor|]. left. exists e. auto. }
  cbn [x_fs]. destruct (fi_eoc fi fs1 c1) eqn:He.
  { do 2 eexists. split; [reflexivity|]. split; [reflexivity|]. right. exists O, (x_fs s), c. split; [lia|]. split; [constructor|]. right. exists c1. cbn [x_fs]. rewrite He. split; [exact Eg|]. split; [reflexivity|discriminate]. }
  cbn [x_fs]. destruct (fi_valid fi fs1 c1) eqn:Hv.
  2:{ do 2 eexists. split; [reflexivity|]. split; [reflexivity|]. right. exists O, (x_fs s), c. split; [lia|]. split; [constructor|]. right. exists c1. cbn [x_fs]. rewrite He. auto. }
  destruct (IH c1 (mkFs fs1 (x_log s))) as (s' & r & E & HL & R). cbn [x_fs x_log] in *. exists s', r. split; [exact E|]. split; [exact HL|].
  destruct R as [(x & -> & Hh)|(k & fs2 & c2 & Hk & Hh & R)]; [left; exists x; split; [reflexivity|econstructor; eauto]|right].
  exists (S k), fs2, c2. split; [lia|]. split; [econstructor; eauto|exact R].
Qed.
(* the chain 2, 3 and then an entry that cannot be read; a state that counts the reads *)
Definition sick_fi : fatimpl Z :=
  mkFat (fun _ => ex_boot) (fun n c => (n + 1, if c =? 3 then inr KEOF else inl (ex_next c))) (fun _ c => ex_valid c) (fun _ c => ex_eoc c) (fun n => (n, inl []))
    (fun n _ => (n, None)) (fun n _ => (n, None)) (fun n _ _ => (n, None)) (fun n off k => (n, ([], k, None))).
Example C76_sick_example : let s := mkFs 0 [] in
  listClusters sick_fi 9 2 s = FDone (mkFs 2 []) ([], Some KEOF) /\ getClusterInChain sick_fi 2 1 s = FDone (mkFs 1 []) (inl 3) /\
  getClusterInChain sick_fi 2 5 s = FDone (mkFs 2 []) (inr KEOF) /\ fi_valid sick_fi 0 2 = true.
Proof. vm_compute. auto. Qed.
Print Assumptions C76_listing.
Print Assumptions C76_nth.
