(** * FatProofs2: directory entries, cluster chains, path lookup *)
From Coq Require Import String.
From Verif Require Import GoBase ListZ Errors Flags GoPath Spec_Path GoPathProofs BlockCache BasicStream Driver FatBoot FatDirent FatDriver Spec_Fat FatProofs.
From Coq Require ListDec.
Local Open Scope fat_scope.

(** ** Directory entries *)
Lemma timestamp_total v tv hu : exists t, TimestampFromParts true v tv hu = Ret t.
Proof. unfold TimestampFromParts, DateFromInt. cbn [obind]. destruct (hu >=? 100); eexists; reflexivity. Qed.
Lemma timestamp_asis v tv hu : TimestampFromParts false v tv hu = Panic.
Proof. reflexivity. Qed.
Lemma trim_spaces k : trim_right (repeat 32 k) = [].
Proof. induction k as [|k IH]; [reflexivity|]. cbn [repeat trim_right]. now rewrite IH. Qed.
Lemma trim_unpadded l n : unpadded l n -> trim_right l = n.
Proof.
  intros (k & -> & Hn). unfold zrepeat. induction n as [|c n IH]; [apply trim_spaces|]. cbn [app trim_right].
  assert (n = [] \/ last n 0 <> 32) as Hn'.
  { destruct Hn as [|Hn]; [discriminate|]. destruct n as [|c' n]; [now left|right; exact Hn]. }
  rewrite IH by exact Hn'. destruct n as [|c' n]; [|reflexivity]. destruct Hn as [|Hn]; [discriminate|]. cbn in Hn. destruct (c =? 32) eqn:E; [lia|reflexivity].
Qed.
Lemma unpadded_exists l : exists n, unpadded l n.
Proof.
  induction l as [|c l (n & k & -> & Hn)]; [exists [], 0; split; [reflexivity|now left]|]. destruct n as [|c' n].
  - destruct (Z.eq_dec c 32) as [->|Hc].
    + exists [], (Z.of_nat (S (Z.to_nat k))). split; [|now left]. unfold zrepeat. rewrite Nat2Z.id. reflexivity.
    + exists [c], k. split; [reflexivity|now right].
  - exists (c :: c' :: n), k. split; [reflexivity|]. right. destruct Hn as [|Hn]; [discriminate|exact Hn].
Qed.
Lemma join_cluster hi lo : 0 <= hi < 2^16 -> 0 <= lo < 2^16 -> Z.lor (u32 (Z.shiftl hi 16)) lo = hi * 2^16 + lo.
Proof.
  intros Hh Hl. rewrite Z.shiftl_mul_pow2 by lia. unfold u32. rewrite Z.mod_small by lia. enough (Z.land (hi * 2^16) lo = 0) as E0 by now rewrite <- Z.lxor_lor, <- Z.add_nocarry_lxor.
  apply Z.bits_inj'. intros i Hi. rewrite Z.land_spec, Z.bits_0. destruct (Z_lt_ge_dec i 16) as [Hlt|Hge].
  - rewrite Z.mul_pow2_bits_low by lia. reflexivity.
  - rewrite (Z.bits_above_log2 lo i); [apply andb_false_r|lia|]. destruct (Z.eq_dec lo 0) as [->|]; [cbn; lia|]. assert (Z.log2 lo < 16) by (apply Z.log2_lt_pow2; lia). lia.
Qed.
Lemma new_dirent_ok bpc r n c rest e : 0 < bpc < 2^63 -> 0 <= r_size r < 2^32 -> 0 <= r_high r < 2^16 -> 0 <= r_low r < 2^16 ->
  unpadded (r_name r) n -> unpadded (r_ext r) e -> n = c :: rest -> c <> 0 ->
  exists d, new_dirent true bpc r = Ret (inl d) /\
    de_name d = (first_char (r_cmillis r) c :: rest) ++ (match e with [] => [] | _ => 46 :: e end) /\
    de_attr d = r_attr r /\ de_first d = r_high r * 2^16 + r_low r /\ de_deleted d = (c =? 0xE5) /\ de_size d = r_size r /\ de_mode d = AttrFlagsToFileMode (r_attr r) /\
    f_size (de_stat d) = r_size r /\ f_mode (de_stat d) = AttrFlagsToFileMode (r_attr r) /\ f_ino (de_stat d) = r_high r * 2^16 + r_low r /\ f_bsize (de_stat d) = bpc /\
    f_nblocks (de_stat d) = (r_size r + bpc - 1) / bpc /\ f_deleted (de_stat d) = 0 /\
    TimestampFromParts true (r_mdate r) (r_mtime r) 0 = Ret (f_modified (de_stat d)) /\ DateFromInt true (r_adate r) = Ret (f_accessed (de_stat d)) /\
    (c <> 0xE5 -> TimestampFromParts true (r_cdate r) (r_ctime r) (r_cmillis r) = Ret (f_created (de_stat d))).
Proof.
  intros Hb Hs Hh Hl Hn He -> Hc. unfold new_dirent. destruct (timestamp_total (r_mdate r) (r_mtime r) 0) as [t1 E1]. rewrite E1. cbn [obind].
  assert (i64 bpc = bpc) as EB by (unfold i64; rewrite Z.mod_small; lia). rewrite EB. rewrite (proj2 (Z.eqb_neq bpc 0)) by lia.
  assert (znth 0 (r_name r) 0 = c) as EN by (destruct Hn as (k & -> & _); reflexivity). rewrite EN.
  rewrite (trim_unpadded _ _ Hn), (trim_unpadded _ _ He), join_cluster by assumption. rewrite (proj2 (Z.eqb_neq c 0)) by assumption.
  destruct (timestamp_total (r_cdate r) (r_ctime r) (r_cmillis r)) as [t2 E2].
  assert (exists tc, (if c =? 229 then Ret unixZero else TimestampFromParts true (r_cdate r) (r_ctime r) (r_cmillis r)) = Ret tc /\ (c <> 0xE5 -> TimestampFromParts true (r_cdate r) (r_ctime r) (r_cmillis r) = Ret tc)) as (tc & E3 & Ht).
  { destruct (c =? 229) eqn:EC; [exists unixZero; split; [reflexivity|lia]|exists t2; auto]. }
  rewrite E3. cbn [obind]. unfold DateFromInt at 1. cbn [obind].
  eexists. split; [reflexivity|]. cbn [de_name de_attr de_first de_deleted de_size de_mode de_stat f_size f_mode f_ino f_bsize f_nblocks f_deleted f_modified f_accessed f_created].
  split. { unfold first_char. destruct e as [|c' e]; cbn [beqb]; [now rewrite app_nil_r|]. reflexivity. }
  split; [reflexivity|]. split; [reflexivity|]. split; [reflexivity|]. split; [reflexivity|]. split; [reflexivity|]. split; [reflexivity|]. split; [reflexivity|]. split; [reflexivity|]. split; [reflexivity|].
  split. { rewrite Z.quot_div_nonneg, Z.rem_mod_nonneg by lia. pose proof (Z.div_mod (r_size r) bpc ltac:(lia)) as DM. pose proof (Z.mod_pos_bound (r_size r) bpc ltac:(lia)) as MB.
    destruct (r_size r mod bpc =? 0) eqn:EM; cbn [negb].
    - apply (Z.div_unique _ _ _ (bpc - 1)); lia.
    - apply (Z.div_unique _ _ _ (r_size r mod bpc - 1)); lia. }
  split; [reflexivity|]. split; [reflexivity|]. split; [reflexivity|exact Ht].
Qed.
Lemma new_dirent_asis bpc r : new_dirent false bpc r = Panic.
Proof. reflexivity. Qed.
Lemma attr_not_dir flags : Z.land (AttrFlagsToFileMode flags) ModeDir = 0.
Proof. unfold AttrFlagsToFileMode. destruct (negb _), (negb _); try destruct (negb _); reflexivity. Qed.

(** ** Cluster chains *)
Lemma NoDup_app_snoc_ (l : list Z) x : NoDup l -> ~ In x l -> NoDup (l ++ [x]).
Proof. intros H1 H2. apply (NoDup_Add (a := x) (l := l)); [rewrite <- (app_nil_r l) at 1; apply Add_app|auto]. Qed.
Section Chains.
Context {F : Type} (fi : fatimpl F).
Variables (next : Z -> Z) (valid eoc : Z -> bool) (s : fstate F).
Hypothesis HF : fat_is fi (x_fs s) next valid eoc.
Lemma loop_S f cur acc : chain_loop fi (S f) cur acc s =
  if eoc cur then FDone s (acc, None)
  else if valid (next cur) then chain_loop fi f (next cur) (acc ++ [cur]) s else FDone s (acc ++ [cur], Some (K ErrFileSystemCorrupted)).
Proof.
  destruct HF as (HG & HV & HE). cbn [chain_loop]. unfold fbind, pureF at 1. rewrite HE. destruct (eoc cur); [reflexivity|].
  unfold get_cluster. rewrite HG. replace {| x_fs := x_fs s; x_log := x_log s |} with s by now destruct s. unfold pureF. rewrite HV. destruct (valid (next cur)); reflexivity.
Qed.
Lemma list_eq fuel c : listClusters fi fuel c s = if valid c then chain_loop fi fuel c [] s else FDone s ([], Some (K ErrInvalidArgument)).
Proof. destruct HF as (_ & HV & _). unfold listClusters, fbind, pureF. rewrite HV. destruct (valid c); reflexivity. Qed.
Lemma loop_chain c cs e : chain next eoc c cs e -> forall acc f, Forall (fun x => valid x = true) (tl cs) -> (cs <> [] -> valid e = true) ->
  (length cs < f)%nat -> chain_loop fi f c acc s = FDone s (acc ++ cs, None).
Proof.
  induction 1 as [c He|c cs e He Hc IH]; intros acc f Hv Hend Hf; (destruct f as [|f]; [cbn in Hf; lia|]); rewrite loop_S, He; [now rewrite app_nil_r|].
  cbn [tl length] in *. assert (valid (next c) = true) as HV.
  { inversion Hc; subst; [apply Hend; discriminate|]. now inversion Hv. }
  rewrite HV. rewrite IH; [now rewrite <- app_assoc|destruct cs; [constructor|now inversion Hv]|intros _; apply Hend; discriminate|lia].
Qed.
Lemma loop_marker c cs e : chain next eoc c cs e -> forall acc f, cs <> [] -> Forall (fun x => valid x = true) (tl cs) -> valid e = false ->
  (length cs < f)%nat -> chain_loop fi f c acc s = FDone s (acc ++ cs, Some (K ErrFileSystemCorrupted)).
Proof.
  induction 1 as [c He|c cs e He Hc IH]; intros acc f Hne Hv Hend Hf; [congruence|]. (destruct f as [|f]; [cbn in Hf; lia|]). rewrite loop_S, He. cbn [tl length] in *.
  inversion Hc as [? He'|? cs' ? He' Hc']; subst.
  - rewrite Hend. reflexivity.
  - inversion Hv as [|? ? Hv1 Hv2]; subst. rewrite Hv1. rewrite IH; [now rewrite <- app_assoc|discriminate|exact Hv2|exact Hend|cbn in *; lia].
Qed.
Lemma nth_S n cur : nth_loop fi (S n) cur s =
  if eoc (next cur) then FDone s (inr (K ErrInvalidArgument)) else if valid (next cur) then nth_loop fi n (next cur) s else FDone s (inr (K ErrFileSystemCorrupted)).
Proof.
  destruct HF as (HG & HV & HE). cbn [nth_loop]. unfold ftry, fbind, get_cluster. rewrite HG. replace {| x_fs := x_fs s; x_log := x_log s |} with s by now destruct s.
  unfold pureF. rewrite HE. destruct (eoc (next cur)); [reflexivity|]. rewrite HV. destruct (valid (next cur)); reflexivity.
Qed.
Lemma nth_chain c cs e : chain next eoc c cs e -> forall i, cs <> [] -> Forall (fun x => valid x = true) (tl cs) ->
  nth_loop fi i c s = FDone s (match nth_error cs i with Some x => inl x | None => inr (K ErrInvalidArgument) end).
Proof.
  induction 1 as [c He|c cs e He Hc IH]; intros i Hne Hv; [congruence|]. destruct i as [|i]; [reflexivity|]. rewrite nth_S. cbn [tl nth_error] in *.
  inversion Hc as [? He'|? cs' ? He' Hc']; subst; rewrite He'.
  - now destruct i.
  - inversion Hv as [|? ? Hv1 Hv2]; subst. rewrite Hv1. apply IH; [discriminate|exact Hv2].
Qed.
(* the walk from c is alive for n steps *)
Definition live (c : Z) : bool := negb (eoc c) && valid (next c).
Lemma loop_alive n c acc f : (forall i, (i < n)%nat -> live (iter next i c) = true) ->
  exists acc', chain_loop fi (n + f) c acc s = chain_loop fi f (iter next n c) acc' s.
Proof.
  revert acc. induction n as [|n IH]; intros acc Hl; [eexists; reflexivity|].
  assert (exists acc', chain_loop fi (n + S f) c acc s = chain_loop fi (S f) (iter next n c) acc' s) as [acc' E].
  { clear IH. revert acc. generalize (S f) as g. revert c Hl. induction n as [|n IH2]; intros c Hl g acc; [eexists; reflexivity|].
    pose proof (Hl O ltac:(lia)) as L0. cbn [iter] in L0. unfold live in L0. apply andb_true_iff in L0 as [L1 L2]. apply negb_true_iff in L1.
    cbn [Nat.add]. rewrite loop_S, L1, L2. destruct (IH2 (next c)) with (g := g) (acc := acc ++ [c]) as [a E].
    { intros i Hi. replace (iter next i (next c)) with (iter next (S i) c); [apply Hl; lia|]. clear. induction i as [|i IH]; [reflexivity|]. cbn [iter] in *. now rewrite IH. }
    exists a. rewrite E. f_equal. clear. induction n as [|n IH]; [reflexivity|]. cbn [iter] in *. now rewrite IH. }
  replace (S n + f)%nat with (n + S f)%nat by lia. rewrite E. rewrite loop_S. pose proof (Hl n ltac:(lia)) as L. unfold live in L. apply andb_true_iff in L as [L1 L2]. apply negb_true_iff in L1.
  rewrite L1, L2. eexists. reflexivity.
Qed.
Lemma loop_dies n c acc : (forall i, (i < n)%nat -> live (iter next i c) = true) -> live (iter next n c) = false ->
  exists r, forall f, (n < f)%nat -> chain_loop fi f c acc s = FDone s r.
Proof.
  intros Hl Hd. destruct (loop_alive n c acc 1 Hl) as [acc' E]. rewrite loop_S in E. unfold live in Hd.
  set (r := if eoc (iter next n c) then (acc', None) else (acc' ++ [iter next n c], Some (K ErrFileSystemCorrupted))).
  assert (chain_loop fi (n + 1) c acc s = FDone s r) as E2.
  { rewrite E. unfold r. destruct (eoc (iter next n c)); [reflexivity|]. cbn [negb andb] in Hd. now rewrite Hd. }
  exists r. intros f Hf. clear -E2 Hf HF. 
  assert (forall k g c1 acc1, chain_loop fi k c1 acc1 s = FDone s r -> chain_loop fi (k + g) c1 acc1 s = FDone s r) as Mono.
  { clear -HF. induction k as [|k IH]; intros g c1 acc1 E; [discriminate|]. cbn [Nat.add]. rewrite loop_S in *. destruct (eoc c1); [exact E|]. destruct (valid (next c1)); [now apply IH|exact E]. }
  replace f with (n + 1 + (f - n - 1))%nat by lia. now apply Mono.
Qed.
Lemma loop_forever c acc : (forall i, live (iter next i c) = true) -> forall f, chain_loop fi f c acc s = FSpin s.
Proof.
  intros Hl f. destruct (loop_alive f c acc 0 ltac:(intros; apply Hl)) as [acc' E]. rewrite Nat.add_0_r in E. rewrite E. reflexivity.
Qed.
Lemma iter_add a b c : iter next (a + b) c = iter next a (iter next b c).
Proof. induction a as [|a IH]; [reflexivity|]. cbn [Nat.add iter]. now rewrite IH. Qed.
Lemma first_dead n c : (forall i, (i < n)%nat -> live (iter next i c) = true) \/ exists m, (m < n)%nat /\ (forall i, (i < m)%nat -> live (iter next i c) = true) /\ live (iter next m c) = false.
Proof.
  induction n as [|n [IH|(m & Hm & Ha & Hb)]]; [left; lia| |right; exists m; auto].
  destruct (live (iter next n c)) eqn:E.
  - left. intros i Hi. destruct (Nat.eq_dec i n) as [->|]; [exact E|apply IH; lia].
  - right. exists n. auto.
Qed.
(* a walk that is alive for more steps than there are clusters repeats a cluster *)
End Chains.
