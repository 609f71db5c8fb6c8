From Verif Require Import GoBase ListZ Errors Flags GoPath GoPathProofs OsFile Fat8 Spec_Fat8 Fat8Proofs.

Lemma split_dot_parts name : let '(a, b) := split_dot name in parts name a b.
Proof.
  induction name as [|c s IH]; cbn [split_dot]; [now constructor|]. unfold dot. destruct (c =? 46) eqn:E.
  - replace c with 46 by lia. apply (parts_some []). intros [].
  - destruct (split_dot s) as [a b]. inversion IH; subst.
    + constructor. intros [X|X]; [lia|contradiction].
    + apply (parts_some (c :: a)). intros [X|X]; [lia|contradiction].
Qed.
Lemma split_dot_eq name a b : parts name a b -> split_dot name = (a, b).
Proof.
  intros [s Hs|s e Hs]; (induction s as [|c s IH]; [reflexivity|]); cbn [split_dot app]; unfold dot;
    (replace (c =? 46) with false by (symmetry; apply Z.eqb_neq; intros ->; apply Hs; now left)); rewrite IH; auto; intros X; apply Hs; now right.
Qed.

Lemma upper_32 c : upper c = 32 <-> c = 32.
Proof. unfold upper. destruct ((97 <=? c) && (c <=? 122)) eqn:E; lia. Qed.
Lemma upper_46 c : upper c = 46 <-> c = 46.
Proof. unfold upper. destruct ((97 <=? c) && (c <=? 122)) eqn:E; lia. Qed.
Lemma upper_idem c : upper (upper c) = upper c.
Proof. unfold upper. destruct ((97 <=? c) && (c <=? 122)) eqn:E; [|now rewrite E]. now replace ((97 <=? c - 32) && (c - 32 <=? 122)) with false by lia. Qed.
Lemma to_upper_idem s : to_upper (to_upper s) = to_upper s.
Proof. unfold to_upper. rewrite map_map. apply map_ext. apply upper_idem. Qed.
Lemma in_upper_46 s : In 46 (to_upper s) <-> In 46 s.
Proof.
  unfold to_upper. rewrite in_map_iff. split; [intros (c & Hc & Hi); apply (proj1 (upper_46 c)) in Hc; subst c; exact Hi|]. intros Hi. exists 46. auto.
Qed.
Lemma blank_repeat n : blank (zrepeat 32 n).
Proof. apply Forall_zrepeat. reflexivity. Qed.
Lemma blank_is s : blank s -> s = zrepeat 32 (zlen s).
Proof. induction 1 as [|c s -> Hs IH]; [reflexivity|]. rewrite zlen_cons, zrepeat_cons by (pose proof (zlen_nonneg s); lia). f_equal. replace (1 + zlen s - 1) with (zlen s) by lia. exact IH. Qed.

(** ** trimming *)
Lemma trim_left_cons c s : trim_left (c :: s) = if c =? 32 then trim_left s else c :: s.
Proof. destruct c as [|p|p]; try reflexivity. do 6 (destruct p as [p|p|]; try reflexivity). Qed.
Lemma trim_left_spec s : exists b, s = b ++ trim_left s /\ blank b /\ (forall u, trim_left s <> 32 :: u).
Proof.
  induction s as [|c s IH]; [exists []; repeat split; [constructor|discriminate]|]. rewrite trim_left_cons. destruct (c =? 32) eqn:E.
  - destruct IH as (b & H1 & H2 & H3). exists (c :: b). split; [cbn; congruence|]. split; [constructor; [lia|exact H2]|exact H3].
  - exists []. split; [reflexivity|]. split; [constructor|]. intros u [= -> _]. lia.
Qed.
Lemma trim_right_spec s : trimmed s (trim_right s).
Proof.
  unfold trimmed, trim_right. destruct (trim_left_spec (rev s)) as (b & H1 & H2 & H3). exists (rev b). split.
  - rewrite <- rev_app_distr, <- H1. now rewrite rev_involutive.
  - split; [now apply Forall_rev|]. intros u E. apply (f_equal (@rev Z)) in E. rewrite rev_involutive, rev_app_distr in E. cbn in E. now apply H3 in E.
Qed.
Lemma trimmed_fun s t t' : trimmed s t -> trimmed s t' -> t = t'.
Proof.
  intros (b & E & Hb & Ht) (b' & E' & Hb' & Ht'). subst s. revert b' t' E' Hb' Ht'. induction b as [|c b IH] using rev_ind; intros b' t' E' Hb' Ht'.
  - rewrite app_nil_r in E'. destruct (rev b') as [|c' r] eqn:ER.
    + apply (f_equal (@rev Z)) in ER. rewrite rev_involutive in ER. cbn in ER. subst b'. rewrite app_nil_r in E'. exact E'.
    + exfalso. apply (f_equal (@rev Z)) in ER. rewrite rev_involutive in ER. cbn in ER. subst b'. unfold blank in Hb'. rewrite Forall_app in Hb'. destruct Hb' as [_ Hc].
      inversion Hc as [|? ? E1]. apply (Ht (t' ++ rev r)). rewrite E', E1, <- app_assoc. reflexivity.
  - unfold blank in Hb. rewrite Forall_app in Hb. destruct Hb as [Hb Hc]. inversion Hc as [|? ? E1]. rewrite E1 in E'. destruct b' as [|c' b'] using rev_ind.
    + exfalso. rewrite app_nil_r in E'. apply (Ht' (t ++ b)). now rewrite <- E', app_assoc.
    + clear IHb'. rewrite !app_assoc in E'. apply app_inj_tail in E'. destruct E' as [E' _]. unfold blank in Hb'. rewrite Forall_app in Hb'. destruct Hb' as [Hb' _]. eapply IH; eauto.
Qed.
Lemma trim_right_eq s t : trimmed s t -> trim_right s = t.
Proof. intros H. eapply trimmed_fun; [apply trim_right_spec|exact H]. Qed.
Lemma trim_pad s n : trim_right (s ++ zrepeat 32 n) = trim_right s.
Proof.
  apply trim_right_eq. destruct (trim_right_spec s) as (b & E & Hb & Ht). exists (b ++ zrepeat 32 n). split; [rewrite E at 1; now rewrite app_assoc|].
  split; [|exact Ht]. unfold blank. rewrite Forall_app. split; [exact Hb|apply blank_repeat].
Qed.
Lemma trim_upper s : trim_right (to_upper s) = to_upper (trim_right s).
Proof.
  apply trim_right_eq. destruct (trim_right_spec s) as (b & E & Hb & Ht). exists (to_upper b). split; [rewrite E at 1; apply map_app|].
  split.
  - unfold blank, to_upper. rewrite Forall_map. eapply Forall_impl; [|exact Hb]. cbn. intros c ->. reflexivity.
  - intros u Eu. unfold to_upper in Eu. destruct (trim_right s) as [|c r] using rev_ind; [cbn in Eu; symmetry in Eu; now apply app_eq_nil in Eu|].
    rewrite map_app in Eu. apply app_inj_tail in Eu. destruct Eu as [_ Eu]. apply (proj1 (upper_32 _)) in Eu. subst. now apply (Ht r).
Qed.
Lemma trim_len s : zlen (trim_right s) <= zlen s.
Proof. destruct (trim_right_spec s) as (b & E & _). rewrite E at 2. rewrite zlen_app. pose proof (zlen_nonneg b). lia. Qed.
Lemma trim_pad_self n s : zlen s <= n -> trim_right s ++ zrepeat 32 (n - zlen (trim_right s)) = s ++ zrepeat 32 (n - zlen s).
Proof.
  intros Hn. destruct (trim_right_spec s) as (b & E & Hb & _). set (t := trim_right s) in *. clearbody t. subst s. rewrite zlen_app in *. rewrite <- app_assoc. f_equal.
  pose proof (zlen_nonneg b). pose proof (zlen_nonneg t). apply blank_is in Hb. set (k := zlen b) in *. clearbody k. subst b. rewrite <- zrepeat_app by lia. f_equal. lia.
Qed.
Lemma in_trim x s : In x (trim_right s) -> In x s.
Proof. intros H. destruct (trim_right_spec s) as (b & E & _). rewrite E. apply in_or_app. now left. Qed.

(** ** the stored form *)
Definition stored_ext (e : option (list Z)) : list Z := match e with None => [] | Some [] => [46] | Some e => e end.
Definition stored (s : list Z) (e : option (list Z)) : list Z := to_upper (pad_right 6 s ++ pad_right 3 (stored_ext e)).
Definition ext_len (e : option (list Z)) : Z := match e with None => 0 | Some e => zlen e end.
Lemma to_bytes_spec name s e : parts name s e -> name <> [] ->
  filename_to_bytes name = if (zlen s <=? 6) && (ext_len e <=? 3) then inl (stored s e) else inr (K ErrNameTooLong).
Proof.
  intros HP Hne. unfold filename_to_bytes. destruct name as [|c name]; [contradiction|]. rewrite (split_dot_eq _ _ _ HP).
  destruct (zlen s >? 6) eqn:E1; [now replace (zlen s <=? 6) with false by lia|]. replace (zlen s <=? 6) with true by lia. cbn [andb]. destruct e as [e|]; cbn [ext_len].
  - destruct (zlen e =? 0) eqn:E2.
    + replace (zlen e <=? 3) with true by lia. assert (e = []) as -> by (apply zlen_zero_nil; lia). reflexivity.
    + destruct (zlen e >? 3) eqn:E3; [now replace (zlen e <=? 3) with false by lia|]. replace (zlen e <=? 3) with true by lia. unfold stored, stored_ext. now destruct e.
  - change (0 <=? 3) with true. cbv iota. unfold stored, stored_ext, pad_right. do 2 f_equal. change (zlen (@nil Z)) with 0. rewrite app_nil_l, <- app_assoc. f_equal. change (3 - 0) with 3. rewrite <- zrepeat_app by (pose proof (zlen_nonneg s); lia). f_equal. lia.
Qed.
Lemma zlen_pad_right n s : zlen s <= n -> zlen (pad_right n s) = n.
Proof. intros. unfold pad_right. rewrite zlen_app, zlen_repeat; lia. Qed.
Lemma stored_ext_len e : ext_len e <= 3 -> zlen (stored_ext e) <= 3.
Proof. destruct e as [[|c e]|]; cbn [ext_len stored_ext]; try lia; intros _; change (zlen [46]) with 1; try lia. now change (zlen (@nil Z)) with 0. Qed.
Lemma zlen_stored s e : zlen s <= 6 -> ext_len e <= 3 -> zlen (stored s e) = 9.
Proof. intros H1 H2. unfold stored, to_upper. rewrite zlen_map, zlen_app, !zlen_pad_right; auto using stored_ext_len. Qed.
Definition shown (s : list Z) (e : option (list Z)) : list Z :=
  let t := trim_right (stored_ext e) in
  to_upper (trim_right s) ++ (match t with [] => [] | _ => 46 :: to_upper t end).
Lemma of_bytes_stored s e : zlen s <= 6 -> ext_len e <= 3 -> bytes_to_filename (stored s e) = Ret (shown s e).
Proof.
  intros H1 H2. unfold bytes_to_filename. rewrite zlen_stored by assumption. cbn [Z.ltb]. change (9 <? 6) with false. cbv iota. f_equal.
  unfold stored, to_upper. rewrite map_app. pose proof (stored_ext_len e H2) as H3.
  assert (zlen (map upper (pad_right 6 s)) = 6) as L1 by (rewrite zlen_map; now apply zlen_pad_right).
  assert (zlen (map upper (pad_right 3 (stored_ext e))) = 3) as L2 by (rewrite zlen_map; now apply zlen_pad_right).
  rewrite (slice_app_l 0 6), (slice_app_r 6) by lia. rewrite (slice_full 6) by lia. replace (6 - zlen (map upper (pad_right 6 s))) with 0 by lia. change (9 - 6) with 3. rewrite (slice_full 3) by lia.
  fold (to_upper (pad_right 6 s)). fold (to_upper (pad_right 3 (stored_ext e))). rewrite !trim_upper. unfold pad_right. rewrite !trim_pad.
  unfold shown. destruct (trim_right (stored_ext e)) as [|c t].
  - change (zlen (to_upper []) >? 0) with false. cbv iota. rewrite app_nil_r. apply to_upper_idem.
  - replace (zlen (to_upper (c :: t)) >? 0) with true by (unfold to_upper; rewrite zlen_map, zlen_cons; pose proof (zlen_nonneg t); lia).
    change (map upper) with to_upper. set (x := c :: t). unfold to_upper at 1. rewrite map_app. fold (to_upper (to_upper (trim_right s))). rewrite to_upper_idem. f_equal.
    change (map upper (dot :: to_upper x)) with (46 :: to_upper (to_upper x)). now rewrite to_upper_idem.
Qed.
Lemma upper_app a b : to_upper (a ++ b) = to_upper a ++ to_upper b.
Proof. apply map_app. Qed.
Lemma upper_len s : zlen (to_upper s) = zlen s.
Proof. apply zlen_map. Qed.
Lemma upper_blanks n : to_upper (zrepeat 32 n) = zrepeat 32 n.
Proof. unfold to_upper, zrepeat. induction (Z.to_nat n) as [|k IH]; [reflexivity|]. cbn. now rewrite IH. Qed.
Lemma pad_trim n s : zlen s <= n -> pad_right n (to_upper (trim_right s)) = to_upper (pad_right n s).
Proof.
  intros H. unfold pad_right. rewrite upper_app, upper_len, upper_blanks.
  rewrite <- (upper_blanks (n - zlen (trim_right s))), <- upper_app, trim_pad_self by assumption. now rewrite upper_app, upper_blanks.
Qed.
Lemma stored_shown s e : ~ In 46 s -> zlen s <= 6 -> ext_len e <= 3 -> shown s e <> [] -> filename_to_bytes (shown s e) = inl (stored s e).
Proof.
  intros Hs H1 H2 Hne. pose proof (stored_ext_len e H2) as H3. pose proof (trim_len s). pose proof (trim_len (stored_ext e)).
  assert (~ In 46 (to_upper (trim_right s))) as Hd by (rewrite in_upper_46; intros X; apply Hs; now apply in_trim).
  unfold shown in *. set (t := trim_right (stored_ext e)) in *. destruct t as [|c t0] eqn:Et.
  - rewrite app_nil_r in *. rewrite (to_bytes_spec _ _ _ (parts_none _ Hd) Hne), upper_len. replace (zlen (trim_right s) <=? 6) with true by lia. change (ext_len None <=? 3) with true.
    cbn [andb]. f_equal. unfold stored. rewrite pad_trim by assumption. rewrite !upper_app, to_upper_idem. f_equal.
    rewrite <- (pad_trim 3 (stored_ext e)) by assumption. fold t. rewrite Et. reflexivity.
  - rewrite (to_bytes_spec _ _ _ (parts_some _ _ Hd) Hne), upper_len. cbn [ext_len]. rewrite upper_len. replace (zlen (trim_right s) <=? 6) with true by lia.
    replace (zlen (c :: t0) <=? 3) with true by lia. cbn [andb]. f_equal. unfold stored.
    change (stored_ext (Some (to_upper (c :: t0)))) with (to_upper (c :: t0)). rewrite <- Et. unfold t. rewrite !pad_trim by assumption.
    now rewrite !upper_app, !to_upper_idem.
Qed.
