(** * Fat8SameProofs *)
From Verif Require Import GoBase ListZ Errors Flags GoPath GoPathProofs OsFile Fat8 Spec_Fat8 Fat8Proofs Fat8Names Fat8Same Spec_Fat8Same.

Lemma app_inj_len {A} (a b c e : list A) : zlen a = zlen c -> a ++ b = c ++ e -> a = c /\ b = e.
Proof.
  revert c. induction a as [|x a IH]; intros [|y c] L E; auto.
  - rewrite zlen_cons in L. pose proof (zlen_nonneg c). change (zlen (@nil A)) with 0 in L. lia.
  - rewrite zlen_cons in L. pose proof (zlen_nonneg a). change (zlen (@nil A)) with 0 in L. lia.
  - cbn in E. injection E as -> E. rewrite !zlen_cons in L. destruct (IH c ltac:(lia) E) as [-> ->]. auto.
Qed.
Lemma fold_char c e : ((Z.min c e =? Z.max c e) || ((65 <=? Z.min c e) && (Z.min c e <=? 90) && (Z.max c e =? Z.min c e + 32))) = true <-> upper c = upper e.
Proof. unfold upper. destruct (97 <=? c) eqn:E1, (c <=? 122) eqn:E2, (97 <=? e) eqn:E3, (e <=? 122) eqn:E4; cbn [andb]; rewrite orb_true_iff, !andb_true_iff, !Z.eqb_eq, !Z.leb_le; lia. Qed.
Lemma fold_upper : forall a b, equal_fold a b = true <-> to_upper a = to_upper b.
Proof.
  induction a as [|c a IH]; intros [|e b]; cbn [equal_fold to_upper map]; split; intros E; try discriminate; auto.
  - destruct (_ || _) eqn:EC; [|discriminate]. apply fold_char in EC. apply IH in E. unfold to_upper in E. congruence.
  - injection E as E1 E2. apply fold_char in E1. rewrite E1. now apply IH.
Qed.
Lemma parts_upper n s e : parts n s e -> parts (to_upper n) (to_upper s) (option_map to_upper e).
Proof.
  intros [s' Hs|s' x Hs]; cbn [option_map]; [constructor; now rewrite in_upper_46|]. unfold to_upper. rewrite map_app. cbn [map]. change (upper 46) with 46.
  constructor. now rewrite (in_upper_46 s').
Qed.
Lemma stored_up s e : stored (to_upper s) (option_map to_upper e) = stored s e.
Proof.
  unfold stored, pad_right. rewrite !upper_app, !upper_len, to_upper_idem. f_equal.
  assert (stored_ext (option_map to_upper e) = to_upper (stored_ext e)) as -> by (destruct e as [[|c x]|]; reflexivity).
  now rewrite to_upper_idem, upper_len.
Qed.
Lemma stored_upper n : filename_to_bytes (to_upper n) = filename_to_bytes n.
Proof.
  destruct n as [|c n0] eqn:En; [reflexivity|]. rewrite <- En. assert (n <> []) as Hn by congruence. assert (to_upper n <> []) as Hu by (rewrite En; discriminate). clear En c n0.
  pose proof (split_dot_parts n) as P. destruct (split_dot n) as [s e]. rewrite (to_bytes_spec _ _ _ P Hn), (to_bytes_spec _ _ _ (parts_upper _ _ _ P) Hu), upper_len, stored_up.
  assert (ext_len (option_map to_upper e) = ext_len e) as -> by (destruct e; cbn; [apply upper_len|reflexivity]). reflexivity.
Qed.
Definition jn (s x : list Z) : list Z := match x with [] => s | _ => s ++ 46 :: x end.
(* nine bytes as stem and extension *)
Lemma raw_shown raw : zlen raw = 9 -> bytes_to_filename raw =
  Ret (to_upper (jn (trim_right (slice 0 6 raw)) (trim_right (slice 6 3 raw)))).
Proof.
  intros L. unfold bytes_to_filename. rewrite L. change (9 <? 6) with false. cbv iota zeta. change (9 - 6) with 3. do 2 f_equal. unfold jn.
  destruct (trim_right (slice 6 3 raw)) as [|c x]; [reflexivity|]. rewrite zlen_cons. pose proof (zlen_nonneg x). now replace (1 + zlen x >? 0) with true by lia.
Qed.
Lemma trim_determines n s t : zlen s = n -> zlen t = n -> to_upper (trim_right s) = to_upper (trim_right t) -> to_upper s = to_upper t.
Proof.
  intros H1 H2 E. assert (forall x, zlen x = n -> to_upper x = pad_right n (to_upper (trim_right x))) as P.
  { intros x Hx. rewrite pad_trim by lia. unfold pad_right. rewrite Hx, Z.sub_diag. change (zrepeat 32 0) with (@nil Z). now rewrite app_nil_r. }
  now rewrite (P s H1), (P t H2), E.
Qed.
Lemma app_dot_inj s s' x x' : ~ In 46 s -> ~ In 46 s' -> s ++ 46 :: x = s' ++ 46 :: x' -> s = s' /\ x = x'.
Proof.
  revert s'. induction s as [|c s IH]; intros [|c' s'] H1 H2 E; cbn in E.
  - injection E as ->. auto.
  - injection E as <- _. exfalso. apply H2. now left.
  - injection E as -> _. exfalso. apply H1. now left.
  - injection E as -> E. destruct (IH s') as [-> ->]; auto; intros X; [apply H1|apply H2]; now right.
Qed.
Lemma shown_inj s x s' x' : ~ In 46 s -> ~ In 46 s' ->
  jn s x = jn s' x' -> s = s' /\ x = x'.
Proof.
  intros H1 H2 E. unfold jn in E. destruct x as [|c x], x' as [|c' x'].
  - auto.
  - subst s. exfalso. apply H1. apply in_or_app. right. now left.
  - subst s'. exfalso. apply H2. apply in_or_app. right. now left.
  - now apply app_dot_inj.
Qed.
Lemma up_shown s x : to_upper (jn s x) = jn (to_upper s) (to_upper x).
Proof. unfold jn. destruct x as [|c x]; [reflexivity|]. unfold to_upper. rewrite map_app. reflexivity. Qed.
Lemma entries_same raw1 raw2 n1 n2 : zlen raw1 = 9 -> zlen raw2 = 9 -> ~ In 46 (slice 0 6 raw1) -> ~ In 46 (slice 0 6 raw2) ->
  bytes_to_filename raw1 = Ret n1 -> bytes_to_filename raw2 = Ret n2 -> (equal_fold n1 n2 = true <-> to_upper raw1 = to_upper raw2).
Proof.
  intros L1 L2 D1 D2 B1 B2. rewrite raw_shown in B1, B2 by assumption. injection B1 as <-. injection B2 as <-. rewrite fold_upper, !to_upper_idem, !up_shown, <- !trim_upper.
  assert (forall r, zlen r = 9 -> zlen (slice 0 6 r) = 6 /\ zlen (slice 6 3 r) = 3 /\ to_upper r = to_upper (slice 0 6 r) ++ to_upper (slice 6 3 r)) as SP.
  { intros r Lr. rewrite !zlen_slice by lia. split; [lia|]. split; [lia|]. rewrite <- upper_app. f_equal. rewrite <- (slice_full 9 r) at 1 by lia.
    change 9 with (6 + 3). rewrite slice_split by lia. reflexivity. }
  destruct (SP raw1 L1) as (A1 & A2 & A3), (SP raw2 L2) as (C1 & C2 & C3). split; intros E.
  - apply shown_inj in E as [E1 E2].
    + rewrite !trim_upper in E1, E2. rewrite A3, C3. f_equal; eapply trim_determines; eauto.
    + rewrite trim_upper, in_upper_46. intros X. now apply D1, in_trim.
    + rewrite trim_upper, in_upper_46. intros X. now apply D2, in_trim.
  - rewrite A3, C3 in E. apply app_inj_len in E as [E1 E2]; [now rewrite !trim_upper, <- (trim_upper (slice 0 6 raw1)), <- (trim_upper (slice 6 3 raw1)), E1, E2, !trim_upper|]. rewrite !upper_len. lia.
Qed.
Lemma jn_eq s x s' x' : jn s x = jn s' x' <->
  s = s' /\ x = x' \/ x = [] /\ x' <> [] /\ s = s' ++ 46 :: x' \/ x' = [] /\ x <> [] /\ s' = s ++ 46 :: x \/
  (x <> [] /\ exists y, s = s' ++ 46 :: y /\ x' = y ++ 46 :: x) \/ (x' <> [] /\ exists y, s' = s ++ 46 :: y /\ x = y ++ 46 :: x').
Proof.
  assert (forall s c x s' c' x', s ++ 46 :: c :: x = s' ++ 46 :: c' :: x' -> s = s' /\ c :: x = c' :: x' \/ (exists y, s = s' ++ 46 :: y /\ c' :: x' = y ++ 46 :: c :: x) \/ (exists y, s' = s ++ 46 :: y /\ c :: x = y ++ 46 :: c' :: x')) as HX.
  { clear. intros s c x s' c' x' E. apply app_eq_app in E as (l & [(-> & E)|(-> & E)]); destruct l as [|z l]; cbn [app] in E.
    - left. rewrite app_nil_r. injection E as -> ->. auto.
    - injection E as <- E. right. left. eauto.
    - left. rewrite app_nil_r. injection E as -> ->. auto.
    - injection E as <- E. right. right. eauto. }
  unfold jn. destruct x as [|c x], x' as [|c' x'].
  - split; [auto|]. intros [(-> & _)|[(_ & X & _)|[(_ & X & _)|[(X & _)|(X & _)]]]]; congruence.
  - split; [intros ->; right; left; split; [reflexivity|split; [discriminate|reflexivity]]|].
    intros [(_ & X)|[(_ & _ & X)|[(X & _)|[(X & _)|(_ & y & _ & X)]]]]; try congruence. destruct y; discriminate.
  - split; [intros <-; right; right; left; split; [reflexivity|split; [discriminate|reflexivity]]|].
    intros [(_ & X)|[(X & _)|[(_ & _ & X)|[(_ & y & _ & X)|(X & _)]]]]; try congruence. destruct y; discriminate.
  - split.
    + intros E. apply HX in E as [E|[E|E]]; [auto| |]; right; right; right; [left|right]; (split; [discriminate|exact E]).
    + intros [(-> & X)|[(X & _)|[(X & _)|[(_ & y & -> & X)|(_ & y & -> & X)]]]]; try congruence; rewrite X, <- app_assoc; reflexivity.
Qed.
Lemma entries_exact raw1 raw2 n1 n2 s1 e1 s2 e2 : zlen raw1 = 9 -> zlen raw2 = 9 ->
  trimmed (to_upper (slice 0 6 raw1)) s1 -> trimmed (to_upper (slice 6 3 raw1)) e1 -> trimmed (to_upper (slice 0 6 raw2)) s2 -> trimmed (to_upper (slice 6 3 raw2)) e2 ->
  bytes_to_filename raw1 = Ret n1 -> bytes_to_filename raw2 = Ret n2 -> (equal_fold n1 n2 = true <-> to_upper raw1 = to_upper raw2 \/
    e1 = [] /\ e2 <> [] /\ s1 = s2 ++ 46 :: e2 \/ e2 = [] /\ e1 <> [] /\ s2 = s1 ++ 46 :: e1 \/
    (e1 <> [] /\ exists y, s1 = s2 ++ 46 :: y /\ e2 = y ++ 46 :: e1) \/ (e2 <> [] /\ exists y, s2 = s1 ++ 46 :: y /\ e1 = y ++ 46 :: e2)).
Proof.
  intros L1 L2 T1 T2 T3 T4 B1 B2. rewrite raw_shown in B1, B2 by assumption. injection B1 as <-. injection B2 as <-. rewrite fold_upper, !to_upper_idem, !up_shown, <- !trim_upper.
  rewrite (trim_right_eq _ _ T1), (trim_right_eq _ _ T2), (trim_right_eq _ _ T3), (trim_right_eq _ _ T4), jn_eq.
  assert (forall r, zlen r = 9 -> zlen (slice 0 6 r) = 6 /\ zlen (slice 6 3 r) = 3 /\ to_upper r = to_upper (slice 0 6 r) ++ to_upper (slice 6 3 r)) as SP.
  { intros r Lr. rewrite !zlen_slice by lia. split; [lia|]. split; [lia|]. rewrite <- upper_app. f_equal. rewrite <- (slice_full 9 r) at 1 by lia.
    change 9 with (6 + 3). rewrite slice_split by lia. reflexivity. }
  destruct (SP raw1 L1) as (A1 & A2 & A3), (SP raw2 L2) as (C1 & C2 & C3).
  assert (s1 = s2 /\ e1 = e2 <-> to_upper raw1 = to_upper raw2) as ->; [|tauto]. rewrite <- (trim_right_eq _ _ T1), <- (trim_right_eq _ _ T2), <- (trim_right_eq _ _ T3), <- (trim_right_eq _ _ T4). split.
  - intros [E1 E2]. rewrite !trim_upper in E1, E2. rewrite A3, C3. f_equal; eapply trim_determines; eauto.
  - intros E. rewrite A3, C3 in E. apply app_inj_len in E as [E1 E2]; [now rewrite E1, E2|]. rewrite !upper_len. lia.
Qed.
Lemma trim_id s : (forall u, s <> u ++ [32]) -> trim_right s = s.
Proof. intros Hs. apply trim_right_eq. exists []. rewrite app_nil_r. split; [reflexivity|]. split; [constructor|exact Hs]. Qed.
Lemma stem_period s e : ~ In 46 s -> (forall u, s <> u ++ [32]) -> (forall u, e <> u ++ [32]) -> e <> [] -> zlen e <= 3 -> zlen s + 1 + zlen e <= 6 ->
  exists raw1 raw2 n1 n2, zlen raw1 = 9 /\ zlen raw2 = 9 /\ to_upper raw1 <> to_upper raw2 /\ bytes_to_filename raw1 = Ret n1 /\ bytes_to_filename raw2 = Ret n2 /\ equal_fold n1 n2 = true.
Proof.
  intros Hd Hs He Hne Hl Hl2. pose proof (zlen_nonneg s). pose proof (zlen_nonneg e).
  set (w := s ++ 46 :: e). assert (zlen w = zlen s + 1 + zlen e) as Lw by (unfold w; rewrite zlen_app, zlen_cons; lia).
  assert (forall u, w <> u ++ [32]) as Hw.
  { intros u E. unfold w in E. destruct e as [|c e0] using rev_ind; [contradiction|]. clear IHe0. rewrite app_comm_cons, app_assoc in E. apply app_inj_tail in E as [_ ->]. now apply (He e0). }
  exists (pad_right 6 w ++ zrepeat 32 3), (pad_right 6 s ++ pad_right 3 e), (to_upper w), (to_upper w).
  assert (zlen (pad_right 6 w) = 6) as P1 by (apply zlen_pad_right; lia).
  assert (zlen (pad_right 6 s) = 6) as P2 by (apply zlen_pad_right; lia).
  assert (zlen (pad_right 3 e) = 3) as P3 by (apply zlen_pad_right; lia).
  assert (zlen (zrepeat 32 3) = 3) as P4 by reflexivity.
  split; [rewrite zlen_app; lia|]. split; [rewrite zlen_app; lia|]. split; [|split; [|split]].
  - intros E. rewrite !upper_app in E. apply app_inj_len in E as [_ E]; [|rewrite !upper_len; lia].
    apply (f_equal trim_right) in E. rewrite !trim_upper in E. unfold pad_right in E. rewrite trim_pad, (trim_id e He) in E. change (to_upper (trim_right (zrepeat 32 3))) with (@nil Z) in E. now destruct e.
  - rewrite raw_shown by (rewrite zlen_app; lia). rewrite (slice_app_l 0 6), (slice_app_r 6 3) by lia. rewrite P1, Z.sub_diag.
    rewrite (slice_full 3), (slice_full 6) by lia. change (trim_right (zrepeat 32 3)) with (@nil Z). cbn [jn]. unfold pad_right. rewrite trim_pad. now rewrite trim_id.
  - rewrite raw_shown by (rewrite zlen_app; lia). rewrite (slice_app_l 0 6), (slice_app_r 6 3) by lia. rewrite P2, Z.sub_diag.
    rewrite (slice_full 3), (slice_full 6) by lia. unfold pad_right. rewrite !trim_pad, (trim_id e He), (trim_id s Hs). now destruct e.
  - now apply fold_upper.
Qed.
Lemma trim_upper_id x : (forall u, x <> u ++ [32]) -> trim_right (to_upper x) = to_upper x.
Proof. intros Hx. now rewrite trim_upper, trim_id. Qed.
Lemma alike_same a b raw : tidy_name a -> tidy_name b -> filename_to_bytes a = inl raw -> filename_to_bytes b = inl raw -> equal_fold a b = true.
Proof.
  intros (s & e & P & Hs & He) (s' & e' & P' & Hs' & He') E E'. apply fold_upper.
  destruct a as [|c0 a0]; [discriminate|]. destruct b as [|c1 b0]; [discriminate|].
  rewrite (to_bytes_spec _ _ _ P) in E by discriminate. rewrite (to_bytes_spec _ _ _ P') in E' by discriminate.
  destruct ((zlen s <=? 6) && (ext_len e <=? 3)) eqn:EL; [|discriminate]. destruct ((zlen s' <=? 6) && (ext_len e' <=? 3)) eqn:EL'; [|discriminate].
  injection E as <-. injection E' as E'. unfold stored in E'. rewrite !upper_app in E'.
  assert (forall e, ext_len e <= 3 -> zlen (pad_right 3 (stored_ext e)) = 3) as Lx by (intros; apply zlen_pad_right; now apply stored_ext_len).
  apply app_inj_len in E' as [Q1 Q2]; [|rewrite !upper_len, !zlen_pad_right by lia; reflexivity].
  apply (f_equal trim_right) in Q1, Q2. rewrite !trim_upper in Q1, Q2. unfold pad_right in Q1, Q2. rewrite !trim_pad in Q1, Q2. rewrite !trim_id in Q1 by assumption.
  assert (forall e, match e with None => True | Some x => (forall u, x <> u ++ [32]) /\ x <> [] /\ x <> [46] end -> trim_right (stored_ext e) = match e with None => [] | Some x => x end) as T.
  { intros [[|c x]|]; cbn [stored_ext]; [intros (_ & X & _); contradiction|intros (X & _); now apply trim_id|reflexivity]. }
  rewrite (T e He), (T e' He') in Q2.
  destruct P as [s1 D|s1 x D], P' as [s2 D2|s2 x2 D2].
  - congruence.
  - destruct x2; [destruct He'; tauto|discriminate].
  - destruct x; [destruct He; tauto|discriminate].
  - rewrite !upper_app. cbn [to_upper map] in *. unfold to_upper in *. congruence.
Qed.
Lemma fold_len a b : equal_fold a b = true -> zlen a = zlen b.
Proof. intros E. apply fold_upper in E. apply (f_equal zlen) in E. now rewrite !upper_len in E. Qed.
Lemma not_fold a b : zlen a <> zlen b -> equal_fold a b = false.
Proof. intros Hn. destruct (equal_fold a b) eqn:E; [|reflexivity]. apply fold_len in E. contradiction. Qed.
Lemma blanks_alike s k : s <> [] -> ~ In 46 s -> 0 < k -> zlen s + k <= 6 ->
  exists raw, filename_to_bytes s = inl raw /\ filename_to_bytes (s ++ zrepeat 32 k) = inl raw /\ equal_fold s (s ++ zrepeat 32 k) = false.
Proof.
  intros Hn Hd Hk Hl. assert (~ In 46 (s ++ zrepeat 32 k)) as Hd2.
  { intros X. apply in_app_or in X as [X|X]; [contradiction|]. pose proof (blank_repeat k) as Hb. unfold blank in Hb. rewrite Forall_forall in Hb. now apply Hb in X. }
  pose proof (zlen_nonneg s). exists (stored s None). rewrite (to_bytes_spec _ _ _ (parts_none _ Hd) Hn), (to_bytes_spec _ _ _ (parts_none _ Hd2)) by now destruct s.
  rewrite zlen_app, zlen_repeat by lia. cbn [ext_len]. replace ((zlen s <=? 6) && (0 <=? 3)) with true by lia. replace ((zlen s + k <=? 6) && (0 <=? 3)) with true by lia.
  split; [reflexivity|]. split.
  - f_equal. unfold stored. do 2 f_equal. unfold pad_right. rewrite zlen_app, zlen_repeat, <- app_assoc by lia. f_equal. rewrite <- zrepeat_app by lia. f_equal. lia.
  - apply not_fold. rewrite zlen_app, zlen_repeat by lia. lia.
Qed.
Lemma period_alike s : ~ In 46 s -> zlen s <= 6 ->
  exists raw, filename_to_bytes (s ++ [46]) = inl raw /\ filename_to_bytes (s ++ [46; 46]) = inl raw /\ equal_fold (s ++ [46]) (s ++ [46; 46]) = false.
Proof.
  intros Hd Hl. exists (stored s (Some [])). rewrite (to_bytes_spec _ _ _ (parts_some s [] Hd)), (to_bytes_spec _ _ _ (parts_some s [46] Hd)) by now destruct s.
  cbn [ext_len]. change (zlen (@nil Z)) with 0. change (zlen [46]) with 1. replace ((zlen s <=? 6) && (0 <=? 3)) with true by lia. replace ((zlen s <=? 6) && (1 <=? 3)) with true by lia.
  split; [reflexivity|]. split; [reflexivity|]. apply not_fold. rewrite !zlen_app. discriminate || (change (zlen [46]) with 1; change (zlen [46;46]) with 2; lia).
Qed.
