(** * Fat8UnicodeProofs *)
From Verif Require Import GoBase ListZ Errors Flags GoPath GoPathProofs OsFile Fat8 Spec_Fat8 Fat8Proofs Fat8Names Fat8Same Spec_Fat8Same Fat8SameProofs Spec_Utf8 Fat8Unicode.

(** ** UTF-8 *)
Lemma ascii_runes s : ascii s -> runes s = s.
Proof. induction 1 as [|c s Hc Hs IH]; [reflexivity|]. cbn [runes]. replace (c <? 128) with true by lia. now rewrite IH. Qed.
Lemma ascii_is s : ascii s -> is_ascii s = true.
Proof. intros H. apply forallb_forall. intros c Hc. unfold ascii in H. rewrite Forall_forall in H. specialize (H c Hc). lia. Qed.
Lemma char_runes r s : scalar r -> runes (utf8_char r ++ s) = r :: runes s.
Proof.
  intros H. unfold utf8_char. change (2^6) with 64. change (2^12) with 4096. change (2^18) with 262144.
  destruct (r <? 128) eqn:E1; [cbn [app runes]; now rewrite E1|].
  destruct (r <? 2048) eqn:E2.
  { cbn [app runes]. replace (192 + r / 64 <? 128) with false by (unfold scalar in H; lia).
    unfold rune2, cont. change (2^5) with 32. change (2^6) with 64.
    assert (2 <= r / 64 < 32) by (unfold scalar in H; lia). assert (0 <= r mod 64 < 64) by lia.
    replace ((194 <=? 192 + r / 64) && (192 + r / 64 <=? 223) && ((128 <=? 128 + r mod 64) && (128 + r mod 64 <=? 191))) with true by lia.
    f_equal. lia. }
  destruct (r <? 65536) eqn:E3.
  { cbn [app runes]. replace (224 + r / 4096 <? 128) with false by (unfold scalar in H; lia).
    assert (0 <= r / 4096 < 16) by (unfold scalar in H; lia). assert (0 <= r mod 64 < 64) by lia. assert (0 <= (r / 64) mod 64 < 64) by lia.
    assert (rune2 (224 + r / 4096) (128 + (r / 64) mod 64) = None) as ->.
    { unfold rune2. now replace (224 + r / 4096 <=? 223) with false by lia; rewrite andb_false_r. }
    assert (r / 4096 = r / 64 / 64) as Ed by (rewrite Z.div_div by lia; reflexivity).
    unfold rune3, cont. change (2^4) with 16. change (2^6) with 64. change (2^12) with 4096.
    assert ((if 224 + r / 4096 =? 224 then 160 else 128) <= 128 + (r / 64) mod 64) as A1 by (destruct (224 + r / 4096 =? 224) eqn:Ez; lia).
    assert (128 + (r / 64) mod 64 <= (if 224 + r / 4096 =? 237 then 159 else 191)) as A2 by (destruct (224 + r / 4096 =? 237) eqn:Ez; unfold scalar in H; lia).
    replace ((224 <=? 224 + r / 4096) && (224 + r / 4096 <=? 239) && ((if 224 + r / 4096 =? 224 then 160 else 128) <=? 128 + (r / 64) mod 64) &&
      (128 + (r / 64) mod 64 <=? (if 224 + r / 4096 =? 237 then 159 else 191)) && ((128 <=? 128 + r mod 64) && (128 + r mod 64 <=? 191))) with true by lia.
    f_equal. clear A1 A2. lia. }
  cbn [app runes]. assert (65536 <= r <= 1114111) as Hr by (unfold scalar in H; lia). clear H E1 E2 E3.
  assert (0 <= r / 262144 <= 4) by lia. assert (0 <= r mod 64 < 64) by lia. assert (0 <= (r / 64) mod 64 < 64) by lia. assert (0 <= (r / 4096) mod 64 < 64) by lia.
  replace (240 + r / 262144 <? 128) with false by lia.
  assert (rune2 (240 + r / 262144) (128 + (r / 4096) mod 64) = None) as ->.
  { unfold rune2. now replace (240 + r / 262144 <=? 223) with false by lia; rewrite andb_false_r. }
  assert (rune3 (240 + r / 262144) (128 + (r / 4096) mod 64) (128 + (r / 64) mod 64) = None) as ->.
  { unfold rune3. now replace (240 + r / 262144 <=? 239) with false by lia; rewrite andb_false_r. }
  assert (r / 4096 = r / 64 / 64) as Ed by (rewrite Z.div_div by lia; reflexivity). assert (r / 262144 = r / 4096 / 64) as Ee by (rewrite Z.div_div by lia; reflexivity).
  unfold rune4, cont. change (2^3) with 8. change (2^6) with 64. change (2^12) with 4096. change (2^18) with 262144.
  assert ((if 240 + r / 262144 =? 240 then 144 else 128) <= 128 + (r / 4096) mod 64) as A1 by (destruct (240 + r / 262144 =? 240) eqn:Ez; lia).
  assert (128 + (r / 4096) mod 64 <= (if 240 + r / 262144 =? 244 then 143 else 191)) as A2 by (destruct (240 + r / 262144 =? 244) eqn:Ez; lia).
  replace ((240 <=? 240 + r / 262144) && (240 + r / 262144 <=? 244) && ((if 240 + r / 262144 =? 240 then 144 else 128) <=? 128 + (r / 4096) mod 64) &&
    (128 + (r / 4096) mod 64 <=? (if 240 + r / 262144 =? 244 then 143 else 191)) && ((128 <=? 128 + (r / 64) mod 64) && (128 + (r / 64) mod 64 <=? 191)) &&
    ((128 <=? 128 + r mod 64) && (128 + r mod 64 <=? 191))) with true by lia.
  f_equal. clear A1 A2. lia.
Qed.
Lemma utf8_cons r rs : utf8 (r :: rs) = utf8_char r ++ utf8 rs.
Proof. reflexivity. Qed.
Lemma utf8_app a b : utf8 (a ++ b) = utf8 a ++ utf8 b.
Proof. unfold utf8. now rewrite map_app, concat_app. Qed.
Lemma utf8_runes_app rs s : Forall scalar rs -> runes (utf8 rs ++ s) = rs ++ runes s.
Proof. induction 1 as [|r rs Hr Hs IH]; [reflexivity|]. rewrite utf8_cons, <- app_assoc, char_runes by assumption. now rewrite IH. Qed.
Lemma utf8_runes rs : Forall scalar rs -> runes (utf8 rs) = rs.
Proof. intros H. pose proof (utf8_runes_app rs [] H) as E. now rewrite !app_nil_r in E. Qed.
Lemma encode_scalar r : scalar r -> encode_rune r = utf8_char r.
Proof.
  intros H. unfold encode_rune. replace ((r <? 0) || ((55296 <=? r) && (r <=? 57343)) || (1114111 <? r)) with false by (unfold scalar in H; lia). reflexivity.
Qed.
Lemma utf8_ascii s : ascii s -> utf8 s = s.
Proof. induction 1 as [|c s Hc Hs IH]; [reflexivity|]. rewrite utf8_cons, IH. unfold utf8_char. now replace (c <? 128) with true by lia. Qed.
Lemma utf8_blanks n : utf8 (zrepeat 32 n) = zrepeat 32 n.
Proof. apply utf8_ascii. apply Forall_zrepeat. lia. Qed.
Lemma char_len r : 1 <= zlen (utf8_char r).
Proof. unfold utf8_char. destruct (r <? 128); [cbn; lia|]. destruct (r <? 2048); [cbn; lia|]. destruct (r <? 65536); cbn; lia. Qed.
Lemma char_one r : zlen (utf8_char r) = 1 <-> r < 128.
Proof. unfold utf8_char. destruct (r <? 128) eqn:E; [cbn; lia|]. destruct (r <? 2048); [cbn; lia|]. destruct (r <? 65536); cbn; lia. Qed.
Lemma char_ascii b r : scalar r -> 0 <= b < 128 -> In b (utf8_char r) -> r = b.
Proof.
  intros Hs Hb. unfold utf8_char. destruct (r <? 128) eqn:E; [intros [X|[]]; exact X|]. change (2^6) with 64. change (2^12) with 4096. change (2^18) with 262144.
  assert (0 <= r <= 1114111) by (unfold scalar in Hs; lia).
  destruct (r <? 2048); [|destruct (r <? 65536)]; cbn [In]; intros X; exfalso; repeat destruct X as [X|X]; try exact X; lia.
Qed.
Lemma char_last32 r u : scalar r -> utf8_char r = u ++ [32] -> r = 32.
Proof. intros H E. apply (char_ascii 32 r H ltac:(lia)). rewrite E. apply in_or_app. right. now left. Qed.
Lemma utf8_in b rs : Forall scalar rs -> 0 <= b < 128 -> (In b (utf8 rs) <-> In b rs).
Proof.
  intros H Hb. induction H as [|r rs Hr Hs IH]; [reflexivity|]. rewrite utf8_cons, in_app_iff, IH. cbn [In]. split; (intros [X|X]; [left|now right]).
  - now apply char_ascii.
  - subst r. unfold utf8_char. replace (b <? 128) with true by lia. now left.
Qed.
Lemma utf8_nonneg rs : Forall scalar rs -> Forall (fun c => 0 <= c) (utf8 rs).
Proof.
  induction 1 as [|r rs Hr Hs IH]; [constructor|]. rewrite utf8_cons, Forall_app. split; [|exact IH]. assert (0 <= r) by (unfold scalar in Hr; lia).
  unfold utf8_char. change (2^6) with 64. change (2^12) with 4096. change (2^18) with 262144. destruct (r <? 128); [|destruct (r <? 2048); [|destruct (r <? 65536)]]; repeat constructor; lia.
Qed.
Lemma utf8_len_ge rs : zlen rs <= zlen (utf8 rs).
Proof. induction rs as [|r rs IH]; [reflexivity|]. rewrite utf8_cons, zlen_cons, zlen_app. pose proof (char_len r). lia. Qed.

(** ** capitals *)
Section Caps.
Context (table : Z -> Z) (HT : capitals_table table).
Notation cap := (unicode_capital table).
Lemma cap_upper r : rune_upper table r = cap r.
Proof. unfold rune_upper, unicode_capital, upper. destruct (r <? 128) eqn:E; [now replace (r <=? 127) with true by lia|now replace (r <=? 127) with false by lia]. Qed.
Lemma cap_scalar r : scalar r -> scalar (cap r).
Proof. intros H. unfold unicode_capital. destruct (r <? 128) eqn:E; [|apply HT; [exact H|lia]]. destruct ((97 <=? r) && (r <=? 122)) eqn:E2; unfold scalar in *; lia. Qed.
Lemma cap_idem r : scalar r -> cap (cap r) = cap r.
Proof.
  intros Hr.
  unfold unicode_capital at 2 3. destruct (r <? 128) eqn:E.
  - unfold unicode_capital. destruct ((97 <=? r) && (r <=? 122)) eqn:E2; [|now rewrite E, E2].
    replace (r - 32 <? 128) with true by lia. now replace ((97 <=? r - 32) && (r - 32 <=? 122)) with false by lia.
  - destruct (HT r Hr ltac:(lia)) as (_ & H1 & H2). unfold unicode_capital. destruct (table r <? 128) eqn:E3; [|apply H1; lia].
    specialize (H2 ltac:(lia)). now replace ((97 <=? table r) && (table r <=? 122)) with false by lia.
Qed.
Lemma caps_scalar rs : Forall scalar rs -> Forall scalar (map cap rs).
Proof. intros H. rewrite Forall_map. eapply Forall_impl; [|exact H]. exact cap_scalar. Qed.
Lemma ToUpper_ascii s : ascii s -> ToUpper table s = to_upper s.
Proof. intros H. unfold ToUpper. now rewrite ascii_is. Qed.
Lemma ToUpper_utf8 rs : Forall scalar rs -> ToUpper table (utf8 rs) = utf8 (map cap rs).
Proof.
  intros H. unfold ToUpper. destruct (is_ascii (utf8 rs)) eqn:E.
  - assert (ascii rs) as Ha.
    { unfold is_ascii in E. rewrite forallb_forall in E. apply Forall_forall. intros r Hr. rewrite Forall_forall in H. specialize (H r Hr).
      destruct (Z_lt_dec r 128) as [|Hn]; [unfold scalar in H; lia|]. exfalso. assert (exists b, In b (utf8_char r) /\ 128 <= b) as (b & Hb1 & Hb2).
      { unfold utf8_char. change (2^6) with 64. replace (r <? 128) with false by lia. destruct (r <? 2048); [|destruct (r <? 65536)]; (eexists; split; [right; left; reflexivity|lia]). }
      assert (In b (utf8 rs)) as Hi by (unfold utf8; apply in_concat; exists (utf8_char r); split; [now apply in_map|exact Hb1]). specialize (E b Hi). lia. }
    rewrite utf8_ascii by assumption. assert (map cap rs = to_upper rs) as ->.
    { unfold to_upper. apply map_ext_in. intros r Hr. rewrite <- cap_upper. unfold rune_upper. unfold ascii in Ha. rewrite Forall_forall in Ha. specialize (Ha r Hr). now replace (r <=? 127) with true by lia. }
    symmetry. apply utf8_ascii. unfold ascii, to_upper. rewrite Forall_map. eapply Forall_impl; [|exact Ha]. cbn. intros c Hc. unfold upper. destruct ((97 <=? c) && (c <=? 122)) eqn:E2; lia.
  - rewrite utf8_runes by assumption. clear E. induction H as [|r rs Hr Hs IH]; [reflexivity|]. cbn [flat_map map]. rewrite IH, utf8_cons. f_equal. cbv zeta. rewrite cap_upper.
    pose proof (cap_scalar r Hr) as Hc. replace (cap r <? 0) with false by (unfold scalar in Hc; lia). now apply encode_scalar.
Qed.

(** ** storing *)
Definition ext_chars (e : option (list Z)) : list Z := match e with None => [] | Some [] => [46] | Some x => x end.
Definition name_chars (s : list Z) (e : option (list Z)) : list Z := s ++ match e with None => [] | Some x => 46 :: x end.
Definition padded (s : list Z) (e : option (list Z)) : list Z := s ++ zrepeat 32 (6 - zlen s) ++ ext_chars e ++ zrepeat 32 (3 - zlen (ext_chars e)).
Definition opt_scalar (e : option (list Z)) : Prop := match e with None => True | Some x => Forall scalar x end.
Lemma ext_scalar e : opt_scalar e -> Forall scalar (ext_chars e).
Proof. destruct e as [[|c x]|]; cbn; auto. intros _. repeat constructor. unfold scalar. lia. Qed.
Lemma blanks_scalar n : Forall scalar (zrepeat 32 n).
Proof. apply Forall_zrepeat. unfold scalar. lia. Qed.
Lemma padded_scalar s e : Forall scalar s -> opt_scalar e -> Forall scalar (padded s e).
Proof. intros H1 H2. unfold padded. rewrite !Forall_app. auto using blanks_scalar, ext_scalar. Qed.
Lemma name_parts s e : Forall scalar s -> ~ In 46 s -> parts (utf8 (name_chars s e)) (utf8 s) (option_map utf8 e).
Proof.
  intros H1 H2. assert (~ In 46 (utf8 s)) as H3 by (rewrite utf8_in by (assumption || lia); exact H2). unfold name_chars. rewrite utf8_app. destruct e as [x|]; cbn [option_map].
  - rewrite utf8_cons. change (utf8_char 46) with [46]. now constructor.
  - rewrite app_nil_r. now constructor.
Qed.
Lemma utf8_nil rs : utf8 rs = [] -> rs = [].
Proof. intros E. apply zlen_zero_nil. pose proof (utf8_len_ge rs) as H. rewrite E in H. change (zlen (@nil Z)) with 0 in H. pose proof (zlen_nonneg rs). lia. Qed.
Lemma stored_unicode s e : Forall scalar s -> opt_scalar e -> ~ In 46 s -> name_chars s e <> [] ->
  FilenameToBytes table (utf8 (name_chars s e)) =
    if (zlen (utf8 s) <=? 6) && (match e with None => 0 | Some x => zlen (utf8 x) end <=? 3) then inl (utf8 (map cap (padded s e))) else inr (K ErrNameTooLong).
Proof.
  intros Hs He Hd Hne. unfold FilenameToBytes. destruct (utf8 (name_chars s e)) as [|c0 n0] eqn:En; [apply utf8_nil in En; contradiction|]. rewrite <- En.
  rewrite (split_dot_eq _ _ _ (name_parts s e Hs Hd)). clear En c0 n0.
  destruct (zlen (utf8 s) >? 6) eqn:E1; [now replace (zlen (utf8 s) <=? 6) with false by lia|]. replace (zlen (utf8 s) <=? 6) with true by lia. cbn [andb].
  assert (forall n x, Forall scalar x -> pad_runes n (utf8 x) = utf8 (x ++ zrepeat 32 (n - zlen x))) as Hpad.
  { intros n x Hx. unfold pad_runes. rewrite utf8_runes by assumption. now rewrite utf8_app, utf8_blanks. }
  destruct e as [x|]; cbn [option_map opt_scalar] in *.
  - destruct (zlen (utf8 x) =? 0) eqn:E2.
    + assert (x = []) as -> by (apply utf8_nil, zlen_zero_nil; lia). change (zlen (utf8 []) <=? 3) with true. cbv iota.
      change [dot] with (utf8 [46]). rewrite !Hpad by (auto; repeat constructor; unfold scalar; lia). rewrite <- utf8_app, <- app_assoc.
      rewrite ToUpper_utf8; [reflexivity|]. apply (padded_scalar s (Some [])); auto.
    + destruct (zlen (utf8 x) >? 3) eqn:E3; [now replace (zlen (utf8 x) <=? 3) with false by lia|]. replace (zlen (utf8 x) <=? 3) with true by lia.
      rewrite !Hpad by assumption. rewrite <- utf8_app, <- app_assoc. assert (ext_chars (Some x) = x) as Ex by (destruct x; [discriminate E2|reflexivity]).
      rewrite ToUpper_utf8; [unfold padded; now rewrite Ex|]. rewrite <- Ex. apply (padded_scalar s (Some x)); auto.
  - change (0 <=? 3) with true. cbv iota. rewrite Hpad by assumption. assert (s ++ zrepeat 32 (9 - zlen s) = padded s None) as ->.
    { unfold padded. cbn [ext_chars]. change (zlen (@nil Z)) with 0. rewrite app_nil_l. f_equal. pose proof (utf8_len_ge s). rewrite <- zrepeat_app by (pose proof (zlen_nonneg s); lia). f_equal. lia. }
    rewrite ToUpper_utf8; [reflexivity|]. apply padded_scalar; auto.
Qed.
(* lengths *)
Definition extra (rs : list Z) : Z := fold_right (fun r n => zlen (utf8_char (cap r)) - 1 + n) 0 rs.
Lemma caps_len rs : zlen (utf8 (map cap rs)) = zlen rs + extra rs.
Proof. induction rs as [|r rs IH]; [reflexivity|]. cbn [map]. rewrite utf8_cons, zlen_app, IH, zlen_cons. cbn [extra fold_right]. fold (extra rs). lia. Qed.
Lemma extra_app a b : extra (a ++ b) = extra a + extra b.
Proof. induction a as [|r a IH]; [reflexivity|]. cbn [app extra fold_right]. fold (extra a) (extra (a ++ b)). lia. Qed.
Lemma extra_blanks n : extra (zrepeat 32 n) = 0.
Proof. unfold zrepeat. induction (Z.to_nat n) as [|k IH]; [reflexivity|]. cbn [repeat extra fold_right]. fold (extra (repeat 32 k)). rewrite IH. reflexivity. Qed.
Lemma extra_nonneg rs : 0 <= extra rs.
Proof. induction rs as [|r rs IH]; [reflexivity|]. cbn [extra fold_right]. fold (extra rs). pose proof (char_len (cap r)). lia. Qed.
Lemma extra_zero rs : extra rs = 0 <-> Forall (fun r => cap r < 128) rs.
Proof.
  induction rs as [|r rs IH]; [split; auto|]. cbn [extra fold_right]. fold (extra rs). pose proof (char_len (cap r)). pose proof (extra_nonneg rs). pose proof (char_one (cap r)) as C.
  split.
  - intros E. constructor; [apply C; lia|apply IH; lia].
  - intros F. inversion F as [|? ? F1 F2]. apply C in F1. apply IH in F2. lia.
Qed.
Lemma padded_len s e : zlen s <= 6 -> zlen (ext_chars e) <= 3 -> zlen (padded s e) = 9.
Proof. intros H1 H2. unfold padded. rewrite !zlen_app, !zlen_repeat by lia. lia. Qed.
Lemma padded_extra s e : extra (padded s e) = extra (name_chars s e).
Proof.
  unfold padded, name_chars. rewrite !extra_app, !extra_blanks. destruct e as [[|c x]|]; cbn [ext_chars]; try reflexivity.
  change (46 :: c :: x) with ([46] ++ (c :: x)). rewrite extra_app. change (extra [46]) with 0. lia.
Qed.
Lemma ext_chars_len e : match e with None => 0 | Some x => zlen (utf8 x) end <= 3 -> zlen (ext_chars e) <= 3.
Proof. destruct e as [[|c x]|]; cbn [ext_chars]; try (intros _; cbn; lia). pose proof (utf8_len_ge (c :: x)). lia. Qed.
Lemma stored_len s e raw : Forall scalar s -> opt_scalar e -> ~ In 46 s -> name_chars s e <> [] -> FilenameToBytes table (utf8 (name_chars s e)) = inl raw ->
  zlen raw = 9 + extra (name_chars s e).
Proof.
  intros Hs He Hd Hne. rewrite stored_unicode by assumption. destruct (_ && _) eqn:E; [|discriminate]. intros [= <-]. rewrite caps_len, padded_extra. f_equal.
  apply andb_true_iff in E. destruct E as [E1 E2]. apply padded_len; [pose proof (utf8_len_ge s); lia|]. apply ext_chars_len. lia.
Qed.

(* names that correspond character by character *)
Definition alike (x y : Z) : Prop := cap x = cap y /\ zlen (utf8_char x) = zlen (utf8_char y) /\ (x = 46 <-> y = 46).
Lemma alike_caps a b : Forall2 alike a b -> map cap a = map cap b /\ zlen (utf8 a) = zlen (utf8 b) /\ zlen a = zlen b /\ (In 46 a <-> In 46 b).
Proof.
  induction 1 as [|x y a b (H1 & H2 & H3) _ (I1 & I2 & I3 & I4)]; [cbn; tauto|]. cbn [map]. rewrite !utf8_cons, !zlen_app, !zlen_cons. cbn [In]. rewrite I4.
  split; [congruence|]. split; [lia|]. split; [lia|]. assert (x = 46 <-> y = 46) by exact H3. tauto.
Qed.
Lemma alike_split a b : Forall2 alike a b -> exists s e s' e', a = name_chars s e /\ b = name_chars s' e' /\ ~ In 46 s /\ ~ In 46 s' /\ Forall2 alike s s' /\
  match e, e' with None, None => True | Some x, Some x' => Forall2 alike x x' | _, _ => False end.
Proof.
  induction 1 as [|x y a b Hxy Hab (s & e & s' & e' & -> & -> & H1 & H2 & H3 & H4)].
  - exists [], None, [], None. repeat split; auto.
  - destruct (Z.eq_dec x 46) as [E|E].
    + assert (y = 46) as E2 by (apply Hxy; exact E). exists [], (Some (name_chars s e)), [], (Some (name_chars s' e')). subst x y. repeat split; auto.
    + assert (y <> 46) as E2 by (intros X; apply E; apply Hxy; exact X). exists (x :: s), e, (y :: s'), e'. repeat split; auto; intros [X|X]; auto.
Qed.
Lemma stored_alike a b : Forall scalar a -> Forall scalar b -> Forall2 alike a b -> FilenameToBytes table (utf8 a) = FilenameToBytes table (utf8 b).
Proof.
  intros Ha Hb H. destruct a as [|a0 a1] eqn:Ea; [inversion H; reflexivity|]. assert (b <> []) as Hnb by (intros ->; inversion H). rewrite <- Ea in *. assert (a <> []) as Hna by congruence. clear Ea a0 a1.
  destruct (alike_split a b H) as (s & e & s' & e' & -> & -> & H1 & H2 & H3 & H4). unfold name_chars in Ha, Hb. rewrite Forall_app in Ha, Hb. destruct Ha as [Hs He], Hb as [Hs' He'].
  assert (opt_scalar e /\ opt_scalar e') as [Ho Ho'] by (split; [destruct e; [now inversion He|exact I]|destruct e'; [now inversion He'|exact I]]).
  rewrite (stored_unicode s e), (stored_unicode s' e') by assumption. destruct (alike_caps s s' H3) as (C1 & C2 & C3 & _). rewrite C2.
  destruct e as [x|], e' as [x'|]; try contradiction.
  - destruct (alike_caps x x' H4) as (D1 & D2 & D3 & _). rewrite D2. destruct (_ && _); [|reflexivity]. do 2 f_equal. unfold padded. rewrite !map_app, C1, C3. do 2 f_equal.
    destruct x as [|c x], x' as [|c' x']; try (inversion H4; fail); cbn [ext_chars]; [reflexivity|]. now rewrite D1, D3.
  - destruct (_ && _); [|reflexivity]. do 2 f_equal. unfold padded. now rewrite !map_app, C1, C3.
Qed.

(** ** showing *)
Lemma trim_utf8 rs : Forall scalar rs -> trim_right (utf8 rs) = utf8 (trim_right rs).
Proof.
  intros H. apply trim_right_eq. destruct (trim_right_spec rs) as (b & E & Hb & Ht). exists (utf8 b). split; [rewrite E at 1; apply utf8_app|].
  split; [rewrite (blank_is b Hb), utf8_blanks; apply blank_repeat|].
  set (t := trim_right rs) in *. clearbody t. intros u Eu. destruct t as [|r t _] using rev_ind; [now destruct u|]. rewrite utf8_app in Eu. change (utf8 [r]) with (utf8_char r ++ []) in Eu. rewrite app_nil_r in Eu.
  assert (scalar r) as Hr by (subst rs; rewrite !Forall_app in H; destruct H as [[_ H] _]; now inversion H).
  destruct (utf8_char r) as [|y v _] eqn:Ev using rev_ind; [pose proof (char_len r) as X; rewrite Ev in X; change (zlen (@nil Z)) with 0 in X; lia|].
  rewrite app_assoc in Eu. apply app_inj_tail in Eu. destruct Eu as [_ ->]. apply (Ht t). f_equal. f_equal. now apply (char_last32 r v).
Qed.
Lemma cap_32 r : scalar r -> cap r = 32 -> r = 32 \/ 128 <= r.
Proof. intros H. unfold unicode_capital. destruct (r <? 128) eqn:E; [|lia]. destruct ((97 <=? r) && (r <=? 122)) eqn:E2; lia. Qed.
Lemma caps_blanks n : map cap (zrepeat 32 n) = zrepeat 32 n.
Proof. unfold zrepeat. induction (Z.to_nat n) as [|k IH]; [reflexivity|]. cbn [repeat map]. rewrite IH. reflexivity. Qed.
Lemma trim_cons_blank t : trim_right (t ++ zrepeat 32 0) = trim_right t.
Proof. apply trim_pad. Qed.
Lemma caps_idem rs : Forall scalar rs -> map cap (map cap rs) = map cap rs.
Proof. intros H. rewrite map_map. apply map_ext_in. intros r Hr. apply cap_idem. rewrite Forall_forall in H. auto. Qed.
Lemma trim_scalar rs : Forall scalar rs -> Forall scalar (trim_right rs).
Proof. intros H. destruct (trim_right_spec rs) as (b & E & _). rewrite E in H. rewrite Forall_app in H. tauto. Qed.
Lemma map_blank_inv : forall (l : list Z) n b, map cap l = n ++ b -> exists l1 l2, l = l1 ++ l2 /\ map cap l1 = n /\ map cap l2 = b.
Proof. intros l n b E. exists (firstn (length n) l), (skipn (length n) l). split; [now rewrite firstn_skipn|]. rewrite <- firstn_map, <- skipn_map, E. rewrite firstn_app, skipn_app, firstn_all, skipn_all, Nat.sub_diag, firstn_O, app_nil_r. auto. Qed.
(* the stored form of stem s and a stem that fits six bytes *)
Lemma shown_unicode s x u v : Forall scalar s -> Forall scalar x -> zlen (utf8 (map cap s)) <= 6 -> zlen s <= 6 -> zlen x <= 3 ->
  u = trim_right (map cap s) -> v = trim_right (map cap x) ->
  BytesToFilename table (utf8 (map cap (s ++ zrepeat 32 (6 - zlen s) ++ x ++ zrepeat 32 (3 - zlen x)))) =
    Ret (utf8 (u ++ match v with [] => [] | _ => 46 :: zrepeat 32 (zlen (utf8 (map cap s)) - zlen s) ++ v end)).
Proof.
  intros Hs Hx L6 Ls Lx -> ->. rewrite !map_app, !caps_blanks, !utf8_app, !utf8_blanks.
  set (S := utf8 (map cap s)) in *. set (X := utf8 (map cap x)). pose proof (caps_len s) as CL. fold S in CL. pose proof (extra_nonneg s).
  pose proof (caps_len x) as CX. fold X in CX. pose proof (extra_nonneg x). pose proof (zlen_nonneg S). pose proof (zlen_nonneg X). pose proof (zlen_nonneg s). pose proof (zlen_nonneg x).
  assert (zrepeat 32 (6 - zlen s) = zrepeat 32 (6 - zlen S) ++ zrepeat 32 (zlen S - zlen s)) as -> by (rewrite <- zrepeat_app by lia; f_equal; lia).
  set (P := S ++ zrepeat 32 (6 - zlen S)). set (Q := zrepeat 32 (zlen S - zlen s) ++ X ++ zrepeat 32 (3 - zlen x)).
  replace (S ++ (zrepeat 32 (6 - zlen S) ++ zrepeat 32 (zlen S - zlen s)) ++ X ++ zrepeat 32 (3 - zlen x)) with (P ++ Q) by (unfold P, Q; now rewrite <- !app_assoc).
  assert (zlen P = 6) as LP by (unfold P; rewrite zlen_app, zlen_repeat by lia; lia).
  unfold BytesToFilename. rewrite zlen_app, LP. pose proof (zlen_nonneg Q). replace (6 + zlen Q <? 6) with false by lia. f_equal.
  rewrite (slice_app_l 0 6), (slice_full 6 P) by lia. rewrite (slice_app_r 6) by lia. replace (6 - zlen P) with 0 by lia. replace (6 + zlen Q - 6) with (zlen Q) by lia. rewrite slice_full by lia.
  assert (trim_right P = utf8 (trim_right (map cap s))) as -> by (unfold P; rewrite trim_pad; unfold S; now rewrite trim_utf8 by now apply caps_scalar).
  assert (trim_right Q = match trim_right (map cap x) with [] => [] | v => zrepeat 32 (zlen S - zlen s) ++ utf8 v end) as ->.
  { unfold Q. rewrite app_assoc, trim_pad. pose proof (trim_utf8 (map cap x) (caps_scalar x Hx)) as TX. fold X in TX. apply trim_right_eq.
    destruct (trim_right_spec X) as (b & Eb & Hb & Ht). rewrite TX in Eb, Ht. destruct (trim_right (map cap x)) as [|c v] eqn:Ev.
    - exists (zrepeat 32 (zlen S - zlen s) ++ X). split; [reflexivity|]. split; [|intros w Ew; now destruct w]. unfold blank. rewrite Forall_app. split; [apply blank_repeat|]. rewrite Eb. exact Hb.
    - exists b. split; [rewrite Eb at 1; now rewrite app_assoc|]. split; [exact Hb|]. intros w Ew.
      destruct (utf8 (c :: v)) as [|y z _] eqn:Ez using rev_ind; [apply utf8_nil in Ez; discriminate|]. rewrite app_assoc in Ew. apply app_inj_tail in Ew. destruct Ew as [_ ->]. now apply (Ht z). }
  pose proof (trim_scalar _ (caps_scalar x Hx)) as HV. pose proof (trim_scalar _ (caps_scalar s Hs)) as HU.
  assert (forall rs, Forall scalar rs -> map cap (trim_right (map cap rs)) = trim_right (map cap rs)) as HI.
  { intros rs Hrs. destruct (trim_right_spec (map cap rs)) as (b & Eb & _). pose proof (caps_idem rs Hrs) as EI. rewrite Eb in EI. rewrite map_app in EI. apply app_inj_len in EI; [tauto|]. now rewrite zlen_map. }
  destruct (trim_right (map cap x)) as [|c v] eqn:Ev.
  - change (zlen (@nil Z) >? 0) with false. cbv iota. rewrite app_nil_r, ToUpper_utf8 by assumption. now rewrite HI by assumption.
  - pose proof (utf8_len_ge (c :: v)). rewrite zlen_cons in *. pose proof (zlen_nonneg v).
    replace (zlen (zrepeat 32 (zlen S - zlen s) ++ utf8 (c :: v)) >? 0) with true by (rewrite zlen_app, zlen_repeat by lia; lia).
    assert (utf8 (trim_right (map (unicode_capital table) s)) ++ dot :: zrepeat 32 (zlen S - zlen s) ++ utf8 (c :: v) = utf8 (trim_right (map (unicode_capital table) s) ++ 46 :: zrepeat 32 (zlen S - zlen s) ++ c :: v)) as ->
      by (rewrite utf8_app, (utf8_cons 46), utf8_app, utf8_blanks; reflexivity).
    rewrite ToUpper_utf8.
    + rewrite <- utf8_app. f_equal. rewrite map_app. cbn [map]. rewrite !map_app, caps_blanks, HI by assumption. rewrite <- Ev, HI, Ev by assumption. reflexivity.
    + rewrite Forall_app. split; [exact HU|]. constructor; [unfold scalar; lia|]. rewrite Forall_app. split; [apply blanks_scalar|exact HV].
Qed.
End Caps.

(** ** ASCII *)
Lemma pad_ascii n s : ascii s -> pad_runes n s = pad_right n s.
Proof. intros H. unfold pad_runes, pad_right. now rewrite ascii_runes. Qed.
Lemma pad_is_ascii n s : ascii s -> ascii (pad_right n s).
Proof. intros H. unfold pad_right, ascii. rewrite Forall_app. split; [exact H|]. apply Forall_zrepeat. lia. Qed.
Lemma parts_ascii n s e : parts n s e -> ascii n -> ascii s /\ match e with None => True | Some x => ascii x end.
Proof. intros [s' Hs|s' x Hs] H; [auto|]. unfold ascii in *. rewrite Forall_app in H. destruct H as [H1 H2]. inversion H2. auto. Qed.
Lemma to_bytes_ascii table name : ascii name -> FilenameToBytes table name = filename_to_bytes name.
Proof.
  intros H. unfold FilenameToBytes, filename_to_bytes. destruct name as [|c n0] eqn:En; [reflexivity|]. rewrite <- En in *. clear En c n0.
  pose proof (split_dot_parts name) as P. destruct (split_dot name) as [s e]. destruct (parts_ascii _ _ _ P H) as [Hs He].
  destruct (zlen s >? 6); [reflexivity|]. destruct e as [x|].
  - destruct (zlen x =? 0).
    + assert (ascii [dot]) as Hd by (repeat constructor; unfold dot; lia). rewrite !pad_ascii by assumption. rewrite ToUpper_ascii; [reflexivity|]. unfold ascii. rewrite Forall_app. split; now apply pad_is_ascii.
    + destruct (zlen x >? 3); [reflexivity|]. rewrite !pad_ascii by assumption. rewrite ToUpper_ascii; [reflexivity|]. unfold ascii. rewrite Forall_app. split; now apply pad_is_ascii.
  - rewrite pad_ascii by assumption. rewrite ToUpper_ascii; [reflexivity|]. now apply pad_is_ascii.
Qed.
Lemma ascii_trim s : ascii s -> ascii (trim_right s).
Proof. intros H. destruct (trim_right_spec s) as (b & E & _). unfold ascii in *. rewrite E in H. rewrite Forall_app in H. tauto. Qed.
Lemma of_bytes_ascii table raw : ascii raw -> BytesToFilename table raw = bytes_to_filename raw.
Proof.
  intros H. unfold BytesToFilename, bytes_to_filename. destruct (zlen raw <? 6); [reflexivity|]. f_equal. apply ToUpper_ascii.
  assert (ascii (trim_right (slice 0 6 raw))) as H1 by (apply ascii_trim; now apply Forall_slice).
  assert (ascii (trim_right (slice 6 (zlen raw - 6) raw))) as H2 by (apply ascii_trim; now apply Forall_slice).
  destruct (zlen (trim_right (slice 6 (zlen raw - 6) raw)) >? 0); [|exact H1]. unfold ascii in *. rewrite Forall_app. split; [exact H1|]. constructor; [unfold dot; lia|exact H2].
Qed.
Lemma stat_ascii table d path : ascii path -> Stat8 table d path = stat_file d path.
Proof. intros H. unfold Stat8, stat_file. now rewrite ToUpper_ascii. Qed.

(** ** EqualFold *)
Section Fold.
Context (class next : Z -> Z) (HF : folds class next).
Lemma fold_same fuel sr tr r : 0 <= sr < tr -> class sr = class tr -> sr < r <= tr -> class r = class sr -> tr - r < Z.of_nat fuel -> fold_loop next fuel sr tr r = Ret tr.
Proof.
  revert r. induction fuel as [|f IH]; intros r Hst Hc Hr Hcr Hf; [lia|]. cbn [fold_loop]. replace (r =? sr) with false by lia. cbn [negb andb].
  destruct (r <? tr) eqn:E; [|f_equal; lia]. destruct HF as [HF1 _]. destruct (HF1 r ltac:(lia)) as (Hn & Hcn & [(Hlt & Hmin)|(Hle & Hmin)]).
  - specialize (Hmin tr ltac:(lia) ltac:(congruence) ltac:(lia)). apply IH; try assumption; try lia; try congruence.
  - specialize (Hmin tr ltac:(lia) ltac:(congruence)). lia.
Qed.
Lemma fold_other fuel sr tr r : 0 <= sr < tr -> class sr <> class tr -> 0 <= r -> class r = class sr ->
  (if r >? sr then Z.max 0 (tr - r) + sr + 2 else sr - r + 1) <= Z.of_nat fuel -> exists x, fold_loop next fuel sr tr r = Ret x /\ class x = class sr.
Proof.
  revert r. induction fuel as [|f IH]; intros r Hst Hc Hr Hcr Hf.
  - destruct (r >? sr) eqn:E; lia.
  - cbn [fold_loop]. destruct (negb (r =? sr) && (r <? tr)) eqn:E; [|now exists r]. destruct HF as [HF1 _].
    destruct (HF1 r Hr) as (Hn & Hcn & [(Hlt & Hmin)|(Hle & Hmin)]).
    + apply IH; try assumption; [congruence|]. destruct (r >? sr) eqn:E1.
      * replace (next r >? sr) with true by lia. lia.
      * specialize (Hmin sr ltac:(lia) ltac:(congruence) ltac:(lia)). replace (next r >? sr) with false by lia. lia.
    + apply IH; try assumption; [congruence|]. pose proof (Hmin sr ltac:(lia) ltac:(congruence)). replace (r >? sr) with true in Hf by lia.
      replace (next r >? sr) with false by lia. lia.
Qed.
Lemma fold_runes_spec a b : 0 <= a -> 0 <= b -> exists e, fold_runes next a b = Ret e /\ (e = true <-> class a = class b).
Proof.
  intros Ha Hb. unfold fold_runes. destruct (b =? a) eqn:E0; [exists true; split; [reflexivity|]; replace b with a by lia; tauto|].
  assert (forall sr tr, 0 <= sr < tr -> exists e, (if tr <? 128 then Ret ((65 <=? sr) && (sr <=? 90) && (tr =? sr + 32))
    else obind (fold_loop next (Z.to_nat (sr + tr + 3)) sr tr (next sr)) (fun r => Ret (r =? tr))) = Ret e /\ (e = true <-> class sr = class tr)) as H.
  { intros sr tr Hst. destruct (tr <? 128) eqn:E1.
    - eexists. split; [reflexivity|]. destruct HF as [_ HA]. rewrite (HA sr tr) by lia. unfold unicode_capital. replace (sr <? 128) with true by lia. replace (tr <? 128) with true by lia.
      rewrite !andb_true_iff, Z.eqb_eq, !Z.leb_le. destruct (97 <=? sr) eqn:E2, (sr <=? 122) eqn:E3, (97 <=? tr) eqn:E4, (tr <=? 122) eqn:E5; cbn [andb]; lia.
    - destruct (Z.eq_dec (class sr) (class tr)) as [Ec|Ec].
      + rewrite fold_same; try assumption; cbn [obind].
        * exists true. rewrite Z.eqb_refl. tauto.
        * destruct HF as [HF1 _]. destruct (HF1 sr ltac:(lia)) as (_ & _ & [(Hlt & Hm)|(Hle & Hm)]).
          -- specialize (Hm tr ltac:(lia) ltac:(congruence) ltac:(lia)). lia.
          -- specialize (Hm tr ltac:(lia) ltac:(congruence)). lia.
        * destruct HF as [HF1 _]. destruct (HF1 sr ltac:(lia)) as (_ & Hc & _). exact Hc.
        * destruct HF as [HF1 _]. destruct (HF1 sr ltac:(lia)) as (Hn & _). lia.
      + destruct HF as [HF1 _]. destruct (HF1 sr ltac:(lia)) as (Hn & Hc & _).
        destruct (fold_other (Z.to_nat (sr + tr + 3)) sr tr (next sr)) as (x & -> & Hx); try assumption.
        { destruct (next sr >? sr) eqn:E3; lia. }
        cbn [obind]. exists (x =? tr). split; [reflexivity|]. split; [intros Ex; apply Z.eqb_eq in Ex; subst x; congruence|contradiction]. }
  destruct (b <? a) eqn:E1.
  - destruct (H b a ltac:(lia)) as (e & He & Hc). exists e. split; [exact He|]. rewrite Hc. split; congruence.
  - apply H. lia.
Qed.
Lemma fold_rest_spec : forall s t, Forall (fun r => 0 <= r) s -> Forall (fun r => 0 <= r) t -> exists e, fold_rest next s t = Ret e /\ (e = true <-> map class s = map class t).
Proof.
  induction s as [|a s IH]; intros t Hs Ht; cbn [fold_rest].
  - eexists. split; [reflexivity|]. destruct t; cbn [map]; split; auto; discriminate.
  - destruct t as [|b t]; [exists false; split; [reflexivity|]; split; discriminate|]. inversion Hs as [|? ? Ha Hs']; subst. inversion Ht as [|? ? Hb Ht']; subst.
    destruct (fold_runes_spec a b Ha Hb) as (e & -> & He). cbn [obind map]. destruct e.
    + destruct (IH t Hs' Ht') as (e & -> & He'). exists e. split; [reflexivity|]. rewrite He'. destruct He as [He _]. specialize (He eq_refl). split; [intros ->; now rewrite He|congruence].
    + exists false. split; [reflexivity|]. split; [discriminate|]. intros [= E _]. apply He in E. discriminate.
Qed.
Lemma runes_nonneg s : Forall (fun c => 0 <= c) s -> Forall (fun r => 0 <= r) (runes s).
Proof.
  assert (forall n s, (length s <= n)%nat -> Forall (fun c => 0 <= c) s -> Forall (fun r => 0 <= r) (runes s)) as H; [|intros Hs; now apply (H (length s))].
  induction n as [|n IH]; intros [|b0 t] L Hs; cbn [length] in L; try lia; try constructor. inversion Hs as [|? ? H0 Ht]; subst. cbn [runes].
  assert (0 <= RuneError) as HR by (unfold RuneError; lia).
  destruct (b0 <? 128); [constructor; [exact H0|apply IH; [lia|exact Ht]]|].
  assert (Forall (fun r => 0 <= r) (RuneError :: runes t)) as HE by (constructor; [exact HR|apply IH; [lia|exact Ht]]).
  destruct t as [|b1 t1]; [now repeat constructor|]. inversion Ht as [|? ? H1 Ht1]; subst. cbn [length] in L.
  destruct (rune2 b0 b1) as [r|] eqn:E2.
  { constructor; [|apply IH; [lia|exact Ht1]]. unfold rune2 in E2. change (2^5) with 32 in E2. change (2^6) with 64 in E2. destruct (_ && _); [|discriminate]. injection E2 as <-. lia. }
  destruct t1 as [|b2 t2]; [exact HE|]. inversion Ht1 as [|? ? H2 Ht2]; subst. cbn [length] in L.
  destruct (rune3 b0 b1 b2) as [r|] eqn:E3.
  { constructor; [|apply IH; [lia|exact Ht2]]. unfold rune3 in E3. change (2^4) with 16 in E3. change (2^6) with 64 in E3. change (2^12) with 4096 in E3. destruct (_ && cont b2); [|discriminate]. injection E3 as <-. lia. }
  destruct t2 as [|b3 t3]; [exact HE|]. inversion Ht2 as [|? ? H3 Ht3]; subst. cbn [length] in L.
  destruct (rune4 b0 b1 b2 b3) as [r|] eqn:E4; [|exact HE].
  constructor; [|apply IH; [lia|exact Ht3]]. unfold rune4 in E4. change (2^3) with 8 in E4. change (2^6) with 64 in E4. change (2^12) with 4096 in E4. change (2^18) with 262144 in E4.
  destruct (_ && cont b3); [|discriminate]. injection E4 as <-. lia.
Qed.
Lemma runes_nil s : runes s = [] -> s = [].
Proof.
  destruct s as [|b0 t]; [reflexivity|]. cbn [runes]. destruct (b0 <? 128); [discriminate|]. destruct t as [|b1 t1]; [discriminate|]. destruct (rune2 b0 b1); [discriminate|].
  destruct t1 as [|b2 t2]; [discriminate|]. destruct (rune3 b0 b1 b2); [discriminate|]. destruct t2 as [|b3 t3]; [discriminate|]. now destruct (rune4 b0 b1 b2 b3).
Qed.
Lemma EqualFold_spec : forall s t, Forall (fun c => 0 <= c) s -> Forall (fun c => 0 <= c) t ->
  exists e, EqualFold next s t = Ret e /\ (e = true <-> map class (runes s) = map class (runes t)).
Proof.
  induction s as [|a s IH]; intros t Hs Ht.
  - exists (zlen (@nil Z) =? zlen t). split; [destruct t; reflexivity|]. destruct t as [|b t]; [cbn; tauto|]. rewrite zlen_cons. pose proof (zlen_nonneg t). change (zlen (@nil Z)) with 0.
    replace (0 =? 1 + zlen t) with false by lia. split; [discriminate|]. cbn [runes map]. intros E. symmetry in E. apply map_eq_nil in E. change (runes (b :: t) = []) in E. apply runes_nil in E. discriminate.
  - destruct t as [|b t].
    + exists (zlen (a :: s) =? zlen (@nil Z)). split; [reflexivity|]. rewrite zlen_cons. pose proof (zlen_nonneg s). change (zlen (@nil Z)) with 0.
      replace (1 + zlen s =? 0) with false by lia. split; [discriminate|]. intros E. apply map_eq_nil in E. apply runes_nil in E. discriminate.
    + cbn [EqualFold]. destruct ((128 <=? a) || (128 <=? b)) eqn:E1; [apply fold_rest_spec; now apply runes_nonneg|].
      inversion Hs as [|? ? Ha Hs']; subst. inversion Ht as [|? ? Hb Ht']; subst.
      assert (runes (a :: s) = a :: runes s) as -> by (cbn [runes]; now replace (a <? 128) with true by lia).
      assert (runes (b :: t) = b :: runes t) as -> by (cbn [runes]; now replace (b <? 128) with true by lia). cbn [map].
      destruct (IH t Hs' Ht') as (e & Ee & He). destruct (b =? a) eqn:E2.
      * exists e. split; [exact Ee|]. replace b with a by lia. rewrite He. split; [now intros ->|congruence].
      * destruct HF as [_ HA]. assert (forall x : bool, x = true <-> class a = class b ->
          exists e0, (if x then EqualFold next s t else Ret false) = Ret e0 /\ (e0 = true <-> class a :: map class (runes s) = class b :: map class (runes t))) as HX.
        { intros [|] [Hx1 Hx2].
          - exists e. split; [exact Ee|]. rewrite He, (Hx1 eq_refl). split; [now intros ->|congruence].
          - exists false. split; [reflexivity|]. split; [discriminate|]. intros [= E _]. apply Hx2 in E. discriminate. }
        destruct (b <? a) eqn:E3; apply HX; rewrite (HA a b) by lia; unfold unicode_capital; replace (a <? 128) with true by lia; replace (b <? 128) with true by lia;
          rewrite !andb_true_iff, Z.eqb_eq, !Z.leb_le; destruct (97 <=? a) eqn:F2, (a <=? 122) eqn:F3, (97 <=? b) eqn:F4, (b <=? 122) eqn:F5; cbn [andb]; lia.
Qed.
End Fold.
Lemma EqualFold_ascii next : forall s t, ascii s -> ascii t -> EqualFold next s t = Ret (equal_fold s t).
Proof.
  induction s as [|a s IH]; intros [|b t] Hs Ht; try reflexivity.
  - inversion Hs as [|? ? Ha Hs']; subst. inversion Ht as [|? ? Hb Ht']; subst. cbn [EqualFold equal_fold]. replace ((128 <=? a) || (128 <=? b)) with false by lia.
    rewrite (IH t Hs' Ht'). destruct (b =? a) eqn:E.
    + replace (Z.min a b =? Z.max a b) with true by lia. reflexivity.
    + replace (Z.min a b =? Z.max a b) with false by lia. cbn [orb]. destruct (b <? a) eqn:E2.
      * replace (Z.min a b) with b by lia. replace (Z.max a b) with a by lia. now destruct (_ && _).
      * replace (Z.min a b) with a by lia. replace (Z.max a b) with b by lia. now destruct (_ && _).
Qed.
