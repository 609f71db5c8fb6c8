(** * Props_Fat8Unicode: C171-C173, FAT8 names of any characters (C68, C69 and C127 are about ASCII). *)
From Coq Require Import String.
From Verif Require Import GoBase ListZ Errors Flags GoPath GoPathProofs Spec_Path OsFile Fat8 Spec_Fat8 Fat8Proofs Fat8Proofs6 Fat8Names Fat8Same Spec_Fat8Same Fat8SameProofs Spec_Utf8 Fat8Unicode Fat8UnicodeProofs.

(** ** C171 *)
(* what is accepted, for any bytes at all: the limits are in bytes *)
Theorem C171_accepted table name s e : name <> [] -> parts name s e ->
  (6 < zlen s \/ (exists x, e = Some x /\ 3 < zlen x) -> FilenameToBytes table name = inr (K ErrNameTooLong)) /\
  (zlen s <= 6 -> (forall x, e = Some x -> zlen x <= 3) -> exists raw, FilenameToBytes table name = inl raw) /\
  FilenameToBytes table [] = inr (K ErrInvalidArgument).
Proof.
  intros Hn HP. unfold FilenameToBytes. destruct name as [|c n]; [contradiction|]. rewrite (split_dot_eq _ _ _ HP). split; [|split; [|reflexivity]].
  - intros [H|(x & -> & H)]; [now replace (zlen s >? 6) with true by lia|]. destruct (zlen s >? 6); [reflexivity|]. replace (zlen x =? 0) with false by lia. now replace (zlen x >? 3) with true by lia.
  - intros H1 H2. replace (zlen s >? 6) with false by lia. destruct e as [x|]; [|eauto]. specialize (H2 x eq_refl). destruct (zlen x =? 0); [eauto|]. replace (zlen x >? 3) with false by lia. eauto.
Qed.
(* the stored form of a name in UTF-8: its capitals, padded to six and three characters *)
Theorem C171_stored table s e : capitals_table table -> Forall scalar s -> (forall x, e = Some x -> Forall scalar x) -> ~ In 46 s ->
  let name := s ++ match e with None => [] | Some x => 46 :: x end in name <> [] ->
  zlen (utf8 s) <= 6 -> (forall x, e = Some x -> zlen (utf8 x) <= 3) ->
  FilenameToBytes table (utf8 name) = inl (utf8 (map (unicode_capital table)
    (s ++ zrepeat 32 (6 - zlen s) ++ match e with None => zrepeat 32 3 | Some [] => 46 :: zrepeat 32 2 | Some x => x ++ zrepeat 32 (3 - zlen x) end))).
Proof.
  intros HT Hs He Hd name Hn L1 L2. assert (opt_scalar e) as Ho by (destruct e; [now apply He|exact I]).
  unfold name. fold (name_chars s e). rewrite stored_unicode by assumption. replace (zlen (utf8 s) <=? 6) with true by lia.
  assert (match e with None => 0 | Some x => zlen (utf8 x) end <=? 3 = true) as -> by (destruct e as [x|]; [specialize (L2 x eq_refl); lia|reflexivity]). cbn [andb]. do 3 f_equal.
  unfold padded. do 2 f_equal. destruct e as [[|c x]|]; reflexivity.
Qed.
(* its length: nine, and the bytes beyond one for each character; nine exactly when all capitals are ASCII *)
Theorem C171_nine_bytes_exactly table rs raw : capitals_table table -> Forall scalar rs -> FilenameToBytes table (utf8 rs) = inl raw ->
  zlen raw = 9 + (zlen (utf8 (map (unicode_capital table) rs)) - zlen rs) /\ 9 <= zlen raw /\
  (zlen raw = 9 <-> Forall (fun r => unicode_capital table r < 128) rs).
Proof.
  intros HT Hs E. pose proof (split_dot_parts rs) as P. destruct (split_dot rs) as [s e].
  assert (rs = name_chars s e /\ ~ In 46 s) as [En Hd] by (unfold name_chars; inversion P; subst; [rewrite app_nil_r|]; auto).
  assert (rs <> []) as Hn by (intros ->; discriminate E). rewrite caps_len. rewrite En in *. clear En P rs.
  unfold name_chars in Hs. rewrite Forall_app in Hs. destruct Hs as [Hs He]. assert (opt_scalar e) as Ho by (destruct e; [now inversion He|exact I]).
  pose proof (stored_len table HT s e raw Hs Ho Hd Hn E) as L. pose proof (extra_nonneg table (name_chars s e)). pose proof (extra_zero table (name_chars s e)) as Z0.
  split; [lia|]. split; [lia|]. rewrite <- Z0. lia.
Qed.
Theorem C171_nine_bytes_refuted table rs raw r : capitals_table table -> Forall scalar rs -> FilenameToBytes table (utf8 rs) = inl raw ->
  In r rs -> 128 <= unicode_capital table r -> 9 < zlen raw.
Proof.
  intros HT Hs E Hr H. destruct (C171_nine_bytes_exactly table rs raw HT Hs E) as (_ & L & X). destruct (Z.eq_dec (zlen raw) 9) as [E9|]; [|lia].
  apply X in E9. rewrite Forall_forall in E9. specialize (E9 r Hr). lia.
Qed.
(* what is shown for it: the extension is preceded by a blank for every byte too many in the stem *)
Theorem C171_shown table s x s' x' raw : capitals_table table -> Forall scalar s -> Forall scalar x -> ~ In 46 s -> x <> [] ->
  let cap := map (unicode_capital table) in FilenameToBytes table (utf8 (s ++ 46 :: x)) = inl raw ->
  zlen (utf8 (cap s)) <= 6 -> trimmed (cap s) s' -> trimmed (cap x) x' ->
  BytesToFilename table raw = Ret (utf8 (s' ++ match x' with [] => [] | _ => 46 :: zrepeat 32 (zlen (utf8 (cap s)) - zlen s) ++ x' end)).
Proof.
  intros HT Hs Hx Hd Hne cap E L6 T1 T2. assert (name_chars s (Some x) <> []) as Hn by (unfold name_chars; now destruct s).
  change (s ++ 46 :: x) with (name_chars s (Some x)) in E. rewrite (stored_unicode table HT s (Some x) Hs Hx Hd Hn) in E. destruct (_ && _) eqn:EL; [|discriminate]. injection E as <-.
  apply andb_true_iff in EL. destruct EL as [L1 L2]. pose proof (utf8_len_ge s). pose proof (utf8_len_ge x).
  assert (padded s (Some x) = s ++ zrepeat 32 (6 - zlen s) ++ x ++ zrepeat 32 (3 - zlen x)) as -> by (unfold padded; now destruct x).
  apply shown_unicode; auto; try lia; symmetry; now apply trim_right_eq.
Qed.
(* so a name with an extension, and a stem whose capitals are not all ASCII, does not come back *)
Theorem C171_round_trip_refuted table s x raw : capitals_table table -> Forall scalar s -> Forall scalar x -> ~ In 46 s -> x <> [] ->
  let cap := map (unicode_capital table) in FilenameToBytes table (utf8 (s ++ 46 :: x)) = inl raw -> zlen (utf8 (cap s)) <= 6 ->
  (forall u, cap s <> u ++ [32]) -> (forall u, cap x <> u ++ [32]) -> (exists r, In r s /\ 128 <= unicode_capital table r) ->
  exists name, BytesToFilename table raw = Ret name /\ name <> utf8 (cap (s ++ 46 :: x)) /\ zlen (utf8 (cap (s ++ 46 :: x))) < zlen name.
Proof.
  intros HT Hs Hx Hd Hne cap E L6 Hb1 Hb2 (r & Hr & H).
  assert (forall l, (forall u, l <> u ++ [32]) -> trimmed l l) as HTr by (intros l Hl; exists []; rewrite app_nil_r; repeat split; auto; constructor).
  pose proof (C171_shown table s x (cap s) (cap x) raw HT Hs Hx Hd Hne E L6 (HTr _ Hb1) (HTr _ Hb2)) as ES. cbv zeta in ES. fold cap in ES.
  assert (0 < zlen (utf8 (cap s)) - zlen s) as Hk.
  { unfold cap. rewrite caps_len. pose proof (extra_nonneg table s). destruct (Z.eq_dec (extra table s) 0) as [Ez|]; [|lia]. apply extra_zero in Ez. rewrite Forall_forall in Ez. specialize (Ez r Hr). lia. }
  set (k := zlen (utf8 (cap s)) - zlen s) in *. destruct (cap x) as [|c v] eqn:Ev; [destruct x; [contradiction|discriminate]|]. eexists. split; [exact ES|].
  assert (zlen (utf8 (cap (s ++ 46 :: x))) < zlen (utf8 (cap s ++ 46 :: zrepeat 32 k ++ c :: v))) as HL.
  { unfold cap at 1. rewrite map_app. cbn [map]. change (unicode_capital table 46) with 46. fold (cap s) (cap x). rewrite Ev, !utf8_app, !(utf8_cons 46), !utf8_app, !zlen_app, utf8_blanks, zlen_repeat by lia. lia. }
  split; [|exact HL]. intros X. rewrite X in HL. lia.
Qed.
(* whatever bytes an entry has, they are shown; only fewer than six cannot be *)
Theorem C171_entries table raw : (zlen raw < 6 -> BytesToFilename table raw = Panic) /\ (6 <= zlen raw -> exists name, BytesToFilename table raw = Ret name).
Proof. unfold BytesToFilename. split; intros H; [now replace (zlen raw <? 6) with true by lia|]. replace (zlen raw <? 6) with false by lia. eauto. Qed.
(* Stat finds the entry whose name is the path (without its first slash) in capital letters, whatever characters it has;
   [d_binary] files have their size, text files are refused, and there is nothing else to be found *)
Theorem C171_stat table d path p : capitals_table table -> Forall scalar p -> path = utf8 p \/ path = utf8 (47 :: p) ->
  let key := utf8 (map (unicode_capital table) p) in (forall q, key <> 47 :: q) ->
  ((forall info, ~ In (key, info) (dirents d)) -> Stat8 table d path = inr (K ErrNotFound)) /\
  (forall info, NoDup (map fst (dirents d)) -> In (key, info) (dirents d) ->
     (d_binary info = false -> Stat8 table d path = inr (K ErrNotImplemented)) /\
     (d_binary info = true -> d_clusters info <> [] -> zlen (d_clusters info) < 2^32 ->
      0 < SectorsPerCluster (geo d) < 2^16 -> 0 <= d_unused info <= SectorsPerCluster (geo d) ->
      exists st, Stat8 table d path = inl st /\ s_size st = 128 * (zlen (d_clusters info) * SectorsPerCluster (geo d) - d_unused info) /\
        0 <= s_size st /\ s_bsize st = 128 /\ s_nblocks st * 128 = s_size st /\ s_inode st = d_index info /\ s_nlinks st = 1)).
Proof.
  intros HT Hs Hpath key Hns. unfold Stat8.
  assert (trim_slash (ToUpper table path) = key) as ->.
  { destruct Hpath as [-> | ->].
    - rewrite (ToUpper_utf8 table HT p Hs). fold key. destruct key as [|c q] eqn:Ek; [reflexivity|]. cbn [trim_slash]. destruct (c =? slash) eqn:E; [|reflexivity].
      exfalso. apply (Hns q). f_equal. unfold slash in E. lia.
    - assert (Forall scalar (47 :: p)) as Hs' by (constructor; [unfold scalar; lia|exact Hs]). rewrite (ToUpper_utf8 table HT _ Hs'). reflexivity. }
  split; [intros Hn; now rewrite find_dirent_none|]. intros info Hnd Hin. rewrite (find_dirent_in _ _ _ Hnd Hin). split; [now intros ->|].
  intros Hb Hc Hl Hspc Hu. rewrite Hb.
  assert (0 < zlen (d_clusters info)) by (destruct (d_clusters info) as [|x l]; [contradiction|rewrite zlen_cons; pose proof (zlen_nonneg l); lia]).
  assert (0 < zlen (d_clusters info) * SectorsPerCluster (geo d) < 2^48) by nia.
  assert (SectorsPerCluster (geo d) <= zlen (d_clusters info) * SectorsPerCluster (geo d)) by nia.
  rewrite !u64_id by (rewrite ?u64_id; lia). eexists. split; [reflexivity|]. cbn [s_size s_bsize s_nblocks s_inode s_nlinks].
  rewrite !i64_id8 by (rewrite ?i64_id8; lia). repeat split; lia.
Qed.
(* for ASCII, all this is what C68, C69 and C127 are about, whatever the tables of Unicode are *)
Theorem C171_ascii table next name raw d path n1 n2 : ascii name -> ascii raw -> ascii path -> ascii n1 -> ascii n2 ->
  FilenameToBytes table name = filename_to_bytes name /\ BytesToFilename table raw = bytes_to_filename raw /\
  Stat8 table d path = stat_file d path /\ SameFile8 next n1 n2 = Ret (same_file8 n1 n2).
Proof. intros. split; [now apply to_bytes_ascii|]. split; [now apply of_bytes_ascii|]. split; [now apply stat_ascii|]. now apply EqualFold_ascii. Qed.

(* a part of Unicode's table: the small letters of Latin-1, the dotless i and the Kelvin sign (its own capital) *)
Definition latin (r : Z) : Z := if (0xE0 <=? r) && (r <=? 0xFE) && negb (r =? 0xF7) then r - 32 else if r =? 0x131 then 73 else r.
Lemma latin_table : capitals_table latin.
Proof.
  intros r Hr H. unfold latin. destruct ((0xE0 <=? r) && (r <=? 0xFE) && negb (r =? 0xF7)) eqn:E1.
  - split; [unfold scalar; lia|]. split; [|lia]. intros _. replace ((0xE0 <=? r - 32) && (r - 32 <=? 0xFE) && negb (r - 32 =? 0xF7)) with false by lia. now replace (r - 32 =? 305) with false by lia.
  - destruct (r =? 305) eqn:E2; [split; [unfold scalar; lia|]; split; [lia|]; lia|]. split; [exact Hr|]. split; [|lia]. intros _. now rewrite E1, E2.
Qed.
(* "é.txt" takes ten bytes and is shown as "É. TXT", which cannot be stored; "ı" takes nine; "日本" takes 13 *)
Example C171_example : let e := B ".txt" in
  FilenameToBytes latin (utf8 [233] ++ e) = inl (utf8 [201] ++ B "     TXT") /\ zlen (utf8 [201] ++ B "     TXT") = 10 /\
  BytesToFilename latin (utf8 [201] ++ B "     TXT") = Ret (utf8 [201] ++ B ". TXT") /\ FilenameToBytes latin (utf8 [201] ++ B ". TXT") = inr (K ErrNameTooLong) /\
  FilenameToBytes latin (utf8 [305]) = inl (B "I        ") /\ (exists raw, FilenameToBytes latin (utf8 [0x65E5; 0x672C]) = inl raw /\ zlen raw = 13) /\
  FilenameToBytes latin (utf8 [0x65E5; 0x672C; 0x65E5]) = inr (K ErrNameTooLong) /\
  FilenameToBytes latin [255] = inl (utf8 [0xFFFD] ++ B "        ").
Proof. cbv zeta. repeat split; try (vm_compute; reflexivity). eexists. split; vm_compute; reflexivity. Qed.

Example C171_stat_example : let d := mkD8 G640 0 (mkFs 128 640 0 0 0 0 0) [] [] true [(utf8 [201; 46; 66], mkDe8 [3; 4] 7 true 5)] in
  Stat8 latin d (utf8 (47 :: [233; 46; 98])) = Stat8 latin d (utf8 [201; 46; 66]) /\
  Stat8 latin d (utf8 [233; 46; 98]) = inl (mkSt8 7 1 511 (128 * (2 * SectorsPerCluster (geo d) - 5)) 128 (2 * SectorsPerCluster (geo d) - 5)) /\
  Stat8 latin d (utf8 [101; 46; 98]) = inr (K ErrNotFound).
Proof. cbv zeta. repeat split; vm_compute; reflexivity. Qed.

(** ** C172 *)
(* SameFile returns for all names, whatever their bytes, and says whether they agree character by character up to case
   (bytes that are no character count as one and the same character); this is an equivalence *)
Theorem C172_same_exactly class next a b : folds class next -> Forall (fun c => 0 <= c < 256) a -> Forall (fun c => 0 <= c < 256) b ->
  exists e, SameFile8 next a b = Ret e /\ (e = true <-> map class (runes a) = map class (runes b)).
Proof. intros HF Ha Hb. apply EqualFold_spec; [exact HF| |]; eapply Forall_impl; [|exact Ha| |exact Hb]; cbn; lia. Qed.
Theorem C172_utf8 class next a b : folds class next -> Forall scalar a -> Forall scalar b ->
  exists e, SameFile8 next (utf8 a) (utf8 b) = Ret e /\ (e = true <-> Forall2 (fun x y => class x = class y) a b).
Proof.
  intros HF Ha Hb. destruct (EqualFold_spec class next HF (utf8 a) (utf8 b)) as (e & E & He); [now apply utf8_nonneg..|].
  exists e. split; [exact E|]. rewrite He, !utf8_runes by assumption. clear. revert b. induction a as [|x a IH]; intros [|y b]; cbn [map]; split; intros H; auto; try discriminate; try (inversion H; fail).
  - injection H as H1 H2. constructor; [exact H1|now apply IH].
  - inversion H; subst. f_equal; [assumption|now apply IH].
Qed.
Theorem C172_equivalence class next a b c : folds class next -> Forall (fun c => 0 <= c < 256) a -> Forall (fun c => 0 <= c < 256) b -> Forall (fun c => 0 <= c < 256) c ->
  SameFile8 next a a = Ret true /\ SameFile8 next a b = SameFile8 next b a /\ (SameFile8 next a b = Ret true -> SameFile8 next b c = Ret true -> SameFile8 next a c = Ret true).
Proof.
  intros HF Ha Hb Hc. pose proof (C172_same_exactly class next) as S.
  split; [destruct (S a a HF Ha Ha) as (e & -> & He); f_equal; now apply He|]. split.
  - destruct (S a b HF Ha Hb) as (e & -> & He). destruct (S b a HF Hb Ha) as (e' & -> & He'). f_equal. apply eq_true_iff_eq. rewrite He, He'. split; congruence.
  - destruct (S a b HF Ha Hb) as (e & -> & He). destruct (S b c HF Hb Hc) as (e' & -> & He'). destruct (S a c HF Ha Hc) as (e2 & -> & He2).
    intros [= ->] [= ->]. f_equal. apply He2. transitivity (map class (runes b)); [now apply He|now apply He'].
Qed.

(* a part of Unicode's classes: the letters of ASCII, and the Kelvin sign with k and K *)
Definition fold1 (r : Z) : Z :=
  if r =? 75 then 107 else if r =? 107 then 0x212A else if r =? 0x212A then 75
  else if (65 <=? r) && (r <=? 90) then r + 32 else if (97 <=? r) && (r <=? 122) then r - 32 else r.
Definition class1 (r : Z) : Z := if r =? 0x212A then 75 else if (97 <=? r) && (r <=? 122) then r - 32 else r.
Lemma fold1_folds : folds class1 fold1.
Proof.
  split.
  - intros r Hr. unfold fold1. destruct (r =? 75) eqn:E1.
    { replace r with 75 by lia. split; [lia|]. split; [reflexivity|]. left. split; [lia|]. intros x Hx Hc Hl. change (class1 75) with 75 in Hc. unfold class1 in Hc. destruct (x =? 8490) eqn:F1; [lia|]. destruct ((97 <=? x) && (x <=? 122)) eqn:F2; lia. }
    destruct (r =? 107) eqn:E2.
    { replace r with 107 by lia. split; [lia|]. split; [reflexivity|]. left. split; [lia|]. intros x Hx Hc Hl. change (class1 107) with 75 in Hc. unfold class1 in Hc. destruct (x =? 8490) eqn:F1; [lia|]. destruct ((97 <=? x) && (x <=? 122)) eqn:F2; lia. }
    destruct (r =? 8490) eqn:E3.
    { replace r with 8490 by lia. split; [lia|]. split; [reflexivity|]. right. split; [lia|]. intros x Hx Hc. change (class1 8490) with 75 in Hc. unfold class1 in Hc. destruct (x =? 8490) eqn:F1; [lia|]. destruct ((97 <=? x) && (x <=? 122)) eqn:F2; lia. }
    assert (class1 r = if (97 <=? r) && (r <=? 122) then r - 32 else r) as Ec by (unfold class1; now rewrite E3). rewrite Ec.
    destruct ((65 <=? r) && (r <=? 90)) eqn:E4; [|destruct ((97 <=? r) && (r <=? 122)) eqn:E5].
    + replace ((97 <=? r) && (r <=? 122)) with false in * by lia. split; [lia|]. split; [unfold class1; replace (r + 32 =? 8490) with false by lia; replace ((97 <=? r + 32) && (r + 32 <=? 122)) with true by lia; lia|].
      left. split; [lia|]. intros x Hx Hc Hl. unfold class1 in Hc. destruct (x =? 8490) eqn:F1; [lia|]. destruct ((97 <=? x) && (x <=? 122)) eqn:F2; lia.
    + split; [lia|]. split; [unfold class1; replace (r - 32 =? 8490) with false by lia; now replace ((97 <=? r - 32) && (r - 32 <=? 122)) with false by lia|].
      right. split; [lia|]. intros x Hx Hc. unfold class1 in Hc. destruct (x =? 8490) eqn:F1; [lia|]. destruct ((97 <=? x) && (x <=? 122)) eqn:F2; lia.
    + split; [lia|]. split; [unfold class1; now rewrite E3, E5|]. right. split; [lia|]. intros x Hx Hc. unfold class1 in Hc. destruct (x =? 8490) eqn:F1; [lia|]. destruct ((97 <=? x) && (x <=? 122)) eqn:F2; lia.
  - intros a b Ha Hb. unfold class1, unicode_capital. replace (a =? 8490) with false by lia. replace (b =? 8490) with false by lia. replace (a <? 128) with true by lia. replace (b <? 128) with true by lia. reflexivity.
Qed.
Example C172_example : SameFile8 fold1 (B "a" ++ utf8 [0x212A] ++ B "b") (B "AkB") = Ret true /\ SameFile8 fold1 (B "akb") (B "AKc") = Ret false /\
  SameFile8 fold1 [97; 255] [65; 254] = Ret true /\ SameFile8 fold1 (utf8 [233]) (utf8 [201]) = Ret false /\ SameFile8 fold1 (B "ab") (B "a") = Ret false.
Proof. repeat split; vm_compute; reflexivity. Qed.

(** ** C173 *)
(* names that are the same file are stored alike, or both refused, as long as characters of the same class have the same
   capital and take as many bytes, and the period is alone in its class *)
Theorem C173_same_is_stored_alike_partial class next table a b : folds class next -> capitals_table table -> Forall scalar a -> Forall scalar b ->
  (forall x y, In x a -> In y b -> class x = class y -> unicode_capital table x = unicode_capital table y /\ zlen (utf8_char x) = zlen (utf8_char y) /\ (x = 46 <-> y = 46)) ->
  SameFile8 next (utf8 a) (utf8 b) = Ret true -> FilenameToBytes table (utf8 a) = FilenameToBytes table (utf8 b).
Proof.
  intros HF HT Ha Hb HR E. destruct (C172_utf8 class next a b HF Ha Hb) as (e & E' & He). rewrite E in E'. injection E' as <-. destruct He as [He _]. specialize (He eq_refl).
  apply (stored_alike table HT a b Ha Hb). clear - HR He. induction He as [|x y a b Hxy Hab IH]; [constructor|].
  constructor; [apply HR; [now left|now left|exact Hxy]|]. apply IH. intros u v Hu Hv. apply HR; now right.
Qed.
(* in general they are not: a character and another of its class with another capital *)
Theorem C173_not_stored_alike_refuted class next table x y : folds class next -> capitals_table table -> scalar x -> scalar y -> x <> 46 -> y <> 46 ->
  class x = class y -> unicode_capital table x <> unicode_capital table y ->
  exists r1 r2, SameFile8 next (utf8 [x]) (utf8 [y]) = Ret true /\ FilenameToBytes table (utf8 [x]) = inl r1 /\ FilenameToBytes table (utf8 [y]) = inl r2 /\ r1 <> r2.
Proof.
  intros HF HT Hx Hy Hx46 Hy46 Hc Hd.
  assert (forall r, scalar r -> r <> 46 -> FilenameToBytes table (utf8 [r]) = inl (utf8 (unicode_capital table r :: zrepeat 32 8))) as ST.
  { intros r Hr H46. assert (Forall scalar [r]) as Hs by now constructor. assert (~ In 46 [r]) as Hn by (intros [X|[]]; congruence).
    assert (zlen (utf8 [r]) <= 6) as L by (unfold utf8; cbn [map concat]; rewrite app_nil_r; unfold utf8_char; destruct (r <? 128); [cbn; lia|]; destruct (r <? 2048); [cbn; lia|]; destruct (r <? 65536); cbn; lia).
    pose proof (C171_stored table [r] None HT Hs ltac:(discriminate) Hn ltac:(discriminate) L ltac:(discriminate)) as X. cbn [app] in X. rewrite X. reflexivity. }
  exists (utf8 (unicode_capital table x :: zrepeat 32 8)), (utf8 (unicode_capital table y :: zrepeat 32 8)). split.
  - destruct (C172_utf8 class next [x] [y] HF) as (e & -> & He); [now constructor..|]. f_equal. apply He. now repeat constructor.
  - split; [now apply ST|]. split; [now apply ST|]. intros X. apply (f_equal runes) in X. rewrite !utf8_runes in X by (constructor; [now apply cap_scalar|apply blanks_scalar]). now injection X.
Qed.
(* the Kelvin sign is the same file as k, and stored differently *)
Example C173_example : class1 0x212A = class1 107 /\ unicode_capital latin 0x212A <> unicode_capital latin 107 /\
  SameFile8 fold1 (utf8 [0x212A]) (B "k") = Ret true /\ FilenameToBytes latin (B "k") = inl (B "K        ") /\ FilenameToBytes latin (utf8 [0x212A]) = inl (utf8 [0x212A] ++ B "        ") /\
  (forall x y, In x (B "a.k") -> In y (B "A.K") -> class1 x = class1 y -> unicode_capital latin x = unicode_capital latin y /\ zlen (utf8_char x) = zlen (utf8_char y) /\ (x = 46 <-> y = 46)).
Proof.
  split; [reflexivity|]. split; [vm_compute; discriminate|]. do 3 (split; [vm_compute; reflexivity|]).
  intros x y Hx Hy. cbn in Hx, Hy. repeat (destruct Hx as [<-|Hx]; [|]); try contradiction; repeat (destruct Hy as [<-|Hy]; [|]); try contradiction; vm_compute; intuition (discriminate || lia).
Qed.

Print Assumptions C171_accepted.
Print Assumptions C171_stored.
Print Assumptions C171_nine_bytes_exactly.
Print Assumptions C171_nine_bytes_refuted.
Print Assumptions C171_shown.
Print Assumptions C171_round_trip_refuted.
Print Assumptions C171_entries.
Print Assumptions C171_stat.
Print Assumptions C171_ascii.
Print Assumptions C172_same_exactly.
Print Assumptions C172_utf8.
Print Assumptions C172_equivalence.
Print Assumptions C173_same_is_stored_alike_partial.
Print Assumptions C173_not_stored_alike_refuted.
