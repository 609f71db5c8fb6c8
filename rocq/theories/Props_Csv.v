(** * Props_Csv: C156, the geometry table from its text *)
From Coq Require Import String Permutation.
From Verif Require Import GoBase ListZ Errors GoPath GoPathProofs Spec_Path Disks Csv CsvText Spec_Csv CsvProofs.

(** ** C156 *)
Lemma unrev ds : NoDup (map (fun d => g_slug (d_geo d)) ds) <-> NoDup (map slug (rev ds ++ [])).
Proof. rewrite app_nil_r, map_rev. split; apply Permutation_NoDup; [|symmetry]; apply Permutation_rev. Qed.
(* Whatever the text is: the program starts exactly if it is a table with a header in which every row has all the
   columns, every number is one, and no two rows have the same slug; otherwise it panics. *)
Theorem C156_start_up text :
  ((exists m, init_csv ParseUint text = Ret m) <->
   exists header rows ds, file_text (header :: rows) text /\ Forall (fun r => length r = length header) rows /\
     Forall2 (disk_of header) rows ds /\ NoDup (map (fun d => g_slug (d_geo d)) ds)) /\
  (init_csv ParseUint text = Panic \/ exists m, init_csv ParseUint text = Ret m).
Proof.
  assert (forall header rows ds, file_text (header :: rows) text -> Forall (fun r => length r = length header) rows -> Forall2 (disk_of header) rows ds -> NoDup (map (fun d => g_slug (d_geo d)) ds) ->
    init_csv ParseUint text = Ret (rev ds ++ [])) as HG.
  { intros header rows ds HF H1 H2 H3. destruct (read_file_some header rows text HF) as (s & L & HS & HR). unfold init_csv. rewrite HR. cbn [obind].
    apply (init_rows_good header rows ds); auto. apply (proj1 (unrev ds)). exact H3. }
  destruct (text_or_bad _ (lf_only text) (le_n _)) as (rs & [HF|HM]).
  - assert ((exists header rows ds, file_text (header :: rows) text /\ Forall (fun r => length r = length header) rows /\ Forall2 (disk_of header) rows ds /\ NoDup (map (fun d => g_slug (d_geo d)) ds)) \/
            init_csv ParseUint text = Panic) as [HD|HD].
    { destruct rs as [|header rows].
      - right. unfold init_csv. rewrite (read_file_none _ HF text _ eq_refl) by lia. reflexivity.
      - destruct (table_decidable header rows) as [(H1 & ds & H2 & H3)|HD]; [left; exists header, rows, ds; repeat split; auto|]. right.
        destruct (read_file_some header rows text HF) as (s & L & HS & HR). unfold init_csv. rewrite HR. cbn [obind].
        apply (init_rows_bad header rows); auto; [constructor|]. intros (H1 & ds & H2 & H3). apply HD. split; [exact H1|]. exists ds. split; [exact H2|]. apply (proj2 (unrev ds)). exact H3. }
    + split; [split; auto|]; [|right]; intros; destruct HD as (header & rows & ds & H1 & H2 & H3 & H4); eauto.
    + split; [|auto]. rewrite HD. split; [intros [m X]; discriminate|]. intros (header & rows & ds & H1 & H2 & H3 & H4). rewrite (HG header rows ds) in HD by auto. discriminate.
  - assert (init_csv ParseUint text = Panic) as HD.
    { unfold init_csv. destruct rs as [|header rows].
      - destruct HM as (u0 & u & Es & Hs & Hb). destruct (read_lines_none u0 u Hs Hb text (S (S (length text))) Es) as [e ->]; [lia|reflexivity].
      - destruct (read_lines_some header rows text HM) as (s' & L & HF & HR). rewrite HR. cbn [obind]. apply (init_rows_malformed _ _ rows); [exact HF|lia]. }
    split; [|auto]. rewrite HD. split; [intros [m X]; discriminate|]. intros (header & rows & ds & H1 & H2 & H3 & H4). rewrite (HG header rows ds) in HD by auto. discriminate.
Qed.
(* What can be looked up afterwards: exactly the disks the rows describe, by their slugs. *)
Theorem C156_lookup header rows text m ds : file_text (header :: rows) text -> init_csv ParseUint text = Ret m ->
  Forall2 (disk_of header) rows ds ->
  (forall s d, lookup_disk m s = Some d <-> In d ds /\ g_slug (d_geo d) = s) /\
  (forall s, lookup_disk m s = None <-> ~ In s (map (fun d => g_slug (d_geo d)) ds)).
Proof.
  intros HF HI HD. destruct (read_file_some header rows text HF) as (s0 & L & HS & HR).
  destruct (table_decidable header rows) as [(H1 & ds2 & H2 & H3)|HX].
  - assert (ds2 = ds) as -> by (apply (disks_determined header rows); auto). unfold init_csv in HI. rewrite HR in HI. cbn [obind] in HI.
    rewrite (init_rows_good header rows ds) in HI; auto; [|apply (proj1 (unrev ds)); exact H3]. injection HI as <-. unfold lookup_disk. split.
    + intros s d. rewrite find_some by (apply (proj1 (unrev ds)); exact H3). rewrite app_nil_r, <- in_rev. reflexivity.
    + intros s. rewrite find_none. rewrite app_nil_r, map_rev, <- in_rev. reflexivity.
  - exfalso. unfold init_csv in HI. rewrite HR in HI. cbn [obind] in HI. rewrite (init_rows_bad header rows) in HI; auto; [discriminate|constructor|].
    intros (H1 & ds2 & H2 & H3). apply HX. split; [exact H1|]. exists ds2. split; [exact H2|]. apply (proj2 (unrev ds2)). exact H3.
Qed.
(* A text is the text of at most one table, and every text that is not the text of a table has a malformed record;
   with one the program does not start. *)
Theorem C156_malformed text :
  (forall rs rs', file_text rs text -> file_text rs' text -> rs = rs') /\
  ((forall rs, ~ file_text rs text) <-> exists rs, malformed_text rs text) /\
  (forall rs, malformed_text rs text -> init_csv ParseUint text = Panic).
Proof.
  assert (forall rs rs' s, file_text rs s -> file_text rs' s -> rs = rs') as HU.
  { induction rs as [|r rs IH]; intros [|r' rs'] s H1 H2; auto.
    - destruct (read_file_some _ _ _ H2) as (? & _ & _ & X). rewrite (read_file_none _ H1 s _ eq_refl) in X by lia. discriminate.
    - destruct (read_file_some _ _ _ H1) as (? & _ & _ & X). rewrite (read_file_none _ H2 s _ eq_refl) in X by lia. discriminate.
    - destruct (read_file_some _ _ _ H1) as (s1 & _ & F1 & X1), (read_file_some _ _ _ H2) as (s2 & _ & F2 & X2). rewrite X1 in X2. injection X2 as <- <-. f_equal. eauto. }
  assert (forall rs rs' s, malformed_text rs s -> ~ file_text rs' s) as HV.
  { induction rs as [|r rs IH]; intros [|r' rs'] s H1 H2.
    - destruct H1 as (u0 & u & Es & Hs & HB). destruct (read_lines_none u0 u Hs HB s (S (S (length s))) Es) as [e X]; [lia|]. rewrite (read_file_none _ H2 s _ eq_refl) in X by lia. discriminate.
    - destruct H1 as (u0 & u & Es & Hs & HB). destruct (read_lines_none u0 u Hs HB s (S (S (length s))) Es) as [e X]; [lia|]. destruct (read_file_some _ _ _ H2) as (? & _ & _ & Y). congruence.
    - destruct (read_lines_some _ _ _ H1) as (? & _ & _ & X). rewrite (read_file_none _ H2 s _ eq_refl) in X by lia. discriminate.
    - destruct (read_lines_some _ _ _ H1) as (s1 & _ & F1 & X1), (read_file_some _ _ _ H2) as (s2 & _ & F2 & X2). rewrite X1 in X2. injection X2 as <- <-. eapply IH; eauto. }
  split; [intros; eapply HU; eauto|]. split; [split|].
  - intros H. destruct (text_or_bad _ (lf_only text) (le_n _)) as (rs & [HF|HM]); [destruct (H rs HF)|exists rs; exact HM].
  - intros [rs H] rs' H'. exact (HV _ _ _ H H').
  - intros rs HM. destruct (C156_start_up text) as [[H _] [X|X]]; [exact X|]. exfalso. destruct (H X) as (header & rows & ds & HF & _). exact (HV _ _ _ HM HF).
Qed.
(* a table with its columns in another order, a bar and a line end inside a field, both kinds of line ends *)
Definition small_header : list (list Z) := [B "heads"; B "slug"; B "name"].
Definition small_rows : list (list (list Z)) := [[B "2"; B "a"; B "x|""y"]; [B "17"; B ""; B "p" ++ [10] ++ B "q"]].
Definition small_text : list Z :=
  B "heads|slug|name" ++ [13; 10; 10] ++ B "2|a|""x|""""y""" ++ [10] ++ B "17|""""|""p" ++ [10] ++ B "q""" .
Definition odd_text : list Z := B "a" ++ [13] ++ B "b|slug" ++ [13; 13; 10] ++ B """x" ++ [13; 10] ++ B "y" ++ [13] ++ B """|s" ++ [13].
Example C156_malformed_example : malformed_text [small_header] (B "heads|slug|name" ++ [13; 10] ++ B "1|""b""x|c") /\
  bad_record (B "a""b|c") /\ bad_record (B "1|""b") /\ file_text [[B "a" ++ [13] ++ B "b"; B "slug" ++ [13]]; [B "x" ++ [10] ++ B "y" ++ [13]; B "s"]] odd_text.
Proof.
  assert (forall f, existsb (fun c => (c =? 34) || (c =? 124) || (c =? 10)) f = false -> field_text f f) as HB.
  { intros f H. constructor; intros X; (assert (existsb (fun c => (c =? 34) || (c =? 124) || (c =? 10)) f = true) by (apply existsb_exists; eexists; split; [exact X|reflexivity])); congruence. }
  split; [|split; [|split]].
  - exists (B "heads|slug|name" ++ [10]), (B "1|""b""x|c"). split; [reflexivity|]. split.
    + refine (ln_record small_header (B "heads|slug|name") [] [] _ _ ln_end); [|discriminate].
      apply (rt_more (B "heads") (B "heads") _ (B "slug|name")); [|apply (rt_more (B "slug") (B "slug") _ (B "name")); [|constructor]]; now apply HB.
    + apply (br_more (B "1") (B "1") (B """b""x|c")); [now apply HB|]. apply (br_after (B "b") 120 (B "|c")); vm_compute; intuition discriminate.
  - apply (br_bare (B "a") (B "b|c")); vm_compute; intuition discriminate.
  - apply (br_more (B "1") (B "1") (B """b")); [now apply HB|]. apply (br_open (B "b")).
  - unfold file_text, odd_text.
    refine (tb_record _ (B "a" ++ [13] ++ B "b|slug" ++ [13]) _ _ _ _ (tb_last _ (B """x" ++ [10] ++ B "y" ++ [13] ++ B """|s") _ _)); try discriminate.
    + apply (rt_more _ (B "a" ++ [13] ++ B "b") _ (B "slug" ++ [13])); [now apply HB|]. constructor. now apply HB.
    + apply (rt_more _ (B """x" ++ [10] ++ B "y" ++ [13] ++ B """") _ (B "s")); [apply (ft_quoted (B "x" ++ [10] ++ B "y" ++ [13]))|]. constructor. now apply HB.
Qed.
(* The file in the repository: the rows of C86 with their names, form factors and notes, in order; the geometry is found exactly under the slugs there. *)
Theorem C156_table : exists m m0, init_csv ParseUint csv_text = Ret m /\ init_geometries disk_rows = Ret m0 /\ rev (map d_geo m) = disk_rows /\ rev (map (fun d => (d_name d, d_form d, d_notes d)) m) = disk_texts /\
  forall s, GetPredefinedDiskGeometry m0 s = match lookup_disk m s with Some d => (d_geo d, None) | None => (mkGeo [] 0 0 0 0 0 0 0 0, Some (KExt 0)) end.
Proof.
  destruct (init_csv ParseUint csv_text) as [m| |] eqn:E; [|exfalso; vm_compute in E; discriminate|exfalso; vm_compute in E; discriminate].
  exists m, (map d_geo m). assert (rev (map d_geo m) = disk_rows) as Hr.
  { assert (match init_csv ParseUint csv_text with Ret m => rev (map d_geo m) = disk_rows | _ => False end) as H by (vm_compute; reflexivity). rewrite E in H. exact H. }
  split; [reflexivity|]. split.
  { destruct (init_geometries disk_rows) as [m0| |] eqn:E0; [|exfalso; vm_compute in E0; discriminate|exfalso; vm_compute in E0; discriminate]. rewrite (init_rev _ _ E0), <- Hr, rev_involutive. reflexivity. }
  split; [exact Hr|]. split.
  { assert (match init_csv ParseUint csv_text with Ret m => rev (map (fun d => (d_name d, d_form d, d_notes d)) m) = disk_texts | _ => False end) as H by (vm_compute; reflexivity). rewrite E in H. exact H. }
  clear E Hr. intros s. unfold GetPredefinedDiskGeometry, lookup_disk. clear. induction m as [|d m IH]; cbn [map find_slug find_disk]; [reflexivity|]. destruct (beqb (g_slug (d_geo d)) s); [reflexivity|exact IH].
Qed.
Example C156_example : file_text (small_header :: small_rows) small_text /\
  init_csv ParseUint small_text = Ret [mkDisk (mkGeo [] 0 0 0 0 0 0 0 17) (B "p" ++ [10] ++ B "q") [] []; mkDisk (mkGeo (B "a") 0 0 0 0 0 0 0 2) (B "x|""y") [] []] /\
  init_csv ParseUint (B "slug|heads" ++ [10] ++ B "a|1" ++ [10] ++ B "a|2" ++ [10]) = Panic /\
  init_csv ParseUint (B "slug|heads" ++ [10] ++ B "a|-1" ++ [10]) = Panic /\ init_csv ParseUint (B "slug|heads" ++ [10] ++ B "a" ++ [10]) = Panic.
Proof.
  assert (forall f, existsb (fun c => (c =? 34) || (c =? 124) || (c =? 10)) f = false -> field_text f f) as HB.
  { intros f H. constructor; intros X; (assert (existsb (fun c => (c =? 34) || (c =? 124) || (c =? 10)) f = true) by (apply existsb_exists; eexists; split; [exact X|reflexivity])); congruence. }
  assert (forall f, field_text f ([34] ++ doubled f ++ [34])) as HQ by (intros; constructor).
  split; [|vm_compute; repeat split]. unfold file_text.
  refine (tb_record small_header (B "heads|slug|name") small_rows _ _ _ (tb_empty _ _ (tb_record _ (B "2|a|""x|""""y""") _ _ _ _ (tb_last _ (B "17|""""|""p" ++ [10] ++ B "q""") _ _)))); try discriminate.
  + apply (rt_more (B "heads") (B "heads") _ (B "slug|name")); [now apply HB|]. apply (rt_more (B "slug") (B "slug") _ (B "name")); [now apply HB|]. constructor. now apply HB.
  + apply (rt_more (B "2") (B "2") _ (B "a|""x|""""y""")); [now apply HB|]. apply (rt_more (B "a") (B "a") _ (B """x|""""y""")); [now apply HB|]. constructor. now apply (HQ (B "x|""y")).
  + apply (rt_more (B "17") (B "17") _ (B """""|""p" ++ [10] ++ B "q""")); [now apply HB|]. apply (rt_more (B "") (B """""") _ (B """p" ++ [10] ++ B "q""")); [now apply (HQ [])|]. constructor. now apply (HQ (B "p" ++ [10] ++ B "q")).
Qed.
Print Assumptions C156_start_up.
Print Assumptions C156_lookup.
Print Assumptions C156_malformed.
Print Assumptions C156_table.
