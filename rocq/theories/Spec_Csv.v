(** * Spec_Csv: tables as text, written independently of the reader *)
From Coq Require Import String.
From Verif Require Import GoBase GoPath Spec_Path Disks Csv.

(** ** lines: a carriage return in front of a line feed or at the end of the text does not count; any other one is
    an ordinary character *)
Fixpoint lf_only (s : list Z) : list Z :=
  match s with
  | [] => []
  | c :: s' => if (c =? 13) && match s' with [] => true | d :: _ => d =? 10 end then lf_only s' else c :: lf_only s'
  end.

(** ** how a field may be written: as it is, or in quotation marks with those inside doubled *)
Definition doubled (f : list Z) : list Z := flat_map (fun c => if c =? 34 then [34; 34] else [c]) f.
Inductive field_text : list Z -> list Z -> Prop :=
| ft_bare f : ~ In 34 f -> ~ In 124 f -> ~ In 10 f -> field_text f f
| ft_quoted f : field_text f ([34] ++ doubled f ++ [34]).
(* a record: the fields, separated by '|' *)
Inductive record_text : list (list Z) -> list Z -> Prop :=
| rt_last f t : field_text f t -> record_text [f] t
| rt_more f t fs ts : field_text f t -> record_text fs ts -> record_text (f :: fs) (t ++ [124] ++ ts).
(* records with a line feed each (the last one may lack it), empty lines anywhere *)
Inductive table_text : list (list (list Z)) -> list Z -> Prop :=
| tb_end : table_text [] []
| tb_empty rs s : table_text rs s -> table_text rs ([10] ++ s)
| tb_record r t rs s : record_text r t -> t <> [] -> table_text rs s -> table_text (r :: rs) (t ++ [10] ++ s)
| tb_last r t : record_text r t -> t <> [] -> table_text [r] t.
Definition file_text (rs : list (list (list Z))) (text : list Z) : Prop := table_text rs (lf_only text).

(** ** numbers *)
Definition is_digit (c : Z) : Prop := 48 <= c <= 57.
Definition value (l : list Z) : Z := fold_left (fun n c => 10 * n + (c - 48)) l 0.
Definition is_number (l : list Z) (n : Z) : Prop := l <> [] /\ Forall is_digit l /\ value l = n /\ n < 2^64.

(** ** which disk a row describes *)
(* if several columns have the name it is the last of them *)
Definition in_column (header row : list (list Z)) (name v : list Z) : Prop :=
  exists i, nth_error header i = Some name /\ nth_error row i = Some v /\ forall j, (i < j)%nat -> nth_error header j <> Some name.
(* a missing column leaves the field empty or zero *)
Definition text_is (header row : list (list Z)) (name v : list Z) : Prop :=
  in_column header row name v \/ (~ In name header /\ v = []).
Definition number_is (header row : list (list Z)) (name : list Z) (n : Z) : Prop :=
  (exists v, in_column header row name v /\ is_number v n) \/ (~ In name header /\ n = 0).
Definition disk_of (header row : list (list Z)) (d : disk) : Prop :=
  text_is header row (B "name") (d_name d) /\ text_is header row (B "slug") (g_slug (d_geo d)) /\
  number_is header row (B "first_year_available") (g_year (d_geo d)) /\ text_is header row (B "form_factor") (d_form d) /\
  number_is header row (B "is_removable") (g_removable (d_geo d)) /\ number_is header row (B "bits_per_address_unit") (g_bits (d_geo d)) /\
  number_is header row (B "address_units_per_sector") (g_units (d_geo d)) /\ number_is header row (B "sectors_per_track") (g_sectors (d_geo d)) /\
  number_is header row (B "total_data_tracks") (g_tracks (d_geo d)) /\ number_is header row (B "hidden_tracks") (g_hidden (d_geo d)) /\
  number_is header row (B "heads") (g_heads (d_geo d)) /\ text_is header row (B "notes") (d_notes d).

(** ** malformed records: a quotation mark inside an unquoted field, something other than a bar or a line end
    after a quoted field, or a quoted field that never ends *)
Inductive bad_record : list Z -> Prop :=
| br_bare a s : a <> [] -> ~ In 34 a -> ~ In 124 a -> ~ In 10 a -> bad_record (a ++ [34] ++ s)
| br_after f c s : ~ In c [34; 124; 10] -> bad_record ([34] ++ doubled f ++ [34] ++ [c] ++ s)
| br_open f : bad_record ([34] ++ doubled f)
| br_more f t s : field_text f t -> bad_record s -> bad_record (t ++ [124] ++ s).
(* complete lines, to which more can be added *)
Inductive lines_text : list (list (list Z)) -> list Z -> Prop :=
| ln_end : lines_text [] []
| ln_empty rs s : lines_text rs s -> lines_text rs ([10] ++ s)
| ln_record r t rs s : record_text r t -> t <> [] -> lines_text rs s -> lines_text (r :: rs) (t ++ [10] ++ s).
Definition malformed_text (rs : list (list (list Z))) (text : list Z) : Prop :=
  exists s0 s, lf_only text = s0 ++ s /\ lines_text rs s0 /\ bad_record s.

(** ** the names, form factors and notes in the repository's table (disk-geometries.csv:2-35) *)
Definition disk_texts : list (list Z * list Z * list Z) := [
  (B "IBM 23FD", B "8""", B "http://fileformats.archiveteam.org/wiki/IBM_23FD");
  (B "IBM 33FD (242K)", B "8""", B "");
  (B "IBM 33FD (284K)", B "8""", B "Does NOT include index cylinder");
  (B "IBM 33FD (303K)", B "8""", B "Does NOT include index cylinder");
  (B "IBM 43FD (492K)", B "8""", B "Does NOT include index cylinder");
  (B "IBM 43FD (568K)", B "8""", B "Does NOT include index cylinders");
  (B "IBM 53FD (985K)", B "8""", B "Does NOT include index cylinders");
  (B "IBM 53FD (1136K)", B "8""", B "Does NOT include index cylinders");
  (B "IBM 53FD (1212kB)", B "8""", B "Does NOT include index cylinders");
  (B "DEC RX01", B "8""", B "http://avitech.com.au/?page_id=1008");
  (B "DEC RX02", B "8""", B "http://avitech.com.au/?page_id=1008");
  (B "DEC RK05", B "19""", B "https://www.pdp8online.com/rk05/rk05.shtml");
  (B "IBM 3740", B "8""", B "");
  (B "MS-DOS 8"" SS SD", B "8""", B "Release year is a guess");
  (B "MS-DOS 8"" DS SD", B "8""", B "Release year is a guess");
  (B "MS-DOS 8"" SS DD", B "8""", B "Release year is a guess");
  (B "MS-DOS 8"" DS DD", B "8""", B "Release year is a guess");
  (B "MS-DOS 5 1/4"" SS DD 160K", B "5 1/4""", B "Release year is a guess");
  (B "MS-DOS 5 1/4"" DS DD 320K", B "5 1/4""", B "Release year is a guess");
  (B "MS-DOS 5 1/4"" SS DD 180K", B "5 1/4""", B "Release year is a guess");
  (B "MS-DOS 5 1/4"" DS DD 360K", B "5 1/4""", B "Release year is a guess");
  (B "MS-DOS 5 1/4"" SS QD", B "5 1/4""", B "Rare");
  (B "MS-DOS 5 1/4"" DS QD", B "5 1/4""", B "Rare");
  (B "MS-DOS 5 1/4"" DS HD", B "5 1/4""", B "Release year is a guess");
  (B "MS-DOS 3 1/2"" SS DD 320K", B "3 1/2""", B "");
  (B "MS-DOS 3 1/2"" SS DD 360K", B "3 1/2""", B "");
  (B "MS-DOS 3 1/2"" DS DD 640K", B "3 1/2""", B "Release year is a guess");
  (B "MS-DOS 3 1/2"" DS DD 720K", B "3 1/2""", B "Release year is a guess");
  (B "MS-DOS 3 1/2"" DS HD 1440K", B "3 1/2""", B "");
  (B "MS-DOS 3 1/2"" DS HD 1680K", B "3 1/2""", B "Release year is a guess");
  (B "MS-DOS 3 1/2"" DS HD 1720K", B "3 1/2""", B "Release year is a guess");
  (B "MS-DOS 3 1/2"" DS ED", B "3 1/2""", B "Release year is a guess");
  (B "ST-506", B "", B "");
  (B "ST-412", B "", B "")].
