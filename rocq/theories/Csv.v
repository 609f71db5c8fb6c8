(** * Csv: the start-up of disks/disks.go from the text of disk-geometries.csv

    encoding/csv (Reader with Comma = '|', everything else at its default), csvutil.Decoder and strconv.ParseUint
    are libraries; they are modelled from their sources as far as this use of them goes. *)
From Coq Require Import String.
From Verif Require Import GoBase ListZ Errors GoPath Spec_Path Disks.

(** ** encoding/csv *)
Definition QUOTE : Z := 34.
Definition BAR : Z := 124.
Definition NL : Z := 10.
Definition CR : Z := 13.
(* bytes.IndexByte: the parts before and after the first c *)
Fixpoint cut (c : Z) (l : list Z) : option (list Z * list Z) :=
  match l with
  | [] => None
  | x :: l' => if x =? c then Some ([], l') else match cut c l' with Some (a, b) => Some (x :: a, b) | None => None end
  end.
(* readLine: the line with its newline, if it has one, and the rest of the input; "\r\n" becomes "\n", and a
   "\r" at the end of the input is dropped.  None at the end of the input *)
Fixpoint line_of (s : list Z) : list Z * list Z :=
  match s with
  | [] => ([], [])
  | c :: s' =>
      if c =? NL then ([NL], s')
      else if (c =? CR) && match s' with [] => true | d :: _ => d =? NL end then match s' with [] => ([], []) | _ :: s2 => ([NL], s2) end
      else let '(l, r) := line_of s' in (c :: l, r)
  end.
Definition readLine (s : list Z) : option (list Z * list Z) := match s with [] => None | _ => Some (line_of s) end.
(* lengthNL(line) == len(line) *)
Definition only_nl (line : list Z) : bool := match line with [] => true | [c] => c =? NL | _ => false end.
(* line[:len(line)-lengthNL(line)] *)
Fixpoint drop_nl (line : list Z) : list Z :=
  match line with [] => [] | [c] => if c =? NL then [] else [c] | c :: l => c :: drop_nl l end.
Definition has_quote (l : list Z) : bool := existsb (fun c => c =? QUOTE) l.
(* nextRune(line) == c, and the line after it *)
Definition after (c : Z) (line : list Z) : option (list Z) := match line with x :: l => if x =? c then Some l else None | [] => None end.
Inductive csverr := ErrBareQuote | ErrQuote | ErrFieldCount.
(* readRecord's loop parseField; [inq] is Some buffer inside a quoted field; the input does not fail *)
Fixpoint parse_rec (fuel : nat) (inq : option (list Z)) (line rest : list Z) (acc : list (list Z)) : outcome (list (list Z) * list Z + csverr) :=
  match fuel with
  | O => OutOfFuel
  | S f =>
      match inq with
      | None =>
          match after QUOTE line with
          | Some line' => parse_rec f (Some []) line' rest acc
          | None =>
              match cut BAR line with
              | Some (field, line') =>
                  if has_quote field then Ret (inr ErrBareQuote) else parse_rec f None line' rest (acc ++ [field])
              | None =>
                  if has_quote (drop_nl line) then Ret (inr ErrBareQuote) else Ret (inl (acc ++ [drop_nl line], rest))
              end
          end
      | Some buf =>
          match cut QUOTE line with
          | Some (part, line') =>
              match after QUOTE line', after BAR line' with
              | Some line2, _ => parse_rec f (Some (buf ++ part ++ [QUOTE])) line2 rest acc
              | None, Some line2 => parse_rec f None line2 rest (acc ++ [buf ++ part])
              | None, None => if only_nl line' then Ret (inl (acc ++ [buf ++ part], rest)) else Ret (inr ErrQuote)
              end
          | None =>
              match line with
              | [] => Ret (inr ErrQuote)
              | _ => match readLine rest with
                     | Some (line', rest') => parse_rec f (Some (buf ++ line)) line' rest' acc
                     | None => parse_rec f (Some (buf ++ line)) [] [] acc
                     end
              end
          end
      end
  end.
(* readRecord: empty lines are skipped; None is io.EOF *)
Fixpoint read_record (fuel : nat) (s : list Z) : outcome (option (list (list Z) * list Z) + csverr) :=
  match fuel with
  | O => OutOfFuel
  | S f =>
      match readLine s with
      | None => Ret (inl None)
      | Some (line, rest) =>
          if only_nl line then read_record f rest
          else obind (parse_rec fuel None line rest []) (fun r => Ret (match r with inl x => inl (Some x) | inr e => inr e end))
      end
  end.

(** ** csvutil: the header's first record gives the columns; the fields of the struct are set by name *)
(* map[string]int built in order: the last column of a name counts *)
Fixpoint column (name : list Z) (header row : list (list Z)) : option (list Z) :=
  match header, row with
  | h :: hs, v :: vs => match column name hs vs with Some x => Some x | None => if beqb h name then Some v else None end
  | _, _ => None
  end.
(* the struct with all its fields, disks.go:33-57 *)
Record disk := mkDisk { d_geo : geometry; d_name : list Z; d_form : list Z; d_notes : list Z }.
Section Decode.
(* strconv.ParseUint *)
Context (num : list Z -> option Z).
Definition str_field (name : list Z) (header row : list (list Z)) : list Z := match column name header row with Some v => v | None => [] end.
Definition num_field (name : list Z) (header row : list (list Z)) : option Z := match column name header row with Some v => num v | None => Some 0 end.
Definition bindo {A B} (o : option A) (k : A -> option B) : option B := match o with Some a => k a | None => None end.
(* the tags of disks.go:34-56 *)
Definition decode_row (header row : list (list Z)) : option disk :=
  bindo (num_field (B "first_year_available") header row) (fun year =>
  bindo (num_field (B "is_removable") header row) (fun removable =>
  bindo (num_field (B "bits_per_address_unit") header row) (fun bits =>
  bindo (num_field (B "address_units_per_sector") header row) (fun units =>
  bindo (num_field (B "sectors_per_track") header row) (fun sectors =>
  bindo (num_field (B "total_data_tracks") header row) (fun tracks =>
  bindo (num_field (B "hidden_tracks") header row) (fun hidden =>
  bindo (num_field (B "heads") header row) (fun heads =>
    Some (mkDisk (mkGeo (str_field (B "slug") header row) year removable bits units sectors tracks hidden heads)
            (str_field (B "name") header row) (str_field (B "form_factor") header row) (str_field (B "notes") header row)))))))))).

Fixpoint find_disk (slug : list Z) (m : list disk) : option disk :=
  match m with
  | [] => None
  | d :: m' => if beqb (g_slug (d_geo d)) slug then Some d else find_disk slug m'
  end.
(* disks.go:98-121; the map as a list *)
Fixpoint init_rows (fuel : nat) (header : list (list Z)) (s : list Z) (m : list disk) : outcome (list disk) :=
  match fuel with
  | O => OutOfFuel
  | S f =>
      obind (read_record (S (S (length s))) s) (fun r =>
        match r with
        | inl None => Ret m
        | inr _ => Panic
        | inl (Some (row, s')) =>
            if negb (zlen row =? zlen header) then Panic
            else match decode_row header row with
                 | None => Panic
                 | Some d => match find_disk (g_slug (d_geo d)) m with Some _ => Panic | None => init_rows f header s' (d :: m) end
                 end
        end)
  end.
(* disks.go:88-122 init; NewDecoder fails if there is no header *)
Definition init_csv (text : list Z) : outcome (list disk) :=
  obind (read_record (S (S (length text))) text) (fun r =>
    match r with
    | inl (Some (header, s)) => init_rows (S (length text)) header s []
    | _ => Panic
    end).
End Decode.
(* disks.go:78-86; [KExt 0] stands for the fmt.Errorf *)
Definition lookup_disk (m : list disk) (slug : list Z) : option disk := find_disk slug m.
(* strconv.ParseUint(s, 10, 64) *)
Definition digit (c : Z) : option Z := if (48 <=? c) && (c <=? 57) then Some (c - 48) else None.
Fixpoint digits (l : list Z) (n : Z) : option Z :=
  match l with
  | [] => Some n
  | c :: l' => match digit c with Some d => if n * 10 + d <? 2^64 then digits l' (n * 10 + d) else None | None => None end
  end.
Definition ParseUint (l : list Z) : option Z := match l with [] => None | _ => digits l 0 end.
