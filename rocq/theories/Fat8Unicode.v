(** * Fat8Unicode: the functions of file_systems/fat8 that deal with names, for strings of any bytes
    (Fat8.v and Fat8Same.v have them for ASCII).

    Strings are lists of bytes.  The parts of Go's standard library that these functions use are modelled from their
    sources: range over a string, unicode/utf8, strings.ToUpper, strings.EqualFold and the padding of fmt.  The tables of
    package unicode for characters outside ASCII are parameters. *)
From Verif Require Import GoBase ListZ Errors Flags GoPath OsFile Fat8.

Definition RuneError : Z := 0xFFFD.
(* utf8.AppendRune, Builder.WriteRune: what is not a character is written as RuneError *)
Definition encode_rune (r : Z) : list Z :=
  let put r :=
    if r <? 0x80 then [r]
    else if r <? 0x800 then [0xC0 + r / 2^6; 0x80 + r mod 2^6]
    else if r <? 0x10000 then [0xE0 + r / 2^12; 0x80 + r / 2^6 mod 2^6; 0x80 + r mod 2^6]
    else [0xF0 + r / 2^18; 0x80 + r / 2^12 mod 2^6; 0x80 + r / 2^6 mod 2^6; 0x80 + r mod 2^6] in
  if (r <? 0) || ((0xD800 <=? r) && (r <=? 0xDFFF)) || (0x10FFFF <? r) then put RuneError else put r.
(* utf8.DecodeRuneInString: the tables first and acceptRanges, for two, three and four bytes *)
Definition cont (b : Z) : bool := (0x80 <=? b) && (b <=? 0xBF).
Definition rune2 (b0 b1 : Z) : option Z :=
  if (0xC2 <=? b0) && (b0 <=? 0xDF) && cont b1 then Some (b0 mod 2^5 * 2^6 + b1 mod 2^6) else None.
Definition rune3 (b0 b1 b2 : Z) : option Z :=
  if (0xE0 <=? b0) && (b0 <=? 0xEF) && ((if b0 =? 0xE0 then 0xA0 else 0x80) <=? b1) && (b1 <=? (if b0 =? 0xED then 0x9F else 0xBF)) && cont b2
  then Some (b0 mod 2^4 * 2^12 + b1 mod 2^6 * 2^6 + b2 mod 2^6) else None.
Definition rune4 (b0 b1 b2 b3 : Z) : option Z :=
  if (0xF0 <=? b0) && (b0 <=? 0xF4) && ((if b0 =? 0xF0 then 0x90 else 0x80) <=? b1) && (b1 <=? (if b0 =? 0xF4 then 0x8F else 0xBF)) && cont b2 && cont b3
  then Some (b0 mod 2^3 * 2^18 + b1 mod 2^6 * 2^12 + b2 mod 2^6 * 2^6 + b3 mod 2^6) else None.
(* for _, r := range s: bytes that do not encode a character are RuneError, one by one *)
Fixpoint runes (s : list Z) : list Z :=
  match s with
  | [] => []
  | b0 :: t =>
      if b0 <? 0x80 then b0 :: runes t
      else
        match t with
        | [] => [RuneError]
        | b1 :: t1 =>
            match rune2 b0 b1 with
            | Some r => r :: runes t1
            | None =>
                match t1 with
                | [] => RuneError :: runes t
                | b2 :: t2 =>
                    match rune3 b0 b1 b2 with
                    | Some r => r :: runes t2
                    | None =>
                        match t2 with
                        | [] => RuneError :: runes t
                        | b3 :: t3 => match rune4 b0 b1 b2 b3 with Some r => r :: runes t3 | None => RuneError :: runes t end
                        end
                    end
                end
            end
        end
  end.
Definition is_ascii (s : list Z) : bool := forallb (fun c => c <? 0x80) s.

Section Names.
(* unicode.To(unicode.UpperCase, r), used for r > unicode.MaxASCII *)
Variable table : Z -> Z.
(* unicode.ToUpper *)
Definition rune_upper (r : Z) : Z := if r <=? 127 then upper r else table r.
(* strings.ToUpper: the loop for ASCII, and strings.Map otherwise, which leaves out negative results *)
Definition ToUpper (s : list Z) : list Z :=
  if is_ascii s then to_upper s
  else flat_map (fun r => let m := rune_upper r in if m <? 0 then [] else encode_rune m) (runes s).
(* fmt.Sprintf("%-ns", s): fmt counts characters *)
Definition pad_runes (n : Z) (s : list Z) : list Z := s ++ zrepeat 32 (n - zlen (runes s)).

(* common.go:90-127; len counts bytes *)
Definition FilenameToBytes (name : list Z) : list Z + kerr :=
  match name with
  | [] => inr (K ErrInvalidArgument)
  | _ =>
      let '(stem, second) := split_dot name in
      if zlen stem >? 6 then inr (K ErrNameTooLong)
      else
        match second with
        | Some ext =>
            if zlen ext =? 0 then inl (ToUpper (pad_runes 6 stem ++ pad_runes 3 [dot]))
            else if zlen ext >? 3 then inr (K ErrNameTooLong)
            else inl (ToUpper (pad_runes 6 stem ++ pad_runes 3 ext))
        | None => inl (ToUpper (pad_runes 9 stem))
        end
  end.
(* common.go:132-143; bytes.TrimRight with a cutset of one ASCII character works on bytes *)
Definition BytesToFilename (raw : list Z) : outcome (list Z) :=
  if zlen raw <? 6 then Panic
  else
    let stem := trim_right (slice 0 6 raw) in
    let ext := trim_right (slice 6 (zlen raw - 6) raw) in
    Ret (ToUpper (if zlen ext >? 0 then stem ++ dot :: ext else stem)).
(* readingdriver.go:22-62 *)
Definition Stat8 (d : driver8) (path : list Z) : stat8 + kerr :=
  match find_dirent (trim_slash (ToUpper path)) (dirents d) with
  | None => inr (K ErrNotFound)
  | Some info =>
      let used := u64 (zlen (d_clusters info) * SectorsPerCluster (geo d)) in
      let total := u64 (used - d_unused info) in
      if d_binary info then
        inl (mkSt8 (d_index info) 1 511 (i64 (i64 total * 128)) 128 (i64 (u64 (used - d_unused info))))
      else inr (K ErrNotImplemented)
  end.
End Names.

Section Fold.
(* unicode.SimpleFold *)
Variable SimpleFold : Z -> Z.
(* for r != sr && r < tr { r = unicode.SimpleFold(r) } *)
Fixpoint fold_loop (fuel : nat) (sr tr r : Z) : outcome Z :=
  match fuel with
  | O => OutOfFuel
  | S f => if negb (r =? sr) && (r <? tr) then fold_loop f sr tr (SimpleFold r) else Ret r
  end.
(* one round of the second loop of strings.EqualFold *)
Definition fold_runes (a b : Z) : outcome bool :=
  if b =? a then Ret true
  else
    let '(sr, tr) := if b <? a then (b, a) else (a, b) in
    if tr <? 0x80 then Ret ((65 <=? sr) && (sr <=? 90) && (tr =? sr + 32))
    else obind (fold_loop (Z.to_nat (sr + tr + 3)) sr tr (SimpleFold sr)) (fun r => Ret (r =? tr)).
Fixpoint fold_rest (s t : list Z) : outcome bool :=
  match s, t with
  | [], _ => Ret (match t with [] => true | _ => false end)
  | _, [] => Ret false
  | a :: s', b :: t' => obind (fold_runes a b) (fun e => if e then fold_rest s' t' else Ret false)
  end.
(* strings.EqualFold: bytes as long as both are ASCII, then characters *)
Fixpoint EqualFold (s t : list Z) : outcome bool :=
  match s, t with
  | a :: s', b :: t' =>
      if (0x80 <=? a) || (0x80 <=? b) then fold_rest (runes s) (runes t)
      else if b =? a then EqualFold s' t'
      else
        let '(sr, tr) := if b <? a then (b, a) else (a, b) in
        if (65 <=? sr) && (sr <=? 90) && (tr =? sr + 32) then EqualFold s' t' else Ret false
  | _, _ => Ret (zlen s =? zlen t)
  end.
(* readingdriver.go:14-16 *)
Definition SameFile8 (name1 name2 : list Z) : outcome bool := EqualFold name1 name2.
End Fold.
