(** * GoPath: the functions of Go's "path" package that driver/driver.go uses, and
    NormalizePath.

    Strings are lists of bytes.  The standard library is not in /repo; [clean] follows
    the source of path.Clean (the lazy output buffer is kept reversed in [ro]). *)
From Verif Require Import GoBase.

Definition slash : Z := 47.
Definition dot : Z := 46.
Definition str_dot : list Z := [dot].
Definition str_dotdot : list Z := [dot; dot].
Definition str_slash : list Z := [slash].
Fixpoint beqb (a b : list Z) : bool :=
  match a, b with
  | [], [] => true
  | x :: a', y :: b' => (x =? y) && beqb a' b'
  | _, _ => false
  end.

(* for ; r < n && path[r] != '/'; r++ *)
Fixpoint span (l : list Z) : list Z * list Z :=
  match l with
  | [] => ([], [])
  | c :: l' => if c =? slash then ([], l) else let '(a, b) := span l' in (c :: a, b)
  end.
(* end of string or a slash *)
Definition at_end (l : list Z) : bool := match l with [] => true | c :: _ => c =? slash end.
(* out.w--; for out.w > dotdot && out.index(out.w) != '/' { out.w-- } *)
Fixpoint backtrack (ro : list Z) (dotdot : Z) : list Z :=
  match ro with
  | [] => []
  | c :: ro' => if (zlen ro' >? dotdot) && negb (c =? slash) then backtrack ro' dotdot else ro'
  end.
Fixpoint clean_loop (fuel : nat) (rooted : bool) (rest ro : list Z) (dotdot : Z) : list Z :=
  match fuel, rest with
  | O, _ => ro
  | _, [] => ro
  | S f, c :: r1 =>
      if c =? slash then clean_loop f rooted r1 ro dotdot
      else if (c =? dot) && at_end r1 then clean_loop f rooted r1 ro dotdot
      else if (c =? dot) && match r1 with [] => false | d :: r2 => (d =? dot) && at_end r2 end then
        let r2 := tl r1 in
        if zlen ro >? dotdot then clean_loop f rooted r2 (backtrack ro dotdot) dotdot
        else if negb rooted then
          let ro1 := if zlen ro >? 0 then slash :: ro else ro in
          let ro2 := dot :: dot :: ro1 in
          clean_loop f rooted r2 ro2 (zlen ro2)
        else clean_loop f rooted r2 ro dotdot
      else
        let ro1 := if (rooted && negb (zlen ro =? 1)) || (negb rooted && negb (zlen ro =? 0)) then slash :: ro else ro in
        let '(a, b) := span rest in
        clean_loop f rooted b (rev a ++ ro1) dotdot
  end.
Definition is_abs (p : list Z) : bool := match p with c :: _ => c =? slash | [] => false end.
(* path.Clean *)
Definition clean (p : list Z) : list Z :=
  match p with
  | [] => str_dot
  | c :: p' =>
      let ro := if c =? slash then clean_loop (length p) true p' [slash] 1
                else clean_loop (length p) false p [] 0 in
      if zlen ro =? 0 then str_dot else rev ro
  end.
(* path.Join of two elements: empty elements are ignored *)
Definition join (a b : list Z) : list Z :=
  match a, b with
  | [], [] => []
  | [], _ => clean b
  | _, [] => clean a
  | _, _ => clean (a ++ slash :: b)
  end.
(* path.Split: everything up to and including the last slash, and the rest *)
Fixpoint split_path (p : list Z) : list Z * list Z :=
  match p with
  | [] => ([], [])
  | c :: p' =>
      let '(d, f) := split_path p' in
      match d with
      | [] => if c =? slash then ([c], f) else ([], c :: f)
      | _ => (c :: d, f)
      end
  end.

(* driver.go:42-51.  filepath.ToSlash is the identity on Unix. *)
Definition normalize_path (cwd path : list Z) : list Z :=
  let p := clean path in
  let p := if beqb p str_dot then str_slash else p in
  if is_abs p then p else join cwd p.
