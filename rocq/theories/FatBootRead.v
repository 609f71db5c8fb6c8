(** * FatBootRead: NewFATBootSectorFromStream (file_systems/fat/common.go) over any io.Reader
    (FatBoot.v has it over the bytes read). *)
From Verif Require Import GoBase ListZ Errors Rle Bufio FatBoot.

(* what a reader's error is as an error value *)
Definition rend_kerr (e : rend) : kerr := match e with REOF => KEOF | RFail x => KExt x end.

Section Read.
Context {T : Type} (read : ioreader T).
(* io.ReadFull / io.ReadAtLeast of Go's standard library: reads until n bytes have come ([got] so far) or an error comes;
   an error that comes with the last byte is dropped, EOF after some bytes becomes io.ErrUnexpectedEOF *)
Fixpoint read_full (fuel : nat) (t : T) (got : list Z) (n : Z) : outcome (T * (list Z + kerr)) :=
  match fuel with
  | O => OutOfFuel
  | S f =>
      if n <=? zlen got then Ret (t, inl got)
      else
        let '(t', c, e) := read t (n - zlen got) in
        let got' := got ++ c in
        match e with
        | None => read_full f t' got' n
        | Some e =>
            if n <=? zlen got' then Ret (t', inl got')
            else Ret (t', inr (match e with REOF => if zlen got' >? 0 then KUnexpectedEOF else KEOF | RFail x => KExt x end))
        end
  end.
(* common.go:71-83; [settable] as for FatBoot.new_boot: false is the code, whose binary.Read panics in setting the
   unexported fields after it has read the 36 bytes *)
Definition NewFATBootSectorFromStream (settable : bool) (fuel : nat) (t : T) : outcome (T * (boot + kerr)) :=
  obind (read_full fuel t [] 36) (fun '(t1, r) =>
    match r with
    | inr e => Ret (t1, inr (KWrap ErrIOFailed e))
    | inl b =>
        if negb settable then Panic
        else obind (read_full fuel t1 [] 4) (fun '(t2, r2) =>
          match r2 with
          | inr e => Ret (t2, inr (KWrap ErrIOFailed e))
          | inl b2 => obind (process_boot (decode_boot b) (le32 b2 0)) (fun r3 => Ret (t2, r3))
          end)
    end).
End Read.
