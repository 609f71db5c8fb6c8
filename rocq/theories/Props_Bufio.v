(** * Props_Bufio: how the input is cut into reads does not matter *)
From Coq Require Import String.
From Verif Require Import GoBase ListZ Rle Spec_Path Bufio Spec_Bufio BufioProofs Props_Rle.

(** ** C153 *)
(* Whatever pieces the reader gives its bytes in (also empty ones, also together with the error), what is
   written, counted and returned is what the theorems about byte sequences (C01-C08) say of the bytes
   delivered and the error that ends them *)
Theorem C153_compress {T} (read : ioreader T) t D e fuel w : go_reader read -> input_is read t D e -> (length D < fuel)%nat ->
  CompressRLE8 read fuel t w = compress_rle8 (mkReader D e) w.
Proof.
  intros HG Hi Hf. unfold CompressRLE8, compress_rle8. rewrite (compress_sim read HG fuel _ D e 0 w) by (auto using rep_new). apply compress_fuel; cbn; lia.
Qed.
Theorem C153_recursive {T} (read : ioreader T) t D e fuel w : go_reader read -> input_is read t D e -> (length D < fuel)%nat ->
  CompressRLERecursive read fuel t w = compress_recursive (mkReader D e) w.
Proof.
  intros HG Hi Hf. unfold CompressRLERecursive, compress_recursive. rewrite (recursive_sim read HG fuel _ D e 0 w) by (auto using rep_new). apply recursive_fuel; cbn; lia.
Qed.
Theorem C153_decompress {T} (read : ioreader T) t D e fuel w : go_reader read -> input_is read t D e -> (length D < fuel)%nat ->
  DecompressRLE8 read fuel t w = Ret (decompress_rle8 (mkReader D e) w).
Proof. intros HG Hi Hf. unfold DecompressRLE8, decompress_rle8. cbn [rdata rterm]. apply (decompress_sim read HG); auto using rep_new. Qed.
(* so any two readers that deliver the same are interchangeable *)
Theorem C153_same_input {T U} (r1 : ioreader T) (r2 : ioreader U) t u D e fuel w : go_reader r1 -> go_reader r2 -> input_is r1 t D e -> input_is r2 u D e -> (length D < fuel)%nat ->
  CompressRLE8 r1 fuel t w = CompressRLE8 r2 fuel u w /\ CompressRLERecursive r1 fuel t w = CompressRLERecursive r2 fuel u w /\
  DecompressRLE8 r1 fuel t w = DecompressRLE8 r2 fuel u w.
Proof.
  intros G1 G2 I1 I2 Hf. rewrite (C153_compress r1 t D e), (C153_compress r2 u D e), (C153_recursive r1 t D e), (C153_recursive r2 u D e),
    (C153_decompress r1 t D e), (C153_decompress r2 u D e) by auto. auto.
Qed.
(* a reader delivers one thing only *)
Theorem C153_deterministic {T} (read : ioreader T) k t D e D' e' : delivers read k t D e -> delivers read k t D' e' -> D = D' /\ e = e'.
Proof.
  intros H. revert D' e'. induction H as [k t t' c e E|k t t' c D e E Hne Hd IH|k t t' D e E Hd IH|t]; intros D2 e2 H2;
    inversion H2 as [k0 t0 t1 c0 e0 E0|k0 t0 t1 c0 D0 e0 E0 Hne0 Hd0|k0 t0 t1 D0 e0 E0 Hd0|]; subst; try congruence.
  - rewrite E in E0. injection E0 as <- <- <-. auto.
  - rewrite E in E0. injection E0 as <- <-. destruct (IH _ _ Hd0) as [-> ->]. auto.
  - rewrite E in E0. injection E0 as <-. auto.
  - auto.
Qed.
(* the round trip, through any two readers *)
Theorem C153_roundtrip {T U} (r1 : ioreader T) (r2 : ioreader U) t D : go_reader r1 -> go_reader r2 -> bytes D -> input_is r1 t D REOF ->
  exists C n, (forall fuel, (length D < fuel)%nat -> CompressRLE8 r1 fuel t (mkWriter [] []) = Ret (mkRes n None (mkWriter C []))) /\
    forall u, input_is r2 u C REOF -> exists m, forall fuel, (length C < fuel)%nat -> DecompressRLE8 r2 fuel u (mkWriter [] []) = Ret (mkRes m None (mkWriter D [])).
Proof.
  intros G1 G2 HD I1. destruct (C01_rle8_roundtrip D HD) as (C & nc & nd & EC & _ & ED & _). exists C, nc. split.
  - intros fuel Hf. now rewrite (C153_compress r1 t D REOF).
  - intros u I2. exists nd. intros fuel Hf. rewrite (C153_decompress r2 u C REOF) by auto. now rewrite ED.
Qed.
(* every way of cutting bytes into pieces is such a reader *)
Theorem C153_pieces early fin l : Forall (fun c => c <> [] /\ zlen c <= 4096) l -> Forall bytes l ->
  go_reader (pieces early fin) /\ input_is (pieces early fin) l (concat l) fin.
Proof. intros H HB. split; [apply pieces_go|now apply pieces_deliver]. Qed.
(* UnreadByte: it fails, and changes nothing, before anything was read and a second time in a row; after ReadByte gave a
   byte it succeeds, and the next ReadByte gives that byte again and leaves the reader as it was *)
Theorem C153_unread {T} (read : ioreader T) :
  (forall t : T, unread_byte (new_reader t) = (new_reader t, false)) /\
  (forall (b b1 : bufio T) ok, unread_byte b = (b1, ok) -> unread_byte b1 = (b1, false) /\ (ok = false -> b1 = b)) /\
  (forall fuel b b1 c, 0 <= b_r b -> is_byte c -> read_byte read fuel b = Ret (b1, inl c) ->
     exists b2, unread_byte b1 = (b2, true) /\ read_byte read 1 b2 = Ret (b1, inl c)).
Proof.
  split; [reflexivity|]. split.
  - intros b b1 ok. unfold unread_byte at 1. destruct (_ || _) eqn:E; [|destruct (b_r b >? 0)]; intros [= <- <-]; (split; [|now auto || discriminate]).
    + unfold unread_byte. now rewrite E.
    + reflexivity.
    + reflexivity.
  - assert (forall k b, 0 <= b_r b -> 0 <= b_r (fill_loop read k b)) as HF.
    { induction k as [|k IH]; intros b H; cbn [fill_loop]; [exact H|]. destruct (read _ _) as [[t x] [e|]]; [exact H|]. destruct (_ >? _); [exact H|]. now apply IH. }
    induction fuel as [|f IH]; intros b b1 c Hr [Hc0 Hc1] E; [discriminate|]. rewrite read_byte_S in E. destruct (b_unread b) as [|x u] eqn:Eu.
    + destruct (b_err b); [discriminate|]. unfold fill in E. rewrite Eu in E. change (zlen [] >=? 4096) with false in E. cbv iota in E. cbn [obind] in E.
      apply IH in E; [exact E| |now split]. apply HF. cbn. lia.
    + injection E as <- ->. unfold unread_byte. cbn [b_last b_r b_unread]. replace (c <? 0) with false by lia. replace (b_r b + 1 =? 0) with false by lia.
      cbn [orb andb]. replace (b_r b + 1 >? 0) with true by lia. eexists. split; [reflexivity|]. cbn [read_byte b_unread b_rd b_r b_err]. do 3 f_equal. lia.
Qed.
(* a reader that gives one byte at a time, and nothing where there is a -1 *)
Definition with_pauses : ioreader (list Z) := fun t n =>
  match t with [] => ([], [], Some REOF) | c :: t' => if (c <? 0) || (n <? 1) then (t', [], None) else (t', [u8 c], None) end.
Example C153_example :
  go_reader with_pauses /\ input_is with_pauses [-1; 7; -1; -1; 7; 7; 3] [7; 7; 7; 3] REOF /\ input_is (pieces true REOF) [[7; 7]; [7; 3]] [7; 7; 7; 3] REOF /\
  CompressRLE8 with_pauses 9 [-1; 7; -1; -1; 7; 7; 3] (mkWriter [] []) = Ret (mkRes 4 None (mkWriter [7; 7; 1; 3] [])) /\
  (* a reader that never gives anything is given up after 100 reads *)
  input_is (fun t _ => (t, [], None)) tt [] ErrNoProgress /\
  CompressRLE8 (fun t _ => (t, [], None)) 1 tt (mkWriter [] []) = Ret (mkRes 0 (Some (EReader (-1))) (mkWriter [] [])).
Proof.
  split; [|split; [|split; [|split; [|split]]]].
  - intros t n t' c e Hn. unfold with_pauses. destruct t as [|x t0]; [intros [= <- <- <-]; split; [cbn; lia|constructor]|].
    destruct (_ || _) eqn:Eo; intros [= <- <- <-]; (split; [unfold zlen; cbn [length]; lia|]); [constructor|]. apply (u8_bytes [x]).
  - unfold input_is. eapply d_nothing; [reflexivity|]. change [7; 7; 7; 3] with ([7] ++ [7] ++ [7] ++ [3] ++ []). eapply d_more; [reflexivity|discriminate|].
    do 2 (eapply d_nothing; [reflexivity|]). do 3 (eapply d_more; [reflexivity|discriminate|]). eapply d_end. reflexivity.
  - apply (pieces_deliver true REOF [[7; 7]; [7; 3]]); repeat constructor; try discriminate; unfold zlen, is_byte; cbn; lia.
  - vm_compute. reflexivity.
  - unfold input_is. do 100 (eapply d_nothing; [reflexivity|]). constructor.
  - vm_compute. reflexivity.
Qed.
Print Assumptions C153_compress.
Print Assumptions C153_recursive.
Print Assumptions C153_decompress.
Print Assumptions C153_same_input.
Print Assumptions C153_deterministic.
Print Assumptions C153_roundtrip.
Print Assumptions C153_pieces.
Print Assumptions C153_unread.
