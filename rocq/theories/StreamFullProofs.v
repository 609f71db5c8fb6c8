(** * StreamFullProofs: lemmas behind C177 *)
From Verif Require Import GoBase ListZ Errors Flags BlockCache Spec_BlockCache BlockCacheProofs BlockCacheProofs2 BlockCacheProofs3 BlockCacheProofs4
  BasicStream Spec_BasicStream BasicStreamProofs BasicStreamProofs3 Rle Bufio Spec_Bufio BufioProofs StreamInput StreamInputProofs StreamFull FatBoot FatBootRead Spec_FatBootRead FatBootReadProofs.

Section F.
Context {S : Type} (cb : callbacks S) (bs : Z) (nb : S -> Z) (blk : S -> Z -> list Z).
Hypothesis H : honest cb bs nb blk.
Hypothesis Hbs : 0 < bs < 2^62.
Notation rest := (rest_of blk).
(* the first read decides *)
Lemma full_spec f s st n : SInv bs nb blk s st -> io_read (sflags st) = true -> bytes (sbytes blk s st) -> 0 <= n -> ssize st + n < 2^63 ->
  exists s' st' c e, ReadFull cb (Datatypes.S (Datatypes.S f)) s st n = Ret (s', st', c, e) /\ SInv bs nb blk s' st' /\ sunchanged nb blk s st s' st' /\
    ((e = None /\ zlen c = n /\ spos st' = spos st + n /\ rest s st = c ++ rest s' st') \/
     (zlen (rest s st) < n /\ c = rest s st /\ e = Some (match rest s st with [] => KEOF | _ => KUnexpectedEOF end) /\ (rest s' st' = rest s st)) \/
     (exists s i b x, snd (cb_fetch cb s i b) = Some x /\ e = Some (KMsg x) /\ c = [])).
Proof.
  intros I Hr HB Hn Hf. unfold ReadFull. cbn [full_loop]. change (zlen []) with 0. destruct (n <=? 0) eqn:E0.
  - exists s, st, [], None. split; [reflexivity|]. split; [exact I|]. split; [repeat split|]. left. split; [reflexivity|]. change (zlen []) with 0. split; [lia|]. split; [lia|reflexivity].
  - rewrite Z.sub_0_r. destruct (one_read cb bs nb blk H Hbs s st n I Hr HB ltac:(lia) Hf) as (s1 & st1 & c & e & E & I1 & U & HC). rewrite E. cbn [app].
    destruct HC as [(-> & Hc & HP & HP2 & ER)|[(-> & ->)|(-> & x1 & i & b & x & X & ->)]].
    + exists s1, st1, c, None. replace (n <=? zlen c) with true by lia. cbn [fst snd]. split; [reflexivity|]. split; [exact I1|]. split; [exact U|]. left. auto.
    + destruct (n <=? zlen (rest s st)) eqn:EL; [exfalso|].
      * (* a read that could be satisfied does not report EOF *)
        destruct (read_spec cb bs nb blk H Hbs s st (zrepeat 0 n) I Hr) as (s2 & c2 & e2 & evs & HK & Hac & He & E2); rewrite ?zlen_repeat by lia; [lia|lia|].
        cbv zeta in E2. rewrite zlen_repeat in E2 by lia. rewrite (rest_len cb bs nb blk H Hbs s st I) in EL.
        replace (Z.max 0 (Z.min n (ssize st - spos st))) with n in E2 by lia. rewrite Z.ltb_irrefl in E2. unfold stream_read in E. cbn [fst snd] in E. rewrite E2 in E.
        destruct e2 as [y|]; [|congruence]. destruct (proj2 He _ eq_refl) as (? & ? & ? & ? & _ & ->). congruence.
      * eexists s1, st1, _, _. split; [reflexivity|]. split; [exact I1|]. split; [exact U|]. right. left. split; [lia|]. split; [reflexivity|]. split.
        { f_equal. destruct (rest s st) as [|y l]; [reflexivity|]. rewrite zlen_cons. pose proof (zlen_nonneg l). replace (zlen l + 1 >? 0) with true by lia. replace (1 + zlen l >? 0) with true by lia. reflexivity. }
        { destruct (read_spec cb bs nb blk H Hbs s st (zrepeat 0 n) I Hr) as (s2 & c2 & e2 & evs & HK & Hac & He & E2); rewrite ?zlen_repeat by lia; [lia|lia|].
          cbv zeta in E2. rewrite zlen_repeat in E2 by lia. rewrite (rest_len cb bs nb blk H Hbs s st I) in EL.
          unfold stream_read in E. cbn [fst snd] in E. rewrite E2 in E.
          assert (spos st1 = spos st) as HP.
          { destruct e2 as [y|]; [|replace (Z.max 0 (Z.min n (ssize st - spos st)) <? n) with true in E by lia];
              apply (f_equal (fun o => match o with Ret (_, t, _, _) => spos t | _ => 0 end)) in E; cbv beta iota in E; symmetry; exact E. }
          unfold rest_of. rewrite (unch_sbytes nb blk s st s1 st1 U), HP. destruct U as (-> & _). reflexivity. }
    + replace (n <=? zlen []) with false by (change (zlen []) with 0; lia). exists s1, st1, [], (Some (KMsg x)). split; [reflexivity|]. split; [exact I1|]. split; [exact U|]. right. right. exists x1, i, b, x. auto.
Qed.
(* on storage that does not fail *)
Lemma read_exact s st n : (forall s i b, snd (cb_fetch cb s i b) = None) -> SInv bs nb blk s st -> io_read (sflags st) = true -> bytes (sbytes blk s st) -> 0 < n -> ssize st + n < 2^63 ->
  exists s' st', SInv bs nb blk s' st' /\ sunchanged nb blk s st s' st' /\
    if n <=? zlen (rest s st) then stream_read cb (s, st) n = Ret (s', st', slice 0 n (rest s st), None) /\ rest s' st' = slice n (zlen (rest s st) - n) (rest s st)
    else stream_read cb (s, st) n = Ret (s', st', rest s st, Some KEOF).
Proof.
  intros Hok I Hr HB Hn Hf. destruct (one_read cb bs nb blk H Hbs s st n I Hr HB Hn Hf) as (s' & st' & c & e & E & I' & U & HC). exists s', st'. split; [exact I'|]. split; [exact U|]. rewrite E.
  destruct HC as [(-> & Hc & HP & HP2 & ER)|[(-> & ->)|(-> & x1 & i & b & x & X & ->)]]; [| |rewrite Hok in X; discriminate].
  - assert (n <=? zlen (rest s st) = true) as -> by (rewrite ER, zlen_app; pose proof (zlen_nonneg (rest s' st')); lia). rewrite ER. split.
    + do 3 f_equal. rewrite slice_app_l by lia. rewrite <- Hc. symmetry. apply slice_all.
    + rewrite slice_app_r by lia. rewrite zlen_app, Hc, Z.sub_diag. replace (n + zlen (rest s' st') - n) with (zlen (rest s' st')) by lia. symmetry. apply slice_all.
  - destruct (n <=? zlen (rest s st)) eqn:EL; [exfalso|reflexivity].
    destruct (read_spec cb bs nb blk H Hbs s st (zrepeat 0 n) I Hr) as (s2 & c2 & e2 & evs & HK & Hac & He & E2); rewrite ?zlen_repeat by lia; [lia|lia|].
    cbv zeta in E2. rewrite zlen_repeat in E2 by lia. rewrite (rest_len cb bs nb blk H Hbs s st I) in EL.
    replace (Z.max 0 (Z.min n (ssize st - spos st))) with n in E2 by lia. rewrite Z.ltb_irrefl in E2. unfold stream_read in E. cbn [fst snd] in E. rewrite E2 in E.
    destruct e2 as [y|]; [|congruence]. destruct (proj2 He _ eq_refl) as (? & ? & ? & ? & _ & ->). congruence.
Qed.
(* so the io.ReadFull of binary.Read (FatBootRead.v) *)
Lemma boot_full code f s st n : (forall s i b, snd (cb_fetch cb s i b) = None) -> SInv bs nb blk s st -> io_read (sflags st) = true -> bytes (sbytes blk s st) -> 0 < n -> ssize st + n < 2^63 ->
  exists s' st', SInv bs nb blk s' st' /\ sunchanged nb blk s st s' st' /\
    if n <=? zlen (rest s st) then read_full (stream_reader cb code) (Datatypes.S (Datatypes.S f)) (s, st) [] n = Ret ((s', st'), inl (slice 0 n (rest s st))) /\ rest s' st' = slice n (zlen (rest s st) - n) (rest s st)
    else read_full (stream_reader cb code) (Datatypes.S (Datatypes.S f)) (s, st) [] n = Ret ((s', st'), inr (too_short (rest s st) REOF)).
Proof.
  intros Hok I Hr HB Hn Hf. destruct (read_exact s st n Hok I Hr HB Hn Hf) as (s' & st' & I' & U & E). exists s', st'. split; [exact I'|]. split; [exact U|].
  rewrite read_full_S. change (zlen []) with 0. replace (n <=? 0) with false by lia. rewrite Z.sub_0_r. unfold stream_reader at 1 3.
  destruct (n <=? zlen (rest s st)) eqn:EL.
  - destruct E as [E ER]. split; [|exact ER]. rewrite E. cbn [option_map app]. rewrite read_full_S. rewrite zlen_slice by lia. now rewrite Z.leb_refl.
  - rewrite E. cbn [option_map is_eof app]. rewrite EL. now rewrite <- too_short_eq.
Qed.
End F.
