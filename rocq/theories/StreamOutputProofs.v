(** * StreamOutputProofs: lemmas behind C179 *)
From Verif Require Import GoBase ListZ Errors Flags BlockCache Spec_BlockCache BlockCacheProofs BlockCacheProofs2 BlockCacheProofs3 BlockCacheProofs4
  BasicStream Spec_BasicStream BasicStreamProofs BasicStreamProofs2 BasicStreamProofs3 Rle Spec_Rle RleProofs Bufio Spec_Bufio BufioProofs Image ImageStream Spec_ImageStream ImageStreamProofs
  StreamInput StreamInputProofs StreamCopy StreamCopyProofs StreamOutput.

(* the countingWriter counts what write_all_s counts *)
Lemma do_writes_is {W} (wr : iowriter W) ws : forall c w t e w', write_all_s wr ws c w = (t, e, w') ->
  do_writes (counting wr) ws (w, c) = ((w', t), match e with Some (EWriter x) => Some x | _ => None end) /\ (forall x, e = Some x -> exists y, x = EWriter y).
Proof.
  induction ws as [|b ws IH]; intros c w t e w'; cbn [write_all_s do_writes].
  - intros [= <- <- <-]. split; [reflexivity|discriminate].
  - unfold counting at 1. destruct (wr w b) as [[w1 n] [x|]].
    + intros [= <- <- <-]. split; [reflexivity|]. intros y [= <-]. eauto.
    + apply IH.
Qed.
Section Out.
Context {S : Type} (cb : callbacks S) (bs : Z) (nb : S -> Z) (blk : S -> Z -> list Z).
Hypothesis H : honest cb bs nb blk.
Hypothesis Hbs : 0 < bs < 2^62.
Variable code : kerr -> Z.
(* one Write that ends inside the stream *)
Lemma out_step s st b : SInv bs nb blk s st -> io_write (sflags st) = true -> io_append (sflags st) = false -> spos st + zlen b <= ssize st -> ssize st + bs < 2^63 ->
  exists s' st' n e, stream_out cb code (s, st) b = ((s', st'), n, option_map code e) /\ SInv bs nb blk s' st' /\ sflags st' = sflags st /\ ssize st' = ssize st /\
    (forall j, 0 <= j < ssize st -> ~ (spos st <= j < spos st + zlen b) -> znth 0 (sbytes blk s' st') j = znth 0 (sbytes blk s st) j) /\
    (e = None -> n = zlen b /\ spos st' = spos st + zlen b /\ total (scache st') = total (scache st) /\ sbytes blk s' st' = splice (spos st) b (sbytes blk s st) /\ (spos st + zlen b) / bs < total (scache st)) /\
    (reliable cb -> e = if write_fits bs (total (scache st)) (spos st) (zlen b) then None else Some (K ErrArgumentOutOfRange)).
Proof.
  intros I Hw Ha Hin Hf. pose proof I as (WW & Hsz & Hp). pose proof (zlen_nonneg b) as Hb. pose proof (sblocks_len cb bs nb blk H Hbs s st I) as HL.
  destruct (impl_write_cases cb bs nb blk H Hbs s st b (spos st) I Hw ltac:(lia) ltac:(lia)) as (s' & st' & n & e & E & I' & [F1 F2] & Hn & HS & HT & HO & HN & HR & _).
  cbv zeta in *. set (T := total (scache st)) in *. assert (ssize st <= bs * T) as HsT by (unfold T; lia).
  assert (write_grows bs T (spos st) (zlen b) = true -> nblocks bs (spos st + zlen b) = T /\ spos st + zlen b = ssize st) as HG.
  { unfold write_grows. intros G. assert (T <= (spos st + zlen b) / bs) as G' by lia. pose proof (Z.mul_div_le (spos st + zlen b) bs ltac:(lia)) as M.
    assert (bs * T <= bs * ((spos st + zlen b) / bs)) as M2 by (apply Z.mul_le_mono_nonneg_l; lia). assert (spos st + zlen b = bs * T) as EE by lia. split; [|lia].
    unfold nblocks. rewrite EE. replace (bs * T + bs - 1) with (bs - 1 + T * bs) by lia. rewrite Z.div_add, Z.div_small by lia. lia. }
  assert ((if write_grows bs T (spos st) (zlen b) then nblocks bs (spos st + zlen b) else T) = T) as ET by (destruct (write_grows bs T (spos st) (zlen b)); [now apply HG|reflexivity]).
  rewrite ET in *. assert (ssize st' = ssize st) as HSS by (destruct HS as [->|(G & ->)]; [reflexivity|now apply HG]).
  exists s', (set_pos st' (spos st + n)), n, e. unfold stream_out, stream_writer. cbn [fst snd]. unfold s_write. rewrite Hw, Ha. cbn [negb]. rewrite E, F2.
  assert (0 <= n <= zlen b) as Hnb by lia. rewrite i64_id by lia. split; [reflexivity|]. split; [apply set_pos_inv; [exact I'|lia]|]. split; [exact F1|]. split; [exact HSS|].
  change (sblocks blk s' (set_pos st' (spos st + n))) with (sblocks blk s' st'). change (sbytes blk s' (set_pos st' (spos st + n))) with (sbytes blk s' st').
  pose proof (sblocks_len cb bs nb blk H Hbs s' st' I') as HL'. assert (bs * T <= bs * total (scache st')) as HTT by (apply Z.mul_le_mono_nonneg_l; lia). fold T in HL.
  split; [|split; [|exact HR]].
  - intros j Hj Hout. unfold sbytes. rewrite HSS, !znth_slice by lia. rewrite !Z.add_0_l. apply HO; [lia|exact Hout].
  - intros ->. destruct (HN eq_refl) as (-> & Hfit & _ & Ht & _ & HB). split; [reflexivity|]. split; [reflexivity|]. split; [exact Ht|]. split.
    + apply (sbytes_splice cb bs nb blk H Hbs s st s' st' (spos st) b I HSS); [|lia|lia]. rewrite HB. f_equal. unfold grown_blocks. destruct (write_grows bs T (spos st) (zlen b)) eqn:G; [|reflexivity].
      unfold resized. destruct (HG eq_refl) as [-> _]. rewrite HL. replace (T * bs - bs * T) with 0 by lia. change (zrepeat 0 0) with (@nil Z). rewrite app_nil_r. apply slice_full. lia.
    + unfold write_fits in Hfit. assert (0 <= spos st / bs) by (apply Z.div_pos; lia). lia.
Qed.
(* a sequence of writes, up to the first that fails *)
Lemma out_all : forall ws tot s st, SInv bs nb blk s st -> io_write (sflags st) = true -> io_append (sflags st) = false -> spos st + zlen (concat ws) <= ssize st -> ssize st + bs < 2^63 ->
  exists s' st' t e, write_all_s (stream_out cb code) ws tot (s, st) = (t, e, (s', st')) /\ SInv bs nb blk s' st' /\ sflags st' = sflags st /\ ssize st' = ssize st /\
    (forall j, 0 <= j < ssize st -> ~ (spos st <= j < spos st + zlen (concat ws)) -> znth 0 (sbytes blk s' st') j = znth 0 (sbytes blk s st) j) /\
    (e = None -> (tot = i64 tot -> t = i64 (tot + zlen (concat ws))) /\ spos st' = spos st + zlen (concat ws) /\ sbytes blk s' st' = splice (spos st) (concat ws) (sbytes blk s st) /\
       (ws <> [] -> (spos st + zlen (concat ws)) / bs < total (scache st))) /\
    (forall x, e = Some x -> exists y, x = EWriter (code y)) /\
    (reliable cb -> (e = None \/ e = Some (EWriter (code (K ErrArgumentOutOfRange)))) /\ (2 * ((spos st + zlen (concat ws)) / bs) + 1 <= total (scache st) -> e = None)).
Proof.
  induction ws as [|b ws IH]; intros tot s st I Hw Ha Hin Hf; pose proof I as (WW & Hsz & Hp).
  - exists s, st, tot, None. cbn [write_all_s concat]. change (zlen (@nil Z)) with 0. rewrite !(Z.add_0_r (spos st)), (Z.add_0_r tot). split; [reflexivity|]. split; [exact I|]. split; [reflexivity|]. split; [reflexivity|]. split; [reflexivity|].
    split; [|split; [discriminate|auto]]. intros _. split; [auto|]. split; [reflexivity|]. split; [|congruence]. rewrite splice_nil; [reflexivity|lia].
  - cbn [concat] in *. rewrite zlen_app in *. pose proof (zlen_nonneg b) as Hb. pose proof (zlen_nonneg (concat ws)) as Hc.
    destruct (out_step s st b I Hw Ha ltac:(lia) Hf) as (s1 & st1 & n & e & E & I1 & F1 & S1 & O1 & N1 & R1). cbn [write_all_s]. rewrite E. destruct e as [x|]; cbn [option_map].
    + exists s1, st1, tot, (Some (EWriter (code x))). split; [reflexivity|]. split; [exact I1|]. split; [exact F1|]. split; [exact S1|]. split; [intros j Hj Hout; apply O1; [exact Hj|lia]|].
      split; [discriminate|]. split; [intros y [= <-]; eauto|]. intros Hrel. specialize (R1 Hrel). destruct (write_fits bs (total (scache st)) (spos st) (zlen b)) eqn:Hfit; [discriminate|]. injection R1 as ->.
      split; [auto|]. intros HH. exfalso.
      assert (spos st / bs <= (spos st + zlen b) / bs) as D1 by (apply Z.div_le_mono; lia). assert ((spos st + zlen b) / bs <= (spos st + (zlen b + zlen (concat ws))) / bs) as D2 by (apply Z.div_le_mono; lia).
      assert (0 <= spos st / bs) by (apply Z.div_pos; lia). unfold write_fits in Hfit. lia.
    + destruct (N1 eq_refl) as (-> & P1 & T1 & B1 & L1).
      destruct (IH (i64 (tot + zlen b)) s1 st1 I1) as (s2 & st2 & t & e & E2 & I2 & F2 & S2 & O2 & N2 & X2 & R2); rewrite ?F1, ?S1, ?P1; auto; [lia|]. rewrite S1, P1, T1 in *.
      exists s2, st2, t, e. split; [exact E2|]. split; [exact I2|]. split; [congruence|]. split; [congruence|]. split.
      { intros j Hj Hout. rewrite O2 by lia. apply O1; lia. }
      split; [|split; [exact X2|]].
      * intros X. destruct (N2 X) as (N3 & P3 & B3 & L3). split.
        { intros _. rewrite N3 by (pose proof (i64_add_l (tot + zlen b) 0) as X0; rewrite !Z.add_0_r in X0; now symmetry). rewrite i64_add_l. f_equal. lia. }
        split; [lia|]. split; [rewrite B3, B1; apply splice_app; [lia|]; rewrite (sbytes_len cb bs nb blk H Hbs s st I); lia|].
        intros _. destruct ws as [|b2 ws]; [cbn [concat]; rewrite zlen_nil, Z.add_0_r; exact L1|]. rewrite Z.add_assoc. apply L3. discriminate.
      * intros Hrel. destruct (R2 Hrel) as (R3 & R4). split; [exact R3|]. intros HH. apply R4. now rewrite <- Z.add_assoc.
Qed.
(* a stream that was not opened for writing *)
Lemma out_refused s st ws tot : io_write (sflags st) = false ->
  write_all_s (stream_out cb code) ws tot (s, st) = (tot, match ws with [] => None | _ => Some (EWriter (code (K ErrNotPermitted))) end, (s, st)).
Proof. intros Hw. destruct ws; [reflexivity|]. cbn [write_all_s]. unfold stream_out, stream_writer, s_write. cbn [fst snd]. rewrite Hw. reflexivity. Qed.
End Out.
