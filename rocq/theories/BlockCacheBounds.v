(** * BlockCacheBounds: what GetSlice and MarkBlockRangeDirty do for every 64-bit start
    and count (C22). *)
From Verif Require Import GoBase ListZ Errors BlockCache Spec_BlockCache BlockCacheProofs BlockCacheProofs2 BlockCacheProofs3.
From Coq Require Import List Lia ZArith.
Import ListNotations.
Open Scope Z_scope.

Section Exact.
Context {S : Type} (cb : callbacks S) (bs : Z) (nb : S -> Z) (blk : S -> Z -> list Z).
Hypothesis H : honest cb bs nb blk.
Hypothesis Hbs : 0 < bs.
Notation Inv := (Inv bs nb blk).
Notation bit l i := (znth false l i).

(* the last block CheckBounds looks at *)
Definition checked_end (start count : Z) : Z :=
  (start + ((count * bs) mod 2^64 + bs - 1) mod 2^64 / bs) mod 2^64.

Lemma check_exact s c start count : Inv s c ->
  check_bounds c start (u64 (count * bpb c)) =
    Ret (if (start <? total c) && (checked_end start count <=? total c) then None
         else Some (K ErrArgumentOutOfRange)).
Proof.
  intros I. unfold check_bounds, min_blocks, checked_end. rewrite (i_bpb _ _ _ _ _ I).
  replace (bs =? 0) with false by lia.
  replace (u64 (u64 (u64 (count * bs) + bs) - 1)) with (((count * bs) mod 2^64 + bs - 1) mod 2^64).
  2:{ unfold u64. rewrite Zminus_mod_idemp_l. f_equal. }
  unfold u64. set (n := _ / bs). set (m := (start + n) mod 2^64).
  destruct (Z.ltb_spec start (total c)).
  - replace (start >=? total c) with false by lia. cbn [andb]. destruct (Z.leb_spec m (total c)).
    + replace (m >? total c) with false by lia. reflexivity.
    + replace (m >? total c) with true by lia. reflexivity.
  - replace (start >=? total c) with true by lia. reflexivity.
Qed.
Lemma bits_near t : bits_for t <= t + 7.
Proof. unfold bits_for. pose proof (Z.div_mod (t + 7) 8). pose proof (Z.mod_pos_bound (t + 7) 8). lia. Qed.

(* an accepted range that leaves the cache leaves the bitmap as well *)
Lemma accepted_far c start count : 0 <= total c -> bs * total c < 2^63 -> bs <= 2^59 ->
  0 <= start < total c -> 0 <= count -> checked_end start count <= total c ->
  total c < start + count -> total c + 8 < start + count.
Proof.
  intros Ht Hf Hb Hs Hc Hck Hgt. destruct (Z_lt_ge_dec (total c + 8) (start + count)) as [|Hle]; [assumption|].
  exfalso. unfold checked_end in Hck.
  assert (count * bs + bs < 2^64) as Hw.
  { assert (count <= total c + 8) by lia. assert (count * bs <= (total c + 8) * bs) by nia. nia. }
  rewrite (Z.mod_small (count * bs)) in Hck by nia.
  rewrite (Z.mod_small (count * bs + bs - 1)) in Hck by nia.
  rewrite cdiv_mul in Hck by assumption.
  rewrite Z.mod_small in Hck by (assert (total c < 2^63) by nia; lia). lia.
Qed.

Lemma set_bits_out : forall fuel i stop start c, 0 <= start -> 0 <= i ->
  start + i <= zlen (loaded c) -> zlen (loaded c) - (start + i) < Z.of_nat fuel ->
  zlen (dirty c) = zlen (loaded c) -> zlen (loaded c) < start + stop -> zlen (loaded c) <= 2^63 ->
  set_bits fuel i stop start c = Panic.
Proof.
  induction fuel as [|fuel IH]; intros i stop start c Hs Hi Hl Hf Hd Hst Hm; [lia|].
  cbn [set_bits]. replace (i <? stop) with true by lia.
  destruct (Z.eq_dec (start + i) (zlen (loaded c))) as [E|E].
  - unfold bset. destruct (Z.eq_dec (start + i) (2^63)) as [E2|E2].
    + rewrite E2. change (i64 (2^63)) with (- 2^63). reflexivity.
    + rewrite i64_small' by lia.
      replace ((0 <=? start + i) && (start + i <? zlen (loaded c))) with false by lia. reflexivity.
  - rewrite i64_small' by lia.
    rewrite !bset_ok by lia. apply IH; cbn [loaded dirty]; rewrite ?zlen_set by lia; lia.
Qed.

Lemma load_loop_cut mid stop : mid <= stop -> stop < 2^64 -> forall fuel i s c s' c' e,
  0 <= i <= mid -> load_loop cb fuel i mid s c = Ret (s', c', e) ->
  match e with
  | Some _ => load_loop cb fuel i stop s c = Ret (s', c', e)
  | None => exists fuel', load_loop cb fuel i stop s c = load_loop cb fuel' mid stop s' c' /\
              (fuel <= fuel' + Z.to_nat (mid - i))%nat
  end.
Proof.
  intros Hms Hs64. induction fuel as [|fuel IH]; intros i s c s' c' e Hi E; [discriminate|].
  destruct (Z.eq_dec i mid) as [->|Hne].
  { cbn [load_loop] in E. replace (mid <? mid) with false in E by lia. inversion E; subst.
    exists (Datatypes.S fuel). split; [reflexivity|lia]. }
  assert (u64 (i + 1) = i + 1) as Hu by (apply u64_small; lia).
  cbn [load_loop] in E |- *. replace (i <? mid) with true in E by lia. replace (i <? stop) with true by lia.
  rewrite Hu in *.
  destruct (bget (loaded c) (i64 i)) as [[|]| |]; try discriminate.
  - specialize (IH (i + 1) s c s' c' e ltac:(lia) E). destruct e; [exact IH|].
    destruct IH as (f' & E' & Hf'). exists f'. split; [exact E'|lia].
  - destruct (data_slice _ _ _) as [buf| |]; try discriminate.
    destruct (cb_fetch cb s i buf) as [[s1 buf1] [e1|]].
    + inversion E; subst. reflexivity.
    + destruct (bset (loaded c) (i64 i) true) as [l'| |]; try discriminate.
      destruct (bset (dirty c) (i64 i) false) as [y'| |]; try discriminate.
      specialize (IH (i + 1) _ _ s' c' e ltac:(lia) E). destruct e; [exact IH|].
      destruct IH as (f' & E' & Hf'). exists f'. split; [exact E'|lia].
Qed.
Lemma load_loop_out stop : forall fuel i s c, Inv s c -> bs <= 2^59 -> total c <= i <= bits_for (total c) ->
  bits_for (total c) < stop -> bits_for (total c) - i < Z.of_nat fuel ->
  load_loop cb fuel i stop s c = Panic.
Proof.
  induction fuel as [|fuel IH]; intros i s c I Hb Hi Hst Hf; [lia|].
  pose proof (inv_total_small bs nb blk Hbs _ _ I) as Hts. pose proof (bits_near (total c)) as Hbn.
  pose proof (i_fits _ _ _ _ _ I) as Hfit. pose proof (i_loaded _ _ _ _ _ I) as Hll.
  pose proof (i_data _ _ _ _ _ I) as Hdl. pose proof (i_bpb _ _ _ _ _ I) as Hbp.
  cbn [load_loop]. replace (i <? stop) with true by lia.
  destruct (Z.eq_dec i (bits_for (total c))) as [E|E].
  - assert (bget (loaded c) (i64 i) = Panic) as ->; [|reflexivity].
    unfold bget. destruct (Z_lt_ge_dec i (2^63)) as [Hlt|Hge].
    + rewrite i64_small' by lia. replace ((0 <=? i) && (i <? zlen (loaded c))) with false by lia. reflexivity.
    + assert (i64 i < 0) as Hneg.
      { unfold i64. replace i with ((i - 2^64) + 1 * 2^64) by lia.
        rewrite <- Z.add_assoc, (Z.add_comm (1 * 2^64)), Z.add_assoc, Z.mod_add by lia.
        rewrite Z.mod_small by lia. lia. }
      replace (0 <=? i64 i) with false by lia. reflexivity.
  - assert (i < 2^63) as Hi63.
    { unfold bits_for in Hi, E. pose proof (Z.div_mod (total c + 7) 8). 
      assert ((total c + 7) / 8 < 2^60 + 1) by (apply Z.div_lt_upper_bound; lia). lia. }
    rewrite i64_small' by lia. rewrite bget_ok by lia.
    destruct (bit (loaded c) i).
    + rewrite u64_small by lia. apply IH; auto; lia.
    + assert (0 <= i * bs) by nia. assert (i * bs < 2^63 + 2^62) by nia.
      rewrite Hbp. rewrite (u64_small (i * bs)) by lia. rewrite u64_small by lia.
      unfold data_slice. replace ((i * bs <=? i * bs + bs) && (i * bs + bs <=? zlen (data c))) with false by nia.
      reflexivity.
Qed.

Lemma bounds_exact s c start count : Inv s c -> bs <= 2^59 -> 0 <= start < 2^64 -> 0 <= count < 2^64 ->
  if (start <? total c) && (checked_end start count <=? total c) then
    if start + count <=? total c then
      (exists c', mark_dirty c start count = Ret (c', None)) /\
      exists s' c' r, get_slice cb s c start count = Ret (s', c', r) /\
        match r with
        | inl b => b = slice (start * bs) (count * bs) (contents blk s c)
        | inr e => exists evs i, accesses cb s evs s' /\ In (EvFetch i false) evs
        end
    else
      mark_dirty c start count = Panic /\
      (get_slice cb s c start count = Panic \/
       exists s' c' e evs i, get_slice cb s c start count = Ret (s', c', inr e) /\
         accesses cb s evs s' /\ In (EvFetch i false) evs)
  else
    mark_dirty c start count = Ret (c, Some (K ErrArgumentOutOfRange)) /\
    get_slice cb s c start count = Ret (s, c, inr (K ErrArgumentOutOfRange)).
Proof.
  intros I Hb Hs Hc. pose proof (check_exact s c start count I) as CB.
  pose proof (inv_total_small bs nb blk Hbs _ _ I) as Hts. pose proof (bits_near (total c)) as Hbn.
  pose proof (i_fits _ _ _ _ _ I) as Hfit. pose proof (i_loaded _ _ _ _ _ I) as Hll.
  pose proof (i_dirty _ _ _ _ _ I) as Hdl. pose proof (i_bpb _ _ _ _ _ I) as Hbp.
  pose proof (inv_bits bs nb blk _ _ I) as Hbits.
  destruct ((start <? total c) && (checked_end start count <=? total c)) eqn:Acc.
  2:{ unfold mark_dirty, get_slice, load_range. rewrite CB. auto. }
  destruct (Z.leb_spec (start + count) (total c)) as [Hin|Hout].
  { assert (count * bs + bs < 2^64) by nia. assert (start + count < 2^64) by lia.
    pose proof (get_slice_gen cb bs nb blk H Hbs s c start count I ltac:(lia) ltac:(lia) ltac:(lia) ltac:(lia)) as G.
    pose proof (mark_gen bs nb blk Hbs s c start count I ltac:(lia) ltac:(lia) ltac:(lia) ltac:(lia)) as M.
    unfold in_range in *. replace ((start <? total c) && (start + count <=? total c)) with true in * by lia.
    destruct M as (c' & E & _). split; [eauto|].
    destruct G as (s' & c2 & r & E2 & _ & _ & Hrr). exists s', c2, r. split; [exact E2|]. exact Hrr. }
  pose proof (accepted_far c start count ltac:(lia) Hfit Hb ltac:(lia) ltac:(lia) ltac:(lia) Hout) as Hfar.
  assert (bits_for (total c) <= 2^63) as Hb63.
  { unfold bits_for. assert ((total c + 7) / 8 < 2^60 + 1) by (apply Z.div_lt_upper_bound; lia). lia. }
  split.
  { unfold mark_dirty. rewrite CB. rewrite set_bits_out; [reflexivity|lia|lia|lia| |lia|lia|lia].
    unfold loop_fuel, zlen. lia. }
  unfold get_slice, load_range. rewrite CB.
  destruct (Z_lt_ge_dec (start + count) (2^64)) as [Hno|Hwrap].
  - rewrite (u64_small (start + count)) by lia.
    destruct (load_loop_spec cb bs nb blk H Hbs (loop_fuel c) start (total c) s c I) as (s' & c' & e & evs & E & L);
      [lia|lia| |]. { unfold loop_fuel. unfold zlen in *. lia. }
    pose proof (load_loop_cut (total c) (start + count) ltac:(lia) ltac:(lia) (loop_fuel c) start s c s' c' e ltac:(lia) E) as C.
    destruct L as (I1 & Ht1 & _ & _ & _ & _ & Hac & Hf & _ & _).
    destruct e as [e|].
    + right. rewrite C. exists s', c', e. cbn [okb] in Hf. destruct Hf as (l1 & j & l2 & _ & Hev).
      exists evs, j. split; [reflexivity|]. split; [assumption|]. rewrite Hev. apply in_or_app. right. now left.
    + left. destruct C as (f' & -> & Hf').
      rewrite load_loop_out; [reflexivity|assumption|assumption|rewrite Ht1; lia|rewrite Ht1; lia|].
      rewrite Ht1. unfold loop_fuel in Hf'. unfold zlen in *. lia.
  - left. assert (u64 (start + count) = start + count - 2^64) as ->.
    { unfold u64. replace (start + count) with ((start + count - 2^64) + 1 * 2^64) at 1 by lia.
      rewrite Z.mod_add by lia. apply Z.mod_small. lia. }
    unfold loop_fuel. cbn [load_loop]. replace (start <? start + count - 2^64) with false by lia.
    rewrite Hbp. set (st := start + count - 2^64).
    assert (0 <= st < start) as Hst by (unfold st; lia).
    assert (start * bs < 2^63) as Hsb by nia.
    rewrite (u64_small (start * bs)) by nia.
    assert (u64 (start * bs + u64 (count * bs)) = st * bs) as ->.
    { unfold u64. rewrite Zplus_mod_idemp_r. replace (start * bs + count * bs) with (st * bs + bs * 2^64) by (unfold st; ring).
      rewrite Z.mod_add by lia. apply Z.mod_small. nia. }
    unfold data_slice. replace (start * bs <=? st * bs) with false by nia. reflexivity.
Qed.
End Exact.
