(** * FatExact: the FAT8 free list (C67) and FAT8 block ranges whose end wraps around (C70). *)
From Verif Require Import GoBase ListZ Errors OsFile Fat8 Spec_Fat8 Fat8Proofs Fat8Proofs5 Fat8Proofs6.
From Coq Require Import Lia.

(** ** The free list *)
Lemma free_from_map ft : forall i, 0 <= i ->
  free_from i ft = map (fun j => (i + j + 1) mod 256) (filter (fun j => znth 0 ft j =? 255) (map Z.of_nat (seq 0 (length ft)))).
Proof.
  induction ft as [|c ft IH]; intros i Hi; [reflexivity|]. cbn [free_from length seq map].
  rewrite IH by lia. cbn [filter]. change (Z.of_nat 0) with 0. change (znth 0 (c :: ft) 0) with c.
  assert (E : filter (fun j => znth 0 (c :: ft) j =? 255) (map Z.of_nat (seq 1 (length ft))) =
              map (fun j => j + 1) (filter (fun j => znth 0 ft j =? 255) (map Z.of_nat (seq 0 (length ft))))).
  { clear IH. rewrite <- seq_shift, map_map. induction (seq 0 (length ft)) as [|k l IHl]; [reflexivity|]. cbn [map filter].
    replace (znth 0 (c :: ft) (Z.of_nat (S k))) with (znth 0 ft (Z.of_nat k)).
    2:{ rewrite znth_cons_S by lia. f_equal. lia. }
    destruct (znth 0 ft (Z.of_nat k) =? 255); [cbn [map]|]; rewrite IHl; [f_equal; lia|reflexivity]. }
  rewrite E. destruct (c =? 255); cbn [map]; rewrite map_map; [f_equal|]; try (apply map_ext; intros; f_equal; lia).
  unfold u8. change (2^8) with 256. f_equal; lia.
Qed.

(** ** Wrapped ranges *)
Lemma wrapped_range d f s n : healthy f -> 0 <= s < 2^64 -> 0 <= n < 2^64 -> 2^64 <= s + n -> TotalBlocks (st8 d) < 2^50 ->
  128 * TotalBlocks (st8 d) <= zlen (contents f) ->
  let first := s mod 2^57 in let last := s + n - 2^64 in
  (TotalBlocks (st8 d) <= last -> read_blocks d f s n = Ret (f, inr err_read_past_end)) /\
  (last < TotalBlocks (st8 d) -> first <= last -> read_blocks d f s n = Ret (f, inl (blocks_of f first (last - first)))) /\
  (last < TotalBlocks (st8 d) -> last < first <= last + 2^56 -> read_blocks d f s n = Panic) /\
  (last < TotalBlocks (st8 d) -> last + 2^56 < first -> read_blocks d f s n = Ret (f, inr err_negative)).
Proof.
  intros Hh Hs Hn Hw Ht Hl. cbv zeta. set (a := s mod 2^57). set (m := s + n - 2^64).
  pose proof (Z.mod_pos_bound s (2^57) ltac:(lia)) as Ha. fold a in Ha. pose proof (Z.div_mod s (2^57) ltac:(lia)) as Hd. fold a in Hd. set (q := s / 2^57) in *.
  assert (Eu : u64 (s + n) = m) by (unfold u64; replace (s + n) with (m + 1 * 2^64) by (unfold m; lia); rewrite Z.mod_add by lia; apply Z.mod_small; unfold m; lia).
  assert (Eo : i64 (i64 s * 128) = if a <? 2^56 then 128 * a else 128 * a - 2^64).
  { assert (X : i64 (i64 s * 128) = i64 (128 * a)).
    { unfold i64. replace (((s + 2^63) mod 2^64 - 2^63) * 128 + 2^63) with (128 * a + 2^63 + (q - 128 * ((s + 2^63) / 2^64)) * 2^64).
      - now rewrite Z.mod_add by lia.
      - pose proof (Z.div_mod (s + 2^63) (2^64) ltac:(lia)) as X. change (2^57) with 144115188075855872 in *. change (2^64) with 18446744073709551616 in *. change (2^63) with 9223372036854775808 in *. lia. }
    rewrite X. unfold i64. destruct (a <? 2^56) eqn:E.
    - rewrite Z.mod_small by lia. lia.
    - replace (128 * a + 2^63) with (128 * a - 2^63 + 1 * 2^64) by lia. rewrite Z.mod_add, Z.mod_small by lia. lia. }
  assert (Eb : m < TotalBlocks (st8 d) -> u64 (128 * n) = if a <=? m then 128 * (m - a) else 128 * (m - a) + 2^64).
  { intros Hmt. assert (Hm : 0 <= m) by (unfold m; lia). unfold u64. replace (128 * n) with (128 * (m - a) + (128 - q) * 2^64).
    2:{ unfold m. rewrite Hd at 1. change (2^57) with 144115188075855872. change (2^64) with 18446744073709551616. lia. }
    rewrite Z.mod_add by lia. destruct (a <=? m) eqn:E.
    - apply Z.mod_small. lia.
    - replace (128 * (m - a)) with (128 * (m - a) + 2^64 + (-1) * 2^64) by lia. rewrite Z.mod_add, Z.mod_small by lia. lia. }
  assert (Hm : 0 <= m) by (unfold m; lia).
  unfold read_blocks. rewrite Eu, Eo. split; [|split; [|split]].
  - intros H. replace (m >=? TotalBlocks (st8 d)) with true by lia. reflexivity.
  - intros H1 H2. replace (m >=? TotalBlocks (st8 d)) with false by lia. rewrite (Eb H1). replace (a <=? m) with true by lia. replace (a <? 2^56) with true by lia.
    unfold maxint. replace (128 * (m - a) >? 2^63 - 1) with false by lia. rewrite read_at_healthy by (try assumption; lia). reflexivity.
  - intros H1 H2. replace (m >=? TotalBlocks (st8 d)) with false by lia. rewrite (Eb H1). replace (a <=? m) with false by lia.
    unfold maxint. replace (128 * (m - a) + 2^64 >? 2^63 - 1) with true by lia. reflexivity.
  - intros H1 H2. replace (m >=? TotalBlocks (st8 d)) with false by lia. rewrite (Eb H1). replace (a <=? m) with false by lia. replace (a <? 2^56) with false by lia.
    unfold maxint. replace (128 * (m - a) + 2^64 >? 2^63 - 1) with false by lia. unfold f_read_at. replace (128 * a - 2^64 <? 0) with true by lia. reflexivity.
Qed.

(** ** Which operations panic *)
Lemma read_blocks_wraps d f s n : 0 <= s < 2^64 -> 0 <= n < 2^64 -> 0 <= TotalBlocks (st8 d) < 2^50 ->
  (read_blocks d f s n = Panic <-> 2^64 <= s + n /\ s + n - 2^64 < TotalBlocks (st8 d) /\ s + n - 2^64 < s mod 2^57 <= s + n - 2^64 + 2^56).
Proof.
  intros Hs Hn Ht. unfold read_blocks.
  assert (HB : s + n < 2^64 \/ 2^64 <= s + n) by lia. destruct HB as [Hw|Hw].
  { rewrite (u64_id (s + n)) by lia. split; [|lia]. destruct (s + n >=? TotalBlocks (st8 d)) eqn:E; [discriminate|].
    rewrite (u64_id (128 * n)) by lia. unfold maxint. replace (128 * n >? 2^63 - 1) with false by lia. discriminate. }
  set (m := s + n - 2^64). assert (Hm : 0 <= m < 2^64) by (unfold m; lia).
  assert (Eu : u64 (s + n) = m) by (unfold u64; replace (s + n) with (m + 1 * 2^64) by (unfold m; lia); rewrite Z.mod_add by lia; now apply Z.mod_small).
  rewrite Eu. destruct (m >=? TotalBlocks (st8 d)) eqn:E; [split; [discriminate|lia]|].
  set (a := s mod 2^57). pose proof (Z.mod_pos_bound s (2^57) ltac:(lia)) as Ha. fold a in Ha. pose proof (Z.div_mod s (2^57) ltac:(lia)) as Hd. fold a in Hd. set (q := s / 2^57) in *.
  assert (Eb : u64 (128 * n) = if a <=? m then 128 * (m - a) else 128 * (m - a) + 2^64).
  { unfold u64. replace (128 * n) with (128 * (m - a) + (128 - q) * 2^64).
    2:{ unfold m. rewrite Hd at 1. change (2^57) with 144115188075855872. change (2^64) with 18446744073709551616. lia. }
    rewrite Z.mod_add by lia. destruct (a <=? m) eqn:E2.
    - apply Z.mod_small. lia.
    - replace (128 * (m - a)) with (128 * (m - a) + 2^64 + (-1) * 2^64) by lia. rewrite Z.mod_add, Z.mod_small by lia. lia. }
  rewrite Eb. clear Eb Hd. unfold maxint. clearbody a m. destruct (a <=? m) eqn:E2.
  - replace (128 * (m - a) >? 2^63 - 1) with false by lia. split; [discriminate|lia].
  - destruct (128 * (m - a) + 2^64 >? 2^63 - 1) eqn:E3; (split; [intros X|intros X]); try discriminate; try reflexivity; lia.
Qed.
