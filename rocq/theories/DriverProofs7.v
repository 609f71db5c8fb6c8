(** * DriverProofs7: WriteFile and ReadFile on the in-memory file system *)
From Verif Require Import GoBase ListZ Errors Flags GoPath Spec_Path GoPathProofs BlockCache Spec_BlockCache BlockCacheProofs
  BlockCacheProofs2 BasicStream Spec_BasicStream BasicStreamProofs Driver Spec_Driver DriverProofs DriverProofs2 DriverProofs3 DriverProofs4
  DriverProofs5 DriverProofs6.

Section Cache.
Context {S : Type} (cb : callbacks S) (bs : Z).
Hypothesis Hbs : 0 < bs < 2^62.
Definition nocache : cache := mkCache bs 0 [] [] [].
Lemma resize_zero s c s' : bpb c = bs -> 0 <= total c -> cb_resize cb s 0 = (s', None) -> resize cb s c 0 = Ret (s', nocache, None).
Proof.
  intros Hb Ht E. unfold resize. rewrite E, Hb. rewrite Z.mul_0_l. change (u64 0) with 0. change (bitmap_new 0) with (@nil bool).
  change (zrepeat 0 0) with (@nil Z). unfold gocopy. cbn [zlen length]. 
  assert (forall A (l : list A), splice 0 (slice 0 (Z.min (Z.of_nat 0) (zlen l)) l) [] = []) as HE.
  { intros A l. pose proof (zlen_nonneg l). replace (Z.min (Z.of_nat 0) (zlen l)) with 0 by lia. reflexivity. }
  unfold zlen in *. rewrite !HE. cbn [length set_bits]. replace (total c <? 0) with false by lia. reflexivity.
Qed.
(* all N blocks in memory and dirty, contents D *)
Definition all_dirty (c : cache) (N : Z) (D : list Z) : Prop :=
  bpb c = bs /\ total c = N /\ data c = D /\ zlen D = bs * N /\ zlen (loaded c) = bits_for N /\ zlen (dirty c) = bits_for N /\
  forall j, 0 <= j < N -> znth false (loaded c) j = true /\ znth false (dirty c) j = true.
Lemma resize_grow s N s' : 0 <= N -> bs * N < 2^63 -> cb_resize cb s N = (s', None) ->
  exists c, resize cb s nocache N = Ret (s', c, None) /\ all_dirty c N (zrepeat 0 (bs * N)).
Proof.
  intros HN Hf E. unfold resize. rewrite E. cbn [nocache bpb total data dirty loaded]. rewrite u64_small by nia. rewrite (Z.mul_comm N).
  pose proof (bits_for_ge N HN) as Hb. assert (N < 2^63) as HN63 by nia.
  assert (forall A (l : list A), gocopy l [] = l) as HG.
  { intros A l. unfold gocopy. pose proof (zlen_nonneg l). change (zlen (@nil A)) with 0. replace (Z.min (zlen l) 0) with 0 by lia. reflexivity. }
  rewrite !HG.
  assert (zlen (bitmap_new N) = bits_for N) as HL by (apply zlen_repeat; lia).
  destruct (set_bits_spec (Datatypes.S (length (bitmap_new N))) 0 N 0 (mkCache bs N (bitmap_new N) (bitmap_new N) (zrepeat 0 (bs * N))))
    as (c & Ec & B1 & B2 & B3 & B4 & B5 & B6); cbn [loaded dirty]; try lia. { unfold zlen in HL. lia. }
  rewrite Ec. exists c. split; [reflexivity|]. cbn [bpb total data loaded dirty] in *. unfold all_dirty.
  repeat (split; [first [assumption | congruence | apply zlen_repeat; nia]|]).
  intros j Hj. destruct (B6 j ltac:(lia)) as [-> ->]. replace ((0 + 0 <=? j) && (j <? 0 + N)) with true by lia. rewrite !orb_true_r. auto.
Qed.
Lemma all_dirty_inv s c N D : all_dirty c N D -> 0 <= N -> bs * N < 2^63 -> @WInv False S bs (fun _ => N) (fun _ _ => []) s c.
Proof.
  intros (B1 & B2 & B3 & B4 & B5 & B6 & B7) HN Hf. constructor; rewrite ?B1, ?B2, ?B3, ?B4, ?B5, ?B6; try lia; try reflexivity; try (intros i Hi _; now apply B7); try (intros []).
Qed.
(* the writes made by a flush of blocks i .. of a dirty cache *)
Fixpoint flush_seq (k : nat) (i : Z) (D : list Z) (s : S) : S * option kerr :=
  match k with
  | O => (s, None)
  | Datatypes.S k' =>
      let '(s', e) := cb_flush cb s i (slice (i * bs) bs D) in
      match e with Some e => (s', Some (KMsg e)) | None => flush_seq k' (i + 1) D s' end
  end.
Lemma flush_seq_loop N D : 0 <= N -> bs * N < 2^63 -> forall k fuel i s c, (k < fuel)%nat -> 0 <= i -> i + Z.of_nat k = N ->
  bpb c = bs -> total c = N -> data c = D -> zlen D = bs * N -> zlen (loaded c) = bits_for N -> zlen (dirty c) = bits_for N ->
  (forall j, 0 <= j < N -> znth false (loaded c) j = true) -> (forall j, i <= j < N -> znth false (dirty c) j = true) ->
  exists c', flush_loop cb fuel i N s c = Ret (fst (flush_seq k i D s), c', snd (flush_seq k i D s)).
Proof.
  intros HN Hf. assert (N < 2^63) as HN63 by nia. pose proof (bits_for_ge N HN) as Hbf.
  induction k as [|k IH]; intros fuel i s c Hk Hi Hik B1 B2 B3 B4 B5 B6 B7 B8; (destruct fuel as [|fuel]; [lia|]); cbn [flush_loop flush_seq].
  - rewrite u64_small by lia. replace (i <? N) with false by lia. eexists. reflexivity.
  - rewrite u64_small by lia. replace (i <? N) with true by lia. unfold bget. replace ((0 <=? i) && (i <? zlen (dirty c))) with true by lia.
    rewrite B8 by lia.
    assert (@WInv False S bs (fun _ => N) (fun _ _ => []) s c) as I.
    { constructor; rewrite ?B1, ?B2, ?B3, ?B4, ?B5, ?B6; try lia; try reflexivity; try (intros j Hj _; now apply B7); try (intros []). }
    rewrite (get_slice_loaded cb bs (fun _ => N) (fun _ _ => []) ltac:(lia) s c i 1 I ltac:(lia) ltac:(lia)).
    2:{ unfold in_range. rewrite B2. lia. } 2:{ intros j Hj. apply B7. lia. }
    rewrite Z.mul_1_l, B3. destruct (cb_flush cb s i (slice (i * bs) bs D)) as [s1 [e|]]; [eexists; reflexivity|].
    unfold bset. replace ((0 <=? i) && (i <? zlen (dirty c))) with true by lia.
    rewrite (i64_id (i + 1)) by lia.
    assert (zlen (splice i [false] (dirty c)) = zlen (dirty c)) as Ez by (apply zlen_set; lia).
    apply IH; cbn [bpb total data loaded dirty]; try assumption; try lia.
    1: reflexivity. intros j Hj. rewrite znth_set by lia. replace (j =? i) with false by lia. apply B8. lia.
Qed.
Lemma flush_all_dirty s c N D : all_dirty c N D -> 0 < N -> bs * N < 2^63 ->
  exists c', flush_all cb s c = Ret (fst (flush_seq (Z.to_nat N) 0 D s), c', snd (flush_seq (Z.to_nat N) 0 D s)).
Proof.
  intros (B1 & B2 & B3 & B4 & B5 & B6 & B7) HN Hf. assert (N < 2^63) as HN63 by nia. pose proof (bits_for_ge N ltac:(lia)) as Hb.
  unfold flush_all, flush_range, check_bounds, min_blocks. rewrite B1, B2. replace (bs =? 0) with false by lia.
  assert (0 < N * bs < 2^63) as HNb by nia. rewrite (u64_small (N * bs)) by lia. rewrite (u64_small (N * bs + bs)) by lia. rewrite (u64_small (N * bs + bs - 1)) by lia.
  rewrite cdiv_mul by lia. rewrite Z.add_0_l, (u64_small N) by lia. replace (0 >=? N) with false by lia. replace (N >? N) with false by lia.
  rewrite i64_id by lia. apply (flush_seq_loop N D); try assumption; try lia.
  all: try (intros j Hj; now apply B7). unfold loop_fuel. unfold zlen in B5. lia.
Qed.
End Cache.

(** ** A file of the in-memory file system, opened for WriteFile *)
Section MemWrite.
Variable bs : Z.
Hypothesis Hbs : 0 < bs < 2^62.
Notation fs := (memfs bs).
Variables (t : node) (e0 : node) (x : xh (list (list Z))).
Hypothesis Hx : lookup t (x_h x) = Some e0.
Hypothesis Hm : meth x = true.
Notation cbs := (obj_callbacks fs x).
Definition has (s : dst node) (b : list Z) : Prop := d_fs s = update t (x_h x) (Some (NFile b)).
Lemma has_lookup s b : has s b -> lookup (d_fs s) (x_h x) = Some (NFile b).
Proof. intros ->. now apply (update_get t (x_h x) e0). Qed.
Lemma has_node s b : has s b -> mem_node (d_fs s) (x_h x) = NFile b.
Proof. intros E. unfold mem_node. now rewrite (has_lookup s b E). Qed.
Lemma resize_mem s b n : has s b -> 0 <= n -> exists s', cb_resize cbs s n = (s', None) /\ has s' (slice 0 n b ++ zrepeat 0 (n - zlen b)).
Proof.
  intros Hs Hn. cbn [obj_callbacks cb_resize fs memfs h_resize]. rewrite (has_node s b Hs). eexists. split; [reflexivity|].
  unfold has. cbn [emit d_fs]. rewrite Hs. eapply update_update. exact Hx.
Qed.
Lemma write_mem s b i buf : has s b -> exists s' e, cb_flush cbs s i buf = (s', e) /\
  (if i * bs <? zlen b then e = None /\ has s' (splice (i * bs) (slice 0 (Z.min (zlen buf) (zlen b - i * bs)) buf) b) else e <> None /\ has s' b).
Proof.
  intros Hs. cbn [obj_callbacks cb_flush fs memfs h_write]. rewrite (has_node s b Hs). destruct (i * bs <? zlen b).
  - eexists _, _. split; [reflexivity|]. split; [reflexivity|]. unfold has. cbn [emit d_fs]. rewrite Hs. eapply update_update. exact Hx.
  - eexists _, _. split; [reflexivity|]. split; [discriminate|]. exact Hs.
Qed.
(* flushing the whole cache *)
Lemma flush_mem N D : 0 < N -> zlen D = bs * N -> forall k i s b, 0 <= i -> i + Z.of_nat k = N -> has s b -> zlen b = N ->
  (forall j, 0 <= j < Z.min (i * bs) N -> znth 0 b j = znth 0 D j) ->
  exists b', has (fst (flush_seq cbs bs k i D s)) b' /\ zlen b' = N /\ forall j, 0 <= j < N -> znth 0 b' j = znth 0 D j.
Proof.
  intros HN HD. induction k as [|k IH]; intros i s b Hi Hik Hs Hb Hj.
  - exists b. cbn [flush_seq fst]. split; [exact Hs|]. split; [exact Hb|]. intros j Hj'. apply Hj. nia.
  - cbn [flush_seq]. destruct (write_mem s b i (slice (i * bs) bs D) Hs) as (s' & e & E & HE). rewrite E.
    destruct (i * bs <? zlen b) eqn:El.
    + destruct HE as [-> Hs']. assert (zlen (slice (i * bs) bs D) = bs) as Hz by (apply zlen_slice; nia). rewrite Hz in Hs'.
      assert (zlen (slice 0 (Z.min bs (zlen b - i * bs)) (slice (i * bs) bs D)) = Z.min bs (zlen b - i * bs)) as Hz2 by (apply zlen_slice; lia).
      assert (zlen (splice (i * bs) (slice 0 (Z.min bs (zlen b - i * bs)) (slice (i * bs) bs D)) b) = N) as Hz3 by (rewrite zlen_splice; lia).
      apply (IH (i + 1) s' _ ltac:(lia) ltac:(lia) Hs' Hz3). intros j Hj'. rewrite znth_splice by lia. rewrite Hz2.
      destruct ((i * bs <=? j) && (j <? i * bs + Z.min bs (zlen b - i * bs))) eqn:Ej.
      * rewrite znth_slice by lia. rewrite znth_slice by lia. f_equal. lia.
      * apply Hj. lia.
    + destruct HE as [He Hs']. destruct e as [e|]; [|congruence]. cbn [fst]. exists b. split; [exact Hs'|]. split; [exact Hb|]. intros j Hj'. apply Hj. lia.
Qed.
Definition wflags : Z := Z.lor (Z.lor O_WRONLY O_CREATE) O_TRUNC.
Definition wfile (st : fstat) : file (list (list Z)) := mkFile (mkStream 0 0 (nocache bs) wflags) x st wflags None 0.
Lemma new_file_mem s b : has s b -> zlen b + bs < 2^63 ->
  exists s', new_file fs x wflags s = Done s' (inl (wfile (h_stat fs (d_fs s) (x_h x)))) /\ has s' [].
Proof.
  intros Hs Hl. pose proof (zlen_nonneg b) as Hn. unfold new_file. rewrite bind_stat by exact Hm.
  cbn [memfs h_stat]. unfold mem_stat. rewrite (has_node s b Hs). cbn [node_bytes f_size f_bsize f_nblocks].
  assert (0 <= ceil_div (zlen b) bs * bs - zlen b < bs) as HC.
  { unfold ceil_div. pose proof (Z.div_mod (zlen b + bs - 1) bs ltac:(lia)). pose proof (Z.mod_pos_bound (zlen b + bs - 1) bs ltac:(lia)). nia. }
  assert (0 <= ceil_div (zlen b) bs < 2^63) as HC2 by (split; nia).
  rewrite !u64_small by lia. assert (new_fits bs (ceil_div (zlen b) bs) = true) as -> by (unfold new_fits; rewrite !i64_id by lia; lia). cbn [negb].
  unfold s_new, size, new_cache. cbn [bpb total].
  assert ((zlen b <? 0) || (zlen b >? i64 (bs * ceil_div (zlen b) bs)) = false) as ->.
  { rewrite i64_id by lia. apply orb_false_iff. split; lia. }
  change (io_truncate wflags) with true. cbv iota. unfold s_truncate. cbn [sflags]. change (io_write wflags) with true. cbn [negb]. cbn [Z.ltb Z.compare].
  unfold min_blocks. cbn [scache bpb]. replace (bs =? 0) with false by lia. rewrite (u64_small 0) by lia. rewrite Z.add_0_l, (u64_small bs) by lia.
  rewrite (u64_small (bs - 1)) by lia. rewrite (Z.div_small (bs - 1) bs) by lia.
  destruct (resize_mem s b 0 Hs ltac:(lia)) as (s' & E & Hs').
  erewrite (resize_zero cbs bs) by (cbn [bpb total]; first [reflexivity | lia | exact E]).
  change (io_synchronous wflags) with false. cbv iota. exists s'. split; [reflexivity|].
  replace (slice 0 0 b ++ zrepeat 0 (0 - zlen b)) with (@nil Z) in Hs'; [exact Hs'|].
  unfold slice, zrepeat. replace (Z.to_nat (0 - zlen b)) with 0%nat by lia. reflexivity.
Qed.
(* what ends up in the file, and the error returned *)
Lemma write_close_mem s st D : has s [] -> zlen D + bs < 2^62 -> let N := ceil_div (zlen D) bs in
  exists s' r, (bind (fl_write fs (wfile st) D) (fun q => let '(f', _, e) := q in
     bind (fl_close fs f') (fun _ => ret (match e with None => inl tt | Some e => inr e end)))) s = Done s' r /\
  if zlen D mod bs =? 0 then r = inr (K ErrArgumentOutOfRange) /\ has s' (zrepeat 0 N) else r = @inl unit kerr tt /\ has s' (slice 0 N D).
Proof.
  intros Hs HL N. pose proof (zlen_nonneg D) as Hn. set (L := zlen D) in *.
  pose proof (Z.div_mod L bs ltac:(lia)) as HLd. pose proof (Z.mod_pos_bound L bs ltac:(lia)) as HLm.
  assert (0 <= L / bs) as HLp by (apply Z.div_pos; lia).
  assert (N = L / bs + (if L mod bs =? 0 then 0 else 1)) as HN.
  { unfold N, ceil_div. destruct (L mod bs =? 0) eqn:E.
    - replace (L + bs - 1) with (bs - 1 + (L / bs) * bs) by lia. rewrite Z.div_add by lia. rewrite Z.div_small by lia. lia.
    - replace (L + bs - 1) with (L mod bs - 1 + (L / bs + 1) * bs) by lia. rewrite Z.div_add by lia. rewrite Z.div_small by lia. lia. }
  assert (0 <= N /\ bs * N < 2^63) as [HN0 HNb]. { destruct (L mod bs =? 0); split; nia. }
  assert (N <= L) as HNL. { destruct (L mod bs =? 0) eqn:E; [nia|]. assert (2 <= bs) by lia. nia. }
  unfold bind at 1, fl_write, wfile. cbn [fl_stream fl_obj]. unfold s_write. cbn [sflags]. change (io_write wflags) with true. change (io_append wflags) with false.
  cbn [negb]. cbv iota. unfold s_impl_write_at at 1. cbn [sflags spos scache]. change (io_write wflags) with true. cbn [negb]. cbv iota. fold L.
  rewrite Z.add_0_l, (i64_id L) by lia. unfold conv_addr. cbn [nocache bpb]. rewrite (i64_id bs) by lia. replace (bs =? 0) with false by lia.
  rewrite Z.quot_0_l, Z.rem_0_l by lia. change (u64 0) with 0. rewrite Z.quot_div_nonneg by lia.
  assert (0 <= L / bs <= L) as HLb by nia.
  rewrite (u64_small (L / bs)) by lia. change (total (nocache bs)) with 0. cbn [total]. replace (L / bs >=? 0) with true by lia.
  unfold s_truncate at 1. cbn [sflags scache]. change (io_write wflags) with true. cbn [negb]. replace (L <? 0) with false by lia.
  unfold min_blocks. cbn [nocache bpb]. replace (bs =? 0) with false by lia. rewrite (u64_small L) by lia. rewrite (u64_small (L + bs)) by lia.
  rewrite (u64_small (L + bs - 1)) by lia. change ((L + bs - 1) / bs) with N.
  destruct (resize_mem s [] N Hs HN0) as (s1 & E1 & Hs1).
  change (mkCache bs 0 [] [] []) with (nocache bs).
  destruct (resize_grow cbs bs Hbs s N s1 HN0 HNb E1) as (c & Ec & Hc). rewrite Ec.
  change (io_synchronous wflags) with false. cbv iota. unfold set_size, set_cache. cbn [scache ssize spos sflags].
  rewrite (u64_small (L / bs + 1)) by lia.
  assert (has s1 (zrepeat 0 N)) as Hs1'.
  { replace (zrepeat 0 N) with (slice 0 N (@nil Z) ++ zrepeat 0 (N - zlen (@nil Z))); [exact Hs1|]. change (zlen (@nil Z)) with 0. rewrite Z.sub_0_r.
    unfold slice. rewrite skipn_nil, firstn_nil. reflexivity. }
  destruct (L mod bs =? 0) eqn:EL.
  - (* one block too many is asked for *)
    assert (exists c', get_slice cbs s1 c 0 (L / bs + 1) = Ret (s1, c', inr (K ErrArgumentOutOfRange)) /\ c' = c) as (c' & EG & ->).
    { exists c. split; [|reflexivity]. unfold get_slice, load_range, check_bounds, min_blocks. destruct Hc as (B1 & B2 & _). rewrite B1, B2.
      assert (0 <= (L / bs + 1) * bs < 2^63) as HQ by nia.
      replace (bs =? 0) with false by lia. rewrite (u64_small ((L / bs + 1) * bs)) by lia. rewrite (u64_small ((L / bs + 1) * bs + bs)) by lia.
      rewrite (u64_small ((L / bs + 1) * bs + bs - 1)) by lia. rewrite cdiv_mul by lia. rewrite Z.add_0_l, (u64_small (L / bs + 1)) by lia.
      destruct (0 >=? N) eqn:E0; [reflexivity|]. replace (L / bs + 1 >? N) with true by lia. reflexivity. }
    rewrite EG. cbn [set_cache scache ssize spos sflags]. unfold set_pos. cbn [scache ssize spos sflags].
    unfold bind, fl_close, with_stream. cbn [fl_stream fl_obj]. unfold s_close, s_sync. cbn [scache].
    destruct (N =? 0) eqn:EN.
    + assert (N = 0) as EN0 by lia. rewrite EN0 in *. assert (flush_all cbs s1 c = Ret (s1, c, Some (K ErrArgumentOutOfRange))) as ->.
      { destruct Hc as (B1 & B2 & _). unfold flush_all, flush_range, check_bounds, min_blocks. rewrite B1, B2. replace (bs =? 0) with false by lia. reflexivity. }
      eexists _, _. split; [reflexivity|]. split; [reflexivity|exact Hs1'].
    + destruct (flush_all_dirty cbs bs Hbs s1 c N _ Hc ltac:(lia) HNb) as (c' & ->).
      destruct (flush_mem N (zrepeat 0 (bs * N)) ltac:(lia) ltac:(apply zlen_repeat; nia) (Z.to_nat N) 0 s1 (zrepeat 0 N) ltac:(lia) ltac:(lia) Hs1'
         ltac:(apply zlen_repeat; lia)) as (b' & Hb1 & Hb2 & Hb3); [intros j Hj; lia|].
      eexists _, _. split; [reflexivity|]. split; [reflexivity|]. replace (zrepeat 0 N) with b'; [exact Hb1|].
      apply (list_ext 0); [rewrite zlen_repeat; lia|]. intros j Hj. rewrite Hb3 by lia. rewrite !znth_repeat by nia. reflexivity.
  - assert (L / bs + 1 = N) as ELN by lia. rewrite ELN. pose proof Hc as (B1 & B2 & B3 & B4 & B5 & B6 & B7).
    erewrite (get_slice_loaded cbs bs (fun _ => N) (fun _ _ => [])); [|lia|eapply (all_dirty_inv (S := dst node) bs s1 c N); eauto|lia|lia|unfold in_range; rewrite B2; lia|intros j Hj; apply B7; lia].
    rewrite B3. rewrite Z.mul_0_l, Z.mul_comm, slice_full by (rewrite B4; lia).
    rewrite B4. replace (0 >? bs * N) with false by lia. cbn [set_cache scache ssize spos sflags]. unfold set_pos. cbn [scache ssize spos sflags].
    assert (L <= bs * N) as HLN by nia.
    rewrite Z.sub_0_r. replace (Z.min (bs * N) L) with L by lia. rewrite (slice_full L D) by reflexivity.
    set (D' := splice 0 D (zrepeat 0 (bs * N))).
    assert (zlen D' = bs * N) as HD'. { unfold D'. rewrite zlen_splice; rewrite ?zlen_repeat; fold L; lia. }
    assert (all_dirty bs (poke c 0 0 D) N D') as HP.
    { unfold all_dirty, poke. cbn [bpb total data loaded dirty]. rewrite B3. auto 10. }
    unfold bind, fl_close, with_stream. cbn [fl_stream fl_obj]. unfold s_close, s_sync. cbn [scache].
    destruct (flush_all_dirty cbs bs Hbs s1 (poke c 0 0 D) N D' HP ltac:(lia) HNb) as (c' & ->).
    destruct (flush_mem N D' ltac:(lia) HD' (Z.to_nat N) 0 s1 (zrepeat 0 N) ltac:(lia) ltac:(lia) Hs1'
         ltac:(apply zlen_repeat; lia)) as (b' & Hb1 & Hb2 & Hb3); [intros j Hj; lia|].
    eexists _, _. split; [reflexivity|]. split; [reflexivity|]. replace (slice 0 N D) with b'; [exact Hb1|].
    apply (list_ext 0); [rewrite zlen_slice; lia|]. intros j Hj. rewrite Hb3 by lia. rewrite znth_slice by lia. unfold D'.
    rewrite znth_splice by (rewrite ?zlen_repeat; nia). fold L. replace ((0 <=? j) && (j <? 0 + L)) with true by lia. f_equal. lia.
Qed.
End MemWrite.
