(** * Props_Slices: C124, the slices a cache gives out *)
From Verif Require Import GoBase ListZ Errors BlockCache Spec_BlockCache BlockCacheProofs BlockCacheProofs2 BlockCacheProofs3 CacheSlices Spec_Slices SlicesProofs.

(** ** Witness: a file of three blocks of four bytes that can be resized *)
Definition sl_file : list Z := [10; 11; 12; 13; 20; 21; 22; 23; 30; 31; 32; 33].
Definition sl_cb : callbacks (list Z) := wrap_stream_cb 4 3 true true.
Definition sl_acts : list act := [AGet 0 1; AWrite 0 1 [7]; AMark 0 1; AOp (OWrite 1 [8; 9]); AData; ARead 1; AWrite 1 10 [5]; AMark 2 1; AOp OFlush; ARead 0].
Ltac well := repeat first [exact Logic.I | split; [|let E := fresh in intros ? ? ? ? E; vm_compute in E; injection E as <- <- <- <-]].

(** ** C124 *)
(* every slice is a window on the cache's array for as long as the cache is not resized, and what was changed through it and marked
   is what a successful flush leaves in the storage; Resize leaves the old slices with the old array *)
Theorem C124_windows_partial {T} (cb : callbacks T) bs nb blk t0 n acts : honest cb bs nb blk -> 0 < bs -> 0 <= n <= nb t0 -> bs * n < 2^63 ->
  well_used cb bs t0 (new_mem bs n) [] acts ->
  exists t m hs rs w, act_run cb t0 (new_mem bs n) [] acts = Ret (t, m, hs, rs) /\ win_run bs (mkW [] (storage_bytes blk t0 n) [] (fun _ => False)) acts rs w /\
    zlen (w_now w) = bs * total (m_cache m) /\
    forall t' c', flush_all cb t (m_cache m) = Ret (t', c', None) -> forall i, 0 <= i < total (m_cache m) -> ~ w_unmarked w i -> blk t' i = slice (i * bs) bs (w_now w).
Proof.
  intros H Hb Hn Hf Hu. destruct (run_si cb bs nb blk H Hb acts t0 _ [] _ (new_si cb bs nb blk H Hb t0 n Hn Hf) Hu) as (t & m & hs & rs & w & E & G & HW).
  exists t, m, hs, rs, w. split; [exact E|]. split; [exact HW|]. split; [apply (si_rep _ _ _ _ _ _ _ G)|]. intros t' c'. apply (flush_si cb bs nb blk H Hb t m hs w t' c' G).
Qed.
Example C124_windows_ex : well_used sl_cb 4 sl_file (new_mem 4 3) [] sl_acts /\ exists t m hs,
  act_run sl_cb sl_file (new_mem 4 3) [] sl_acts = Ret (t, m, hs, [RBytes [10; 11; 12; 13]; ROk; ROk; ROk; RBytes [10; 7; 12; 13; 8; 9; 22; 23; 30; 31; 32; 33]; RBytes [10; 7; 12; 13; 8; 9; 22; 23; 30; 31; 32; 33]; ROk; ROk; ROk; RBytes [10; 7; 12; 13]]) /\
  t = [10; 7; 12; 13; 8; 9; 22; 23; 30; 31; 5; 33].
Proof.
  split.
  - unfold sl_acts. cbn [well_used]. well; cbn [act_ok op_ok]; try lia; try exact Logic.I.
    + intros h E. vm_compute in E. injection E as <-. cbn. lia.
    + split; [lia|]. intros i Hi. exists (mkHandle 0 0 4). cbn. split; [now left|lia].
    + split; [lia|cbn; lia].
    + intros h E. vm_compute in E. injection E as <-. cbn. lia.
    + split; [lia|]. intros i Hi. exists (mkHandle 0 0 12). cbn. split; [right; now left|lia].
  - do 3 eexists. split; [vm_compute; reflexivity|reflexivity].
Qed.
(* after a successful Resize no slice handed out before reaches the cache any more, whatever is written through it *)
Theorem C124_resize_detaches_refuted {T} (cb : callbacks T) bs nb blk t0 n acts k t m hs rs t1 m1 h off b : honest cb bs nb blk -> 0 < bs -> 0 <= n <= nb t0 -> bs * n < 2^63 ->
  well_used cb bs t0 (new_mem bs n) [] acts -> op_ok bs (OResize k) -> act_run cb t0 (new_mem bs n) [] acts = Ret (t, m, hs, rs) -> act_step cb t m hs (AOp (OResize k)) = Ret (t1, m1, hs, ROk) ->
  nth_error hs h <> None -> exists m2, act_step cb t1 m1 hs (AWrite h off b) = Ret (t1, m2, hs, ROk) /\ m_cache m2 = m_cache m1.
Proof.
  intros H Hb Hn Hf Hu Ho E ER Hh. destruct (run_si cb bs nb blk H Hb acts t0 _ [] _ (new_si cb bs nb blk H Hb t0 n Hn Hf) Hu) as (t' & m' & hs' & rs' & w & E' & G & _). rewrite E in E'. injection E' as <- <- <- <-.
  destruct (nth_error hs h) as [hd|] eqn:Eh; [|contradiction]. pose proof (si_le _ _ _ _ _ _ _ G hd (nth_error_In _ _ Eh)) as Hle. cbn [act_step] in *. destruct (exec_op cb t (m_cache m) (OResize k)) as [[[t2 c2] r]| |]; try discriminate. injection ER as <- <- ->.
  rewrite Eh. eexists. split; [reflexivity|]. unfold set_array. cbn [after_op m_cur]. destruct (Nat.eqb_spec (h_arr hd) (S (m_cur m))); [lia|reflexivity].
Qed.
(* the slice was changed and marked, the flush succeeded; neither the cache nor the file has the change *)
Example C124_resize_detaches_ex : exists t m hs, act_run sl_cb sl_file (new_mem 4 3) [] [AGet 0 1; AOp (OResize 2); AWrite 0 0 [1; 2; 3; 4]; AMark 0 1; AOp OFlush; ARead 0; AOp (ORead 0 4)] =
  Ret (t, m, hs, [RBytes [10; 11; 12; 13]; ROk; ROk; ROk; ROk; RBytes [1; 2; 3; 4]; RBytes [10; 11; 12; 13]]) /\ t = [10; 11; 12; 13; 20; 21; 22; 23].
Proof. do 3 eexists. split; [vm_compute; reflexivity|reflexivity]. Qed.
(* what is written through slices of a fresh cache and not marked never reaches the storage, however often it is flushed *)
Theorem C124_unmarked_refuted {T} (cb : callbacks T) bs nb blk t0 n acts : honest cb bs nb blk -> 0 < bs -> 0 <= n <= nb t0 -> bs * n < 2^63 -> well_used cb bs t0 (new_mem bs n) [] acts ->
  Forall (fun a => match a with AOp (OWrite _ _) | AOp (OModify _ _ _ _) | AOp (OResize _) | AMark _ _ => False | _ => True end) acts ->
  exists t m hs rs, act_run cb t0 (new_mem bs n) [] acts = Ret (t, m, hs, rs) /\ storage_bytes blk t n = storage_bytes blk t0 n.
Proof.
  intros H Hb Hn Hf Hu HP. destruct (passive_run cb bs nb blk H Hb acts t0 _ [] _ (new_si cb bs nb blk H Hb t0 n Hn Hf) Hu) as (t & m & hs & rs & E & _ & F).
  - eapply Forall_impl; [|exact HP]. intros [[]|?| |?|?|?]; cbn; auto.
  - intros i Hi. now apply new_clean.
  - exists t, m, hs, rs. split; [exact E|]. unfold storage_bytes. f_equal. apply map_ext_in. intros k Hk. apply in_seq in Hk. apply F. cbn [new_mem m_cache new_cache total]. lia.
Qed.
Example C124_unmarked_ex : exists t m hs, act_run sl_cb sl_file (new_mem 4 3) [] [AGet 1 2; AWrite 0 3 [1; 2; 3]; AOp (ORead 1 8); AOp OFlush] =
  Ret (t, m, hs, [RBytes [20; 21; 22; 23; 30; 31; 32; 33]; ROk; RBytes [20; 21; 22; 1; 2; 3; 32; 33]; ROk]) /\ t = sl_file.
Proof. do 3 eexists. split; [vm_compute; reflexivity|reflexivity]. Qed.
(* append to a slice of block 0 writes into block 1, which was not asked for *)
Theorem C124_append_refuted : exists t m hs h, act_run sl_cb sl_file (new_mem 4 3) [] [AOp OLoadAll; AGet 0 1] = Ret (t, m, hs, [ROk; RBytes [10; 11; 12; 13]]) /\ hs = [h] /\
  slice (h_off h) (h_len h) (array_of (append_to m h [1; 2]) (h_arr h)) = [10; 11; 12; 13] /\
  exists t' c', exec_op sl_cb t (m_cache (append_to m h [1; 2])) (ORead 1 4) = Ret (t', c', RBytes [1; 2; 22; 23]).
Proof. do 4 eexists. split; [vm_compute; reflexivity|]. split; [reflexivity|]. split; [vm_compute; reflexivity|]. eexists. eexists. vm_compute. reflexivity. Qed.
(* exactly what an append does: with room after the slice, the bytes that follow it in its array become the new ones and nothing else
   changes; without, nothing changes at all *)
Theorem C124_append_exactly : forall m h b, 0 <= h_off h -> 0 <= h_len h ->
  let m' := append_to m h b in let e := h_off h + h_len h in let d := array_of m (h_arr h) in let d' := array_of m' (h_arr h) in
  (forall a, a <> h_arr h -> array_of m' a = array_of m a) /\ m_cur m' = m_cur m /\ zlen d' = zlen d /\
  (e + zlen b > zlen d -> m' = m) /\
  (e + zlen b <= zlen d -> forall i, 0 <= i < zlen d -> znth 0 d' i = if (e <=? i) && (i <? e + zlen b) then znth 0 b (i - e) else znth 0 d i).
Proof.
  intros m h b Ho Hl. cbv zeta. unfold append_to. set (d := array_of m (h_arr h)). set (e := h_off h + h_len h).
  destruct (Z.leb_spec (e + zlen b) (zlen d)) as [Hc|Hc].
  - assert (array_of (set_array m (h_arr h) (splice e b d)) (h_arr h) = splice e b d) as EA.
    { unfold set_array, array_of. destruct (Nat.eqb (h_arr h) (m_cur m)) eqn:En; cbn [m_cur m_cache m_old data]; rewrite ?En; [reflexivity|]. now rewrite Nat.eqb_refl. }
    rewrite EA. split; [|split; [|split; [|split]]].
    + intros a Ha. unfold set_array, array_of. destruct (Nat.eqb (h_arr h) (m_cur m)) eqn:En; cbn [m_cur m_cache m_old data].
      * apply Nat.eqb_eq in En. destruct (Nat.eqb a (m_cur m)) eqn:Ea; [apply Nat.eqb_eq in Ea; congruence|reflexivity].
      * destruct (Nat.eqb a (m_cur m)); [reflexivity|]. destruct (Nat.eqb a (h_arr h)) eqn:Ea; [apply Nat.eqb_eq in Ea; congruence|reflexivity].
    + unfold set_array. now destruct (Nat.eqb (h_arr h) (m_cur m)).
    + apply zlen_splice; subst e; lia.
    + lia.
    + intros _ i Hi. rewrite znth_splice by (pose proof (zlen_nonneg b); lia). reflexivity.
  - split; [reflexivity|]. split; [reflexivity|]. split; [reflexivity|]. split; [reflexivity|lia].
Qed.
Print Assumptions C124_append_exactly.
Example C124_append_exactly_ex : exists t m hs h, act_run sl_cb sl_file (new_mem 4 3) [] [AOp OLoadAll; AGet 1 1] = Ret (t, m, hs, [ROk; RBytes [20; 21; 22; 23]]) /\ hs = [h] /\
  array_of (append_to m h [1; 2; 3; 4]) (h_arr h) = [10; 11; 12; 13; 20; 21; 22; 23; 1; 2; 3; 4] /\ append_to m h [1; 2; 3; 4; 5] = m.
Proof. do 4 eexists. split; [vm_compute; reflexivity|]. split; [reflexivity|]. split; vm_compute; reflexivity. Qed.
Print Assumptions C124_windows_partial.
Print Assumptions C124_resize_detaches_refuted.
Print Assumptions C124_unmarked_refuted.
Print Assumptions C124_append_refuted.

(** ** The parts that hold of claims refuted above, as claims of their own (the examples above are theirs too) *)
Theorem C150_windows {T} (cb : callbacks T) bs nb blk t0 n acts : honest cb bs nb blk -> 0 < bs -> 0 <= n <= nb t0 -> bs * n < 2^63 ->
  well_used cb bs t0 (new_mem bs n) [] acts ->
  exists t m hs rs w, act_run cb t0 (new_mem bs n) [] acts = Ret (t, m, hs, rs) /\ win_run bs (mkW [] (storage_bytes blk t0 n) [] (fun _ => False)) acts rs w /\
    zlen (w_now w) = bs * total (m_cache m) /\
    forall t' c', flush_all cb t (m_cache m) = Ret (t', c', None) -> forall i, 0 <= i < total (m_cache m) -> ~ w_unmarked w i -> blk t' i = slice (i * bs) bs (w_now w).
Proof. apply C124_windows_partial. Qed.
Print Assumptions C150_windows.
