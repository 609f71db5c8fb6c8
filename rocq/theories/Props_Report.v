(** * Props_Report: C165, caches and streams report the failures of their storage *)
From Verif Require Import GoBase ListZ Errors Flags BlockCache Spec_BlockCache BasicStream Spec_BasicStream Spec_Report ReportProofs.

(** ** C165 *)
(* every operation of a cache *)
Theorem C165_cache {S} (cb : callbacks S) hist s c o s' c' r : recalls cb hist -> exec_op cb s c o = Ret (s', c', r) ->
  told hist s s' (match r with RErr e => Some e | _ => None end).
Proof. intros HR H. eapply exec_told; eassumption. Qed.
(* every operation of a stream, and opening one *)
Theorem C165_stream {S} (cb : callbacks S) hist s st o s' st' b n e : recalls cb hist -> sexec_op cb s st o = Ret (s', st', TCount b n e) ->
  told hist s s' e.
Proof. intros HR H. eapply sexec_told; eassumption. Qed.
Theorem C165_new {S} (cb : callbacks S) hist s sz c flags s' st e : recalls cb hist -> s_new cb s sz c flags = Ret (s', st, e) -> told hist s s' e.
Proof. intros HR H. eapply s_new_told; eassumption. Qed.
(* so: no error returned, no call failed *)
Theorem C165_success {S} (hist : S -> list (option kerr)) s s' : told hist s s' None <-> exists n, hist s' = hist s ++ repeat None n.
Proof. split; [intros (n & [E|(x & _ & [X|X])]); [eauto|discriminate|discriminate]|intros (n & E); exists n; now left]. Qed.
(* WriteTo, too, reports every failure, whatever the error is, io.EOF included *)
Theorem C165_write_to {S W} (cb : callbacks S) hist (wr : W -> list Z -> W * Z * option kerr) fuel s st w s' st' w' n e : recalls cb hist ->
  s_write_to cb wr fuel s st w = Ret (s', st', w', n, e) -> told hist s s' e.
Proof. intros HR H. eapply toldm_told, write_to_told; eassumption. Qed.
(* ReadFrom reports the failures of all its writes but the last, and that of the last one unless the reader ended or failed too *)
Theorem C165_read_from_partial {S R} (cb : callbacks S) hist (rd : R -> Z -> R * list Z * option kerr) bsz fuel s st r s' st' r' n e : recalls cb hist ->
  io_write (sflags st) = true -> s_read_from cb rd bsz fuel s st r = Ret (s', st', r', n, e) ->
  exists s1 st1 r1 chunk re k we, told hist s s1 None /\ rd r1 bsz = (r', chunk, re) /\ s_write cb s1 st1 chunk = Ret (s', st', k, we) /\ told hist s1 s' we /\
    e = match re with None => we | Some KEOF => None | Some x => Some x end /\ (re = None -> we <> None).
Proof. intros HR HW H. unfold s_read_from in H. rewrite HW in H. cbn [negb] in H. eapply read_from_told; eassumption. Qed.

(* two blocks of two bytes; block 1 cannot be fetched, no block can be flushed, and the given error says so *)
Definition broken (e : kerr) : callbacks unit := mkCb unit
  (fun s i buf => (s, [7; 7], if i =? 1 then Some e else None)) (fun s i buf => (s, Some e)) (fun s n => (s, None)).
Definition broken_stream (flags : Z) : stream := mkStream 4 0 (new_cache 2 2) flags.
(* io.EOF from the storage does not pass for the end of the stream *)
Example C165_write_to_example : exists s' st' w n, s_write_to (recorded (broken KEOF)) (fun w b => (w ++ b, zlen b, None)) 9 (tt, []) (broken_stream O_RDWR) [] = Ret (s', st', w, n, Some (KMsg KEOF)) /\
  snd s' = [None; Some KEOF] /\ n = 2.
Proof. eexists _, _, _, _. split; [vm_compute; reflexivity|]. vm_compute. auto. Qed.
(* ReadFrom of a reader that ends with its data says nothing of the failure to write it *)
Theorem C165_read_from_refuted : exists S (cb : callbacks S) hist s st s' st' r n, recalls cb hist /\
  s_read_from cb (fun (r : unit) k => (r, [1; 2; 3], Some KEOF)) 512 9 s st tt = Ret (s', st', r, n, None) /\ n = 3 /\ hist s' = hist s ++ [None; Some (KExt 5)].
Proof.
  eexists _, (recorded (broken (KExt 5))), snd, (tt, []), (broken_stream O_RDWR). eexists _, _, _, _. split; [apply recorded_recalls|].
  split; [vm_compute; reflexivity|]. vm_compute. auto.
Qed.
(* any storage can be given a memory *)
Theorem C165_recorded {S} (cb : callbacks S) : recalls (recorded cb) snd.
Proof. apply recorded_recalls. Qed.
Example C165_ex : (exists s c r, exec_op (recorded (broken (KExt 5))) (tt, []) (new_cache 2 2) (ORead 0 4) = Ret (s, c, r) /\ r = RErr (KMsg (KExt 5)) /\ snd s = [None; Some (KExt 5)]) /\
  (exists s st b n e, sexec_op (recorded (broken (KExt 5))) (tt, []) (broken_stream (Z.lor O_RDWR O_SYNC)) (TTruncate 6) = Ret (s, st, TCount b n e) /\ snd s = [None; Some (KExt 5)] /\ e = Some (KMsg (KExt 5))) /\
  (exists s st e, s_new (recorded (broken (KExt 5))) (tt, []) 4 (new_cache 2 2) (Z.lor O_RDWR O_TRUNC) = Ret (s, st, e) /\ snd s = [None] /\ e = None).
Proof.
  split; [eexists _, _, _; split; [vm_compute; reflexivity|]; vm_compute; auto|].
  split; [eexists _, _, _, _, _; split; [vm_compute; reflexivity|]; vm_compute; auto|].
  do 3 eexists; split; [vm_compute; reflexivity|]; vm_compute; auto.
Qed.
Print Assumptions C165_cache.
Print Assumptions C165_stream.
Print Assumptions C165_new.
Print Assumptions C165_success.
Print Assumptions C165_write_to.
Print Assumptions C165_read_from_partial.
Print Assumptions C165_read_from_refuted.
Print Assumptions C165_recorded.
