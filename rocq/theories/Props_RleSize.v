(** * Props_RleSize: C125, the sizes the documentation promises *)
From Verif Require Import GoBase ListZ Rle Spec_Rle RleProofs Spec_RleSize RleSizeProofs.

(** ** C125 *)
(* every input has maximal runs, and the size of both compressed forms is the sum over them *)
Theorem C125_sizes_partial : forall D, bytes D -> zlen D < 2^63 ->
  exists L C8 CR, maximal_runs D L /\ compressed8 D C8 /\ compressedR D CR /\ zlen C8 = sum size8 L /\ zlen CR = sum sizeR L /\ forall L', maximal_runs D L' -> L' = L.
Proof.
  intros D Hb Hl. destruct (sizes D Hb Hl) as (L & C8 & CR & M & H8 & HR & S8 & SR). exists L, C8, CR. do 5 (split; [assumption|]). intros L' (E' & F' & N'). destruct M as (E & F & N). apply runs_unique; auto. congruence.
Qed.
Example C125_sizes_ex : maximal_runs [7; 0; 0; 0; 9; 9] [(7, 1); (0, 3); (9, 2)] /\ sum size8 [(7, 1); (0, 3); (9, 2)] = 7 /\ compressed8 [7; 0; 0; 0; 9; 9] [7; 0; 0; 1; 9; 9; 0].
Proof. split; [split; [reflexivity|]; split; [repeat constructor; cbn; lia|cbn; lia]|]. split; [reflexivity|]. eexists. reflexivity. Qed.
(* a single run of n bytes *)
Theorem C125_run_partial : forall b n C8 CR, is_byte b -> 1 <= n < 2^63 -> compressed8 (zrepeat b n) C8 -> compressedR (zrepeat b n) CR -> zlen C8 = size8 n /\ zlen CR = sizeR n.
Proof.
  intros b n C8 CR Hb Hn H8 HR. assert (bytes (zrepeat b n)) as HB by (unfold bytes; apply Forall_forall; intros x Hx; apply repeat_spec in Hx; now subst).
  destruct (compressed_sizes (zrepeat b n) [(b, n)] C8 CR HB) as [E8 ER]; auto; [rewrite zlen_repeat; lia| |].
  - split; [cbn; now rewrite app_nil_r|]. split; [repeat constructor; cbn; lia|exact I].
  - unfold sum in *. cbn [fold_right snd] in *. lia.
Qed.
(* rle8.go:113-114: recursive RLE is smaller for runs over 258 bytes, the same up to 256, and larger for 257 only *)
Theorem C125_recursive_better_partial : forall n, (258 < n -> sizeR n < size8 n) /\ (1 <= n <= 256 \/ n = 258 -> sizeR n = size8 n) /\ (n = 257 -> sizeR n = size8 n + 1).
Proof.
  intros n. split; [apply sizeR_better|]. split; [|intros ->; reflexivity]. intros Hn. unfold sizeR. rewrite size8_cost. unfold f_cost. destruct Hn as [Hn| ->]; [|reflexivity].
  destruct (Z.ltb_spec n 2); [assert (n = 1) as -> by lia; reflexivity|]. rewrite (Z.div_small n), (Z.mod_small n), (Z.div_small (n - 2)) by lia. destruct (Z.eqb_spec n 0); [lia|]. destruct (Z.eqb_spec n 1); lia.
Qed.
(* for every input: recursive RLE costs at most one byte more per run of exactly 257 bytes *)
Theorem C125_recursive_input_partial : forall D L C8 CR, bytes D -> zlen D < 2^63 -> maximal_runs D L -> compressed8 D C8 -> compressedR D CR ->
  zlen CR <= zlen C8 + zlen (filter (fun r => snd r =? 257) L).
Proof.
  intros D L C8 CR Hb Hl M H8 HR. destruct (compressed_sizes D L C8 CR Hb Hl M H8 HR) as [-> ->]. destruct M as (_ & F & _). clear - F. unfold sum. induction F as [|[b n] L Hn _ IH]; [cbn; lia|]. cbn [fold_right snd filter] in *. pose proof (sizeR_worse n Hn). destruct (n =? 257); [rewrite zlen_cons|]; lia.
Qed.
(* bounds on the ratio, both ways *)
Theorem C125_ratio_partial : forall D C, bytes D -> zlen D < 2^63 -> compressed8 D C -> 3 * zlen D <= 257 * zlen C /\ 2 * zlen C <= 3 * zlen D.
Proof.
  intros D C Hb Hl [n HC]. split; [|now apply (rle8_minimal D C n)]. destruct (sizes D Hb Hl) as (L & C8 & CR & (E & F & _) & [m H8] & _ & S8 & _). rewrite HC in H8. injection H8 as _ <-. rewrite S8, E, sum_len by exact F. clear - F.
  unfold sum. induction F as [|[b k] L Hk _ IH]; [cbn; lia|]. cbn [fold_right snd] in *. pose proof (size8_lower k ltac:(lia)). lia.
Qed.
(* whatever is decompressed, and however that ends, no more than 257 bytes are written for three that were read *)
Theorem C125_decompress_bound_partial : forall X t, bytes X -> 3 * zlen (wout (rwriter (decompress_rle8 (mkReader X t) (mkWriter [] [])))) <= 257 * zlen X.
Proof. intros X t Hb. pose proof (dec_bound (length X) X t (-1) 0 (mkWriter [] []) (le_n _) eq_refl Hb ltac:(lia)) as H. cbn [wout Z.ltb Z.compare] in H. change (zlen []) with 0 in H. unfold decompress_rle8. cbn [rdata rterm]. lia. Qed.
Example C125_decompress_bound_ex : zlen (wout (rwriter (decompress_rle8 (mkReader [5; 5; 255] REOF) (mkWriter [] [])))) = 257.
Proof. vm_compute. reflexivity. Qed.
(* the documented sizes (doc.go:31-33, rle8.go:114-126), for any byte: 1 MiB in 12,243 bytes; 2048 in 24 and 11; 128 KiB in 517 ... *)
Theorem C125_documented_partial : forall b C8 CR, is_byte b ->
  (compressed8 (zrepeat b 1048576) C8 -> zlen C8 = 12243) /\
  (compressed8 (zrepeat b 2048) C8 -> zlen C8 = 24) /\ (compressedR (zrepeat b 2048) CR -> zlen CR = 11) /\
  (compressedR (zrepeat b 131072) CR -> zlen CR = 517).
Proof.
  intros b C8 CR Hb.
  assert (forall n C, 1 <= n < 2^63 -> compressed8 (zrepeat b n) C -> zlen C = size8 n) as G8.
  { intros n C Hn HC. assert (bytes (zrepeat b n)) as HB by (unfold bytes; apply Forall_forall; intros x Hx; apply repeat_spec in Hx; now subst). destruct (sizes (zrepeat b n) HB) as (L & D8 & DR & M & H8 & HR & _); [rewrite zlen_repeat; lia|]. apply (C125_run_partial b n C DR); auto. }
  assert (forall n C, 1 <= n < 2^63 -> compressedR (zrepeat b n) C -> zlen C = sizeR n) as GR.
  { intros n C Hn HC. assert (bytes (zrepeat b n)) as HB by (unfold bytes; apply Forall_forall; intros x Hx; apply repeat_spec in Hx; now subst). destruct (sizes (zrepeat b n) HB) as (L & D8 & DR & M & H8 & HR & _); [rewrite zlen_repeat; lia|]. apply (C125_run_partial b n D8 C); auto. }
  split; [intros H; rewrite (G8 1048576 C8 ltac:(lia) H); reflexivity|]. split; [intros H; rewrite (G8 2048 C8 ltac:(lia) H); reflexivity|]. split; [intros H; rewrite (GR 2048 CR ltac:(lia) H); reflexivity|]. intros H; rewrite (GR 131072 CR ltac:(lia) H); reflexivity.
Qed.
(* ... and again: 9 bytes *)
Theorem C125_documented_twice_partial : compressedR ([0; 0] ++ zrepeat 255 514 ++ [0]) [0; 0; 0; 255; 255; 255; 255; 2; 0] /\ compressedR [0; 0; 255; 255; 255; 255; 255; 255; 255; 255; 6] [0; 0; 0; 255; 255; 6; 6].
Proof. split; eexists; vm_compute; reflexivity. Qed.
(* rle8.go:125-126 says RLE8 makes 1530 bytes of 128 KiB: it makes 1533 *)
Theorem C125_documented_refuted : forall b C, is_byte b -> compressed8 (zrepeat b 131072) C -> zlen C = 1533 /\ zlen C <> 1530.
Proof.
  intros b C Hb HC. assert (bytes (zrepeat b 131072)) as HB by (unfold bytes; apply Forall_forall; intros x Hx; apply repeat_spec in Hx; now subst). destruct (sizes (zrepeat b 131072) HB) as (L & D8 & DR & M & H8 & HR & _); [rewrite zlen_repeat; lia|].
  destruct (C125_run_partial b 131072 C DR Hb ltac:(lia) HC HR) as [E _]. rewrite E. split; [reflexivity|]. discriminate.
Qed.
Print Assumptions C125_sizes_partial.
Print Assumptions C125_run_partial.
Print Assumptions C125_recursive_better_partial.
Print Assumptions C125_recursive_input_partial.
Print Assumptions C125_ratio_partial.
Print Assumptions C125_decompress_bound_partial.
Print Assumptions C125_documented_partial.
Print Assumptions C125_documented_twice_partial.
Print Assumptions C125_documented_refuted.

(** ** The parts that hold of claims refuted above, as claims of their own (the examples above are theirs too) *)
Theorem C151_sizes : forall D, bytes D -> zlen D < 2^63 ->
  exists L C8 CR, maximal_runs D L /\ compressed8 D C8 /\ compressedR D CR /\ zlen C8 = sum size8 L /\ zlen CR = sum sizeR L /\ forall L', maximal_runs D L' -> L' = L.
Proof. apply C125_sizes_partial. Qed.
Theorem C151_ratio : forall D C, bytes D -> zlen D < 2^63 -> compressed8 D C -> 3 * zlen D <= 257 * zlen C /\ 2 * zlen C <= 3 * zlen D.
Proof. apply C125_ratio_partial. Qed.
Theorem C151_recursive_input : forall D L C8 CR, bytes D -> zlen D < 2^63 -> maximal_runs D L -> compressed8 D C8 -> compressedR D CR ->
  zlen CR <= zlen C8 + zlen (filter (fun r => snd r =? 257) L).
Proof. apply C125_recursive_input_partial. Qed.
Theorem C151_decompress_bound : forall X t, bytes X -> 3 * zlen (wout (rwriter (decompress_rle8 (mkReader X t) (mkWriter [] [])))) <= 257 * zlen X.
Proof. apply C125_decompress_bound_partial. Qed.
Print Assumptions C151_sizes.
Print Assumptions C151_ratio.
Print Assumptions C151_recursive_input.
Print Assumptions C151_decompress_bound.
