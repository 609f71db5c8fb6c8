(** * RleSizeProofs: sizes of compressed data *)
From Verif Require Import GoBase ListZ Rle Spec_Rle RleProofs Spec_RleSize.

Lemma size8_cost n : size8 n = f_cost n.
Proof. unfold size8, f_cost. f_equal. destruct (n mod 257) as [|p|p]; [reflexivity| |reflexivity]. destruct p; reflexivity. Qed.
Definition pair_of (r : byterun) : Z * Z := (rbyte r, rlen r).
Lemma strict_pairs rs : strict_runs rs -> Forall (fun r => 1 <= snd r) (map pair_of rs) /\ neighbours_differ (map pair_of rs).
Proof.
  induction rs as [|r rs IH]; intros HS; [split; [constructor|exact I]|]. cbn [strict_runs] in HS. destruct HS as (H1 & H2 & H3). destruct (IH H3) as [I1 I2]. split; [constructor; [exact H1|exact I1]|].
  destruct rs as [|r2 rs]; [exact I|]. cbn [map neighbours_differ] in *. split; [cbn; congruence|exact I2].
Qed.
Lemma pairs_bytes rs : concat (map (fun r => zrepeat (fst r) (snd r)) (map pair_of rs)) = concat (map run_bytes rs).
Proof. rewrite map_map. reflexivity. Qed.
Lemma hd_differs (L : list (Z * Z)) b : Forall (fun r => 1 <= snd r) L -> match L with r :: _ => fst r <> b | [] => True end ->
  match concat (map (fun r => zrepeat (fst r) (snd r)) L) with c :: _ => c <> b | [] => True end.
Proof.
  destruct L as [|[c k] L]; [reflexivity|]. intros HF Hb. inversion HF as [|? ? H1 _]; subst. cbn [fst snd map concat] in *. unfold zrepeat at 1. destruct (Z.to_nat k) as [|k'] eqn:E; [lia|]. cbn. exact Hb.
Qed.
Lemma runs_unique L1 : forall L2, Forall (fun r => 1 <= snd r) L1 -> neighbours_differ L1 -> Forall (fun r => 1 <= snd r) L2 -> neighbours_differ L2 ->
  concat (map (fun r => zrepeat (fst r) (snd r)) L1) = concat (map (fun r => zrepeat (fst r) (snd r)) L2) -> L1 = L2.
Proof.
  induction L1 as [|[b n] L1 IH]; intros L2 F1 N1 F2 N2 E.
  - destruct L2 as [|[c k] L2]; [reflexivity|]. inversion F2 as [|? ? H1 _]; subst. cbn [fst snd map concat] in *. unfold zrepeat at 1 in E. destruct (Z.to_nat k) eqn:Ek; [lia|]. discriminate.
  - inversion F1 as [|? ? H1 F1']; subst. cbn [fst snd] in H1. destruct L2 as [|[c k] L2].
    { cbn [fst snd map concat] in *. unfold zrepeat at 1 in E. destruct (Z.to_nat n) eqn:Ek; [lia|]. discriminate. }
    inversion F2 as [|? ? H2 F2']; subst. cbn [fst snd] in H2. cbn [map concat fst snd] in E.
    assert (b = c) as <-. { unfold zrepeat in E. destruct (Z.to_nat n) eqn:En; [lia|]. destruct (Z.to_nat k) eqn:Ek; [lia|]. cbn in E. congruence. }
    assert (match L1 with r :: _ => fst r <> b | [] => True end) as Hd1 by (destruct L1; [exact I|]; cbn in N1; intuition congruence).
    assert (match L2 with r :: _ => fst r <> b | [] => True end) as Hd2 by (destruct L2; [exact I|]; cbn in N2; intuition congruence).
    pose proof (hd_differs L1 b F1' Hd1) as X1. pose proof (hd_differs L2 b F2' Hd2) as X2.
    unfold zrepeat at 1 3 in E. destruct (repeat_app_split b _ _ _ _ E X2) as [Q1 _]. symmetry in E. destruct (repeat_app_split b _ _ _ _ E X1) as [Q2 _]. symmetry in E.
    assert (n = k) as <- by lia. apply app_inv_head in E. f_equal. apply IH; auto; [destruct L1; [exact I|apply N1]|destruct L2; [exact I|apply N2]].
Qed.
Lemma sum_pairs f rs : sum f (map pair_of rs) = fold_right (fun r a => f (rlen r) + a) 0 rs.
Proof. induction rs as [|r rs IH]; [reflexivity|]. cbn [map sum fold_right] in *. unfold sum in *. rewrite IH. reflexivity. Qed.
Lemma sizeR_bytes r : 1 <= rlen r -> zlen (concat (recursive_writes r)) = sizeR (rlen r).
Proof.
  intros H. unfold recursive_writes, sizeR. destruct (Z.eqb_spec (rlen r) 1) as [->|H1]; [reflexivity|]. destruct (Z.geb_spec (rlen r) 2); [|lia]. replace (rlen r <? 2) with false by lia.
  cbn [concat]. rewrite !zlen_app, zlen_repeat by (apply Z.div_pos; lia). rewrite !zlen_cons, !zlen_nil. lia.
Qed.
(* one decomposition serves both compressors *)
Lemma sizes D : bytes D -> zlen D < 2^63 -> exists L C8 CR, maximal_runs D L /\ compressed8 D C8 /\ compressedR D CR /\ zlen C8 = sum size8 L /\ zlen CR = sum sizeR L.
Proof.
  intros Hb Hl. destruct (compress_eof D (mkWriter [] []) Hb) as (rs & Hg & Ha & Hb0 & Hd & Hc & Hr). rewrite !finish_good in *.
  pose proof (concat_runs_len rs Hg) as Hlen. rewrite Hd in Hlen. pose proof (strict_of_short rs Hg Ha ltac:(lia)) as HS. destruct (strict_pairs rs HS) as [P1 P2].
  exists (map pair_of rs), (encode (toks rs)), (concat (flat_map recursive_writes rs)). split; [split; [rewrite pairs_bytes; auto|auto]|]. split; [eexists; exact Hc|]. split; [eexists; exact Hr|].
  destruct (toks_spec rs Hg Ha Hb0) as (_ & _ & _ & Hcost). split.
  - rewrite Hcost, sum_pairs. clear. induction rs as [|r rs IH]; [reflexivity|]. cbn [fold_right]. now rewrite IH, size8_cost.
  - rewrite sum_pairs. clear - Hg. induction Hg as [|r rs Hr _ IH]; [reflexivity|]. cbn [flat_map fold_right]. rewrite concat_app, zlen_app, IH, sizeR_bytes; [reflexivity|]. unfold run_good in Hr. lia.
Qed.
Lemma compressed_sizes D L C8 CR : bytes D -> zlen D < 2^63 -> maximal_runs D L -> compressed8 D C8 -> compressedR D CR -> zlen C8 = sum size8 L /\ zlen CR = sum sizeR L.
Proof.
  intros Hb Hl (E & F & N) [n8 H8] [nR HR]. destruct (sizes D Hb Hl) as (L' & C8' & CR' & (E' & F' & N') & [m8 H8'] & [mR HR'] & S8 & SR).
  rewrite H8 in H8'. rewrite HR in HR'. injection H8' as _ <-. injection HR' as _ <-. assert (L = L') as -> by (apply runs_unique; auto; congruence). auto.
Qed.
Lemma size8_lower n : 0 <= n -> 3 * n <= 257 * size8 n.
Proof. intros Hn. rewrite size8_cost. unfold f_cost. pose proof (Z.div_mod n 257 ltac:(lia)). pose proof (Z.mod_pos_bound n 257 ltac:(lia)). destruct (Z.eqb_spec (n mod 257) 0); destruct (Z.eqb_spec (n mod 257) 1); lia. Qed.
Lemma sizeR_better n : 258 < n -> sizeR n < size8 n.
Proof.
  intros Hn. rewrite size8_cost. unfold f_cost, sizeR. replace (n <? 2) with false by lia. pose proof (Z.div_mod n 257 ltac:(lia)). pose proof (Z.mod_pos_bound n 257 ltac:(lia)). pose proof (Z.div_mod (n - 2) 255 ltac:(lia)). pose proof (Z.mod_pos_bound (n - 2) 255 ltac:(lia)).
  set (q := n / 257) in *. set (p := (n - 2) / 255) in *. destruct (Z.eqb_spec (n mod 257) 0); destruct (Z.eqb_spec (n mod 257) 1); lia.
Qed.
Lemma sizeR_worse n : 1 <= n -> sizeR n <= size8 n + (if n =? 257 then 1 else 0).
Proof.
  intros Hn. destruct (Z_lt_le_dec 258 n); [pose proof (sizeR_better n ltac:(lia)); destruct (n =? 257); lia|]. rewrite size8_cost. unfold f_cost, sizeR. pose proof (Z.div_mod n 257 ltac:(lia)). pose proof (Z.mod_pos_bound n 257 ltac:(lia)). pose proof (Z.div_mod (n - 2) 255 ltac:(lia)). pose proof (Z.mod_pos_bound (n - 2) 255 ltac:(lia)).
  set (q := n / 257) in *. set (p := (n - 2) / 255) in *. destruct (Z.ltb_spec n 2); destruct (Z.eqb_spec (n mod 257) 0); destruct (Z.eqb_spec (n mod 257) 1); destruct (Z.eqb_spec n 257); lia.
Qed.
Lemma sum_len L : Forall (fun r => 1 <= snd r) L -> zlen (concat (map (fun r => zrepeat (fst r) (snd r)) L)) = sum (fun n => n) L.
Proof. induction 1 as [|r L Hr _ IH]; [reflexivity|]. cbn [map concat sum fold_right]. rewrite zlen_app, zlen_repeat by lia. unfold sum in *. now rewrite IH. Qed.

(** ** how much a decoder can produce *)
Lemma dec_bound : forall k data t last total w, (length data <= k)%nat -> wplan w = [] -> bytes data -> last < 256 ->
  3 * zlen (wout (rwriter (decompress_rle8_loop data t last total w))) <= 3 * zlen (wout w) + 257 * zlen data + (if last <? 0 then 0 else 254).
Proof.
  induction k as [|k IH]; intros data t last total w Hk Hw Hb Hlast.
  - destruct data; [|cbn in Hk; lia]. cbn. destruct t; cbn; destruct (last <? 0); lia.
  - destruct data as [|c d]; [cbn; destruct t; cbn; destruct (last <? 0); lia|]. inversion Hb as [|? ? Hc Hd]; subst. cbn [length] in Hk. cbn [decompress_rle8_loop]. rewrite zlen_cons. pose proof (zlen_nonneg d). unfold is_byte in Hc.
    destruct (Z.eqb_spec c last) as [->|Hne].
    + replace (last <? 0) with false by lia. destruct d as [|rc d2]; [destruct t; cbn [rwriter]; lia|]. inversion Hd as [|? ? Hrc Hd2]; subst. unfold write. rewrite Hw. cbn [length] in Hk.
      cbv zeta. cbv iota beta.
      match goal with |- context [decompress_rle8_loop d2 t (-1) ?tt ?ww] => pose proof (IH d2 t (-1) tt ww ltac:(lia) eq_refl Hd2 ltac:(lia)) as X end. cbn [wout] in X. rewrite zlen_app in X. rewrite !(zlen_repeat last (rc + 1)) in * by (unfold is_byte in Hrc; lia). rewrite zlen_cons. cbn [Z.ltb Z.compare] in X. unfold is_byte in Hrc. lia.
    + unfold write. rewrite Hw. match goal with |- context [decompress_rle8_loop d t c ?tt ?ww] => pose proof (IH d t c tt ww ltac:(lia) eq_refl Hd ltac:(lia)) as X end. cbn [wout] in X. rewrite zlen_app in X. change (zlen [c]) with 1 in X. destruct (c <? 0) eqn:E1; [lia|]. destruct (last <? 0); lia.
Qed.
