(** * FatBootReadProofs *)
From Verif Require Import GoBase ListZ Errors Rle Bufio FatBoot FatBootRead Spec_FatBootRead.

Section P.
Context {T : Type} (read : ioreader T) (holds : nat -> T -> list Z -> rend -> Prop).
Hypothesis HS : byte_source read holds.
Lemma read_full_S f t got n : read_full read (S f) t got n =
  if n <=? zlen got then Ret (t, inl got)
  else let '(t', c, e) := read t (n - zlen got) in
    match e with
    | None => read_full read f t' (got ++ c) n
    | Some e => if n <=? zlen (got ++ c) then Ret (t', inl (got ++ c))
        else Ret (t', inr (match e with REOF => if zlen (got ++ c) >? 0 then KUnexpectedEOF else KEOF | RFail x => KExt x end))
    end.
Proof. reflexivity. Qed.
Lemma too_short_eq D e : (match e with REOF => if zlen D >? 0 then KUnexpectedEOF else KEOF | RFail x => KExt x end) = too_short D e.
Proof. destruct e; [|reflexivity]. destruct D; [reflexivity|]. cbn [too_short]. replace (zlen (z :: D) >? 0) with true; [reflexivity|]. symmetry. apply Z.gtb_lt. unfold zlen. cbn. lia. Qed.
(* m bytes are still wanted *)
Lemma read_full_enough : forall (m : nat) k t D e got n, holds k t D e -> n = zlen got + Z.of_nat m -> Z.of_nat m <= zlen D ->
  exists N t' k', holds k' t' (skipn m D) e /\ forall fuel, (N <= fuel)%nat -> read_full read fuel t got n = Ret (t', inl (got ++ firstn m D)).
Proof.
  induction m as [m IHm] using (well_founded_induction lt_wf). induction k as [k IHk] using (well_founded_induction lt_wf). intros t D e got n H En Hm.
  destruct m as [|m'].
  { exists 1%nat, t, k. split; [exact H|]. intros [|f] Hf; [lia|]. rewrite read_full_S. replace (n <=? zlen got) with true by lia. cbn [firstn]. now rewrite app_nil_r. }
  destruct (HS k t D e (n - zlen got) H ltac:(lia)) as (t1 & c & D1 & k1 & -> & Hc & H1 & Hr). rewrite zlen_app in Hm.
  assert (Hcn : (length c <= S m')%nat) by (unfold zlen in Hc, En; lia).
  destruct Hr as [[Er Hk]|[Er ->]].
  - destruct c as [|c0 c].
    + destruct (IHk k1 (Hk eq_refl) t1 D1 e got n H1 En ltac:(exact Hm)) as (N & t' & k' & H' & HN). exists (S N), t', k'. split; [exact H'|].
      intros [|f] Hf; [lia|]. rewrite read_full_S. replace (n <=? zlen got) with false by lia. rewrite Er, app_nil_r. apply HN. lia.
    + set (c1 := c0 :: c) in *. assert (0 < length c1)%nat by (cbn; lia).
      destruct (IHm (S m' - length c1)%nat ltac:(lia) k1 t1 D1 e (got ++ c1) n H1) as (N & t' & k' & H' & HN); [rewrite zlen_app; unfold zlen in *; lia|unfold zlen in *; lia|].
      exists (S N), t', k'. split.
      * rewrite skipn_app, skipn_all2 by lia. exact H'.
      * intros [|f] Hf; [lia|]. rewrite read_full_S. replace (n <=? zlen got) with false by lia. rewrite Er. rewrite HN by lia. rewrite firstn_app, (firstn_all2 c1) by lia. now rewrite app_assoc.
  - rewrite app_nil_r in *. assert (length c = S m') by (unfold zlen in *; cbn in Hm; lia). exists 1%nat, t1, k1. split; [rewrite skipn_all2 by lia; exact H1|].
    intros [|f] Hf; [lia|]. rewrite read_full_S. replace (n <=? zlen got) with false by lia. rewrite Er. rewrite zlen_app. replace (n <=? zlen got + zlen c) with true by (unfold zlen in *; lia).
    now rewrite firstn_all2 by lia.
Qed.
Lemma read_full_short : forall (l k : nat) t D e got n, length D = l -> holds k t D e -> zlen got + zlen D < n ->
  exists N t', forall fuel, (N <= fuel)%nat -> read_full read fuel t got n = Ret (t', inr (too_short (got ++ D) e)).
Proof.
  induction l as [l IHl] using (well_founded_induction lt_wf). induction k as [k IHk] using (well_founded_induction lt_wf). intros t D e got n El H Hn. pose proof (zlen_nonneg D).
  destruct (HS k t D e (n - zlen got) H ltac:(lia)) as (t1 & c & D1 & k1 & -> & Hc & H1 & Hr). rewrite zlen_app in Hn. rewrite app_length in El.
  destruct Hr as [[Er Hk]|[Er ->]].
  - assert (G : exists N t', forall fuel, (N <= fuel)%nat -> read_full read fuel t1 (got ++ c) n = Ret (t', inr (too_short ((got ++ c) ++ D1) e))).
    { destruct c as [|c0 c].
      - cbn [length] in El. apply (IHk k1 (Hk eq_refl) t1 D1 e (got ++ []) n El H1). rewrite app_nil_r. exact Hn.
      - apply (IHl (length D1) ltac:(cbn in El; lia) k1 t1 D1 e (got ++ c0 :: c) n eq_refl H1). rewrite zlen_app. lia. }
    destruct G as (N & t' & HN). exists (S N), t'. intros [|f] Hf; [lia|]. rewrite read_full_S. replace (n <=? zlen got) with false by (pose proof (zlen_nonneg c); pose proof (zlen_nonneg D1); lia).
    rewrite Er, HN by lia. now rewrite <- app_assoc.
  - exists 1%nat, t1. intros [|f] Hf; [lia|]. rewrite read_full_S. pose proof (zlen_nonneg c). replace (n <=? zlen got) with false by (cbn in Hn; lia). rewrite Er.
    rewrite zlen_app. replace (n <=? zlen got + zlen c) with false by (cbn in Hn; lia). rewrite app_nil_r. rewrite <- too_short_eq, zlen_app. reflexivity.
Qed.
End P.
