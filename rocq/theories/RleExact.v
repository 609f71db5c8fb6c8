(** * RleExact: exactly which inputs the recursive RLE pair gives back (C07).

    Everything here is about reversed data, where the code of a run starts with
    its remainder byte. *)
From Verif Require Import GoBase Rle Spec_Rle ListZ RleProofs.
From Coq Require Import List Lia ZArith Arith.
Import ListNotations.
Open Scope Z_scope.

Definition starts (b : Z) (l : list Z) : Prop := exists t, l = b :: t.
Definition rcode (b : Z) (n : nat) : list Z :=
  if (n =? 1)%nat then [b]
  else Z.of_nat ((n - 2) mod 255) :: repeat 255 ((n - 2) / 255) ++ [b; b].

Inductive CR : list Z -> list Z -> Prop :=
| CR_nil : CR [] []
| CR_run b n P K : (1 <= n)%nat -> ~ starts b P -> CR P K ->
    CR (repeat b n ++ P) (rcode b n ++ K).
Inductive Good : list Z -> Prop :=
| Good_nil : Good []
| Good_run b n P : (n = 1%nat \/ (b = 1 /\ n = 3%nat)) -> ~ starts b P -> Good P ->
    Good (repeat b n ++ P).

Lemma cons_inj (a b : Z) l m : a :: l = b :: m -> a = b /\ l = m.
Proof. intros H; inversion H; auto. Qed.
Lemma starts_cons b c l : starts b (c :: l) <-> b = c.
Proof. split; [intros [t H]; congruence|intros ->; eexists; reflexivity]. Qed.
Lemma starts_nil b : ~ starts b [].
Proof. intros [t H]. discriminate. Qed.

Lemma repeat_split (b : Z) : forall n m x y, repeat b n ++ x = repeat b m ++ y ->
  ~ starts b x -> ~ starts b y -> n = m /\ x = y.
Proof.
  induction n as [|n IH]; intros [|m] x y H Hx Hy; cbn in H.
  - auto.
  - exfalso; apply Hx; eexists; exact H.
  - exfalso; apply Hy; eexists; symmetry; exact H.
  - inversion H as [H']. destruct (IH m x y H' Hx Hy) as [-> ->]; auto.
Qed.
Lemma group b l : exists n t, l = repeat b n ++ t /\ ~ starts b t.
Proof.
  induction l as [|c l (n & t & -> & Ht)].
  - exists 0%nat, []. split; [reflexivity|apply starts_nil].
  - destruct (Z.eq_dec c b) as [->|Hne].
    + exists (S n), t. auto.
    + exists 0%nat, (c :: repeat b n ++ t). split; [reflexivity|]. rewrite starts_cons. congruence.
Qed.

Lemma CR_inv b n P K : CR (repeat b n ++ P) K -> (1 <= n)%nat -> ~ starts b P ->
  exists K', K = rcode b n ++ K' /\ CR P K'.
Proof.
  intros H Hn Hp. inversion H as [He|b' n' P' K' Hn' Hp' Hc He].
  - destruct n; [lia|discriminate].
  - assert (b' = b) as ->. { destruct n; [lia|]. destruct n'; [lia|]. cbn in He. congruence. }
    destruct (repeat_split b _ _ _ _ He Hp' Hp) as [-> ->]. eauto.
Qed.
Lemma CR_cons b P K : CR (b :: P) K -> ~ starts b P -> exists K', K = b :: K' /\ CR P K'.
Proof. intros H Hp. destruct (CR_inv b 1 P K H) as (K' & -> & Hc); [lia|auto|]. exists K'. auto. Qed.
Lemma CR_nil_inv K : CR [] K -> K = [].
Proof.
  intros H. inversion H as [|b n P K' Hn Hp Hc He]; [reflexivity|]. destruct n; [lia|discriminate].
Qed.
Lemma CR_fun L K1 : CR L K1 -> forall K2, CR L K2 -> K1 = K2.
Proof.
  induction 1 as [|b n P K Hn Hp _ IH]; intros K2 H2.
  - symmetry. now apply CR_nil_inv.
  - destruct (CR_inv _ _ _ _ H2 Hn Hp) as (K' & -> & Hc). f_equal. auto.
Qed.
Lemma rcode_two b n : (2 <= n)%nat ->
  rcode b n = Z.of_nat ((n - 2) mod 255) :: repeat 255 ((n - 2) / 255) ++ [b; b].
Proof. intros H. unfold rcode. destruct (Nat.eqb_spec n 1); [lia|reflexivity]. Qed.
Lemma mod255 k : Z.of_nat (k mod 255) < 255.
Proof. pose proof (Nat.mod_upper_bound k 255). lia. Qed.

(* Lemma B: a code starts with 255 only if the data does *)
Lemma CR_255 P K : CR P K -> starts 255 K -> starts 255 P.
Proof.
  intros H [t Ht]. inversion H as [He|b n P' K' Hn Hp Hc He Hk]; subst; [discriminate|].
  destruct (Nat.eq_dec n 1) as [->|Hn1].
  - cbn in Hk |- *. inversion Hk; subst. eexists; reflexivity.
  - rewrite rcode_two in Hk by lia. cbn [app] in Hk. apply cons_inj in Hk; destruct Hk as [Ha Hb].
    pose proof (mod255 (n - 2)). lia.
Qed.
(* Lemma A *)
Lemma CR_pair c P K : CR P K -> ~ starts c P -> forall t, K <> c :: c :: t.
Proof.
  intros H Hs t Ht. inversion H as [He|b n P' K' Hn Hp Hc He Hk]; subst; [discriminate|].
  destruct n; [lia|]. cbn [repeat app] in Hs. rewrite starts_cons in Hs.
  destruct (Nat.eq_dec n 0) as [->|Hn1].
  - cbn in Hk. inversion Hk; subst. congruence.
  - rewrite rcode_two in Hk by lia. cbn [app] in Hk. apply cons_inj in Hk; destruct Hk as [Ha Hb].
    pose proof (mod255 (S n - 2)).
    destruct ((S n - 2) / 255)%nat; cbn [repeat app] in Hb; inversion Hb; lia.
Qed.

Lemma CR_same L : Good L -> CR L L.
Proof.
  induction 1 as [|b n P Hok Hp _ IH]; [constructor|].
  replace (repeat b n ++ P) with (rcode b n ++ P) at 2.
  { constructor; auto. destruct Hok as [->|[_ ->]]; lia. }
  f_equal. destruct Hok as [->|[-> ->]]; reflexivity.
Qed.

Lemma main : forall N L K, (length L <= N)%nat -> CR L K -> CR K L -> Good L.
Proof.
  induction N as [|N IH]; intros L K Hlen HL HK.
  { destruct L; [constructor|cbn in Hlen; lia]. }
  inversion HL as [He|b n P KP Hn Hp HP He Hk]; [constructor|]. subst L.
  destruct (Nat.eq_dec n 1) as [->|Hn1].
  - (* a single byte *)
    cbn [repeat app] in *. change (rcode b 1 ++ KP) with (b :: KP) in Hk. subst K.
    assert (Hd : starts b KP \/ ~ starts b KP).
    { destruct KP as [|x y]; [right; apply starts_nil|]. rewrite starts_cons. destruct (Z.eq_dec b x); auto. }
    destruct Hd as [[KP' ->]|Hd].
    + exfalso. destruct (group b KP') as (j & K' & -> & Hj).
      change (b :: b :: repeat b j ++ K') with (repeat b (S (S j)) ++ K') in HK.
      destruct (CR_inv _ _ _ _ HK ltac:(lia) Hj) as (L' & HLe & HL').
      rewrite rcode_two in HLe by lia. replace (S (S j) - 2)%nat with j in HLe by lia.
      cbn [app] in HLe. apply cons_inj in HLe; destruct HLe as [Hb1 HPe].
      (* P = d^k .. with k >= 2, and b is its remainder *)
      inversion HP as [HPn|d k P2 K2 Hk1 Hp2 HP2 HPn Hkk].
      destruct (Nat.eq_dec k 1) as [->|Hk2].
      { cbn in Hkk. inversion Hkk; subst d. apply Hp. rewrite <- HPn. eexists; reflexivity. }
      rewrite rcode_two in Hkk by lia. cbn [app] in Hkk. apply cons_inj in Hkk; destruct Hkk as [Hkb Hkr].
      pose proof (mod255 (k - 2)) as Hlt.
      (* P starts with d d, and with 255^q b b *)
      destruct k as [|[|k]]; [lia|lia|]. cbn [repeat app] in HPn.
      assert (d <> b) as Hdb. { intros ->. apply Hp. rewrite <- HPn. eexists; reflexivity. }
      destruct (j / 255)%nat as [|q] eqn:Hq.
      { cbn [repeat app] in HPe. rewrite <- HPn in HPe. inversion HPe. congruence. }
      cbn [repeat app] in HPe. rewrite <- HPn in HPe. apply cons_inj in HPe; destruct HPe as [Hd2 Hrest]. subst d.
      (* KP = b b^j K' = rem 255.. *)
      destruct j as [|j].
      { cbn in Hq. discriminate. }
      cbn [repeat app] in Hkr.
      destruct ((S (S k) - 2) / 255)%nat; cbn [repeat app] in Hkr; inversion Hkr; lia.
    + change (b :: P) with (repeat b 1 ++ P). constructor; auto.
      destruct (CR_cons _ _ _ HK Hd) as (P' & HPe & HP'). inversion HPe; subst P'.
      apply (IH P KP); auto. cbn in Hlen. lia.
  - (* a run of at least two *)
    rewrite rcode_two in Hk by lia.
    pose proof (Nat.div_mod (n - 2) 255 ltac:(lia)) as Hdm.
    set (q := ((n - 2) / 255)%nat) in *. set (r := ((n - 2) mod 255)%nat) in *.
    assert (r < 255)%nat as Hr by (unfold r; apply Nat.mod_upper_bound; lia). clearbody q r.
    cbn [app] in Hk. rewrite <- app_assoc in Hk. cbn [app] in Hk.
    destruct (Z.eq_dec (Z.of_nat r) b) as [Hrb|Hrb].
    2:{ exfalso. subst K. destruct (CR_cons _ _ _ HK) as (K' & He & _).
        { destruct q; cbn [repeat app]; rewrite starts_cons; lia. }
        destruct n; [lia|]. cbn [repeat app] in He. apply cons_inj in He. destruct He as [He _]. lia. }
    destruct q as [|q'] eqn:Hq.
    2:{ exfalso. subst K. destruct (CR_cons _ _ _ HK) as (K' & He & HK').
        { cbn [repeat app]; rewrite starts_cons; lia. }
        destruct n as [|[|[|n]]]; [lia..|]. cbn [repeat app] in He. apply cons_inj in He; destruct He as [_ He2]. subst K'.
        destruct (CR_inv 255 (S q') (b :: b :: KP) _ HK') as (K3 & H3 & _); [lia| |].
        { rewrite starts_cons. lia. }
        destruct q' as [|q'].
        { cbn in H3. inversion H3. lia. }
        rewrite rcode_two in H3 by lia. cbn [app] in H3. apply cons_inj in H3; destruct H3 as [Ha Hb].
        destruct ((S (S q') - 2) / 255)%nat; cbn [repeat app] in Hb; inversion Hb; lia. }
    (* r = b, q = 0 *)
    cbn [repeat app] in Hk. assert (n = r + 2)%nat as Hnr by lia.
    destruct (group b KP) as (i & K' & HKP & HK').
    assert (HK3 : K = repeat b (S (S (S i))) ++ K').
    { subst K. rewrite HKP, Hrb. reflexivity. }
    rewrite HK3 in HK. destruct (CR_inv _ _ _ _ HK ltac:(lia) HK') as (L' & HLe & HL').
    rewrite rcode_two in HLe by lia. replace (S (S (S i)) - 2)%nat with (S i) in HLe by lia.
    pose proof (Nat.div_mod (S i) 255 ltac:(lia)) as Hdm'.
    set (q2 := (S i / 255)%nat) in *. set (r2 := (S i mod 255)%nat) in *. clearbody q2 r2.
    destruct n as [|[|n]]; [lia..|]. cbn [repeat app] in HLe. apply cons_inj in HLe; destruct HLe as [Hb2 HLe2].
    destruct q2 as [|q2'].
    2:{ exfalso. cbn [repeat app] in HLe2. apply cons_inj in HLe2; destruct HLe2 as [HLe2 _]. lia. }
    cbn [repeat app] in HLe2. assert (S i = r)%nat as Hir by lia.
    destruct n as [|n]; [lia|]. cbn [repeat app] in HLe2. apply cons_inj in HLe2; destruct HLe2 as [_ HLe3]; apply cons_inj in HLe3; destruct HLe3 as [_ HLe3]. assert (n = i) as -> by lia.
    destruct i as [|[|i]].
    + (* b = 1, n = 3 *)
      assert (b = 1) as -> by lia. cbn [repeat app] in *. subst K' L'.
      change (1 :: 1 :: 1 :: P) with (repeat 1 3 ++ P). constructor; auto.
      apply (IH P KP); auto. cbn in Hlen. lia.
    + (* b = 2, n = 4 *)
      exfalso. assert (b = 2) as -> by lia. cbn [repeat app] in *.
      subst L' KP. clear K Hk HK3 HK HL.
      inversion HP as [HPn|c k P2 K2 Hk1 Hp2 HP2 HPn Hkk].
      destruct (Nat.eq_dec k 1) as [->|Hk2].
      { cbn in Hkk. inversion Hkk; subst c. apply Hp. rewrite <- HPn. eexists; reflexivity. }
      rewrite rcode_two in Hkk by lia. cbn [app] in Hkk. apply cons_inj in Hkk; destruct Hkk as [Hk3 HKe].
      rewrite <- app_assoc in HKe. cbn [app] in HKe.
      pose proof (Nat.div_mod (k - 2) 255 ltac:(lia)) as Hdk.
      set (q3 := ((k - 2) / 255)%nat) in *. set (r3 := ((k - 2) mod 255)%nat) in *. clearbody q3 r3.
      assert (c <> 2) as Hc2. { intros ->. apply Hp. rewrite <- HPn. destruct k; [lia|]. eexists; reflexivity. }
      destruct q3 as [|q3'] eqn:Hq3.
      * cbn [repeat app] in HKe. destruct (group c K2) as (j & K4 & -> & HK4).
        rewrite <- HKe in HL'. change (c :: c :: repeat c j ++ K4) with (repeat c (S (S j)) ++ K4) in HL'.
        destruct (CR_inv _ _ _ _ HL' ltac:(lia) HK4) as (L5 & HL5 & _).
        rewrite rcode_two in HL5 by lia. replace (S (S j) - 2)%nat with j in HL5 by lia.
        cbn [app] in HL5. apply cons_inj in HL5; destruct HL5 as [Hj2 _].
        assert (2 <= j)%nat as Hj. { pose proof (Nat.div_mod j 255 ltac:(lia)). lia. }
        destruct j as [|[|j]]; [lia..|]. cbn [repeat app] in HP2.
        exact (CR_pair c _ _ HP2 Hp2 _ eq_refl).
      * destruct (Z.eq_dec c 255) as [->|Hc].
        -- (* c = 255 *)
           assert (~ starts 255 K2) as HK2 by (intros Hs; apply Hp2; eapply CR_255; eauto).
           assert (HKe2 : K' = repeat 255 (S q3' + 2) ++ K2).
           { rewrite <- HKe, repeat_app, <- app_assoc. reflexivity. }
           rewrite HKe2 in HL'. destruct (CR_inv _ _ _ _ HL' ltac:(lia) HK2) as (X & HX & HXc).
           rewrite rcode_two in HX by lia. cbn [app] in HX. apply cons_inj in HX; destruct HX as [Hx1 Hx2].
           replace (S q3' + 2 - 2)%nat with (S q3') in Hx2 by lia.
           assert (~ starts 255 X) as HXs by (intros Hs; apply HK2; eapply CR_255; eauto).
           rewrite <- HPn in Hx2. change [255; 255] with (repeat 255 2) in Hx2.
           rewrite <- repeat_app in Hx2.
           destruct (repeat_split 255 _ _ _ _ Hx2 Hp2 HXs) as [Hkq _].
           pose proof (Nat.div_mod (S q3') 255 ltac:(lia)). lia.
        -- rewrite <- HKe in HL'.
           destruct (CR_inv 255 (S q3') (c :: c :: K2) _ HL') as (X & HX & _); [lia| |].
           { rewrite starts_cons. congruence. }
           destruct q3' as [|q3'].
           { cbn in HX. inversion HX. }
           rewrite rcode_two in HX by lia. cbn [app] in HX. apply cons_inj in HX; destruct HX as [Hx1 Hx2].
           destruct k; [lia|]. rewrite <- HPn in Hx2. cbn [repeat app] in Hx2.
           destruct ((S (S q3') - 2) / 255)%nat; cbn [repeat app] in Hx2; inversion Hx2; lia.
    + exfalso. cbn [repeat app] in HKP. subst KP. exact (CR_pair b _ _ HP Hp _ eq_refl).
Qed.

(** ** From runs to the relation *)
Lemma rev_repeat (b : Z) n : rev (repeat b n) = repeat b n.
Proof.
  induction n as [|n IH]; [reflexivity|]. cbn [repeat rev]. rewrite IH.
  change [b] with (repeat b 1). rewrite <- repeat_app, Nat.add_1_r. reflexivity.
Qed.
Lemma strict_snoc rs r : strict_runs (rs ++ [r]) ->
  strict_runs rs /\ 1 <= rlen r /\ (forall rs', forall a, rs = rs' ++ [a] -> rbyte r <> rbyte a).
Proof.
  induction rs as [|x rs IH]; intros H.
  - cbn in H |- *. split; [auto|]. split; [tauto|]. intros [|? ?] a Ha; discriminate.
  - cbn [app strict_runs] in H. destruct H as (Hx & Hne & Hs). destruct (IH Hs) as (Hs1 & Hr & Hl).
    split; [|split; [auto|]].
    + cbn [strict_runs]. split; [auto|]. split; [|auto]. destruct rs; [auto|exact Hne].
    + intros [|y rs'] a Ha.
      * inversion Ha; subst. cbn in Hne. exact Hne.
      * inversion Ha; subst. now apply (Hl rs').
Qed.
Lemma rev_rec_bytes r : 1 <= rlen r -> rev (rec_bytes r) = rcode (rbyte r) (Z.to_nat (rlen r)).
Proof.
  intros H. unfold rec_bytes, recursive_writes.
  destruct (Z.eqb_spec (rlen r) 1) as [->|H1]; [reflexivity|].
  destruct (Z.geb_spec (rlen r) 2); [|lia]. rewrite rcode_two by lia.
  cbn [concat]. rewrite app_nil_r, !rev_app_distr. cbn [rev app]. f_equal.
  - rewrite u8_small by (pose proof (Z.mod_pos_bound (rlen r - 2) 255); lia).
    rewrite Nat2Z.inj_mod. f_equal. lia.
  - f_equal. unfold zrepeat. rewrite rev_repeat. f_equal.
    replace (Z.to_nat (rlen r) - 2)%nat with (Z.to_nat (rlen r - 2)) by lia. now rewrite Z2Nat.inj_div by lia.
Qed.
Lemma CR_of_runs rs : strict_runs rs ->
  CR (rev (concat (map run_bytes rs))) (rev (flat_map rec_bytes rs)).
Proof.
  induction rs as [|r rs IH] using rev_ind; intros H; [constructor|].
  destruct (strict_snoc _ _ H) as (Hs & Hr & Hl).
  rewrite map_app, concat_app, flat_map_app, !rev_app_distr. cbn [map concat flat_map].
  rewrite !app_nil_r, rev_rec_bytes by auto. unfold run_bytes at 1. rewrite rev_repeat.
  constructor; [lia| |auto].
  intros [t Ht]. destruct rs as [|a rs _] using rev_ind; [discriminate|].
  rewrite map_app, concat_app, rev_app_distr in Ht. cbn [map concat] in Ht.
  rewrite app_nil_r in Ht. unfold run_bytes at 1 in Ht. rewrite rev_repeat in Ht.
  destruct (strict_snoc _ _ Hs) as (_ & Ha & _).
  destruct (Z.to_nat (rlen a)) eqn:Hna; [lia|]. cbn in Ht. inversion Ht. now apply (Hl rs a eq_refl).
Qed.
Lemma rcode_len b n : (1 <= n)%nat -> (length (rcode b n) <= 2 * n)%nat.
Proof.
  intros H. destruct (Nat.eq_dec n 1) as [->|Hn]; [cbn; lia|].
  rewrite rcode_two by lia. cbn [length]. rewrite app_length, repeat_length. cbn [length].
  pose proof (Nat.div_le_upper_bound (n - 2) 255 (n - 2) ltac:(lia) ltac:(nia)). nia.
Qed.
Lemma CR_len L K : CR L K -> (length K <= 2 * length L)%nat.
Proof.
  induction 1 as [|b n P K Hn Hp _ IH]; [cbn; lia|].
  rewrite !app_length, repeat_length. pose proof (rcode_len b n Hn). lia.
Qed.
Lemma CR_bytes L K : CR L K -> bytes L -> bytes K.
Proof.
  induction 1 as [|b n P K Hn Hp _ IH]; intros HL; [auto|]. unfold bytes in *.
  apply Forall_app in HL. destruct HL as [Hb HP]. apply Forall_app; split; [|auto].
  assert (is_byte b) as Hbb. { destruct n; [lia|]. cbn in Hb. now inversion Hb. }
  unfold rcode. destruct (Nat.eqb_spec n 1); [auto|].
  pose proof (mod255 (n - 2)). constructor; [unfold is_byte; lia|]. apply Forall_app; split; [|auto].
  apply Forall_forall. intros x Hx. apply repeat_spec in Hx. subst. unfold is_byte; lia.
Qed.
Lemma CR_rev_bytes L K : CR L K -> bytes (rev L) -> bytes (rev K).
Proof.
  intros H Hb. unfold bytes. apply Forall_rev. apply (CR_bytes _ _ H).
  rewrite <- (rev_involutive L). now apply Forall_rev.
Qed.
Lemma compress_CR D : bytes D -> zlen D < 2^63 -> exists C,
  CR (rev D) (rev C) /\
  compress_recursive (mkReader D REOF) (mkWriter [] []) =
    Ret (mkRes (i64 (zlen C)) None (mkWriter C [])).
Proof.
  intros Hb Hl. destruct (compress_eof D (mkWriter [] []) Hb) as (rs & Hg & Ha & Hb0 & Hd & _ & Hc).
  exists (flat_map rec_bytes rs). split.
  - rewrite <- Hd. apply CR_of_runs. apply strict_of_short; auto.
    rewrite <- concat_runs_len, Hd by auto. exact Hl.
  - rewrite Hc, finish_good, concat_flat_map. reflexivity.
Qed.

(** ** Maximal runs *)
Definition fine (b : Z) (n : nat) : Prop := n = 1%nat \/ (b = 1 /\ n = 3%nat).
Lemma maximal_rev D p b n s : maximal_run D p b n s <-> maximal_run (rev D) (rev s) b n (rev p).
Proof.
  assert (Hone : forall D p s, maximal_run D p b n s -> maximal_run (rev D) (rev s) b n (rev p)).
  { clear. intros D p s (-> & Hn & Hp & Hs). split; [|split; [auto|split]].
    - rewrite !rev_app_distr, rev_repeat, app_assoc. reflexivity.
    - intros p' He. apply (f_equal (@rev Z)) in He. rewrite rev_involutive, rev_app_distr in He.
      exact (Hs _ He).
    - intros s' He. apply (f_equal (@rev Z)) in He. rewrite rev_involutive in He. cbn in He. exact (Hp _ He). }
  split; [apply Hone|]. intros H. apply Hone in H. now rewrite !rev_involutive in H.
Qed.
Lemma Good_fine L : Good L -> forall p b n s, maximal_run L p b n s -> fine b n.
Proof.
  induction 1 as [|c m P Hok Hp _ IH]; intros p b n s (He & Hn & Hpm & Hs).
  - destruct p; [destruct n; [lia|discriminate]|discriminate].
  - assert (1 <= m)%nat as Hm by (destruct Hok as [->|[_ ->]]; lia).
    destruct (Nat.lt_ge_cases (length p) m) as [Hlt|Hge].
    + (* inside the first group: must be all of it *)
      assert (Hpc : p = repeat c (length p)).
      { apply (f_equal (firstn (length p))) in He.
        rewrite !firstn_app, firstn_all, Nat.sub_diag in He. cbn [firstn] in He. rewrite app_nil_r in He.
        rewrite repeat_length in He. replace (length p - m)%nat with 0%nat in He by lia.
        cbn [firstn] in He. rewrite app_nil_r in He. rewrite <- He at 1.
        replace m with (length p + (m - length p))%nat by lia.
        rewrite repeat_app, firstn_app, repeat_length, Nat.sub_diag. cbn [firstn].
        rewrite app_nil_r, firstn_all2 by (rewrite repeat_length; lia). reflexivity. }
      assert (b = c) as ->.
      { apply (f_equal (fun l => nth (length p) l 0)) in He.
        rewrite app_nth1 in He by (rewrite repeat_length; lia).
        rewrite app_nth2 in He by lia. rewrite Nat.sub_diag in He.
        destruct n; [lia|]. cbn [repeat app nth] in He. rewrite <- He.
        rewrite nth_indep with (d' := c) by (rewrite repeat_length; lia). apply nth_repeat. }
      assert (p = []) as ->.
      { destruct (length p) as [|k] eqn:Hk; [now destruct p|]. exfalso.
        apply (Hpm (repeat c k)). rewrite Hpc. change [c] with (repeat c 1).
        rewrite <- repeat_app, Nat.add_1_r. reflexivity. }
      cbn [app] in He. destruct (repeat_split c _ _ _ _ He Hp) as [-> _]; [|exact Hok].
      intros [t Ht]. exact (Hs t Ht).
    + assert (Hpe : p = repeat c m ++ skipn m p).
      { apply (f_equal (firstn m)) in He.
        rewrite !firstn_app, repeat_length, Nat.sub_diag in He. cbn [firstn] in He. rewrite app_nil_r in He.
        rewrite firstn_all2 in He by (rewrite repeat_length; lia).
        replace (m - length p)%nat with 0%nat in He by lia. cbn [firstn] in He. rewrite app_nil_r in He.
        rewrite He. now rewrite firstn_skipn. }
      rewrite Hpe, <- app_assoc in He. apply app_inv_head in He.
      apply (IH (skipn m p) b n s). split; [exact He|]. split; [auto|]. split; [|auto].
      intros p' Hp'. apply (Hpm (repeat c m ++ p')). rewrite Hpe at 1. now rewrite Hp', app_assoc.
Qed.
Lemma fine_Good : forall N L, (length L <= N)%nat ->
  (forall p b n s, maximal_run L p b n s -> fine b n) -> Good L.
Proof.
  induction N as [|N IH]; intros L Hl H; destruct L as [|b L]; try constructor; [cbn in Hl; lia|].
  destruct (group b (b :: L)) as (n & P & He & Hp). rewrite He in *.
  destruct n as [|n]. { exfalso. apply Hp. cbn in He. rewrite <- He. eexists; reflexivity. }
  constructor; [|auto|].
  - apply (H [] b (S n) P). split; [reflexivity|]. split; [lia|]. split.
    + intros [|? ?]; discriminate.
    + intros s' Hs. apply Hp. eexists; exact Hs.
  - apply IH. { rewrite app_length, repeat_length in Hl. lia. }
    intros p c m s (HP & Hm & Hpc & Hs). apply (H (repeat b (S n) ++ p) c m s).
    split; [now rewrite HP, app_assoc|]. split; [auto|]. split; [|auto].
    intros p' Hp'. destruct p as [|x p _] using rev_ind.
    + rewrite app_nil_r in Hp'. change (S n) with (1 + n)%nat in Hp'. rewrite Nat.add_comm, repeat_app in Hp'.
      apply app_inj_tail in Hp'. destruct Hp' as [_ Hbc]. cbn [app] in HP.
      destruct m; [lia|]. apply Hp. rewrite HP, Hbc. eexists; reflexivity.
    + rewrite app_assoc in Hp'. apply app_inj_tail in Hp'. destruct Hp' as [_ ->]. exact (Hpc _ eq_refl).
Qed.

Lemma roundtrip_exact D : bytes D -> zlen D < 2^62 ->
  ((exists C n m,
     compress_recursive (mkReader D REOF) (mkWriter [] []) = Ret (mkRes n None (mkWriter C [])) /\
     decompress_recursive (mkReader C REOF) (mkWriter [] []) = Ret (mkRes m None (mkWriter D []))) <->
   forall p b n s, maximal_run D p b n s -> n = 1%nat \/ (b = 1 /\ n = 3%nat)).
Proof.
  intros Hb Hl. unfold decompress_recursive.
  destruct (compress_CR D Hb ltac:(lia)) as (C & HC & Hc).
  assert (bytes C) as HbC.
  { rewrite <- (rev_involutive C). apply (CR_rev_bytes _ _ HC). now rewrite rev_involutive. }
  assert (zlen C < 2^63) as HlC.
  { pose proof (CR_len _ _ HC) as Hlen. rewrite !rev_length in Hlen. unfold zlen in *. lia. }
  destruct (compress_CR C HbC HlC) as (E & HE & He).
  split.
  - intros (C' & n & m & H1 & H2) p b k s Hm. rewrite Hc in H1. inversion H1; subst C' n.
    rewrite He in H2. inversion H2; subst E. apply maximal_rev in Hm.
    apply (Good_fine (rev D)) in Hm; [exact Hm|]. exact (main _ _ _ (le_n _) HC HE).
  - intros H. assert (Good (rev D)) as HG.
    { apply (fine_Good _ _ (le_n _)). intros p b n s Hm. apply (H (rev s) b n (rev p)).
      apply maximal_rev. now rewrite !rev_involutive. }
    assert (C = D) as ->.
    { rewrite <- (rev_involutive C), <- (rev_involutive D). f_equal.
      exact (CR_fun _ _ HC _ (CR_same _ HG)). }
    exists D, (i64 (zlen D)), (i64 (zlen D)). auto.
Qed.
