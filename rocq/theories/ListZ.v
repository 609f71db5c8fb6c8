(** * ListZ: lemmas about Z-indexed lists (no model content). *)
From Coq Require FinFun.
From Verif Require Import GoBase.

Section L.
Context {A : Type}.
Implicit Types (l : list A) (d x : A).

Lemma zlen_nonneg l : 0 <= zlen l.
Proof. unfold zlen; lia. Qed.
Lemma zlen_nil : zlen (@nil A) = 0.
Proof. reflexivity. Qed.
Lemma zlen_cons x l : zlen (x :: l) = 1 + zlen l.
Proof. unfold zlen; cbn [length]; lia. Qed.
Lemma zlen_app l1 l2 : zlen (l1 ++ l2) = zlen l1 + zlen l2.
Proof. unfold zlen; rewrite app_length; lia. Qed.
Lemma zlen_repeat x n : 0 <= n -> zlen (zrepeat x n) = n.
Proof. unfold zlen, zrepeat; rewrite repeat_length; lia. Qed.
Lemma zlen_firstn n l : 0 <= n <= zlen l -> zlen (firstn (Z.to_nat n) l) = n.
Proof. unfold zlen; intros; rewrite firstn_length; lia. Qed.
Lemma zlen_firstn_min n l : 0 <= n -> zlen (firstn (Z.to_nat n) l) = Z.min n (zlen l).
Proof. unfold zlen; intros; rewrite firstn_length; lia. Qed.
Lemma zlen_skipn n l : 0 <= n <= zlen l -> zlen (skipn (Z.to_nat n) l) = zlen l - n.
Proof. unfold zlen; intros; rewrite skipn_length; lia. Qed.
Lemma zlen_slice o n l : 0 <= o -> 0 <= n -> o + n <= zlen l -> zlen (slice o n l) = n.
Proof. unfold zlen, slice; intros; rewrite firstn_length, skipn_length; lia. Qed.
Lemma zlen_slice_min o n l : 0 <= o -> 0 <= n ->
  zlen (slice o n l) = Z.max 0 (Z.min n (zlen l - o)).
Proof. unfold zlen, slice; intros; rewrite firstn_length, skipn_length; lia. Qed.
Lemma zlen_splice o new l : 0 <= o -> o + zlen new <= zlen l ->
  zlen (splice o new l) = zlen l.
Proof.
  unfold zlen, splice; intros; rewrite !app_length, firstn_length, skipn_length.
  unfold zlen in *; lia.
Qed.
Lemma zlen_map {B} (f : A -> B) l : zlen (map f l) = zlen l.
Proof. unfold zlen; now rewrite map_length. Qed.
Lemma zlen_zero_nil l : zlen l = 0 -> l = [].
Proof. destruct l; auto; rewrite zlen_cons; pose proof (zlen_nonneg l); lia. Qed.

Lemma list_ext d l1 l2 : zlen l1 = zlen l2 ->
  (forall i, 0 <= i < zlen l1 -> znth d l1 i = znth d l2 i) -> l1 = l2.
Proof.
  intros Hl H; apply (nth_ext l1 l2 d d); [unfold zlen in Hl; lia|].
  intros n Hn; specialize (H (Z.of_nat n)); unfold znth in H.
  rewrite Nat2Z.id in H; apply H; unfold zlen; lia.
Qed.
Lemma znth_app d l1 l2 i : 0 <= i ->
  znth d (l1 ++ l2) i = if i <? zlen l1 then znth d l1 i else znth d l2 (i - zlen l1).
Proof.
  intros Hi; unfold znth, zlen; destruct (Z.ltb_spec i (Z.of_nat (length l1))).
  - rewrite app_nth1; [reflexivity|lia].
  - rewrite app_nth2 by lia; f_equal; lia.
Qed.
Lemma nth_firstn_lt d : forall n m l, (m < n)%nat -> nth m (firstn n l) d = nth m l d.
Proof.
  induction n as [|n IH]; intros m l H; [lia|].
  destruct l as [|a l]; [destruct m; reflexivity|].
  destruct m; cbn; [reflexivity|apply IH; lia].
Qed.
Lemma nth_skipn_add d : forall n m l, nth m (skipn n l) d = nth (n + m) l d.
Proof.
  induction n as [|n IH]; intros m l; [reflexivity|].
  destruct l as [|a l]; [destruct m; reflexivity|]; cbn; apply IH.
Qed.
Lemma znth_firstn d n l i : 0 <= i < n -> znth d (firstn (Z.to_nat n) l) i = znth d l i.
Proof. intros; unfold znth; apply nth_firstn_lt; lia. Qed.
Lemma znth_skipn d n l i : 0 <= n -> 0 <= i ->
  znth d (skipn (Z.to_nat n) l) i = znth d l (n + i).
Proof. intros; unfold znth; rewrite nth_skipn_add; f_equal; lia. Qed.
Lemma znth_slice d o n l i : 0 <= o -> 0 <= i < n ->
  znth d (slice o n l) i = znth d l (o + i).
Proof. intros; unfold slice; rewrite znth_firstn, znth_skipn by lia; reflexivity. Qed.
Lemma znth_overflow d l i : zlen l <= i -> znth d l i = d.
Proof. unfold znth, zlen; intros; apply nth_overflow; lia. Qed.
Lemma znth_splice d o new l i : 0 <= o -> o <= zlen l -> 0 <= i ->
  znth d (splice o new l) i =
    if (o <=? i) && (i <? o + zlen new) then znth d new (i - o) else znth d l i.
Proof.
  intros Ho Hol Hi; unfold splice; pose proof (zlen_nonneg new).
  rewrite znth_app by lia; rewrite zlen_firstn by lia.
  destruct (Z.ltb_spec i o).
  - rewrite znth_firstn by lia; destruct (Z.leb_spec o i); [lia|reflexivity].
  - rewrite znth_app by lia; destruct (Z.leb_spec o i); [|lia]; cbn [andb].
    destruct (Z.ltb_spec (i - o) (zlen new)); destruct (Z.ltb_spec i (o + zlen new));
      try lia; [reflexivity|].
    rewrite znth_skipn by lia; f_equal; lia.
Qed.
Lemma znth_repeat d x n i : 0 <= i < n -> znth d (zrepeat x n) i = x.
Proof.
  intros; unfold znth, zrepeat. apply nth_error_nth.
  apply nth_error_repeat; lia.
Qed.
Lemma znth_cons_0 d x l : znth d (x :: l) 0 = x.
Proof. reflexivity. Qed.
Lemma znth_cons_S d x l i : 0 < i -> znth d (x :: l) i = znth d l (i - 1).
Proof.
  intros; unfold znth. replace (Z.to_nat i) with (S (Z.to_nat (i - 1))) by lia.
  reflexivity.
Qed.
Lemma znth_In d l i : 0 <= i < zlen l -> In (znth d l i) l.
Proof. unfold znth, zlen; intros; apply nth_In; lia. Qed.
Lemma In_znth d l x : In x l -> exists i, 0 <= i < zlen l /\ znth d l i = x.
Proof.
  intros H; destruct (In_nth _ _ d H) as (n & Hn & Hx).
  exists (Z.of_nat n); unfold zlen, znth; rewrite Nat2Z.id; split; [lia|auto].
Qed.
Lemma znth_indep d d' l i : 0 <= i < zlen l -> znth d l i = znth d' l i.
Proof. unfold znth, zlen; intros; apply nth_indep; lia. Qed.
Lemma znth_map {B} (f : A -> B) d db l i : 0 <= i < zlen l ->
  znth db (map f l) i = f (znth d l i).
Proof.
  intros; unfold znth. rewrite (nth_indep _ db (f d)).
  - apply map_nth.
  - rewrite map_length; unfold zlen in *; lia.
Qed.

Lemma slice_all l : slice 0 (zlen l) l = l.
Proof. unfold slice, zlen; rewrite Nat2Z.id; cbn [Z.to_nat skipn]; apply firstn_all. Qed.
Lemma slice_nil o l : slice o 0 l = [].
Proof. reflexivity. Qed.
Lemma splice_nil o l : 0 <= o -> splice o [] l = l.
Proof.
  intros; unfold splice. cbn [app]. rewrite zlen_nil, Z.add_0_r. apply firstn_skipn.
Qed.
Lemma slice_splice_same o new l : 0 <= o -> o + zlen new <= zlen l ->
  slice o (zlen new) (splice o new l) = new.
Proof.
  intros Ho Hl; pose proof (zlen_nonneg new).
  destruct new as [|x new']; [reflexivity|]. set (new := x :: new') in *.
  apply (list_ext x); [rewrite zlen_slice; rewrite ?zlen_splice; lia|].
  rewrite zlen_slice by (rewrite ?zlen_splice; lia).
  intros i Hi; rewrite znth_slice, znth_splice by lia.
  destruct (Z.leb_spec o (o + i)); [|lia].
  destruct (Z.ltb_spec (o + i) (o + zlen new)); [|lia]; cbn [andb].
  f_equal; lia.
Qed.
Lemma slice_splice_disj o n o' new l : 0 <= o -> 0 <= n -> o + n <= zlen l ->
  0 <= o' -> o' + zlen new <= zlen l -> (o + n <= o' \/ o' + zlen new <= o) ->
  slice o n (splice o' new l) = slice o n l.
Proof.
  intros Ho Hn Hl Ho' Hl' Hd; pose proof (zlen_nonneg new).
  destruct (Z.eq_dec n 0) as [->|Hn0]; [reflexivity|].
  destruct l as [|x l0]; [rewrite zlen_nil in *; lia|]. set (l := x :: l0) in *.
  apply (list_ext x); [rewrite !zlen_slice; rewrite ?zlen_splice; lia|].
  rewrite zlen_slice by (rewrite ?zlen_splice; lia).
  intros i Hi; rewrite !znth_slice, znth_splice by lia.
  destruct (Z.leb_spec o' (o + i)); destruct (Z.ltb_spec (o + i) (o' + zlen new));
    cbn [andb]; try reflexivity; lia.
Qed.
Lemma skipn_skipn : forall n m l, skipn n (skipn m l) = skipn (n + m) l.
Proof.
  intros n m; revert n; induction m as [|m IH]; intros n l.
  - now rewrite Nat.add_0_r.
  - destruct l as [|a l]; [now rewrite !skipn_nil|].
    rewrite Nat.add_succ_r; cbn [skipn]; apply IH.
Qed.
Lemma slice_slice o n o' n' l : 0 <= o -> 0 <= n -> 0 <= o' -> 0 <= n' -> o' + n' <= n ->
  slice o' n' (slice o n l) = slice (o + o') n' l.
Proof.
  intros; unfold slice.
  rewrite skipn_firstn_comm, firstn_firstn, skipn_skipn.
  f_equal; [lia|f_equal; lia].
Qed.
Lemma slice_app_l o n l1 l2 : 0 <= o -> 0 <= n -> o + n <= zlen l1 ->
  slice o n (l1 ++ l2) = slice o n l1.
Proof.
  intros; unfold slice, zlen in *. rewrite skipn_app, firstn_app, skipn_length.
  replace (Z.to_nat n - (length l1 - Z.to_nat o))%nat with 0%nat by lia.
  cbn [firstn]. apply app_nil_r.
Qed.
Lemma slice_app_r o n l1 l2 : zlen l1 <= o ->
  slice o n (l1 ++ l2) = slice (o - zlen l1) n l2.
Proof.
  intros; unfold slice, zlen in *. rewrite skipn_app.
  rewrite (skipn_all2 l1) by lia. cbn [app]. f_equal. f_equal. lia.
Qed.
Lemma slice_split o n m l : 0 <= o -> 0 <= n -> 0 <= m ->
  slice o (n + m) l = slice o n l ++ slice (o + n) m l.
Proof.
  intros; unfold slice.
  replace (Z.to_nat (o + n)) with (Z.to_nat n + Z.to_nat o)%nat by lia.
  rewrite <- skipn_skipn. replace (Z.to_nat (n + m)) with (Z.to_nat n + Z.to_nat m)%nat by lia.
  generalize (skipn (Z.to_nat o) l) as k; generalize (Z.to_nat n) as a, (Z.to_nat m) as b.
  clear. induction a as [|a IH]; intros b k; [reflexivity|].
  destruct k as [|y k]; cbn [Nat.add firstn skipn app].
  - now rewrite firstn_nil.
  - f_equal; apply IH.
Qed.
Lemma slice_whole_eq l1 l2 : zlen l1 = zlen l2 ->
  slice 0 (zlen l1) l1 = slice 0 (zlen l1) l2 -> l1 = l2.
Proof. intros Hl H; rewrite slice_all in H; rewrite Hl, slice_all in H; exact H. Qed.
Lemma splice_whole new l : zlen new = zlen l -> splice 0 new l = new.
Proof.
  intros H; unfold splice; cbn [Z.to_nat firstn app].
  rewrite skipn_all2; [apply app_nil_r|unfold zlen in *; lia].
Qed.
Lemma splice_slice_self o n l : 0 <= o -> 0 <= n -> o + n <= zlen l ->
  splice o (slice o n l) l = l.
Proof.
  intros. unfold splice. rewrite zlen_slice by lia. unfold slice.
  replace (Z.to_nat (o + n)) with (Z.to_nat n + Z.to_nat o)%nat by lia.
  rewrite <- skipn_skipn, firstn_skipn. apply firstn_skipn.
Qed.
Lemma firstn_repeat x : forall n m, firstn n (repeat x m) = repeat x (Nat.min n m).
Proof.
  induction n as [|n IH]; intros [|m]; try reflexivity; cbn; f_equal; apply IH.
Qed.
Lemma skipn_repeat x : forall n m, skipn n (repeat x m) = repeat x (m - n).
Proof. induction n as [|n IH]; intros [|m]; try reflexivity; cbn; apply IH. Qed.
Lemma slice_repeat o n m x : 0 <= o -> 0 <= n -> o + n <= m ->
  slice o n (zrepeat x m) = zrepeat x n.
Proof.
  intros; unfold slice, zrepeat. rewrite skipn_repeat, firstn_repeat. f_equal; lia.
Qed.
Lemma zrepeat_app x a b : 0 <= a -> 0 <= b ->
  zrepeat x (a + b) = zrepeat x a ++ zrepeat x b.
Proof. intros; unfold zrepeat; rewrite <- repeat_app; f_equal; lia. Qed.
Lemma zrepeat_cons x n : 0 < n -> zrepeat x n = x :: zrepeat x (n - 1).
Proof.
  intros; unfold zrepeat. replace (Z.to_nat n) with (S (Z.to_nat (n - 1))) by lia.
  reflexivity.
Qed.
Lemma zrepeat_0 x : zrepeat x 0 = [].
Proof. reflexivity. Qed.
Lemma Forall_slice P o n l : Forall P l -> Forall P (slice o n l).
Proof.
  intros H. unfold slice. apply Forall_forall. intros x Hx.
  rewrite Forall_forall in H. apply H.
  assert (In x (skipn (Z.to_nat o) l)) as Hs.
  { rewrite <- (firstn_skipn (Z.to_nat n) (skipn (Z.to_nat o) l)).
    apply in_or_app; left; exact Hx. }
  rewrite <- (firstn_skipn (Z.to_nat o) l). apply in_or_app; right; exact Hs.
Qed.
Lemma Forall_firstn' P n l : Forall P l -> Forall P (firstn n l).
Proof.
  intros H. rewrite Forall_forall in *. intros x Hx; apply H.
  rewrite <- (firstn_skipn n l). apply in_or_app; left; exact Hx.
Qed.
Lemma Forall_skipn' P n l : Forall P l -> Forall P (skipn n l).
Proof.
  intros H. rewrite Forall_forall in *. intros x Hx; apply H.
  rewrite <- (firstn_skipn n l). apply in_or_app; right; exact Hx.
Qed.
Lemma Forall_splice P o new l : Forall P new -> Forall P l -> Forall P (splice o new l).
Proof.
  intros Hn Hl. unfold splice. apply Forall_app; split; [now apply Forall_firstn'|].
  apply Forall_app; split; [exact Hn|now apply Forall_skipn'].
Qed.
Lemma Forall_zrepeat (P : A -> Prop) x n : P x -> Forall P (zrepeat x n).
Proof.
  intros H; apply Forall_forall; intros y Hy; apply repeat_spec in Hy; now subst.
Qed.
Lemma slice_splice_cong o n p b l1 l2 : 0 <= o -> 0 <= n -> 0 <= p ->
  zlen l1 = zlen l2 -> o + n <= zlen l1 -> p + zlen b <= zlen l1 ->
  slice o n l1 = slice o n l2 -> slice o n (splice p b l1) = slice o n (splice p b l2).
Proof.
  intros Ho Hn Hp Hl Hon Hpb He. pose proof (zlen_nonneg b).
  destruct (Z.eq_dec n 0) as [->|Hn0]; [reflexivity|].
  destruct l1 as [|x l0]; [rewrite zlen_nil in *; lia|]. set (l1 := x :: l0) in *.
  apply (list_ext x); [rewrite !zlen_slice; rewrite ?zlen_splice; lia|].
  rewrite zlen_slice by (rewrite ?zlen_splice; lia).
  intros i Hi. rewrite !znth_slice, !znth_splice by lia.
  destruct ((p <=? o + i) && (o + i <? p + zlen b)); [reflexivity|].
  rewrite <- (znth_slice x o n l1), <- (znth_slice x o n l2) by lia. now rewrite He.
Qed.
Lemma slice_full n l : n = zlen l -> slice 0 n l = l.
Proof. intros ->; apply slice_all. Qed.
End L.

(** ascending ranges of integers *)
Definition zrange (lo hi : Z) : list Z :=
  map (fun k => lo + Z.of_nat k) (seq 0 (Z.to_nat (hi - lo))).
Lemma zrange_nil lo hi : hi <= lo -> zrange lo hi = [].
Proof. intros; unfold zrange. replace (Z.to_nat (hi - lo)) with 0%nat by lia. reflexivity. Qed.
Lemma zrange_cons lo hi : lo < hi -> zrange lo hi = lo :: zrange (lo + 1) hi.
Proof.
  intros; unfold zrange.
  replace (Z.to_nat (hi - lo)) with (S (Z.to_nat (hi - (lo + 1)))) by lia.
  cbn [seq map]. f_equal; [lia|]. rewrite <- seq_shift, map_map. apply map_ext. intros; lia.
Qed.
Lemma zrange_snoc lo hi : lo <= hi -> zrange lo (hi + 1) = zrange lo hi ++ [hi].
Proof.
  intros; unfold zrange.
  replace (Z.to_nat (hi + 1 - lo)) with (Z.to_nat (hi - lo) + 1)%nat by lia.
  rewrite seq_app, map_app. cbn [seq map]. f_equal. f_equal. lia.
Qed.
Lemma In_zrange x lo hi : In x (zrange lo hi) <-> lo <= x < hi.
Proof.
  unfold zrange. rewrite in_map_iff. split.
  - intros (k & <- & Hk). apply in_seq in Hk. lia.
  - intros Hx. exists (Z.to_nat (x - lo)). split; [lia|]. apply in_seq. lia.
Qed.
Lemma zlen_zrange lo hi : zlen (zrange lo hi) = Z.max 0 (hi - lo).
Proof. unfold zrange, zlen. rewrite map_length, seq_length. lia. Qed.
Lemma NoDup_zrange lo hi : NoDup (zrange lo hi).
Proof.
  unfold zrange. apply FinFun.Injective_map_NoDup; [|apply seq_NoDup].
  intros a b; lia.
Qed.
