(** * Spec_Report: storage that remembers how each call ended *)
From Verif Require Import GoBase Errors BlockCache.

(* [hist] tells, in each state of the storage, how every call so far ended: fetching a block, flushing a
   block, resizing ([None]: it succeeded) *)
Record recalls {S} (cb : callbacks S) (hist : S -> list (option kerr)) : Prop := {
  rec_fetch : forall s i buf, hist (fst (fst (cb_fetch cb s i buf))) = hist s ++ [snd (cb_fetch cb s i buf)];
  rec_flush : forall s i buf, hist (fst (cb_flush cb s i buf)) = hist s ++ [snd (cb_flush cb s i buf)];
  rec_resize : forall s n, hist (fst (cb_resize cb s n)) = hist s ++ [snd (cb_resize cb s n)] }.
(* any storage, with such a memory added *)
Definition recorded {S} (cb : callbacks S) : callbacks (S * list (option kerr)) := mkCb (S * list (option kerr))
  (fun w i buf => let r := cb_fetch cb (fst w) i buf in ((fst (fst r), snd w ++ [snd r]), snd (fst r), snd r))
  (fun w i buf => let r := cb_flush cb (fst w) i buf in ((fst r, snd w ++ [snd r]), snd r))
  (fun w n => let r := cb_resize cb (fst w) n in ((fst r, snd w ++ [snd r]), snd r)).
(* an error says [x] if it is [x], or [x] with a message in front of it (fmt.Errorf("...%w", x)) *)
Definition says (x : kerr) (e : option kerr) : Prop := e = Some x \/ e = Some (KMsg x).
(* an operation that took the storage from [s] to [s'] and returned the error [e]: either none of its calls
   failed, or the last one did, and the operation's error says so *)
Definition told {S} (hist : S -> list (option kerr)) (s s' : S) (e : option kerr) : Prop :=
  exists n, hist s' = hist s ++ repeat None n \/
  exists x, hist s' = hist s ++ repeat None n ++ [Some x] /\ says x e.
