(** * Spec_Slices: slices of a cache as windows on plain arrays.

    The specification keeps a list of arrays and the current one; the current one is what the cache holds.  A successful Resize
    retires the current array; handles given out before stay with it.  [w_unmarked i]: block i was changed through a slice and not
    marked since. *)
From Verif Require Import GoBase ListZ Errors BlockCache Spec_BlockCache CacheSlices.

Record windows := mkW { w_retired : list (list Z); w_now : list Z; w_handles : list handle; w_unmarked : Z -> Prop }.
Definition current (w : windows) : nat := length (w_retired w).
Definition w_array (w : windows) (a : nat) : list Z := nth a (w_retired w ++ [w_now w]) [].
(* the bytes written through a slice into array a *)
Definition w_write (bs : Z) (w : windows) (a : nat) (o : Z) (b : list Z) : windows :=
  if Nat.ltb a (current w) then mkW (firstn a (w_retired w) ++ [splice o b (w_array w a)] ++ skipn (S a) (w_retired w)) (w_now w) (w_handles w) (w_unmarked w)
  else mkW (w_retired w) (splice o b (w_now w)) (w_handles w) (fun i => w_unmarked w i \/ exists p, o <= p < o + zlen b /\ p / bs = i).
Definition w_open (w : windows) (o n : Z) : windows := mkW (w_retired w) (w_now w) (w_handles w ++ [mkHandle (current w) o n]) (w_unmarked w).

(** ** How a program may use slices: writes stay inside the slice, and only blocks of slices it holds are marked. *)
Definition holds (bs : Z) (cur : nat) (hs : list handle) (i : Z) : Prop :=
  exists h, In h hs /\ h_arr h = cur /\ h_off h <= i * bs /\ i * bs + bs <= h_off h + h_len h.
Definition act_ok (bs : Z) (cur : nat) (hs : list handle) (a : act) : Prop :=
  match a with
  | AOp o => op_ok bs o
  | AGet start count => op_ok bs (OSlice start count)
  | AMark start count => op_ok bs (OSlice start count) /\ forall i, start <= i < start + count -> holds bs cur hs i
  | AWrite k off b => forall h, nth_error hs k = Some h -> 0 <= off /\ off + zlen b <= h_len h
  | ARead _ | AData => True
  end.
Fixpoint well_used {T} (cb : callbacks T) (bs : Z) (t : T) (m : mem) (hs : list handle) (acts : list act) : Prop :=
  match acts with
  | [] => True
  | a :: acts' => act_ok bs (m_cur m) hs a /\ forall t1 m1 hs1 r, act_step cb t m hs a = Ret (t1, m1, hs1, r) -> well_used cb bs t1 m1 hs1 acts'
  end.

Inductive win_step (bs : Z) (w : windows) : act -> res -> windows -> Prop :=
| ws_op o r A' : (forall n, o <> OResize n) -> (forall e, r <> RErr e) -> array_step bs (w_now w) o r A' ->
    win_step bs w (AOp o) r (mkW (w_retired w) A' (w_handles w) (fun i => w_unmarked w i /\ ~ modified bs (w_now w) o i))
| ws_resize n A' : array_step bs (w_now w) (OResize n) ROk A' ->
    win_step bs w (AOp (OResize n)) ROk (mkW (w_retired w ++ [w_now w]) A' (w_handles w) (fun i => w_unmarked w i /\ i < n))
| ws_get start count b : array_step bs (w_now w) (OSlice start count) (RBytes b) (w_now w) -> win_step bs w (AGet start count) (RBytes b) (w_open w (start * bs) (count * bs))
| ws_data b : array_step bs (w_now w) OData (RBytes b) (w_now w) -> win_step bs w AData (RBytes b) (w_open w 0 (zlen b))
| ws_read k h : nth_error (w_handles w) k = Some h -> win_step bs w (ARead k) (RBytes (slice (h_off h) (h_len h) (w_array w (h_arr h)))) w
| ws_write k h off b : nth_error (w_handles w) k = Some h -> win_step bs w (AWrite k off b) ROk (w_write bs w (h_arr h) (h_off h + off) b)
| ws_none k a : nth_error (w_handles w) k = None -> a = ARead k \/ (exists off b, a = AWrite k off b) -> win_step bs w a ROk w
| ws_mark start count : in_bounds bs (w_now w) start (count * bs) ->
    win_step bs w (AMark start count) ROk (mkW (w_retired w) (w_now w) (w_handles w) (fun i => w_unmarked w i /\ ~ start <= i < start + count))
| ws_err a e : win_step bs w a (RErr e) w.
Inductive win_run (bs : Z) : windows -> list act -> list res -> windows -> Prop :=
| wr_nil w : win_run bs w [] [] w
| wr_cons w a r w1 acts rs w2 : win_step bs w a r w1 -> win_run bs w1 acts rs w2 -> win_run bs w (a :: acts) (r :: rs) w2.
