(** * Spec_BlockCache: what a block cache promises.

    The storage is any state type with callbacks that honour the documented
    contract (blockcache.go:20-50); the promise is that the cache is
    indistinguishable from one plain byte array. *)
From Verif Require Import GoBase ListZ Errors BlockCache.

(** ** The storage contract.  [nb s] is the number of blocks the storage has and
    [blk s i] the contents of block i.  A failed fetch may leave anything in the
    buffer; a failed flush may leave anything in the addressed block; a failed
    resize changes nothing; a resize keeps the blocks that remain. *)
Record honest {S} (cb : callbacks S) (bs : Z) (nb : S -> Z) (blk : S -> Z -> list Z) : Prop := {
  h_len : forall s i, 0 <= i < nb s -> zlen (blk s i) = bs;
  h_fetch : forall s i buf s' buf' e, 0 <= i < nb s -> zlen buf = bs ->
    cb_fetch cb s i buf = (s', buf', e) ->
    nb s' = nb s /\ (forall j, 0 <= j < nb s -> blk s' j = blk s j) /\
    zlen buf' = bs /\ (e = None -> buf' = blk s i);
  h_flush : forall s i buf s' e, 0 <= i < nb s -> zlen buf = bs ->
    cb_flush cb s i buf = (s', e) ->
    nb s' = nb s /\ (forall j, 0 <= j < nb s -> j <> i -> blk s' j = blk s j) /\
    (e = None -> blk s' i = buf);
  h_resize : forall s n s' e, 0 <= n -> n * bs < 2^63 -> cb_resize cb s n = (s', e) ->
    match e with
    | None => n <= nb s' /\ forall j, 0 <= j < n -> j < nb s -> blk s' j = blk s j
    | Some _ => nb s' = nb s /\ forall j, 0 <= j < nb s -> blk s' j = blk s j
    end
}.

(* the bytes of the first n blocks *)
Definition storage_bytes {S} (blk : S -> Z -> list Z) (s : S) (n : Z) : list Z :=
  concat (map (fun k => blk s (Z.of_nat k)) (seq 0 (Z.to_nat n))).

(** ** Operations of the public API *)
Inductive op :=
| ORead (start len : Z)                       (* ReadAt with a buffer of len bytes *)
| OWrite (start : Z) (b : list Z)             (* WriteAt *)
| OSlice (start count : Z)                    (* GetSlice *)
| OModify (start count off : Z) (b : list Z)  (* GetSlice, copy b into it at off, MarkBlockRangeDirty *)
| OLoadAll
| OData
| OFlush
| OResize (n : Z).
Inductive res := RBytes (b : list Z) | ROk | RErr (e : kerr).

(* Arguments a Go program can pass (64-bit, buffers shorter than 2^63) on a cache
   that fits in memory; [count] is limited so that count blocks still are an
   addressable number of bytes (see C22 for what happens beyond). *)
Definition op_ok (bs : Z) (o : op) : Prop :=
  match o with
  | ORead start len => 0 <= start < 2^64 /\ 0 <= len < 2^63
  | OWrite start b => 0 <= start < 2^64 /\ zlen b < 2^63
  | OSlice start count => 0 <= start < 2^64 /\ 0 <= count /\ count * bs < 2^63
  | OModify start count off b =>
      0 <= start < 2^64 /\ 0 <= count /\ count * bs < 2^63 /\ 0 <= off /\ off + zlen b <= count * bs
  | OResize n => 0 <= n /\ n * bs < 2^63
  | _ => True
  end.

(** ** The plain array *)
Definition in_bounds (bs : Z) (A : list Z) (start len : Z) : Prop :=
  start * bs < zlen A /\ start * bs + len <= zlen A.
(* the array after a successful operation, and what the operation returns *)
Definition array_step (bs : Z) (A : list Z) (o : op) (r : res) (A' : list Z) : Prop :=
  match o with
  | ORead start len => A' = A /\ in_bounds bs A start len /\ r = RBytes (slice (start * bs) len A)
  | OWrite start b => in_bounds bs A start (zlen b) /\ A' = splice (start * bs) b A /\ r = ROk
  | OSlice start count =>
      A' = A /\ in_bounds bs A start (count * bs) /\ r = RBytes (slice (start * bs) (count * bs) A)
  | OModify start count off b =>
      in_bounds bs A start (count * bs) /\ A' = splice (start * bs + off) b A /\ r = ROk
  | OLoadAll => A' = A /\ r = ROk
  | OData => A' = A /\ r = RBytes A
  | OFlush => A' = A /\ r = ROk
  | OResize n => A' = slice 0 (n * bs) A ++ zrepeat 0 (n * bs - zlen A) /\ r = ROk
  end.
(* a history: successful operations act on the array, failed ones leave it alone *)
Inductive array_run (bs : Z) : list Z -> list op -> list res -> list Z -> Prop :=
| ar_nil A : array_run bs A [] [] A
| ar_ok A o r A1 os rs A2 : (forall e, r <> RErr e) ->
    array_step bs A o r A1 -> array_run bs A1 os rs A2 -> array_run bs A (o :: os) (r :: rs) A2
| ar_err A o e os rs A2 :
    array_run bs A os rs A2 -> array_run bs A (o :: os) (RErr e :: rs) A2.

(** ** Running the model *)
Section Exec.
Context {S : Type} (cb : callbacks S).
Definition err_res (e : option kerr) : res := match e with Some e => RErr e | None => ROk end.
Definition exec_op (s : S) (c : cache) (o : op) : outcome (S * cache * res) :=
  match o with
  | ORead start len =>
      match read_at cb s c (zrepeat 0 len) start with
      | Ret (s', c', b, _, None) => Ret (s', c', RBytes b)
      | Ret (s', c', _, _, Some e) => Ret (s', c', RErr e)
      | Panic => Panic | OutOfFuel => OutOfFuel
      end
  | OWrite start b =>
      match write_at cb s c b start with
      | Ret (s', c', _, e) => Ret (s', c', err_res e)
      | Panic => Panic | OutOfFuel => OutOfFuel
      end
  | OSlice start count =>
      match get_slice cb s c start count with
      | Ret (s', c', inl b) => Ret (s', c', RBytes b)
      | Ret (s', c', inr e) => Ret (s', c', RErr e)
      | Panic => Panic | OutOfFuel => OutOfFuel
      end
  | OModify start count off b =>
      match get_slice cb s c start count with
      | Ret (s', c', inl _) =>
          match mark_dirty (poke c' start off b) start count with
          | Ret (c'', e) => Ret (s', c'', err_res e)
          | Panic => Panic | OutOfFuel => OutOfFuel
          end
      | Ret (s', c', inr e) => Ret (s', c', RErr e)
      | Panic => Panic | OutOfFuel => OutOfFuel
      end
  | OLoadAll =>
      match load_all cb s c with
      | Ret (s', c', e) => Ret (s', c', err_res e)
      | Panic => Panic | OutOfFuel => OutOfFuel
      end
  | OData =>
      match get_data cb s c with
      | Ret (s', c', inl b) => Ret (s', c', RBytes b)
      | Ret (s', c', inr e) => Ret (s', c', RErr e)
      | Panic => Panic | OutOfFuel => OutOfFuel
      end
  | OFlush =>
      match flush_all cb s c with
      | Ret (s', c', e) => Ret (s', c', err_res e)
      | Panic => Panic | OutOfFuel => OutOfFuel
      end
  | OResize n =>
      match resize cb s c n with
      | Ret (s', c', e) => Ret (s', c', err_res e)
      | Panic => Panic | OutOfFuel => OutOfFuel
      end
  end.
Fixpoint exec (s : S) (c : cache) (os : list op) : outcome (S * cache * list res) :=
  match os with
  | [] => Ret (s, c, [])
  | o :: os' =>
      match exec_op s c o with
      | Ret (s1, c1, r) =>
          match exec s1 c1 os' with
          | Ret (s2, c2, rs) => Ret (s2, c2, r :: rs)
          | Panic => Panic | OutOfFuel => OutOfFuel
          end
      | Panic => Panic | OutOfFuel => OutOfFuel
      end
  end.

(** ** Storage accesses *)
Inductive event :=
| EvFetch (i : Z) (ok : bool)
| EvFlush (i : Z) (b : list Z) (ok : bool)
| EvResize (n : Z) (ok : bool).
Definition okb (e : option kerr) : bool := match e with None => true | Some _ => false end.
(* [accesses s evs s']: the callbacks, called as recorded in evs, lead from s to s' *)
Inductive accesses : S -> list event -> S -> Prop :=
| ac_nil s : accesses s [] s
| ac_fetch s i buf s1 buf' e evs s2 : cb_fetch cb s i buf = (s1, buf', e) ->
    accesses s1 evs s2 -> accesses s (EvFetch i (okb e) :: evs) s2
| ac_flush s i buf s1 e evs s2 : cb_flush cb s i buf = (s1, e) ->
    accesses s1 evs s2 -> accesses s (EvFlush i buf (okb e) :: evs) s2
| ac_resize s n s1 e evs s2 : cb_resize cb s n = (s1, e) ->
    accesses s1 evs s2 -> accesses s (EvResize n (okb e) :: evs) s2.
End Exec.
(* a storage that writes down every access, in order *)
Definition logged {S} (cb : callbacks S) : callbacks (S * list event) :=
  mkCb (S * list event)
    (fun st i buf => let '(s', b', e) := cb_fetch cb (fst st) i buf in
                     ((s', snd st ++ [EvFetch i (okb e)]), b', e))
    (fun st i buf => let '(s', e) := cb_flush cb (fst st) i buf in
                     ((s', snd st ++ [EvFlush i buf (okb e)]), e))
    (fun st n => let '(s', e) := cb_resize cb (fst st) n in
                 ((s', snd st ++ [EvResize n (okb e)]), e)).
(* a storage that remembers every state it was ever in (crash points) *)
Definition traced {S} (cb : callbacks S) : callbacks (S * list S) :=
  mkCb (S * list S)
    (fun st i buf => let '(s', b', e) := cb_fetch cb (fst st) i buf in ((s', snd st ++ [s']), b', e))
    (fun st i buf => let '(s', e) := cb_flush cb (fst st) i buf in ((s', snd st ++ [s']), e))
    (fun st n => let '(s', e) := cb_resize cb (fst st) n in ((s', snd st ++ [s']), e)).

(** ** Expected storage traffic
    Next to the array A the specification tracks which blocks are known (fetched or
    created by growth) and which are pending (modified since last written). *)
(* the blocks touched by [len] bytes from block [start] on *)
Definition blocks_of (bs start len : Z) : list Z := zrange start (start + (len + bs - 1) / bs).
(* fetch, in ascending order and once each, the blocks of l that are not known;
   stop at the first failure *)
Definition fetches (K : Z -> bool) (l : list Z) (ok : bool) (evs : list event) : Prop :=
  let need := filter (fun i => negb (K i)) l in
  if ok then evs = map (fun i => EvFetch i true) need
  else exists l1 j l2, need = l1 ++ j :: l2 /\
         evs = map (fun i => EvFetch i true) l1 ++ [EvFetch j false].
(* write, in ascending order and once each, the pending blocks of l *)
Definition flushes (bs : Z) (A : list Z) (P : Z -> bool) (l : list Z) (ok : bool)
    (evs : list event) : Prop :=
  let need := filter P l in
  let w b i := EvFlush i (slice (i * bs) bs A) b in
  if ok then evs = map (w true) need
  else exists l1 j l2, need = l1 ++ j :: l2 /\ evs = map (w true) l1 ++ [w false j].

Definition succeeded (r : res) : bool := match r with RErr _ => false | _ => true end.
(* does the operation stay inside an array of [total] blocks? *)
Definition op_in_bounds (bs : Z) (A : list Z) (o : op) : Prop :=
  match o with
  | ORead start len => in_bounds bs A start len
  | OWrite start b => in_bounds bs A start (zlen b)
  | OSlice start count | OModify start count _ _ => in_bounds bs A start (count * bs)
  | OLoadAll | OData | OFlush => 0 < zlen A          (* see C25 *)
  | OResize _ => True
  end.
(* the storage accesses of an operation that is in bounds *)
Definition traffic (bs : Z) (A : list Z) (K P : Z -> bool) (o : op) (ok : bool)
    (evs : list event) : Prop :=
  match o with
  | ORead start len => fetches K (blocks_of bs start len) ok evs
  | OWrite start b => fetches K (blocks_of bs start (zlen b)) ok evs
  | OSlice start count | OModify start count _ _ => fetches K (zrange start (start + count)) ok evs
  | OLoadAll | OData => fetches K (zrange 0 (zlen A / bs)) ok evs
  | OFlush => flushes bs A P (zrange 0 (zlen A / bs)) ok evs
  | OResize n => evs = [EvResize n ok]
  end.
(* blocks created or modified by a successful operation *)
Definition created (bs : Z) (A : list Z) (o : op) (i : Z) : Prop :=
  match o with OResize n => zlen A / bs <= i < n | _ => False end.
Definition modified (bs : Z) (A : list Z) (o : op) (i : Z) : Prop :=
  match o with
  | OWrite start b => In i (blocks_of bs start (zlen b))
  | OModify start count _ _ => start <= i < start + count
  | _ => created bs A o i
  end.
Record view := mkView { vA : list Z; vK : Z -> bool; vP : Z -> bool }.
Definition io_step (bs : Z) (v : view) (o : op) (r : res) (evs : list event) (v' : view) : Prop :=
  (* contents and result *)
  match r with
  | RErr e =>
      vA v' = vA v /\
      ((~ op_in_bounds bs (vA v) o /\ e = K ErrArgumentOutOfRange /\ evs = []) \/
       (op_in_bounds bs (vA v) o /\ traffic bs (vA v) (vK v) (vP v) o false evs))
  | _ =>
      array_step bs (vA v) o r (vA v') /\ op_in_bounds bs (vA v) o /\
      traffic bs (vA v) (vK v) (vP v) o true evs
  end /\
  (* known and pending blocks *)
  forall i, 0 <= i < zlen (vA v') / bs ->
    (vK v' i = true <->
       vK v i = true /\ i < zlen (vA v) / bs \/ In (EvFetch i true) evs \/
       succeeded r = true /\ created bs (vA v) o i) /\
    (vP v' i = true <->
       vP v i = true /\ i < zlen (vA v) / bs /\ ~ (exists b, In (EvFlush i b true) evs) \/
       succeeded r = true /\ modified bs (vA v) o i).
Inductive io_run (bs : Z) : view -> list op -> list res -> list (list event) -> view -> Prop :=
| io_nil v : io_run bs v [] [] [] v
| io_cons v o r evs v1 os rs evss v2 : io_step bs v o r evs v1 ->
    io_run bs v1 os rs evss v2 -> io_run bs v (o :: os) (r :: rs) (evs :: evss) v2.

(** ** What the cache holds, and the states a program can bring it into *)
(* block i of the contents: the cached copy if there is one, else the stored block *)
Definition content_block {S} (blk : S -> Z -> list Z) (s : S) (c : cache) (i : Z) : list Z :=
  if znth false (loaded c) i then slice (i * bpb c) (bpb c) (data c) else blk s i.
Definition contents {S} (blk : S -> Z -> list Z) (s : S) (c : cache) : list Z :=
  concat (map (fun k => content_block blk s c (Z.of_nat k)) (seq 0 (Z.to_nat (total c)))).
(* (s, c) is reachable from storage s0 and a fresh cache of total0 blocks *)
Definition reachable {S} (cb : callbacks S) (bs : Z) (nb : S -> Z) (s0 : S) (total0 : Z)
    (s : S) (c : cache) : Prop :=
  0 < bs /\ 0 <= total0 <= nb s0 /\ bs * total0 < 2^63 /\
  exists os rs, Forall (op_ok bs) os /\ exec cb s0 (new_cache bs total0) os = Ret (s, c, rs).

(** ** Crash model (C19): blocks are written atomically, growing a storage adds
    zeroed blocks, failures change nothing. *)
Record atomic {S} (cb : callbacks S) (bs : Z) (nb : S -> Z) (blk : S -> Z -> list Z) : Prop := {
  a_fetch : forall s i buf s' buf' e, cb_fetch cb s i buf = (s', buf', e) ->
    nb s' = nb s /\ forall j, 0 <= j < nb s -> blk s' j = blk s j;
  a_flush : forall s i buf s' e, 0 <= i < nb s -> zlen buf = bs -> cb_flush cb s i buf = (s', e) ->
    nb s' = nb s /\ forall j, 0 <= j < nb s ->
      blk s' j = match e with None => if j =? i then buf else blk s j | Some _ => blk s j end;
  a_resize : forall s n s' e, 0 <= n -> cb_resize cb s n = (s', e) ->
    match e with
    | None => forall j, 0 <= j < nb s' ->
        if j <? nb s then blk s' j = blk s j else j < n /\ blk s' j = zrepeat 0 bs
    | Some _ => nb s' = nb s /\ forall j, 0 <= j < nb s -> blk s' j = blk s j
    end
}.
(* the array contents at some operation boundary of the history os (with results rs) *)
Definition visited (bs : Z) (A0 : list Z) (os : list op) (rs : list res) (A : list Z) : Prop :=
  exists os1 os2 rs1 rs2, os = os1 ++ os2 /\ rs = rs1 ++ rs2 /\ array_run bs A0 os1 rs1 A.
(* blocks successfully fetched, in order *)
Definition fetched (evs : list event) : list Z :=
  flat_map (fun e => match e with EvFetch i true => [i] | _ => [] end) evs.
