(** * CacheSlices: the slices handed out by GetSlice and Data (blockcache.go:257-283), as memory.

    The cache's bytes live in an array; Resize (blockcache.go:433-467) makes a new one and leaves the old one to
    whoever still holds slices of it.  Arrays are numbered; number [cur] is cache.data. *)
From Verif Require Import GoBase ListZ Errors BlockCache Spec_BlockCache.

(* array number, offset and length; the capacity of cache.data[lo:hi] is that of cache.data, from lo on *)
Record handle := mkHandle { h_arr : nat; h_off : Z; h_len : Z }.
Record mem := mkMem { m_cache : cache; m_cur : nat; m_old : nat -> list Z }.
Definition array_of (m : mem) (a : nat) : list Z := if Nat.eqb a (m_cur m) then data (m_cache m) else m_old m a.
Definition set_array (m : mem) (a : nat) (d : list Z) : mem :=
  if Nat.eqb a (m_cur m) then mkMem (mkCache (bpb (m_cache m)) (total (m_cache m)) (loaded (m_cache m)) (dirty (m_cache m)) d) (m_cur m) (m_old m)
  else mkMem (m_cache m) (m_cur m) (fun j => if Nat.eqb j a then d else m_old m j).
(* the array is replaced exactly by a successful Resize *)
Definition after_op (m : mem) (o : op) (r : res) (c' : cache) : mem :=
  match o, r with
  | OResize _, ROk => mkMem c' (S (m_cur m)) (fun j => if Nat.eqb j (m_cur m) then data (m_cache m) else m_old m j)
  | _, _ => mkMem c' (m_cur m) (m_old m)
  end.

(* what a program does with a cache and the slices it got from it *)
Inductive act :=
| AOp (o : op)                              (* any operation of Spec_BlockCache *)
| AGet (start count : Z)                    (* keep the result of GetSlice as the next handle *)
| AData                                     (* keep the result of Data *)
| ARead (h : nat)                           (* read the bytes of handle h *)
| AWrite (h : nat) (off : Z) (b : list Z)   (* copy(slice[off:], b), where b fits *)
| AMark (start count : Z).                  (* MarkBlockRangeDirty *)
Section Run.
Context {T : Type} (cb : callbacks T).
Definition act_step (t : T) (m : mem) (hs : list handle) (a : act) : outcome (T * mem * list handle * res) :=
  match a with
  | AOp o =>
      match exec_op cb t (m_cache m) o with
      | Ret (t', c', r) => Ret (t', after_op m o r c', hs, r)
      | Panic => Panic | OutOfFuel => OutOfFuel
      end
  | AGet start count =>
      match get_slice cb t (m_cache m) start count with
      | Ret (t', c', inl b) => Ret (t', mkMem c' (m_cur m) (m_old m), hs ++ [mkHandle (m_cur m) (start * bpb c') (zlen b)], RBytes b)
      | Ret (t', c', inr e) => Ret (t', mkMem c' (m_cur m) (m_old m), hs, RErr e)
      | Panic => Panic | OutOfFuel => OutOfFuel
      end
  | AData =>
      match get_data cb t (m_cache m) with
      | Ret (t', c', inl b) => Ret (t', mkMem c' (m_cur m) (m_old m), hs ++ [mkHandle (m_cur m) 0 (zlen b)], RBytes b)
      | Ret (t', c', inr e) => Ret (t', mkMem c' (m_cur m) (m_old m), hs, RErr e)
      | Panic => Panic | OutOfFuel => OutOfFuel
      end
  | ARead k =>
      match nth_error hs k with
      | Some h => Ret (t, m, hs, RBytes (slice (h_off h) (h_len h) (array_of m (h_arr h))))
      | None => Ret (t, m, hs, ROk)
      end
  | AWrite k off b =>
      match nth_error hs k with
      | Some h => Ret (t, set_array m (h_arr h) (splice (h_off h + off) b (array_of m (h_arr h))), hs, ROk)
      | None => Ret (t, m, hs, ROk)
      end
  | AMark start count =>
      match mark_dirty (m_cache m) start count with
      | Ret (c', e) => Ret (t, mkMem c' (m_cur m) (m_old m), hs, err_res e)
      | Panic => Panic | OutOfFuel => OutOfFuel
      end
  end.
Fixpoint act_run (t : T) (m : mem) (hs : list handle) (acts : list act) : outcome (T * mem * list handle * list res) :=
  match acts with
  | [] => Ret (t, m, hs, [])
  | a :: acts' =>
      match act_step t m hs a with
      | Ret (t1, m1, hs1, r) =>
          match act_run t1 m1 hs1 acts' with
          | Ret (t2, m2, hs2, rs) => Ret (t2, m2, hs2, r :: rs)
          | Panic => Panic | OutOfFuel => OutOfFuel
          end
      | Panic => Panic | OutOfFuel => OutOfFuel
      end
  end.
(* append(slice, b...): in place while the capacity lasts, else a copy (which is of no concern to the cache) *)
Definition append_to (m : mem) (h : handle) (b : list Z) : mem :=
  let d := array_of m (h_arr h) in
  if h_off h + h_len h + zlen b <=? zlen d then set_array m (h_arr h) (splice (h_off h + h_len h) b d) else m.
End Run.
Definition new_mem (bs n : Z) : mem := mkMem (new_cache bs n) 0 (fun _ => []).
