(** * Spec_Fat8: what the FAT8 properties are about. *)
From Verif Require Import GoBase Errors Flags GoPath OsFile Fat8.

(* a device on which every operation works *)
Definition healthy (f : osfile) : Prop := faults f = [].
(* byte [p] of a file; beyond its end there is nothing, shown as zero *)
Definition byte_at (f : osfile) (p : Z) : Z := znth 0 (contents f) p.
(* the blocks [start .. start+count-1] of an image *)
Definition blocks_of (f : osfile) (start count : Z) : list Z := slice (128 * start) (128 * count) (contents f).
(* FAT copy number [k] = 0, 1, 2 *)
Definition fat_copy (g : geometry) (f : osfile) (k : Z) : list Z :=
  blocks_of f (FATsStart g + k * SectorsPerFAT g) (SectorsPerFAT g).
Definition fat_end (g : geometry) : Z := FATsStart g + 3 * SectorsPerFAT g.
(* cluster numbers start at 1; a cluster is [SectorsPerCluster] consecutive sectors *)
Definition cluster_of (g : geometry) (f : osfile) (c : Z) : list Z :=
  blocks_of f ((c - 1) * SectorsPerCluster g) (SectorsPerCluster g).
Definition sector_in_cluster (g : geometry) (s c : Z) : Prop :=
  (c - 1) * SectorsPerCluster g <= s < c * SectorsPerCluster g.
Definition sector_in_directory (g : geometry) (s : Z) : Prop :=
  DirectoryTrackStart g <= s < DirectoryTrackStart g + SectorsPerTrack g.

(** ** Histories *)
Inductive op8 :=
| OFormat (size : Z) | OMount | OFlush | OUnmount
| OReadBlocks (start count : Z) | OWriteBlocks (start : Z) (data : list Z)
| OReadCluster (c : Z) | OWriteCluster (c : Z) (data : list Z) | OGetFAT
| OStat (path : list Z).
(* arguments in the range of their Go types *)
Definition uint (x : Z) : Prop := 0 <= x < 2^64.
Definition op_ok (o : op8) : Prop :=
  match o with
  | OFormat size => - 2^63 <= size < 2^63
  | OReadBlocks s c => uint s /\ uint c
  | OWriteBlocks s data => uint s /\ zlen data < 2^63
  | OReadCluster c => uint c
  | OWriteCluster c data => uint c /\ zlen data < 2^63
  | _ => True
  end.
Definition step8 (d : driver8) (f : osfile) (o : op8) : outcome (driver8 * osfile) :=
  match o with
  | OFormat size => obind (format8 d f size) (fun r => Ret (fst r))
  | OMount => obind (mount8 d f) (fun r => Ret (fst r))
  | OFlush => Ret (d, fst (flush8 d f))
  | OUnmount => Ret (unmount8 d, f)
  | OReadBlocks s c => obind (read_blocks d f s c) (fun r => Ret (d, fst r))
  | OWriteBlocks s data => Ret (d, fst (write_blocks d f s data))
  | OReadCluster c => obind (read_cluster d f c) (fun r => Ret (d, fst r))
  | OWriteCluster c data => Ret (d, fst (write_cluster d f c data))
  | OGetFAT => obind (get_fat d f) (fun r => Ret (d, fst r))
  | OStat _ => Ret (d, f)
  end.
Fixpoint run8 (d : driver8) (f : osfile) (os : list op8) : outcome (driver8 * osfile) :=
  match os with
  | [] => Ret (d, f)
  | o :: os' => obind (step8 d f o) (fun r => run8 (fst r) (snd r) os')
  end.
(* a driver and its image after some history, starting with a new driver on any image *)
Definition reachable (d : driver8) (f : osfile) : Prop :=
  exists f0 os, Forall op_ok os /\ run8 new_driver f0 os = Ret (d, f).
(* the same, on a device that never failed *)
Definition reachable_healthy (d : driver8) (f : osfile) : Prop :=
  exists f0 os, healthy f0 /\ Forall op_ok os /\ run8 new_driver f0 os = Ret (d, f).

(** ** Names *)
Definition ascii (s : list Z) : Prop := Forall (fun c => 0 <= c < 128) s.
Definition blank (s : list Z) : Prop := Forall (fun c => c = 32) s.
(* [s] without its trailing blanks *)
Definition trimmed (s t : list Z) : Prop := exists b, s = t ++ b /\ blank b /\ (forall u, t <> u ++ [32]).
(* the part before the first period and, if there is a period, the part after it *)
Inductive parts : list Z -> list Z -> option (list Z) -> Prop :=
| parts_none s : ~ In 46 s -> parts s s None
| parts_some s e : ~ In 46 s -> parts (s ++ 46 :: e) s (Some e).
(* upper case, in ASCII *)
Definition capital (c : Z) : Z := if (97 <=? c) && (c <=? 122) then c - 32 else c.
(* a driver that knows the size of its image: after FormatImage, or mounted *)
Definition ready (d : driver8) (f : osfile) : Prop :=
  healthy f /\ get_geometry (TotalBlocks (st8 d)) = inl (geo d) /\ 128 * TotalBlocks (st8 d) <= zlen (contents f).
