(** * Conformance: the unit tests of the repository, run on the model.

    These are tests of the model, not properties: each Example is one of the repository's own test cases with the
    values it expects.  Random inputs are replaced by [noise]. *)
From Coq Require Import String.
From Verif Require Import GoBase ListZ Errors Flags Rle Image BlockCache BasicStream CmdTools GoPath Spec_Path OsFile Fat8 Fat8Same Spec_BlockCache Props_Tools.

(* fixed bytes without pattern *)
Fixpoint noise_from (x : Z) (n : nat) : list Z :=
  match n with O => [] | S n' => let y := (x * 1103515245 + 12345) mod 2^31 in y / 65536 mod 256 :: noise_from y n' end.
Definition noise (n : Z) : list Z := noise_from 1 (Z.to_nat n).

(** ** utilities/compression/rle8_test.go *)
Definition compressed_to (input : list Z) : option (Z * list Z) :=
  match compress_rle8 (mkReader input REOF) (mkWriter [] []) with
  | Ret (mkRes n None w) => Some (n, wout w) | _ => None
  end.
(* rle8_test.go:22-54, 97-112 *)
Example t_compress : forallb (fun c => match compressed_to (fst c) with Some (n, out) => (n =? zlen (snd c)) && beqb out (snd c) | None => false end)
  [([], []); ([4; 4], [4; 4; 0]); ([0; 1; 2; 3; 4], [0; 1; 2; 3; 4]); ([6; 1; 3; 0; 0], [6; 1; 3; 0; 0; 0]); ([6; 1; 0; 0; 0], [6; 1; 0; 0; 1]);
   ([9; 5; 5; 5; 5; 5; 3; 7], [9; 5; 5; 3; 3; 7]); ([9; 5; 5; 5; 5; 5; 5; 3; 3; 3; 3; 7; 2; 6], [9; 5; 5; 4; 3; 3; 2; 7; 2; 6]);
   (zrepeat 5 1024, [5; 5; 255; 5; 5; 255; 5; 5; 255; 5; 5; 251]); (zrepeat 8 257, [8; 8; 255]); (zrepeat 8 258, [8; 8; 255; 8]); (zrepeat 8 259, [8; 8; 255; 8; 8; 0])] = true.
Proof. vm_compute. reflexivity. Qed.
(* rle8_test.go:66-84, 114-140 *)
Definition round_trip (input : list Z) : bool :=
  match compressed_to input with
  | Some (n, out) =>
      match decompress_rle8 (mkReader (slice 0 n out) REOF) (mkWriter [] []) with
      | mkRes m None w => (m =? zlen input) && beqb (wout w) input | _ => false
      end
  | None => false
  end.
Example t_round_trip : forallb round_trip [noise 80; zrepeat 0 571; zrepeat 182 934; []] = true.
Proof. vm_compute. reflexivity. Qed.
(* rle8_test.go:86-94 *)
Example t_missing_count : rerr (decompress_rle8 (mkReader [9; 1; 4; 4] REOF) (mkWriter [] [])) = Some EUnexpectedEOF.
Proof. reflexivity. Qed.

(** ** utilities/compression/rle_grouper_test.go *)
Fixpoint runs (n : nat) (r : reader) : list (Z * Z * gerr) :=
  match n with O => [] | S n' => let '(b, e, r') := get_next_run r in (rbyte b, rlen b, e) :: runs n' r' end.
(* InvalidRLERun is the zero ByteRun; rle_grouper_test.go:53-70 *)
Example t_first_run : map (fun d => let '(b, _, _) := get_next_run (mkReader d REOF) in (rbyte b, rlen b))
  [[]; [0; 0; 1; 0; 0; 0; 0]; [6; 1; 5; 20; 31]; [9; 9; 9; 9; 9; 9]] = [(0, 0); (0, 2); (6, 1); (9, 6)].
Proof. reflexivity. Qed.
(* rle_grouper_test.go:80-134; the error that comes with the last run is not looked at by the test *)
Example t_all_runs : map (fun c => map fst (runs (fst c) (mkReader (snd c) REOF)))
  [(1%nat, []); (8%nat, [1; 9; 4; 4; 4; 4; 4; 6; 6; 0; 1; 0; 0; 0]); (3%nat, [1; 1; 1; 127]); (3%nat, [127; 127; 1; 1; 1]); (4%nat, [127; 127; 1; 1; 1; 1; 3])] =
  [[(0, 0)]; [(1, 1); (9, 1); (4, 5); (6, 2); (0, 1); (1, 1); (0, 3); (0, 0)]; [(1, 3); (127, 1); (0, 0)]; [(127, 2); (1, 3); (0, 0)]; [(127, 2); (1, 4); (3, 1); (0, 0)]].
Proof. reflexivity. Qed.
Example t_runs_end : map (fun c => last (map snd (runs (fst c) (mkReader (snd c) REOF))) GNil)
  [(1%nat, []); (8%nat, [1; 9; 4; 4; 4; 4; 4; 6; 6; 0; 1; 0; 0; 0]); (3%nat, [1; 1; 1; 127])] = [GEOF; GEOF; GEOF].
Proof. reflexivity. Qed.
(* rle_grouper_test.go:145-206 *)
Example t_reader_fails : runs 1 (mkReader [] (RFail 7)) = [(0, 0, GErr 7)] /\
  runs 3 (mkReader [1; 1; 1; 2; 2; 3] (RFail 7)) = [(1, 3, GNil); (2, 2, GNil); (0, 0, GErr 7)] /\
  runs 2 (mkReader [1; 1; 1; 2; 2] (RFail 7)) = [(1, 3, GNil); (0, 0, GErr 7)].
Proof. repeat split. Qed.

(** ** utilities/compression/compression_test.go, with the codec [store] for gzip *)
Definition image_round_trip (input : list Z) : bool :=
  match compress_image store (mkReader input REOF) (mkWriter [] []) with
  | Ret (n, None, w) =>
      (n =? zlen (wout w)) &&
      match decompress_image store (slice 0 n (wout w)) (mkWriter [] []) with
      | (m, None, w') => (m =? zlen input) && beqb (wout w') input | _ => false
      end &&
      match decompress_image_to_bytes store (wout w) with inl b => beqb b input | inr _ => false end
  | _ => false
  end.
Example t_image : forallb image_round_trip [zrepeat 100 917; []; noise 119] = true.
Proof. vm_compute. reflexivity. Qed.

(** ** errors_test.go *)
Example t_with_message : let e := with_message (sentinel_err ErrBlockDeviceRequired) "asdfqwerty"%string in
  error_text e = "Block device required: asdfqwerty"%string /\ errors_is e (sentinel_err ErrBlockDeviceRequired) = true.
Proof. split; reflexivity. Qed.
Example t_wrap : let original := EForeign 1 "original error"%string None in
  exists e, wrap 2 (sentinel_err ErrExists) (Some original) = Ret e /\ error_text e = "File exists: original error"%string /\
    errors_is e original = true /\ errors_is e (sentinel_err ErrExists) = true.
Proof. eexists. split; [reflexivity|]. repeat split. Qed.

(** ** file_systems/fat8/common_test.go *)
Example t_geometry : (exists e, get_geometry 719 = inr e) /\
  exists big small, get_geometry 2002 = inl big /\ get_geometry 1898 = inl small /\ TrueTotalTracks big = 77 /\ TrueTotalTracks small = 73 /\
    TotalTracks big <= TrueTotalTracks big /\
    let zeroed g := mkGeo (TotalTracks g) 0 (TotalClusters g) (SectorsPerTrack g) (SectorsPerFAT g) (SectorsPerCluster g) (BytesPerCluster g)
      (DirectoryTrackNumber g) (DirectoryTrackStart g) (InfoSectorStart g) (FATsStart g) in zeroed big = zeroed small.
Proof. split; [eexists; reflexivity|]. do 2 eexists. split; [reflexivity|]. split; [reflexivity|]. repeat split; vm_compute; congruence. Qed.
Definition name_tests : list (list Z * list Z) :=
  [(B "qwerty.txt", B "QWERTYTXT"); (B "aSdF.g", B "ASDF  G  "); (B "noext", B "NOEXT    "); (B "a B.C", B "A B   C  ")].
Example t_serialize : map (fun t => filename_to_bytes (fst t)) name_tests = map (fun t => inl (snd t)) name_tests.
Proof. reflexivity. Qed.
(* strings.EqualFold on ASCII *)
Example t_deserialize : forallb (fun t => match bytes_to_filename (snd t) with Ret n => beqb (to_upper n) (to_upper (fst t)) | _ => false end) name_tests = true.
Proof. reflexivity. Qed.
Example t_empty_name : exists e, filename_to_bytes [] = inr e.
Proof. eexists. reflexivity. Qed.

(** ** file_systems/common/blockcache/blockcache_test.go, with smaller blocks where only the proportions matter *)
(* blockcache_test.go:17-33 *)
Example t_fetch : let img := noise 128 in exists s c,
  exec (test_cb 16 8 false) (img, false) (new_cache 16 8) (map (fun i => ORead (Z.of_nat i) 16) (seq 0 8)) =
  Ret (s, c, map (fun i => RBytes (slice (16 * Z.of_nat i) 16 img)) (seq 0 8)) /\ snd s = false.
Proof. do 2 eexists. split; vm_compute; reflexivity. Qed.
(* blockcache_test.go:36-71: 16 blocks of 8 bytes *)
Example t_read_past_end : let read len start := match read_at (test_cb 8 16 false) (noise 128, false) (new_cache 8 16) (zrepeat 0 len) start with
    | Ret (_, _, _, n, e) => Some (n, okb e) | _ => None end in
  map (fun a => read (fst a) (snd a)) [(8, 0); (8, 15); (8, 16); (0, 16); (128, 0); (129, 0)] =
  [Some (8, true); Some (8, true); Some (0, false); Some (0, false); Some (128, true); Some (0, false)].
Proof. vm_compute. reflexivity. Qed.
(* blockcache_test.go:75-100 *)
Example t_write : let bufs := map (fun i => noise_from (Z.of_nat i) 8) (seq 0 16) in exists s c,
  exec (test_cb 8 16 true) (noise 128, false) (new_cache 8 16)
    (concat (map (fun i => [OWrite (Z.of_nat i) (nth i bufs []); ORead (Z.of_nat i) 8]) (seq 0 16))) =
  Ret (s, c, concat (map (fun b => [ROk; RBytes b]) bufs)) /\ snd s = false.
Proof. do 2 eexists. split; vm_compute; reflexivity. Qed.
Example t_write_past_end : exists c s, write_at (test_cb 8 16 true) (noise 128, false) (new_cache 8 16) (noise 8) 16 = Ret (s, c, 0, Some (K ErrArgumentOutOfRange)).
Proof. do 2 eexists. vm_compute. reflexivity. Qed.
(* blockcache_test.go:110-180 *)
Example t_check_bounds : map (fun a => match check_bounds (mkCache 512 256 [] [] []) (fst a) (snd a) with Ret e => Some e | _ => None end)
  [(0, 0); (0, 256); (1, 512 * 256); (255, 512); (256, 0); (255, 512); (255, 513)] =
  [Some None; Some None; Some (Some (K ErrArgumentOutOfRange)); Some None; Some (Some (K ErrArgumentOutOfRange)); Some None; Some (Some (K ErrArgumentOutOfRange))].
Proof. reflexivity. Qed.
(* blockcache_test.go:189-240 *)
Example t_min_blocks : map (min_blocks (wrap_slice 64 (zrepeat 0 (64 * 32)))) [1; 63; 65; 2048; 4097] = map Ret [1; 1; 2; 32; 65].
Proof. vm_compute. reflexivity. Qed.
(* blockcache_test.go:244-261: five blocks from block 12 of 16 *)
Example t_write_overlapping : let img := noise 128 in exists s c,
  exec (test_cb 8 16 true) (img, false) (new_cache 8 16) [OData; OWrite 12 (noise 40); OData] = Ret (s, c, [RBytes img; RErr (K ErrArgumentOutOfRange); RBytes img]).
Proof. do 2 eexists. vm_compute. reflexivity. Qed.

(** ** file_systems/common/basicstream/basicstream_test.go *)
(* a stream over a default cache; what a Read of len bytes at the present position gives *)
Definition opened (bs total : Z) : option stream :=
  match s_new (test_cb bs total false) (noise (bs * total), false) (bs * total) (new_cache bs total) O_RDONLY with
  | Ret (_, st, None) => st | _ => None
  end.
Definition reads (bs total pos len : Z) : option (list Z * Z * option kerr * Z) :=
  match opened bs total with
  | Some st =>
      match s_seek st pos 0 with
      | (st1, _, None) =>
          match s_read (test_cb bs total false) (noise (bs * total), false) st1 (zrepeat 0 len) with
          | Ret (_, st2, b, n, e) => Some (b, n, e, spos st2)
          | _ => None
          end
      | _ => None
      end
  | None => None
  end.
(* basicstream_test.go:26-67 *)
Example t_read_all : option_map spos (opened 16 8) = Some 0 /\ reads 16 8 0 128 = Some (noise 128, 128, None, 128).
Proof. split; vm_compute; reflexivity. Qed.
Example t_less_than_one_block : reads 128 1 0 39 = Some (slice 0 39 (noise 128), 39, None, 39).
Proof. vm_compute. reflexivity. Qed.
(* basicstream_test.go:71-118, with blocks of 8 bytes *)
Example t_seek_start : forallb (fun len => forallb (fun pos =>
    match reads 8 12 pos len with
    | Some (b, n, None, p) => beqb b (slice pos len (noise 96)) && (n =? len) && (p =? pos + len)
    | _ => false
    end) [0; 8; 5; 19]) [1; 5; 8; 51] = true.
Proof. vm_compute. reflexivity. Qed.
(* basicstream_test.go:121-181 *)
Fixpoint hops (st : stream) (l : list (Z * Z)) : list Z :=
  match l with
  | [] => []
  | (off, whence) :: l' => match s_seek st off whence with
                           | (st', p, None) => (if p =? spos st' then p else -1) :: hops st' l'
                           | _ => [-2]
                           end
  end.
Example t_jumping : option_map (fun st => hops st [(10, 0); (-3, 1); (0, 1); (30, 1); (-39, 2); (102, 1); (-17, 1); (0, 0)]) (opened 128 8) =
  Some [10; 7; 7; 37; 1024 - 39; 1024 - 39 + 102; 1024 - 39 + 102 - 17; 0].
Proof. vm_compute. reflexivity. Qed.
(* basicstream_test.go:183-242, one sequence of read sizes, blocks of 16 bytes *)
Fixpoint read_seq (s : list Z * bool) (st : stream) (sizes : list Z) : list (list Z) :=
  match sizes with
  | [] => []
  | n :: sizes' => match s_read (test_cb 16 8 false) s st (zrepeat 0 n) with
                   | Ret (s', st', b, m, None) => if (m =? n) then b :: read_seq s' st' sizes' else []
                   | _ => []
                   end
  end.
Example t_read_basic : option_map (fun st => concat (read_seq (noise 128, false) st [50; 0; 25; 16; 1; 25; 10])) (opened 16 8) = Some (slice 0 127 (noise 128)).
Proof. vm_compute. reflexivity. Qed.
