(** * Disks: model of disks/disks.go and disks/disk-geometries.csv, and of api.go:508-516. *)
From Coq Require Import String.
From Verif Require Import GoBase ListZ Errors GoPath Spec_Path.

(* disks.go:33-57; the name, form factor and notes are omitted (nothing uses them) *)
Record geometry := mkGeo {
  g_slug : list Z; g_year : Z; g_removable : Z; g_bits : Z; g_units : Z; g_sectors : Z; g_tracks : Z; g_hidden : Z; g_heads : Z }.
Definition zero_geometry : geometry := mkGeo [] 0 0 0 0 0 0 0 0.

(* disks.go:61-69: a product of uints (64 bit), taken as int64; division and remainder truncate *)
Definition GeometrySizeBytes (g : geometry) : Z :=
  let bits := i64 (u64 (u64 (u64 (u64 (g_bits g * g_units g) * g_sectors g) * g_tracks g) * g_heads g)) in
  if Z.rem bits 8 =? 0 then Z.quot bits 8 else i64 (Z.quot bits 8 + 1).

(* disks.go:89-123, after the CSV decoder (Csv.v) has produced the rows: the map as a list of rows *)
Fixpoint find_slug (slug : list Z) (m : list geometry) : option geometry :=
  match m with
  | [] => None
  | g :: m' => if beqb (g_slug g) slug then Some g else find_slug slug m'
  end.
Fixpoint init_loop (rows m : list geometry) : outcome (list geometry) :=
  match rows with
  | [] => Ret m
  | row :: rows' =>
      match find_slug (g_slug row) m with
      | Some _ => Panic
      | None => init_loop rows' (row :: m)
      end
  end.
Definition init_geometries (rows : list geometry) : outcome (list geometry) := init_loop rows [].
(* disks.go:79-87; [KExt 0] stands for the fmt.Errorf *)
Definition GetPredefinedDiskGeometry (m : list geometry) (slug : list Z) : geometry * option kerr :=
  match find_slug slug m with Some g => (g, None) | None => (zero_geometry, Some (KExt 0)) end.

(* api.go:513-516 FSStat.TotalSizeBytes; BlockSize is a uint, TotalBlocks a uint64 *)
Definition FSStatSizeBytes (blockSize totalBlocks : Z) : Z := i64 (i64 blockSize * i64 totalBlocks).

(* disk-geometries.csv:2-35 *)
Definition disk_rows : list geometry := [
  mkGeo (B "ibm_23fd") 1971 1 8 319 8 32 0 1;
  mkGeo (B "ibm_33fd_242k") 1973 1 8 128 26 73 0 1;
  mkGeo (B "ibm_33fd_284k") 1973 1 8 256 15 74 1 1;
  mkGeo (B "ibm_33fd_303k") 1973 1 8 512 8 74 1 1;
  mkGeo (B "ibm_43fd_492k") 1976 1 8 128 26 74 1 2;
  mkGeo (B "ibm_43fd_568k") 1976 1 8 256 15 74 1 2;
  mkGeo (B "ibm_53fd_985k") 1977 1 8 256 26 74 1 2;
  mkGeo (B "ibm_53fd_1136k") 1977 1 8 512 15 74 1 2;
  mkGeo (B "ibm_53fd_1212k") 1977 1 8 1024 8 74 1 2;
  mkGeo (B "dec_rx01") 1975 1 8 128 26 77 0 1;
  mkGeo (B "dec_rx02") 1978 1 8 256 26 77 0 1;
  mkGeo (B "rk05") 1974 1 16 256 12 200 3 2;
  mkGeo (B "ibm_3740") 1973 1 8 128 26 73 0 1;
  mkGeo (B "msdos_8in_ss_sd") 1981 1 8 128 26 77 0 1;
  mkGeo (B "msdos_8in_ds_sd") 1981 1 8 128 26 77 0 2;
  mkGeo (B "msdos_8in_ss_dd") 1981 1 8 1024 8 77 0 1;
  mkGeo (B "msdos_8in_ds_dd") 1981 1 8 1024 8 77 0 2;
  mkGeo (B "msdos_514in_ss_dd_8") 1981 1 8 512 8 40 0 1;
  mkGeo (B "msdos_514in_ds_dd_8") 1981 1 8 512 8 40 0 2;
  mkGeo (B "msdos_514in_ss_dd_9") 1981 1 8 512 9 40 0 1;
  mkGeo (B "msdos_514in_ds_dd_9") 1981 1 8 512 9 40 0 2;
  mkGeo (B "msdos_514in_ss_qd") 1981 1 8 512 8 80 0 1;
  mkGeo (B "msdos_514in_ds_qd") 1981 1 8 512 8 80 0 2;
  mkGeo (B "msdos_514in_ds_hd") 1981 1 8 512 15 80 0 2;
  mkGeo (B "msdos_312in_ss_dd_8") 1983 1 8 512 8 80 0 1;
  mkGeo (B "msdos_312in_ss_dd_9") 1983 1 8 512 9 80 0 1;
  mkGeo (B "msdos_312in_ds_dd_8") 1984 1 8 512 8 80 0 2;
  mkGeo (B "msdos_312in_ds_dd_9") 1984 1 8 512 9 80 0 2;
  mkGeo (B "msdos_312in_ds_hd_18") 1986 1 8 512 18 80 0 2;
  mkGeo (B "msdos_312in_ds_hd_21_80") 1986 1 8 512 21 80 0 2;
  mkGeo (B "msdos_312in_ds_hd_21_82") 1986 1 8 512 21 82 0 2;
  mkGeo (B "msdos_312in_ds_ed") 1986 1 8 512 36 80 0 2;
  mkGeo (B "st_506") 1980 0 8 256 26 153 0 4;
  mkGeo (B "St_412") 1981 0 8 256 26 306 0 4].
