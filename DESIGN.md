# Formal model of dargueta/disko in Coq 8.16.1

Status of each property: `MANIFEST.json` (and the table in section 5, generated by
`tools/gen_design.py`). This file says what is modelled, how it is proved, what is
trusted and what is out of scope.

## 1. Approach

Every modelled Go function becomes a total Gallina function, in the same order
of tests and effects as the source, with a comment citing file and lines.

* **Panics, infinite loops.** `outcome A := Ret a | Panic | OutOfFuel` (the driver
  monads have `Crash`/`Spin`). A Go run-time panic (nil dereference, slice bounds,
  division by zero, type assertion, misuse of a library call) is `Panic`. Loops that
  are not structurally bounded carry fuel; `OutOfFuel` is never a normal-looking
  value: theorems exclude it or, for non-termination findings, prove `OutOfFuel` for
  *every* amount of fuel.
* **Integers.** Unbounded `Z` with explicit wrap (`u64 x = x mod 2^64`, ...) at
  every operation where the Go type can wrap and the result matters. The
  platform is 64 bit (`int`/`uint` are 64 bits wide).
* **Errors** are values: a structural type of sentinel / wrapped / foreign
  errors mirroring errors.go.
* **I/O.** Readers, writers, storage callbacks and `io.ReadWriteSeeker`s are
  explicit states with *arbitrary* failure behaviour (a fault tape or a
  quantified callback obeying a stated contract).
* **Specs** (`Spec_*.v`) are small and do not use the model's helpers.
* **Property theorems** live in `Props_*.v`, with `Print Assumptions` and
  non-vacuity `Example`s beside them; everything else is support.

A property which the code as written violates is kept at full strength in
`properties.jsonl`; its theorem is named `..._refuted` (a witness, or a universal
negative), accompanied by the exact characterisation of what the code does and
the strongest true positive part, named `..._partial`.

### Repaired variants

Several bugs are so total that nothing further could be said about the surrounding
code (every call panics). There the model has a parameter whose one value is the code
as it is and whose other value is the code with that one line repaired. Every theorem
says which one it is about: theorems about the real code fix the parameter to the
as-is value (or quantify over all values).

| Parameter | As the code is | Repaired |
|---|---|---|
| `wmode` (`Driver.v`) | `AsIs`: driver/fsobject.go never stores the handle, every method but AbsolutePath dereferences nil | `Embedded`: handle stored, optional interfaces still hidden; `Full`: everything forwarded |
| `settable` (`FatBoot.v`) | `false`: `binary.Read` into a struct with unexported fields panics | `true`: fields exported |
| `loc` (`FatDirent.v`) | `false`: `time.Date(..., nil)` panics | `true`: `time.UTC` |
| `lenient` (`FatDirent.v`) | `false`: `Uint32(data[29:32])` panics | `true`: the three bytes taken as a 24-bit number |
| `rep` (`FatDriver.v`) | `false` | `true`: `loc` and `lenient` together |

## 2. Plan per group

| Ids | Model | Proof |
|---|---|---|
| C01-C06 | `Rle.v`: readers with terminal error, writers with fault plan, grouper, codec (rle8.go, rle_grouper.go) | token-stream spec; induction on runs/input; exchange argument (DP lower bound) for minimality |
| C07, C08 | same, recursive codec | witness `[0;0]`; exact set of inputs that survive the round trip by strong induction on the reversed data (RleExact.v); injectivity by a correct decoder written in the spec |
| C09 | `Image.v`: gzip as oracle | equational, oracle hypotheses are theorem premises |
| C10, C11 | `Errors.v`: error trees, errors.Is, multierror | induction on trees |
| C12-C14 | `Flags.v`: bit masks on Z | bitwise case analysis |
| C15-C25 | `BlockCache.v`: cache over arbitrary callbacks | invariant + refinement to a byte array; history induction |
| C26, C27 | WrapSlice / WrapStream as instances of the callbacks | refinement instance; witness |
| C28-C42 | `BasicStream.v` over `BlockCache.v` | Hoare-style lemmas on top of the cache refinement |
| C43-C47 | `GoPath.v` + `Driver.v`: path.Clean/Join/Split, resolution over an arbitrary implementation | canonical-form induction; non-termination for all fuels |
| C48-C57, C90-C94 | `Driver.v` (driver.go, file.go, dirent.go, fsobject.go) over arbitrary implementations, every call logged | trace invariants; simulation with an abstract directory; witnesses in an in-memory implementation |
| C58-C70, C87-C89 | `Fat8.v` over `OsFile.v`: disk image as byte list, in-place writes as spliced bytes, faults/crash after any number of bytes | byte-level splice/slice algebra; finite geometry case split; histories of operations |
| C71-C82, C95-C100 | `FatBoot.v`, `FatDirent.v`, `FatDriver.v`: boot sector, dirents, cluster chains over an arbitrary FAT implementation and device | arithmetic; chain induction; pigeonhole; calendar arithmetic |
| C83, C84, C101 | `UnixV6.v` | bitwise reasoning; finite sweep lifted by a lemma |
| C85, C86, C102, C103 | `Disks.v` | modular arithmetic; list induction; computation on the transcribed table |
| C104-C113, C126, C142, C143, C154 | `Driver.v`: working directory, call logs, open/create, handles, stub object | trace invariants over all operations and implementations |
| C114, C115, C120-C124, C129, C144, C145, C148-C150 | `BlockCache.v`, `BasicStream.v`, `Flags.v` and others: which calls reach the storage, several caches on one storage, slices as windows | refinement with aliasing made explicit; history induction |
| C116-C119, C146, C147 | `CmdTools.v` (cmd/, testing/) over a host file system with arbitrary failures | case analysis of the tools' steps; round trip from C09 |
| C125, C151, C153, C155 | `Rle.v`, `Bufio.v`, `ImageStream.v`: any io.Reader and io.Writer, bufio, gzip call by call | size formula by runs; simulation of the buffered reader by the plain one; calls on the writer as a list |
| C171-C173 | `Fat8Unicode.v` | Unicode model of the FAT8 name functions; decoding inverts encoding, lengths by induction over characters, the fold loop by a measure |
| C127, C138-C141, C152 | `Fat8Same.v`, `Fat8.v`, `FatDirent.v` | as for those groups |
| C128-C152 | the parts that hold of refuted properties, stated as properties of their own | from the earlier theorems |
| C156 | `Csv.v`: encoding/csv and csvutil on the shipped text | induction on the way the table is written |
| C157 | `Driver.v`/`DriverFile.v`: any use of an open file, interleaved with other users (`Spec_Access.v`) | flags are an invariant; for a file that is only read the cache stays clean and represents the stored bytes |
| C158 | `BasicStream.v`/`DriverFile.v`: sessions on an open file against an array of bytes (`Spec_Edit.v`) | refinement: invariant relating cache and array; dirty bits are never set, so nothing is flushed |
| C159 | `DriverFile.v`: Chmod, Chown, Chdir of an open file | every handle that path resolution returns carries the wrapper; the flags and object of a file are invariant |
| C160 | `Driver.v`: `read_entries` | induction over the names |
| C161 | `Fat8.v`, the reference images described in `Spec_Fat8Ref.v` (compared with the files by `tools/check_reference.py`) | the formatted image in closed form, byte by byte comparison by position |
| C162 | `FatDriver.v` Stat over every implementation | by cases on the lookup; decoded entries are never directories (C81) |
| C163 | `FatDriver.v`, all operations, with the log of calls | a predicate "adds no changing call" closed under the monad; Remove by cases |
| C164 | `FatDriver.v`, all operations, over volumes that record how each call ended | a predicate "no failing call, or the last one failed and gave the result" closed under the monad |
| C165 | `BlockCache.v`, `BasicStream.v`, all operations, over storage that records how each call ended | the same predicate as for C164, closed under sequencing; loops by induction |
| C166 | `Driver.v`, all path operations and the methods of files, over implementations that record how each call ended | the predicate of C164 and C165, closed under the driver's monad; resolution by mutual induction on the depth |
| C167 | `Scanner.v`: `rle_grouper.go` over any `io.ByteScanner`; `Bufio.v`'s reader as one | simulation by the grouper over a byte sequence (C06), induction on the input |
| C168 | `Scanner.v` over scanners that record their failures | by cases along the loop; the failing UnreadByte is a computed example and a general "deaf" theorem |
| C169 | `FatBootRead.v`: `NewFATBootSectorFromStream` with `binary.Read` and `io.ReadFull` over any reader | induction on the bytes still wanted and the empty reads still allowed; the result through `FatBoot.v` |
| C170 | `Driver.v` `new_file` with the conversions of `blockcache.New` | arithmetic modulo 2^64, by cases |
| C174, C175 | `StreamInput.v`: a stream of `BasicStream.v` as the reader of `Bufio.v` and `ImageStream.v`, and of io.ReadAll (Go's source) | one read from the lemmas of C28-C30, then induction on the bytes left; the codecs by C153 and C155 |
| C176 | `StreamCopy.v`: a stream as the writer given to WriteTo and as the reader given to ReadFrom of another (`BasicStream.v`) | WriteTo delivers the rest cut into blocks (induction on the rest); each block is one write of C33; induction on the blocks |
| C177 | `StreamFull.v`: io.ReadFull (Go's source) on a stream of `BasicStream.v`; binary.Read of `FatBootRead.v` | the first read decides (from C28-C30); records by induction |
| C178 | `SectionReader.v`: io.SectionReader (Go's source) over ReadAt of `BasicStream.v` | one read from C28; induction on the bytes left; the rest by C153 and C169 |
| C179 | `StreamOutput.v`: Write of `BasicStream.v` as the writer of `ImageStream.v` | one write from the case analysis behind C33; induction over the codec's Write calls; the calls themselves as in C155 |
| C180 | the FAT8 functions of `Fat8.v` and `kerr_is` (errors.Is) | case analysis over the tests of each function, with C59, C61 and C64 |
| C181 | `Errors.v` | induction over how an error was made |

## 3. Trusted base

* Coq 8.16.1's kernel (including `vm_compute`) and standard library. No axioms:
  `Print Assumptions` says "Closed under the global context" for every theorem in
  `Props_*.v` (printed by the build). No other library is imported. `coqchk`/vcheck lists
  `Coq.ssr.ssrunder.Under_rel.*` as axioms of the environment: these are the fields of an
  opaque module in the standard library's ssr plugin support, loaded through the standard
  library; no theorem depends on them.
* The reading of the Go source: the code is not executed here. `Conformance.v` runs the test cases of the
  repository's own unit tests (RLE8, run grouper, image compression, errors, FAT8 geometry and names, block
  cache, basic stream) on the model, with the values those tests expect.
* The Go library behaviour stated in comments and modelled from its documentation or
  source: `path.Clean/Join/Split`, `errors.Is`, `binary.Read`, `bytewriter`,
  `go-multierror`, `boljen/go-bitmap`, `time.Date` and the calendar, `strings.*` on ASCII,
  `os.File` (`OsFile.v`), `os.FileMode` bits.
* For C84, the V6 inode layout stated in fs(5) of the sixth edition, written down in
  `Spec_Misc.v`. For FAT, the layout formulas of the Microsoft specification, in
  `Spec_Fat.v`.

## 4. Modelled, simplified, not modelled

Modelled function by function: `errors.go`, `flags.go`, the `FileStat`/`FSStat` methods
of `api.go`, `utilities/compression` (all), `file_systems/common/blockcache` and
`basicstream` (all), `driver/` (all), `file_systems/fat8` (all),
`file_systems/fat` (`common.go`, `dirent.go`, `driverbase.go`), `file_systems/unixv6`, `cmd/`, `testing/`,
`disks/` (with the text of `disk-geometries.csv` byte for byte).

Simplifications, also stated where they are made:

* Error messages are not modelled: errors made by `fmt.Errorf` without an inner error are numbered `KExt`; `fmt.Errorf("…%w", …, err)` around an error `e` is `KMsg e`, a different value that `errors.Is` sees through (so a comparison with `==` fails).
* Implementation calls below the driver and below `FATDriver` do not panic by
  themselves and do not call back into the driver.
* File names of FAT8 are ASCII in `Fat8.v` and `Fat8Same.v`; `Fat8Unicode.v` has the same functions for strings of any bytes, over arbitrary Unicode tables (the decoder, `strings.ToUpper`, `strings.EqualFold` and fmt's padding are modelled from Go's sources), and C171_ascii proves that they agree on ASCII.
* Memory is unlimited, except that `make`/slicing beyond `int` panics.
* gzip is a quantified codec whose inversion law is a premise (C09; call by call in C155).
* The FAT package has no constructor for `FATDriver` and no implementation of
  `FATDriverCommon`: both are quantified over.
* `encoding/csv` and `csvutil` are modelled from their documentation and sources as far as `disks/` uses them (`Csv.v`); numbers are parsed in base 10.
* Times are numbers (nanoseconds since year 1, or unspecified numbers in `Driver.v`).

* The host file system under `cmd/` (`CmdTools.v`) is a map from paths to files and from files to
  bytes; what the operating system does in a run (permissions, read and write errors, a
  failing Close) is quantified over.  The messages the tools print are not modelled.

Not modelled: the flag parsing library under `cmd/main.go`, `init.sql` (unused by Go code), `fat12.go`/`fat16.go`/`fat32.go` (type
declarations without code), goroutine interleavings (the
code has no goroutines or locks), performance, real gzip.

## Tests against wrong programs

`seeded/LOG.jsonl` has one line per edit of the model made by hand (the batches are in `seeded/mutants/`), with the
theorems that failed and those that were tightened because they did not. `tools/mutate.py` makes the edit in a scratch
copy, rebuilds, admits what breaks, and reads off `Print Assumptions` which property theorems no longer hold.
`seeded/AUTO_1.jsonl` to `AUTO_4.jsonl` are the edits killed in four automatic campaigns
(`seeded/auto_mutate.py`: every number, comparison, branch and variable of the chosen files); the edits that survived
are in `LOG.jsonl`, each with the tightened theorem or the reason why the edited program does the same.

## 5. Properties, theorems and status

| Id | Property | Status | File | Theorems | Note |
|---|---|---|---|---|---|
| C01 | RLE8 round trip | proved | Props_Rle.v | `C01_rle8_roundtrip` |  |
| C02 | RLE8 decoder accepts exactly the well-formed streams | proved | Props_Rle.v | `C02_rle8_accepts_exactly` |  |
| C03 | RLE8 output is the shortest valid encoding | proved | Props_Rle.v | `C03_rle8_shortest` | for inputs shorter than 2^63 bytes (a longer run is split by the grouper) |
| C04 | Input failures are never reported as success by the codec | proved | Props_Rle.v | `C04_compress_input_failure` `C04_decompress_input_failure` |  |
| C05 | Output failures are never reported as success by the codec | proved | Props_Rle.v | `C05_compress_output_failure` `C05_decompress_output_failure` `C05_recursive_output_failure` |  |
| C06 | The run grouper partitions its input into maximal runs | proved | Props_Rle.v | `C06_grouper_maximal_runs` `C06_grouper_error` |  |
| C07 | Recursive RLE round trip | partial | Props_Rle.v | `C07_recursive_roundtrip_refuted` `C07_decompress_compresses_again` `C07_recursive_roundtrip_exact` `C07_recursive_roundtrip_partial` | REFUTED: DecompressRLERecursive is a copy of the compressor; the round trip holds exactly for the inputs in which every run is a single byte or three bytes of value 1 |
| C08 | Recursive RLE agrees with RLE8 on short runs and never loses information | proved | Props_Rle.v | `C08_recursive_equals_rle8_on_short_runs` `C08_recursive_injective` `C08_recursive_succeeds` |  |
| C09 | Image compression round trip through gzip | proved | Props_Rle.v | `C09_image_roundtrip` `C09_gzip_error_reported` `C09_not_gzip` `C09_to_bytes_reports` `C09_to_bytes_gzip_error_reported` `C09_compress_success_is_complete` | gzip is a quantified codec; its inversion law is a premise |
| C10 | Error identity survives WithMessage and separates the sentinels | proved | Props_ErrorsFlags.v | `C10_identity_survives_with_message` `C10_text` `C10_new_error` |  |
| C11 | Wrap keeps both identities; CastToDriverError is conservative | partial | Props_ErrorsFlags.v | `C11_wrap_keeps_receiver` `C11_wrap_keeps_argument_partial` `C11_wrap_keeps_argument_refuted` `C11_wrap_exact` `C11_cast` `C11_wrap_chain` `C11_classes` | REFUTED in one corner: wrapping a bare *multierror.Error flattens it, so its own identity is lost; everything else is proved |
| C12 | os.OpenFile flags translate without losing or inventing a mode | proved | Props_ErrorsFlags.v | `C12_os_flags_translate` | the invalid access mode 3 is translated to read-only, as the theorem says |
| C13 | I/O flag predicates are coherent | proved | Props_ErrorsFlags.v | `C13_access_bits` `C13_read_or_write` `C13_custom_mount_flags` `C13_mount_flag_bits` |  |
| C14 | An object has at most one kind | proved | Props_ErrorsFlags.v | `C14_one_kind` `C14_permission_bits_irrelevant` `C14_mkdir_mode_is_directory` |  |
| C15 | The block cache behaves like a plain byte array | proved | Props_BlockCache.v | `C15_cache_is_an_array` `C15_errors_not_spurious` |  |
| C16 | A successful flush makes storage equal to the cache contents | proved | Props_BlockCache.v | `C16_flush_durable` |  |
| C17 | Out-of-range access is rejected without side effects | proved | Props_BlockCache.v | `C17_out_of_range` |  |
| C18 | A failed flush loses nothing and can be retried | proved | Props_BlockCache.v | `C18_failed_flush_retry` | the retry clause is for caches with at least one block (C25) |
| C19 | A crash never exposes invented block contents | proved | Props_BlockCache.v | `C19_crash` | storage writes blocks atomically and zero-fills growth |
| C20 | Storage is touched only when needed | proved | Props_BlockCache.v | `C20_minimal_io` |  |
| C21 | Resize keeps the prefix and zero-fills the rest | proved | Props_BlockCache.v | `C21_resize` `C21_no_callback` |  |
| C22 | Slice requests are bounds-checked for every count | partial | Props_BlockCache.v | `C22_mark_any_count_refuted` `C22_get_slice_any_count_refuted` `C22_exact` `C22_bounds_any_count_partial` | REFUTED: count*bytesPerBlock wraps around; true while (count+1)*bytesPerBlock and start+count fit in 64 bits; C22_exact decides every 64-bit start and count for block sizes up to 2^59 |
| C23 | ReadAt reports the number of bytes it delivered | partial | Props_BlockCache.v | `C23_read_count_exact` `C23_read_count_refuted` `C23_read_count_partial` | REFUTED: the count is rounded up to whole blocks; equals the buffer length iff that is a multiple of the block size |
| C24 | Marking blocks dirty does not change their contents | partial | Props_BlockCache.v | `C24_mark_keeps_contents_refuted` `C24_mark_exact` `C24_mark_keeps_contents_partial` | REFUTED for blocks that were never loaded (they become zeros); true after GetSlice of the range, and for every block fetched, written or created before (C24_mark_exact) |
| C25 | Flush and load succeed on an empty cache | partial | Props_BlockCache.v | `C25_empty_cache_refuted` `C25_empty_cache_partial` | REFUTED: every empty cache returns ErrArgumentOutOfRange; true for non-empty caches |
| C26 | A cache over a byte slice writes back faithfully | proved | Props_BlockCache.v | `C26_wrap_slice` `C26_wrap_slice_divides` |  |
| C27 | A resizable stream-backed cache can be flushed after growing | partial | Props_BlockCache.v | `C27_grow_then_flush_refuted` `C27_grow_then_flush_partial` `C27_exact` | REFUTED for every growth beyond the size at creation; C27_exact: after every history, Flush writes the array out exactly when it is not empty and not larger than at creation, and otherwise fails |
| C28 | Reading a stream at an offset returns exactly its contents | proved | Props_BasicStream.v | `C28_read_at_exact` |  |
| C29 | Sequential Read advances past what it returned | partial | Props_BasicStream.v | `C29_short_read_repeats_refuted` `C29_read_advances_partial` | REFUTED: a read cut short by end of file does not move the position by the bytes delivered; true otherwise |
| C30 | WriteTo delivers exactly the rest of the stream | partial | Props_BasicStream.v | `C30_writer_errors_ignored_refuted` `C30_write_to_delivers_partial` | REFUTED: errors of the destination writer are dropped; true for a destination that never fails |
| C31 | Seek is exact and rejects negative positions | proved | Props_BasicStream.v | `C31_seek_exact` |  |
| C32 | Open-mode permissions are enforced | proved | Props_BasicStream.v | `C32_not_writable_refuses` `C32_not_writable_history` `C32_not_readable_reveals_nothing` |  |
| C33 | Written bytes are read back | partial | Props_BasicStream.v | `C33_growing_write_fails_refuted` `C33_write_succeeds_iff_partial` `C33_read_back_partial` | REFUTED: a write that has to add blocks fails; writes within the existing blocks read back |
| C34 | Written bytes reach storage on Sync or Close | partial | Props_BasicStream.v | `C34_sync_loses_writes_refuted` `C34_new_file_durable_partial` | REFUTED: writes never mark blocks as modified, so no write into existing blocks ever reaches storage; blocks that the stream itself added are durable |
| C35 | Writing past the end grows the stream | partial | Props_BasicStream.v | `C35_write_into_slack_refuted` `C35_write_size_partial` | REFUTED for writes past the end inside the last block |
| C36 | Append mode always adds at the end | partial | Props_BasicStream.v | `C36_append_overwrites_refuted` `C36_append_size_refuted` `C36_append_keeps_contents_partial` | REFUTED: appends that end inside the allocated blocks do not extend the stream and overwrite each other; over every history without Truncate existing contents are kept |
| C37 | Truncate keeps the prefix, sets the size and zero-fills | partial | Props_BasicStream.v | `C37_truncate_reveals_old_bytes_refuted` `C37_truncate_partial` | REFUTED: growing back within the last block reveals old bytes |
| C38 | Failed Truncate changes nothing | proved | Props_BasicStream.v | `C38_failed_truncate` |  |
| C39 | Stream operations never panic | partial | Props_BasicStream.v | `C39_negative_offset_panics_refuted` `C39_no_panic_partial` `C39_negative_exact` `C39_nonnegative` | REFUTED for negative offsets; C39_negative_exact gives the exact conditions for ReadAt and WriteAt at every negative offset, and C39_nonnegative shows that at non-negative offsets no call panics, except possibly a write whose end lies within one block of 2^63 |
| C40 | ReadFrom copies everything or reports an error | partial | Props_BasicStream.v | `C40_write_error_swallowed_refuted` `C40_read_from_partial` | REFUTED: a failing write at the end of the source is dropped |
| C41 | Closing a healthy stream succeeds | partial | Props_BasicStream.v | `C41_close_empty_fails_refuted` `C41_close_partial` | REFUTED for empty files |
| C42 | Creating a stream validates its size | proved | Props_BasicStream.v | `C42_new_validates` |  |
| C43 | NormalizePath yields canonical absolute paths | proved | Props_Driver.v | `C43_normalize_canonical` `C43_working_directory` `C43_absolute` |  |
| C44 | NormalizePath resolves relative paths against the working directory | partial | Props_Driver.v | `C44_dot_is_root_refuted` `C44_relative_partial` | REFUTED for relative paths that lead back to where they start ('.', 'a/..'): they are taken to be the root; true for all other relative paths |
| C45 | Path operations work on the objects of the mounted file system | partial | Props_Driver.v | `C45_nothing_succeeds_refuted` `C45_stat_partial` `C45_truncate_partial` `C45_mkdir_partial` | REFUTED: the handle wrapper never stores the handle, so no path operation can succeed; the partial theorems are about the driver with the wrapper repaired, for entries of the root |
| C46 | Nested paths resolve in finitely many steps | partial | Props_Driver.v | `C46_nested_never_returns_refuted` `C46_shallow_returns_partial` `C46_fuel_irrelevant` | REFUTED: paths of two or more components recurse for ever; partial: entries of the root return |
| C47 | Symbolic link cycles are always detected | partial | Props_Driver.v | `C47_cycle_undetected_refuted` `C47_chain_partial` | REFUTED for cycles that do not contain the first link; all other chains are resolved correctly (wrapper repaired, links in the root) |
| C48 | A read-only mount is never modified | partial | Props_Driver.v | `C48_remove_refuted` `C48_as_is_partial` `C48_write_open_partial` `C48_looking_partial` | REFUTED: Remove (and O_RDONLY\|O_CREATE) change a read-only mount once the wrapper is repaired |
| C49 | Create fails if the file exists | partial | Props_Driver.v | `C49_create_existing_refuted` `C49_leaves_alone_partial` | REFUTED: Create of an existing file succeeds; partial: it leaves the file alone |
| C50 | Directory listing in pages loses and repeats nothing | proved | Props_Driver.v | `C50_pages` `C50_names` `C50_same_sequence` |  |
| C51 | SameFile is an equivalence decided by inode number | proved | Props_Driver.v | `C51_same_file` |  |
| C52 | Truncating a file resizes the underlying object to that many bytes | partial | Props_Driver.v | `C52_truncate_blocks_refuted` `C52_truncate_bytes_partial` | REFUTED: the object is resized to the number of blocks as if it were bytes; true for a block size of 1 |
| C53 | RemoveAll removes the directory and everything below it | partial | Props_Driver.v | `C53_top_remains_refuted` `C53_descendants_partial` | REFUTED: the directory itself is never unlinked; partial: its descendants, and nothing else, are gone |
| C54 | Lstat does not follow the final symbolic link | partial | Props_Driver.v | `C54_never_a_link_refuted` `C54_non_link_partial` `C54_any_path_partial` `C54_link_followed` | REFUTED: Lstat never describes a link but the object it leads to; for every path that names something else Lstat describes that object, and it returns the errors met on the way |
| C55 | Every acquired handle is released | partial | Props_Driver.v | `C55_lchown_leaks_refuted` `C55_lstat_closes_twice_refuted` `C55_balanced_partial` | REFUTED: Lchown leaks, Lstat closes twice; partial: the other operations balance on file systems without links |
| C56 | ReadFile returns exactly the file's bytes | proved | Props_Driver.v, Props_Driver4.v | `C56_read_file_exact` `C56_errors` `C56_memory` `C56_read_file_exact_partial` `C56_healthy_partial` | every implementation whose blocks read honestly, every path, all three versions of the handle wrapper; the _partial theorems add that for entries of the root ReadFile does return (as the code is, no path operation returns, C45, C46) |
| C57 | WriteFile stores exactly the given data | partial | Props_Driver.v | `C57_write_file_refuted` `C57_one_byte_partial` | REFUTED: data of a multiple of the block size is refused, other data is cut to ceil(len/blocksize) bytes; true for one byte |
| C58 | FAT8 geometry is consistent | proved | Props_Fat8.v | `C58_accepted` `C58_layout` `C58_figures` `C58_refused` |  |
| C59 | FAT8 formatting produces exactly the documented image | proved | Props_Fat8.v | `C59_format_iff` `C59_refused_untouched` `C59_image` `C59_statistics` | on a device that works; also what FSStat reports afterwards |
| C60 | FAT8 formatting reserves the directory track | partial | Props_Fat8.v | `C60_directory_left_free_refuted` `C60_entries` `C60_two_reserved_partial` | REFUTED: the marked entries are those of clusters 18, 19 (35, 36 on the larger disks); the clusters holding the directory track are marked free; true: exactly two clusters are marked |
| C61 | A formatted or existing FAT8 image can be mounted | partial | Props_Fat8.v | `C61_fresh_driver_refuted` `C61_well_formed_partial` `C61_after_format_partial` `C61_other_sizes_refused` | REFUTED: a fresh driver cannot mount any image (its block count is 0); partial: a driver that formatted an image can |
| C62 | FAT8 flush then reload returns the same FAT | proved | Props_Fat8.v | `C62_flush` `C62_reachable` | for drivers that know the image; every mounted driver of a history on a working device does |
| C63 | A crash during a FAT8 flush is detected or harmless | proved | Props_Fat8.v | `C63_crash` `C63_outside_untouched` | the write of the FATs stops after any number of bytes |
| C64 | Differing FAT copies are always reported | proved | Props_Fat8.v | `C64_differing_reported` `C64_mount` |  |
| C65 | A FAT8 cluster reads back what was written to it | partial | Props_Fat8.v | `C65_write_elsewhere_refuted` `C65_first_cluster_partial` `C65_refused` | REFUTED: cluster c is written to the place of cluster 2c-1 or refused; true for cluster 1 |
| C66 | Block writes stay inside the image and inside their range | partial | Props_Fat8.v | `C66_write_blocks` `C66_succeeds_iff` `C66_last_block_refuted` `C66_read_back_partial` | writing as claimed; REFUTED: a range that reaches the last block cannot be read back; all others can |
| C67 | The FAT8 free list contains exactly the free clusters | partial | Props_Fat8.v | `C67_beyond_disk_refuted` `C67_remount_duplicates_refuted` `C67_first_mount_partial` `C67_list` | REFUTED: entries of the FAT without a cluster are listed (even as cluster 0), and a second mount lists everything twice; partial: on the first mount, right for the clusters of the disk; the list after every mount is given exactly (C67_list) |
| C68 | FAT8 file names survive a round trip | partial | Props_Fat8.v | `C68_stored` `C68_empty_name` `C68_any_entry_shown` `C68_display_partial` `C68_trailing_period_refuted` `C68_blank_name_refuted` `C68_restore_partial` | REFUTED: 'a.' is shown as 'A..', a blank name is shown as the empty name; the rest is true; ASCII names |
| C69 | FAT8 Stat reports the sectors actually used | partial | Props_Fat8.v | `C69_stat` `C69_text` `C69_not_found` `C69_nothing_found_refuted` | as claimed for whatever is in the map of entries; REFUTED end to end: nothing ever fills that map |
| C70 | Every valid FAT8 block and cluster is readable | partial | Props_Fat8.v | `C70_last_block_refuted` `C70_wrapped_refuted` `C70_huge_count_refuted` `C70_last_cluster_refuted` `C70_ranges_partial` `C70_clusters_partial` `C70_other_clusters_partial` | REFUTED: the last block, the last cluster (640 and 1898 blocks) and ranges whose end wraps around (exactly which of these read other blocks, fail or panic is proved); the others are as claimed |
| C71 | Parsing a FAT boot sector never panics | partial | Props_Fat.v | `C71_always_panics_refuted` `C71_short_partial` `C71_exported_partial` `C71_disk_partial` | REFUTED: every stream of at least 36 bytes panics (reflection on unexported fields); with them exported exactly a zero sector or cluster size panics, and every header laid out as the specification says is read back field by field |
| C72 | An accepted FAT boot sector is internally consistent | proved | Props_Fat.v | `C72_consistent` `C72_rejects` `C72_accepts` | about the header computation, for every raw header |
| C73 | FAT layout fields follow the specification | partial | Props_Fat.v | `C73_layout_partial` `C73_data_area_refuted` `C73_clusters_refuted` `C73_width_refuted` `C73_root_refuted` `C73_values` `C73_right_exactly` | REFUTED: the data area ignores the FATs, the cluster count adds instead of subtracting them, the root size overflows at 16 bits; the exact values computed for every accepted header are proved, and which of them are right |
| C74 | FAT dates and times decode for every stored value | partial | Props_Fat.v | `C74_always_panics_refuted` `C74_date_partial` `C74_timestamp_partial` `C74_fraction_refuted` `C74_total_partial` `C74_no_date_refuted` | REFUTED: time.Date with a nil location always panics; with UTC, dates and times to the second are right, fractions never |
| C75 | FAT directory entries parse from their 32-byte form | partial | Props_Fat.v | `C75_always_panics_refuted` `C75_names_partial` `C75_attribute_refuted` `C75_shifted_refuted` | REFUTED: Uint32 of three bytes always panics; with that repaired the attribute byte is ignored and all later fields are one byte off |
| C76 | Listing a cluster chain returns the chain | partial | Props_Fat.v, Props_FatChain.v | `C76_listing_partial` `C76_end_marker_refuted` `C76_nth_partial` `C76_corrupt_partial` `C76_bad_start` `C76_listing` `C76_nth` | REFUTED where IsValidCluster rejects end markers; otherwise as claimed |
| C77 | Following a cluster chain always terminates | partial | Props_Fat.v | `C77_loop_refuted` `C77_terminates_partial` | REFUTED: a loop in the table never returns; in all other cases it returns within one step per cluster |
| C78 | Removing a FAT file frees exactly its clusters | partial | Props_Fat.v, Props_Fat3.v | `C78_indices_refuted` `C78_wrong_clusters_refuted` `C78_entry_first_partial` `C78_directory_partial` `C78_never_the_file_refuted` `C78_deletes_nothing_refuted` | REFUTED: the positions n-1..0 are freed instead of the clusters, and the entry deleted is always the empty one; entry before clusters holds |
| C79 | FAT path lookup finds exactly the named entry | partial | Props_Fat.v | `C79_nothing_found_refuted` `C79_root_error_refuted` `C79_missing_refuted` `C79_file_refuted` `C79_slash_refuted` `C79_found_partial` `C79_directory_partial` `C79_directory_error_partial` | REFUTED: nothing is ever found, missing names and device errors are successes, files are errors, paths are split at colons; with decoding repaired, directories of the root are found |
| C80 | FAT entry timestamps behave like registers | partial | Props_Fat.v | `C80_registers_partial` `C80_too_early` `C80_accepted` `C80_deleted_refuted` `C80_deleted_for_ever_refuted` `C80_deleted_has_no_creation_partial` | REFUTED: SetDeletedAt always returns ErrNotFound and never stores the time; the other registers behave for every sequence of setters |
| C81 | FAT directories are recognised as directories | partial | Props_Fat.v | `C81_never_a_directory_refuted` `C81_type_partial` `C81_permissions_partial` `C81_readonly_refuted` | REFUTED: IsDir is false for every decoded entry, and a read-only entry is shown writable by its owner; the stat mode has the right type bits and hides group and other write permission exactly when read-only |
| C82 | FAT Chtimes and Chmod report what they did | partial | Props_Fat.v | `C82_chmod_partial` `C82_set_mode` `C82_chtimes_refuted` `C82_chtimes_partial` `C82_never_the_file_refuted` | REFUTED: Chtimes drops times before 1980 silently; as is, only the empty entry is ever updated; Chmod changes only the write bits |
| C83 | Unix V6 mode flags convert both ways | proved | Props_Misc.v | `C83_mode_to_v6_and_back` `C83_other_types_rejected` `C83_v6_to_mode_and_back` `C83_v6_types` | every mode and every flag word |
| C84 | Unix V6 inode size and block count agree | partial | Props_Misc.v | `C84_size_and_blocks` `C84_size_refuted` | REFUTED: the three size bytes are read lowest first, but the sixth edition (fs(5)) stores the highest byte first, so the size is right iff the three bytes are equal; size, block count and the other fields are proved as the code reads them |
| C85 | Disk geometry size is the rounded-up number of bytes | proved | Props_Misc.v | `C85_size` `C85_predefined` | every geometry below 2^63 bits; the table is transcribed from the CSV |
| C86 | Predefined geometries are found by slug | proved | Props_Misc.v | `C86_start_up` `C86_lookup` `C86_table` | after CSV decoding (for that see C156) |
| C87 | A FAT8 file's cluster reads back what was written to it | partial | Props_Fat8.v | `C87_reads_other_cluster_refuted` `C87_second_cluster_partial` `C87_index_refused` `C87_exactly` | REFUTED: writes go to cluster 2c-1, reads come from cluster c+1; they meet only for cluster 2 |
| C88 | Flushing an unmounted FAT8 driver leaves the image alone | partial | Props_Fat8.v | `C88_stale_fat_refuted` `C88_never_mounted_partial` | REFUTED: the FAT of an earlier mount is written over a newly formatted image; true for drivers never mounted |
| C89 | No history of FAT8 operations panics | partial | Props_Fat8.v | `C89_huge_read_refuted` `C89_exactly` `C89_no_panic_partial` | REFUTED: a read of 2^56 or more blocks whose end wraps around to a block of the disk panics; the operations that panic are given exactly (C89_exactly) |
| C90 | Chmod, Chown and Chtimes reach the object with the caller's values | partial | Props_Driver2.v | `C90_chmod_partial` `C90_chown_partial` `C90_chtimes_partial` `C90_never_supported_refuted` | REFUTED: the wrapper around handles hides the optional methods, so the answer is always ErrNotImplemented; with handles passed through, as claimed for entries of the root (deeper paths never return, C46) |
| C91 | Link never replaces an existing object | partial | Props_Driver2.v | `C91_existing_partial` `C91_lookup_error_ignored_refuted` | REFUTED: a lookup that fails for any reason counts as missing; true where the lookup succeeds (entries of the root, handle wrapper repaired) |
| C92 | Readlink returns the text of the link | proved | Props_Driver2.v, Props_Driver4.v | `C92_readlink_exact` `C92_unsupported` `C92_every_path` `C92_readlink_partial` | every implementation and every path on which Readlink returns; C92_readlink_partial adds that it does return for entries of the root (deeper paths never return, C46; as the code is none does, C45) |
| C93 | Remove deletes what the path names, and no directory that has entries | partial | Props_Driver2.v | `C93_remove_partial` `C93_remove_link_refuted` | REFUTED: removing a link deletes the file it leads to; as claimed for files and directories in the root (handles passed through) |
| C94 | MkdirAll creates what is missing and accepts what exists | partial | Props_Driver2.v | `C94_existing_refuted` `C94_nested_refuted` `C94_single_partial` `C94_makes_directory_partial` | REFUTED: an existing directory is created again and the error returned, two or more components never return; single missing components are created |
| C95 | SameFile compares FAT file infos | partial | Props_Fat2.v | `C95_panics_refuted` `C95_clusters_partial` | REFUTED: Sys() returns a FileStat, the assertion to Dirent panics for every pair |
| C96 | ReadFile returns the contents of the file | partial | Props_Fat2.v | `C96_never_contents_refuted` `C96_contents_partial` `C96_truncated_refuted` `C96_spare_refuted` `C96_directory_partial` | REFUTED: ReadFile never returns a byte; after the lookup, one-sector clusters are read correctly, larger ones truncated, spare clusters panic |
| C97 | Reading a cluster reads that cluster's bytes | partial | Props_Fat2.v | `C97_sector_partial` `C97_location_refuted` `C97_locations_refuted` `C97_distinct_partial` | REFUTED: wrong sector and only one sector, except by coincidence; the exact sector read is proved |
| C98 | FAT directory entries decode to name, size, cluster and times | partial | Props_Fat2.v | `C98_always_panics_refuted` `C98_decode_partial` `C98_free_partial` `C98_blank_refuted` | REFUTED: always panics (C74); with UTC the decoding is right for every entry whose name is not blank |
| C99 | A directory cluster decodes to its entries up to the first free slot | partial | Props_Fat2.v | `C99_always_panics_refuted` `C99_entries_partial` `C99_blank_refuted` `C99_several_sectors_refuted` | REFUTED: always panics (C75); repaired, the slots up to the first free one are returned, blank names and multi-sector clusters without a free slot in the first sector panic |
| C100 | Readdir lists a FAT directory completely | partial | Props_Fat2.v, Props_Fat3.v | `C100_never_lists_refuted` `C100_lists_partial` `C100_full_refuted` `C100_not_a_directory` `C100_decoded_refuted` | REFUTED: never returns a listing; repaired, lists directories of the root, except those that fill their last cluster |
| C101 | Unix V6 character devices agree with Go's file modes | partial | Props_Misc.v | `C101_char_devices_refuted` `C101_other_types_partial` | REFUTED: such modes are rejected and V6 character devices never get them |
| C102 | FSStat.TotalSizeBytes is block size times block count | proved | Props_Misc.v | `C102_fsstat_size` |  |
| C103 | Geometry sizes are right for every geometry | partial | Props_Misc.v | `C103_overflow_refuted` `C103_size_right_iff_fits` | REFUTED: from 2^63 bits on the size is wrong (negative or zero); right if and only if the bits fit |
| C104 | The working directory is always a canonical absolute path | partial | Props_Driver3.v | `C104_getwd_canonical` `C104_chdir_partial` `C104_chdir_link_partial` `C104_relative_refuted` | REFUTED: with a working directory other than the root no operation on a plain name returns; the canonical form of Getwd is proved for all histories, Chdir for entries of the root and links to them (modulo C45) |
| C105 | Each operation makes only the calls it is for | proved | Props_Driver3.v | `C105_only_its_calls` `C105_looking_changes_nothing` | every operation, implementation, state; the permitted calls are listed in Spec_Driver2.may |
| C106 | OpenFile creates at most one object, and only a missing file | partial | Props_Driver3.v | `C106_at_most_one` `C106_only_missing` `C106_leaves_directory_refuted` | REFUTED: with permissions that contain the directory bit a directory is created and left behind although the call fails; the rest is proved for every implementation |
| C107 | Closing a file releases its object handle | partial | Props_Driver3.v | `C107_close_keeps_handle_refuted` `C107_open_close_leaks_refuted` | REFUTED: File.Close never releases the object handle |
| C108 | WriteFile reports storage failures | partial | Props_Driver3.v, Props_Driver5.v | `C108_flush_error_dropped_refuted` `C108_reported_partial` | REFUTED: the error of the deferred Close, which does the writing, is dropped; otherwise nil is returned exactly when OpenFile and Write returned nil, and else the first of their errors |
| C109 | ReadDir of something that is not a directory is an error | partial | Props_Driver3.v | `C109_read_dir_panics_refuted` `C109_file_read_dir` | REFUTED for Driver.ReadDir: panics; File.ReadDir is right for every implementation |
| C110 | Chtimes passes only supported timestamps | proved | Props_Driver3.v | `C110_unsupported_times_undefined` |  |
| C111 | The driver keeps the guarantees documented for implementations | partial | Props_Driver3.v | `C111_create_existing_refuted` `C111_get_missing_refuted` `C111_link_directory_refuted` `C111_chmod_type_bits_refuted` `C111_open_asks_first_partial` | REFUTED: all four; OpenFile does ask before creating |
| C112 | The stub object handle answers every call | partial | Props_Driver3.v | `C112_not_implemented_partial` `C112_missing_methods_refuted` | REFUTED: SameAs and Close panic, exactly these |
| C113 | Stat and Name of an open file describe the file | partial | Props_Driver3.v, Props_FileAttr.v | `C113_stat_frozen_refuted` `C113_stat_at_open_partial` `C113_info` `C113_name` | REFUTED: Stat keeps reporting the attributes at the time of opening |
| C114 | The storage is asked for existing whole blocks only | partial | Props_Bounds.v | `C114_stream_stays_inside` `C114_cache_stays_inside` `C114_object_bounds_refuted` | proved for streams and caches over any storage: behaviour outside the existing blocks cannot matter.  REFUTED for the object under a File, which is resized to a number of blocks taken as bytes and then written outside |
| C115 | Block device sizes and bounds | partial | Props_Bounds.v | `C115_min_blocks` `C115_check_bounds` `C115_check_bounds_exactly` `C115_check_bounds_refuted` `C115_size` `C115_size_contract` | exact characterisations; REFUTED where size plus block size exceeds 2^64 (GetMinBlocksForSize too small, CheckBounds accepts) and for Size from 2^63 bytes on; right for everything that fits into memory |
| C116 | The image tools keep their input and exit with 0 only when the output is right | partial | Props_Tools.v | `C116_zip` `C116_unzip` `C116_roundtrip` `C116_exit_codes` `C116_zip_ends` `C116_same_file_refuted` `C116_close_error_refuted` `C116_failure_destroys_output_refuted` | REFUTED: when both paths lead to one file it is destroyed with exit code 0; the error of closing the output is dropped; a failing run empties an existing output.  Proved otherwise, for every codec that inverts itself, host and failure of reading or writing |
| C117 | disko format formats | partial | Props_Tools.v | `C117_format_refuted` | REFUTED: format does nothing and succeeds |
| C118 | Test images load unchanged or abort the test | partial | Props_Tools.v | `C118_load` `C118_load_compressed` `C118_size_refuted` | exact characterisation; REFUTED only where sectorSize * totalSectors wraps around |
| C119 | The default test cache never fails a test by itself | proved | Props_Tools.v | `C119_no_alarm` `C119_alarm` | every geometry with total * size < 2^63, every history |
| C120 | A cache over a stream is a faithful view of the stream | partial | Props_Wrap.v | `C120_wrap_stream_partial` `C120_short_read_refuted` `C120_eof_write_refuted` `C120_healthy_file` | REFUTED: short reads, which io.Reader allows, are taken for whole blocks and lead to loss of data; write errors equal to io.EOF are dropped.  Proved for every stream that reads in full or fails, whatever else fails |
| C121 | A cache that may not be resized stays inside its blocks | proved | Props_Wrap.v | `C121_fixed` | every stream within the contracts, also short reads and failures; every history in which no call panics (see C22 for the calls that do) |
| C122 | A cache with inferred size covers the stream | partial | Props_Wrap.v | `C122_inferred_partial` `C122_seek_error_refuted` | REFUTED: errors of Seek are dropped: an empty cache or a panic; right when the size can be determined |
| C123 | Caches and files over the same storage see each other's changes | partial | Props_Shared.v | `C123_stale_refuted` `C123_lost_update_refuted` `C123_files_refuted` `C123_disjoint_partial` `C123_handoff_partial` `C123_no_panic_partial` | REFUTED: a cache never looks at a block again, so it returns what it read first whatever the others flush, and flushing whole blocks undoes the others' changes to the same block.  Proved: for every interleaving in which each block that is changed is used by one cache only, and for caches used one after the other with a flush between; no interleaving panics |
| C124 | The slices a cache hands out are the cache's contents | partial | Props_Slices.v | `C124_windows_partial` `C124_resize_detaches_refuted` `C124_unmarked_refuted` `C124_append_refuted` `C124_append_exactly` | REFUTED: a successful Resize replaces the array, so slices taken before are disconnected for good, and changes made through them (even marked and flushed) are lost; unmarked changes never reach the storage; append to a slice overwrites the blocks that follow.  Proved: for every history, each slice is a window on its array, the current array is the cache's contents, and a successful flush stores every block that was not changed since it was last marked |
| C125 | Compressed sizes are as documented | partial | Props_RleSize.v | `C125_sizes_partial` `C125_run_partial` `C125_recursive_better_partial` `C125_recursive_input_partial` `C125_ratio_partial` `C125_decompress_bound_partial` `C125_documented_partial` `C125_documented_twice_partial` `C125_documented_refuted` | REFUTED in one figure: RLE8 makes 1533 bytes, not 1530, of 128 KiB.  Everything else is proved for every input: size formulas over the unique maximal runs, recursive RLE strictly smaller for every run over 258 bytes (one byte larger for 257), ratio bounds both ways, output bound for every stream, the other documented figures |
| C126 | Handles are used only while they are open | proved | Props_Handles.v | `C126_no_use_after_close` `C126_only_obtained_handles` `C126_handles_distinct` `C126_file_handles_stay_open` | By a weakest-precondition invariant over every operation; Stat, Name and SameFile calls are not in the log (they have no effect in the model); closing twice and leaking are C55 |
| C127 | SameFile on a FAT8 volume | partial | Props_Fat8Same.v | `C127_equivalence` `C127_same_is_stored_alike` `C127_entries_partial` `C127_entries_exact` `C127_period_in_stem_refuted` `C127_stored_alike_is_same_partial` `C127_stored_alike_not_same_refuted` `C127_final_period_refuted` | REFUTED: entries whose stem has a period collide with the entry split there, and names with trailing blanks or a final period are stored alike but are different files; equivalence, same => stored alike, and both converses on all other names are proved; C127_entries_exact says exactly which entries are the same file |
| C128 | Wrapping adds identities and loses no sentinel | proved | Props_ErrorsFlags.v | `C128_wrap_keeps_receiver` `C128_wrap_exact` `C128_wrap_chain` | the part of C11 without the corner case of multierror identities |
| C129 | Block ranges that fit 64 bits are bounds-checked | proved | Props_BlockCache.v | `C129_bounds` | C22 for requests whose byte counts do not wrap around |
| C130 | A Read that fills the buffer advances by it | proved | Props_BasicStream.v | `C130_read_advances` | C29 without its claim about reads cut short by the end of file |
| C131 | What WriteAt accepts can be read back | proved | Props_BasicStream.v | `C131_read_back` | C33 for writes that succeed |
| C132 | Append streams keep what they have | proved | Props_BasicStream.v | `C132_append_keeps_contents` | the part of C36 that holds |
| C133 | Truncate sets the size and keeps the prefix | proved | Props_BasicStream.v | `C133_truncate` | C37 without the zeros inside the last block |
| C134 | Stream operations with offsets from 0 on never panic | proved | Props_BasicStream.v | `C134_no_panic` | C39 without negative offsets of ReadAt and WriteAt |
| C135 | WriteTo delivers the rest of the stream in order | proved | Props_BasicStream.v | `C135_write_to_delivers` | C30 without the errors of the destination |
| C136 | Closing a healthy non-empty stream succeeds | proved | Props_BasicStream.v | `C136_close` | C41 without empty streams |
| C137 | WriteDiskBlocks is exact | proved | Props_Fat8.v | `C137_write_blocks` `C137_succeeds_iff` | C66 without reading back |
| C138 | FAT8 names are stored as documented | proved | Props_Fat8.v | `C138_stored` `C138_any_entry_shown` `C138_restore` | the part of C68 that holds |
| C139 | FAT8 histories without wrapped ranges never panic | proved | Props_Fat8.v | `C139_no_panic` | C89 without huge block ranges that wrap around |
| C140 | Listing a cluster chain returns unless the table has a loop | proved | Props_Fat.v | `C140_terminates` | the exact form of C77 |
| C141 | FAT access, modification and creation times are registers | proved | Props_Fat.v, Props_Fat3.v | `C141_registers` `C141_too_early` `C141_accepted` `C141_nothing_else` `C141_deleted` | C80 without deletion |
| C142 | Getwd is always canonical | proved | Props_Driver3.v | `C142_getwd_canonical` | the part of C104 that holds |
| C143 | Opening creates at most one object, and only a missing one | proved | Props_Driver3.v | `C143_at_most_one` `C143_only_missing` | the part of C106 that holds |
| C144 | Streams and caches touch existing whole blocks only | proved | Props_Bounds.v | `C144_stream_stays_inside` `C144_cache_stays_inside` | C114 without files |
| C145 | Block counts and bounds for sizes that fit | proved | Props_Bounds.v | `C145_min_blocks` `C145_check_bounds` `C145_size` | C115 without wrap-around |
| C146 | zipimage and unzipimage are inverse on distinct files | proved | Props_Tools.v | `C146_zip` `C146_unzip` `C146_roundtrip` `C146_exit_codes` | C116 for distinct files |
| C147 | LoadDiskImage returns exactly the image | proved | Props_Tools.v | `C147_load_exact` `C147_load_compressed` | C118 without wrap-around |
| C148 | A cache over a stream that reads in full is a faithful view | proved | Props_Wrap.v | `C148_wrap_stream` | C120 for streams that read in full |
| C149 | Caches that change different blocks agree | proved | Props_Shared.v | `C149_disjoint` `C149_handoff` `C149_no_panic` | C123 for disjoint changes |
| C150 | Slices are windows on the cache until Resize | proved | Props_Slices.v | `C150_windows` | C124 without slices kept over a Resize |
| C151 | Compressed sizes are determined by the maximal runs | proved | Props_RleSize.v | `C151_sizes` `C151_ratio` `C151_recursive_input` `C151_decompress_bound` | C125 without the documented figure that is wrong |
| C152 | SameFile on FAT8 is an equivalence that respects storage | proved | Props_Fat8Same.v | `C152_equivalence` `C152_same_is_stored_alike` | the part of C127 that holds |
| C153 | How the input is cut into reads does not matter to the codecs | proved | Props_Bufio.v | `C153_compress` `C153_recursive` `C153_decompress` `C153_same_input` `C153_deterministic` `C153_roundtrip` `C153_pieces` `C153_unread` | the bufio.Reader of Go's standard library (NewReader, fill, ReadByte, UnreadByte) is modelled |
| C154 | Create and OpenFile with O_CREATE make the missing file | proved | Props_Driver4.v | `C154_create` `C154_open` | for names in the root directory of the in-memory file system: deeper paths are not resolved by the code (C46) |
| C155 | Image compression with any reader, any writer and any gzip | proved | Props_ImageStream.v | `C155_compress` `C155_open_failure` `C155_decompress` `C155_to_bytes` `C155_roundtrip` | DEFLATE stays abstract: what gzip.Writer hands down call by call and what gzip.Reader delivers are quantified, their inversion is a premise (gunzips) of the round trip only |
| C156 | The geometry table is read from its text as it stands | proved | Props_Csv.v | `C156_start_up` `C156_lookup` `C156_malformed` `C156_table` | encoding/csv, csvutil and strconv are modelled from their sources; every text is covered |
| C157 | A file obeys the access it was opened with | proved | Props_Access.v | `C157_not_writable` `C157_not_readable` `C157_only_reads` `C157_read` `C157_position` `C157_open` | what a file opened for writing does with the written bytes is C33, C34, C52 |
| C158 | What is written to an open file is read back from it, and stored | partial | Props_Edit.v | `C158_array_partial` `C158_stored_refuted` | REFUTED for the second half: the written bytes stay in the cache, Sync and Close make no call at all and report success; the first half is proved for calls that write before the last byte of the last block (growing writes: C33, C123) and with the write rule of the code (write_fits: a write that ends too far from the start of the file is refused) |
| C159 | Chmod, Chown and Chdir of an open file act on the object that was opened | partial | Props_FileAttr.v | `C159_chmod_partial` `C159_never_supported_refuted` `C159_chdir` | REFUTED for Chmod and Chown: the wrapper around the handles hides the optional methods, so both always fail with ErrNotSupported; with handles passed through they are as claimed; Chdir is as claimed |
| C160 | A directory listing describes the entries | proved | Props_FileAttr.v | `C160_listing` | ReadDir panics for objects without ListDir (C109), which includes every object with the wrapper as it is; the theorem is about calls that return |
| C161 | Formatting a blank FAT8 image gives the reference image shipped with the driver | partial | Props_Fat8Ref.v | `C161_difference` `C161_reference_refuted` `C161_formatted_partial` `C161_reference_marks` | REFUTED: the result always differs from the reference image, in exactly twelve bytes: FormatImage reserves the FAT entries numbered like the directory track instead of those of its clusters; everything else is equal. The reference minifloppy reserves exactly the clusters of the directory track; the reference floppy those of the track behind it |
| C162 | FAT Stat describes the named entry | partial | Props_Fat3.v | `C162_always_empty_refuted` `C162_missing_refuted` `C162_root_error_refuted` `C162_file_refuted` `C162_decoded_refuted` `C162_entry_partial` `C162_directory_partial` | REFUTED: the answer is always the empty one or an error: missing names and unreadable directories give an empty answer without an error, files give ErrNotADirectory, and no decoded entry is recognised as a directory (C81). True: any other answer would be the entry of that name |
| C163 | FAT operations change no more than they are asked to | proved | Props_Fat3.v | `C163_reads` `C163_updates` `C163_remove` `C163_parent` | the entry Remove deletes is nevertheless never that of a file (C78) |
| C164 | FAT operations report every failure of the volume | partial | Props_Fat4.v | `C164_reads_partial` `C164_changes_partial` `C164_any_volume` `C164_root_refuted` | REFUTED for one call: a failure to list the root directory is taken for an empty entry. Every other failing call ends the operation with its own error, proved for every volume and failure |
| C165 | Caches and streams report every failure of their storage | partial | Props_Report.v | `C165_cache` `C165_stream` `C165_new` `C165_success` `C165_write_to` `C165_read_from_partial` `C165_read_from_refuted` `C165_recorded` | REFUTED for the last write of ReadFrom, whose error gives way to the reader's end or error. Everything else is proved for every storage and failure; the cache reports a failed block with a message around the storage's error, so that even an io.EOF from the storage does not pass for the end of the stream |
| C166 | Driver operations report every failure of the file system implementation | partial | Props_Driver5.v | `C166_reported` `C166_success` `C166_create_partial` `C166_link_partial` `C166_write_file_partial` `C166_files` `C166_noted` `C166_link_refuted` `C166_write_file_refuted` | REFUTED for two calls: Link takes any failure to look up the new name for its absence, and WriteFile drops the failure of the final flush. Proved for every other operation, implementation and failure, also with the wrapper repaired (modes of Props_Driver) |
| C167 | The run grouper works on every byte scanner and reader | proved | Props_Scanner.v | `C167_next_run` `C167_no_run` `C167_all_runs` `C167_from_reader` | the model of GetNextRun over an arbitrary ByteScanner (Scanner.v); bufio.Reader is shown to be one |
| C168 | The run grouper reports every failure of its scanner | partial | Props_Scanner.v | `C168_unread_refuted` `C168_deaf_refuted` `C168_reads_partial` `C168_reported_partial` | REFUTED: the error of UnreadByte is dropped (rle_grouper.go:75), and with it the byte. Exactly: GetNextRun does the same whatever UnreadByte says, every ReadByte failure is reported, and with an UnreadByte that works nothing is hidden |
| C169 | A FAT boot sector is read from any reader | partial | Props_FatBootRead.v | `C169_short` `C169_panics_refuted` `C169_cut_partial` `C169_forty_partial` | REFUTED: once 36 bytes have been read binary.Read panics on the unexported fields (C71). Proved for shorter inputs, and for all inputs with the fields exported |
| C170 | Opening a file copes with whatever sizes its handle reports | partial | Props_NewFile.v | `C170_open_exactly` `C170_sane_opens_partial` `C170_impossible_panics_refuted` `C170_wraparound_refuted` | REFUTED: a negative NumBlocks, or a product that is negative as an int64, makes blockcache.New panic, and products wrap around. C170_open_exactly says for all sizes which of panic, error and success it is; handles with consistent sizes always open |
| C171 | FAT8 names of any characters are stored in nine bytes and come back | partial | Props_Fat8Unicode.v | `C171_accepted` `C171_stored` `C171_nine_bytes_exactly` `C171_nine_bytes_refuted` `C171_shown` `C171_round_trip_refuted` `C171_entries` `C171_stat` `C171_ascii` | REFUTED: the limits are in bytes but fmt pads characters, so the stored form has nine bytes exactly when all capitals are ASCII and more otherwise, and a name with an extension comes back with blanks before the extension. Stored form, its length and the name shown are given exactly for every UTF-8 name; acceptance and showing for any bytes. C171_ascii: for ASCII this is the model of C68, C69, C127 |
| C172 | FAT8 SameFile is an equivalence on names of any characters | proved | Props_Fat8Unicode.v | `C172_same_exactly` `C172_utf8` `C172_equivalence` | for every enumeration of the classes as package unicode documents SimpleFold |
| C173 | FAT8 names that are the same file are stored alike, for any characters | partial | Props_Fat8Unicode.v | `C173_same_is_stored_alike_partial` `C173_not_stored_alike_refuted` | REFUTED: characters of one class can have different capitals (k and the Kelvin sign); true for names whose characters have the same capitals and as many bytes (in particular ASCII, C152) |
| C174 | A stream is compressed and read to its end | proved | Props_StreamInput.v | `C174_delivers` `C174_compress` `C174_image_roundtrip` `C174_read_all` | sizes up to 2^63 - 4096 (2^63 minus the largest buffer for io.ReadAll); gzip is quantified over as in C155 |
| C175 | A failure of the storage under a stream is reported by whoever reads the stream | partial | Props_StreamInput.v | `C175_delivers_exactly` `C175_eof_refuted` `C175_reported_partial` `C175_read_all` `C175_not_readable` | REFUTED: the codecs ask errors.Is(err, io.EOF), and the cache wraps the storage's error with %w, so storage that fails with io.EOF (or an error that wraps it) ends the input: the first part is compressed and success is returned; exact for every storage; all other errors are reported, and io.ReadAll reports all |
| C176 | Copying one stream into another copies, or says that it did not | partial | Props_StreamCopy.v | `C176_copy_partial` `C176_read_from_partial` `C176_not_writable_refuted` `C176_read_from_not_writable` `C176_half_refuted` `C176_short_refuted` | REFUTED: WriteTo ignores what the writer returns, so io.Copy into a stream that is not open for writing copies nothing and reports success (C176_not_writable_refuted), and copying an image of N blocks over another one of N blocks copies only its first N/2 blocks, again with success (C176_half_refuted, with the exact result); ReadFrom drops the error of the last, short write (C176_short_refuted). True when everything lands in the first half of the destination's blocks (the two _partial theorems) |
| C177 | io.ReadFull reads a stream record by record | proved | Props_StreamFull.v | `C177_full` `C177_short` `C177_records` `C177_records_end` `C177_reported` `C177_boot` | io.ReadFull is modelled from Go's source; C177_boot says, as C71 and C169, that the header makes the code panic (settable = false) |
| C178 | A partition of an image can be read on its own | proved | Props_SectionReader.v | `C178_read` `C178_delivers` `C178_codecs` `C178_boot` `C178_failing_read` `C178_failing_delivers` `C178_no_silent_cut` | io.SectionReader is modelled from Go's source; C178_boot says, as C71 and C169, that a complete header makes the code panic (settable = false) |
| C179 | An image can be restored onto a stream, or an error says that it was not | partial | Props_StreamOutput.v | `C179_restore_partial` `C179_whole_disk_refuted` `C179_not_writable` `C179_save_partial` | REFUTED: an image that fills a stream to its last block can never be restored onto it (nor a compressed image saved there), on any storage and with any block size: the last Write is refused with ErrArgumentOutOfRange, as C33.  The error is reported.  Proved: no error means that the whole image is in place, bytes elsewhere never change, every failure is reported, and images that end in the first half of the blocks are restored |
| C180 | The FAT8 driver's refusals can be told apart with errors.Is | partial | Props_Fat8Errors.v | `C180_write_blocks_partial` `C180_flush_partial` `C180_file_cluster_refuted` `C180_mount_partial` `C180_format_refuted` `C180_read_refuted` `C180_write_cluster_refuted` `C180_mount_refuted` | REFUTED: no error of reading is one of the library's, nor is that of FormatImage for a size no disk has, that of WriteAbsoluteCluster for a bad number or length, or that of Mount with a new driver on a good image; true for WriteDiskBlocks, for mounted drivers, for sizes that are not a number of blocks, and for images of another size or with different FATs. The theorems say for each refusal which it is |
| C181 | Errors are recognised by the tests callers of os functions use | partial | Props_StdErrors.v | `C181_exact` `C181_std_refuted` `C181_kept_partial` | REFUTED: the library's own errors are never connected with an error of the standard library (ErrNotFound is not fs.ErrNotExist). What it wraps stays recognisable; C181_exact decides every error made with errors.go. Errors from elsewhere are compared by address and have no Is method |
