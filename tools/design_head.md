# Formal model of dargueta/disko in Coq 8.16.1

Status of each property: `MANIFEST.json` (and the table in section 5, generated by
`tools/gen_design.py`). This file says what is modelled, how it is proved, what is
trusted and what is out of scope.

## 1. Approach

Every modelled Go function becomes a total Gallina function, in the same order
of tests and effects as the source, with a comment citing file and lines.

* **Panics, infinite loops.** `outcome A := Ret a | Panic | OutOfFuel` (the driver
  monads have `Crash`/`Spin`). A Go run-time panic (nil dereference, slice bounds,
  division by zero, type assertion, misuse of a library call) is `Panic`. Loops that
  are not structurally bounded carry fuel; `OutOfFuel` is never a normal-looking
  value: theorems exclude it or, for non-termination findings, prove `OutOfFuel` for
  *every* amount of fuel.
* **Integers.** Unbounded `Z` with explicit wrap (`u64 x = x mod 2^64`, ...) at
  every operation where the Go type can wrap and the result matters. The
  platform is 64 bit (`int`/`uint` are 64 bits wide).
* **Errors** are values: a structural type of sentinel / wrapped / foreign
  errors mirroring errors.go.
* **I/O.** Readers, writers, storage callbacks and `io.ReadWriteSeeker`s are
  explicit states with *arbitrary* failure behaviour (a fault tape or a
  quantified callback obeying a stated contract).
* **Specs** (`Spec_*.v`) are small and do not use the model's helpers.
* **Property theorems** live in `Props_*.v`, with `Print Assumptions` and
  non-vacuity `Example`s beside them; everything else is support.

A property which the code as written violates is kept at full strength in
`properties.jsonl`; its theorem is named `..._refuted` (a witness, or a universal
negative), accompanied by the exact characterisation of what the code does and
the strongest true positive part, named `..._partial`.

### Repaired variants

Several bugs are so total that nothing further could be said about the surrounding
code (every call panics). There the model has a parameter whose one value is the code
as it is and whose other value is the code with that one line repaired. Every theorem
says which one it is about: theorems about the real code fix the parameter to the
as-is value (or quantify over all values).

| Parameter | As the code is | Repaired |
|---|---|---|
| `wmode` (`Driver.v`) | `AsIs`: driver/fsobject.go never stores the handle, every method but AbsolutePath dereferences nil | `Embedded`: handle stored, optional interfaces still hidden; `Full`: everything forwarded |
| `settable` (`FatBoot.v`) | `false`: `binary.Read` into a struct with unexported fields panics | `true`: fields exported |
| `loc` (`FatDirent.v`) | `false`: `time.Date(..., nil)` panics | `true`: `time.UTC` |
| `lenient` (`FatDirent.v`) | `false`: `Uint32(data[29:32])` panics | `true`: the three bytes taken as a 24-bit number |
| `rep` (`FatDriver.v`) | `false` | `true`: `loc` and `lenient` together |

## 2. Plan per group

| Ids | Model | Proof |
|---|---|---|
| C01-C06 | `Rle.v`: readers with terminal error, writers with fault plan, grouper, codec (rle8.go, rle_grouper.go) | token-stream spec; induction on runs/input; exchange argument (DP lower bound) for minimality |
| C07, C08 | same, recursive codec | witness `[0;0]`; exact set of inputs that survive the round trip by strong induction on the reversed data (RleExact.v); injectivity by a correct decoder written in the spec |
| C09 | `Image.v`: gzip as oracle | equational, oracle hypotheses are theorem premises |
| C10, C11 | `Errors.v`: error trees, errors.Is, multierror | induction on trees |
| C12-C14 | `Flags.v`: bit masks on Z | bitwise case analysis |
| C15-C25 | `BlockCache.v`: cache over arbitrary callbacks | invariant + refinement to a byte array; history induction |
| C26, C27 | WrapSlice / WrapStream as instances of the callbacks | refinement instance; witness |
| C28-C42 | `BasicStream.v` over `BlockCache.v` | Hoare-style lemmas on top of the cache refinement |
| C43-C47 | `GoPath.v` + `Driver.v`: path.Clean/Join/Split, resolution over an arbitrary implementation | canonical-form induction; non-termination for all fuels |
| C48-C57, C90-C94 | `Driver.v` (driver.go, file.go, dirent.go, fsobject.go) over arbitrary implementations, every call logged | trace invariants; simulation with an abstract directory; witnesses in an in-memory implementation |
| C58-C70, C87-C89 | `Fat8.v` over `OsFile.v`: disk image as byte list, in-place writes as spliced bytes, faults/crash after any number of bytes | byte-level splice/slice algebra; finite geometry case split; histories of operations |
| C71-C82, C95-C100 | `FatBoot.v`, `FatDirent.v`, `FatDriver.v`: boot sector, dirents, cluster chains over an arbitrary FAT implementation and device | arithmetic; chain induction; pigeonhole; calendar arithmetic |
| C83, C84, C101 | `UnixV6.v` | bitwise reasoning; finite sweep lifted by a lemma |
| C85, C86, C102, C103 | `Disks.v` | modular arithmetic; list induction; computation on the transcribed table |
| C104-C113, C126, C142, C143, C154 | `Driver.v`: working directory, call logs, open/create, handles, stub object | trace invariants over all operations and implementations |
| C114, C115, C120-C124, C129, C144, C145, C148-C150 | `BlockCache.v`, `BasicStream.v`, `Flags.v` and others: which calls reach the storage, several caches on one storage, slices as windows | refinement with aliasing made explicit; history induction |
| C116-C119, C146, C147 | `CmdTools.v` (cmd/, testing/) over a host file system with arbitrary failures | case analysis of the tools' steps; round trip from C09 |
| C125, C151, C153, C155 | `Rle.v`, `Bufio.v`, `ImageStream.v`: any io.Reader and io.Writer, bufio, gzip call by call | size formula by runs; simulation of the buffered reader by the plain one; calls on the writer as a list |
| C171-C173 | `Fat8Unicode.v` | Unicode model of the FAT8 name functions; decoding inverts encoding, lengths by induction over characters, the fold loop by a measure |
| C127, C138-C141, C152 | `Fat8Same.v`, `Fat8.v`, `FatDirent.v` | as for those groups |
| C128-C152 | the parts that hold of refuted properties, stated as properties of their own | from the earlier theorems |
| C156 | `Csv.v`: encoding/csv and csvutil on the shipped text | induction on the way the table is written |
| C157 | `Driver.v`/`DriverFile.v`: any use of an open file, interleaved with other users (`Spec_Access.v`) | flags are an invariant; for a file that is only read the cache stays clean and represents the stored bytes |
| C158 | `BasicStream.v`/`DriverFile.v`: sessions on an open file against an array of bytes (`Spec_Edit.v`) | refinement: invariant relating cache and array; dirty bits are never set, so nothing is flushed |
| C159 | `DriverFile.v`: Chmod, Chown, Chdir of an open file | every handle that path resolution returns carries the wrapper; the flags and object of a file are invariant |
| C160 | `Driver.v`: `read_entries` | induction over the names |
| C161 | `Fat8.v`, the reference images described in `Spec_Fat8Ref.v` (compared with the files by `tools/check_reference.py`) | the formatted image in closed form, byte by byte comparison by position |
| C162 | `FatDriver.v` Stat over every implementation | by cases on the lookup; decoded entries are never directories (C81) |
| C163 | `FatDriver.v`, all operations, with the log of calls | a predicate "adds no changing call" closed under the monad; Remove by cases |
| C164 | `FatDriver.v`, all operations, over volumes that record how each call ended | a predicate "no failing call, or the last one failed and gave the result" closed under the monad |
| C165 | `BlockCache.v`, `BasicStream.v`, all operations, over storage that records how each call ended | the same predicate as for C164, closed under sequencing; loops by induction |
| C166 | `Driver.v`, all path operations and the methods of files, over implementations that record how each call ended | the predicate of C164 and C165, closed under the driver's monad; resolution by mutual induction on the depth |
| C167 | `Scanner.v`: `rle_grouper.go` over any `io.ByteScanner`; `Bufio.v`'s reader as one | simulation by the grouper over a byte sequence (C06), induction on the input |
| C168 | `Scanner.v` over scanners that record their failures | by cases along the loop; the failing UnreadByte is a computed example and a general "deaf" theorem |
| C169 | `FatBootRead.v`: `NewFATBootSectorFromStream` with `binary.Read` and `io.ReadFull` over any reader | induction on the bytes still wanted and the empty reads still allowed; the result through `FatBoot.v` |
| C170 | `Driver.v` `new_file` with the conversions of `blockcache.New` | arithmetic modulo 2^64, by cases |
| C174, C175 | `StreamInput.v`: a stream of `BasicStream.v` as the reader of `Bufio.v` and `ImageStream.v`, and of io.ReadAll (Go's source) | one read from the lemmas of C28-C30, then induction on the bytes left; the codecs by C153 and C155 |
| C176 | `StreamCopy.v`: a stream as the writer given to WriteTo and as the reader given to ReadFrom of another (`BasicStream.v`) | WriteTo delivers the rest cut into blocks (induction on the rest); each block is one write of C33; induction on the blocks |
| C177 | `StreamFull.v`: io.ReadFull (Go's source) on a stream of `BasicStream.v`; binary.Read of `FatBootRead.v` | the first read decides (from C28-C30); records by induction |
| C178 | `SectionReader.v`: io.SectionReader (Go's source) over ReadAt of `BasicStream.v` | one read from C28; induction on the bytes left; the rest by C153 and C169 |
| C179 | `StreamOutput.v`: Write of `BasicStream.v` as the writer of `ImageStream.v` | one write from the case analysis behind C33; induction over the codec's Write calls; the calls themselves as in C155 |
| C180 | the FAT8 functions of `Fat8.v` and `kerr_is` (errors.Is) | case analysis over the tests of each function, with C59, C61 and C64 |
| C181 | `Errors.v` | induction over how an error was made |

## 3. Trusted base

* Coq 8.16.1's kernel (including `vm_compute`) and standard library. No axioms:
  `Print Assumptions` says "Closed under the global context" for every theorem in
  `Props_*.v` (printed by the build). No other library is imported. `coqchk`/vcheck lists
  `Coq.ssr.ssrunder.Under_rel.*` as axioms of the environment: these are the fields of an
  opaque module in the standard library's ssr plugin support, loaded through the standard
  library; no theorem depends on them.
* The reading of the Go source: the code is not executed here. `Conformance.v` runs the test cases of the
  repository's own unit tests (RLE8, run grouper, image compression, errors, FAT8 geometry and names, block
  cache, basic stream) on the model, with the values those tests expect.
* The Go library behaviour stated in comments and modelled from its documentation or
  source: `path.Clean/Join/Split`, `errors.Is`, `binary.Read`, `bytewriter`,
  `go-multierror`, `boljen/go-bitmap`, `time.Date` and the calendar, `strings.*` on ASCII,
  `os.File` (`OsFile.v`), `os.FileMode` bits.
* For C84, the V6 inode layout stated in fs(5) of the sixth edition, written down in
  `Spec_Misc.v`. For FAT, the layout formulas of the Microsoft specification, in
  `Spec_Fat.v`.

## 4. Modelled, simplified, not modelled

Modelled function by function: `errors.go`, `flags.go`, the `FileStat`/`FSStat` methods
of `api.go`, `utilities/compression` (all), `file_systems/common/blockcache` and
`basicstream` (all), `driver/` (all), `file_systems/fat8` (all),
`file_systems/fat` (`common.go`, `dirent.go`, `driverbase.go`), `file_systems/unixv6`, `cmd/`, `testing/`,
`disks/` (with the text of `disk-geometries.csv` byte for byte).

Simplifications, also stated where they are made:

* Error messages are not modelled: errors made by `fmt.Errorf` without an inner error are numbered `KExt`; `fmt.Errorf("…%w", …, err)` around an error `e` is `KMsg e`, a different value that `errors.Is` sees through (so a comparison with `==` fails).
* Implementation calls below the driver and below `FATDriver` do not panic by
  themselves and do not call back into the driver.
* File names of FAT8 are ASCII in `Fat8.v` and `Fat8Same.v`; `Fat8Unicode.v` has the same functions for strings of any bytes, over arbitrary Unicode tables (the decoder, `strings.ToUpper`, `strings.EqualFold` and fmt's padding are modelled from Go's sources), and C171_ascii proves that they agree on ASCII.
* Memory is unlimited, except that `make`/slicing beyond `int` panics.
* gzip is a quantified codec whose inversion law is a premise (C09; call by call in C155).
* The FAT package has no constructor for `FATDriver` and no implementation of
  `FATDriverCommon`: both are quantified over.
* `encoding/csv` and `csvutil` are modelled from their documentation and sources as far as `disks/` uses them (`Csv.v`); numbers are parsed in base 10.
* Times are numbers (nanoseconds since year 1, or unspecified numbers in `Driver.v`).

* The host file system under `cmd/` (`CmdTools.v`) is a map from paths to files and from files to
  bytes; what the operating system does in a run (permissions, read and write errors, a
  failing Close) is quantified over.  The messages the tools print are not modelled.

Not modelled: the flag parsing library under `cmd/main.go`, `init.sql` (unused by Go code), `fat12.go`/`fat16.go`/`fat32.go` (type
declarations without code), goroutine interleavings (the
code has no goroutines or locks), performance, real gzip.

## Tests against wrong programs

`seeded/LOG.jsonl` has one line per edit of the model made by hand (the batches are in `seeded/mutants/`), with the
theorems that failed and those that were tightened because they did not. `tools/mutate.py` makes the edit in a scratch
copy, rebuilds, admits what breaks, and reads off `Print Assumptions` which property theorems no longer hold.
`seeded/AUTO_1.jsonl` to `AUTO_4.jsonl` are the edits killed in four automatic campaigns
(`seeded/auto_mutate.py`: every number, comparison, branch and variable of the chosen files); the edits that survived
are in `LOG.jsonl`, each with the tightened theorem or the reason why the edited program does the same.

## 5. Properties, theorems and status

