#!/usr/bin/env python3
"""Generates /verif/properties.jsonl (one JSON object per property)."""
import json, os
P = []
def p(title, statement, quant, why, *anchors):
    P.append(dict(id="C%02d" % (len(P)+1), title=title, statement=statement, quantifier=quant,
                  why_tests_cant=why, anchors=list(anchors)))
RLE="utilities/compression/rle8.go"; GRP="utilities/compression/rle_grouper.go"; CMP="utilities/compression/compression.go"
BC="file_systems/common/blockcache/blockcache.go"; BS="file_systems/common/basicstream/basicstream.go"
DRV="driver/driver.go"; FILE="driver/file.go"
F8="file_systems/fat8/"; FAT="file_systems/fat/"; V6="file_systems/unixv6/dirents.go"
# ---------------------------------------------------------------- compression
p("RLE8 round trip",
  "For every byte string D, DecompressRLE8 applied to the output of CompressRLE8 on D succeeds and writes exactly D; the two returned int64 values are the exact numbers of bytes written to the respective outputs.",
  "every finite byte string, including runs longer than math.MaxInt that the grouper splits",
  "the space of inputs is infinite and the interesting cases (runs of 257, 258, 259, runs split by the grouper, adjacent equal literals) interact; a test samples a few",
  RLE+":CompressRLE8", RLE+":DecompressRLE8")
p("RLE8 decoder accepts exactly the well-formed streams",
  "DecompressRLE8 succeeds on a byte string exactly when it is a sequence of literals b and groups b b n in which no literal b is directly followed by an item starting with b; it then writes the concatenated meaning (b, resp. n+2 copies of b). On every other byte string it fails with io.ErrUnexpectedEOF, which happens only when the input ends right after a doubled byte. It never fails otherwise and never panics.",
  "every finite byte string given to the decoder",
  "acceptance/rejection of all malformed streams cannot be enumerated by tests",
  RLE+":DecompressRLE8")
p("RLE8 output is the shortest valid encoding",
  "For every byte string D, no byte string that DecompressRLE8 expands to D is shorter than the output of CompressRLE8 on D; in particular the output is at most 3/2 the size of D.",
  "every byte string D and every valid encoding of D",
  "quantifies over all competing encodings of all inputs",
  RLE+":CompressRLE8", "utilities/compression/doc.go")
p("Input failures are never reported as success by the codec",
  "If the input stream fails with an error other than io.EOF after delivering some bytes, CompressRLE8 and DecompressRLE8 return a non-nil error that wraps it; what was already written is a prefix of what would have been written had the stream continued in any way at all.",
  "every byte string delivered before the failure, every failure position, every possible continuation",
  "every failure point of every input",
  RLE+":CompressRLE8", RLE+":DecompressRLE8", GRP+":GetNextRun")
p("Output failures are never reported as success by the codec",
  "If any Write to the output fails (possibly after a partial write), CompressRLE8, DecompressRLE8 and CompressRLERecursive return a non-nil error carrying it, and the bytes that reached the output are a prefix of the complete output; if no Write fails the result is independent of how the writer behaves.",
  "every input and every schedule of successful, failing and partial writes",
  "every fault schedule of every input",
  RLE+":CompressRLE8", RLE+":DecompressRLE8", RLE+":CompressRLERecursive")
p("The run grouper partitions its input into maximal runs",
  "Calling GetNextRun until io.EOF yields runs of length at least 1 whose expansion concatenates to the input; two consecutive runs have different byte values unless the first has the maximum length; a run is returned with io.EOF exactly when it is the last one; a zero-length run always comes with a non-nil error.",
  "every byte string and every stream ending (EOF or failure)",
  "all inputs and all endings",
  GRP+":GetNextRun")
p("Recursive RLE round trip",
  "For every byte string D, DecompressRLERecursive applied to the output of CompressRLERecursive on D succeeds and writes exactly D.",
  "every finite byte string",
  "infinite input space (the repository has no test at all for this pair)",
  RLE+":CompressRLERecursive", RLE+":DecompressRLERecursive")
p("Recursive RLE agrees with RLE8 on short runs and never loses information",
  "On every byte string all of whose runs are at most 256 long, CompressRLERecursive writes exactly what CompressRLE8 writes; and on all inputs two different byte strings never have the same CompressRLERecursive output.",
  "every byte string; every pair of byte strings",
  "quantifies over all (pairs of) inputs",
  RLE+":CompressRLERecursive", RLE+":CompressRLE8")
p("Image compression round trip through gzip",
  "Given a gzip codec whose decoder inverts its encoder, DecompressImage and DecompressImageToBytes applied to what CompressImage wrote return exactly the original image, CompressImage returns the exact number of bytes that reached the output, and a compressed stream whose gzip layer reports an error never decompresses successfully.",
  "every image and every damaged compressed stream",
  "all images and all ways a stored image can be damaged",
  CMP+":CompressImage", CMP+":DecompressImage", CMP+":DecompressImageToBytes", CMP+":countingWriter")
# ---------------------------------------------------------------- errors & flags
p("Error identity survives WithMessage and separates the sentinels",
  "For every sentinel X and every sequence of messages, errors.Is(X.WithMessage(m1)...WithMessage(mk), Y) is true exactly when Y is the same sentinel X, among all exported sentinels; the text is 'X: m1: ...: mk'. An error made by NewError(t) keeps its identity too, and its text becomes 'm1: ...: mk'.",
  "every sentinel pair and every finite sequence of arbitrary messages",
  "arbitrary nesting and arbitrary message text",
  "errors.go:customDriverError.WithMessage", "errors.go:Err*")
p("Wrap keeps both identities; CastToDriverError is conservative",
  "errors.Is(e.Wrap(err), t) holds whenever errors.Is(e, t) or errors.Is(err, t) holds; CastToDriverError returns nil for nil, its argument for a DriverError, and otherwise a DriverError that still matches everything the original matched.",
  "every DriverError, every error tree and every target",
  "quantifies over arbitrary error trees",
  "errors.go:Wrap", "errors.go:CastToDriverError")
p("os.OpenFile flags translate without losing or inventing a mode",
  "For every combination of os flags, the translated flags permit reading/writing exactly when the os access mode does, and append/create/exclusive/truncate/sync are set exactly when the corresponding os flag has a bit set; nothing else is set.",
  "every integer flag value",
  "2^32 or more flag values",
  "flags.go:OSFlagsToIOFlags", "flags.go:IOFlags")
p("I/O flag predicates are coherent",
  "For every flags value, Read and Write depend only on the access-mode bits, at least one of them holds unless both access bits are set, write permission is required exactly when the file is opened for writing or truncation, and no custom mount flag changes CanRead/CanWrite/CanDelete.",
  "every integer flag value",
  "2^63 flag values",
  "flags.go:IOFlags.Read", "flags.go:IOFlags.Write", "flags.go:RequiresWritePerm", "api.go:MountFlags")
p("An object has at most one kind",
  "For every mode value, at most one of IsDir, IsFile and IsSymlink holds for its FileStat, permission bits never influence the answer, and Mkdir's forced mode is always a directory.",
  "every 32-bit mode value",
  "2^32 mode values",
  "api.go:FileStat.IsDir", "api.go:FileStat.IsFile", "api.go:FileStat.IsSymlink", DRV+":Mkdir")
# ---------------------------------------------------------------- block cache
p("The block cache behaves like a plain byte array",
  "For every backing store that honours the callback contract and every sequence of ReadAt, WriteAt, GetSlice, LoadAll/Data, Flush, Resize and modify-then-MarkBlockRangeDirty calls, with any calls failing in any order, each successful read returns exactly the bytes a plain array would hold after the preceding successful operations, and failed operations change nothing in that array.",
  "every finite operation sequence, every backing store honouring the contract, every schedule of callback failures",
  "unbounded histories and fault schedules",
  BC+":ReadAt", BC+":WriteAt", BC+":Flush", BC+":Resize", BC+":GetSlice")
p("A successful flush makes storage equal to the cache contents",
  "After Flush returns nil, every block of the backing storage equals the cache's contents at that moment, and no block is marked as needing to be written.",
  "every history of operations and failures before the flush",
  "all histories",
  BC+":Flush", BC+":flushBlockRange")
p("Out-of-range access is rejected without side effects",
  "For every start block and buffer length, ReadAt and WriteAt fail with ErrArgumentOutOfRange exactly when the start block is not below TotalBlocks or the access would extend past the last block; on any failure the caller's buffer is untouched and the cache contents and storage are unchanged.",
  "every start block, buffer and cache state",
  "all integers and all cache states",
  BC+":CheckBounds", BC+":ReadAt", BC+":WriteAt")
p("A failed flush loses nothing and can be retried",
  "If Flush fails because the storage rejected a block (even leaving that block torn), the cache contents are unchanged and a later successful Flush leaves storage equal to the contents, whatever failed in between.",
  "every schedule of flush failures with arbitrary torn blocks",
  "all fault schedules",
  BC+":flushBlockRange")
p("A crash never exposes invented block contents",
  "At every point of every history with a storage that writes blocks atomically, each block of the backing storage holds a value that the cache contents had for that block at some earlier point of the history.",
  "every history and every crash point in it",
  "crash points and histories are unbounded",
  BC+":flushBlockRange", BC+":loadBlockRange")
p("Storage is touched only when needed",
  "A load fetches exactly the blocks of the requested range that have not been loaded yet, once each in ascending order; a flush writes exactly the blocks modified since they were last written, once each in ascending order; reads never write to storage.",
  "every cache state and every range",
  "all cache states",
  BC+":loadBlockRange", BC+":flushBlockRange")
p("Resize keeps the prefix and zero-fills the rest",
  "After a successful Resize(n) the cache has n blocks, the blocks that existed before and still exist are unchanged, and every new block reads as zeros and is written out by the next successful Flush; a Resize refused by the storage changes nothing.",
  "every cache state and every new size",
  "all states and sizes, shrink/grow sequences",
  BC+":Resize")
p("Slice requests are bounds-checked for every count",
  "For every start block and every count, GetSlice and MarkBlockRangeDirty either succeed on a range inside the cache or return ErrArgumentOutOfRange; they never panic.",
  "every 64-bit start and count",
  "the failing values are around 2^55 and above, which no test tries",
  BC+":GetSlice", BC+":MarkBlockRangeDirty", BC+":CheckBounds")
p("ReadAt reports the number of bytes it delivered",
  "BlockCache.ReadAt returns, on success, the length of the caller's buffer.",
  "every buffer length and position",
  "all lengths",
  BC+":ReadAt")
p("Marking blocks dirty does not change their contents",
  "MarkBlockRangeDirty only schedules blocks for writing: contents read afterwards, and what a later Flush writes for blocks nobody modified, equal the contents before the call.",
  "every cache state and range",
  "all histories leading to the call",
  BC+":MarkBlockRangeDirty")
p("Flush and load succeed on an empty cache",
  "On a cache with zero blocks Flush, LoadAll and Data succeed (there is nothing to do).",
  "every cache that has become empty by construction or Resize(0)",
  "all histories reaching an empty cache",
  BC+":Flush", BC+":LoadAll", BC+":CheckBounds")
p("A cache over a byte slice writes back faithfully",
  "For every byte slice and block size dividing its length, a cache created by WrapSlice initially reads as the slice, and after any successful writes followed by a successful Flush the slice holds exactly the cache contents; bytes are never written outside the slice.",
  "every slice, every block size and every operation sequence",
  "all histories",
  BC+":WrapSlice", BC+":WrapStream", BC+":seekToBlock")
p("A resizable stream-backed cache can be flushed after growing",
  "If WrapStream was allowed to resize a truncatable stream, then after Resize(n) succeeds a Flush writes all n blocks to the stream.",
  "every stream, block size and growth",
  "all growth amounts",
  BC+":WrapStream", BC+":Resize")
# ---------------------------------------------------------------- basic stream
p("Reading a stream at an offset returns exactly its contents",
  "For every readable stream, offset >= 0 and buffer, a successful ReadAt delivers the bytes of the stream at that offset, clamped to the stream size, returns their number, and reports io.EOF exactly when fewer bytes than requested remain; the stream is unchanged.",
  "every stream state, offset and buffer length",
  "all offsets and lengths around block and size boundaries",
  BS+":ReadAt")
p("Sequential Read advances past what it returned",
  "After Read returns n bytes (with nil or io.EOF), the stream position has advanced by n, so that repeated Reads never return the same bytes twice.",
  "every stream state and buffer length",
  "all positions relative to the end of the stream",
  BS+":Read")
p("WriteTo delivers exactly the rest of the stream",
  "WriteTo sends exactly the bytes from the current position to the end of the stream to the writer, returns their number, and reports the writer's error if the writer fails.",
  "every readable stream, position and writer behaviour",
  "all sizes/positions and all writer failures",
  BS+":WriteTo")
p("Seek is exact and rejects negative positions",
  "Seek to start/current/end + offset sets Tell to exactly that value when it is non-negative (also past the end), and otherwise leaves the position unchanged and returns an error; it never changes data or size.",
  "every offset, whence and stream state",
  "all integers",
  BS+":Seek", BS+":Tell")
p("Open-mode permissions are enforced",
  "A stream not opened for writing refuses Write, WriteAt, WriteString, Truncate and ReadFrom with ErrNotPermitted, and no sequence of operations on it changes its contents, size or the backing storage; a stream not opened for reading refuses Read, ReadAt and WriteTo and reveals nothing.",
  "every flags value and every operation sequence",
  "all histories",
  BS+":New", BS+":Write", BS+":ReadAt", BS+":Truncate", BS+":ReadFrom")
p("Written bytes are read back",
  "On a writable stream whose storage does not fail, WriteAt(buf, off) succeeds for every off >= 0 and a following ReadAt(len(buf), off) returns buf, with all other bytes of the stream unchanged.",
  "every stream state, offset and buffer",
  "all offsets and lengths around block boundaries",
  BS+":WriteAt", BS+":implWriteAt")
p("Written bytes reach storage on Sync or Close",
  "After a successful Write or WriteAt followed by a successful Sync or Close, the backing storage contains the written bytes at that offset.",
  "every stream state, offset, buffer and following history",
  "all histories of writes and syncs",
  BS+":implWriteAt", BS+":Sync", BS+":Close")
p("Writing past the end grows the stream",
  "After a successful WriteAt(buf, off) the stream size is max(old size, off+len(buf)).",
  "every stream state, offset and buffer",
  "all sizes/offsets",
  BS+":implWriteAt", BS+":Size")
p("Append mode always adds at the end",
  "On a stream opened with O_APPEND every successful Write puts its bytes after all bytes previously in the stream, WriteAt is refused, and earlier contents are never overwritten.",
  "every sequence of appends",
  "all sequences of write sizes",
  BS+":Write", BS+":WriteAt")
p("Truncate keeps the prefix, sets the size and zero-fills",
  "After a successful Truncate(n) the size is n, the first min(n, old size) bytes are unchanged, and every byte between the old size and n reads as zero.",
  "every stream state and every n",
  "all shrink/grow sequences",
  BS+":Truncate")
p("Failed Truncate changes nothing",
  "Truncate with a negative size fails with ErrInvalidArgument; a Truncate refused by the storage fails with the storage's error; in both cases size, position, contents and storage are unchanged.",
  "every stream state, size and storage refusal",
  "all states and failures",
  BS+":Truncate", BC+":Resize")
p("Stream operations never panic",
  "No Read, ReadAt, Write, WriteAt, Seek or Truncate call with any arguments panics.",
  "every argument value and stream state",
  "all 64-bit offsets",
  BS+":ReadAt", BS+":WriteAt", BS+":convertLinearAddr")
p("ReadFrom copies everything or reports an error",
  "When ReadFrom returns nil, every byte delivered by the source has been written to the stream, and the returned count is the number of bytes written.",
  "every source and stream state",
  "all source chunkings and error points",
  BS+":ReadFrom")
p("Closing a healthy stream succeeds",
  "Close/Sync on a stream whose storage accepts all writes returns nil.",
  "every stream state, including empty streams",
  "all histories",
  BS+":Close", BS+":Sync", BC+":Flush")
p("Creating a stream validates its size",
  "New succeeds without O_TRUNC exactly when 0 <= size <= data.Size(), giving a stream at position 0 with that size; with O_TRUNC it yields an empty stream or an error.",
  "every size, cache and flags value",
  "all integers",
  BS+":New")
# ---------------------------------------------------------------- driver
p("NormalizePath yields canonical absolute paths",
  "For every string, NormalizePath returns an absolute path without '.', '..', empty components or a trailing slash (other than '/'), and applying it again changes nothing.",
  "every path string and working directory",
  "all strings",
  DRV+":NormalizePath")
p("NormalizePath resolves relative paths against the working directory",
  "For every relative path, NormalizePath returns the path obtained by interpreting it relative to Getwd().",
  "every relative path and working directory",
  "all strings and working directories",
  DRV+":NormalizePath", DRV+":Getwd")
p("Path operations work on the objects of the mounted file system",
  "For every file system implementation, a driver operation on an existing path (Stat, ReadFile, OpenFile, ReadDir, Chdir, Mkdir, Remove, Truncate, ...) reaches the implementation's object and can succeed.",
  "every implementation, path and operation",
  "all implementations; the repository has no test of the driver at all",
  "driver/fsobject.go:wrapObjectHandle", DRV+":getObjectAtPathNoFollow")
p("Nested paths resolve in finitely many steps",
  "For every implementation and every normalized absolute path, path resolution terminates.",
  "every implementation and every path depth",
  "all paths; divergence cannot be observed by a test that terminates",
  DRV+":getObjectAtPathNoFollow", DRV+":getObjectAtPathFollowingLink")
p("Symbolic link cycles are always detected",
  "For every arrangement of symbolic links, resolving a path terminates: it either reaches a non-link object, reports a missing object, or fails with ErrLinkCycleDetected.",
  "every link graph",
  "all link graphs, including cycles not through the starting link",
  DRV+":resolveSymlink")
p("A read-only mount is never modified",
  "On a mount without write permission no driver operation asks the implementation to create, resize, write or delete anything.",
  "every operation, path and flags",
  "all operations and flag combinations",
  DRV+":OpenFile", DRV+":Mkdir", DRV+":Remove", DRV+":Truncate")
p("Create fails if the file exists",
  "Create (and OpenFile with O_CREATE|O_EXCL) on an existing file fails and leaves it alone.",
  "every implementation and existing path",
  "all implementations",
  DRV+":Create", DRV+":OpenFile")
p("Directory listing in pages loses and repeats nothing",
  "Successive File.ReadDir(n) calls with any positive n's return the directory's entries in order, each exactly once, without '.' and '..', and then io.EOF; Readdirnames and Readdir return the same sequence.",
  "every directory listing and every sequence of page sizes",
  "all listings and page-size sequences",
  FILE+":ReadDir", FILE+":Readdirnames", DRV+":readDir", DRV+":removeDotsFromSlice")
p("SameFile is an equivalence decided by inode number",
  "For every pair of files obtained from the driver, SameFile holds exactly when their inode numbers are equal; it is reflexive, symmetric and transitive.",
  "every pair of file infos",
  "all pairs",
  DRV+":SameFile")
p("Truncating a file resizes the underlying object to that many bytes",
  "File.Truncate(n) asks the object to become n bytes (rounded up to whole blocks at most), as ObjectHandle.Resize takes bytes.",
  "every n and block size",
  "all sizes",
  FILE+":NewFileFromObjectHandle", "api.go:ObjectHandle.Resize")
p("RemoveAll removes the directory and everything below it",
  "After RemoveAll(path) returns nil, the directory itself and all of its descendants are gone, and nothing outside it was deleted (symbolic links below it are not followed).",
  "every directory tree",
  "all trees",
  DRV+":RemoveAll", DRV+":removeDirectory")
p("Lstat does not follow the final symbolic link",
  "Lstat on a symbolic link describes the link itself, not its target.",
  "every link and target",
  "all link graphs",
  DRV+":Lstat")
p("Every acquired handle is released",
  "When a path operation has returned, every object handle it obtained from the implementation has been closed exactly once (except the one owned by a returned File).",
  "every operation, path and outcome",
  "all control paths",
  DRV+":Chmod", DRV+":Link", DRV+":OpenFile", FILE+":Close")
p("ReadFile returns exactly the file's bytes",
  "Whenever ReadFile returns, it returns exactly the Size bytes stored in the blocks of the object its path leads to, or an error: never a truncated, padded or other object's contents. (That it does return is C45 and C46.)",
  "every file system implementation, path, working directory, file size, block size and contents",
  "all sizes",
  DRV+":ReadFile", DRV+":getContentsOfObject")
p("WriteFile stores exactly the given data",
  "WriteFile(path, data) on a healthy file system returns nil and afterwards ReadFile(path) returns data.",
  "every data length and block size",
  "all lengths around block boundaries",
  DRV+":WriteFile", BS+":implWriteAt")
# ---------------------------------------------------------------- fat8
p("FAT8 geometry is consistent",
  "GetGeometry succeeds exactly for 640, 1898 and 2002 blocks, and then the directory track lies inside the disk, the info sector directly precedes the FATs, three FATs end exactly at the end of the directory track, and each FAT has an entry for every cluster.",
  "every 64-bit block count",
  "all integers",
  F8+"common.go:GetGeometry")
p("FAT8 formatting produces exactly the documented image",
  "FormatImage succeeds exactly for unmounted drivers and valid sizes; afterwards the image has the right size, the directory sectors are all FF, the info sector is zero, the three FAT copies are identical, and no byte outside the directory track was written.",
  "every prior image content and every requested size",
  "all prior images",
  F8+"formattingdriver.go:FormatImage")
p("FAT8 formatting reserves the directory track",
  "After FormatImage the FAT marks exactly the two clusters that contain the directory track as reserved.",
  "both geometries, every prior image",
  "the repository's format test compares the image with itself",
  F8+"formattingdriver.go:FormatImage")
p("A formatted or existing FAT8 image can be mounted",
  "Mount succeeds on every well-formed FAT8 image, in particular right after FormatImage and with a freshly created driver.",
  "every well-formed image",
  "all images",
  F8+"driver.go:Mount", F8+"iobase.go:ReadDiskBlocks")
p("FAT8 flush then reload returns the same FAT",
  "After Flush returns nil the three FAT copies on disk equal the in-memory FAT, reading the FAT back returns it, and no byte outside the FAT area changed.",
  "every FAT contents and image",
  "all FATs",
  F8+"iobase.go:writeFAT", F8+"iobase.go:GetFAT", F8+"driver.go:Flush")
p("A crash during a FAT8 flush is detected or harmless",
  "If the machine stops after any prefix of the bytes of a FAT write has reached the disk, reading the FAT afterwards either reports corruption or returns the complete old or the complete new FAT, never a mixture.",
  "every old FAT, new FAT and crash point",
  "all crash points",
  F8+"iobase.go:writeFAT", F8+"iobase.go:GetFAT")
p("Differing FAT copies are always reported",
  "GetFAT and Mount fail with ErrFileSystemCorrupted whenever the three FAT copies are not identical, and otherwise return the common contents.",
  "every image",
  "all images",
  F8+"iobase.go:GetFAT", F8+"driver.go:Mount")
p("A FAT8 cluster reads back what was written to it",
  "For every valid cluster number and cluster-sized data, WriteAbsoluteCluster succeeds and ReadAbsoluteCluster of the same cluster then returns the data, other clusters being unchanged.",
  "every cluster number, geometry and data",
  "all clusters and data",
  F8+"iobase.go:WriteAbsoluteCluster", F8+"iobase.go:ReadAbsoluteCluster")
p("Block writes stay inside the image and inside their range",
  "WriteDiskBlocks either fails without touching the image or changes exactly the addressed blocks; it never extends the image; reading the blocks back returns the data.",
  "every start block, data and image",
  "all addresses",
  F8+"iobase.go:WriteDiskBlocks", F8+"iobase.go:ReadDiskBlocks")
p("The FAT8 free list contains exactly the free clusters",
  "After a successful Mount the list of free clusters contains exactly the valid cluster numbers whose FAT entry is FF, each once, also after unmounting and mounting again.",
  "every FAT contents",
  "all FATs",
  F8+"driver.go:Mount")
p("FAT8 file names survive a round trip",
  "For every accepted ASCII name, the stored form is 9 bytes; converting it back and storing it again gives the same bytes, and the displayed name equals the upper-cased original up to trailing blanks; too long names are rejected.",
  "every name string",
  "all strings",
  F8+"common.go:FilenameToBytes", F8+"common.go:BytesToFilename")
p("FAT8 Stat reports the sectors actually used",
  "For a binary file with at least one cluster, Stat is case-insensitive, ignores one leading slash, and reports size = 128 * (clusters * sectors per cluster - unused sectors), never a negative or wrapped value; a missing file gives ErrNotFound.",
  "every directory contents and path",
  "all directories and paths",
  F8+"readingdriver.go:Stat")
p("Every valid FAT8 block and cluster is readable",
  "ReadDiskBlocks succeeds for every range inside the image and ReadAbsoluteCluster for every valid cluster, and both refuse everything else.",
  "every block range and cluster number",
  "all ranges, notably the last block",
  F8+"iobase.go:ReadDiskBlocks", F8+"iobase.go:ReadAbsoluteCluster")
# ---------------------------------------------------------------- fat
p("Parsing a FAT boot sector never panics",
  "NewFATBootSectorFromStream returns a header or an error for every byte stream.",
  "every byte stream",
  "2^320 boot sectors",
  FAT+"common.go:NewFATBootSectorFromStream")
p("An accepted FAT boot sector is internally consistent",
  "Whenever the header computation accepts a boot sector, the sector size is 512..4096, the cluster size is a power-of-two number of sectors and at most 32 KiB, a whole number of 32-byte entries fits a cluster, and FAT32 volumes have no fixed root directory.",
  "every raw header",
  "2^320 headers",
  FAT+"common.go:NewFATBootSectorFromStream", FAT+"common.go:DetermineFATVersion")
p("FAT layout fields follow the specification",
  "For every accepted header the first data sector is reserved + FATs + root directory sectors, the number of clusters is the number of data sectors divided by the cluster size, and the root directory size is the rounded-up size of its entries.",
  "every raw header",
  "2^320 headers",
  FAT+"common.go:NewFATBootSectorFromStream")
p("FAT dates and times decode for every stored value",
  "DateFromInt and TimestampFromParts return the encoded date and time for every 16-bit value and never panic.",
  "every 16-bit date, 16-bit time and 8-bit fraction",
  "2^40 combinations",
  FAT+"dirent.go:DateFromInt", FAT+"dirent.go:TimestampFromParts")
p("FAT directory entries parse from their 32-byte form",
  "NewRawDirentFromBytes returns the fields stored at their documented offsets for every 32-byte slice and never panics.",
  "every 32-byte slice",
  "2^256 slices",
  FAT+"dirent.go:NewRawDirentFromBytes")
p("Listing a cluster chain returns the chain",
  "For every FAT in which the chain from a cluster ends properly, listClusters returns exactly the chain's clusters in order, getClusterInChain(i) returns its i-th element, and both agree on chain ends and corruption.",
  "every FAT and start cluster",
  "all FATs",
  FAT+"driverbase.go:listClusters", FAT+"driverbase.go:getClusterInChain")
p("Following a cluster chain always terminates",
  "listClusters terminates on every FAT, including damaged ones.",
  "every FAT",
  "cyclic FATs make the call run forever, which a test cannot observe",
  FAT+"driverbase.go:listClusters")
p("Removing a FAT file frees exactly its clusters",
  "Remove deletes the directory entry and frees exactly the clusters of the file's chain, last first.",
  "every file chain",
  "all chains",
  FAT+"driverbase.go:Remove")
p("FAT path lookup finds exactly the named entry",
  "Looking up a path returns the entry whose name components match, ErrNotFound if there is none, and an error if a directory cannot be read.",
  "every directory contents and path",
  "all directories and paths",
  FAT+"driverbase.go:resolvePathToDirent")
p("FAT entry timestamps behave like registers",
  "A timestamp set on a directory entry is returned by the matching getter and leaves the others unchanged; times before 1980 are rejected without effect; SetDeletedAt marks the entry deleted and makes GetDeletedAt return the time.",
  "every sequence of setters and every time",
  "all sequences",
  FAT+"dirent.go:SetCreatedAt", FAT+"dirent.go:SetDeletedAt", FAT+"dirent.go:GetDeletedAt")
p("FAT directories are recognised as directories",
  "An entry whose attribute byte has the directory bit is reported as a directory by IsDir, and an entry without it is not; an entry with the read-only bit shows no write permission, and one without it does.",
  "every attribute byte",
  "256 values times all names",
  FAT+"dirent.go:AttrFlagsToFileMode", FAT+"dirent.go:IsDir")
p("FAT Chtimes and Chmod report what they did",
  "Chtimes returns an error when a requested time cannot be stored; Chmod only ever changes the write bits.",
  "every time pair and mode",
  "all values",
  FAT+"driverbase.go:Chtimes", FAT+"driverbase.go:Chmod")
# ---------------------------------------------------------------- unixv6 / disks
p("Unix V6 mode flags convert both ways",
  "For every mode using only supported file types, converting to V6 flags and back gives the same permission, type, setuid and setgid bits; the V6 word is always marked allocated; unsupported types are rejected; converting V6 flags to a mode and back preserves everything but the large-file, sticky and allocated bits.",
  "every 32-bit mode and every 16-bit V6 flag word",
  "2^32 + 2^16 values",
  V6+":ConvertFSFlagsToStandard", V6+":ConvertStandardFlagsToFS")
p("Unix V6 inode size and block count agree",
  "RawInodeToStat reports the 24-bit size and the least number of 512-byte blocks holding it, for every inode.",
  "every inode",
  "2^24 sizes times all other fields",
  V6+":RawInodeToStat")
p("Disk geometry size is the rounded-up number of bytes",
  "TotalSizeBytes of a geometry whose bit count fits in 63 bits is the least number of bytes holding all its bits, and for every predefined geometry it is exact and positive.",
  "every geometry",
  "all combinations of six 64-bit fields",
  "disks/disks.go:DiskGeometry.TotalSizeBytes", "disks/disk-geometries.csv")
p("Predefined geometries are found by slug",
  "For every geometry table, start-up aborts exactly when two rows share a slug; otherwise lookup of a slug returns that row and lookup of any other string returns an error.",
  "every table of rows and every string",
  "all tables and strings",
  "disks/disks.go:init", "disks/disks.go:GetPredefinedDiskGeometry", "disks/disk-geometries.csv")
# ---------------------------------------------------------------- more of FAT8
p("A FAT8 file's cluster reads back what was written to it",
  "For every directory entry, every index into its cluster list and cluster-sized data: after WriteFileCluster returns nil, ReadFileCluster of the same index returns the data; indexes outside the list are refused by both without touching the image.",
  "every entry, index, data and image",
  "all cluster numbers and indexes",
  F8+"iobase.go:ReadFileCluster", F8+"iobase.go:WriteFileCluster")
p("Flushing an unmounted FAT8 driver leaves the image alone",
  "Flush of a driver that is not mounted (never mounted, or unmounted and the image formatted since) changes no byte of the image.",
  "every history of FormatImage, Mount, Unmount and block operations",
  "histories of any length",
  F8+"driver.go:Flush", F8+"driver.go:Unmount", F8+"formattingdriver.go:FormatImage")
p("No history of FAT8 operations panics",
  "Whatever the contents and size of the image, whichever device operations fail, and whatever the history of FormatImage, Mount, Flush, Unmount, block and cluster reads and writes, GetFAT and Stat, each call returns.",
  "every image, every pattern of device failures, every history",
  "histories, images and failure patterns are unbounded",
  F8+"driver.go:Mount", F8+"iobase.go:ReadDiskBlocks", F8+"formattingdriver.go:FormatImage")
p("Chmod, Chown and Chtimes reach the object with the caller's values",
  "On a file system whose handles support the operation, Chmod, Chown and Chtimes call it once, on the object the path leads to, with exactly the mode, owner and times given (access and modification time not exchanged, other times left alone), and return its error.",
  "every implementation, state, path and attribute values",
  "values and implementations are unbounded",
  "driver/driver.go:Chmod", "driver/driver.go:Chown", "driver/driver.go:Chtimes")
p("Link never replaces an existing object",
  "Link returns ErrExists and makes no modifying call if anything exists at the new name; the link is created only if looking the new name up says it is missing.",
  "every implementation, including ones whose lookups fail, every pair of paths",
  "the space of implementations and failures is unbounded",
  "driver/driver.go:Link")
p("Readlink returns the text of the link",
  "Whenever Readlink returns, it returns exactly the stored target of the symbolic link at the path, ErrInvalidArgument for anything else and ErrNotFound if there is nothing; it changes nothing. (That it does return is C45 and C46.)",
  "every tree, every link text, every block size",
  "link texts and trees are unbounded",
  "driver/driver.go:Readlink")
p("Remove deletes what the path names, and no directory that has entries",
  "Remove deletes the file, link or empty directory the path names and nothing else; a directory with entries other than . and .. is refused with ErrDirectoryNotEmpty and nothing changes.",
  "every tree and path",
  "trees and chains of links are unbounded",
  "driver/driver.go:Remove")
p("MkdirAll creates what is missing and accepts what exists",
  "After MkdirAll returns nil every directory on the path exists; it succeeds without changes if the directory already exists, and creates missing parents.",
  "every implementation, tree and path",
  "paths of any depth",
  "driver/driver.go:MkdirAll")
p("SameFile compares FAT file infos",
  "SameFile returns true exactly for two infos of the same file and never panics on infos the driver itself returned.",
  "every pair of directory entries",
  "the answer depends on the dynamic type behind Sys() for every entry",
  FAT+"driverbase.go:SameFile", FAT+"dirent.go:Sys")
p("ReadFile returns the contents of the file",
  "For every file whose chain covers its size, ReadFile returns exactly the first size bytes of the concatenated clusters.",
  "every volume, cluster size, chain and file size",
  "cluster sizes, chain lengths and sizes multiply; tests pick a few",
  FAT+"driverbase.go:ReadFile", FAT+"driverbase.go:listClusters", FAT+"driverbase.go:readCluster")
p("Reading a cluster reads that cluster's bytes",
  "readCluster(c) returns the sectors-per-cluster sectors that the FAT specification assigns to cluster c.",
  "every boot sector and cluster number",
  "arithmetic over all layouts",
  FAT+"driverbase.go:readCluster", FAT+"driverbase.go:getFirstSectorOfCluster", FAT+"driverbase.go:readAbsoluteSectors")
p("FAT directory entries decode to name, size, cluster and times",
  "NewDirentFromRaw returns NAME.EXT without padding, size, first cluster, block count, mode and timestamps of the raw entry, reports a free entry as missing, and never panics.",
  "every raw entry and cluster size",
  "every byte pattern of a 32-byte entry",
  FAT+"dirent.go:NewDirentFromRaw")
p("A directory cluster decodes to its entries up to the first free slot",
  "clusterToDirentSlice returns the decoded slots in order up to, and without, the first free one, for every cluster.",
  "every cluster contents and cluster size",
  "position of the free slot and contents are unbounded",
  FAT+"dirent.go:clusterToDirentSlice")
p("Readdir lists a FAT directory completely",
  "Readdir of a directory returns the entries of all its clusters up to the first free slot, also if the last cluster is full, and an error for anything that is not a directory.",
  "every directory chain and contents",
  "any number of clusters",
  FAT+"driverbase.go:Readdir", FAT+"driverbase.go:readDirFromDirent")
p("Unix V6 character devices agree with Go's file modes",
  "A mode that Go's os package uses for a character device (ModeDevice|ModeCharDevice) converts to the V6 character device type, and V6 character devices are shown with that mode.",
  "every mode and every V6 flag word",
  "2^32 modes and 2^16 words",
  "file_systems/unixv6/dirents.go:ConvertFSFlagsToStandard", "file_systems/unixv6/dirents.go:ConvertStandardFlagsToFS")
p("FSStat.TotalSizeBytes is block size times block count",
  "TotalSizeBytes equals BlockSize*TotalBlocks for exactly those volumes whose size fits in an int64.",
  "every 64-bit block size and block count",
  "2^128 pairs, the interesting ones at the overflow boundary",
  "api.go:FSStat.TotalSizeBytes")
p("Geometry sizes are right for every geometry",
  "TotalSizeBytes is the rounded-up number of bytes for every geometry that can be written down.",
  "every geometry, also those with 2^63 bits or more",
  "products of five 64-bit fields",
  "disks/disks.go:DiskGeometry.TotalSizeBytes")
p("The working directory is always a canonical absolute path",
  "After any history of Chdir, File.Chdir and other calls, Getwd returns an absolute path without empty, \".\" or \"..\" components; Chdir changes it to the directory the path leads to (through links), and fails with ErrNotADirectory, changing nothing, for anything else; relative paths then work from there.",
  "every history of a mounted driver, every path, every implementation",
  "histories are unbounded and implementations arbitrary",
  DRV+":Getwd", DRV+":Chdir", DRV+":chdirToObject", FILE+":File.Chdir")
p("Each operation makes only the calls it is for",
  "Looking calls (Stat, Lstat, ReadFile, ReadDir, Chdir, Readlink, Open) never change anything; CreateObject is called only by creating operations with the last name of the path and the given permissions, Unlink only by Remove and RemoveAll, Chmod/Chown/Chtimes only by their operations with the caller's values, Resize and WriteBlocks only by writing operations.",
  "every implementation, state, path and argument",
  "implementations are arbitrary programs",
  DRV)
p("OpenFile creates at most one object, and only a missing file",
  "OpenFile, Create and WriteFile make at most one CreateObject call, only if creation was requested and the path does not exist, with the requested name and permissions; when OpenFile fails, nothing new is left behind.",
  "every implementation, state, path, flags and permissions",
  "implementations and states are arbitrary",
  DRV+":OpenFile", DRV+":Create", DRV+":WriteFile")
p("Closing a file releases its object handle",
  "After Close of a File returned by OpenFile the object handle the driver obtained for it has been closed.",
  "every implementation, path and history of the file",
  "resource leaks need a statement over all histories",
  FILE+":File.Close", DRV+":OpenFile")
p("WriteFile reports storage failures",
  "If WriteFile returns nil the implementation accepted all data; a failure of the final flush is returned.",
  "every implementation and every pattern of failing writes",
  "failure patterns are unbounded",
  DRV+":WriteFile")
p("ReadDir of something that is not a directory is an error",
  "ReadDir (of a path or of an open file) returns ErrNotADirectory for anything that is not a directory, and never panics.",
  "every implementation, state and path",
  "implementations are arbitrary",
  DRV+":ReadDir", DRV+":readDir", FILE+":File.ReadDir")
p("Chtimes passes only supported timestamps",
  "An implementation's Chtimes gets the caller's access and modification time if it supports them and the undefined timestamp for everything else; the deletion time is never set.",
  "every implementation, path and pair of times",
  "feature sets and times are arbitrary",
  DRV+":Chtimes", "api.go:SupportsChtimesHandle")
p("The driver keeps the guarantees documented for implementations",
  "CreateObject is never called for an existing object, GetObject never for a nonexistent one, CreateHardLink never with a directory as source, Chmod only with permission bits (api.go).",
  "every operation, implementation and state",
  "the guarantees quantify over all call sequences",
  "api.go:FileSystemImplementer", "api.go:HardLinkImplementer", "api.go:SupportsChmodHandle", DRV)
p("The stub object handle answers every call",
  "Every method of NopObjectHandle returns: the zero Stat, empty names, ErrNotImplemented otherwise.",
  "every method of the interface and all arguments",
  "finitely many methods but all arguments",
  "driver/nopobject.go")
p("Stat and Name of an open file describe the file",
  "File.Stat reports the current size and attributes of the open file; its Name is the last component of the path.",
  "every implementation and every history of the open file",
  "histories are unbounded",
  FILE+":File.Stat", FILE+":FileInfo", FILE+":File.Name")
p("The storage is asked for existing whole blocks only",
  "Whatever a program does with a stream or a block cache, the fetch and flush callbacks are only ever called with the index of an existing block and a buffer of exactly one block; the same holds for ReadBlocks and WriteBlocks of the object under a File.",
  "every storage, every history of operations, every argument including negative and huge ones",
  "histories and arguments are unbounded; the property constrains what is not called",
  BS, BC, FILE+":NewFileFromObjectHandle")
p("Block device sizes and bounds",
  "GetMinBlocksForSize gives the least number of blocks that hold the size; CheckBounds accepts a request if and only if it lies inside the device; Size is BytesPerBlock times TotalBlocks.",
  "every block size, device size, start and buffer size a uint can hold",
  "the values are 64-bit",
  "file_systems/common/types.go:BlockDevice", BC+":GetMinBlocksForSize", BC+":CheckBounds", BC+":Size")
p("The image tools keep their input and exit with 0 only when the output is right",
  "zipimage (unzipimage) exits with 0 only if the output file holds the compressed (decompressed) input; it changes no other file; a failing run says so with a nonzero exit code and leaves an existing output alone.",
  "every host file system (including paths leading to the same file), every codec, every failure of opening, reading, writing and closing",
  "failure points and file contents are unbounded",
  "cmd/zipimage/main.go:main", "cmd/unzipimage/main.go:main")
p("disko format formats",
  "A successful run of the format command has written a file system image.",
  "every host file system and argument list",
  "claims about all argument lists",
  "cmd/main.go:formatImage")
p("Test images load unchanged or abort the test",
  "LoadDiskImage returns exactly the image that was compressed, of size sectorSize * totalSectors, or aborts the test.",
  "every compressed byte string and every pair of sizes",
  "the inputs are unbounded and the sizes 64-bit",
  "testing/images.go:LoadDiskImage")
p("The default test cache never fails a test by itself",
  "Whatever operations a test performs on a writable cache from CreateDefaultCache, or any reading operations on a read-only one, the helper does not fail the test, and the cache behaves as a byte array that starts as the backing data.",
  "every geometry, backing data and history of operations",
  "histories are unbounded",
  "testing/blockcache.go:CreateDefaultCache", BC)
p("A cache over a stream is a faithful view of the stream",
  "A cache made by WrapStream over any stream that keeps the contracts of io.Reader, io.Writer and io.Seeker behaves as a byte array that starts as the stream's contents; after a successful flush the stream holds that array.",
  "every stream within the contracts (including short reads and every pattern of failures), every geometry and history",
  "streams, failure patterns and histories are unbounded",
  BC+":WrapStream", BC+":seekToBlock")
p("A cache that may not be resized stays inside its blocks",
  "With allowResize false, no history of operations changes the size of the stream, the number of blocks, or any byte of the stream outside the blocks of the cache.",
  "every stream within the contracts, every geometry, every history and argument",
  "streams and histories are unbounded; the property constrains what does not happen",
  BC+":WrapStream", BC+":Resize")
p("A cache with inferred size covers the stream",
  "WrapStreamWithInferredSize gives a cache of exactly the whole blocks of the stream, or reports that the size cannot be determined.",
  "every stream, including failing ones, and every block size",
  "sizes are 64-bit and streams arbitrary",
  BC+":WrapStreamWithInferredSize")
p("Caches and files over the same storage see each other's changes",
  "Several caches over one storage (or several files opened on one path), used alternately, behave as one byte array: every read returns the last bytes written and flushed through any of them, and no successful write is lost.",
  "every storage within the contract, every number of caches, every interleaving of operations and failures",
  "interleavings are unbounded and the failing ones need two handles used alternately",
  BC+":BlockCache", BC+":FlushAll", BC+":loadBlockRange", DRV+":OpenFile")
p("The slices a cache hands out are the cache's contents",
  "A slice returned by GetSlice or Data stays a window on the cache for as long as the program keeps it: bytes changed through it are what later reads, other slices and (once marked dirty) the storage after a successful flush have, and changes made by other operations show in it.",
  "every storage within the contract, every history of operations, slices taken, reads and writes through them, marks, resizes and failures",
  "aliasing: any number of overlapping slices live across any history",
  BC+":GetSlice", BC+":Data", BC+":MarkBlockRangeDirty", BC+":Resize")
p("Compressed sizes are as documented",
  "The size of the output of both compressors is the documented function of the input's maximal runs (three bytes per 257 bytes of a run for RLE8; recursive RLE better for runs over 258 bytes), with the documented sizes for 2048 bytes, 128 KiB and 1 MiB; RLE8 never grows data by more than half nor shrinks it below 3/257, and decompression never writes more than 257 bytes for three read.",
  "every input, every compressed stream whether valid or not, every run length",
  "sizes must hold for every run structure; the documented figures are for inputs no test builds",
  RLE+":CompressRLE8", RLE+":CompressRLERecursive", RLE+":DecompressRLE8")
p("Handles are used only while they are open",
  "Whatever a program does with a mounted driver and the files it opens, no object handle is used (looked up in, created in, linked, read, written, resized, listed, unlinked, or given attributes) after it was closed, and no handle is used or closed that the implementation did not return earlier; the handle of an opened file is not closed by any other call.",
  "every implementation with every failure behaviour, every mount mode of handles, every history of driver calls and file calls, up to and including a last call that panics or does not return",
  "use after close depends on the history, on failures midway and on symbolic links in every position of a path",
  DRV+":getObjectAtPathNoFollow", DRV+":resolveSymlink", DRV+":removeDirectory", DRV+":OpenFile", DRV+":Link", FILE+":File")
p("SameFile on a FAT8 volume",
  "SameFile is an equivalence on file names; two names are the same file exactly when FAT8 stores them as the same directory entry name, and two directory entries are the same file exactly when their stored names are the same up to case.",
  "every pair of ASCII names, every pair of nine-byte directory entry names",
  "quantifies over all pairs of names; collisions need names no test has",
  F8+"readingdriver.go:SameFile", F8+"common.go:FilenameToBytes", F8+"common.go:BytesToFilename")
p('Wrapping adds identities and loses no sentinel',
  'A driver error wrapped around any error matches (errors.Is) everything the driver error matched; it matches a sentinel exactly if one of the two did; a chain of wraps of any length still matches what it started from.',
  'every driver error, every wrapped error, chains of every length',
  'all error trees',
  "errors.go:Wrap")
p('Block ranges that fit 64 bits are bounds-checked',
  "GetSlice and MarkBlockRangeDirty on a range inside the cache succeed and GetSlice returns exactly the contents of the range (or the storage's error); on any other range they return ErrArgumentOutOfRange and change nothing; they never panic.",
  'every cache reachable by any history over any storage, every start and every count whose byte counts fit in 64 bits',
  'all starts, counts and histories',
  BC+":GetSlice", BC+":MarkBlockRangeDirty", BC+":CheckBounds")
p('A Read that fills the buffer advances by it',
  'Read that returns nil filled the whole buffer with the bytes at the position and advanced it by their number; Read that returns an error leaves the position; neither changes the contents.',
  'every stream reachable by any history, every buffer length and storage',
  'all histories',
  BS+":Read")
p('What WriteAt accepts can be read back',
  "After WriteAt(buf, off) returned nil its count is len(buf), the bytes at off are buf, every other byte is what it was, the position has not moved, and (while storage can be read) ReadAt of that range inside the stream's size returns buf.",
  'every stream reachable by any history over any storage, every offset and buffer',
  'all histories and offsets',
  BS+":WriteAt")
p('Append streams keep what they have',
  'On a stream opened with O_APPEND, WriteAt is refused and changes nothing, and after any history of operations other than Truncate the stream is at least as long as before and its first bytes are exactly the old contents.',
  'every stream, storage and history of any length',
  'unbounded histories',
  BS+":Write", BS+":WriteAt")
p('Truncate sets the size and keeps the prefix',
  'After Truncate(n) returned nil, n is not negative, the size is n, the position has not moved, the first min(n, old size) bytes are unchanged, bytes beyond the old blocks are zero, and if the old size was a whole number of blocks all new bytes are zero.',
  'every stream reachable by any history, every n',
  'all sizes and histories',
  BS+":Truncate")
p('Stream operations with offsets from 0 on never panic',
  'Read, ReadAt, Write, WriteAt, Seek (any offset and whence), Truncate (any size, also negative) and Sync return, and leave a stream that has the same guarantee.',
  'every stream reachable by any history, every non-negative file offset whose end fits in 63 bits',
  'all histories',
  BS)
p('WriteTo delivers the rest of the stream in order',
  "WriteTo hands the destination consecutive pieces that together are the stream's bytes from the position on, returns their total number, and, unless the storage fails, that is everything up to the end; the stream's contents do not change.",
  'every stream, storage, destination writer and block size',
  'all histories, storages and writers',
  BS+":WriteTo")
p('Closing a healthy non-empty stream succeeds',
  'If the storage accepts all blocks, Close of a stream that has at least one block returns nil and loses no byte.',
  'every stream reachable by any history with at least one block',
  'all histories',
  BS+":Close", BS+":Sync")
p('WriteDiskBlocks is exact',
  "WriteDiskBlocks succeeds exactly if the data is a whole number of blocks that lie inside the image; then the addressed blocks hold the data, every other byte and the image's length are unchanged; otherwise nothing changes.",
  'every reachable FAT8 driver and image, every start block and data',
  'all histories, starts and lengths',
  F8+"iobase.go:WriteDiskBlocks")
p('FAT8 names are stored as documented',
  'Every non-empty ASCII name is refused with ErrNameTooLong exactly if its stem is longer than 6 or its extension longer than 3; otherwise its stored form is 9 bytes, upper case, padded with blanks; every stored name can be shown; and storing the shown form again gives the same 9 bytes.',
  'every ASCII name, every 9 byte directory entry name whose shown form is not empty',
  'all names',
  F8+"common.go:FilenameToBytes", F8+"common.go:BytesToFilename")
p('FAT8 histories without wrapped ranges never panic',
  'Whatever the image, its size and the failures of the device, no history of FormatImage, Mount, Flush, Unmount, block and cluster reads and writes and GetFAT panics, if no request for 2^56 or more blocks wraps around the end of the 64-bit block numbers.',
  'every history of any length, every image and device behaviour',
  'unbounded histories',
  F8+"driver.go:Mount", F8+"iobase.go:ReadDiskBlocks", F8+"formattingdriver.go:FormatImage")
p('Listing a cluster chain returns unless the table has a loop',
  'For every FAT with N clusters listClusters returns within N+1 steps from every start, except exactly if the chain runs into a loop, and then it never returns.',
  'every table and start cluster',
  'all tables',
  FAT+"driverbase.go:listClusters")
p('FAT access, modification and creation times are registers',
  'After any sequence of setters the access, modification and creation times are each the last accepted time set for it, times before 1980 are refused without effect, later ones accepted, and nothing else of the entry changes.',
  'every entry and every sequence of setters (the creation time while the entry is not deleted)',
  'unbounded sequences',
  FAT+"dirent.go:SetCreatedAt", FAT+"dirent.go:SetLastModifiedAt", FAT+"dirent.go:SetLastAccessedAt")
p('Getwd is always canonical',
  'After any history of Chdir, File.Chdir and other calls, Getwd is an absolute path whose components are proper names (no empty, . or .. component), and the mount flags never change.',
  'every implementation, every history of any length',
  'unbounded histories',
  DRV+":Getwd", DRV+":Chdir", FILE+":File.Chdir")
p('Opening creates at most one object, and only a missing one',
  "OpenFile, Create and WriteFile make at most one CreateObject call; OpenFile makes it only if O_CREATE is set and Stat of the path says ErrNotFound, with the path's last name and exactly the requested permissions.",
  'every implementation, path, flags and state',
  'all implementations and paths',
  DRV+":OpenFile", DRV+":Create", DRV+":WriteFile")
p('Streams and caches touch existing whole blocks only',
  'Nothing a program does with a stream or a cache depends on what its storage does outside its existing blocks or with buffers that are not one block long: two storages that agree inside give the same results, errors and storage states.',
  'every storage, block size, stream or cache history',
  'unbounded histories and storages',
  BS, BC)
p('Block counts and bounds for sizes that fit',
  'GetMinBlocksForSize is the least number of blocks that hold the size, CheckBounds accepts exactly the ranges inside the device, and Size is BytesPerBlock times TotalBlocks.',
  'every block size, count and request whose byte counts fit in 63 bits (64 for GetMinBlocksForSize)',
  'all sizes',
  BC+":GetMinBlocksForSize", BC+":CheckBounds", BC+":Size")
p('zipimage and unzipimage are inverse on distinct files',
  'If zipimage exits with 0 its output decompresses to the input, if unzipimage exits with 0 its output is the decompressed input, and neither changes another file; zipping and unzipping a file gives it back; a wrong number of arguments exits with 1 and touches nothing.',
  'every file, host file system, codec that inverts itself and failure of reading or writing, for output paths that are not the input file and hosts that report no error only on closing',
  'all files and hosts',
  "cmd/zipimage/main.go:main", "cmd/unzipimage/main.go:main")
p('LoadDiskImage returns exactly the image',
  'LoadDiskImage returns bytes exactly if they are what the compressed image decompresses to and their number is sectorSize times totalSectors; what CompressImage made of an image loads as that image.',
  'every compressed image, sector size and number of sectors whose product fits in 63 bits',
  'all images',
  "testing/images.go:LoadDiskImage")
p('A cache over a stream that reads in full is a faithful view',
  "For every stream that keeps the contracts of io.Seeker and io.Writer and whose Read fills the buffer or fails, the cache behaves as a byte array that starts as the stream's contents, and after a successful flush the stream holds that array.",
  'every such stream with any other failures, every history of cache operations',
  'unbounded histories',
  BC+":WrapStream")
p('Caches that change different blocks agree',
  'Several caches over one storage, used in any interleaving in which every changed block is used by one cache only, behave as one byte array, and flushing them all stores exactly that array; a cache opened after another was flushed sees all of its contents; no interleaving panics.',
  'every number of caches, every interleaving of any length',
  'all interleavings',
  BC)
p('Slices are windows on the cache until Resize',
  'In every history of cache operations and uses of slices (writes inside their length), each slice taken reads and writes exactly its part of the array it was taken from, all slices and operations share that array until a Resize replaces it, and after a successful flush storage holds all blocks that were not changed without being marked.',
  'every history, any number of slices',
  'unbounded histories',
  BC+":GetSlice", BC+":Data", BC+":MarkBlockRangeDirty")
p('Compressed sizes are determined by the maximal runs',
  "The sizes of both compressors' outputs are sums of documented per-run sizes over the unique maximal runs of the input; RLE8 output is at least 3/257 and at most 3/2 of the input; recursive RLE is at most one byte per run of 257 longer than RLE8; decompressed output is at most 257/3 of its input.",
  'every input and every stream',
  'all inputs',
  RLE+":CompressRLE8", RLE+":CompressRLERecursive", RLE+":DecompressRLE8")
p('SameFile on FAT8 is an equivalence that respects storage',
  'SameFile is reflexive, symmetric and transitive, true exactly for names equal up to ASCII case, and names that are the same file have the same stored form (or the same error).',
  'every pair and triple of ASCII names',
  'all names',
  F8+"readingdriver.go:SameFile")
p("How the input is cut into reads does not matter to the codecs",
  "CompressRLE8, DecompressRLE8 and CompressRLERecursive write, count and return the same for any two readers that deliver the same bytes and end with the same error, whatever pieces they deliver them in, with empty reads in between, and whether the error comes with the last bytes or after them; 100 empty reads in a row end the input with io.ErrNoProgress.  The round trip holds through any two such readers.",
  "every io.Reader within its contract, every way of splitting every input, every writer behaviour",
  "quantifies over all schedules of partial reads",
  GRP+":NewRLEGrouperFromReader", GRP+":GetNextRun", RLE+":CompressRLE8", RLE+":DecompressRLE8", RLE+":CompressRLERecursive")
p("Create and OpenFile with O_CREATE make the missing file",
  "On a writable mount of a healthy file system, Create of a name that does not exist in the root directory returns a file, the directory then has exactly one entry more, an empty file of that name, and the returned file can be read and changed; OpenFile does the same for every flag word with O_CREATE (readable exactly if asked for) and fails with ErrNotFound, changing nothing, without O_CREATE.",
  "every proper name, every directory contents, every block size, flag word without O_TRUNC, permission bits and working directory",
  "ranges over all directories, names and flag words",
  DRV+":Create", DRV+":OpenFile", FILE+":NewFileFromObjectHandle")
p("Image compression with any reader, any writer and any gzip",
  "CompressImage always returns; it returns no error exactly if the input ended without an error and every Write on the output succeeded, and then the output received exactly gzip's stream of the RLE8 form of the input and the count is its length; otherwise the output received a first part of it and an input error is reported as it is. DecompressImage and DecompressImageToBytes report an input gzip cannot open (leaving the output alone), an error of gzip in mid-stream, a bad RLE8 stream and a failed Write; without an error the output is the whole image. Compressing and decompressing gives the image back.",
  "every io.Reader and io.Writer that keeps its contract, cutting the data anywhere and failing at any call, every gzip given as a call-by-call compressor, every image",
  "ranges over all readers, writers, failure points and images",
  CMP+":CompressImage", CMP+":DecompressImage", CMP+":DecompressImageToBytes", CMP+":countingWriter")
p("The geometry table is read from its text as it stands",
  "For every text - the columns in any order, fields quoted or not, bars, quotation marks, line ends and carriage returns inside quoted fields, either kind of line end, empty lines anywhere - the package starts up exactly if the text is a well-formed table with a header, every row has as many fields as the header, every numeric field is a decimal number below 2^64 and no two rows have the same slug, and panics otherwise; a text that is not a table has a misquoted record somewhere, and no text is two tables; afterwards a lookup finds exactly the disks the rows describe, field by field. The file shipped in the repository is such a table and gives the 34 known geometries in order.",
  "every text whatsoever, well-formed or not",
  "ranges over all tables and all ways of writing them",
  "disks/disks.go:init", "disks/disks.go:GetPredefinedDiskGeometry", "disks/disk-geometries.csv")
p("A file obeys the access it was opened with",
  "A file opened without write access refuses every Write, WriteAt and Truncate with ErrNotPermitted, changes nothing, and never makes the implementation do anything but read blocks of that object, at whatever point of its use and whatever others do meanwhile; one opened without read access refuses every Read and ReadAt and leaves the buffer as it was. With read access ReadAt delivers exactly the bytes the object had when it was opened (EOF exactly if there are fewer than asked for), as long as nobody changes its blocks. A file starts at position 0, Seek moves it, Read reads where it stands. Open works whatever the mount allows, gives the object the path leads to, and its files are of the first kind.",
  "every implementation, path, working directory, flags, sequence of calls on the file and of foreign changes, every buffer and offset",
  "ranges over all implementations, all histories of the file and all interleavings with other users",
  DRV+":OpenFile", DRV+":Open", FILE+":NewFileFromObjectHandle", BS+":ReadAt", BS+":Write", BS+":Truncate")
p("What is written to an open file is read back from it, and stored",
  "Whatever calls a program makes on an open file, in whatever order, they give the answers an array of bytes gives: what was written is what is read back, Seek and Write move the position, a file opened for appending writes at its end. What has been written is in the file system once Sync or Close has reported success.",
  "every implementation with reliable and honest reads, every file opened without O_TRUNC, every sequence of calls that does not make the file grow or shrink, interleaved with anything others do elsewhere",
  "ranges over all histories of an open file",
  DRV+":OpenFile", FILE+":File", BS+":implWriteAt", BS+":ReadAt", BS+":Write", BS+":Seek", BS+":Sync", BC+":FlushAll")
p("Chmod, Chown and Chdir of an open file act on the object that was opened",
  "Chmod and Chown of an open file make exactly one call, with the values given, to the object that was opened, and report its error; they report ErrNotSupported if and only if the object has no such method. Chdir fails with ErrNotADirectory and does nothing, since only regular files can be opened.",
  "every implementation, path, flags, use of the file and foreign changes before the call, every mode, owner and group",
  "ranges over all implementations and all histories of the file",
  FILE+":File.Chmod", FILE+":File.Chown", FILE+":File.Chdir", DRV+":chdirToObject")
p("A directory listing describes the entries",
  "ReadDir returns the names the directory lists, without . and .., in that order, each with the name, size, mode, directory bit and modification time of the object found under it, up to the first that cannot be found, whose error is then reported.",
  "every implementation, path and directory",
  "ranges over all implementations and directories",
  DRV+":ReadDir", DRV+":readDir", "driver/dirent.go:DirectoryEntry")
p("Formatting a blank FAT8 image gives the reference image shipped with the driver",
  "FormatImage on an empty or blank file with 2002 or 640 sectors leaves exactly the bytes of testdata/empty-floppy.img or testdata/empty-minifloppy.img.",
  "every driver state, every blank file of any length",
  "the tests that mean to check it compare the formatted image with itself (expectedSector is taken from imageContents), and could only try single starting files",
  "file_systems/fat8/formattingdriver.go:FormatImage", "file_systems/fat8/formattingdriver_test.go:ValidateImage")
p("FAT Stat describes the named entry",
  "Stat and Lstat of a path on a FAT volume return the attributes stored in the directory entry of that name, and an error if there is no such entry or the directory cannot be read.",
  "every implementation of the FAT variant, every directory content, every path, every device behaviour",
  "the driver is untested; a test could only try single volumes",
  "file_systems/fat/driverbase.go:Stat", "file_systems/fat/driverbase.go:resolvePathToDirent", "file_systems/fat/dirent.go:AttrFlagsToFileMode")
p("FAT operations change no more than they are asked to",
  "Stat, Lstat, Readdir and ReadFile never update or delete an entry and never free a cluster. Chmod and Chtimes update at most one entry, the one the path leads to, keeping everything in it but the mode, or the times of access and modification. Remove deletes at most one entry, before it frees any cluster, and frees none if the deletion fails. The directory it names is that of the path without its last component.",
  "every implementation of the FAT variant and every device, including failing and corrupt ones; every path; also when the operation panics or does not end",
  "a test sees the calls of single runs",
  "file_systems/fat/driverbase.go:Stat", "file_systems/fat/driverbase.go:Readdir", "file_systems/fat/driverbase.go:ReadFile", "file_systems/fat/driverbase.go:Chmod", "file_systems/fat/driverbase.go:Chtimes", "file_systems/fat/driverbase.go:Remove")
p("FAT operations report every failure of the volume",
  "If a FAT entry or a sector cannot be read (an error or a short read), the root directory cannot be listed, a cluster cannot be freed or an entry cannot be updated or deleted, then the running Stat, Readdir, ReadFile, Chmod, Chtimes or Remove ends there, with that error, and calls nothing further.",
  "every implementation of the FAT variant, every device and every point at which a call can fail; every path",
  "a test can inject single failures; this ranges over every failing call of every run",
  "file_systems/fat/driverbase.go:readAbsoluteSectors", "file_systems/fat/driverbase.go:listClusters", "file_systems/fat/driverbase.go:readDirFromDirent", "file_systems/fat/driverbase.go:resolvePathToDirent", "file_systems/fat/driverbase.go:ReadFile", "file_systems/fat/driverbase.go:Remove")
p("Caches and streams report every failure of their storage",
  "If fetching a block, flushing a block or resizing fails, then the running operation of the block cache (ReadAt, WriteAt, GetSlice, LoadAll, Data, FlushAll, Resize) or of the stream over it (New, Read, ReadAt, Write, WriteAt, Truncate, Sync, Close, ReadFrom, WriteTo) calls the storage no further and returns that error (possibly with a message around it); an operation that returns no error had no failing call.",
  "every storage and every point at which a call can fail; every state and argument",
  "a test can inject single failures; this ranges over every failing call of every run",
  "file_systems/common/blockcache/blockcache.go:loadBlockRange", "file_systems/common/blockcache/blockcache.go:flushBlockRange", "file_systems/common/blockcache/blockcache.go:Resize", "file_systems/common/basicstream/basicstream.go:implWriteAt", "file_systems/common/basicstream/basicstream.go:Truncate", "file_systems/common/basicstream/basicstream.go:ReadFrom", "file_systems/common/basicstream/basicstream.go:WriteTo")
p("Driver operations report every failure of the file system implementation",
  "If the implementation fails to look up, create, link, list or unlink an object, to resize it, to read or write a block, or to change its mode, owner or times, then the running operation makes no further call (except closing handles) and returns that error, or ErrIOFailed wrapping it; an operation that returns no error had no failing call, except that opening with O_CREATE may take 'not found' as an answer. The same holds for the methods of open files.",
  "every implementation, every point at which a call can fail; every path operation, argument and state",
  "a test can inject single failures; this ranges over every failing call of every run",
  "driver/driver.go:getObjectAtPathNoFollow", "driver/driver.go:getObjectAtPathFollowingLink", "driver/driver.go:OpenFile", "driver/driver.go:Link", "driver/driver.go:WriteFile", "driver/driver.go:RemoveAll", "driver/driver.go:ReadDir", "driver/file.go:File")
p("The run grouper works on every byte scanner and reader",
  "From any io.ByteScanner that keeps its contract, and through NewRLEGrouperFromReader from any io.Reader, GetNextRun takes the longest run of the next byte and leaves the scanner in front of the byte after it; the last run comes with io.EOF; an input that fails gives its error and no run. Calling it until it returns an error spells out the whole input in maximal runs.",
  "every byte scanner and reader within its contract, every input and ending, every way of splitting it into reads",
  "scanners, readers and inputs are all unbounded",
  "utilities/compression/rle_grouper.go:GetNextRun", "utilities/compression/rle_grouper.go:NewRLEGrouperFromReader", "utilities/compression/rle_grouper.go:NewRLEGrouperFromByteScanner")
p("The run grouper reports every failure of its scanner",
  "If ReadByte or UnreadByte of the underlying scanner fails during a GetNextRun, that call returns the error; a call that returns no error has met no failure, so no byte is lost unnoticed.",
  "every byte scanner with any failures at any call",
  "a test injects single failures; this ranges over every scanner",
  "utilities/compression/rle_grouper.go:GetNextRun")
p("A FAT boot sector is read from any reader",
  "However the reader splits its bytes, NewFATBootSectorFromStream takes exactly the first 40 and its result depends on them only; if there are fewer it returns an error that is ErrIOFailed and wraps the reader's own (io.EOF if a part had no byte at all, io.ErrUnexpectedEOF if it was cut off).",
  "every io.Reader within its contract, with any pieces, empty reads and failures",
  "readers and ways of splitting are unbounded",
  "file_systems/fat/common.go:NewFATBootSectorFromStream")
p("Opening a file copes with whatever sizes its handle reports",
  "NewFileFromObjectHandle (and so OpenFile) never panics: it succeeds exactly when the Size its handle reports is between 0 and BlockSize times NumBlocks, with the position at 0 and that size, and otherwise returns an error; without O_TRUNC it changes nothing.",
  "every implementation and every Size, BlockSize and NumBlocks its handles can report",
  "three 64-bit numbers; the multiplication can overflow",
  "driver/file.go:NewFileFromObjectHandle", "file_systems/common/blockcache/blockcache.go:New", "file_systems/common/basicstream/basicstream.go:New")
p("FAT8 names of any characters are stored in nine bytes and come back",
  "FilenameToBytes accepts every name whose stem takes at most six bytes and whose extension takes at most three, stores it in exactly nine bytes, and BytesToFilename shows the capitals of the name for them, whatever characters the name consists of; BytesToFilename shows every nine-byte entry, whatever its bytes; Stat finds an entry by its name in capital or small letters.",
  "every string of bytes, every UTF-8 string, every table of capital letters",
  "there are infinitely many strings, and lengths in bytes and in characters differ only outside ASCII",
  "file_systems/fat8/common.go:FilenameToBytes", "file_systems/fat8/common.go:BytesToFilename", "file_systems/fat8/readingdriver.go:Stat")
p("FAT8 SameFile is an equivalence on names of any characters",
  "SameFile returns for every two names, says whether they agree character by character up to case, and is an equivalence relation, also for characters outside ASCII and for bytes that are no characters.",
  "every two strings of bytes, every enumeration of the classes of characters that differ by case",
  "ranges over all strings; the comparison loops over classes of characters",
  "file_systems/fat8/readingdriver.go:SameFile")
p("FAT8 names that are the same file are stored alike, for any characters",
  "Two UTF-8 names that SameFile calls the same file are stored as the same bytes, or both refused with the same error.",
  "every two UTF-8 strings, every table of capital letters and of classes of characters",
  "ranges over all strings and all characters",
  "file_systems/fat8/readingdriver.go:SameFile", "file_systems/fat8/common.go:FilenameToBytes")
p("A stream is compressed and read to its end",
  "Given a stream at any position, CompressRLE8, CompressRLERecursive, DecompressRLE8, CompressImage and io.ReadAll see exactly the bytes from its position to its end, once each, although the last Read gives its bytes together with io.EOF and does not advance; an image compressed from one stream and decompressed from another is the image; the stream's contents do not change.",
  "every storage that does not fail, every history of the stream, every position and size, every writer, every growth of the buffer of io.ReadAll",
  "the reads of the stream, of bufio and of append cut the contents at places that depend on all the sizes together",
  "file_systems/common/basicstream/basicstream.go:Read", "utilities/compression/rle8.go:CompressRLE8", "utilities/compression/rle8.go:DecompressRLE8", "utilities/compression/compression.go:CompressImage")
p("A failure of the storage under a stream is reported by whoever reads the stream",
  "If the storage under a stream fails while the stream is compressed or read with io.ReadAll, the operation returns an error, and the bytes it processed are the first bytes of the rest of the stream; without an error it processed all of them.",
  "every storage, failing at any call with any error, every history of the stream, every position and size",
  "the failing call and the kind of its error are the storage's choice",
  "file_systems/common/basicstream/basicstream.go:ReadAt", "file_systems/common/blockcache/blockcache.go:loadBlockRange", "utilities/compression/rle_grouper.go:GetNextRun", "utilities/compression/rle8.go:DecompressRLE8")
p("Copying one stream into another copies, or says that it did not",
  "io.Copy(dst, src) (which calls src.WriteTo(dst)) and dst.ReadFrom(src) between two streams put the bytes from src's position to its end over those of dst from its position on, change nothing else, and return their number and no error; if they cannot do that, they return an error.",
  "every two storages that do not fail, all block sizes, every history of the two streams, all positions and sizes",
  "where the writes start and end depends on both block sizes and positions, and whether a write is accepted on the number of blocks of the destination",
  "file_systems/common/basicstream/basicstream.go:WriteTo", "file_systems/common/basicstream/basicstream.go:ReadFrom", "file_systems/common/basicstream/basicstream.go:Write")
p("io.ReadFull reads a stream record by record",
  "io.ReadFull on a stream fills the buffer with the next bytes and moves behind them if there are enough; otherwise it returns the bytes that are left with io.ErrUnexpectedEOF (io.EOF if there are none) and the position stays, so trying again gives the same result. One call after the other gives consecutive pieces of the stream; a failure of the storage is reported. A FAT boot sector read from a stream depends only on the next 40 bytes.",
  "every storage, every history of the stream, every position, every sequence of record sizes",
  "the block size, the position and the record sizes together decide which blocks each read touches",
  "file_systems/common/basicstream/basicstream.go:Read", "file_systems/fat/common.go:NewFATBootSectorFromStream")
p("A partition of an image can be read on its own",
  "io.NewSectionReader(stream, off, n) gives exactly the bytes of the stream from off on, n of them or as many as there are, once each and in order, then io.EOF; neither the contents nor the position of the stream change. So the codecs compress and decompress a section like a file of its bytes, and the boot sector of a FAT partition is that of the partition's bytes. A read whose fetch fails gives no bytes and that error and leaves the section where it was; unless the storage's error is io.EOF, a codec that reports no error has seen the whole section.",
  "every storage, every history of the stream, all offsets, sizes and buffer lengths",
  "how a section's reads fall on blocks depends on the offset, the block size and the buffer together",
  "file_systems/common/basicstream/basicstream.go:ReadAt", "utilities/compression/rle8.go:CompressRLE8", "file_systems/fat/common.go:NewFATBootSectorFromStream")
p("An image can be restored onto a stream, or an error says that it was not",
  "DecompressImage into a stream opened for writing, at a position from which the image fits into the stream, puts the whole image there, changes no other byte and returns its length and no error when the storage does not fail; CompressImage into a stream likewise puts the compressed image there. Whatever fails (the input, gzip, the image, the storage, a Write that is refused) is reported, and no byte outside the image's place ever changes.",
  "every storage, every history of the stream, every position, block size and image, every gzip",
  "which Write calls a codec makes depends on the data, and whether one succeeds on where it falls in the blocks",
  "utilities/compression/compression.go:CompressImage,DecompressImage", "utilities/compression/rle8.go:DecompressRLE8", "file_systems/common/basicstream/basicstream.go:Write")
p("The FAT8 driver's refusals can be told apart with errors.Is",
  "When the FAT8 driver refuses a request on a working image, errors.Is connects the error with the library's error for the situation: ErrBusy or ErrAlreadyInProgress for a mounted driver, ErrInvalidArgument for a size that cannot be formatted, ErrFileSystemCorrupted for an image that is not FAT8 or has different FATs, ErrIOFailed for blocks or clusters outside the image or data of the wrong length.",
  "every driver state, image, size, block, cluster and buffer",
  "each refusal is decided by several tests in a row, in different functions, and which one fires first depends on all arguments and the state",
  "file_systems/fat8/iobase.go:ReadDiskBlocks,WriteDiskBlocks,ReadAbsoluteCluster,WriteAbsoluteCluster", "file_systems/fat8/formattingdriver.go:FormatImage", "file_systems/fat8/driver.go:Mount", "file_systems/fat8/common.go:GetGeometry")
p("Errors are recognised by the tests callers of os functions use",
  "The API is meant as a drop-in replacement for os: an error made by the library for a situation the standard library has an error for (fs.ErrNotExist, fs.ErrExist, fs.ErrPermission, ...) is recognised as that error by errors.Is; an error from elsewhere that the library wrapped stays recognisable through any number of messages, wraps and casts.",
  "every error made with NewError, the exported errors, WithMessage, Wrap and CastToDriverError, in any combination, from any errors from elsewhere; every target",
  "the errors form arbitrarily deep trees",
  "errors.go:WithMessage,Wrap,CastToDriverError,Unwrap", "api.go:File")
#NEXT
out = os.path.join(os.path.dirname(os.path.abspath(__file__)), "..", "properties.jsonl")
with open(out, "w") as f:
    for o in P: f.write(json.dumps(o) + "\n")
print(len(P))
