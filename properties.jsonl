{"id": "C01", "title": "RLE8 round trip", "statement": "For every byte string D, DecompressRLE8 applied to the output of CompressRLE8 on D succeeds and writes exactly D; the two returned int64 values are the exact numbers of bytes written to the respective outputs.", "quantifier": "every finite byte string, including runs longer than math.MaxInt that the grouper splits", "why_tests_cant": "the space of inputs is infinite and the interesting cases (runs of 257, 258, 259, runs split by the grouper, adjacent equal literals) interact; a test samples a few", "anchors": ["utilities/compression/rle8.go:CompressRLE8", "utilities/compression/rle8.go:DecompressRLE8"]}
{"id": "C02", "title": "RLE8 decoder accepts exactly the well-formed streams", "statement": "DecompressRLE8 succeeds on a byte string exactly when it is a sequence of literals b and groups b b n in which no literal b is directly followed by an item starting with b; it then writes the concatenated meaning (b, resp. n+2 copies of b). On every other byte string it fails with io.ErrUnexpectedEOF, which happens only when the input ends right after a doubled byte. It never fails otherwise and never panics.", "quantifier": "every finite byte string given to the decoder", "why_tests_cant": "acceptance/rejection of all malformed streams cannot be enumerated by tests", "anchors": ["utilities/compression/rle8.go:DecompressRLE8"]}
{"id": "C03", "title": "RLE8 output is the shortest valid encoding", "statement": "For every byte string D, no byte string that DecompressRLE8 expands to D is shorter than the output of CompressRLE8 on D; in particular the output is at most 3/2 the size of D.", "quantifier": "every byte string D and every valid encoding of D", "why_tests_cant": "quantifies over all competing encodings of all inputs", "anchors": ["utilities/compression/rle8.go:CompressRLE8", "utilities/compression/doc.go"]}
{"id": "C04", "title": "Input failures are never reported as success by the codec", "statement": "If the input stream fails with an error other than io.EOF after delivering some bytes, CompressRLE8 and DecompressRLE8 return a non-nil error that wraps it; what was already written is a prefix of what would have been written had the stream continued in any way at all.", "quantifier": "every byte string delivered before the failure, every failure position, every possible continuation", "why_tests_cant": "every failure point of every input", "anchors": ["utilities/compression/rle8.go:CompressRLE8", "utilities/compression/rle8.go:DecompressRLE8", "utilities/compression/rle_grouper.go:GetNextRun"]}
{"id": "C05", "title": "Output failures are never reported as success by the codec", "statement": "If any Write to the output fails (possibly after a partial write), CompressRLE8, DecompressRLE8 and CompressRLERecursive return a non-nil error carrying it, and the bytes that reached the output are a prefix of the complete output; if no Write fails the result is independent of how the writer behaves.", "quantifier": "every input and every schedule of successful, failing and partial writes", "why_tests_cant": "every fault schedule of every input", "anchors": ["utilities/compression/rle8.go:CompressRLE8", "utilities/compression/rle8.go:DecompressRLE8", "utilities/compression/rle8.go:CompressRLERecursive"]}
{"id": "C06", "title": "The run grouper partitions its input into maximal runs", "statement": "Calling GetNextRun until io.EOF yields runs of length at least 1 whose expansion concatenates to the input; two consecutive runs have different byte values unless the first has the maximum length; a run is returned with io.EOF exactly when it is the last one; a zero-length run always comes with a non-nil error.", "quantifier": "every byte string and every stream ending (EOF or failure)", "why_tests_cant": "all inputs and all endings", "anchors": ["utilities/compression/rle_grouper.go:GetNextRun"]}
{"id": "C07", "title": "Recursive RLE round trip", "statement": "For every byte string D, DecompressRLERecursive applied to the output of CompressRLERecursive on D succeeds and writes exactly D.", "quantifier": "every finite byte string", "why_tests_cant": "infinite input space (the repository has no test at all for this pair)", "anchors": ["utilities/compression/rle8.go:CompressRLERecursive", "utilities/compression/rle8.go:DecompressRLERecursive"]}
{"id": "C08", "title": "Recursive RLE agrees with RLE8 on short runs and never loses information", "statement": "On every byte string all of whose runs are at most 256 long, CompressRLERecursive writes exactly what CompressRLE8 writes; and on all inputs two different byte strings never have the same CompressRLERecursive output.", "quantifier": "every byte string; every pair of byte strings", "why_tests_cant": "quantifies over all (pairs of) inputs", "anchors": ["utilities/compression/rle8.go:CompressRLERecursive", "utilities/compression/rle8.go:CompressRLE8"]}
{"id": "C09", "title": "Image compression round trip through gzip", "statement": "Given a gzip codec whose decoder inverts its encoder, DecompressImage and DecompressImageToBytes applied to what CompressImage wrote return exactly the original image, CompressImage returns the exact number of bytes that reached the output, and a compressed stream whose gzip layer reports an error never decompresses successfully.", "quantifier": "every image and every damaged compressed stream", "why_tests_cant": "all images and all ways a stored image can be damaged", "anchors": ["utilities/compression/compression.go:CompressImage", "utilities/compression/compression.go:DecompressImage", "utilities/compression/compression.go:DecompressImageToBytes", "utilities/compression/compression.go:countingWriter"]}
{"id": "C10", "title": "Error identity survives WithMessage and separates the sentinels", "statement": "For every sentinel X and every sequence of messages, errors.Is(X.WithMessage(m1)...WithMessage(mk), Y) is true exactly when Y is the same sentinel X, among all exported sentinels; the text is 'X: m1: ...: mk'. An error made by NewError(t) keeps its identity too, and its text becomes 'm1: ...: mk'.", "quantifier": "every sentinel pair and every finite sequence of arbitrary messages", "why_tests_cant": "arbitrary nesting and arbitrary message text", "anchors": ["errors.go:customDriverError.WithMessage", "errors.go:Err*"]}
{"id": "C11", "title": "Wrap keeps both identities; CastToDriverError is conservative", "statement": "errors.Is(e.Wrap(err), t) holds whenever errors.Is(e, t) or errors.Is(err, t) holds; CastToDriverError returns nil for nil, its argument for a DriverError, and otherwise a DriverError that still matches everything the original matched.", "quantifier": "every DriverError, every error tree and every target", "why_tests_cant": "quantifies over arbitrary error trees", "anchors": ["errors.go:Wrap", "errors.go:CastToDriverError"]}
{"id": "C12", "title": "os.OpenFile flags translate without losing or inventing a mode", "statement": "For every combination of os flags, the translated flags permit reading/writing exactly when the os access mode does, and append/create/exclusive/truncate/sync are set exactly when the corresponding os flag has a bit set; nothing else is set.", "quantifier": "every integer flag value", "why_tests_cant": "2^32 or more flag values", "anchors": ["flags.go:OSFlagsToIOFlags", "flags.go:IOFlags"]}
{"id": "C13", "title": "I/O flag predicates are coherent", "statement": "For every flags value, Read and Write depend only on the access-mode bits, at least one of them holds unless both access bits are set, write permission is required exactly when the file is opened for writing or truncation, and no custom mount flag changes CanRead/CanWrite/CanDelete.", "quantifier": "every integer flag value", "why_tests_cant": "2^63 flag values", "anchors": ["flags.go:IOFlags.Read", "flags.go:IOFlags.Write", "flags.go:RequiresWritePerm", "api.go:MountFlags"]}
{"id": "C14", "title": "An object has at most one kind", "statement": "For every mode value, at most one of IsDir, IsFile and IsSymlink holds for its FileStat, permission bits never influence the answer, and Mkdir's forced mode is always a directory.", "quantifier": "every 32-bit mode value", "why_tests_cant": "2^32 mode values", "anchors": ["api.go:FileStat.IsDir", "api.go:FileStat.IsFile", "api.go:FileStat.IsSymlink", "driver/driver.go:Mkdir"]}
{"id": "C15", "title": "The block cache behaves like a plain byte array", "statement": "For every backing store that honours the callback contract and every sequence of ReadAt, WriteAt, GetSlice, LoadAll/Data, Flush, Resize and modify-then-MarkBlockRangeDirty calls, with any calls failing in any order, each successful read returns exactly the bytes a plain array would hold after the preceding successful operations, and failed operations change nothing in that array.", "quantifier": "every finite operation sequence, every backing store honouring the contract, every schedule of callback failures", "why_tests_cant": "unbounded histories and fault schedules", "anchors": ["file_systems/common/blockcache/blockcache.go:ReadAt", "file_systems/common/blockcache/blockcache.go:WriteAt", "file_systems/common/blockcache/blockcache.go:Flush", "file_systems/common/blockcache/blockcache.go:Resize", "file_systems/common/blockcache/blockcache.go:GetSlice"]}
{"id": "C16", "title": "A successful flush makes storage equal to the cache contents", "statement": "After Flush returns nil, every block of the backing storage equals the cache's contents at that moment, and no block is marked as needing to be written.", "quantifier": "every history of operations and failures before the flush", "why_tests_cant": "all histories", "anchors": ["file_systems/common/blockcache/blockcache.go:Flush", "file_systems/common/blockcache/blockcache.go:flushBlockRange"]}
{"id": "C17", "title": "Out-of-range access is rejected without side effects", "statement": "For every start block and buffer length, ReadAt and WriteAt fail with ErrArgumentOutOfRange exactly when the start block is not below TotalBlocks or the access would extend past the last block; on any failure the caller's buffer is untouched and the cache contents and storage are unchanged.", "quantifier": "every start block, buffer and cache state", "why_tests_cant": "all integers and all cache states", "anchors": ["file_systems/common/blockcache/blockcache.go:CheckBounds", "file_systems/common/blockcache/blockcache.go:ReadAt", "file_systems/common/blockcache/blockcache.go:WriteAt"]}
{"id": "C18", "title": "A failed flush loses nothing and can be retried", "statement": "If Flush fails because the storage rejected a block (even leaving that block torn), the cache contents are unchanged and a later successful Flush leaves storage equal to the contents, whatever failed in between.", "quantifier": "every schedule of flush failures with arbitrary torn blocks", "why_tests_cant": "all fault schedules", "anchors": ["file_systems/common/blockcache/blockcache.go:flushBlockRange"]}
{"id": "C19", "title": "A crash never exposes invented block contents", "statement": "At every point of every history with a storage that writes blocks atomically, each block of the backing storage holds a value that the cache contents had for that block at some earlier point of the history.", "quantifier": "every history and every crash point in it", "why_tests_cant": "crash points and histories are unbounded", "anchors": ["file_systems/common/blockcache/blockcache.go:flushBlockRange", "file_systems/common/blockcache/blockcache.go:loadBlockRange"]}
{"id": "C20", "title": "Storage is touched only when needed", "statement": "A load fetches exactly the blocks of the requested range that have not been loaded yet, once each in ascending order; a flush writes exactly the blocks modified since they were last written, once each in ascending order; reads never write to storage.", "quantifier": "every cache state and every range", "why_tests_cant": "all cache states", "anchors": ["file_systems/common/blockcache/blockcache.go:loadBlockRange", "file_systems/common/blockcache/blockcache.go:flushBlockRange"]}
{"id": "C21", "title": "Resize keeps the prefix and zero-fills the rest", "statement": "After a successful Resize(n) the cache has n blocks, the blocks that existed before and still exist are unchanged, and every new block reads as zeros and is written out by the next successful Flush; a Resize refused by the storage changes nothing.", "quantifier": "every cache state and every new size", "why_tests_cant": "all states and sizes, shrink/grow sequences", "anchors": ["file_systems/common/blockcache/blockcache.go:Resize"]}
{"id": "C22", "title": "Slice requests are bounds-checked for every count", "statement": "For every start block and every count, GetSlice and MarkBlockRangeDirty either succeed on a range inside the cache or return ErrArgumentOutOfRange; they never panic.", "quantifier": "every 64-bit start and count", "why_tests_cant": "the failing values are around 2^55 and above, which no test tries", "anchors": ["file_systems/common/blockcache/blockcache.go:GetSlice", "file_systems/common/blockcache/blockcache.go:MarkBlockRangeDirty", "file_systems/common/blockcache/blockcache.go:CheckBounds"]}
{"id": "C23", "title": "ReadAt reports the number of bytes it delivered", "statement": "BlockCache.ReadAt returns, on success, the length of the caller's buffer.", "quantifier": "every buffer length and position", "why_tests_cant": "all lengths", "anchors": ["file_systems/common/blockcache/blockcache.go:ReadAt"]}
{"id": "C24", "title": "Marking blocks dirty does not change their contents", "statement": "MarkBlockRangeDirty only schedules blocks for writing: contents read afterwards, and what a later Flush writes for blocks nobody modified, equal the contents before the call.", "quantifier": "every cache state and range", "why_tests_cant": "all histories leading to the call", "anchors": ["file_systems/common/blockcache/blockcache.go:MarkBlockRangeDirty"]}
{"id": "C25", "title": "Flush and load succeed on an empty cache", "statement": "On a cache with zero blocks Flush, LoadAll and Data succeed (there is nothing to do).", "quantifier": "every cache that has become empty by construction or Resize(0)", "why_tests_cant": "all histories reaching an empty cache", "anchors": ["file_systems/common/blockcache/blockcache.go:Flush", "file_systems/common/blockcache/blockcache.go:LoadAll", "file_systems/common/blockcache/blockcache.go:CheckBounds"]}
{"id": "C26", "title": "A cache over a byte slice writes back faithfully", "statement": "For every byte slice and block size dividing its length, a cache created by WrapSlice initially reads as the slice, and after any successful writes followed by a successful Flush the slice holds exactly the cache contents; bytes are never written outside the slice.", "quantifier": "every slice, every block size and every operation sequence", "why_tests_cant": "all histories", "anchors": ["file_systems/common/blockcache/blockcache.go:WrapSlice", "file_systems/common/blockcache/blockcache.go:WrapStream", "file_systems/common/blockcache/blockcache.go:seekToBlock"]}
{"id": "C27", "title": "A resizable stream-backed cache can be flushed after growing", "statement": "If WrapStream was allowed to resize a truncatable stream, then after Resize(n) succeeds a Flush writes all n blocks to the stream.", "quantifier": "every stream, block size and growth", "why_tests_cant": "all growth amounts", "anchors": ["file_systems/common/blockcache/blockcache.go:WrapStream", "file_systems/common/blockcache/blockcache.go:Resize"]}
{"id": "C28", "title": "Reading a stream at an offset returns exactly its contents", "statement": "For every readable stream, offset >= 0 and buffer, a successful ReadAt delivers the bytes of the stream at that offset, clamped to the stream size, returns their number, and reports io.EOF exactly when fewer bytes than requested remain; the stream is unchanged.", "quantifier": "every stream state, offset and buffer length", "why_tests_cant": "all offsets and lengths around block and size boundaries", "anchors": ["file_systems/common/basicstream/basicstream.go:ReadAt"]}
{"id": "C29", "title": "Sequential Read advances past what it returned", "statement": "After Read returns n bytes (with nil or io.EOF), the stream position has advanced by n, so that repeated Reads never return the same bytes twice.", "quantifier": "every stream state and buffer length", "why_tests_cant": "all positions relative to the end of the stream", "anchors": ["file_systems/common/basicstream/basicstream.go:Read"]}
{"id": "C30", "title": "WriteTo delivers exactly the rest of the stream", "statement": "WriteTo sends exactly the bytes from the current position to the end of the stream to the writer, returns their number, and reports the writer's error if the writer fails.", "quantifier": "every readable stream, position and writer behaviour", "why_tests_cant": "all sizes/positions and all writer failures", "anchors": ["file_systems/common/basicstream/basicstream.go:WriteTo"]}
{"id": "C31", "title": "Seek is exact and rejects negative positions", "statement": "Seek to start/current/end + offset sets Tell to exactly that value when it is non-negative (also past the end), and otherwise leaves the position unchanged and returns an error; it never changes data or size.", "quantifier": "every offset, whence and stream state", "why_tests_cant": "all integers", "anchors": ["file_systems/common/basicstream/basicstream.go:Seek", "file_systems/common/basicstream/basicstream.go:Tell"]}
{"id": "C32", "title": "Open-mode permissions are enforced", "statement": "A stream not opened for writing refuses Write, WriteAt, WriteString, Truncate and ReadFrom with ErrNotPermitted, and no sequence of operations on it changes its contents, size or the backing storage; a stream not opened for reading refuses Read, ReadAt and WriteTo and reveals nothing.", "quantifier": "every flags value and every operation sequence", "why_tests_cant": "all histories", "anchors": ["file_systems/common/basicstream/basicstream.go:New", "file_systems/common/basicstream/basicstream.go:Write", "file_systems/common/basicstream/basicstream.go:ReadAt", "file_systems/common/basicstream/basicstream.go:Truncate", "file_systems/common/basicstream/basicstream.go:ReadFrom"]}
{"id": "C33", "title": "Written bytes are read back", "statement": "On a writable stream whose storage does not fail, WriteAt(buf, off) succeeds for every off >= 0 and a following ReadAt(len(buf), off) returns buf, with all other bytes of the stream unchanged.", "quantifier": "every stream state, offset and buffer", "why_tests_cant": "all offsets and lengths around block boundaries", "anchors": ["file_systems/common/basicstream/basicstream.go:WriteAt", "file_systems/common/basicstream/basicstream.go:implWriteAt"]}
{"id": "C34", "title": "Written bytes reach storage on Sync or Close", "statement": "After a successful Write or WriteAt followed by a successful Sync or Close, the backing storage contains the written bytes at that offset.", "quantifier": "every stream state, offset, buffer and following history", "why_tests_cant": "all histories of writes and syncs", "anchors": ["file_systems/common/basicstream/basicstream.go:implWriteAt", "file_systems/common/basicstream/basicstream.go:Sync", "file_systems/common/basicstream/basicstream.go:Close"]}
{"id": "C35", "title": "Writing past the end grows the stream", "statement": "After a successful WriteAt(buf, off) the stream size is max(old size, off+len(buf)).", "quantifier": "every stream state, offset and buffer", "why_tests_cant": "all sizes/offsets", "anchors": ["file_systems/common/basicstream/basicstream.go:implWriteAt", "file_systems/common/basicstream/basicstream.go:Size"]}
{"id": "C36", "title": "Append mode always adds at the end", "statement": "On a stream opened with O_APPEND every successful Write puts its bytes after all bytes previously in the stream, WriteAt is refused, and earlier contents are never overwritten.", "quantifier": "every sequence of appends", "why_tests_cant": "all sequences of write sizes", "anchors": ["file_systems/common/basicstream/basicstream.go:Write", "file_systems/common/basicstream/basicstream.go:WriteAt"]}
{"id": "C37", "title": "Truncate keeps the prefix, sets the size and zero-fills", "statement": "After a successful Truncate(n) the size is n, the first min(n, old size) bytes are unchanged, and every byte between the old size and n reads as zero.", "quantifier": "every stream state and every n", "why_tests_cant": "all shrink/grow sequences", "anchors": ["file_systems/common/basicstream/basicstream.go:Truncate"]}
{"id": "C38", "title": "Failed Truncate changes nothing", "statement": "Truncate with a negative size fails with ErrInvalidArgument; a Truncate refused by the storage fails with the storage's error; in both cases size, position, contents and storage are unchanged.", "quantifier": "every stream state, size and storage refusal", "why_tests_cant": "all states and failures", "anchors": ["file_systems/common/basicstream/basicstream.go:Truncate", "file_systems/common/blockcache/blockcache.go:Resize"]}
{"id": "C39", "title": "Stream operations never panic", "statement": "No Read, ReadAt, Write, WriteAt, Seek or Truncate call with any arguments panics.", "quantifier": "every argument value and stream state", "why_tests_cant": "all 64-bit offsets", "anchors": ["file_systems/common/basicstream/basicstream.go:ReadAt", "file_systems/common/basicstream/basicstream.go:WriteAt", "file_systems/common/basicstream/basicstream.go:convertLinearAddr"]}
{"id": "C40", "title": "ReadFrom copies everything or reports an error", "statement": "When ReadFrom returns nil, every byte delivered by the source has been written to the stream, and the returned count is the number of bytes written.", "quantifier": "every source and stream state", "why_tests_cant": "all source chunkings and error points", "anchors": ["file_systems/common/basicstream/basicstream.go:ReadFrom"]}
{"id": "C41", "title": "Closing a healthy stream succeeds", "statement": "Close/Sync on a stream whose storage accepts all writes returns nil.", "quantifier": "every stream state, including empty streams", "why_tests_cant": "all histories", "anchors": ["file_systems/common/basicstream/basicstream.go:Close", "file_systems/common/basicstream/basicstream.go:Sync", "file_systems/common/blockcache/blockcache.go:Flush"]}
{"id": "C42", "title": "Creating a stream validates its size", "statement": "New succeeds without O_TRUNC exactly when 0 <= size <= data.Size(), giving a stream at position 0 with that size; with O_TRUNC it yields an empty stream or an error.", "quantifier": "every size, cache and flags value", "why_tests_cant": "all integers", "anchors": ["file_systems/common/basicstream/basicstream.go:New"]}
{"id": "C43", "title": "NormalizePath yields canonical absolute paths", "statement": "For every string, NormalizePath returns an absolute path without '.', '..', empty components or a trailing slash (other than '/'), and applying it again changes nothing.", "quantifier": "every path string and working directory", "why_tests_cant": "all strings", "anchors": ["driver/driver.go:NormalizePath"]}
{"id": "C44", "title": "NormalizePath resolves relative paths against the working directory", "statement": "For every relative path, NormalizePath returns the path obtained by interpreting it relative to Getwd().", "quantifier": "every relative path and working directory", "why_tests_cant": "all strings and working directories", "anchors": ["driver/driver.go:NormalizePath", "driver/driver.go:Getwd"]}
{"id": "C45", "title": "Path operations work on the objects of the mounted file system", "statement": "For every file system implementation, a driver operation on an existing path (Stat, ReadFile, OpenFile, ReadDir, Chdir, Mkdir, Remove, Truncate, ...) reaches the implementation's object and can succeed.", "quantifier": "every implementation, path and operation", "why_tests_cant": "all implementations; the repository has no test of the driver at all", "anchors": ["driver/fsobject.go:wrapObjectHandle", "driver/driver.go:getObjectAtPathNoFollow"]}
{"id": "C46", "title": "Nested paths resolve in finitely many steps", "statement": "For every implementation and every normalized absolute path, path resolution terminates.", "quantifier": "every implementation and every path depth", "why_tests_cant": "all paths; divergence cannot be observed by a test that terminates", "anchors": ["driver/driver.go:getObjectAtPathNoFollow", "driver/driver.go:getObjectAtPathFollowingLink"]}
{"id": "C47", "title": "Symbolic link cycles are always detected", "statement": "For every arrangement of symbolic links, resolving a path terminates: it either reaches a non-link object, reports a missing object, or fails with ErrLinkCycleDetected.", "quantifier": "every link graph", "why_tests_cant": "all link graphs, including cycles not through the starting link", "anchors": ["driver/driver.go:resolveSymlink"]}
{"id": "C48", "title": "A read-only mount is never modified", "statement": "On a mount without write permission no driver operation asks the implementation to create, resize, write or delete anything.", "quantifier": "every operation, path and flags", "why_tests_cant": "all operations and flag combinations", "anchors": ["driver/driver.go:OpenFile", "driver/driver.go:Mkdir", "driver/driver.go:Remove", "driver/driver.go:Truncate"]}
{"id": "C49", "title": "Create fails if the file exists", "statement": "Create (and OpenFile with O_CREATE|O_EXCL) on an existing file fails and leaves it alone.", "quantifier": "every implementation and existing path", "why_tests_cant": "all implementations", "anchors": ["driver/driver.go:Create", "driver/driver.go:OpenFile"]}
{"id": "C50", "title": "Directory listing in pages loses and repeats nothing", "statement": "Successive File.ReadDir(n) calls with any positive n's return the directory's entries in order, each exactly once, without '.' and '..', and then io.EOF; Readdirnames and Readdir return the same sequence.", "quantifier": "every directory listing and every sequence of page sizes", "why_tests_cant": "all listings and page-size sequences", "anchors": ["driver/file.go:ReadDir", "driver/file.go:Readdirnames", "driver/driver.go:readDir", "driver/driver.go:removeDotsFromSlice"]}
{"id": "C51", "title": "SameFile is an equivalence decided by inode number", "statement": "For every pair of files obtained from the driver, SameFile holds exactly when their inode numbers are equal; it is reflexive, symmetric and transitive.", "quantifier": "every pair of file infos", "why_tests_cant": "all pairs", "anchors": ["driver/driver.go:SameFile"]}
{"id": "C52", "title": "Truncating a file resizes the underlying object to that many bytes", "statement": "File.Truncate(n) asks the object to become n bytes (rounded up to whole blocks at most), as ObjectHandle.Resize takes bytes.", "quantifier": "every n and block size", "why_tests_cant": "all sizes", "anchors": ["driver/file.go:NewFileFromObjectHandle", "api.go:ObjectHandle.Resize"]}
{"id": "C53", "title": "RemoveAll removes the directory and everything below it", "statement": "After RemoveAll(path) returns nil, the directory itself and all of its descendants are gone, and nothing outside it was deleted (symbolic links below it are not followed).", "quantifier": "every directory tree", "why_tests_cant": "all trees", "anchors": ["driver/driver.go:RemoveAll", "driver/driver.go:removeDirectory"]}
{"id": "C54", "title": "Lstat does not follow the final symbolic link", "statement": "Lstat on a symbolic link describes the link itself, not its target.", "quantifier": "every link and target", "why_tests_cant": "all link graphs", "anchors": ["driver/driver.go:Lstat"]}
{"id": "C55", "title": "Every acquired handle is released", "statement": "When a path operation has returned, every object handle it obtained from the implementation has been closed exactly once (except the one owned by a returned File).", "quantifier": "every operation, path and outcome", "why_tests_cant": "all control paths", "anchors": ["driver/driver.go:Chmod", "driver/driver.go:Link", "driver/driver.go:OpenFile", "driver/file.go:Close"]}
{"id": "C56", "title": "ReadFile returns exactly the file's bytes", "statement": "Whenever ReadFile returns, it returns exactly the Size bytes stored in the blocks of the object its path leads to, or an error: never a truncated, padded or other object's contents. (That it does return is C45 and C46.)", "quantifier": "every file system implementation, path, working directory, file size, block size and contents", "why_tests_cant": "all sizes", "anchors": ["driver/driver.go:ReadFile", "driver/driver.go:getContentsOfObject"]}
{"id": "C57", "title": "WriteFile stores exactly the given data", "statement": "WriteFile(path, data) on a healthy file system returns nil and afterwards ReadFile(path) returns data.", "quantifier": "every data length and block size", "why_tests_cant": "all lengths around block boundaries", "anchors": ["driver/driver.go:WriteFile", "file_systems/common/basicstream/basicstream.go:implWriteAt"]}
{"id": "C58", "title": "FAT8 geometry is consistent", "statement": "GetGeometry succeeds exactly for 640, 1898 and 2002 blocks, and then the directory track lies inside the disk, the info sector directly precedes the FATs, three FATs end exactly at the end of the directory track, and each FAT has an entry for every cluster.", "quantifier": "every 64-bit block count", "why_tests_cant": "all integers", "anchors": ["file_systems/fat8/common.go:GetGeometry"]}
{"id": "C59", "title": "FAT8 formatting produces exactly the documented image", "statement": "FormatImage succeeds exactly for unmounted drivers and valid sizes; afterwards the image has the right size, the directory sectors are all FF, the info sector is zero, the three FAT copies are identical, and no byte outside the directory track was written.", "quantifier": "every prior image content and every requested size", "why_tests_cant": "all prior images", "anchors": ["file_systems/fat8/formattingdriver.go:FormatImage"]}
{"id": "C60", "title": "FAT8 formatting reserves the directory track", "statement": "After FormatImage the FAT marks exactly the two clusters that contain the directory track as reserved.", "quantifier": "both geometries, every prior image", "why_tests_cant": "the repository's format test compares the image with itself", "anchors": ["file_systems/fat8/formattingdriver.go:FormatImage"]}
{"id": "C61", "title": "A formatted or existing FAT8 image can be mounted", "statement": "Mount succeeds on every well-formed FAT8 image, in particular right after FormatImage and with a freshly created driver.", "quantifier": "every well-formed image", "why_tests_cant": "all images", "anchors": ["file_systems/fat8/driver.go:Mount", "file_systems/fat8/iobase.go:ReadDiskBlocks"]}
{"id": "C62", "title": "FAT8 flush then reload returns the same FAT", "statement": "After Flush returns nil the three FAT copies on disk equal the in-memory FAT, reading the FAT back returns it, and no byte outside the FAT area changed.", "quantifier": "every FAT contents and image", "why_tests_cant": "all FATs", "anchors": ["file_systems/fat8/iobase.go:writeFAT", "file_systems/fat8/iobase.go:GetFAT", "file_systems/fat8/driver.go:Flush"]}
{"id": "C63", "title": "A crash during a FAT8 flush is detected or harmless", "statement": "If the machine stops after any prefix of the bytes of a FAT write has reached the disk, reading the FAT afterwards either reports corruption or returns the complete old or the complete new FAT, never a mixture.", "quantifier": "every old FAT, new FAT and crash point", "why_tests_cant": "all crash points", "anchors": ["file_systems/fat8/iobase.go:writeFAT", "file_systems/fat8/iobase.go:GetFAT"]}
{"id": "C64", "title": "Differing FAT copies are always reported", "statement": "GetFAT and Mount fail with ErrFileSystemCorrupted whenever the three FAT copies are not identical, and otherwise return the common contents.", "quantifier": "every image", "why_tests_cant": "all images", "anchors": ["file_systems/fat8/iobase.go:GetFAT", "file_systems/fat8/driver.go:Mount"]}
{"id": "C65", "title": "A FAT8 cluster reads back what was written to it", "statement": "For every valid cluster number and cluster-sized data, WriteAbsoluteCluster succeeds and ReadAbsoluteCluster of the same cluster then returns the data, other clusters being unchanged.", "quantifier": "every cluster number, geometry and data", "why_tests_cant": "all clusters and data", "anchors": ["file_systems/fat8/iobase.go:WriteAbsoluteCluster", "file_systems/fat8/iobase.go:ReadAbsoluteCluster"]}
{"id": "C66", "title": "Block writes stay inside the image and inside their range", "statement": "WriteDiskBlocks either fails without touching the image or changes exactly the addressed blocks; it never extends the image; reading the blocks back returns the data.", "quantifier": "every start block, data and image", "why_tests_cant": "all addresses", "anchors": ["file_systems/fat8/iobase.go:WriteDiskBlocks", "file_systems/fat8/iobase.go:ReadDiskBlocks"]}
{"id": "C67", "title": "The FAT8 free list contains exactly the free clusters", "statement": "After a successful Mount the list of free clusters contains exactly the valid cluster numbers whose FAT entry is FF, each once, also after unmounting and mounting again.", "quantifier": "every FAT contents", "why_tests_cant": "all FATs", "anchors": ["file_systems/fat8/driver.go:Mount"]}
{"id": "C68", "title": "FAT8 file names survive a round trip", "statement": "For every accepted ASCII name, the stored form is 9 bytes; converting it back and storing it again gives the same bytes, and the displayed name equals the upper-cased original up to trailing blanks; too long names are rejected.", "quantifier": "every name string", "why_tests_cant": "all strings", "anchors": ["file_systems/fat8/common.go:FilenameToBytes", "file_systems/fat8/common.go:BytesToFilename"]}
{"id": "C69", "title": "FAT8 Stat reports the sectors actually used", "statement": "For a binary file with at least one cluster, Stat is case-insensitive, ignores one leading slash, and reports size = 128 * (clusters * sectors per cluster - unused sectors), never a negative or wrapped value; a missing file gives ErrNotFound.", "quantifier": "every directory contents and path", "why_tests_cant": "all directories and paths", "anchors": ["file_systems/fat8/readingdriver.go:Stat"]}
{"id": "C70", "title": "Every valid FAT8 block and cluster is readable", "statement": "ReadDiskBlocks succeeds for every range inside the image and ReadAbsoluteCluster for every valid cluster, and both refuse everything else.", "quantifier": "every block range and cluster number", "why_tests_cant": "all ranges, notably the last block", "anchors": ["file_systems/fat8/iobase.go:ReadDiskBlocks", "file_systems/fat8/iobase.go:ReadAbsoluteCluster"]}
{"id": "C71", "title": "Parsing a FAT boot sector never panics", "statement": "NewFATBootSectorFromStream returns a header or an error for every byte stream.", "quantifier": "every byte stream", "why_tests_cant": "2^320 boot sectors", "anchors": ["file_systems/fat/common.go:NewFATBootSectorFromStream"]}
{"id": "C72", "title": "An accepted FAT boot sector is internally consistent", "statement": "Whenever the header computation accepts a boot sector, the sector size is 512..4096, the cluster size is a power-of-two number of sectors and at most 32 KiB, a whole number of 32-byte entries fits a cluster, and FAT32 volumes have no fixed root directory.", "quantifier": "every raw header", "why_tests_cant": "2^320 headers", "anchors": ["file_systems/fat/common.go:NewFATBootSectorFromStream", "file_systems/fat/common.go:DetermineFATVersion"]}
{"id": "C73", "title": "FAT layout fields follow the specification", "statement": "For every accepted header the first data sector is reserved + FATs + root directory sectors, the number of clusters is the number of data sectors divided by the cluster size, and the root directory size is the rounded-up size of its entries.", "quantifier": "every raw header", "why_tests_cant": "2^320 headers", "anchors": ["file_systems/fat/common.go:NewFATBootSectorFromStream"]}
{"id": "C74", "title": "FAT dates and times decode for every stored value", "statement": "DateFromInt and TimestampFromParts return the encoded date and time for every 16-bit value and never panic.", "quantifier": "every 16-bit date, 16-bit time and 8-bit fraction", "why_tests_cant": "2^40 combinations", "anchors": ["file_systems/fat/dirent.go:DateFromInt", "file_systems/fat/dirent.go:TimestampFromParts"]}
{"id": "C75", "title": "FAT directory entries parse from their 32-byte form", "statement": "NewRawDirentFromBytes returns the fields stored at their documented offsets for every 32-byte slice and never panics.", "quantifier": "every 32-byte slice", "why_tests_cant": "2^256 slices", "anchors": ["file_systems/fat/dirent.go:NewRawDirentFromBytes"]}
{"id": "C76", "title": "Listing a cluster chain returns the chain", "statement": "For every FAT in which the chain from a cluster ends properly, listClusters returns exactly the chain's clusters in order, getClusterInChain(i) returns its i-th element, and both agree on chain ends and corruption.", "quantifier": "every FAT and start cluster", "why_tests_cant": "all FATs", "anchors": ["file_systems/fat/driverbase.go:listClusters", "file_systems/fat/driverbase.go:getClusterInChain"]}
{"id": "C77", "title": "Following a cluster chain always terminates", "statement": "listClusters terminates on every FAT, including damaged ones.", "quantifier": "every FAT", "why_tests_cant": "cyclic FATs make the call run forever, which a test cannot observe", "anchors": ["file_systems/fat/driverbase.go:listClusters"]}
{"id": "C78", "title": "Removing a FAT file frees exactly its clusters", "statement": "Remove deletes the directory entry and frees exactly the clusters of the file's chain, last first.", "quantifier": "every file chain", "why_tests_cant": "all chains", "anchors": ["file_systems/fat/driverbase.go:Remove"]}
{"id": "C79", "title": "FAT path lookup finds exactly the named entry", "statement": "Looking up a path returns the entry whose name components match, ErrNotFound if there is none, and an error if a directory cannot be read.", "quantifier": "every directory contents and path", "why_tests_cant": "all directories and paths", "anchors": ["file_systems/fat/driverbase.go:resolvePathToDirent"]}
{"id": "C80", "title": "FAT entry timestamps behave like registers", "statement": "A timestamp set on a directory entry is returned by the matching getter and leaves the others unchanged; times before 1980 are rejected without effect; SetDeletedAt marks the entry deleted and makes GetDeletedAt return the time.", "quantifier": "every sequence of setters and every time", "why_tests_cant": "all sequences", "anchors": ["file_systems/fat/dirent.go:SetCreatedAt", "file_systems/fat/dirent.go:SetDeletedAt", "file_systems/fat/dirent.go:GetDeletedAt"]}
{"id": "C81", "title": "FAT directories are recognised as directories", "statement": "An entry whose attribute byte has the directory bit is reported as a directory by IsDir, and an entry without it is not; an entry with the read-only bit shows no write permission, and one without it does.", "quantifier": "every attribute byte", "why_tests_cant": "256 values times all names", "anchors": ["file_systems/fat/dirent.go:AttrFlagsToFileMode", "file_systems/fat/dirent.go:IsDir"]}
{"id": "C82", "title": "FAT Chtimes and Chmod report what they did", "statement": "Chtimes returns an error when a requested time cannot be stored; Chmod only ever changes the write bits.", "quantifier": "every time pair and mode", "why_tests_cant": "all values", "anchors": ["file_systems/fat/driverbase.go:Chtimes", "file_systems/fat/driverbase.go:Chmod"]}
{"id": "C83", "title": "Unix V6 mode flags convert both ways", "statement": "For every mode using only supported file types, converting to V6 flags and back gives the same permission, type, setuid and setgid bits; the V6 word is always marked allocated; unsupported types are rejected; converting V6 flags to a mode and back preserves everything but the large-file, sticky and allocated bits.", "quantifier": "every 32-bit mode and every 16-bit V6 flag word", "why_tests_cant": "2^32 + 2^16 values", "anchors": ["file_systems/unixv6/dirents.go:ConvertFSFlagsToStandard", "file_systems/unixv6/dirents.go:ConvertStandardFlagsToFS"]}
{"id": "C84", "title": "Unix V6 inode size and block count agree", "statement": "RawInodeToStat reports the 24-bit size and the least number of 512-byte blocks holding it, for every inode.", "quantifier": "every inode", "why_tests_cant": "2^24 sizes times all other fields", "anchors": ["file_systems/unixv6/dirents.go:RawInodeToStat"]}
{"id": "C85", "title": "Disk geometry size is the rounded-up number of bytes", "statement": "TotalSizeBytes of a geometry whose bit count fits in 63 bits is the least number of bytes holding all its bits, and for every predefined geometry it is exact and positive.", "quantifier": "every geometry", "why_tests_cant": "all combinations of six 64-bit fields", "anchors": ["disks/disks.go:DiskGeometry.TotalSizeBytes", "disks/disk-geometries.csv"]}
{"id": "C86", "title": "Predefined geometries are found by slug", "statement": "For every geometry table, start-up aborts exactly when two rows share a slug; otherwise lookup of a slug returns that row and lookup of any other string returns an error.", "quantifier": "every table of rows and every string", "why_tests_cant": "all tables and strings", "anchors": ["disks/disks.go:init", "disks/disks.go:GetPredefinedDiskGeometry", "disks/disk-geometries.csv"]}
{"id": "C87", "title": "A FAT8 file's cluster reads back what was written to it", "statement": "For every directory entry, every index into its cluster list and cluster-sized data: after WriteFileCluster returns nil, ReadFileCluster of the same index returns the data; indexes outside the list are refused by both without touching the image.", "quantifier": "every entry, index, data and image", "why_tests_cant": "all cluster numbers and indexes", "anchors": ["file_systems/fat8/iobase.go:ReadFileCluster", "file_systems/fat8/iobase.go:WriteFileCluster"]}
{"id": "C88", "title": "Flushing an unmounted FAT8 driver leaves the image alone", "statement": "Flush of a driver that is not mounted (never mounted, or unmounted and the image formatted since) changes no byte of the image.", "quantifier": "every history of FormatImage, Mount, Unmount and block operations", "why_tests_cant": "histories of any length", "anchors": ["file_systems/fat8/driver.go:Flush", "file_systems/fat8/driver.go:Unmount", "file_systems/fat8/formattingdriver.go:FormatImage"]}
{"id": "C89", "title": "No history of FAT8 operations panics", "statement": "Whatever the contents and size of the image, whichever device operations fail, and whatever the history of FormatImage, Mount, Flush, Unmount, block and cluster reads and writes, GetFAT and Stat, each call returns.", "quantifier": "every image, every pattern of device failures, every history", "why_tests_cant": "histories, images and failure patterns are unbounded", "anchors": ["file_systems/fat8/driver.go:Mount", "file_systems/fat8/iobase.go:ReadDiskBlocks", "file_systems/fat8/formattingdriver.go:FormatImage"]}
{"id": "C90", "title": "Chmod, Chown and Chtimes reach the object with the caller's values", "statement": "On a file system whose handles support the operation, Chmod, Chown and Chtimes call it once, on the object the path leads to, with exactly the mode, owner and times given (access and modification time not exchanged, other times left alone), and return its error.", "quantifier": "every implementation, state, path and attribute values", "why_tests_cant": "values and implementations are unbounded", "anchors": ["driver/driver.go:Chmod", "driver/driver.go:Chown", "driver/driver.go:Chtimes"]}
{"id": "C91", "title": "Link never replaces an existing object", "statement": "Link returns ErrExists and makes no modifying call if anything exists at the new name; the link is created only if looking the new name up says it is missing.", "quantifier": "every implementation, including ones whose lookups fail, every pair of paths", "why_tests_cant": "the space of implementations and failures is unbounded", "anchors": ["driver/driver.go:Link"]}
{"id": "C92", "title": "Readlink returns the text of the link", "statement": "Whenever Readlink returns, it returns exactly the stored target of the symbolic link at the path, ErrInvalidArgument for anything else and ErrNotFound if there is nothing; it changes nothing. (That it does return is C45 and C46.)", "quantifier": "every tree, every link text, every block size", "why_tests_cant": "link texts and trees are unbounded", "anchors": ["driver/driver.go:Readlink"]}
{"id": "C93", "title": "Remove deletes what the path names, and no directory that has entries", "statement": "Remove deletes the file, link or empty directory the path names and nothing else; a directory with entries other than . and .. is refused with ErrDirectoryNotEmpty and nothing changes.", "quantifier": "every tree and path", "why_tests_cant": "trees and chains of links are unbounded", "anchors": ["driver/driver.go:Remove"]}
{"id": "C94", "title": "MkdirAll creates what is missing and accepts what exists", "statement": "After MkdirAll returns nil every directory on the path exists; it succeeds without changes if the directory already exists, and creates missing parents.", "quantifier": "every implementation, tree and path", "why_tests_cant": "paths of any depth", "anchors": ["driver/driver.go:MkdirAll"]}
{"id": "C95", "title": "SameFile compares FAT file infos", "statement": "SameFile returns true exactly for two infos of the same file and never panics on infos the driver itself returned.", "quantifier": "every pair of directory entries", "why_tests_cant": "the answer depends on the dynamic type behind Sys() for every entry", "anchors": ["file_systems/fat/driverbase.go:SameFile", "file_systems/fat/dirent.go:Sys"]}
{"id": "C96", "title": "ReadFile returns the contents of the file", "statement": "For every file whose chain covers its size, ReadFile returns exactly the first size bytes of the concatenated clusters.", "quantifier": "every volume, cluster size, chain and file size", "why_tests_cant": "cluster sizes, chain lengths and sizes multiply; tests pick a few", "anchors": ["file_systems/fat/driverbase.go:ReadFile", "file_systems/fat/driverbase.go:listClusters", "file_systems/fat/driverbase.go:readCluster"]}
{"id": "C97", "title": "Reading a cluster reads that cluster's bytes", "statement": "readCluster(c) returns the sectors-per-cluster sectors that the FAT specification assigns to cluster c.", "quantifier": "every boot sector and cluster number", "why_tests_cant": "arithmetic over all layouts", "anchors": ["file_systems/fat/driverbase.go:readCluster", "file_systems/fat/driverbase.go:getFirstSectorOfCluster", "file_systems/fat/driverbase.go:readAbsoluteSectors"]}
{"id": "C98", "title": "FAT directory entries decode to name, size, cluster and times", "statement": "NewDirentFromRaw returns NAME.EXT without padding, size, first cluster, block count, mode and timestamps of the raw entry, reports a free entry as missing, and never panics.", "quantifier": "every raw entry and cluster size", "why_tests_cant": "every byte pattern of a 32-byte entry", "anchors": ["file_systems/fat/dirent.go:NewDirentFromRaw"]}
{"id": "C99", "title": "A directory cluster decodes to its entries up to the first free slot", "statement": "clusterToDirentSlice returns the decoded slots in order up to, and without, the first free one, for every cluster.", "quantifier": "every cluster contents and cluster size", "why_tests_cant": "position of the free slot and contents are unbounded", "anchors": ["file_systems/fat/dirent.go:clusterToDirentSlice"]}
{"id": "C100", "title": "Readdir lists a FAT directory completely", "statement": "Readdir of a directory returns the entries of all its clusters up to the first free slot, also if the last cluster is full, and an error for anything that is not a directory.", "quantifier": "every directory chain and contents", "why_tests_cant": "any number of clusters", "anchors": ["file_systems/fat/driverbase.go:Readdir", "file_systems/fat/driverbase.go:readDirFromDirent"]}
{"id": "C101", "title": "Unix V6 character devices agree with Go's file modes", "statement": "A mode that Go's os package uses for a character device (ModeDevice|ModeCharDevice) converts to the V6 character device type, and V6 character devices are shown with that mode.", "quantifier": "every mode and every V6 flag word", "why_tests_cant": "2^32 modes and 2^16 words", "anchors": ["file_systems/unixv6/dirents.go:ConvertFSFlagsToStandard", "file_systems/unixv6/dirents.go:ConvertStandardFlagsToFS"]}
{"id": "C102", "title": "FSStat.TotalSizeBytes is block size times block count", "statement": "TotalSizeBytes equals BlockSize*TotalBlocks for exactly those volumes whose size fits in an int64.", "quantifier": "every 64-bit block size and block count", "why_tests_cant": "2^128 pairs, the interesting ones at the overflow boundary", "anchors": ["api.go:FSStat.TotalSizeBytes"]}
{"id": "C103", "title": "Geometry sizes are right for every geometry", "statement": "TotalSizeBytes is the rounded-up number of bytes for every geometry that can be written down.", "quantifier": "every geometry, also those with 2^63 bits or more", "why_tests_cant": "products of five 64-bit fields", "anchors": ["disks/disks.go:DiskGeometry.TotalSizeBytes"]}
{"id": "C104", "title": "The working directory is always a canonical absolute path", "statement": "After any history of Chdir, File.Chdir and other calls, Getwd returns an absolute path without empty, \".\" or \"..\" components; Chdir changes it to the directory the path leads to (through links), and fails with ErrNotADirectory, changing nothing, for anything else; relative paths then work from there.", "quantifier": "every history of a mounted driver, every path, every implementation", "why_tests_cant": "histories are unbounded and implementations arbitrary", "anchors": ["driver/driver.go:Getwd", "driver/driver.go:Chdir", "driver/driver.go:chdirToObject", "driver/file.go:File.Chdir"]}
{"id": "C105", "title": "Each operation makes only the calls it is for", "statement": "Looking calls (Stat, Lstat, ReadFile, ReadDir, Chdir, Readlink, Open) never change anything; CreateObject is called only by creating operations with the last name of the path and the given permissions, Unlink only by Remove and RemoveAll, Chmod/Chown/Chtimes only by their operations with the caller's values, Resize and WriteBlocks only by writing operations.", "quantifier": "every implementation, state, path and argument", "why_tests_cant": "implementations are arbitrary programs", "anchors": ["driver/driver.go"]}
{"id": "C106", "title": "OpenFile creates at most one object, and only a missing file", "statement": "OpenFile, Create and WriteFile make at most one CreateObject call, only if creation was requested and the path does not exist, with the requested name and permissions; when OpenFile fails, nothing new is left behind.", "quantifier": "every implementation, state, path, flags and permissions", "why_tests_cant": "implementations and states are arbitrary", "anchors": ["driver/driver.go:OpenFile", "driver/driver.go:Create", "driver/driver.go:WriteFile"]}
{"id": "C107", "title": "Closing a file releases its object handle", "statement": "After Close of a File returned by OpenFile the object handle the driver obtained for it has been closed.", "quantifier": "every implementation, path and history of the file", "why_tests_cant": "resource leaks need a statement over all histories", "anchors": ["driver/file.go:File.Close", "driver/driver.go:OpenFile"]}
{"id": "C108", "title": "WriteFile reports storage failures", "statement": "If WriteFile returns nil the implementation accepted all data; a failure of the final flush is returned.", "quantifier": "every implementation and every pattern of failing writes", "why_tests_cant": "failure patterns are unbounded", "anchors": ["driver/driver.go:WriteFile"]}
{"id": "C109", "title": "ReadDir of something that is not a directory is an error", "statement": "ReadDir (of a path or of an open file) returns ErrNotADirectory for anything that is not a directory, and never panics.", "quantifier": "every implementation, state and path", "why_tests_cant": "implementations are arbitrary", "anchors": ["driver/driver.go:ReadDir", "driver/driver.go:readDir", "driver/file.go:File.ReadDir"]}
{"id": "C110", "title": "Chtimes passes only supported timestamps", "statement": "An implementation's Chtimes gets the caller's access and modification time if it supports them and the undefined timestamp for everything else; the deletion time is never set.", "quantifier": "every implementation, path and pair of times", "why_tests_cant": "feature sets and times are arbitrary", "anchors": ["driver/driver.go:Chtimes", "api.go:SupportsChtimesHandle"]}
{"id": "C111", "title": "The driver keeps the guarantees documented for implementations", "statement": "CreateObject is never called for an existing object, GetObject never for a nonexistent one, CreateHardLink never with a directory as source, Chmod only with permission bits (api.go).", "quantifier": "every operation, implementation and state", "why_tests_cant": "the guarantees quantify over all call sequences", "anchors": ["api.go:FileSystemImplementer", "api.go:HardLinkImplementer", "api.go:SupportsChmodHandle", "driver/driver.go"]}
{"id": "C112", "title": "The stub object handle answers every call", "statement": "Every method of NopObjectHandle returns: the zero Stat, empty names, ErrNotImplemented otherwise.", "quantifier": "every method of the interface and all arguments", "why_tests_cant": "finitely many methods but all arguments", "anchors": ["driver/nopobject.go"]}
{"id": "C113", "title": "Stat and Name of an open file describe the file", "statement": "File.Stat reports the current size and attributes of the open file; its Name is the last component of the path.", "quantifier": "every implementation and every history of the open file", "why_tests_cant": "histories are unbounded", "anchors": ["driver/file.go:File.Stat", "driver/file.go:FileInfo", "driver/file.go:File.Name"]}
{"id": "C114", "title": "The storage is asked for existing whole blocks only", "statement": "Whatever a program does with a stream or a block cache, the fetch and flush callbacks are only ever called with the index of an existing block and a buffer of exactly one block; the same holds for ReadBlocks and WriteBlocks of the object under a File.", "quantifier": "every storage, every history of operations, every argument including negative and huge ones", "why_tests_cant": "histories and arguments are unbounded; the property constrains what is not called", "anchors": ["file_systems/common/basicstream/basicstream.go", "file_systems/common/blockcache/blockcache.go", "driver/file.go:NewFileFromObjectHandle"]}
{"id": "C115", "title": "Block device sizes and bounds", "statement": "GetMinBlocksForSize gives the least number of blocks that hold the size; CheckBounds accepts a request if and only if it lies inside the device; Size is BytesPerBlock times TotalBlocks.", "quantifier": "every block size, device size, start and buffer size a uint can hold", "why_tests_cant": "the values are 64-bit", "anchors": ["file_systems/common/types.go:BlockDevice", "file_systems/common/blockcache/blockcache.go:GetMinBlocksForSize", "file_systems/common/blockcache/blockcache.go:CheckBounds", "file_systems/common/blockcache/blockcache.go:Size"]}
{"id": "C116", "title": "The image tools keep their input and exit with 0 only when the output is right", "statement": "zipimage (unzipimage) exits with 0 only if the output file holds the compressed (decompressed) input; it changes no other file; a failing run says so with a nonzero exit code and leaves an existing output alone.", "quantifier": "every host file system (including paths leading to the same file), every codec, every failure of opening, reading, writing and closing", "why_tests_cant": "failure points and file contents are unbounded", "anchors": ["cmd/zipimage/main.go:main", "cmd/unzipimage/main.go:main"]}
{"id": "C117", "title": "disko format formats", "statement": "A successful run of the format command has written a file system image.", "quantifier": "every host file system and argument list", "why_tests_cant": "claims about all argument lists", "anchors": ["cmd/main.go:formatImage"]}
{"id": "C118", "title": "Test images load unchanged or abort the test", "statement": "LoadDiskImage returns exactly the image that was compressed, of size sectorSize * totalSectors, or aborts the test.", "quantifier": "every compressed byte string and every pair of sizes", "why_tests_cant": "the inputs are unbounded and the sizes 64-bit", "anchors": ["testing/images.go:LoadDiskImage"]}
{"id": "C119", "title": "The default test cache never fails a test by itself", "statement": "Whatever operations a test performs on a writable cache from CreateDefaultCache, or any reading operations on a read-only one, the helper does not fail the test, and the cache behaves as a byte array that starts as the backing data.", "quantifier": "every geometry, backing data and history of operations", "why_tests_cant": "histories are unbounded", "anchors": ["testing/blockcache.go:CreateDefaultCache", "file_systems/common/blockcache/blockcache.go"]}
{"id": "C120", "title": "A cache over a stream is a faithful view of the stream", "statement": "A cache made by WrapStream over any stream that keeps the contracts of io.Reader, io.Writer and io.Seeker behaves as a byte array that starts as the stream's contents; after a successful flush the stream holds that array.", "quantifier": "every stream within the contracts (including short reads and every pattern of failures), every geometry and history", "why_tests_cant": "streams, failure patterns and histories are unbounded", "anchors": ["file_systems/common/blockcache/blockcache.go:WrapStream", "file_systems/common/blockcache/blockcache.go:seekToBlock"]}
{"id": "C121", "title": "A cache that may not be resized stays inside its blocks", "statement": "With allowResize false, no history of operations changes the size of the stream, the number of blocks, or any byte of the stream outside the blocks of the cache.", "quantifier": "every stream within the contracts, every geometry, every history and argument", "why_tests_cant": "streams and histories are unbounded; the property constrains what does not happen", "anchors": ["file_systems/common/blockcache/blockcache.go:WrapStream", "file_systems/common/blockcache/blockcache.go:Resize"]}
{"id": "C122", "title": "A cache with inferred size covers the stream", "statement": "WrapStreamWithInferredSize gives a cache of exactly the whole blocks of the stream, or reports that the size cannot be determined.", "quantifier": "every stream, including failing ones, and every block size", "why_tests_cant": "sizes are 64-bit and streams arbitrary", "anchors": ["file_systems/common/blockcache/blockcache.go:WrapStreamWithInferredSize"]}
{"id": "C123", "title": "Caches and files over the same storage see each other's changes", "statement": "Several caches over one storage (or several files opened on one path), used alternately, behave as one byte array: every read returns the last bytes written and flushed through any of them, and no successful write is lost.", "quantifier": "every storage within the contract, every number of caches, every interleaving of operations and failures", "why_tests_cant": "interleavings are unbounded and the failing ones need two handles used alternately", "anchors": ["file_systems/common/blockcache/blockcache.go:BlockCache", "file_systems/common/blockcache/blockcache.go:FlushAll", "file_systems/common/blockcache/blockcache.go:loadBlockRange", "driver/driver.go:OpenFile"]}
{"id": "C124", "title": "The slices a cache hands out are the cache's contents", "statement": "A slice returned by GetSlice or Data stays a window on the cache for as long as the program keeps it: bytes changed through it are what later reads, other slices and (once marked dirty) the storage after a successful flush have, and changes made by other operations show in it.", "quantifier": "every storage within the contract, every history of operations, slices taken, reads and writes through them, marks, resizes and failures", "why_tests_cant": "aliasing: any number of overlapping slices live across any history", "anchors": ["file_systems/common/blockcache/blockcache.go:GetSlice", "file_systems/common/blockcache/blockcache.go:Data", "file_systems/common/blockcache/blockcache.go:MarkBlockRangeDirty", "file_systems/common/blockcache/blockcache.go:Resize"]}
{"id": "C125", "title": "Compressed sizes are as documented", "statement": "The size of the output of both compressors is the documented function of the input's maximal runs (three bytes per 257 bytes of a run for RLE8; recursive RLE better for runs over 258 bytes), with the documented sizes for 2048 bytes, 128 KiB and 1 MiB; RLE8 never grows data by more than half nor shrinks it below 3/257, and decompression never writes more than 257 bytes for three read.", "quantifier": "every input, every compressed stream whether valid or not, every run length", "why_tests_cant": "sizes must hold for every run structure; the documented figures are for inputs no test builds", "anchors": ["utilities/compression/rle8.go:CompressRLE8", "utilities/compression/rle8.go:CompressRLERecursive", "utilities/compression/rle8.go:DecompressRLE8"]}
{"id": "C126", "title": "Handles are used only while they are open", "statement": "Whatever a program does with a mounted driver and the files it opens, no object handle is used (looked up in, created in, linked, read, written, resized, listed, unlinked, or given attributes) after it was closed, and no handle is used or closed that the implementation did not return earlier; the handle of an opened file is not closed by any other call.", "quantifier": "every implementation with every failure behaviour, every mount mode of handles, every history of driver calls and file calls, up to and including a last call that panics or does not return", "why_tests_cant": "use after close depends on the history, on failures midway and on symbolic links in every position of a path", "anchors": ["driver/driver.go:getObjectAtPathNoFollow", "driver/driver.go:resolveSymlink", "driver/driver.go:removeDirectory", "driver/driver.go:OpenFile", "driver/driver.go:Link", "driver/file.go:File"]}
{"id": "C127", "title": "SameFile on a FAT8 volume", "statement": "SameFile is an equivalence on file names; two names are the same file exactly when FAT8 stores them as the same directory entry name, and two directory entries are the same file exactly when their stored names are the same up to case.", "quantifier": "every pair of ASCII names, every pair of nine-byte directory entry names", "why_tests_cant": "quantifies over all pairs of names; collisions need names no test has", "anchors": ["file_systems/fat8/readingdriver.go:SameFile", "file_systems/fat8/common.go:FilenameToBytes", "file_systems/fat8/common.go:BytesToFilename"]}
{"id": "C128", "title": "Wrapping adds identities and loses no sentinel", "statement": "A driver error wrapped around any error matches (errors.Is) everything the driver error matched; it matches a sentinel exactly if one of the two did; a chain of wraps of any length still matches what it started from.", "quantifier": "every driver error, every wrapped error, chains of every length", "why_tests_cant": "all error trees", "anchors": ["errors.go:Wrap"]}
{"id": "C129", "title": "Block ranges that fit 64 bits are bounds-checked", "statement": "GetSlice and MarkBlockRangeDirty on a range inside the cache succeed and GetSlice returns exactly the contents of the range (or the storage's error); on any other range they return ErrArgumentOutOfRange and change nothing; they never panic.", "quantifier": "every cache reachable by any history over any storage, every start and every count whose byte counts fit in 64 bits", "why_tests_cant": "all starts, counts and histories", "anchors": ["file_systems/common/blockcache/blockcache.go:GetSlice", "file_systems/common/blockcache/blockcache.go:MarkBlockRangeDirty", "file_systems/common/blockcache/blockcache.go:CheckBounds"]}
{"id": "C130", "title": "A Read that fills the buffer advances by it", "statement": "Read that returns nil filled the whole buffer with the bytes at the position and advanced it by their number; Read that returns an error leaves the position; neither changes the contents.", "quantifier": "every stream reachable by any history, every buffer length and storage", "why_tests_cant": "all histories", "anchors": ["file_systems/common/basicstream/basicstream.go:Read"]}
{"id": "C131", "title": "What WriteAt accepts can be read back", "statement": "After WriteAt(buf, off) returned nil its count is len(buf), the bytes at off are buf, every other byte is what it was, the position has not moved, and (while storage can be read) ReadAt of that range inside the stream's size returns buf.", "quantifier": "every stream reachable by any history over any storage, every offset and buffer", "why_tests_cant": "all histories and offsets", "anchors": ["file_systems/common/basicstream/basicstream.go:WriteAt"]}
{"id": "C132", "title": "Append streams keep what they have", "statement": "On a stream opened with O_APPEND, WriteAt is refused and changes nothing, and after any history of operations other than Truncate the stream is at least as long as before and its first bytes are exactly the old contents.", "quantifier": "every stream, storage and history of any length", "why_tests_cant": "unbounded histories", "anchors": ["file_systems/common/basicstream/basicstream.go:Write", "file_systems/common/basicstream/basicstream.go:WriteAt"]}
{"id": "C133", "title": "Truncate sets the size and keeps the prefix", "statement": "After Truncate(n) returned nil, n is not negative, the size is n, the position has not moved, the first min(n, old size) bytes are unchanged, bytes beyond the old blocks are zero, and if the old size was a whole number of blocks all new bytes are zero.", "quantifier": "every stream reachable by any history, every n", "why_tests_cant": "all sizes and histories", "anchors": ["file_systems/common/basicstream/basicstream.go:Truncate"]}
{"id": "C134", "title": "Stream operations with offsets from 0 on never panic", "statement": "Read, ReadAt, Write, WriteAt, Seek (any offset and whence), Truncate (any size, also negative) and Sync return, and leave a stream that has the same guarantee.", "quantifier": "every stream reachable by any history, every non-negative file offset whose end fits in 63 bits", "why_tests_cant": "all histories", "anchors": ["file_systems/common/basicstream/basicstream.go"]}
{"id": "C135", "title": "WriteTo delivers the rest of the stream in order", "statement": "WriteTo hands the destination consecutive pieces that together are the stream's bytes from the position on, returns their total number, and, unless the storage fails, that is everything up to the end; the stream's contents do not change.", "quantifier": "every stream, storage, destination writer and block size", "why_tests_cant": "all histories, storages and writers", "anchors": ["file_systems/common/basicstream/basicstream.go:WriteTo"]}
{"id": "C136", "title": "Closing a healthy non-empty stream succeeds", "statement": "If the storage accepts all blocks, Close of a stream that has at least one block returns nil and loses no byte.", "quantifier": "every stream reachable by any history with at least one block", "why_tests_cant": "all histories", "anchors": ["file_systems/common/basicstream/basicstream.go:Close", "file_systems/common/basicstream/basicstream.go:Sync"]}
{"id": "C137", "title": "WriteDiskBlocks is exact", "statement": "WriteDiskBlocks succeeds exactly if the data is a whole number of blocks that lie inside the image; then the addressed blocks hold the data, every other byte and the image's length are unchanged; otherwise nothing changes.", "quantifier": "every reachable FAT8 driver and image, every start block and data", "why_tests_cant": "all histories, starts and lengths", "anchors": ["file_systems/fat8/iobase.go:WriteDiskBlocks"]}
{"id": "C138", "title": "FAT8 names are stored as documented", "statement": "Every non-empty ASCII name is refused with ErrNameTooLong exactly if its stem is longer than 6 or its extension longer than 3; otherwise its stored form is 9 bytes, upper case, padded with blanks; every stored name can be shown; and storing the shown form again gives the same 9 bytes.", "quantifier": "every ASCII name, every 9 byte directory entry name whose shown form is not empty", "why_tests_cant": "all names", "anchors": ["file_systems/fat8/common.go:FilenameToBytes", "file_systems/fat8/common.go:BytesToFilename"]}
{"id": "C139", "title": "FAT8 histories without wrapped ranges never panic", "statement": "Whatever the image, its size and the failures of the device, no history of FormatImage, Mount, Flush, Unmount, block and cluster reads and writes and GetFAT panics, if no request for 2^56 or more blocks wraps around the end of the 64-bit block numbers.", "quantifier": "every history of any length, every image and device behaviour", "why_tests_cant": "unbounded histories", "anchors": ["file_systems/fat8/driver.go:Mount", "file_systems/fat8/iobase.go:ReadDiskBlocks", "file_systems/fat8/formattingdriver.go:FormatImage"]}
{"id": "C140", "title": "Listing a cluster chain returns unless the table has a loop", "statement": "For every FAT with N clusters listClusters returns within N+1 steps from every start, except exactly if the chain runs into a loop, and then it never returns.", "quantifier": "every table and start cluster", "why_tests_cant": "all tables", "anchors": ["file_systems/fat/driverbase.go:listClusters"]}
{"id": "C141", "title": "FAT access, modification and creation times are registers", "statement": "After any sequence of setters the access, modification and creation times are each the last accepted time set for it, times before 1980 are refused without effect, later ones accepted, and nothing else of the entry changes.", "quantifier": "every entry and every sequence of setters (the creation time while the entry is not deleted)", "why_tests_cant": "unbounded sequences", "anchors": ["file_systems/fat/dirent.go:SetCreatedAt", "file_systems/fat/dirent.go:SetLastModifiedAt", "file_systems/fat/dirent.go:SetLastAccessedAt"]}
{"id": "C142", "title": "Getwd is always canonical", "statement": "After any history of Chdir, File.Chdir and other calls, Getwd is an absolute path whose components are proper names (no empty, . or .. component), and the mount flags never change.", "quantifier": "every implementation, every history of any length", "why_tests_cant": "unbounded histories", "anchors": ["driver/driver.go:Getwd", "driver/driver.go:Chdir", "driver/file.go:File.Chdir"]}
{"id": "C143", "title": "Opening creates at most one object, and only a missing one", "statement": "OpenFile, Create and WriteFile make at most one CreateObject call; OpenFile makes it only if O_CREATE is set and Stat of the path says ErrNotFound, with the path's last name and exactly the requested permissions.", "quantifier": "every implementation, path, flags and state", "why_tests_cant": "all implementations and paths", "anchors": ["driver/driver.go:OpenFile", "driver/driver.go:Create", "driver/driver.go:WriteFile"]}
{"id": "C144", "title": "Streams and caches touch existing whole blocks only", "statement": "Nothing a program does with a stream or a cache depends on what its storage does outside its existing blocks or with buffers that are not one block long: two storages that agree inside give the same results, errors and storage states.", "quantifier": "every storage, block size, stream or cache history", "why_tests_cant": "unbounded histories and storages", "anchors": ["file_systems/common/basicstream/basicstream.go", "file_systems/common/blockcache/blockcache.go"]}
{"id": "C145", "title": "Block counts and bounds for sizes that fit", "statement": "GetMinBlocksForSize is the least number of blocks that hold the size, CheckBounds accepts exactly the ranges inside the device, and Size is BytesPerBlock times TotalBlocks.", "quantifier": "every block size, count and request whose byte counts fit in 63 bits (64 for GetMinBlocksForSize)", "why_tests_cant": "all sizes", "anchors": ["file_systems/common/blockcache/blockcache.go:GetMinBlocksForSize", "file_systems/common/blockcache/blockcache.go:CheckBounds", "file_systems/common/blockcache/blockcache.go:Size"]}
{"id": "C146", "title": "zipimage and unzipimage are inverse on distinct files", "statement": "If zipimage exits with 0 its output decompresses to the input, if unzipimage exits with 0 its output is the decompressed input, and neither changes another file; zipping and unzipping a file gives it back; a wrong number of arguments exits with 1 and touches nothing.", "quantifier": "every file, host file system, codec that inverts itself and failure of reading or writing, for output paths that are not the input file and hosts that report no error only on closing", "why_tests_cant": "all files and hosts", "anchors": ["cmd/zipimage/main.go:main", "cmd/unzipimage/main.go:main"]}
{"id": "C147", "title": "LoadDiskImage returns exactly the image", "statement": "LoadDiskImage returns bytes exactly if they are what the compressed image decompresses to and their number is sectorSize times totalSectors; what CompressImage made of an image loads as that image.", "quantifier": "every compressed image, sector size and number of sectors whose product fits in 63 bits", "why_tests_cant": "all images", "anchors": ["testing/images.go:LoadDiskImage"]}
{"id": "C148", "title": "A cache over a stream that reads in full is a faithful view", "statement": "For every stream that keeps the contracts of io.Seeker and io.Writer and whose Read fills the buffer or fails, the cache behaves as a byte array that starts as the stream's contents, and after a successful flush the stream holds that array.", "quantifier": "every such stream with any other failures, every history of cache operations", "why_tests_cant": "unbounded histories", "anchors": ["file_systems/common/blockcache/blockcache.go:WrapStream"]}
{"id": "C149", "title": "Caches that change different blocks agree", "statement": "Several caches over one storage, used in any interleaving in which every changed block is used by one cache only, behave as one byte array, and flushing them all stores exactly that array; a cache opened after another was flushed sees all of its contents; no interleaving panics.", "quantifier": "every number of caches, every interleaving of any length", "why_tests_cant": "all interleavings", "anchors": ["file_systems/common/blockcache/blockcache.go"]}
{"id": "C150", "title": "Slices are windows on the cache until Resize", "statement": "In every history of cache operations and uses of slices (writes inside their length), each slice taken reads and writes exactly its part of the array it was taken from, all slices and operations share that array until a Resize replaces it, and after a successful flush storage holds all blocks that were not changed without being marked.", "quantifier": "every history, any number of slices", "why_tests_cant": "unbounded histories", "anchors": ["file_systems/common/blockcache/blockcache.go:GetSlice", "file_systems/common/blockcache/blockcache.go:Data", "file_systems/common/blockcache/blockcache.go:MarkBlockRangeDirty"]}
{"id": "C151", "title": "Compressed sizes are determined by the maximal runs", "statement": "The sizes of both compressors' outputs are sums of documented per-run sizes over the unique maximal runs of the input; RLE8 output is at least 3/257 and at most 3/2 of the input; recursive RLE is at most one byte per run of 257 longer than RLE8; decompressed output is at most 257/3 of its input.", "quantifier": "every input and every stream", "why_tests_cant": "all inputs", "anchors": ["utilities/compression/rle8.go:CompressRLE8", "utilities/compression/rle8.go:CompressRLERecursive", "utilities/compression/rle8.go:DecompressRLE8"]}
{"id": "C152", "title": "SameFile on FAT8 is an equivalence that respects storage", "statement": "SameFile is reflexive, symmetric and transitive, true exactly for names equal up to ASCII case, and names that are the same file have the same stored form (or the same error).", "quantifier": "every pair and triple of ASCII names", "why_tests_cant": "all names", "anchors": ["file_systems/fat8/readingdriver.go:SameFile"]}
{"id": "C153", "title": "How the input is cut into reads does not matter to the codecs", "statement": "CompressRLE8, DecompressRLE8 and CompressRLERecursive write, count and return the same for any two readers that deliver the same bytes and end with the same error, whatever pieces they deliver them in, with empty reads in between, and whether the error comes with the last bytes or after them; 100 empty reads in a row end the input with io.ErrNoProgress.  The round trip holds through any two such readers.", "quantifier": "every io.Reader within its contract, every way of splitting every input, every writer behaviour", "why_tests_cant": "quantifies over all schedules of partial reads", "anchors": ["utilities/compression/rle_grouper.go:NewRLEGrouperFromReader", "utilities/compression/rle_grouper.go:GetNextRun", "utilities/compression/rle8.go:CompressRLE8", "utilities/compression/rle8.go:DecompressRLE8", "utilities/compression/rle8.go:CompressRLERecursive"]}
{"id": "C154", "title": "Create and OpenFile with O_CREATE make the missing file", "statement": "On a writable mount of a healthy file system, Create of a name that does not exist in the root directory returns a file, the directory then has exactly one entry more, an empty file of that name, and the returned file can be read and changed; OpenFile does the same for every flag word with O_CREATE (readable exactly if asked for) and fails with ErrNotFound, changing nothing, without O_CREATE.", "quantifier": "every proper name, every directory contents, every block size, flag word without O_TRUNC, permission bits and working directory", "why_tests_cant": "ranges over all directories, names and flag words", "anchors": ["driver/driver.go:Create", "driver/driver.go:OpenFile", "driver/file.go:NewFileFromObjectHandle"]}
{"id": "C155", "title": "Image compression with any reader, any writer and any gzip", "statement": "CompressImage always returns; it returns no error exactly if the input ended without an error and every Write on the output succeeded, and then the output received exactly gzip's stream of the RLE8 form of the input and the count is its length; otherwise the output received a first part of it and an input error is reported as it is. DecompressImage and DecompressImageToBytes report an input gzip cannot open (leaving the output alone), an error of gzip in mid-stream, a bad RLE8 stream and a failed Write; without an error the output is the whole image. Compressing and decompressing gives the image back.", "quantifier": "every io.Reader and io.Writer that keeps its contract, cutting the data anywhere and failing at any call, every gzip given as a call-by-call compressor, every image", "why_tests_cant": "ranges over all readers, writers, failure points and images", "anchors": ["utilities/compression/compression.go:CompressImage", "utilities/compression/compression.go:DecompressImage", "utilities/compression/compression.go:DecompressImageToBytes", "utilities/compression/compression.go:countingWriter"]}
{"id": "C156", "title": "The geometry table is read from its text as it stands", "statement": "For every text - the columns in any order, fields quoted or not, bars, quotation marks, line ends and carriage returns inside quoted fields, either kind of line end, empty lines anywhere - the package starts up exactly if the text is a well-formed table with a header, every row has as many fields as the header, every numeric field is a decimal number below 2^64 and no two rows have the same slug, and panics otherwise; a text that is not a table has a misquoted record somewhere, and no text is two tables; afterwards a lookup finds exactly the disks the rows describe, field by field. The file shipped in the repository is such a table and gives the 34 known geometries in order.", "quantifier": "every text whatsoever, well-formed or not", "why_tests_cant": "ranges over all tables and all ways of writing them", "anchors": ["disks/disks.go:init", "disks/disks.go:GetPredefinedDiskGeometry", "disks/disk-geometries.csv"]}
{"id": "C157", "title": "A file obeys the access it was opened with", "statement": "A file opened without write access refuses every Write, WriteAt and Truncate with ErrNotPermitted, changes nothing, and never makes the implementation do anything but read blocks of that object, at whatever point of its use and whatever others do meanwhile; one opened without read access refuses every Read and ReadAt and leaves the buffer as it was. With read access ReadAt delivers exactly the bytes the object had when it was opened (EOF exactly if there are fewer than asked for), as long as nobody changes its blocks. A file starts at position 0, Seek moves it, Read reads where it stands. Open works whatever the mount allows, gives the object the path leads to, and its files are of the first kind.", "quantifier": "every implementation, path, working directory, flags, sequence of calls on the file and of foreign changes, every buffer and offset", "why_tests_cant": "ranges over all implementations, all histories of the file and all interleavings with other users", "anchors": ["driver/driver.go:OpenFile", "driver/driver.go:Open", "driver/file.go:NewFileFromObjectHandle", "file_systems/common/basicstream/basicstream.go:ReadAt", "file_systems/common/basicstream/basicstream.go:Write", "file_systems/common/basicstream/basicstream.go:Truncate"]}
{"id": "C158", "title": "What is written to an open file is read back from it, and stored", "statement": "Whatever calls a program makes on an open file, in whatever order, they give the answers an array of bytes gives: what was written is what is read back, Seek and Write move the position, a file opened for appending writes at its end. What has been written is in the file system once Sync or Close has reported success.", "quantifier": "every implementation with reliable and honest reads, every file opened without O_TRUNC, every sequence of calls that does not make the file grow or shrink, interleaved with anything others do elsewhere", "why_tests_cant": "ranges over all histories of an open file", "anchors": ["driver/driver.go:OpenFile", "driver/file.go:File", "file_systems/common/basicstream/basicstream.go:implWriteAt", "file_systems/common/basicstream/basicstream.go:ReadAt", "file_systems/common/basicstream/basicstream.go:Write", "file_systems/common/basicstream/basicstream.go:Seek", "file_systems/common/basicstream/basicstream.go:Sync", "file_systems/common/blockcache/blockcache.go:FlushAll"]}
{"id": "C159", "title": "Chmod, Chown and Chdir of an open file act on the object that was opened", "statement": "Chmod and Chown of an open file make exactly one call, with the values given, to the object that was opened, and report its error; they report ErrNotSupported if and only if the object has no such method. Chdir fails with ErrNotADirectory and does nothing, since only regular files can be opened.", "quantifier": "every implementation, path, flags, use of the file and foreign changes before the call, every mode, owner and group", "why_tests_cant": "ranges over all implementations and all histories of the file", "anchors": ["driver/file.go:File.Chmod", "driver/file.go:File.Chown", "driver/file.go:File.Chdir", "driver/driver.go:chdirToObject"]}
{"id": "C160", "title": "A directory listing describes the entries", "statement": "ReadDir returns the names the directory lists, without . and .., in that order, each with the name, size, mode, directory bit and modification time of the object found under it, up to the first that cannot be found, whose error is then reported.", "quantifier": "every implementation, path and directory", "why_tests_cant": "ranges over all implementations and directories", "anchors": ["driver/driver.go:ReadDir", "driver/driver.go:readDir", "driver/dirent.go:DirectoryEntry"]}
{"id": "C161", "title": "Formatting a blank FAT8 image gives the reference image shipped with the driver", "statement": "FormatImage on an empty or blank file with 2002 or 640 sectors leaves exactly the bytes of testdata/empty-floppy.img or testdata/empty-minifloppy.img.", "quantifier": "every driver state, every blank file of any length", "why_tests_cant": "the tests that mean to check it compare the formatted image with itself (expectedSector is taken from imageContents), and could only try single starting files", "anchors": ["file_systems/fat8/formattingdriver.go:FormatImage", "file_systems/fat8/formattingdriver_test.go:ValidateImage"]}
{"id": "C162", "title": "FAT Stat describes the named entry", "statement": "Stat and Lstat of a path on a FAT volume return the attributes stored in the directory entry of that name, and an error if there is no such entry or the directory cannot be read.", "quantifier": "every implementation of the FAT variant, every directory content, every path, every device behaviour", "why_tests_cant": "the driver is untested; a test could only try single volumes", "anchors": ["file_systems/fat/driverbase.go:Stat", "file_systems/fat/driverbase.go:resolvePathToDirent", "file_systems/fat/dirent.go:AttrFlagsToFileMode"]}
{"id": "C163", "title": "FAT operations change no more than they are asked to", "statement": "Stat, Lstat, Readdir and ReadFile never update or delete an entry and never free a cluster. Chmod and Chtimes update at most one entry, the one the path leads to, keeping everything in it but the mode, or the times of access and modification. Remove deletes at most one entry, before it frees any cluster, and frees none if the deletion fails. The directory it names is that of the path without its last component.", "quantifier": "every implementation of the FAT variant and every device, including failing and corrupt ones; every path; also when the operation panics or does not end", "why_tests_cant": "a test sees the calls of single runs", "anchors": ["file_systems/fat/driverbase.go:Stat", "file_systems/fat/driverbase.go:Readdir", "file_systems/fat/driverbase.go:ReadFile", "file_systems/fat/driverbase.go:Chmod", "file_systems/fat/driverbase.go:Chtimes", "file_systems/fat/driverbase.go:Remove"]}
{"id": "C164", "title": "FAT operations report every failure of the volume", "statement": "If a FAT entry or a sector cannot be read (an error or a short read), the root directory cannot be listed, a cluster cannot be freed or an entry cannot be updated or deleted, then the running Stat, Readdir, ReadFile, Chmod, Chtimes or Remove ends there, with that error, and calls nothing further.", "quantifier": "every implementation of the FAT variant, every device and every point at which a call can fail; every path", "why_tests_cant": "a test can inject single failures; this ranges over every failing call of every run", "anchors": ["file_systems/fat/driverbase.go:readAbsoluteSectors", "file_systems/fat/driverbase.go:listClusters", "file_systems/fat/driverbase.go:readDirFromDirent", "file_systems/fat/driverbase.go:resolvePathToDirent", "file_systems/fat/driverbase.go:ReadFile", "file_systems/fat/driverbase.go:Remove"]}
{"id": "C165", "title": "Caches and streams report every failure of their storage", "statement": "If fetching a block, flushing a block or resizing fails, then the running operation of the block cache (ReadAt, WriteAt, GetSlice, LoadAll, Data, FlushAll, Resize) or of the stream over it (New, Read, ReadAt, Write, WriteAt, Truncate, Sync, Close, ReadFrom, WriteTo) calls the storage no further and returns that error (possibly with a message around it); an operation that returns no error had no failing call.", "quantifier": "every storage and every point at which a call can fail; every state and argument", "why_tests_cant": "a test can inject single failures; this ranges over every failing call of every run", "anchors": ["file_systems/common/blockcache/blockcache.go:loadBlockRange", "file_systems/common/blockcache/blockcache.go:flushBlockRange", "file_systems/common/blockcache/blockcache.go:Resize", "file_systems/common/basicstream/basicstream.go:implWriteAt", "file_systems/common/basicstream/basicstream.go:Truncate", "file_systems/common/basicstream/basicstream.go:ReadFrom", "file_systems/common/basicstream/basicstream.go:WriteTo"]}
{"id": "C166", "title": "Driver operations report every failure of the file system implementation", "statement": "If the implementation fails to look up, create, link, list or unlink an object, to resize it, to read or write a block, or to change its mode, owner or times, then the running operation makes no further call (except closing handles) and returns that error, or ErrIOFailed wrapping it; an operation that returns no error had no failing call, except that opening with O_CREATE may take 'not found' as an answer. The same holds for the methods of open files.", "quantifier": "every implementation, every point at which a call can fail; every path operation, argument and state", "why_tests_cant": "a test can inject single failures; this ranges over every failing call of every run", "anchors": ["driver/driver.go:getObjectAtPathNoFollow", "driver/driver.go:getObjectAtPathFollowingLink", "driver/driver.go:OpenFile", "driver/driver.go:Link", "driver/driver.go:WriteFile", "driver/driver.go:RemoveAll", "driver/driver.go:ReadDir", "driver/file.go:File"]}
{"id": "C167", "title": "The run grouper works on every byte scanner and reader", "statement": "From any io.ByteScanner that keeps its contract, and through NewRLEGrouperFromReader from any io.Reader, GetNextRun takes the longest run of the next byte and leaves the scanner in front of the byte after it; the last run comes with io.EOF; an input that fails gives its error and no run. Calling it until it returns an error spells out the whole input in maximal runs.", "quantifier": "every byte scanner and reader within its contract, every input and ending, every way of splitting it into reads", "why_tests_cant": "scanners, readers and inputs are all unbounded", "anchors": ["utilities/compression/rle_grouper.go:GetNextRun", "utilities/compression/rle_grouper.go:NewRLEGrouperFromReader", "utilities/compression/rle_grouper.go:NewRLEGrouperFromByteScanner"]}
{"id": "C168", "title": "The run grouper reports every failure of its scanner", "statement": "If ReadByte or UnreadByte of the underlying scanner fails during a GetNextRun, that call returns the error; a call that returns no error has met no failure, so no byte is lost unnoticed.", "quantifier": "every byte scanner with any failures at any call", "why_tests_cant": "a test injects single failures; this ranges over every scanner", "anchors": ["utilities/compression/rle_grouper.go:GetNextRun"]}
{"id": "C169", "title": "A FAT boot sector is read from any reader", "statement": "However the reader splits its bytes, NewFATBootSectorFromStream takes exactly the first 40 and its result depends on them only; if there are fewer it returns an error that is ErrIOFailed and wraps the reader's own (io.EOF if a part had no byte at all, io.ErrUnexpectedEOF if it was cut off).", "quantifier": "every io.Reader within its contract, with any pieces, empty reads and failures", "why_tests_cant": "readers and ways of splitting are unbounded", "anchors": ["file_systems/fat/common.go:NewFATBootSectorFromStream"]}
{"id": "C170", "title": "Opening a file copes with whatever sizes its handle reports", "statement": "NewFileFromObjectHandle (and so OpenFile) never panics: it succeeds exactly when the Size its handle reports is between 0 and BlockSize times NumBlocks, with the position at 0 and that size, and otherwise returns an error; without O_TRUNC it changes nothing.", "quantifier": "every implementation and every Size, BlockSize and NumBlocks its handles can report", "why_tests_cant": "three 64-bit numbers; the multiplication can overflow", "anchors": ["driver/file.go:NewFileFromObjectHandle", "file_systems/common/blockcache/blockcache.go:New", "file_systems/common/basicstream/basicstream.go:New"]}
{"id": "C171", "title": "FAT8 names of any characters are stored in nine bytes and come back", "statement": "FilenameToBytes accepts every name whose stem takes at most six bytes and whose extension takes at most three, stores it in exactly nine bytes, and BytesToFilename shows the capitals of the name for them, whatever characters the name consists of; BytesToFilename shows every nine-byte entry, whatever its bytes; Stat finds an entry by its name in capital or small letters.", "quantifier": "every string of bytes, every UTF-8 string, every table of capital letters", "why_tests_cant": "there are infinitely many strings, and lengths in bytes and in characters differ only outside ASCII", "anchors": ["file_systems/fat8/common.go:FilenameToBytes", "file_systems/fat8/common.go:BytesToFilename", "file_systems/fat8/readingdriver.go:Stat"]}
{"id": "C172", "title": "FAT8 SameFile is an equivalence on names of any characters", "statement": "SameFile returns for every two names, says whether they agree character by character up to case, and is an equivalence relation, also for characters outside ASCII and for bytes that are no characters.", "quantifier": "every two strings of bytes, every enumeration of the classes of characters that differ by case", "why_tests_cant": "ranges over all strings; the comparison loops over classes of characters", "anchors": ["file_systems/fat8/readingdriver.go:SameFile"]}
{"id": "C173", "title": "FAT8 names that are the same file are stored alike, for any characters", "statement": "Two UTF-8 names that SameFile calls the same file are stored as the same bytes, or both refused with the same error.", "quantifier": "every two UTF-8 strings, every table of capital letters and of classes of characters", "why_tests_cant": "ranges over all strings and all characters", "anchors": ["file_systems/fat8/readingdriver.go:SameFile", "file_systems/fat8/common.go:FilenameToBytes"]}
{"id": "C174", "title": "A stream is compressed and read to its end", "statement": "Given a stream at any position, CompressRLE8, CompressRLERecursive, DecompressRLE8, CompressImage and io.ReadAll see exactly the bytes from its position to its end, once each, although the last Read gives its bytes together with io.EOF and does not advance; an image compressed from one stream and decompressed from another is the image; the stream's contents do not change.", "quantifier": "every storage that does not fail, every history of the stream, every position and size, every writer, every growth of the buffer of io.ReadAll", "why_tests_cant": "the reads of the stream, of bufio and of append cut the contents at places that depend on all the sizes together", "anchors": ["file_systems/common/basicstream/basicstream.go:Read", "utilities/compression/rle8.go:CompressRLE8", "utilities/compression/rle8.go:DecompressRLE8", "utilities/compression/compression.go:CompressImage"]}
{"id": "C175", "title": "A failure of the storage under a stream is reported by whoever reads the stream", "statement": "If the storage under a stream fails while the stream is compressed or read with io.ReadAll, the operation returns an error, and the bytes it processed are the first bytes of the rest of the stream; without an error it processed all of them.", "quantifier": "every storage, failing at any call with any error, every history of the stream, every position and size", "why_tests_cant": "the failing call and the kind of its error are the storage's choice", "anchors": ["file_systems/common/basicstream/basicstream.go:ReadAt", "file_systems/common/blockcache/blockcache.go:loadBlockRange", "utilities/compression/rle_grouper.go:GetNextRun", "utilities/compression/rle8.go:DecompressRLE8"]}
{"id": "C176", "title": "Copying one stream into another copies, or says that it did not", "statement": "io.Copy(dst, src) (which calls src.WriteTo(dst)) and dst.ReadFrom(src) between two streams put the bytes from src's position to its end over those of dst from its position on, change nothing else, and return their number and no error; if they cannot do that, they return an error.", "quantifier": "every two storages that do not fail, all block sizes, every history of the two streams, all positions and sizes", "why_tests_cant": "where the writes start and end depends on both block sizes and positions, and whether a write is accepted on the number of blocks of the destination", "anchors": ["file_systems/common/basicstream/basicstream.go:WriteTo", "file_systems/common/basicstream/basicstream.go:ReadFrom", "file_systems/common/basicstream/basicstream.go:Write"]}
{"id": "C177", "title": "io.ReadFull reads a stream record by record", "statement": "io.ReadFull on a stream fills the buffer with the next bytes and moves behind them if there are enough; otherwise it returns the bytes that are left with io.ErrUnexpectedEOF (io.EOF if there are none) and the position stays, so trying again gives the same result. One call after the other gives consecutive pieces of the stream; a failure of the storage is reported. A FAT boot sector read from a stream depends only on the next 40 bytes.", "quantifier": "every storage, every history of the stream, every position, every sequence of record sizes", "why_tests_cant": "the block size, the position and the record sizes together decide which blocks each read touches", "anchors": ["file_systems/common/basicstream/basicstream.go:Read", "file_systems/fat/common.go:NewFATBootSectorFromStream"]}
{"id": "C178", "title": "A partition of an image can be read on its own", "statement": "io.NewSectionReader(stream, off, n) gives exactly the bytes of the stream from off on, n of them or as many as there are, once each and in order, then io.EOF; neither the contents nor the position of the stream change. So the codecs compress and decompress a section like a file of its bytes, and the boot sector of a FAT partition is that of the partition's bytes. A read whose fetch fails gives no bytes and that error and leaves the section where it was; unless the storage's error is io.EOF, a codec that reports no error has seen the whole section.", "quantifier": "every storage, every history of the stream, all offsets, sizes and buffer lengths", "why_tests_cant": "how a section's reads fall on blocks depends on the offset, the block size and the buffer together", "anchors": ["file_systems/common/basicstream/basicstream.go:ReadAt", "utilities/compression/rle8.go:CompressRLE8", "file_systems/fat/common.go:NewFATBootSectorFromStream"]}
{"id": "C179", "title": "An image can be restored onto a stream, or an error says that it was not", "statement": "DecompressImage into a stream opened for writing, at a position from which the image fits into the stream, puts the whole image there, changes no other byte and returns its length and no error when the storage does not fail; CompressImage into a stream likewise puts the compressed image there. Whatever fails (the input, gzip, the image, the storage, a Write that is refused) is reported, and no byte outside the image's place ever changes.", "quantifier": "every storage, every history of the stream, every position, block size and image, every gzip", "why_tests_cant": "which Write calls a codec makes depends on the data, and whether one succeeds on where it falls in the blocks", "anchors": ["utilities/compression/compression.go:CompressImage,DecompressImage", "utilities/compression/rle8.go:DecompressRLE8", "file_systems/common/basicstream/basicstream.go:Write"]}
{"id": "C180", "title": "The FAT8 driver's refusals can be told apart with errors.Is", "statement": "When the FAT8 driver refuses a request on a working image, errors.Is connects the error with the library's error for the situation: ErrBusy or ErrAlreadyInProgress for a mounted driver, ErrInvalidArgument for a size that cannot be formatted, ErrFileSystemCorrupted for an image that is not FAT8 or has different FATs, ErrIOFailed for blocks or clusters outside the image or data of the wrong length.", "quantifier": "every driver state, image, size, block, cluster and buffer", "why_tests_cant": "each refusal is decided by several tests in a row, in different functions, and which one fires first depends on all arguments and the state", "anchors": ["file_systems/fat8/iobase.go:ReadDiskBlocks,WriteDiskBlocks,ReadAbsoluteCluster,WriteAbsoluteCluster", "file_systems/fat8/formattingdriver.go:FormatImage", "file_systems/fat8/driver.go:Mount", "file_systems/fat8/common.go:GetGeometry"]}
{"id": "C181", "title": "Errors are recognised by the tests callers of os functions use", "statement": "The API is meant as a drop-in replacement for os: an error made by the library for a situation the standard library has an error for (fs.ErrNotExist, fs.ErrExist, fs.ErrPermission, ...) is recognised as that error by errors.Is; an error from elsewhere that the library wrapped stays recognisable through any number of messages, wraps and casts.", "quantifier": "every error made with NewError, the exported errors, WithMessage, Wrap and CastToDriverError, in any combination, from any errors from elsewhere; every target", "why_tests_cant": "the errors form arbitrarily deep trees", "anchors": ["errors.go:WithMessage,Wrap,CastToDriverError,Unwrap", "api.go:File"]}
