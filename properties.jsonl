{"id": "C01", "title": "Chunk numbering is a bijection", "statement": "For a dataset of any shape and chunk shape, converting a chunk number to a chunk grid coordinate and back returns the same number for every number below number_of_chunks, converting any valid grid coordinate to a number and back returns the same coordinate, and the number of chunks is exactly the number of valid grid coordinates.", "quantifier": "every number of dimensions, every shape and positive chunk shape whose size fits size_t, every chunk number and every valid chunk coordinate", "why_tests_cant": "Unit tests check a handful of 2-4d shapes; the claim ranges over every dimension, every ragged edge and every chunk.", "anchors": ["include/z5/util/blocking.hxx: Blocking::blockIdToBlockCoordinate, blockCoordinatesToBlockId, init"]}
{"id": "C02", "title": "Chunks tile the array exactly", "statement": "Every element coordinate of the array lies inside exactly one chunk: the chunk that coordinateToBlockCoordinate returns is valid, the [begin, begin+shape) box reported for it contains the element, no other valid chunk's box does, every valid chunk box is non-empty, inside the array, and never larger than the chunk shape.", "quantifier": "every shape, chunk shape, element coordinate and chunk", "why_tests_cant": "Needs every element of every array shape; tests sample.", "anchors": ["include/z5/util/blocking.hxx: coordinateToBlockCoordinate, getBlockBeginAndShape, getBlockBeginAndEnd, checkBlockCoordinate", "include/z5/handle.hxx: Chunk::computeBoundedShape", "include/z5/dataset.hxx: getChunkOffset"]}
{"id": "C03", "title": "A region request touches exactly the chunks it overlaps", "statement": "For every non-empty region inside the array, the list of chunks computed for the request contains each chunk that shares at least one element with the region exactly once, contains no other chunk, and is sorted in C order; in particular every listed chunk is a valid chunk of the dataset.", "quantifier": "every shape, chunk shape and in-bounds region", "why_tests_cant": "The odometer and the boundary arithmetic (end % chunk == 0) have unboundedly many alignments in every dimension.", "anchors": ["include/z5/util/blocking.hxx: getBlocksOverlappingRoi", "include/z5/util/util.hxx: makeRegularGrid"]}
{"id": "C04", "title": "Request/chunk intersection geometry is exact", "statement": "For every in-bounds region and every chunk overlapping it, the reported offset-in-request, shape and offset-in-chunk describe exactly the intersection of the region with the chunk (same elements, once each), and the 'complete overlap' flag is true iff the whole (clipped) chunk lies inside the region, provided begin/end distances are below 2^31.", "quantifier": "every shape, chunk shape, region, overlapping chunk; distances < 2^31", "why_tests_cant": "Depends on the sign of differences per dimension in every combination of aligned / unaligned begin and end.", "anchors": ["include/z5/util/blocking.hxx: getCoordinatesInRoi"]}
{"id": "C05", "title": "Request geometry for very large extents", "statement": "The intersection geometry of C04 is exact for every array whose extents fit size_t, including extents of 2^31 elements or more along one axis.", "quantifier": "every shape, chunk shape and region representable in size_t", "why_tests_cant": "No test allocates 2^31-element axes with sparse chunks; the 32-bit intermediate only misbehaves there.", "anchors": ["include/z5/util/blocking.hxx: getCoordinatesInRoi (int offDiff, endDiff)"]}
{"id": "C06", "title": "Request validation accepts exactly the in-bounds, non-empty regions", "statement": "readSubarray, writeSubarray and writeScalar accept a region iff it has the dataset's dimensionality, every extent is at least 1 and offset+extent does not exceed the array shape in any dimension; everything else is rejected before the store or the output is touched.", "quantifier": "every dataset shape, every offset and extent vector (any length, any 64 bit value)", "why_tests_cant": "Includes offsets near 2^64 whose sum wraps, and every mismatch of dimensionality.", "anchors": ["include/z5/dataset.hxx: checkRequestShape", "include/z5/multiarray/array_access.hxx: readSubarray, writeSubarray", "include/z5/multiarray/broadcast.hxx: writeScalar"]}
{"id": "C07", "title": "Strided copy moves exactly the view's elements", "statement": "Copying between two views of equal shape writes, for every index of the view, the source element at that index to the destination element at that index, leaves every other destination element unchanged, and touches no memory outside the two buffers when the views are in bounds; this holds for any number of dimensions (including 0) and any strides under which destination elements are distinct.", "quantifier": "every dimension, shape, stride vector (contiguous or not), buffers and contents", "why_tests_cant": "The odometer, the contiguous fast path and the strided slow path must agree for all ranks and strides.", "anchors": ["include/z5/multiarray/array_util.hxx: copyView", "include/z5/multiarray/array_view.hxx: ArrayView"]}
{"id": "C08", "title": "Strided fill sets exactly the view's elements", "statement": "Filling a view sets every element of the view to the value, changes nothing else and stays inside the buffer, for every rank, shape and stride vector.", "quantifier": "every dimension, shape, strides, value", "why_tests_cant": "Same as C07.", "anchors": ["include/z5/multiarray/array_util.hxx: fillView"]}
{"id": "C09", "title": "Sub-views of C-contiguous buffers address the right elements", "statement": "The element at index i of the sub-view with offset o of a C-contiguous view is the element at index o+i of the parent, i.e. at row-major position of o+i; different in-bounds indices address different elements and all addresses are below the buffer size.", "quantifier": "every shape, offset, sub-shape and index", "why_tests_cant": "Requires mixed-radix injectivity for every rank.", "anchors": ["include/z5/multiarray/array_view.hxx: cOrderStrides, makeView, subview"]}
{"id": "C10", "title": "Endianness reversal", "statement": "Reversing the endianness of a buffer twice restores it, it never mixes bytes of different elements, and the big-endian reading of the reversed element equals the little-endian reading of the original.", "quantifier": "every element size, every buffer", "why_tests_cant": "Ranges over all byte patterns and sizes.", "anchors": ["include/z5/util/util.hxx: reverseEndiannessInplace"]}
{"id": "C11", "title": "N5 chunk header round trip", "statement": "Reading back the header written for a chunk returns the element count (product of the chunk shape, or the varlen element count) and the exact header length, flags varlen iff it was written as varlen, and the payload starts right behind it, for every chunk shape with at most 65535 dimensions and extents (and varlen size) below 2^32.", "quantifier": "every chunk shape, varlen flag, varlen size, payload", "why_tests_cant": "All shapes and sizes; tests use a few.", "anchors": ["include/z5/util/format_data.hxx: write_n5_header, read_n5_header"]}
{"id": "C12", "title": "N5 header parser is safe on arbitrary bytes", "statement": "Whatever bytes a chunk file holds, header parsing either reports an error or returns a header length that is at most the file size; it never reads outside of the buffer; in particular every strict prefix of a valid header is rejected.", "quantifier": "every byte string", "why_tests_cant": "Every corrupt or truncated file; fuzzing only samples.", "anchors": ["include/z5/util/format_data.hxx: read_n5_header", "include/z5/filesystem/store.hxx: readVarlenFromHeader, readShapeFromHeader"]}
{"id": "C13", "title": "N5 header represents every chunk shape", "statement": "The N5 chunk header round trip of C11 holds for every chunk shape and varlen size, with no bound on extents.", "quantifier": "every chunk shape and varlen size representable in size_t", "why_tests_cant": "Only fails for extents of 2^32 or more, which no test uses.", "anchors": ["include/z5/util/format_data.hxx: write_n5_header (uint32_t, uint16_t narrowing)"]}
{"id": "C14", "title": "Little-endian integer codec", "statement": "Writing a 64 (32) bit integer in little-endian form and reading it back returns the integer and always produces 8 (4) bytes; reading any 8 (4) bytes and writing them back reproduces the bytes.", "quantifier": "every 64 and 32 bit value, every byte string", "why_tests_cant": "2^64 values.", "anchors": ["include/z5/util/sharding.hxx: readLE64, readLE32, writeLE64, writeLE32"]}
{"id": "C15", "title": "The shard checksum is CRC-32C", "statement": "The table driven checksum equals the Castagnoli CRC defined by bit-serial polynomial division (reflected, init and final xor all ones) for every byte string, and checksumming a concatenation equals continuing from the checksum of the first part.", "quantifier": "every byte string, every split", "why_tests_cant": "Test vectors only cover a few strings.", "anchors": ["include/z5/util/crc32c.hxx: crc32cTable, crc32c"]}
{"id": "C16", "title": "The shard checksum detects every short burst error", "statement": "If two index byte strings of equal length differ only within a window of at most 32 consecutive bits (in particular by one flipped bit), their checksums differ.", "quantifier": "every byte string, every error burst of at most 32 bits, every position", "why_tests_cant": "Infinitely many strings and positions.", "anchors": ["include/z5/util/crc32c.hxx: crc32c"]}
{"id": "C17", "title": "Inner chunk addressing inside shards is a bijection", "statement": "An inner chunk is determined by its shard coordinate and slot; two different inner chunks never share the same slot of the same shard, the slot is always below the number of slots, and every (shard, slot) pair inside the grid belongs to exactly one inner chunk; slots follow C order.", "quantifier": "every dimension, chunks-per-shard vector and inner chunk id", "why_tests_cant": "Mixed radix arithmetic for all ranks.", "anchors": ["include/z5/util/sharding.hxx: shardId, shardSlot, chunksPerShard, numShardSlots"]}
{"id": "C18", "title": "Shard files round trip", "statement": "Building a shard from any list of inner blobs and parsing it back returns exactly the same blobs slot by slot (an empty blob comes back as an empty slot), for every number of slots and blob contents whose total size fits 64 bits.", "quantifier": "every number of slots, every blob contents", "why_tests_cant": "All blob combinations incl. empty ones in any position.", "anchors": ["include/z5/util/sharding.hxx: buildShard, parseShardIndex, extractShardBlobs"]}
{"id": "C19", "title": "Shard parsing is memory safe on arbitrary bytes", "statement": "For every byte string and slot count, parsing either reports corruption or returns one entry per slot such that every non-empty entry lies completely inside the data region, so extracting or decoding blobs never reads outside of the shard and never reads index bytes as data.", "quantifier": "every byte string, every slot count", "why_tests_cant": "Every corrupt file, incl. offsets near 2^64.", "anchors": ["include/z5/util/sharding.hxx: parseShardIndex, extractShardBlobs", "include/z5/generic/sharded_dataset.hxx: readShardRaw, readRawChunk"]}
{"id": "C20", "title": "Damaged shard indexes are rejected, never misread", "statement": "If the index or checksum of a valid shard is changed within a window of at most 32 consecutive bits, every access to the shard fails with an error instead of returning data of the wrong inner chunk; and a failed access never modifies the shard.", "quantifier": "every shard, every such damage, every access", "why_tests_cant": "Infinitely many shards and damages.", "anchors": ["include/z5/util/sharding.hxx: parseShardIndex", "include/z5/generic/sharded_dataset.hxx: readShardBlobs, readShard"]}
{"id": "C21", "title": "Different chunks are stored under different keys", "statement": "For a fixed dataset configuration (zarr v2 with any separator starting with a non-digit, zarr v3 default or v2 encoding, n5) two chunks of the grid have the same key iff they are the same chunk, and no chunk key equals the name of a metadata or attributes file.", "quantifier": "every dimension, every pair of chunk ids, every admissible separator", "why_tests_cant": "All pairs of ids (e.g. 1.10 vs 11.0).", "anchors": ["include/z5/handle.hxx: Chunk::getChunkKey", "include/z5/util/util.hxx: join"]}
{"id": "C22", "title": "Chunk keys are injective for every separator", "statement": "The injectivity of C21 holds for every dimension separator the API accepts (createDataset does not restrict the separator).", "quantifier": "every separator string", "why_tests_cant": "Nobody tests digit or empty separators; the API accepts them.", "anchors": ["include/z5/handle.hxx: Chunk::getChunkKey", "include/z5/factory.hxx: createDataset"]}
{"id": "C23", "title": "Chunk encode/decode round trip", "statement": "Reading a chunk that was written with any data (not entirely equal to the fill value) returns exactly that data for zarr (full chunk shape) and n5 (clipped shape, big endian, header), for every element size, and for every lossless codec; independent of the previous contents of the output buffer.", "quantifier": "every chunk shape, element size, data, codec satisfying decode(encode x)=x, previous buffer contents", "why_tests_cant": "All data and codecs at once.", "anchors": ["include/z5/util/format_data.hxx: data_to_buffer, buffer_to_data, data_to_n5_format, compress, decompress"]}
{"id": "C24", "title": "Decoding raw chunk bytes never overflows the output buffer", "statement": "For every stored byte string, reading it as an uncompressed chunk either throws or writes at most the output capacity the caller is documented to provide (the chunk's element count).", "quantifier": "every stored byte string, zarr and n5, every chunk shape", "why_tests_cant": "Corrupt sizes and headers are unbounded in number.", "anchors": ["include/z5/util/format_data.hxx: decompress, buffer_to_data, read_n5_header", "include/z5/multiarray/array_access.hxx: writePlainGeneric"]}
{"id": "C25", "title": "Variable length chunks round trip", "statement": "An n5 chunk written in varlen mode with k>0 elements reads back as varlen with exactly those k elements, for every k below 2^32 independent of the chunk shape; writing 0 elements removes the chunk; zarr rejects varlen writes without touching the store.", "quantifier": "every element count, data, chunk, dataset", "why_tests_cant": "All lengths and contents.", "anchors": ["include/z5/util/format_data.hxx: data_to_buffer", "include/z5/generic/dataset.hxx: writeChunk, checkVarlenChunk"]}
{"id": "C26", "title": "Eliding fill-value chunks loses no information", "statement": "Writing a chunk whose elements all compare equal to the fill value deletes the stored chunk, and afterwards reading the chunk's elements gives back the bit patterns that were written, for every element type.", "quantifier": "every element type, fill value, chunk data", "why_tests_cant": "Floating point corner cases (-0.0, NaN).", "anchors": ["include/z5/util/format_data.hxx: data_to_buffer (val == fillValue)"]}
{"id": "C27", "title": "Chunk API behaves like a map from chunk ids to data", "statement": "After any sequence of write_chunk / remove_chunk / read_chunk / chunk_exists calls with valid ids, chunk_exists(c) holds iff the last operation on c was a write of data that is not all fill value, and read_chunk(c) then returns that data; operations on other chunks never affect c; reading a missing chunk of a plain dataset is an error.", "quantifier": "every history of chunk operations, every dataset configuration (zarr, n5)", "why_tests_cant": "All histories.", "anchors": ["include/z5/generic/dataset.hxx: writeChunk, readChunk, chunkExists, removeChunk", "include/z5/filesystem/store.hxx: ChunkStore"]}
{"id": "C28", "title": "Read-only handles never modify storage", "statement": "Through a handle opened with mode 'r' no sequence of API calls (chunk and sub-array writes, scalar writes, chunk / dataset removal, attribute writes and removals, creation of files, groups and datasets) changes any stored object; every such call fails.", "quantifier": "every history of calls, every arguments, plain and sharded datasets", "why_tests_cant": "All call histories and argument combinations.", "anchors": ["include/z5/util/file_mode.hxx: FileMode", "include/z5/generic/dataset.hxx: writeChunk", "include/z5/generic/sharded_dataset.hxx: writeShardBlobs", "include/z5/attributes.hxx: writeAttributes, removeAttribute", "include/z5/filesystem/handle.hxx: create, remove"]}
{"id": "C29", "title": "Invalid chunk ids are rejected without side effects", "statement": "Writing or reading a chunk whose id has the wrong dimensionality or is outside the chunk grid fails and leaves the store unchanged.", "quantifier": "every id vector, every dataset, write / read / remove", "why_tests_cant": "All out-of-grid ids.", "anchors": ["include/z5/generic/dataset.hxx: checkChunk", "include/z5/generic/sharded_dataset.hxx: checkChunk, removeChunk", "include/z5/util/blocking.hxx: checkBlockCoordinate"]}
{"id": "C30", "title": "Zarr sub-array I/O implements an n-dimensional array", "statement": "Starting from an empty (unsharded) zarr dataset, after any sequence of in-bounds write_subarray / write_scalar calls, reading any in-bounds region returns for each element the value most recently written to it, or the fill value if it was never written (exactly for integer types; up to C++ == with the fill value for floating point types). No call fails or touches memory outside its buffers.", "quantifier": "every shape, chunk shape, element type, lossless codec, history of requests", "why_tests_cant": "All interleavings of overlapping, unaligned requests.", "anchors": ["include/z5/multiarray/array_access.hxx: readSubarray, writeSubarray, readSubarrayPlain, writePlainGeneric, prepareChunkWriteBuffer", "include/z5/multiarray/broadcast.hxx: writeScalar"]}
{"id": "C31", "title": "N5 sub-array I/O implements an n-dimensional array", "statement": "The same as C30 for n5 datasets (clipped edge chunks, chunk headers, big endian payload), for chunk extents below 2^32.", "quantifier": "every shape, chunk shape, element type, lossless codec, history", "why_tests_cant": "All histories.", "anchors": ["include/z5/multiarray/array_access.hxx: readSubarrayPlain, writePlainGeneric", "include/z5/util/format_data.hxx: read_n5_header"]}
{"id": "C32", "title": "Sharded sub-array I/O implements an n-dimensional array", "statement": "The same as C30 for zarr v3 datasets with the sharding codec, mixing sub-array, scalar and single-chunk writes; inner chunks of a touched shard that are not part of the request keep their contents.", "quantifier": "every shape, inner chunk shape, shard shape, codec, history", "why_tests_cant": "All histories and all shard layouts.", "anchors": ["include/z5/multiarray/array_access.hxx: writeShardedGeneric, readSubarraySharded, groupChunksByShard", "include/z5/generic/sharded_dataset.hxx: writeChunk, writeInnerBlob, readShardBlobs, writeShardBlobs"]}
{"id": "C33", "title": "Scalar writes equal constant array writes", "statement": "Writing a scalar to a region leaves the stored dataset in exactly the same state (byte for byte) as writing an array of that shape filled with the scalar.", "quantifier": "every dataset state, region, value, zarr / n5 / sharded", "why_tests_cant": "All regions and states.", "anchors": ["include/z5/multiarray/broadcast.hxx: writeScalar", "include/z5/multiarray/array_access.hxx: makeCopyFillRequest"]}
{"id": "C34", "title": "Storage layout is unobservable", "statement": "The same history of in-bounds sub-array writes applied to two datasets of equal shape and fill value but different chunk shapes, formats (zarr / n5 / sharded v3) and codecs yields equal results for every later read.", "quantifier": "every pair of layouts, every history", "why_tests_cant": "All pairs of layouts.", "anchors": ["include/z5/multiarray/array_access.hxx: readSubarray, writeSubarray"]}
{"id": "C35", "title": "No data leaks between chunks through reused scratch buffers", "statement": "The result of reading a region depends only on the stored chunks of the dataset, never on the previous contents of the reusable per-thread chunk buffer; in particular data of one chunk never shows up at the position of another chunk, also when a stored chunk is truncated.", "quantifier": "every store contents, region, chunk processing order", "why_tests_cant": "Requires reasoning about every stored byte string and processing order.", "anchors": ["include/z5/multiarray/array_access.hxx: forEachBuffered, readSubarrayPlain", "include/z5/util/format_data.hxx: decompress (raw)"]}
{"id": "C36", "title": "Results are independent of the number of threads and the schedule", "statement": "For every thread count and every interleaving of the per-chunk (per-shard) tasks' store accesses, a sub-array read or write finishes with the same output array and the same store contents as the single threaded run.", "quantifier": "every thread count, every interleaving, every request", "why_tests_cant": "Exponentially many schedules.", "anchors": ["include/z5/multiarray/array_access.hxx: forEachBuffered, forEachWithState, writePlainGeneric, writeShardedGeneric", "include/z5/util/threadpool.hxx: parallel_foreach"]}
{"id": "C37", "title": "parallel_foreach processes every item exactly once", "statement": "For every number of items and worker threads the batches handed to the pool partition the item range: each item is processed exactly once, by a thread id below the number of threads (0 if the pool is empty).", "quantifier": "every item count, every thread count, every iterator category", "why_tests_cant": "Batch arithmetic in floating point for all counts.", "anchors": ["include/z5/util/threadpool.hxx: parallel_foreach_impl, parallel_foreach_single_thread, parallel_foreach"]}
{"id": "C38", "title": "Exceptions in parallel loops are reported and do not lose other work", "statement": "If items throw, parallel_foreach rethrows the exception of the first failing batch (in batch order) after all batches finished; every batch without failing item is fully processed; without failing items nothing is thrown.", "quantifier": "every assignment of failures to items, every batch split", "why_tests_cant": "All failure patterns.", "anchors": ["include/z5/util/threadpool.hxx: getFutures, parallel_foreach_impl"]}
{"id": "C39", "title": "Thread pool never loses or duplicates tasks", "statement": "In every execution of the pool every enqueued task is executed at most once, at most number-of-workers tasks run at the same time, a worker only exits after stop was requested, and if the pool is only stopped after all tasks completed every task is executed exactly once; enqueueing after stop is rejected.", "quantifier": "every interleaving of enqueue, worker steps, wait and destruction", "why_tests_cant": "All schedules.", "anchors": ["include/z5/util/threadpool.hxx: ThreadPool::init, enqueueReturning, waitFinished, ~ThreadPool"]}
{"id": "C40", "title": "Concurrent single-chunk writes to one shard lose no update", "statement": "When several threads call write_chunk / remove_chunk on inner chunks of the same shard of one dataset object, in every interleaving of their reads and writes of the shard object the final shard contains, for every slot, the blob of the last writer of that slot in lock order, and untouched slots keep their contents.", "quantifier": "every number of threads, every interleaving", "why_tests_cant": "All interleavings of read-modify-write.", "anchors": ["include/z5/generic/sharded_dataset.hxx: writeInnerBlob (shardMutex_)"]}
{"id": "C41", "title": "Crash consistency of sub-array writes", "statement": "If the process dies at any point of a (single threaded) sub-array write to a plain dataset, every chunk except at most one holds either its complete old or its complete new contents; chunks processed before the crash point are new, chunks after it are old, and chunks outside the request are untouched.", "quantifier": "every request, every crash point (including inside a file write)", "why_tests_cant": "All crash points.", "anchors": ["include/z5/filesystem/store.hxx: writeFile, ChunkStore::write", "include/z5/multiarray/array_access.hxx: writePlainGeneric"]}
{"id": "C42", "title": "Corrupt shards fail loudly and are not overwritten", "statement": "If a shard object exists but its index is invalid, every read or write that needs the shard fails and the stored bytes of the shard stay as they are.", "quantifier": "every stored byte string that fails the index check, every operation", "why_tests_cant": "All corrupt contents.", "anchors": ["include/z5/generic/sharded_dataset.hxx: readShardBlobs, readShard, writeInnerBlob"]}
{"id": "C43", "title": "Zarr v2 array metadata round trip", "statement": "Writing the metadata of any zarr v2 dataset that create_dataset accepts and reading it back yields the same shape, chunk shape, data type, codec, fill value and dimension separator.", "quantifier": "every shape, chunk shape, data type, codec and option set, fill value, separator", "why_tests_cant": "All combinations.", "anchors": ["include/z5/metadata.hxx: toJsonZarr, fromJsonZarr", "include/z5/types/types.hxx: readZarrCompressionOptionsFromJson, writeZarrCompressionOptionsToJson"]}
{"id": "C44", "title": "N5 dataset metadata round trip", "statement": "Writing the metadata of any n5 dataset and reading it back yields the same shape, chunk shape (axis order reversed on disk), data type, codec and options, and the fill value used for missing chunks.", "quantifier": "every shape, chunk shape, data type, codec and option set, fill value", "why_tests_cant": "All combinations, incl. fill value which is not stored.", "anchors": ["include/z5/metadata.hxx: toJsonN5, fromJsonN5", "include/z5/types/types.hxx: readN5CompressionOptionsFromJson, writeN5CompressionOptionsToJson"]}
{"id": "C45", "title": "Zarr v3 array metadata round trip", "statement": "Writing the metadata of any zarr v3 dataset (plain or sharded) and reading it back yields the same shape, inner chunk shape, shard shape, data type, codec, fill value, chunk key encoding and separator.", "quantifier": "every shape, chunk / shard shape, data type, codec and options, fill value, chunk key encoding", "why_tests_cant": "All combinations.", "anchors": ["include/z5/metadata.hxx: toJsonV3, fromJsonV3", "include/z5/types/types.hxx: v3 codec helpers"]}
{"id": "C46", "title": "Data type and codec name tables are consistent", "statement": "For each format the name written for a data type (codec) is read back as the same data type (codec); no two data types share a name.", "quantifier": "every data type, codec and format", "why_tests_cant": "Cross-table consistency is not covered by per-type tests.", "anchors": ["include/z5/types/types.hxx: Datatypes, Compressors"]}
{"id": "C47", "title": "Invalid shapes are rejected at creation", "statement": "Dataset metadata creation rejects shard shapes that are not multiples of the chunk shape, mismatching dimensionalities and chunk shapes with entries larger than the shape (or zero), so every created dataset satisfies the assumptions of the chunk arithmetic.", "quantifier": "every shape / chunk / shard vectors", "why_tests_cant": "All vectors.", "anchors": ["include/z5/metadata.hxx: createDatasetMetadata, checkShapes, fromJsonV3"]}
{"id": "C48", "title": "Attribute writes merge", "statement": "After any sequence of attribute writes and removals on a node, reading the attributes returns for each key the last value written and not removed since, and for keys never mentioned what was there before (their value or nothing); a refused call changes nothing. For zarr v3 the node metadata stored in the same file is unaffected.", "quantifier": "every history of attribute operations, every JSON values, n5 / zarr v2 / zarr v3", "why_tests_cant": "All histories.", "anchors": ["include/z5/generic/attributes.hxx: readAttributes, writeAttributes, removeAttribute"]}
{"id": "C49", "title": "N5 dataset metadata is protected from attribute access", "statement": "For an n5 dataset no attribute write or removal through the dataset handle changes the dimensions, block size, data type or compression, and these keys never appear in the attributes that are read.", "quantifier": "every history of attribute operations", "why_tests_cant": "All histories and JSON objects.", "anchors": ["include/z5/attributes.hxx: protectN5DatasetAttributes, hideN5DatasetAttributes, writeAttributes, removeAttribute, readAttributes"]}
{"id": "C50", "title": "File mode permissions", "statement": "can_write is false exactly for 'r'; only 'w', 'w-'/'x' and 'a' may create, only 'w' truncates and only 'w-'/'x' requires that the file does not exist; opening a File follows the h5py rules: for every mode and existence state the container is opened, created, replaced or rejected as documented and an existing container is only deleted in mode 'w'.", "quantifier": "every mode, every existence state", "why_tests_cant": "Finite but needs the combination of flag bits, File.__init__ and handle checks.", "anchors": ["include/z5/util/file_mode.hxx: FileMode", "src/python/module/z5py/file.py: File.__init__", "include/z5/filesystem/handle.hxx: File::create"]}
{"id": "C51", "title": "create then open returns the same dataset", "statement": "Opening a dataset right after create_dataset yields an object that addresses the same chunk keys and decodes with the same metadata as the creating object, so data written through one is read through the other.", "quantifier": "every configuration that create_dataset accepts (format, separator, chunk key encoding, codec, sharding)", "why_tests_cant": "All configurations; combination of factory, metadata and handle code.", "anchors": ["include/z5/factory.hxx: createDataset, openDataset, getZarrChunkConfig", "include/z5/filesystem/factory.hxx: createDataset, openDataset"]}
{"id": "C52", "title": "create_dataset is all-or-nothing", "statement": "If create_dataset throws, the container is unchanged: no dataset directory or metadata is left behind.", "quantifier": "every argument combination", "why_tests_cant": "All failing argument combinations.", "anchors": ["include/z5/filesystem/factory.hxx: createDataset", "include/z5/metadata.hxx: createDatasetMetadata, toJson*"]}
{"id": "C53", "title": "unique / unique-with-counts over a dataset", "statement": "util::unique returns exactly the set of values held by array elements in existing chunks (missing chunks are documented to be skipped), and uniqueWithCounts exactly how many such array elements hold each value, for every assignment of chunks to threads.", "quantifier": "every dataset contents, shape, chunk shape, thread count", "why_tests_cant": "All contents and ragged edges.", "anchors": ["include/z5/util/functions.hxx: unique, uniqueWithCounts"]}
{"id": "C54", "title": "removeTrivialChunks only removes chunks that hold a single value", "statement": "removeTrivialChunks removes exactly the chunks whose stored elements are all equal (to the requested value, if restricted), and after removal the array reads as before if the removed chunks held the fill value.", "quantifier": "every dataset contents", "why_tests_cant": "All contents.", "anchors": ["include/z5/util/functions.hxx: removeTrivialChunks"]}
{"id": "C55", "title": "Index normalization agrees with numpy", "statement": "For every basic index (integers, slices with step 1, at most one ellipsis) the region computed for ds[index] is the region numpy selects from an array of the same shape, and the squeezed axes are the integer-indexed ones; invalid integers raise.", "quantifier": "every shape, every index expression", "why_tests_cant": "All negative / out of range / None combinations.", "anchors": ["src/python/module/z5py/shape_utils.py: slice_to_start_stop, int_to_start_stop, normalize_slices", "src/python/module/z5py/dataset.py: index_to_roi"]}
{"id": "C56", "title": "Assignment only reshapes by leading / trailing singleton axes", "statement": "ds[index] = array accepts an array iff its shape equals the selected region's shape after adding or removing leading and trailing axes of length 1, and then stores the elements in unchanged C order.", "quantifier": "every array shape and region shape", "why_tests_cant": "All shape pairs.", "anchors": ["src/python/module/z5py/shape_utils.py: rectify_shape, sliding_window"]}
{"id": "C57", "title": "Object store prefix queries are exact", "statement": "On S3, existence, membership and removal of a node concern exactly the objects below its path: a sibling whose name merely starts with the same characters never makes a node exist and is never deleted, and after removal no object below the node remains while all others are untouched.", "quantifier": "every set of stored keys, every node name", "why_tests_cant": "All key sets.", "anchors": ["include/z5/s3/handle.hxx: S3HandleImpl::existsImpl, inImpl, removeImpl, keysImpl, deletePrefix, joinKey"]}
{"id": "C58", "title": "File-system and object-store backends behave identically", "statement": "The same history of chunk and sub-array operations on a filesystem dataset and on an S3 dataset with the same contents yields the same results and exceptions and the same stored objects under the same relative keys, and leaves the rest of the bucket alone.", "quantifier": "every history, every zarr or n5 configuration whose dimension separator is / or does not contain it, plain and sharded", "why_tests_cant": "All histories.", "anchors": ["include/z5/generic/store.hxx: ChunkStorePolicy", "include/z5/filesystem/store.hxx: ChunkStore", "include/z5/s3/store.hxx: ChunkStore", "include/z5/s3/handle.hxx: getObject, putObject, objectExists, deleteObject"]}
{"id": "C59", "title": "Chunk iteration utilities visit every chunk of the region exactly once", "statement": "parallel_for_each_chunk visits every chunk of the dataset exactly once, and the _in_roi variants exactly the chunks overlapping the region, for every thread count.", "quantifier": "every dataset, non-empty region, thread count", "why_tests_cant": "All grids.", "anchors": ["include/z5/util/for_each.hxx: parallel_for_each_chunk, parallel_for_each_chunk_in_roi, parallel_for_each_block, parallel_for_each_block_in_roi"]}
{"id": "C60", "title": "Python chunk I/O never reads or writes outside numpy buffers", "statement": "write_chunk through python only accepts arrays whose element count is what the chunk writer reads from the buffer, and read_chunk allocates at least as many elements as the chunk reader writes, for every dataset written by this library.", "quantifier": "every chunk, array size, dataset configuration, varlen or not", "why_tests_cant": "All sizes.", "anchors": ["src/python/lib/dataset.cxx: writePyChunk, readPyChunk"]}
{"id": "C61", "title": "Varlen queries agree with chunk reads", "statement": "For every n5 chunk file whose header parses, the varlen flag and size reported by checkVarlenChunk are the ones readChunk acts on.", "quantifier": "every chunk file contents", "why_tests_cant": "All byte strings.", "anchors": ["include/z5/filesystem/store.hxx: readVarlenFromHeader", "include/z5/util/format_data.hxx: read_n5_header", "include/z5/generic/dataset.hxx: checkVarlenChunk"]}
{"id": "C62", "title": "A failing write keeps what it cannot read and never leaves a half-merged chunk", "statement": "If a sub-array write has to merge with a stored chunk that cannot be decoded or has a variable length, the write fails and that chunk's file is unchanged; and however a write fails, each covered chunk is afterwards either untouched or holds exactly the file a successful write makes of it. In sharded datasets the same holds of whole shards: a shard with a damaged index, or with an inner chunk that has to be merged and cannot be decoded, is kept with all its inner chunks and the write fails, and no shard has only some of its inner chunks replaced.", "quantifier": "every request, every combination of intact and damaged chunks, every thread count and schedule", "why_tests_cant": "Needs every combination of damage, region and schedule.", "anchors": ["include/z5/multiarray/array_access.hxx: prepareChunkWriteBuffer, writePlainGeneric", "include/z5/util/threadpool.hxx: parallel_foreach"]}
{"id": "C63", "title": "Damaged array metadata is rejected", "statement": "Opening a dataset whose metadata document is any JSON value either yields metadata with as many chunk extents as axes or fails with an exception; it is never undefined behaviour.", "quantifier": "every JSON document, n5 / zarr v2 / zarr v3", "why_tests_cant": "All documents.", "anchors": ["include/z5/metadata.hxx: fromJson, fromJsonZarr, fromJsonN5, fromJsonV3", "include/z5/types/types.hxx: readZarrCompressionOptionsFromJson, readN5CompressionOptionsFromJson, readV3CodecsFromJson"]}
{"id": "C64", "title": "Groups and datasets are told apart", "statement": "A node made by create_group is reported as a group and a node made by create_dataset as a dataset, and no attribute write or removal through its handle changes that.", "quantifier": "every creation call that succeeds, every history of attribute operations, n5 / zarr v2 / zarr v3", "why_tests_cant": "All histories and attribute names.", "anchors": ["include/z5/generic/attributes.hxx: isSubGroup", "include/z5/handle.hxx: hasAllN5DatasetAttributes", "include/z5/factory.hxx: createGroup, createDataset"]}
{"id": "C65", "title": "Calls on one node leave the others alone", "statement": "No history of attribute writes, creations and removals on nodes of a container changes another node that is neither above nor below them: it opens as before, shows the same attributes, and every file below it is unchanged; outside of its node a call at most adds missing directories on the way to it.", "quantifier": "every history of calls on siblings, every arguments, failing calls included", "why_tests_cant": "All histories and name pairs (e.g. names that are prefixes of each other).", "anchors": ["include/z5/factory.hxx: createGroup, createDataset, openDataset", "include/z5/attributes.hxx: writeAttributes, removeAttribute", "include/z5/filesystem/handle.hxx: create, remove"]}
{"id": "C66", "title": "Removal is exact", "statement": "Removing a file, group or dataset deletes exactly the objects below its path and nothing else; removing what does not exist, or through a read-only handle, fails and changes nothing.", "quantifier": "every file system state, every path, every mode", "why_tests_cant": "All states.", "anchors": ["include/z5/filesystem/handle.hxx: Group::remove, File::remove, Dataset::remove"]}
{"id": "C67", "title": "Nested creation makes the groups on the way", "statement": "After create_group with a key of several names every node on the way that did not exist is reported as a group.", "quantifier": "every key, n5 / zarr v2 / zarr v3", "why_tests_cant": "All keys and states.", "anchors": ["include/z5/factory.hxx: createGroup", "include/z5/generic/attributes.hxx: isSubGroup"]}
{"id": "C68", "title": "Item access from python is memory safe", "statement": "Whatever sequence of ds[index] = value is executed on a new dataset, with valid or invalid indices and with arrays of any shape, and whatever ds[index] is read afterwards: every call either succeeds or raises, none reads or writes outside of a buffer, and a call that raises changes nothing.", "quantifier": "every history of assignments, every index expression, every array shape, n5 / zarr, plain and sharded", "why_tests_cant": "All histories, indices and shapes.", "anchors": ["src/python/module/z5py/dataset.py: __getitem__, __setitem__, index_to_roi", "src/python/module/z5py/shape_utils.py: normalize_slices, rectify_shape", "src/python/lib/dataset.cxx: readPySubarray, writePySubarray, write_scalar"]}
{"id": "C69", "title": "Explicit positions are checked", "statement": "read_subarray, write_subarray, read_chunk and write_chunk called from python with a position that does not lie inside of the dataset (wrong number of entries, negative, too large) raise and change nothing.", "quantifier": "every list of integers, every array, every dataset", "why_tests_cant": "All positions, including those near the limits of the integer type.", "anchors": ["src/python/module/z5py/dataset.py: read_subarray, write_subarray, read_chunk, write_chunk", "src/python/lib/dataset.cxx: readPySubarray, writePySubarray, readPyChunk, writePyChunk", "include/z5/multiarray/array_util.hxx: checkRequestShape"]}
{"id": "C70", "title": "A failing request to the object store is never mistaken for missing data", "statement": "On S3, whatever requests fail or lose their answer, a call either throws or does and returns exactly what it does without failures; a failing call for one chunk leaves the bucket as before or as after the complete call, and nothing outside of the dataset ever changes.", "quantifier": "every call, every bucket, every sequence of failing, lost and partly executed requests", "why_tests_cant": "Tests need a service that fails at every possible place.", "anchors": ["include/z5/s3/handle.hxx: getObject, putObject, objectExists, deleteObject, listAllKeys, deletePrefix, S3HandleImpl::existsImpl, inImpl, keysImpl, removeImpl", "include/z5/s3/store.hxx: ChunkStore", "include/z5/multiarray/array_access.hxx: readSubarray, writeSubarray", "include/z5/generic/sharded_dataset.hxx: ShardedDataset"]}
{"id": "C71", "title": "Compression loses nothing", "statement": "A chunk of any bytes written with any of the compressors (blosc, zlib, gzip, bzip2, lz4, xz, zstd) at any level the library accepts is either refused with an exception or reads back exactly; it also reads back with another level, and in a build of z5 with libdeflate if it was written with zlib and the other way round. Chunks of the sizes the library accepts are not refused.", "quantifier": "every chunk of every size, every compressor and setting, every library that behaves as its manual says", "why_tests_cant": "All contents and sizes, including those beyond the 32 bit counters of the libraries, and all library versions.", "anchors": ["include/z5/compression/blosc_compressor.hxx: BloscCompressor", "include/z5/compression/zlib_compressor.hxx: ZlibCompressor", "include/z5/compression/bzip2_compressor.hxx: Bzip2Compressor", "include/z5/compression/lz4_compressor.hxx: Lz4Compressor", "include/z5/compression/xz_compressor.hxx: XzCompressor", "include/z5/compression/zstd_compressor.hxx: ZstdCompressor", "include/z5/util/format_data.hxx: compress, decompress"]}
{"id": "C72", "title": "Decompression of arbitrary bytes is safe", "statement": "Whatever bytes a stored chunk consists of (truncated, corrupted, of another compressor): decompressing it returns or throws, does not run forever, and reads and writes nothing outside of the stored bytes and of the buffer of the chunk.", "quantifier": "every byte string, every chunk buffer, every compressor and setting", "why_tests_cant": "All byte strings.", "anchors": ["include/z5/compression/blosc_compressor.hxx: BloscCompressor::decompress", "include/z5/compression/zlib_compressor.hxx: ZlibCompressor::decompress", "include/z5/compression/bzip2_compressor.hxx: Bzip2Compressor::decompress", "include/z5/compression/lz4_compressor.hxx: Lz4Compressor::decompress", "include/z5/compression/xz_compressor.hxx: XzCompressor::decompress", "include/z5/compression/zstd_compressor.hxx: ZstdCompressor::decompress", "include/z5/util/format_data.hxx: decompress"]}
{"id": "C73", "title": "Python: names lead to the objects made under them", "statement": "After f.create_dataset, f.create_group or f.require_group with a name of any number of components, f[name] is the new object, the groups on the way exist, nothing else has changed; a second require_group changes nothing; del f[name] removes exactly this object; leading slashes are ignored, and nothing is ever created outside of the container.", "quantifier": "every container of n5, zarr v2 and zarr v3, every group, every name, every argument", "why_tests_cant": "All names and states.", "anchors": ["src/python/module/z5py/group.py: __contains__, __getitem__, __delitem__, create_group, require_group, create_dataset", "src/python/lib/handles.cxx: getGroupHandle", "include/z5/filesystem/handle.hxx: HandleImpl"]}
{"id": "C74", "title": "Python: compression settings are honoured", "statement": "The codec of a dataset made by create_dataset(compression=..., **options) is the named library with the given options, and the documented defaults for the others.", "quantifier": "every compression name and every option, n5 / zarr v2 / zarr v3", "why_tests_cant": "All combinations of names, options and values.", "anchors": ["src/python/module/z5py/dataset.py: _create_dataset, _to_zarr_compression_options, _to_zarr_v3_compression_options, _to_n5_compression_options", "include/z5/types/types.hxx: readZarrCompressionOptionsFromJson, readN5CompressionOptionsFromJson"]}
{"id": "C75", "title": "Python: reported compression settings can be passed on", "statement": "create_dataset with the compression and compression_opts that a dataset reports succeeds and the new dataset has the same codec.", "quantifier": "every dataset, every codec and setting, n5 / zarr v2 / zarr v3", "why_tests_cant": "All codecs and values.", "anchors": ["src/python/module/z5py/dataset.py: compression, compression_opts, _create_dataset", "include/z5/generic/dataset.hxx: getCompressor, getCompressionOptions"]}
{"id": "C76", "title": "Python: require_dataset is idempotent", "statement": "require_dataset returns an existing dataset exactly if shape and (if given) chunks and type agree, changes nothing then, and creates it otherwise; calling it again with the same arguments returns the same dataset.", "quantifier": "every container, name, shape, chunks and type", "why_tests_cant": "All arguments and states.", "anchors": ["src/python/module/z5py/dataset.py: _require_dataset", "src/python/module/z5py/group.py: require_dataset"]}
{"id": "C77", "title": "Python: visititems visits every member once", "statement": "visititems calls the function exactly once for every group and dataset below the group, with its path relative to the group, until the function returns something, which is returned.", "quantifier": "every container, every depth, every function (also one that depends on earlier calls)", "why_tests_cant": "All trees and functions.", "anchors": ["src/python/module/z5py/group.py: visititems, __iter__, __getitem__", "include/z5/filesystem/factory.hxx: relativePath"]}
{"id": "C78", "title": "Python: attributes behave like a dict", "statement": "Any history of attrs[k], k in attrs, attrs[k] = v, update, del, pop returns and raises what a python dict does, apart from protected names and the json form of values.", "quantifier": "every history, files, groups and datasets of n5, zarr v2 and zarr v3", "why_tests_cant": "All histories.", "anchors": ["src/python/module/z5py/attribute_manager.py: AttributeManager", "include/z5/attributes.hxx: writeAttributes, readAttributes, removeAttribute"]}
{"id": "C79", "title": "Python: pickling", "statement": "A File, Group or Dataset that is pickled and unpickled is the same object: same path, mode, format, separator, name and metadata.", "quantifier": "every object of every container, however it was obtained", "why_tests_cant": "All names, depths and ways to make an object.", "anchors": ["src/python/module/z5py/dataset.py: _navigate, __reduce__", "src/python/module/z5py/group.py: __reduce__", "src/python/module/z5py/file.py: _unpickle_file"]}
{"id": "C80", "title": "Python: create_dataset makes what was asked for", "statement": "A dataset made by create_dataset has the given shape, type, fill value, shards and chunk names, or shape and type of the data; chunks are those given (or about 64^3 elements, the same extent in every dimension), limited to the shape; contradicting arguments and types other than the ten integer and float types raise.", "quantifier": "every combination of arguments, n5 / zarr v2 / zarr v3", "why_tests_cant": "All shapes and combinations.", "anchors": ["src/python/module/z5py/dataset.py: _create_dataset", "src/python/module/z5py/shape_utils.py: get_default_chunks"]}
{"id": "C81", "title": "Containers in a bucket behave like containers in a directory", "statement": "Any history of calls that create, open, look up, remove nodes or read, write, remove attributes gives the same answers and exceptions with the S3 backend as with the file system, leads to the same nodes and documents, and changes nothing outside of the container.", "quantifier": "every history of calls, every container and bucket, zarr v2 and zarr v3 (n5: refuted)", "why_tests_cant": "All histories and bucket contents; the S3 backend is not tested without a service.", "anchors": ["include/z5/s3/factory.hxx: createFile, createGroup, createDataset", "include/z5/s3/metadata.hxx: writeMetadata, readMetadata, isSubGroup", "include/z5/s3/attributes.hxx: readAttributes, writeAttributes, removeAttribute", "include/z5/s3/handle.hxx: File, Group, Dataset", "include/z5/filesystem/factory.hxx"]}
{"id": "C82", "title": "Relative names in a bucket", "statement": "The name of a node relative to a group above it consists of the names on the path between them, and joining it to the name of the group gives the node.", "quantifier": "every container name, group and path below it", "why_tests_cant": "All names and depths.", "anchors": ["include/z5/s3/factory.hxx: relativePath", "src/python/module/z5py/group.py: visititems"]}
{"id": "C83", "title": "Failing requests to a bucket", "statement": "Whichever requests of a call fail, the call changes at most the documents of the node that it is about; and it either has its effect or raises.", "quantifier": "every call, bucket, and every outcome of each request", "why_tests_cant": "All fault sequences.", "anchors": ["include/z5/s3/attributes.hxx: internal::readAttributes", "include/z5/s3/handle.hxx: objectExists, isZarrGroup", "include/z5/s3/metadata.hxx: writeMetadata"]}
{"id": "C84", "title": "S3File modes", "statement": "Opening an S3File with r or r+ needs an existing container and changes nothing; a keeps an existing container or makes an empty zarr container; w leaves an empty zarr container; w- refuses an existing one. Nothing outside of the container changes.", "quantifier": "every mode, bucket and outcome of the requests", "why_tests_cant": "All bucket contents and fault sequences.", "anchors": ["src/python/module/z5py/file.py: S3File.__init__", "src/python/lib/s3.cxx", "include/z5/s3/handle.hxx: remove, create"]}
{"id": "C85", "title": "Failing disk accesses are not mistaken for missing chunks", "statement": "On a disk on which any access may fail, reading a chunk or a region and asking whether a chunk exists gives what it gives on a working disk, or raises; no file changes. If no access fails, all calls do what the other properties say.", "quantifier": "every call, file contents and every pattern of failing accesses, plain and sharded datasets", "why_tests_cant": "All points of failure.", "anchors": ["include/z5/filesystem/store.hxx: read, exists, readVarlenFromHeader", "include/z5/generic/dataset.hxx: readChunk, readRawChunk", "include/z5/generic/sharded_dataset.hxx"]}
{"id": "C86", "title": "Writes on a failing disk", "statement": "Writing or removing chunks, or writing a region, on a disk on which any access may fail has its effect, or it raises; then each chunk of the region is as before or as after the write, except for the one at the failure, and no other file has changed.", "quantifier": "every call, file contents and every pattern of failing accesses, plain and sharded datasets", "why_tests_cant": "All points of failure.", "anchors": ["include/z5/filesystem/store.hxx: write, remove", "include/z5/generic/dataset.hxx: writeChunk, removeChunk", "include/z5/multiarray/array_access.hxx: writeSubarray"]}
{"id": "C87", "title": "Containers on a failing disk", "statement": "On a disk on which any access may fail, a call that makes, opens, finds or removes files, groups and datasets, or reads and writes attributes, has the result and the effect that it has on a working disk, or it raises. Then the container is as before, except for directories on the way to a new node and for parts of a node that was being removed. A failure is never taken for a missing node, document or attribute, nor for another format.", "quantifier": "every container of n5, zarr v2 and v3, every call, mode and argument, every pattern of failing accesses and of lost documents", "why_tests_cant": "All points of failure.", "anchors": ["include/z5/filesystem/attributes.hxx: readAttributes, writeAttributes, removeAttribute", "include/z5/filesystem/metadata.hxx: writeMetadata, readMetadata", "include/z5/filesystem/factory.hxx: createDataset, createFile, createGroup, openDataset", "include/z5/filesystem/handle.hxx: create, remove, exists, isZarr", "src/python/module/z5py/file.py: File.__init__"]}
{"id": "C88", "title": "Interrupted writes can be repeated", "statement": "After a write of a region that died or raised, whatever was lost, repeating it has the result of an undisturbed write.", "quantifier": "every region, data, file contents and point of interruption", "why_tests_cant": "All points of interruption and histories.", "anchors": ["include/z5/multiarray/array_access.hxx: writeSubarray", "include/z5/generic/dataset.hxx: writeChunk", "include/z5/generic/sharded_dataset.hxx: writeChunk, removeChunk"]}
{"id": "C89", "title": "Datasets of a container do not interfere", "statement": "What a dataset of a container answers, and what its chunks hold, depends on the calls on this dataset alone: making, changing and removing other nodes, writing attributes of any node and writing data of other datasets in between makes no difference. A call through a dataset object changes nothing in the container but chunks of this dataset and missing directories for them.", "quantifier": "every container, every history of calls on the dataset (through any objects for it) and on other nodes that are neither above nor below it, plain and sharded datasets", "why_tests_cant": "All interleavings of calls and all layouts of containers.", "anchors": ["include/z5/filesystem/handle.hxx: Dataset, Chunk, create, remove", "include/z5/filesystem/store.hxx: read, write, erase, remove, exists", "include/z5/generic/dataset.hxx", "include/z5/filesystem/factory.hxx: createDataset, createGroup"]}
{"id": "C90", "title": "Data calls leave metadata alone", "statement": "Reading, writing and removing chunks and regions of datasets changes no document and no attribute of any group or dataset (nodes that someone made inside of a dataset aside); every such dataset is opened as before.", "quantifier": "every container and every history of data calls through any objects for its datasets", "why_tests_cant": "All histories, chunk positions (also those out of range) and layouts.", "anchors": ["include/z5/filesystem/store.hxx: write, erase", "include/z5/filesystem/handle.hxx: Chunk", "include/z5/filesystem/metadata.hxx: readMetadata", "include/z5/filesystem/attributes.hxx: readAttributes"]}
{"id": "C91", "title": "The life of a dataset", "statement": "A dataset that was made in a container, used, and opened again later with any mode is the array that was asked for: the same shape, element type, chunk shape, codec and fill value, and reading any part of it gives what the writes and removals since it was made describe, whatever was done with other nodes of the container.", "quantifier": "every container, arguments of the creation that the format can record, history of array operations and of calls on other nodes, region and mode", "why_tests_cant": "All histories from the creation to the last read.", "anchors": ["include/z5/factory.hxx: createDataset, openDataset", "include/z5/multiarray/array_access.hxx: readSubarray, writeSubarray, writeScalar", "include/z5/filesystem/metadata.hxx", "include/z5/filesystem/store.hxx"]}
{"id": "C92", "title": "Files have the published layout", "statement": "A program that knows the published formats (Zarr v2, Zarr v3 with or without shards, N5) but not this library, and that can undo the compression, finds every element of the array in the files that this library wrote: the file with the documented name holds it at the documented place, in the documented byte order, and a missing file or shard entry means the fill value.", "quantifier": "every dataset (rank, shape, chunk shape, shard shape, element type, codec, separator, key encoding), history of array operations and element", "why_tests_cant": "Unit tests compare a few files with a few expected ones; the claim is about every shape, rank, position and history.", "anchors": ["include/z5/util/format_data.hxx: dataToBuffer, write_n5_header", "include/z5/util/sharding.hxx: buildShard", "include/z5/handle.hxx: getChunkKey", "include/z5/multiarray/array_access.hxx: writeSubarray", "include/z5/generic/sharded_dataset.hxx"]}
{"id": "C93", "title": "Files of other programs", "statement": "Files that another program wrote in the published formats (Zarr v2, Zarr v3 with or without shards, N5) are read as the array that they describe, whatever the order and position of the chunks in a shard and whether N5 blocks at the border are clipped or full. Writing into such an array gives an array in which the new elements and all the others are found, by this library and by any reader of the format.", "quantifier": "every dataset, every contents of the files that a reader of the format understands, every region and history of array operations", "why_tests_cant": "Other writers choose block extents and shard layouts that this library never writes; all of them matter.", "anchors": ["include/z5/util/format_data.hxx: buffer_to_data, read_n5_header", "include/z5/util/sharding.hxx: parseShardIndex, extractShardBlobs", "include/z5/multiarray/array_access.hxx: readSubarray, prepareChunkWriteBuffer", "include/z5/generic/sharded_dataset.hxx: readShard"]}
{"id": "C94", "title": "Metadata documents mean what the formats say", "statement": "The document (.zarray, zarr.json, attributes.json) of a new dataset describes that dataset to any reader of the published format: shape, chunk and shard shape, element type, byte order, fill value, compression, and names of the chunk files. A document of another program that the format allows is opened as the array that it describes, or it is refused.", "quantifier": "every arguments of the creation; every document that a reader of the format understands", "why_tests_cant": "Tests open a few documents; the claim is about every document and every combination of its parts, also those that this library never writes.", "anchors": ["include/z5/metadata.hxx: toJson, fromJson, fromJsonV3", "include/z5/types/types.hxx: readZarrCompressionOptionsFromJson, readN5CompressionOptionsFromJson", "include/z5/filesystem/metadata.hxx", "include/z5/factory.hxx: createDataset, openDataset"]}
{"id": "C95", "title": "Containers describe themselves", "statement": "After a dataset was made and used, a program that knows the published formats but not this library, and is given nothing but the path of the dataset, finds the array there: document and files together give every element its value. Conversely a dataset that such a program made, with an ordinary document, is opened and every region of it is read with the elements that the program means.", "quantifier": "every container, creation, history of calls on the dataset and on other nodes, element; every tree of another program, region", "why_tests_cant": "All histories from the creation on, and all trees that other programs may leave.", "anchors": ["include/z5/factory.hxx: createDataset, openDataset", "include/z5/metadata.hxx", "include/z5/multiarray/array_access.hxx: readSubarray, writeSubarray, writeScalar", "include/z5/util/format_data.hxx", "include/z5/handle.hxx: getChunkKey"]}
{"id": "C96", "title": "Clients of one dataset do not disturb each other", "statement": "Threads or processes that use one dataset at the same time without any coordination do not disturb each other as long as none of them changes a chunk (sharded dataset: a shard) that a call of another one is about: every call succeeds, every read returns the array with the caller's own changes, no update is lost, a client between two calls finds its own chunks complete whatever the others are doing, and at the end the files are those of the calls made one after the other.", "quantifier": "every dataset, number of clients, list of reads, writes and removals of each client, and every interleaving of their accesses to the files", "why_tests_cant": "The number of interleavings grows exponentially; a test sees the few that the scheduler happens to choose.", "anchors": ["include/z5/multiarray/array_access.hxx: readSubarray, writeSubarray, prepareChunkWriteBuffer", "include/z5/generic/dataset.hxx: writeChunk, removeChunk", "include/z5/generic/sharded_dataset.hxx: writeInnerBlob, shardMutex_", "include/z5/filesystem/store.hxx: write, read"]}
{"id": "C97", "title": "Direct copies", "statement": "read_direct(array, a, b) replaces the box b of an array in memory by the box a of the dataset and changes nothing else, and write_direct(array, b, a) replaces the box a of the dataset by the box b of the array and changes nothing else, whatever was written before and in whatever way; by default the boxes are everything. Boxes of different shapes are refused without an effect.", "quantifier": "every dataset (plain or sharded), history of assignments, sub-array, chunk and direct writes, array in memory, pair of boxes", "why_tests_cant": "All pairs of boxes and histories.", "anchors": ["src/python/module/z5py/dataset.py: read_direct, write_direct, read_subarray, write_subarray", "src/python/lib/dataset.cxx: readPySubarray, writePySubarray"]}
{"id": "C98", "title": "Removing chunks of sharded datasets in parallel", "statement": "removeTrivialChunks of a sharded dataset, with any number of threads and under any schedule, returns, removes exactly the chunks whose elements are all equal (to the requested value, if restricted) and leaves all other chunks of the same shards and all other files unchanged, so that the array reads as before if the value is the fill value; removeDataset removes everything. No thread waits forever.", "quantifier": "every sharded dataset, history of chunk writes and removals, number of threads, block estimate, value, schedule of the threads", "why_tests_cant": "The threads share shard files and a mutex; a test sees a few of the interleavings.", "anchors": ["include/z5/util/functions.hxx: removeTrivialChunks, removeDataset", "include/z5/util/for_each.hxx: parallel_for_each_chunk", "include/z5/generic/sharded_dataset.hxx: removeChunk, chunkExists, readChunk, modifyShard"]}
{"id": "C99", "title": "Clients that change attributes do not disturb each other", "statement": "Several threads or processes read, set and remove attributes of groups and datasets, where nodes that one of them changes are not used by the others. Under every interleaving of their accesses to files each call returns what it would return without the others, the attributes of each node at the end are those that the calls of its client make, the metadata of datasets is unchanged, and no call waits for another.", "quantifier": "every container (n5, zarr v2, zarr v3), number of clients, lists of calls, schedule", "why_tests_cant": "All interleavings of file accesses of several processes.", "anchors": ["include/z5/attributes.hxx: readAttributes, writeAttributes, removeAttribute", "include/z5/generic/attributes.hxx: writeAttributes, removeAttribute", "include/z5/filesystem/attributes.hxx: JsonIO"]}
{"id": "C100", "title": "Interrupted attribute calls", "statement": "If the process dies while an attribute is set or removed, all other files are as before, and the node has the attributes from before or from after the call; a dataset can still be opened.", "quantifier": "every node, call, point of interruption", "why_tests_cant": "All points of interruption.", "anchors": ["include/z5/generic/attributes.hxx: writeAttributes, removeAttribute", "include/z5/filesystem/attributes.hxx: JsonIO::write, JsonIO::writePretty"]}
{"id": "C101", "title": "Clients that make, open and remove nodes do not disturb each other", "statement": "Several threads or processes make files, groups and datasets, open and remove them and set attributes, each at nodes of its own, in the same containers. Under every interleaving of their accesses to the file system each call returns what it would return without the others, the nodes are left as without the others, of everything else only directories on the way to new nodes are made, and a dataset that is created meanwhile opens as the one that was created.", "quantifier": "every file system, number of clients, lists of calls, schedule", "why_tests_cant": "All interleavings of file system accesses of several processes.", "anchors": ["include/z5/factory.hxx: createFile, createGroup, createDataset, openDataset", "include/z5/filesystem/factory.hxx", "include/z5/filesystem/handle.hxx: create, remove, exists, in", "include/z5/filesystem/metadata.hxx"]}
{"id": "C102", "title": "Interrupted creation and removal", "statement": "If the process dies while a file, group or dataset is made, nothing but the node itself is changed, except that directories on the way may exist; what is left is not a dataset that can be opened unless it is the complete one; and the call can be repeated with the result of an uninterrupted one. If it dies during a removal, nothing outside the node is changed, what is left is as before or gone, and repeating the removal completes it; what is left cannot be taken for the complete dataset.", "quantifier": "every file system, call, point of interruption", "why_tests_cant": "All points of interruption.", "anchors": ["include/z5/factory.hxx: createFile, createGroup, createDataset", "include/z5/generic/metadata.hxx", "include/z5/filesystem/handle.hxx: create, remove"]}
{"id": "C103", "title": "Crash of a sub-array write on several threads", "statement": "If the process dies at any point of a sub-array write that runs on any number of threads, every chunk (shard, for sharded datasets) of the region, except for at most one per thread, holds either its complete old or its complete new contents, nothing outside of the region has changed, and every region that avoids the damaged chunks or shards can be read and shows, chunk by chunk (shard by shard), the values from before or from after the write.", "quantifier": "every dataset, history, request, number of threads, schedule and moment of the crash (including inside of several file writes at once)", "why_tests_cant": "Crash points times schedules; tests see few of either.", "anchors": ["include/z5/multiarray/array_access.hxx: parallelForEach, writePlainGeneric, writeShardedGeneric", "include/z5/util/threadpool.hxx: parallel_foreach", "include/z5/filesystem/store.hxx: writeFile"]}
{"id": "C104", "title": "Numbers assigned from Python", "statement": "ds[index] = v for a number v (int, bool, float, complex or a numpy scalar) either stores in every element of the region the number v itself, losing only the fraction of a float if the elements are integers and what rounding to the nearest value of the format takes if they are floating point numbers, or raises and stores nothing.", "quantifier": "every element type, number, index and history of other operations", "why_tests_cant": "The numbers at the ends of the ranges of all element types, beyond 2^53 and with either sign cannot be enumerated.", "anchors": ["src/python/module/z5py/dataset.py: Dataset.__setitem__", "src/python/lib/dataset.cxx: writePyScalarCasted, write_scalar"]}
{"id": "C105", "title": "A write to an object store that is cut off", "statement": "If the process dies during a sub-array write to a dataset in a bucket, or the service cannot be reached any more from any of the requests on, every chunk (shard, for sharded datasets) holds either its complete old or its complete new contents, those processed first being the new ones; nothing else in the bucket has changed; a call that is still able to report throws unless everything was written; and every region can be read afterwards and shows, chunk by chunk (shard by shard), the values from before or from after the write.", "quantifier": "every dataset, history, request and request to the service after which it is cut off, whether or not that request still took effect", "why_tests_cant": "All points of interruption; needs a service that fails at a chosen request.", "anchors": ["include/z5/multiarray/array_access.hxx: writeSubarray, writePlainGeneric, writeShardedGeneric", "include/z5/s3/store.hxx: ChunkStore", "include/z5/s3/handle.hxx: getObject, putObject, objectExists, deleteObject"]}
{"id": "C106", "title": "Fill values given from Python", "statement": "create_dataset(name, ..., fillvalue=v) for a number v makes a dataset whose fill value is v: every element read before anything is written is v itself, losing only the fraction of a float if the elements are integers and what rounding to the nearest value of the format takes if they are floating point numbers, also after the dataset is opened again; or it raises and creates nothing.", "quantifier": "every element type, number, name, container and index", "why_tests_cant": "The numbers at the ends of the ranges of all element types, beyond 2^53 and with either sign cannot be enumerated.", "anchors": ["src/python/module/z5py/group.py: Group.create_dataset", "src/python/module/z5py/dataset.py: Dataset._create_dataset", "src/python/lib/factory.cxx: create_dataset", "include/z5/dataset.hxx: MixedDataset"]}
{"id": "C107", "title": "What was just made is empty", "statement": "A file, group or dataset that has just been created has no attributes and contains no groups, datasets or chunks, whatever stood under this name before and was removed.", "quantifier": "every history of calls before it, every kind of node, format and place", "why_tests_cant": "The histories that may leave something behind under a name cannot be enumerated.", "anchors": ["include/z5/factory.hxx: createFile, createGroup, createDataset", "include/z5/generic/metadata.hxx: writeFileMetadata, writeGroupMetadata, writeDatasetMetadata", "include/z5/attributes.hxx: readAttributes", "src/python/module/z5py/attribute_manager.py: AttributeManager.__iter__"]}
{"id": "C108", "title": "Python: clear, get and setdefault of attributes", "statement": "attrs.clear() ends, leaves no attributes and changes nothing else; attrs.get(k, d) and attrs.setdefault(k, d) return and store what those of a dict do.", "quantifier": "every file, group and dataset with any attributes, and every order of iteration", "why_tests_cant": "Sets of attributes, formats and orders of iteration are unbounded.", "anchors": ["src/python/module/z5py/attribute_manager.py: AttributeManager", "include/z5/attributes.hxx: removeAttribute, protectN5FileAttributes, hideN5DatasetAttributes"]}
{"id": "C109", "title": "Interrupted removal of chunks", "statement": "If the process dies during removeTrivialChunks or removeDataset, every chunk that was not to be removed is as before, every other is as before or gone, and no other file has changed; removing the chunks that hold the fill value never changes what the array reads, wherever it stops; calling removeTrivialChunks again completes the removal.", "quantifier": "every history of writes, every moment of dying, every number of threads and schedule, chunked and sharded datasets", "why_tests_cant": "The moments of dying and the interleavings of the threads cannot be enumerated, and a test cannot stop the process between two accesses.", "anchors": ["include/z5/util/functions.hxx: removeTrivialChunks, removeDataset", "include/z5/filesystem/handle.hxx: Chunk::remove, Dataset::remove", "include/z5/generic/sharded_dataset.hxx: removeChunk", "include/z5/util/threadpool.hxx: parallel_foreach"]}
{"id": "C110", "title": "What a dataset reports about itself", "statement": "size, len, number_of_chunks and chunks_per_dimension are those of the array and its chunk grid, and the sizes of all chunks add up to the size; getChunkOffset, getChunkShape and getChunkSize describe exactly the elements of the chunk; for n5, the shape read from the header of a chunk is the shape of the chunk.", "quantifier": "every array and chunk shape, every chunk and every history of writes", "why_tests_cant": "Shapes, chunks and histories are unbounded; the border chunks of all shapes cannot be enumerated.", "anchors": ["include/z5/dataset.hxx: size, numberOfChunks, chunksPerDimension, getChunkOffset", "include/z5/generic/dataset.hxx: getChunkShape, getChunkSize", "include/z5/generic/sharded_dataset.hxx: getChunkShape, getChunkSize", "include/z5/filesystem/store.hxx: readShapeFromHeader", "src/python/module/z5py/dataset.py: Dataset.get_chunk_shape, size, number_of_chunks"]}
{"id": "C111", "title": "Reading a sharded array that another client is changing", "statement": "While one thread or process writes, replaces or removes parts of a sharded array, any number of others may read it without coordination. Each read either shows, shard by shard, the elements as they were between two of the writer's operations, nothing older than what had been finished when the read began and nothing newer than the operation under way when it ended; or it raises, and then only if an operation in that time changes a shard of the region. No read returns elements that were never stored.", "quantifier": "every history of operations, every number of readers and regions, every interleaving of the accesses to the files", "why_tests_cant": "The interleavings of file accesses of several processes cannot be enumerated or forced in a test.", "anchors": ["include/z5/multiarray/array_access.hxx: readSubarraySharded, writeShardedGeneric", "include/z5/generic/sharded_dataset.hxx: readShardRaw, writeShardBlobs, writeInnerBlob", "include/z5/util/sharding.hxx: parseShardIndex", "include/z5/filesystem/store.hxx: write"]}
{"id": "C112", "title": "Reading an array without shards that another client is changing", "statement": "While one thread or process writes, replaces or removes parts of an array without shards, any number of others may read it without coordination. Each read either shows, chunk by chunk, the elements as they were between two of the writer's operations, nothing older than what had been finished when the read began and nothing newer than the operation under way when it ended; or it raises, and then only if an operation in that time changes a chunk of the region. No read returns elements that this place of the array never had, and chunks that nobody changes are always read correctly.", "quantifier": "every history of operations, every number of readers and regions, every interleaving of the accesses to the files, including removal of a chunk between the check that it exists and the read of its bytes", "why_tests_cant": "The interleavings of file accesses of several processes cannot be enumerated or forced in a test.", "anchors": ["include/z5/multiarray/array_access.hxx: readSubarrayPlain, writePlainGeneric", "include/z5/generic/dataset.hxx: readRawChunk, chunkExists, writeChunk, removeChunk", "include/z5/util/format_data.hxx: read_n5_header, decompress", "include/z5/filesystem/store.hxx: write, read"]}
{"id": "C113", "title": "Python: parent, name and file of objects", "statement": "For every object that a program gets from File(...), group[name], create_group, require_group, create_dataset, require_dataset or unpickling, in any order and at any depth: .file returns and is the File object that the object was reached from (for an unpickled object a new File with the same path and mode); .parent is the group that contains the object, and a File is its own parent; .name is the absolute path of the object in its container, so the path of the file followed by the name is where the object is stored.", "quantifier": "every sequence of calls on any of the objects obtained so far, every name, every state of the storage at each call (other programs may change it in between)", "why_tests_cant": "Tests look at a few objects one or two levels deep; the loop in .file must end and be right for every chain of parents that calls can build.", "anchors": ["src/python/module/z5py/group.py: Group.parent, Group.name, Group.file, __getitem__, create_group, require_group, create_dataset", "src/python/module/z5py/dataset.py: Dataset.parent, Dataset.name, Dataset.file, _navigate, __reduce__, _open_dataset", "src/python/module/z5py/file.py: File.__init__, _unpickle_file"]}
{"id": "C114", "title": "Python: a group is a mapping of its members", "statement": "Iterating over a group gives exactly the names n with n in g, each once; len(g) is their number; items() and values() give the objects g[n] in the same order; g.get(key) is g[key] if the member exists and the default otherwise; g == h has an answer for all groups: it is true exactly if the same names exist in both and no dataset is in or below them (so a group equals itself).", "quantifier": "every container tree, every group in it, every name, every order in which the operating system lists directories, trees of any depth and width", "why_tests_cant": "Tests compare the keys of one or two groups; the comparison operator is inherited and recursive, and no test calls it.", "anchors": ["src/python/module/z5py/group.py: class Group(Mapping), __iter__, __len__, __contains__, __getitem__", "src/python/module/z5py/dataset.py: class Dataset (no __eq__)", "include/z5/filesystem/handle.hxx: keys"]}
{"id": "C115", "title": "Clients that only read leave no trace", "statement": "Threads and processes that only read, or whose objects were opened without the permission to write, never disturb others: whatever calls they make, valid or not, and however their accesses to the files alternate with those of other clients, the files and the answers that the other clients get are those of an execution without them. Writes and removals through such objects are never reported as successful.", "quantifier": "any number of clients, any sequences of calls (valid or invalid arguments) on any plain and sharded datasets, any contents of the files, every interleaving of the accesses", "why_tests_cant": "Tests run one schedule and compare a few arrays; the absence of any influence is a statement about all schedules of all programs.", "anchors": ["include/z5/multiarray/array_access.hxx: readSubarray, writeSubarray", "include/z5/generic/dataset.hxx: writeChunk, removeChunk", "include/z5/generic/sharded_dataset.hxx: writeChunk, removeChunk, writeShardBlobs", "include/z5/util/file_mode.hxx: FileMode::canWrite"]}
{"id": "C116", "title": "Readers of an array in an object store while another client changes it", "statement": "While one client changes an array in an object store, any number of other clients can read it without coordination. Each read of a sharded array returns, and shows each shard as it was after one of the writer's calls, no older than when the read started and no newer than the call under way when it ended. Without shards the same holds for each chunk, and no read fails because a chunk is being overwritten; only if a chunk of the region is removed, or written with nothing but fill values, while the read runs, can the read throw, or, for uncompressed zarr, show wrong elements in this one chunk.", "quantifier": "all datasets, all histories, all sequences of valid calls of the writer, any number of readers and reads, every interleaving of the requests", "why_tests_cant": "Whether a read meets a chunk between two requests depends on timing; the statement is about every order of requests.", "anchors": ["include/z5/s3/store.hxx: ChunkStore::read, write, erase", "include/z5/s3/handle.hxx: Chunk::exists, Chunk::remove, putObject, getObject, objectExists", "include/z5/multiarray/array_access.hxx: readSubarraySingleThreaded", "include/z5/generic/sharded_dataset.hxx: readInnerChunk"]}
{"id": "C117", "title": "Clients that use one array in an object store side by side", "statement": "Several clients use one array in an object store without coordination, and no client changes a chunk (a chunk of a shard, if the array is sharded) that a call of another client is about. Then each client gets the answers of an array that only it uses, between its calls all readers of its part see what it wrote, no client waits for another, all calls return, and afterwards the objects and the array are those of any sequence of all calls in which each client's calls keep their order.", "quantifier": "all datasets, all histories, any number of clients and calls, every interleaving of the requests", "why_tests_cant": "The number of interleavings is unbounded.", "anchors": ["include/z5/s3/store.hxx: ChunkStore::read, write, erase", "include/z5/multiarray/array_access.hxx: writeSubarray, readSubarray", "include/z5/generic/dataset.hxx: writeChunk, removeChunk", "include/z5/generic/sharded_dataset.hxx: writeChunk, writeShardBlobs, writeInnerBlob"]}
{"id": "C118", "title": "Another client takes over from a stopped writer of an array in an object store", "statement": "One client changes an array in an object store, others only read. If all of them stop at any moment, every chunk (shard) has the elements after the calls that have returned, or after the one under way; all later calls of other clients succeed and act on this array; and whoever repeats the calls that have not returned, with the interrupted one first, gets the array that all calls give without an interruption.", "quantifier": "all datasets, all histories, all sequences of valid calls, any number of readers, every moment of every interleaving, all later histories", "why_tests_cant": "The interruption can be between any two requests; tests stop at a few of them.", "anchors": ["include/z5/s3/store.hxx: ChunkStore::read, write, erase", "include/z5/multiarray/array_access.hxx: writePlainGeneric, writeShardedGeneric", "include/z5/generic/dataset.hxx: writeChunk, removeChunk", "include/z5/generic/sharded_dataset.hxx: writeInnerBlob, writeShardBlobs"]}
{"id": "C119", "title": "Clients of an object store that only read, or cannot write, leave no trace", "statement": "Any number of clients make any calls on arrays in an object store, without coordination. Clients that only read, or have only objects opened without the permission to write, do not influence what the others get or what is stored: for every execution there is one without them with the same answers and the same objects. If all clients are of this kind, no object changes; calls of such objects that would change an array never succeed.", "quantifier": "all buckets, all sequences of calls of any number of clients, valid or not, every interleaving", "why_tests_cant": "The claim is about all interleavings of all calls; tests run a few.", "anchors": ["include/z5/generic/dataset.hxx: writeChunk, removeChunk", "include/z5/generic/sharded_dataset.hxx: writeChunk, removeChunk, writeShardBlobs", "include/z5/s3/handle.hxx: remove", "include/z5/multiarray/array_access.hxx: readPlainGeneric, writePlainGeneric, readShardedGeneric, writeShardedGeneric"]}
{"id": "C120", "title": "Writes to an array in an object store on several threads behave like one thread", "statement": "Writing a region of an array in an object store with any number of threads has the result, and leaves the objects, of the write with one thread, for every schedule; if it fails, only objects of chunks that meet the region may have changed. A sequence of operations on an empty array, each with its own number of threads, always succeeds, and later reads, with any number of threads, return the elements of the array. This holds for plain and for sharded arrays.", "quantifier": "all arrays, element types, regions, sources, numbers of threads, schedules, and sequences of operations", "why_tests_cant": "Schedules cannot be enumerated by tests, and a lost update shows up only under some of them.", "anchors": ["include/z5/multiarray/array_access.hxx: writePlainGeneric, writeShardedGeneric, forEachChunkBatched", "include/z5/util/threadpool.hxx: parallel_foreach", "include/z5/s3/store.hxx: write", "include/z5/generic/dataset.hxx: writeChunk"]}
{"id": "C121", "title": "A multi-threaded write to an object store that is stopped leaves whole chunks", "statement": "An array in an object store is written by any sequence of operations, and then a write of a region with any number of threads is stopped at any moment. Every chunk (for sharded arrays, every shard) then has either the elements it had before or those it would have after the write, and only chunks that meet the region have new elements. All later operations succeed, and later reads return the elements of that mixed array with the later operations applied. If the write is repeated, with any number of threads, nothing of the stopped one can be seen any more.", "quantifier": "all arrays, regions, sources, numbers of threads, schedules, moments at which the process stops, and sequences of operations before and after", "why_tests_cant": "The process can stop between any two steps of any of the threads; tests cannot go through all of these moments and schedules.", "anchors": ["include/z5/multiarray/array_access.hxx: writePlainGeneric, writeShardedGeneric, forEachChunkBatched", "include/z5/util/threadpool.hxx: parallel_foreach", "include/z5/s3/store.hxx: write", "include/z5/generic/sharded_dataset.hxx: writeShardBlobs"]}
{"id": "C122", "title": "Handles talk to their own object store with their own credentials", "statement": "A process uses handles with any endpoints, regions and credentials, from any number of threads. Every request of a handle goes through a client that was made for exactly the settings of that handle: its credentials (none if anonymous, the given keys, else those that the SDK finds), its region, and the scheme and host of its endpoint. Two handles use the same client if and only if all their settings agree. Groups, datasets and chunks that are reached from a file have the bucket and the settings of the file, and names below its name. No request waits for ever. The SDK is initialised once, before the first client is made, and shut down at the end of the process after every client has been destroyed.", "quantifier": "all settings, all numbers of threads with all sequences of requests, every interleaving, also when the construction of clients fails", "why_tests_cant": "Whether two threads that ask at the same time get the right clients, and the order of initialisation and destruction, depends on the interleaving; tests see one.", "anchors": ["include/z5/s3/handle.hxx: AwsApiGuard, ensureApiInitialized, makeConfiguredClient, getSharedClient, makeClient, S3HandleImpl, Group, Dataset, Chunk"]}
{"id": "C123", "title": "A dataset keeps its format for as long as it is open", "statement": "The names of chunks depend on whether a dataset is zarr or N5. The handle inside a dataset object has the format of the metadata with which the object was constructed. From then on it, and every copy of it, gives this format to every thread and sends no request for it, whatever other clients do to the metadata and whether or not requests fail. The handle from which the object was constructed is left as it was. A handle without a known format asks the store: if requests are answered and nobody creates or deletes the metadata in the meantime, all threads get the right answer. A call that throws leaves the format unknown, and the next one asks again.", "quantifier": "all numbers of handles, copies and threads with all sequences of calls, every interleaving with each other and with changes of the store by other clients, all failures of requests", "why_tests_cant": "Threads load, ask and store without a lock; which answer is kept depends on the interleaving with other threads and clients.", "anchors": ["include/z5/s3/handle.hxx: Dataset::isZarr, Dataset::setIsZarr, Dataset copy constructor, isZarrDataset, inImpl", "include/z5/filesystem/handle.hxx: Dataset::isZarr, Dataset::setIsZarr", "include/z5/generic/dataset.hxx: Dataset", "include/z5/generic/sharded_dataset.hxx: ShardedDataset"]}
