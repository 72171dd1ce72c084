# Formal model of z5 in Rocq

Model of constantinpape/z5 (source in /repo, read only).  Everything lives in
`rocq/theories` (logical name `Verif`), Coq 8.16.1.

## Conventions

* `M_*.v` are models of the code: small total functions, every definition cites
  the file and lines it models.  `S_*.v` are specifications written without the
  helpers of the model.  `P_*.v` are proofs.  `Properties_*.v` contain only the
  property theorems (closed by `exact`), an `Example` showing that the
  hypotheses are met by a concrete case, and `Print Assumptions`.
* `size_t` values are `N`.  Where overflow can matter the wrap modulo 2^64 (or
  the conversion to `int`) is written out (`addw`, `mulw`, `subw`, `to_int32`).
* A C++ element is the list of its bytes in (little endian) host memory, so typed
  buffers are lists of equally long byte lists and `reverseEndianness` is `rev`.
  C++ `==` on elements is a function `elem_eq` of the data type (bitwise for
  integers, IEEE for floats).
* Outcomes: `Ok a`, `Throw e` (C++ exception) and `UB` (out of bounds access or
  division by zero).  Buffer accesses that leave the buffer are `UB`, so a
  theorem that concludes `Ok` includes memory safety.
* The dataset code takes the compressor as a record argument with the hypothesis
  `lossless limit` (non-empty inputs of at most `limit` bytes are accepted and
  recovered).  `M_Codec` models the compressors; C71 and C72 discharge the
  hypotheses from what the manuals of the libraries promise (`S_Codec`).
* Stores (directory / bucket) are maps from keys to byte strings.  Failing disks,
  permissions and the JSON text syntax are not modelled (JSON values are trees).
* If a property is false of the code, the theorem named `..._refuted` proves the
  negation with a witness, and the strongest true version is proved next to it.

## What is modelled

| file | code in /repo |
|------|---------------|
| `M_Base`, `M_Text` | outcomes, size_t arithmetic, `std::string`, `std::to_string`, `util/util.hxx` string helpers |
| `M_Blocking` | `util/blocking.hxx`, `makeRegularGrid`, `checkRequestShape` |
| `M_View` | `multiarray/array_view.hxx`, `array_util.hxx` |
| `M_Bytes`, `M_Crc`, `M_N5Header`, `M_Format` | endianness, little endian codec, `crc32c.hxx`, `format_data.hxx`, raw compressor |
| `M_Key` | chunk keys and paths, `handle.hxx`, `filesystem/handle.hxx` |
| `M_Mode` | `file_mode.hxx` |
| `M_Dataset` | `generic/dataset.hxx` over the chunk store of `filesystem/store.hxx` |
| `M_Report` | `dataset.hxx`: what a dataset reports about itself |
| `M_Shard`, `M_Sharded` | `sharding.hxx`, `generic/sharded_dataset.hxx` |
| `M_Access` | `array_access.hxx`, `broadcast.hxx`, one thread |
| `M_Pool`, `M_Parallel`, `M_Lock` | `threadpool.hxx` as a transition system, the bodies of the parallel loops, the shard mutex |
| `M_Clients` | threads or processes that call one dataset without coordination |
| `M_PyDirect` | Dataset.read_direct and write_direct of the python module |
| `M_ShardRemove` | removeTrivialChunks and removeDataset of sharded datasets: threads that read shards without the mutex and remove inner chunks with it |
| `M_AttrSteps` | the attribute calls as sequences of accesses to files; several clients; interruption |
| `M_NodeSteps` | `factory.hxx`, `filesystem/factory.hxx`, `filesystem/handle.hxx`, `filesystem/metadata.hxx`, `generic/metadata.hxx`: creation, opening and removal of nodes as sequences of accesses to the file system; clients that interleave them; interruption. Simplified: `create_directories` looks at all components first and then makes the missing ones, each with one access; a document is emptied by one access and filled by the next; `remove_all` is one access for other clients, but an interrupted one may leave any part of the tree that is closed under parents |
| `M_Crash` | single threaded writes cut off at any file access |
| `M_ParCrash` | writes on several threads, all of them cut off at the same moment |
| `M_RemoveCrash` | what the removals leave when the process dies, with any number of threads |
| `M_ForEach`, `M_Functions` | `for_each.hxx`, `functions.hxx` |
| `M_Json`, `M_Double`, `M_Metadata` | nlohmann::json trees, binary64 conversions, `metadata.hxx`, `types.hxx` |
| `M_Fs`, `M_Attributes`, `M_Container` | directories and documents, `attributes.hxx`, `factory.hxx`, `filesystem/*`, `File.__init__` |
| `M_Store` | `generic/store.hxx`: the dataset and sub-array code over any chunk store; `P_Store` proves that `M_Dataset`, `M_Sharded`, `M_Access` are its instance for the file system |
| `M_S3` | `s3/handle.hxx`, `s3/store.hxx` |
| `M_Disk` | `filesystem/store.hxx` on a disk where every access may fail, write a part, or lose data on close |
| `M_DiskDocs` | `filesystem/attributes.hxx`, `metadata.hxx`, `factory.hxx`, `handle.hxx`, `File.__init__` on a disk where every access may fail |
| `M_Tree` | `filesystem/store.hxx`, `filesystem/handle.hxx` (chunks) over the file tree of `M_Fs` |
| `M_S3Container` | `s3/attributes.hxx`, `s3/metadata.hxx`, `s3/factory.hxx`, `S3File.__init__` |
| `M_Codec` | `compression/*.hxx`: buffer sizes, 32 bit counters, loops, error checks around the calls to the libraries |
| `M_Python` | `z5py/shape_utils.py`, `z5py/dataset.py` item access, `lib/dataset.cxx` |
| `M_Number` | numbers assigned from Python: nanobind casts, static_cast, IEEE 754 encodings; integer arrays of another type |
| `M_PyFill` | fill values given to create_dataset from Python |
| `M_PyAttrs` | the calls that attrs inherits from MutableMapping |
| `M_PyGroup` | `z5py/group.py`, `z5py/dataset.py` (create, require, compression), `z5py/attribute_manager.py`, pickling, `lib/handles.cxx`, `lib/factory.cxx` |
| `M_PyParent` | `parent`, `name`, `file` of `z5py/group.py` and `z5py/dataset.py`, and which object becomes the parent in each call |
| `M_PyMapping` | Group of `z5py/group.py` as a `collections.abc.Mapping`: iteration, `len`, `get`, `items`, `values`, `==` |
| `M_S3Clients` | `s3/store.hxx` (read, write, erase), `s3/handle.hxx` (Chunk) below `multiarray/array_access.hxx` and `generic/*.hxx`, one step for each request; requests take effect at one moment and do not fail |
| `M_S3Parallel` | include/z5/multiarray/array_access.hxx:24-73, 253-288, 327-404 with the object store: writes on several threads, run to the end or stopped; the threads' buffers and the pool are those of `M_Parallel` |
| `M_S3Config` | `s3/handle.hxx`:45-156 and the constructors of the handles; not the SDK, not logging |
| `M_ZarrCache` | `s3/handle.hxx`:569-592, `filesystem/handle.hxx`:203-227, the constructors in `generic/dataset.hxx` and `generic/sharded_dataset.hxx`; isZarrDataset for object stores and for files |

## Trusted base

* Coq 8.16.1's kernel (and `vm_compute`).  `Print Assumptions` stands after every
  property theorem; all of them are "Closed under the global context", so no axiom
  of the standard library or of any other kind is used.
* That the definitions in `M_*.v` say what the cited lines do.  Simplifications are
  written in the comment of the definition.
* The compression libraries: one record of calls per library, with the contracts of
  `S_Codec.v` (taken from their manuals) as hypotheses: buffers are respected, bounds
  on the output size hold, what is compressed decodes to the input.  `P_CodecToy`
  gives libraries that meet them.  Allocations succeed.
* The chunk store is a map from keys to byte strings; in the parallel models a file
  is written in two steps (truncate, fill).  Reading and writing fail only in
  `M_Disk` (existence, size, reading, writing, closing, removing) and `M_DiskDocs`
  (the same for documents; no proper prefix of a dumped object can be parsed;
  remove_all may remove any part before it fails); there are no renames by other
  processes.
* The container model (`M_Fs`) is a tree of directories and documents.  `M_Tree` puts the
  chunk files into the same tree, and C89 proves that there a dataset answers as on the
  chunk store of its own that the other models use.  A file is a document or a blob by
  what wrote it; a blob is never read as a document.
* The object store (`M_S3`): a map of objects; each request is answered, refused, lost
  after taking effect, or (deletion of several objects) partly executed.  Listings have
  pages of 1000 entries.  No other client works on the bucket during a call.
* The published formats (Zarr v2, Zarr v3 with sharding, N5) are what `S_Layout` (files) and
  `S_Document` (documents) say; the
  decompression of the other program is an argument with the hypothesis that it undoes
  what the codec stores (`undoes`, `accepts` in `S_Interop`).
* Containers in a bucket store JSON text: an abstract dump and parse with `text_ok`
  (parsing a dump gives what the file system backend reads back); `ex_text` meets it.
* `nlohmann::json` (`M_Json`) as documented; JSON text is not modelled, what text
  changes (NaN becomes null) is `json_text`.
* Interleavings of atomic steps (sequential consistency); spurious wake ups of
  condition variables are possible steps.
* std::set and std::map of `unique` are modelled for values without NaN, exactly for
  removeTrivialChunks.
* nb::cast to a 64 bit integer accepts ints in range and passes everything but a float
  through int(); nb::cast<double> is float(); numpy converts arrays of integers modulo
  2^width (`M_Number`).
* nanobind converts numbers outside of size_t to a TypeError; the operating system
  lists every sub-directory of a directory once (C77); numpy arrays are C
  contiguous with the dataset's element type.

## Plan per property

| id | model | proof |
|----|-------|-------|
| C01 | `M_Blocking` numbering functions, C-order strides | mixed radix induction on the dimensions |
| C02 | block begin/shape, element to chunk | per-dimension div/mod lemmas, lists |
| C03 | `getBlocksOverlappingRoi` with the odometer of `makeRegularGrid` | odometer enumerates the box (induction on dims), order by lexicographic sortedness |
| C04 | `getCoordinatesInRoi` with `int` truncation | per-dimension case split; intersection spec on element coordinates |
| C05 | same | refuted: witness with 2^32 extent |
| C06 | `checkRequestShape` with wrapping addition | exactness below 2^64, refuted with wrapping witness |
| C07, C08 | `copyView`, `fillView` loops over buffers with UB on out of bounds | invariants over the list of indices, odometer = box |
| C09 | `cOrderStrides`, `subview` | mixed radix injectivity |
| C10 | `reverseEndiannessInplace` | list induction, positional value of byte strings |
| C11-C13 | `write_n5_header`, `read_n5_header` byte by byte | big endian codec lemmas; refuted for large extents |
| C14 | LE codec | induction on width |
| C15, C16 | table driven CRC-32C | linearity over GF(2), bit-serial spec; burst detection by injectivity of the bit step |
| C17 | `shardId`, `shardSlot` | div/mod + mixed radix |
| C18-C20 | `buildShard`, `parseShardIndex`, `extractShardBlobs` | induction on blobs, C16 |
| C21, C22 | `getChunkKey`, `join`, decimal printing | decimal injectivity, first delimiter parse; refuted with a digit delimiter |
| C23-C26 | `data_to_buffer`, `buffer_to_data`, compress / decompress | round trip over abstract codec, refuted cases with concrete bytes |
| C27-C29 | `generic::Dataset` over a key/value store | history induction against a map specification |
| C30-C35 | `readSubarray`, `writeSubarray`, `writeScalar` plain and sharded | refinement of an abstract n-d array, over all histories |
| C36 | tasks as sequences of store accesses | commutation of steps with disjoint footprints, any merge equals sequential |
| C37, C38 | batch split of `parallel_foreach` | induction on remaining workload |
| C39 | `ThreadPool` as transition system | invariant over reachable states |
| C40 | shard read-modify-write with and without mutex | invariant over interleavings; refuted for the unlocked path |
| C41 | file writes with crash points | prefix case analysis over the task list |
| C42 | corrupt shards | direct from the model |
| C43-C47 | metadata <-> JSON trees | case analysis, list lemmas; refuted for lossy fields |
| C48, C49 | attribute functions over JSON objects | history induction against a map |
| C50 | mode bits, `File.__init__` | case analysis against the documented table |
| C51, C52 | factory functions over a directory map | composition of the above; refuted for failing creation |
| C53, C54 | chunk utilities | fold lemmas, permutation invariance; refuted for zarr padding |
| C55, C56 | Python `shape_utils` | Z arithmetic against a numpy specification; refuted corner cases |
| C57 | S3 key sets, listing with pages, deletion in batches | string prefix lemmas, induction on pages |
| C58 | the generic code over two chunk stores | simulation by a relation that every policy call keeps, induction on the history |
| C70 | the same with failing requests | the simulation with an escape to the exception; refuted for existence requests |
| C71, C72 | the compressors over abstract libraries | contracts per library, invariants of the stream loops; refuted for large chunks, bzip2's room and blosc |
| C59 | for-each utilities | C01, C03, C37 |
| C60 | python chunk buffers | size arithmetic |
| C61 | `readVarlenFromHeader`, `read_n5_header` | case analysis on the mode field; refuted for modes above 1 |
| C62 | `M_Parallel` write tasks with failing items, one task per chunk or per shard | invariant over all schedules; the task of a chunk or shard depends on its own file only |
| C63 | `fromJson` on arbitrary JSON trees | structural case analysis; refuted for missing keys |
| C64 - C67 | containers over `M_Fs` | history induction, path prefix lemmas; refuted cases with concrete containers |
| C68 | `__getitem__`, `__setitem__` | C55 for all indices, histories of calls that may raise |
| C69 | `read_subarray`, ... from python | C06, C29; refuted for lengths and wrap around |
| C73, C80 | `M_PyGroup`: names, `create_dataset`, `create_group`, `require_group`, `del` | C51, C64 - C66 through the name functions; refuted for absolute names and zero extents |
| C74, C75 | compression options of the three formats | case analysis against `wanted_codec`; refuted for blosc levels, gzip in zarr v2, most passed back settings |
| C76 | `require_dataset` | exact case distinction, C73; refuted for large chunks |
| C77 | `visititems` over an abstract directory listing | induction on the depth, list of members independent of the function |
| C78 | `AttributeManager` | refinement to a dict, on C48; refuted for `del` |
| C79 | `__reduce__`, `_navigate` | name lemmas, induction on the path; refuted for nested `create_group` |
| C81 | `M_S3Container` against `M_Container` | relation `mirror` between bucket and directory, kept by every call; induction on the history; refuted for n5 and single calls |
| C82 | `relativePath` | string lemmas; refuted for siblings |
| C83 | all calls over buckets with faults | each request touches one key; refuted for failing existence requests |
| C84 | `S3File.__init__` | case analysis on the mode; refuted for foreign objects and spared deletions |
| C85, C86 | `M_Disk`: the store of `M_Store` on a disk where each access may fail | simulation with an escape for exceptions (`P_S3Sim.rel`); one file per chunk access; refuted for the n5 header and for data lost on close |
| C87 | `M_DiskDocs`: containers on a disk where each access may fail and each document may be lost | simulation with an escape for exceptions; refuted for lost documents and failing probes of the format |
| C88 | repeated writes after `M_Crash` or `M_Disk` | chunks that are replaced do not depend on the old file; refuted for zarr edge chunks and shards |
| C89 | `M_Tree`: chunk calls on the tree of the container, against the chunk store of one dataset | simulation with the relation "the files below the dataset are the store" (`P_TreeSim`), frame lemmas for other nodes, induction on the history; refuted for nested datasets |
| C90 | `M_Tree` | every data call changes chunk places and directories of chunks only; the documents have other names |
| C91 | creation, histories and opening of `M_Container` with `M_Tree` | C51, C89, C90 and the array theorems C30, C32 |
| C92 | the files written by `M_Access` against a reader of the published formats (`S_Layout`) | the invariant of C30 and C32 says that a stored chunk is the encoding of its elements; the reader's arithmetic inverts the encoding |
| C93 | `M_Access`, `M_Sharded` on files that `S_Layout` can read | the invariant of C30 and C32 with "the reader decodes the file to the elements" instead of "the file is the encoding of the elements"; refuted for n5 border blocks of full size |
| C94 | the metadata functions of `M_Metadata` and `M_Container` against a reader of the published documents (`S_Document`) | case analysis of documents key by key; refuted for byte orders, zlib streams in n5, null fill values, missing parameters, unknown parts |
| C95 | whole trees of `M_Tree`, read by `S_Document` and `S_Layout` | C91, C92, C93 and C94 put together |
| C96 | `M_Clients`: a transition system of clients, each a list of calls whose code (from `M_Parallel` and `M_Lock`) is a sequence of accesses to files | each call is confined to the files of its chunks; invariant: a client's files and answers are those of its calls alone; any two complete executions leave the same files |
| C97 | `M_PyDirect`: read_direct and write_direct with numpy's slicing of the array in memory | a selection of slices with step 1 is a box, assigning it changes exactly its elements; the rest is C55's invariant |
| C98 | `M_ShardRemove`: an interleaving of threads whose steps are single accesses to files and locking and unlocking of the shard mutex | invariant of the loop: a shard file is complete unless the holder of the mutex is replacing it; a measure for termination; C27's invariant for the contents of shards |
| C99 | `M_AttrSteps`: clients whose file accesses alternate in any way | the steps without interruption are `M_Attributes`; the code of a call depends on and changes the documents of its node only, so that an invariant says that each client is where it would be alone; then C48 and C49 |
| C100 | `M_AttrSteps`: the process dies between two accesses or while text is written | a call reads and then writes one document |
| C101 | `M_NodeSteps`: clients whose accesses to the file system alternate in any way | the steps without interruption are `M_Container`; the code of a call is local: it depends on and changes what is at its node, the documents of containers it looks at, and directories on the way, which may be made by somebody else; an invariant says that each client is where it would be alone up to such directories; then C51 |
| C102 | `M_NodeSteps`: the process dies between two accesses, while text is written or while files are removed | inversion of the interrupted code: only directories on the way, or the node is there with at most one incomplete document; locality for the repetition |
| C103 | `M_ParCrash`: a reachable state of the thread pool, each thread possibly inside of a write to a file | invariant: each file that is neither old nor new belongs to the unit one thread is working on; then the readers of C41 |
| C104 | `M_Number`: the two casts of write_scalar and the encoding of the element | decoding of the stored bytes (S_Number: two's complement, IEEE 754) gives back the number, or, for floating point types, the nearest value of the format (`rounded`: stated by comparing distances, ties to even); then the history theorem of C55 |
| C105 | the requests of C70 with fates that are answered up to some point and refused from then on | units (read requests, then one changing request) leave the old or the new object; loop lemma; then the array theorem of C41 without a cut chunk |
| C106 | `M_PyFill`: the number is taken as a double (factory.cxx), then the path of C73 and C51 | the double is the rounded number (C104's `rounded`), the element is cast from it; C73 for what is found afterwards; the empty history of C55 for what is read |
| C107 | `M_Container` and `M_Attributes` | what each of the creating calls leaves below the new node, from the tree being in order (C65) after any history; reading its attributes |
| C108 | `M_PyAttrs`: get, setdefault, popitem and clear of MutableMapping in terms of the methods of AttributeManager; the order of iteration is arbitrary | the invariant that the names taken out are distinct, were there and are the only ones gone; the number of names decreases |
| C109 | `M_RemoveCrash`: the memory after any prefix of any schedule of the threads of the pool, for the removal programs of `M_Functions` and `M_ShardRemove`; a directory being deleted may have lost any of its files | rely/guarantee invariant of the pool (each thread only deletes chunks to be deleted, or holds the lock of the one shard that is being rewritten) for every prefix; then as for the completed removals (C53, C54, C98) |
| C110 | `M_Report`: size, numberOfChunks, getChunkOffset, getChunkShape with and without header | sum over the chunks along one axis by induction, product over the axes; the chunk invariant of C27 and C30 with the header round trip of C11 |
| C111 | `M_Clients` with the shard code of `M_Parallel` and `M_Lock` | invariant: the files are those of the writer running alone, stopped somewhere; each shard file is old, empty or new, an empty file does not parse; a reader looks at each shard file once, so its result is that of one directory in which each shard is of some moment, and the sequential read theorem applies |
| C112 | `M_Clients` with the chunk code of `M_Parallel`, which looks at a file twice (does it exist, what are its bytes) | as C111; the two looks have the result of one look at a directory in which the file is as it was at the second one, or empty if it was removed in between; an empty file fails in the header of n5 or in the codec |
| C113 | `M_PyParent`: Python objects in memory with the addresses of their parents; the calls of `M_PyGroup` make objects; `.file` is the loop over the parents (big-step) | every call only adds objects whose parents are older (or files), so the loop ends; invariant: path and name of an object are those of its parent and the name it was looked up with |
| C114 | `M_PyMapping`: `__iter__`, `__len__` of Group and `get`, `items`, `values`, `==` of collections.abc.Mapping over `M_PyGroup` | induction on the names of a group; `==` by induction on the depth, against the relation of the names in the two trees |
| C115 | `M_Clients` with calls on several plain and sharded datasets | the code of reads, and of all calls without the permission to write, only looks at files; leaving such clients out of an execution gives an execution of the others (simulation with stuttering) |
| C116 | `M_S3Clients`: the calls of `M_Clients` with one step for each request | as C111 and C112, but an object is never seen empty; the two requests of a chunk read (does it exist, what are its bytes) have the result of one look, or the object was removed in between, which only happens if it has nothing but fill values |
| C117 | `M_S3Clients` | as C96: the requests of a call touch only objects of its chunks or shards, so calls of different clients commute |
| C118 | `M_S3Clients` | the invariant of C116 at one moment: each object is that before or after the call under way, so the bucket represents an array and the theorems about histories apply; repeating an operation on an array in which it is done in part completes it |
| C119 | `M_S3Clients` with calls on several plain and sharded datasets | as C115, for the code of the object store |
| C120 | `M_S3Parallel`: the units of `M_S3Clients` on the thread pool of `M_Pool` | as C36: units touch different objects, so every schedule gives the effect of the sequential loop |
| C121 | `M_S3Parallel`: `s3_write_halted`, `s3_sh_write_halted` | the invariant of the thread pool says what a batch that is under way has done; every unit puts one object, so each object is old or new; then the histories of C120 on the mixed array |
| C122 | `M_S3Config`: settings, clients, the cache with its mutex, static objects, one step for each line that other threads can see | invariant over all interleavings: the cache is sorted and its clients were made for their keys, the mutex is held by the only thread inside; the events so far are accepted by the rules of the SDK |
| C123 | `M_ZarrCache`: caches of handles, threads that load, ask the store request by request, and store; other clients change the store between any two steps | invariants over all interleavings: a set cache and those of its copies keep their value and nobody is about to store into them; for handles that ask: every partial answer is consistent with the objects |

## Findings

Behaviour of the code that contradicts the property; each is a theorem
`..._refuted` with a concrete witness.

| id | what happens |
|----|--------------|
| C05 | extents are cut to `int`: along axes of more than 2^31 elements data lands in the wrong place |
| C06, C69 | offset + extent wraps: a region just below 2^64 passes the check; reads return memory that is not initialised, writes leave the chunk buffer |
| C12 | header queries of the file system store use uninitialised values for truncated chunks |
| C13 | n5 header fields are 32 bit: larger extents and varlen sizes are cut |
| C22 | delimiters that are empty, of digits or with path syntax make chunks collide |
| C24 | an n5 header with a larger count writes past the buffer |
| C26 | a chunk of -0.0 is dropped when the fill value is 0.0 |
| C29 | short chunk ids are read beyond their end; sharded reads of invalid ids succeed; removal is not refused |
| C35 | a truncated raw chunk shows elements of the chunk that was read before |
| C40 | sub-array writes do not take the shard mutex: chunk writes are lost; readers see half written shards (this includes removeTrivialChunks on sharded datasets with several threads) |
| C41 | the chunk at the crash point loses its old contents |
| C44, C51 | n5 metadata has no fill value; `useZlib` is not recorded |
| C45 | zarr v3: zlib streams under the name gzip; negative fill values of unsigned types are undefined; integers are kept as double |
| C47 | chunk extents of 0 are accepted and divide by zero; chunks larger than the array are accepted; chunks of 2^64 elements are accepted and writing leaves the buffer; opening does not check shards |
| C49 | a group handle for the directory of a dataset bypasses the protection |
| C50 | zarr at a new path without extension is refused; the n5 version check reads one character |
| C51 | metadata of another format and zarr formats other than 2 and 3 are accepted |
| C52 | create_dataset leaves a directory behind when the compressor is refused |
| C53 | unique counts the padding of zarr edge chunks |
| C54 | NaN: removeTrivialChunks removes chunks with other elements |
| C55 | the index -n raises; slices that start before the axis are empty |
| C56 | (2, 3) is accepted for (1, 6); one element arrays of another rank are rejected; empty regions accept anything |
| C58 | a separator like `a/b` can be written to a bucket but not to a directory; checkVarlenChunk never finds varlen chunks on S3 |
| C59 | an empty region still visits a chunk |
| C61 | mode values above 1: readChunk and checkVarlenChunk disagree |
| C63 | metadata without mandatory keys is undefined behaviour |
| C64 | attributes can turn an n5 group into a dataset |
| C67 | zarr: the directories on the way to a nested group are no groups |
| C69 | from python, positions with too few entries are read beyond their end |
| C70 | S3: a failing existence request counts as missing: sub-array reads return fill values, partial writes then overwrite stored elements, in() and chunkExists() say no; keys() ends silently at a failing request; remove() ignores the errors of a partly executed deletion |
| C71 | zlib and bzip2: chunks of 4 GiB and more are cut to size mod 2^32 bytes without an error; bzip2 gets less than the documented room, 99 elements of 8 bytes may be refused |
| C72 | blosc: a truncated chunk is read past its end |
| C73 | python: a leading "/" is dropped by `in`, `[]` and `del`, but create_group, require_group, create_dataset and require_dataset then work at the root of the file system |
| C74 | python: `clevel` of blosc is ignored in n5 and zarr v2 (always 5); gzip in zarr v2 is stored as zlib |
| C75 | python: compression_opts cannot be passed back for blosc, raw and (zarr) bzip2, and gzip turns into zlib in zarr v2 |
| C76 | python: require_dataset twice with chunks larger than the shape raises |
| C78 | python: `del attrs[name]` of a missing name raises nothing |
| C79 | python: the group made by `create_group('a/b')` in a zarr container cannot be unpickled |
| C80 | python: `create_dataset` with an extent of 0 divides by zero after it has written the metadata |
| C81 | S3, n5: createGroup succeeds and writes nothing; a name that is not there is a group.  S3: remove() of a missing group succeeds, documents count as members, datasets of complex numbers cannot be opened |
| C82 | S3: relativePath of `data/ab/c` to `data/a` is `b/c` |
| C83 | S3: a failing existence request counts as no: attributes go to another document or are read as empty, a zarr dataset is created as n5, a group not at all, all without an exception |
| C84 | S3File: mode a on a name with foreign objects below it opens a container that is not zarr (groups are lost, datasets are n5); mode w opens the old contents if the service could not delete them.  The version of an existing container is not checked |
| C85 | a failing read of an n5 header is not noticed: checkVarlenChunk uses uninitialised values |
| C86 | data that is lost when a chunk file is closed (full disk, network file system) is reported as written: the stream is checked only before close() |
| C87 | attributes.json, .zattrs, .zarray, zarr.json … are written without checking the stream: createDataset, createGroup and writeAttributes return although nothing was saved; on a full disk a zarr v3 attribute write cuts zarr.json, and the dataset cannot be opened any more |
| C87 | `File(path, 'w')` without an extension: if os.path.exists fails for the zarr documents (it returns False then), the zarr container is replaced by an n5 one |
| C88 | a cut edge chunk (zarr) makes writing its part of the array again raise, even if all of it is replaced; a cut shard makes every write and removal of its chunks raise |
| C89 | a dataset can be made inside of another one; their chunks may then share files (n5: element 3 of a/0 is element (3, 0) of a, for chunks of one element) |
| C93 | N5 blocks at the border may have the full block size (other writers do this); reading copes, but a write into a part of such a block decodes it into a buffer of the clipped size and overruns it |
| C94 | zarr v3: the `endian` of the `bytes` codec is ignored, a big endian array is read with swapped bytes; index location and index codecs of shards, the name of the chunk grid, `storage_transformers`, unknown key encodings and all but the last of several compressions are ignored as well |
| C94 | n5: `useZlib: true` is ignored, the blocks are taken for gzip streams |
| C94 | zarr v2: `fill_value: null` for an integer array converts NaN to an integer, and a compressor without the expected parameter is looked up with `operator[]` on a const object: undefined behaviour in both cases |
| C94 | zarr v2: the type strings `<i1`, `>i1`, `<u1`, `>u1` are refused; a fraction in the fill value of an integer array is recorded although the elements are cut |
| C96 | a chunk is replaced by emptying the file and writing it again: a reader of a raw array that comes in between gets zeros (neither old nor new values nor the fill value) and no exception; writers of different elements of one chunk, and dataset objects that write different chunks of one shard, lose updates |
| C97 | write_direct takes only the start of the selection in the dataset: a larger box of the source overwrites elements outside of the selection. Steps in selections of the dataset are ignored by both, and a slice without a start (`:2`) is a TypeError |
| C98 | removeTrivialChunks and removeDataset of a sharded dataset fail with several threads if one thread looks at a chunk of a shard that another thread is replacing (chunkExists and readChunk do not take the mutex, and the file is emptied first): "corrupt shard index" although nothing is wrong. No chunk is lost by this |
| C99 | Two clients set different attributes of one node at the same time: both calls succeed and one attribute is lost. A client that reads meanwhile gets a parse error, also when it opens an n5 or zarr v3 dataset |
| C100 | Setting an attribute empties the document before it writes it: if the process dies then, all attributes are lost, and n5 and zarr v3 datasets cannot be opened any more |
| C101 | Two clients that create the same dataset at the same time both succeed (the check for existence and the creation of the directory are separate), and the dataset has the extents of one of them. A dataset that is being created is found by `in` but cannot be opened |
| C102 | An interrupted creation leaves a name that is taken by something that cannot be opened: the call has to be preceded by a removal. An interrupted creation of a group in a zarr container leaves a directory that is taken for an n5 group, and datasets created in it are n5. An interrupted removal can leave a dataset that opens as before and whose missing chunks silently read as the fill value |
| C103 | When a write on n threads is killed, up to n chunks (or shards) can be lost at once, new and old contents; they are not neighbours in the order of the chunks. |
| C104 | `ds[...] = 70000` for int16 stores 4464 without an error. `ds[...] = -1` for an unsigned type is undefined behaviour (a negative double is cast to an unsigned integer), while an array of -1 is stored modulo 2^width; so are a Python float out of range and NaN for all integer types. `-2**63 - 1` is stored as `-2**63`. |
| C106 | `create_dataset(..., dtype='int64', fillvalue=2**53 + 1)` has the fill value 2^53; `fillvalue=2**64 - 1` for uint64 and `2**63 - 1` for int64 are undefined behaviour (the double next to it is out of range), as are -1 for unsigned types and NaN for integers. A refused fill value (complex) leaves the groups of the name behind. |
| C107, C108 | a new n5 File lists the attribute "n5" that nobody set (datasets hide their metadata, files do not hide the version); as that name cannot be removed, `f.attrs.clear()` on an n5 File always raises RuntimeError, after removing the attributes that come before it |
| C109 | removeTrivialChunks of a sharded dataset rewrites the shard in place; if the process dies while it does, the other chunks of the shard, which were not to be removed, are lost and reading them throws |
| C110 | get_chunk_shape(c, from_header=True) of an n5 chunk that does not exist opens the missing file without a check and uses the uninitialised number of dimensions; of a file that ends inside the header it returns extents of 0; size wraps at 2^64 |
| C111 | a read of several shards that runs during a write can combine shards of different moments: the array it shows never existed |
| C112 | a read of an uncompressed zarr array while a chunk is written succeeds, and shows in place of this chunk the elements of the chunk that the thread read before: its buffer is reused and an empty file is copied over it without a check of the length |
| C113 | `f["a/b"].parent` is the file `f`, although the group `/a` contains the dataset; `f["/a"].name` is `//a` for a group |
| C114 | `g == g` is False for every group `g` with a dataset somewhere below it; any two empty groups are equal, whatever their attributes and containers |
| C116 | a chunk that is removed, or overwritten with fill values, between the two requests of a read makes the read throw; for uncompressed zarr the read succeeds and shows the elements of the chunk read before |
| C117 | two clients that write different elements of one chunk, or different chunks of one shard, in an object store: both calls return and one write is lost (no conditional put) |
| C118 | files: after a crash in a partial write of a chunk, repeating the call throws, because it reads the truncated file of the chunk first |
| C122 | a secret key without an access key is dropped without a message and other credentials are used (`C122_secret_refuted`); the scheme of an endpoint is recognised in lower case only (`C122_scheme_refuted`); the chunks of a dataset at the root of a bucket get names that start with a slash (`C122_root_refuted`) |
| C123 | handles on which `isZarr()` is called directly: one failed request makes a handle treat a zarr dataset as N5 for ever (`C123_failure_refuted`); a handle that was asked before the dataset was created does not notice the creation (`C123_created_refuted`); two threads that ask during the creation can turn the format from zarr back to N5 (`C123_race_refuted`) |

## Not modelled

The memory model of real threads, the C++ type dispatch, AWS SDK behaviour other
than listing, reading, writing and deleting objects, JSON text parsing, the
inside of the compression libraries, GCS stubs, element type conversions in python.
