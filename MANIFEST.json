{
 "claims": [
  {
   "property": "C01",
   "status": "proved",
   "theorems": [
    "C01_chunk_numbering_bijection",
    "C01_chunk_count"
   ],
   "note": "numbering and chunk count"
  },
  {
   "property": "C02",
   "status": "proved",
   "theorems": [
    "C02_chunks_tile",
    "C02_validity_check"
   ],
   "note": "tiling; validity check of chunk ids"
  },
  {
   "property": "C03",
   "status": "proved",
   "theorems": [
    "C03_chunks_of_region"
   ],
   "note": "list of overlapping chunks"
  },
  {
   "property": "C04",
   "status": "proved",
   "theorems": [
    "C04_intersection_geometry"
   ],
   "note": "intersection geometry for extents up to 2^31"
  },
  {
   "property": "C05",
   "status": "partial",
   "theorems": [
    "C05_large_extents_refuted",
    "C05_wrong_placement"
   ],
   "note": "the statement is false of the code: offsets are truncated to 32 bit int; negation proved with a witness, C04 is the strongest true version"
  },
  {
   "property": "C06",
   "status": "partial",
   "theorems": [
    "C06_request_validation_partial",
    "C06_only_wrap_accepted",
    "C06_request_validation_refuted"
   ],
   "note": "exact when offset+extent does not wrap; the full statement is false (wrap-around witness)"
  },
  {
   "property": "C07",
   "status": "proved",
   "theorems": [
    "C07_strided_copy"
   ],
   "note": "copyView"
  },
  {
   "property": "C08",
   "status": "proved",
   "theorems": [
    "C08_strided_fill"
   ],
   "note": "fillView"
  },
  {
   "property": "C09",
   "status": "proved",
   "theorems": [
    "C09_subview_address",
    "C09_subview_injective"
   ],
   "note": "subview of a C-contiguous view"
  },
  {
   "property": "C10",
   "status": "proved",
   "theorems": [
    "C10_endian_involutive",
    "C10_endian_elementwise",
    "C10_endian_memory"
   ],
   "note": "element-wise and byte-wise"
  },
  {
   "property": "C100",
   "status": "partial",
   "theorems": [
    "C100_crash_partial",
    "C100_refuted"
   ],
   "note": "all other files are unchanged, and reading shows the attributes from before, from after, or fails. Refuted: it can fail, and then n5 and zarr v3 datasets cannot be opened any more, because their metadata is in the same document"
  },
  {
   "property": "C101",
   "status": "proved",
   "theorems": [
    "C101_clients",
    "C101_create_open",
    "C101_ends",
    "C101_same_node_refuted",
    "C101_reader_refuted"
   ],
   "note": "nodes of different clients do not lie below each other, containers that are only looked at exist already; fs::create_directories looks at the components of the path and then makes the missing ones, a document is emptied and then filled. Refuted without nodes of their own: two clients create the same dataset with different extents and both succeed; a dataset that is being created is found but cannot be opened"
  },
  {
   "property": "C102",
   "status": "partial",
   "theorems": [
    "C102_create_frame",
    "C102_create_again",
    "C102_create_dataset",
    "C102_remove",
    "C102_repeat_refuted",
    "C102_group_refuted",
    "C102_remove_refuted"
   ],
   "note": "creation: frame, nothing that opens as another dataset, repeating after removal of what is there (the roots exist and are not documents on the way); removal: frame, repeating completes it. Refuted: the call cannot be repeated without removal; an interrupted creation of a group in a zarr container leaves an n5 group; an interrupted removal can leave a dataset that opens as before and reads the fill value"
  },
  {
   "property": "C103",
   "status": "proved",
   "theorems": [
    "C103_files",
    "C103_array",
    "C103_shard_files",
    "C103_shard_array",
    "C103_one_cut_refuted"
   ],
   "note": "the write would have succeeded if it had not been stopped, and the files of the region were not cut short before; the old or new contents follow no order of the chunks. Refuted: that at most one chunk is damaged, as it is for one thread (C41)"
  },
  {
   "property": "C104",
   "status": "partial",
   "theorems": [
    "C104_numbers_partial",
    "C104_complex",
    "C104_large",
    "C104_modulo",
    "C104_range_refuted",
    "C104_negative_refuted",
    "C104_float_refuted",
    "C104_least_refuted"
   ],
   "note": "proved for numbers that the element type can hold in any history: integers in its range, floats whose integer part is, and for the floating point and complex types every double and every integer not too large for one, of which the nearest value of the format is stored (ties to even, infinite beyond the largest); complex numbers for other types and integers too large for a double are refused; C104_modulo says what becomes of other integers. Refuted: integers out of range are stored modulo 2^width without an error, negative numbers for unsigned types and floats out of range are undefined behaviour, -2^63-1 is stored as -2^63"
  },
  {
   "property": "C105",
   "status": "proved",
   "theorems": [
    "C105_objects",
    "C105_shards",
    "C105_array",
    "C105_sharded_array"
   ],
   "note": "one thread; the failure lasts until the end of the call: an existence request that fails alone is C70"
  },
  {
   "property": "C106",
   "status": "partial",
   "theorems": [
    "C106_fill_partial",
    "C106_found_partial",
    "C106_new",
    "C106_refused",
    "C106_integer_refuted",
    "C106_range_refuted",
    "C106_groups_refuted"
   ],
   "note": "proved for numbers that are doubles (every float, integers up to 2^53 and others with few bits) and for all numbers if the elements are floating point numbers; found again if the format can record the fill value; complex numbers and integers too large for a double are refused. Missing/refuted: other integers become the double next to them (2^53 + 1 for int64), numbers out of the range of an integer type are undefined behaviour (also 2^64 - 1 for uint64 and 2^63 - 1 for int64, which are in range), groups of the name stay when the number is refused"
  },
  {
   "property": "C107",
   "status": "partial",
   "theorems": [
    "C107_attributes",
    "C107_bare",
    "C107_python",
    "C107_n5_file_refuted"
   ],
   "note": "after every history of container calls; an n5 file has its format version as an attribute from the start (C107_n5_file_refuted; C107_attributes says that it is the only one)"
  },
  {
   "property": "C108",
   "status": "partial",
   "theorems": [
    "C108_clear_partial",
    "C108_ends",
    "C108_all",
    "C108_get",
    "C108_setdefault",
    "C108_n5_file",
    "C108_clear_refuted"
   ],
   "note": "groups, datasets and zarr files of all formats, in every order of iteration; clear() of an n5 file always raises, having removed some of the attributes (C108_n5_file, C108_clear_refuted)"
  },
  {
   "property": "C109",
   "status": "partial",
   "theorems": [
    "C109_trivial",
    "C109_array",
    "C109_dataset",
    "C109_sharded",
    "C109_sharded_array",
    "C109_sharded_dataset",
    "C109_shard_refuted"
   ],
   "note": "in full for datasets without shards; with shards all but at most one shard, as the shard is rewritten in place: dying in the middle loses the other chunks of this shard, which were not to be removed (C109_shard_refuted)"
  },
  {
   "property": "C11",
   "status": "proved",
   "theorems": [
    "C11_n5_header_roundtrip",
    "C11_n5_header_queries"
   ],
   "note": "header written by this library is read back, by the chunk reader and by the header queries"
  },
  {
   "property": "C110",
   "status": "partial",
   "theorems": [
    "C110_sizes",
    "C110_chunk",
    "C110_axis",
    "C110_axis_array",
    "C110_dimension",
    "C110_sharded",
    "C110_header",
    "C110_header_array",
    "C110_missing_refuted",
    "C110_cut_refuted",
    "C110_size_refuted"
   ],
   "note": "arrays of less than 2^64 elements, chunks that exist for the shape in the header. Refuted: larger sizes wrap; from_header for a chunk that does not exist uses an uninitialised number of dimensions, and a cut off file yields extents of 0"
  },
  {
   "property": "C111",
   "status": "proved",
   "theorems": [
    "C111_reader",
    "C111_snapshot_refuted"
   ],
   "note": "calls use one thread; a file that is written is seen empty or complete, as in C96. The elements of different shards may be those of different moments: that a read shows the array at one moment is refuted. For plain datasets readers can see elements that were never stored, see C96"
  },
  {
   "property": "C112",
   "status": "partial",
   "theorems": [
    "C112_reader",
    "C112_raw",
    "C112_stale_refuted"
   ],
   "note": "calls use one thread; a file that is written is seen empty or complete, as in C96. C112_reader: n5, and zarr with a codec that refuses empty input. C112_raw: zarr without compression, where only the chunks that nobody changes in this time are shown as they were; refuted for the others: the read succeeds and shows elements of another chunk"
  },
  {
   "property": "C113",
   "status": "partial",
   "theorems": [
    "C113_file",
    "C113_file_kept",
    "C113_parent",
    "C113_names",
    "C113_contains",
    "C113_contains_new",
    "C113_contains_refuted",
    "C113_names_refuted"
   ],
   "note": "File and parents for all names; names and places for names like a/b/c; refuted: the parent of an object that was looked up with a name of several parts is the group that was asked, not the one that contains it; the name of a group looked up with a leading slash begins with two"
  },
  {
   "property": "C114",
   "status": "partial",
   "theorems": [
    "C114_iter",
    "C114_items",
    "C114_get",
    "C114_equal",
    "C114_self_refuted",
    "C114_distinct_refuted"
   ],
   "note": "For trees in which every directory can be looked up. Refuted: a group with a dataset somewhere below it is not equal to itself; two different groups without datasets in them are equal"
  },
  {
   "property": "C115",
   "status": "proved",
   "theorems": [
    "C115_no_trace",
    "C115_unchanged",
    "C115_refused"
   ],
   "note": "calls use one thread each; a file that is written is seen empty or complete, as in C96. C115_refused is for datasets and arguments that are valid"
  },
  {
   "property": "C116",
   "status": "proved",
   "theorems": [
    "C116_reader",
    "C116_sharded",
    "C116_removed_refuted"
   ],
   "note": "each request takes effect at one moment and is answered; calls use one thread each. C116_removed_refuted: the exception of the statement does happen"
  },
  {
   "property": "C117",
   "status": "proved",
   "theorems": [
    "C117_plain",
    "C117_sharded",
    "C117_progress",
    "C117_sharded_progress",
    "C117_same_chunk_refuted",
    "C117_same_shard_refuted"
   ],
   "note": "each request takes effect at one moment and is answered; calls use one thread each. C117_same_chunk_refuted, C117_same_shard_refuted: without the condition writes are lost"
  },
  {
   "property": "C118",
   "status": "proved",
   "theorems": [
    "C118_stopped",
    "C118_sharded_stopped",
    "C118_retry",
    "C118_sharded_retry",
    "C118_files_refuted"
   ],
   "note": "each request takes effect at one moment; calls use one thread each. C118_files_refuted: for files the repeated call can throw"
  },
  {
   "property": "C119",
   "status": "proved",
   "theorems": [
    "C119_no_trace",
    "C119_unchanged",
    "C119_refused"
   ],
   "note": "each request takes effect at one moment; calls use one thread each; creating and removing arrays and attributes are not among the calls"
  },
  {
   "property": "C12",
   "status": "proved",
   "theorems": [
    "C12_n5_header_safe",
    "C12_truncated_header_rejected",
    "C12_header_queries_refuted"
   ],
   "note": "read_n5_header; the separate stream based header queries are not safe on truncated files (refuted theorem)"
  },
  {
   "property": "C120",
   "status": "proved",
   "theorems": [
    "C120_write",
    "C120_sharded_write",
    "C120_history",
    "C120_sharded_history",
    "C120_runs_exist",
    "C120_sharded_runs_exist",
    "C120_histories_exist",
    "C120_histories_exist_sharded"
   ],
   "note": "each request takes effect at one moment; other operations than writes of regions run on one thread; reads of objects nobody writes use the code of C36"
  },
  {
   "property": "C121",
   "status": "proved",
   "theorems": [
    "C121_stopped",
    "C121_sharded_stopped",
    "C121_repeated",
    "C121_sharded_repeated",
    "C121_goes_on",
    "C121_sharded_goes_on",
    "C121_whole_refuted"
   ],
   "note": "each request takes effect at one moment; C121_whole_refuted shows that the write as a whole does not, as the statement says"
  },
  {
   "property": "C122",
   "status": "proved",
   "theorems": [
    "C122_own_client",
    "C122_shared",
    "C122_sdk",
    "C122_progress",
    "C122_requests_end",
    "C122_credentials",
    "C122_endpoint",
    "C122_region",
    "C122_descendants",
    "C122_secret_refuted",
    "C122_scheme_refuted",
    "C122_root_refuted"
   ],
   "note": "the SDK itself is not modelled, its rules are those of S_S3Config; the end of the process is after all requests have returned; C122_secret_refuted, C122_scheme_refuted and C122_root_refuted show three surprises that the statement does not exclude"
  },
  {
   "property": "C123",
   "status": "proved",
   "theorems": [
    "C123_set",
    "C123_quiet",
    "C123_dataset",
    "C123_asked",
    "C123_asked_files",
    "C123_throw",
    "C123_failure_refuted",
    "C123_created_refuted",
    "C123_race_refuted"
   ],
   "note": "checks_whole and fs_checks_whole tie the single requests and lookups to the calls as a whole; C123_failure_refuted, C123_created_refuted and C123_race_refuted show what happens without its conditions"
  },
  {
   "property": "C13",
   "status": "partial",
   "theorems": [
    "C13_large_extent_refuted",
    "C13_large_varlen_refuted"
   ],
   "note": "false of the code (32 bit header fields): negations proved with witnesses; C11 is the strongest true version"
  },
  {
   "property": "C14",
   "status": "proved",
   "theorems": [
    "C14_le64_roundtrip",
    "C14_le32_roundtrip",
    "C14_le64_bytes",
    "C14_le32_bytes"
   ],
   "note": ""
  },
  {
   "property": "C15",
   "status": "proved",
   "theorems": [
    "C15_checksum_is_crc32c",
    "C15_checksum_continues"
   ],
   "note": "specification is polynomial division by the Castagnoli polynomial"
  },
  {
   "property": "C16",
   "status": "proved",
   "theorems": [
    "C16_burst_detected"
   ],
   "note": "bits of a byte in transmission order (least significant first)"
  },
  {
   "property": "C17",
   "status": "proved",
   "theorems": [
    "C17_shard_addressing"
   ],
   "note": ""
  },
  {
   "property": "C18",
   "status": "proved",
   "theorems": [
    "C18_shard_roundtrip"
   ],
   "note": ""
  },
  {
   "property": "C19",
   "status": "proved",
   "theorems": [
    "C19_shard_parse_safe"
   ],
   "note": "16*slots+4 assumed not to wrap"
  },
  {
   "property": "C20",
   "status": "proved",
   "theorems": [
    "C20_damaged_index_rejected",
    "C20_damaged_shard_fails"
   ],
   "note": "parsing level and access level"
  },
  {
   "property": "C21",
   "status": "proved",
   "theorems": [
    "C21_keys_injective",
    "C21_keys_not_reserved",
    "C21_paths_distinct",
    "C21_paths_not_reserved",
    "C21_key_format"
   ],
   "note": "keys and paths of chunks"
  },
  {
   "property": "C22",
   "status": "partial",
   "theorems": [
    "C22_any_separator_refuted",
    "C22_path_separator_refuted"
   ],
   "note": "false of the code: a separator of digits, the empty one or one with path components lets chunks collide (witnesses); C21 is the strongest true version"
  },
  {
   "property": "C23",
   "status": "proved",
   "theorems": [
    "C23_zarr_roundtrip",
    "C23_n5_roundtrip"
   ],
   "note": "over any lossless codec; the raw codec is proved lossless"
  },
  {
   "property": "C24",
   "status": "partial",
   "theorems": [
    "C24_zarr_decode_safe",
    "C24_n5_decode_safe_partial",
    "C24_n5_decode_refuted"
   ],
   "note": "zarr complete; n5 safe when the header count fits the buffer, refuted otherwise"
  },
  {
   "property": "C25",
   "status": "proved",
   "theorems": [
    "C25_varlen_roundtrip",
    "C25_zarr_refuses",
    "C25_empty_removes",
    "C27_chunk_map"
   ],
   "note": "format level and dataset level"
  },
  {
   "property": "C26",
   "status": "partial",
   "theorems": [
    "C26_elided_exact_partial",
    "C26_elided_float_refuted",
    "C26_float_partial",
    "C26_exact",
    "C26_integers"
   ],
   "note": "integers: exactly the chunks of fill values are elided, bit by bit. Floats: exactly the chunks whose elements compare equal to the fill value as IEEE numbers (C26_float_partial), so bit patterns only change between the two zeros (C26_exact: never if the fill value is no zero; chunks are never elided if it is NaN); negative zero refutes the statement"
  },
  {
   "property": "C27",
   "status": "proved",
   "theorems": [
    "C27_chunk_map",
    "C27_other_chunks",
    "C27_last_operation_wins",
    "C27_sharded_chunk_map"
   ],
   "note": "plain and sharded datasets, every history"
  },
  {
   "property": "C28",
   "status": "proved",
   "theorems": [
    "C28_readonly_plain",
    "C28_readonly_sharded",
    "C28_readonly_container",
    "C28_readonly_open"
   ],
   "note": "chunk level API of plain and sharded datasets; attributes, removal and creation of nodes, opening a File; every sequence of modifying calls, each may fail and be caught"
  },
  {
   "property": "C29",
   "status": "partial",
   "theorems": [
    "C29_invalid_ids_partial",
    "C29_invalid_remove_partial",
    "C29_sharded_write_partial",
    "C29_short_id_refuted",
    "C29_sharded_read_refuted"
   ],
   "note": "writes and reads of plain datasets with enough id entries and writes of sharded ones; false otherwise: too short ids are read out of bounds, removal is not refused, sharded reads are not checked (refuted)"
  },
  {
   "property": "C30",
   "status": "proved",
   "theorems": [
    "C30_zarr_array"
   ],
   "note": "every history of sub-array writes, scalar writes, chunk writes and removals; every read, any strides"
  },
  {
   "property": "C31",
   "status": "proved",
   "theorems": [
    "C31_n5_array"
   ],
   "note": "as C30 for the n5 format with truncated edge chunks"
  },
  {
   "property": "C32",
   "status": "proved",
   "theorems": [
    "C32_sharded_array"
   ],
   "note": "every history mixing sub-array, scalar and chunk writes and removals"
  },
  {
   "property": "C33",
   "status": "proved",
   "theorems": [
    "C33_scalar_plain",
    "C33_scalar_sharded"
   ],
   "note": "same final store, byte for byte, and same outcome, from any store"
  },
  {
   "property": "C34",
   "status": "proved",
   "theorems": [
    "C34_layout_unobservable"
   ],
   "note": "any two of plain zarr, plain n5 and sharded; for floats up to values that compare equal to the fill value"
  },
  {
   "property": "C35",
   "status": "partial",
   "theorems": [
    "C35_reads_depend_on_files_partial",
    "C35_chunk_read_agrees",
    "C35_truncated_file_refuted"
   ],
   "note": "holds for every dataset directory whose covered chunk files hold as many elements as their chunk (or are rejected by the codec), any file contents otherwise; false for truncated raw chunks, where the reused scratch buffer shows through (refuted)"
  },
  {
   "property": "C36",
   "status": "proved",
   "theorems": [
    "C36_read",
    "C36_write",
    "C36_sharded_read",
    "C36_sharded_write",
    "C36_history",
    "C36_sharded_history",
    "C36_rejected",
    "C36_runs_exist",
    "C36_sharded_runs_exist",
    "C36_histories_exist",
    "C36_histories_exist_sharded"
   ],
   "note": "plain and sharded datasets, reads and writes, any thread count, every interleaving of file and output accesses including spurious wake ups; single calls on files that were not cut short, and whole histories; writes truncate then fill the file as two steps"
  },
  {
   "property": "C37",
   "status": "proved",
   "theorems": [
    "C37_batches_partition",
    "C37_each_batch_once",
    "C37_each_item_once"
   ],
   "note": "random access and input iterators; the forward iterator overload cannot be instantiated (assigns to a const parameter)"
  },
  {
   "property": "C38",
   "status": "proved",
   "theorems": [
    "C38_first_exception",
    "C38_items",
    "C38_calls",
    "C38_progress"
   ],
   "note": "also: no deadlock and termination"
  },
  {
   "property": "C39",
   "status": "proved",
   "theorems": [
    "C39_at_most_once",
    "C39_workers",
    "C39_stop",
    "C39_exactly_once"
   ],
   "note": "any client of the pool, every interleaving"
  },
  {
   "property": "C40",
   "status": "proved",
   "theorems": [
    "C40_serial",
    "C40_no_lost_update",
    "C40_progress",
    "C40_region_write_refuted",
    "C40_reader_refuted"
   ],
   "note": "any number of threads, any calls, every interleaving of the accesses to the shard files (truncating and writing are separate steps); also no deadlock and termination. Not covered by the mutex, with executions that show the consequences: sub-array writes running at the same time lose chunk writes, and readers can meet a truncated shard."
  },
  {
   "property": "C41",
   "status": "proved",
   "theorems": [
    "C41_files",
    "C41_array",
    "C41_shard_files",
    "C41_shard_array",
    "C41_atomic_refuted"
   ],
   "note": "plain and sharded datasets: files, and what readers see; the chunk (shard) at the crash point is old, new or a prefix of the new file: its old contents can be lost (C41_atomic_refuted)"
  },
  {
   "property": "C42",
   "status": "proved",
   "theorems": [
    "C42_corrupt_chunks",
    "C42_never_overwritten",
    "C42_corrupt_regions",
    "C42_intact_regions"
   ],
   "note": ""
  },
  {
   "property": "C43",
   "status": "proved",
   "theorems": [
    "C43_round_trip"
   ],
   "note": "codec options up to the number of blosc threads, which zarr v2 does not store and which does not affect the data"
  },
  {
   "property": "C44",
   "status": "partial",
   "theorems": [
    "C44_round_trip_partial",
    "C44_fill_value_refuted",
    "C44_zlib_header_refuted"
   ],
   "note": "everything but the fill value, which n5 metadata does not store (refuted), and the option useZlib, which the metadata cannot express (refuted)"
  },
  {
   "property": "C45",
   "status": "partial",
   "theorems": [
    "C45_round_trip_partial",
    "C45_zlib_header_refuted",
    "C45_negative_fill_refuted",
    "C45_large_fill_refuted"
   ],
   "note": "plain and sharded; fill values that the data type can hold. Refuted: zlib stream header (default of C++ create), negative fill value of an unsigned type is undefined, integers beyond 2^53 from other writers are rounded"
  },
  {
   "property": "C46",
   "status": "proved",
   "theorems": [
    "C46_zarr_dtypes",
    "C46_n5_dtypes",
    "C46_n5_codecs",
    "C46_zarr_codecs",
    "C46_names_exist",
    "C46_names_distinct"
   ],
   "note": "zarr reads gzip as well as zlib"
  },
  {
   "property": "C47",
   "status": "partial",
   "theorems": [
    "C47_accepts_partial",
    "C47_zero_chunk_refuted",
    "C47_large_chunk_refuted",
    "C47_huge_chunk_refuted",
    "C47_open_refuted"
   ],
   "note": "exact acceptance condition for positive chunk extents; refuted: zero extents are accepted and then divide by zero, chunks larger than the array are accepted, chunks of 2^64 elements are accepted and writing then leaves the buffer, and opening does not check the shard shape"
  },
  {
   "property": "C48",
   "status": "proved",
   "theorems": [
    "C48_merge",
    "C48_frame"
   ],
   "note": "files, groups and datasets of n5, zarr v2 and zarr v3; values as they come back from the json text (e.g. NaN becomes null); the attribute document must be a json object"
  },
  {
   "property": "C49",
   "status": "proved",
   "theorems": [
    "C49_metadata_kept",
    "C49_refused",
    "C49_hidden",
    "C49_group_handle_refuted"
   ],
   "note": "also for zarr: attributes never change what opening reads. Through a group handle made for the directory of a dataset the entries are not protected (C49_group_handle_refuted)"
  },
  {
   "property": "C50",
   "status": "proved",
   "theorems": [
    "C50_permissions",
    "C50_open",
    "C50_contradiction",
    "C50_reopen",
    "C50_new_zarr_refuted",
    "C50_version_refuted"
   ],
   "note": "the opening rule is exact for every mode and state in which no plain file is in the way; findings: zarr at a new path without extension is refused, the n5 version check reads one character"
  },
  {
   "property": "C51",
   "status": "partial",
   "theorems": [
    "C51_create_open_partial",
    "C51_as_asked",
    "C51_from_metadata",
    "C51_same_calls",
    "C51_same_shard_calls",
    "C51_n5_fill_refuted",
    "C51_foreign_metadata_refuted",
    "C51_other_format_refuted"
   ],
   "note": "every creation whose codec options and fill value the format can record; refuted: n5 fill values, foreign metadata in an n5 container, zarr formats other than 2 and 3"
  },
  {
   "property": "C52",
   "status": "partial",
   "theorems": [
    "C52_atomic_partial",
    "C52_leftovers",
    "C52_succeeds",
    "C52_existing",
    "C52_leftover_refuted"
   ],
   "note": "holds for well-typed options, supported compressors, representable fill values and positive chunks; false otherwise (refuted), C52_leftovers says what is left"
  },
  {
   "property": "C53",
   "status": "partial",
   "theorems": [
    "C53_unique_partial",
    "C53_counts_partial",
    "C53_array",
    "C53_returns",
    "C53_padding_refuted"
   ],
   "note": "every history, plain and sharded, any thread count and schedule: exactly the stored elements; equal to the array elements for n5 and for chunks that divide the shape (C53_array). Refuted for zarr edge chunks, whose padding is counted. Values without NaN"
  },
  {
   "property": "C54",
   "status": "partial",
   "theorems": [
    "C54_removed_partial",
    "C54_array_partial",
    "C54_readonly",
    "C54_remove_dataset",
    "C54_returns",
    "C54_nan_refuted"
   ],
   "note": "datasets that are not sharded (C98 for sharded ones), any thread count and schedule, values without NaN; refuted with NaN: a chunk with other elements is removed. Also removeDataset and read-only handles"
  },
  {
   "property": "C55",
   "status": "partial",
   "theorems": [
    "C55_region_partial",
    "C55_numpy_partial",
    "C55_int_refuted",
    "C55_slice_refuted"
   ],
   "note": "all indices numpy rejects raise; for the others the region, the dropped axes and the returned elements are those of numpy, over any history, except for two kinds of entries, refuted: the number -n of an axis of length n raises, a slice start below -n selects nothing"
  },
  {
   "property": "C56",
   "status": "partial",
   "theorems": [
    "C56_rejected_partial",
    "C56_accepted_partial",
    "C55_numpy_partial",
    "C56_reorders_refuted",
    "C56_ones_refuted",
    "C56_empty_refuted"
   ],
   "note": "exact set of accepted shapes; accepted arrays are stored in C order (C55_numpy_partial). Refuted: (2,3) is accepted for (1,6), one-element arrays of another rank are rejected, an empty region accepts any array"
  },
  {
   "property": "C57",
   "status": "proved",
   "theorems": [
    "C57_exists",
    "C57_in",
    "C57_remove",
    "C57_remove_failing",
    "C57_keys",
    "C57_paths"
   ],
   "note": "also for removal with failing requests (C57_remove_failing)"
  },
  {
   "property": "C58",
   "status": "proved",
   "theorems": [
    "C58_plain",
    "C58_sharded",
    "C58_separator_refuted",
    "C58_varlen_refuted"
   ],
   "note": "separators other than / that contain it can be written to a bucket only (C58_separator_refuted); checkVarlenChunk, which is not among the calls, does not work on S3 (C58_varlen_refuted)"
  },
  {
   "property": "C59",
   "status": "proved",
   "theorems": [
    "C59_chunks",
    "C59_chunks_in_region",
    "C59_blocks",
    "C59_blocks_tile",
    "C59_blocks_in_region",
    "C59_runs_exist",
    "C59_empty_region_refuted"
   ],
   "note": "for every non-empty region; an empty region (roiBegin = roiEnd) still visits a chunk, see C59_empty_region_refuted. With throwing functions no chunk is visited twice and one of the exceptions arrives."
  },
  {
   "property": "C60",
   "status": "proved",
   "theorems": [
    "C60_chunks"
   ],
   "note": "valid chunk positions (others: C69)"
  },
  {
   "property": "C61",
   "status": "partial",
   "theorems": [
    "C61_varlen_flag_partial",
    "C61_varlen_flag_refuted"
   ],
   "note": "holds for mode 0/1 headers; refuted for other mode values"
  },
  {
   "property": "C62",
   "status": "proved",
   "theorems": [
    "C62_unreadable_kept",
    "C62_chunk_atomic",
    "C62_shard_kept",
    "C62_shard_atomic"
   ],
   "note": "plain and sharded datasets, any thread count and schedule; files as in C36_write and C36_sharded_write"
  },
  {
   "property": "C63",
   "status": "partial",
   "theorems": [
    "C63_v3_partial",
    "C63_v2_partial",
    "C63_n5_partial",
    "C63_dimensions",
    "C63_missing_key_refuted"
   ],
   "note": "zarr v3: any document without floating point numbers outside of the fill value; zarr v2 and n5: documents that have the mandatory keys. Refuted for missing keys (undefined behaviour)"
  },
  {
   "property": "C64",
   "status": "partial",
   "theorems": [
    "C64_group",
    "C64_dataset",
    "C64_kept_partial",
    "C64_n5_group_refuted"
   ],
   "note": "refuted for n5 groups: attributes with four of the dataset key names turn a group into a dataset"
  },
  {
   "property": "C65",
   "status": "proved",
   "theorems": [
    "C65_outside",
    "C65_siblings",
    "C65_tree"
   ],
   "note": "the first name of a key must not be .zgroup or zarr.json (documents of the container itself)"
  },
  {
   "property": "C66",
   "status": "proved",
   "theorems": [
    "C66_remove",
    "C66_refused"
   ],
   "note": ""
  },
  {
   "property": "C67",
   "status": "partial",
   "theorems": [
    "C67_n5_partial",
    "C67_zarr_refuted"
   ],
   "note": "n5 only; refuted for zarr, where the directories on the way get no group document"
  },
  {
   "property": "C68",
   "status": "proved",
   "theorems": [
    "C68_items_are_safe"
   ],
   "note": "axes of at most 2^31 elements (longer ones: C05)"
  },
  {
   "property": "C69",
   "status": "partial",
   "theorems": [
    "C69_write_partial",
    "C69_read_partial",
    "C69_chunk_partial",
    "C69_short_refuted",
    "C69_wrap_refuted"
   ],
   "note": "positions with enough entries whose end is below 2^64; refuted for short positions (memory is read beyond the vector) and for positions near 2^64"
  },
  {
   "property": "C70",
   "status": "partial",
   "theorems": [
    "C70_sharded_partial",
    "C70_chunks_partial",
    "C70_state_partial",
    "C70_exists_partial",
    "C57_remove_failing",
    "C70_read_refuted",
    "C70_write_refuted",
    "C70_exists_refuted",
    "C70_keys_refuted",
    "C70_spared_refuted"
   ],
   "note": "sharded datasets, single chunks of plain datasets, exists(); refuted for sub-arrays of plain datasets (a failing request for the existence of a chunk yields fill values, a partial write then destroys stored elements), chunkExists, in(), keys(), and remove() when the service spares objects"
  },
  {
   "property": "C71",
   "status": "partial",
   "theorems": [
    "C71_faithful",
    "C71_lossless",
    "C71_defaults",
    "C71_bzip2_room",
    "C71_truncates",
    "C71_large_refuted",
    "C71_bzip2_documented_refuted"
   ],
   "note": "libraries as their manuals describe them (S_Codec.v). Refuted: zlib and bzip2 store only the first size mod 2^32 bytes of chunks of 4 GiB and more, without an error; bzip2 gets less room than its manual asks for, so chunks may be refused"
  },
  {
   "property": "C72",
   "status": "partial",
   "theorems": [
    "C72_safe_partial",
    "C72_blosc_refuted"
   ],
   "note": "all compressors but blosc; refuted for blosc: chunks of less than 16 bytes are read past their end"
  },
  {
   "property": "C73",
   "status": "partial",
   "theorems": [
    "C73_create_dataset_partial",
    "C73_create_group",
    "C73_require_group",
    "C73_delete",
    "C73_delete_succeeds",
    "C73_delete_fails",
    "C73_slashes",
    "C73_create_group_absolute",
    "C73_require_group_absolute",
    "C73_absolute_refuted"
   ],
   "note": "names of plain components (no \".\", \"..\", empty components or names of z5 documents). Refuted: with a leading \"/\" create_group, require_group, create_dataset and require_dataset work on the root of the file system instead of the container"
  },
  {
   "property": "C74",
   "status": "partial",
   "theorems": [
    "C74_codec_partial",
    "C74_codec_refuted"
   ],
   "note": "integer options within the range of a C++ int; refuted: the level of blosc is ignored in n5 and zarr v2, gzip in zarr v2 becomes zlib"
  },
  {
   "property": "C75",
   "status": "partial",
   "theorems": [
    "C75_accepted_partial",
    "C75_same_codec_partial",
    "C75_reported",
    "C75_rejected",
    "C75_gzip",
    "C75_refuted"
   ],
   "note": "the codecs of which the settings are reported with the names that create_dataset wants; for all others C75_rejected shows that it fails, and for gzip in zarr v2 that the codec changes"
  },
  {
   "property": "C76",
   "status": "partial",
   "theorems": [
    "C76_existing",
    "C76_new",
    "C76_found_partial",
    "C76_twice_partial",
    "C76_twice_fails",
    "C76_twice_refuted"
   ],
   "note": "refuted for chunks larger than the shape: the second call raises (C76_twice_fails: always)"
  },
  {
   "property": "C77",
   "status": "proved",
   "theorems": [
    "C77_visititems"
   ],
   "note": "containers in which every directory can be looked up (a directory that is neither raises), nested less deep than the recursion limit; the operating system lists every directory once"
  },
  {
   "property": "C78",
   "status": "partial",
   "theorems": [
    "C78_dict_partial",
    "C78_keys",
    "C78_del_missing",
    "C78_dict_refuted"
   ],
   "note": "refuted: del of a missing name raises no KeyError"
  },
  {
   "property": "C79",
   "status": "partial",
   "theorems": [
    "C79_file",
    "C79_member",
    "C79_path",
    "C79_slashes",
    "C79_created",
    "C79_group_refuted"
   ],
   "note": "objects looked up in any way, new datasets, files; refuted for the group returned by create_group(\"a/b\") in zarr, because a is no group (C67)"
  },
  {
   "property": "C80",
   "status": "partial",
   "theorems": [
    "C80_create_dataset_asked",
    "C80_other_types",
    "C80_zero_extent_refuted"
   ],
   "note": "codecs: C74; refuted for shapes with an extent of 0: the metadata is written and then the program divides by zero"
  },
  {
   "property": "C81",
   "status": "partial",
   "theorems": [
    "C81_history_partial",
    "C81_keys",
    "C81_n5_group_refuted",
    "C81_n5_group_lost",
    "C81_n5_sub_group_refuted",
    "C81_members_refuted",
    "C81_complex_refuted"
   ],
   "note": "zarr containers, answered requests, without complex numbers and the calls that agreed excludes; refuted for n5 (createGroup has no effect in a bucket, a missing name is a group), remove of missing nodes, documents as members, complex datasets"
  },
  {
   "property": "C82",
   "status": "proved",
   "theorems": [
    "C82_relative",
    "C82_back",
    "C82_sibling_refuted"
   ],
   "note": "the node lies below the group; C82_sibling_refuted: for other nodes whose name begins with the same characters the result is wrong"
  },
  {
   "property": "C83",
   "status": "partial",
   "theorems": [
    "C83_objects",
    "C83_write_refuted",
    "C83_read_refuted",
    "C83_create_refuted"
   ],
   "note": "the first part; the second is refuted: a failing existence request counts as no, so that attributes are written to another document or read as empty, a zarr dataset is created as n5 and a group not at all"
  },
  {
   "property": "C84",
   "status": "partial",
   "theorems": [
    "C84_open",
    "C84_frame",
    "C84_foreign_refuted",
    "C84_spared_refuted"
   ],
   "note": "answered requests (C84_open), frame for all (C84_frame); refuted: a name with foreign objects below it is taken for a container that is not zarr, and w keeps objects that the service reports as not deleted"
  },
  {
   "property": "C85",
   "status": "partial",
   "theorems": [
    "C85_plain",
    "C85_sharded",
    "C85_no_failure",
    "C85_sharded_no_failure",
    "C85_header_refuted"
   ],
   "note": "reading and existence; refuted for checkVarlenChunk: the header is used although it could not be read"
  },
  {
   "property": "C86",
   "status": "partial",
   "theorems": [
    "C86_chunk",
    "C86_shard_chunk",
    "C86_region",
    "C86_shards",
    "C86_array",
    "C86_chunk_frame",
    "C86_shard_chunk_frame",
    "C86_region_frame",
    "C86_shards_frame",
    "C85_no_failure",
    "C85_sharded_no_failure",
    "C86_lost_refuted"
   ],
   "note": "if closing a file does not lose data (saves_all); refuted otherwise: the stream is checked before it is closed, a chunk that is lost on close is reported as written. The frame holds in any case"
  },
  {
   "property": "C87",
   "status": "partial",
   "theorems": [
    "C87_call",
    "C87_saved",
    "C87_read",
    "C87_no_failure",
    "C87_open_file",
    "C87_open_no_failure",
    "C87_attributes_refuted",
    "C87_destroyed_refuted",
    "C87_created_refuted",
    "C87_format_refuted"
   ],
   "note": "proved for every call if no document is lost, and for opening a File with an extension; refuted: documents are written without checking the stream, so lost attributes, datasets and (zarr v3) destroyed datasets are not reported; a failing probe of the format (File without extension, mode w) turns a zarr container into n5"
  },
  {
   "property": "C88",
   "status": "partial",
   "theorems": [
    "C88_after_crash",
    "C88_after_failure",
    "C88_edge_refuted",
    "C88_shard_refuted"
   ],
   "note": "if every chunk of the region is replaced without looking at the old one; refuted for edge chunks of zarr arrays and for shards: a cut file is read first, and every repetition raises"
  },
  {
   "property": "C89",
   "status": "proved",
   "theorems": [
    "C89_call",
    "C89_varlen",
    "C89_history",
    "C89_created",
    "C89_nested_refuted"
   ],
   "note": "one file tree for documents, directories and chunks; nodes inside of a dataset are excluded by the statement, and C89_nested_refuted shows that they do interfere"
  },
  {
   "property": "C90",
   "status": "proved",
   "theorems": [
    "C90_metadata",
    "C90_reopen"
   ],
   "note": "for nodes that are not inside of a dataset"
  },
  {
   "property": "C91",
   "status": "proved",
   "theorems": [
    "C91_life",
    "C91_array",
    "C91_sharded"
   ],
   "note": "for codecs and fill values that the format can record (see C51)"
  },
  {
   "property": "C92",
   "status": "proved",
   "theorems": [
    "C92_layout",
    "C92_sharded_layout"
   ],
   "note": "the formats are written down as an executable reader in S_Layout; arrays of rank 0 are excluded (dataset_ok)"
  },
  {
   "property": "C93",
   "status": "partial",
   "theorems": [
    "C93_read",
    "C93_history_partial",
    "C93_sharded",
    "C93_border_block_refuted"
   ],
   "note": "files that a reader of the format (S_Layout) understands; proved for reading zarr files, shards with an intact index and n5 blocks that are clipped or full, and for histories of writes except into n5 border blocks of full size: a partial write into those overruns the chunk buffer (C93_border_block_refuted); shards must be short enough that sizes do not wrap"
  },
  {
   "property": "C94",
   "status": "partial",
   "theorems": [
    "C94_written",
    "C94_settings",
    "C94_opened_partial",
    "C94_accepted",
    "C94_big_endian_refuted",
    "C94_use_zlib_refuted",
    "C94_null_fill_refuted",
    "C94_missing_level_refuted",
    "C94_byte_type_refuted",
    "C94_unknown_accepted_refuted",
    "C94_fraction_refuted"
   ],
   "note": "S_Document is an executable reader of the published documents. Writing: arguments that the format has a place for (portable). Reading: little endian arrays, fill values that a double holds, n5 streams without useZlib; ordinary documents are accepted. Refuted: the byte order of zarr v3 and useZlib of n5 are ignored; null fill values of integers and missing compressor parameters are undefined behaviour; some type strings are refused; other index locations, grids, key encodings, chains of compressions and storage transformers are accepted as if they were not there; zarr v2 records fractions of integer fill values"
  },
  {
   "property": "C95",
   "status": "proved",
   "theorems": [
    "C95_array",
    "C95_sharded",
    "C95_foreign",
    "C95_foreign_sharded",
    "C94_accepted"
   ],
   "note": "for creations that the format has a place for (portable, see C94) and for ordinary documents; the reader and the library mean the same by element types and compressions (agree, accepts); trees of other programs have nothing but files and directories where chunks belong"
  },
  {
   "property": "C96",
   "status": "proved",
   "theorems": [
    "C96_plain",
    "C96_sharded",
    "C96_progress",
    "C96_sharded_progress",
    "C96_same_chunk_refuted",
    "C96_reader_refuted",
    "C96_same_shard_refuted"
   ],
   "note": "clients whose changes are to chunks (shards) of their own, as the statement requires; calls use one thread each; a write of a file is modelled as emptying it and then filling it. Refuted without that condition: writes to different elements of one chunk or to different chunks of one shard from separate objects are lost, and a reader of a chunk that is being replaced silently gets zeros"
  },
  {
   "property": "C97",
   "status": "partial",
   "theorems": [
    "C97_copies_partial",
    "C97_read_refused",
    "C97_size_refuted",
    "C97_step_refuted",
    "C97_open_slice_refuted"
   ],
   "note": "boxes given by slices start:stop with step 1 (or by default); array of the element type of the dataset. Refuted: write_direct does not compare the shapes, steps in the selection of the dataset are ignored, slices without a start are refused"
  },
  {
   "property": "C98",
   "status": "partial",
   "theorems": [
    "C98_trivial_partial",
    "C98_array",
    "C98_dataset_partial",
    "C98_returns",
    "C98_no_deadlock",
    "C98_readonly",
    "C98_threads_refuted"
   ],
   "note": "values without NaN. With one thread the calls succeed; with several threads they can fail (refuted: chunkExists and readChunk do not take the mutex and see a shard that is being replaced), then each chunk to be removed is gone or unchanged and all others are unchanged. No deadlock (with arbitrary files, too), every execution ends"
  },
  {
   "property": "C99",
   "status": "proved",
   "theorems": [
    "C99_clients",
    "C99_tables",
    "C99_ends",
    "C99_same_node_refuted",
    "C99_reader_refuted"
   ],
   "note": "nodes are not named like documents; a write of a document is modelled as emptying it and then filling it. Refuted without nodes of their own: of two attributes that two clients set at the same time one is lost although both calls succeed, and a client that reads meanwhile fails"
  }
 ]
}
