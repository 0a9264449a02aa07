{
 "claims": [
  {
   "property": "C01",
   "status": "proved",
   "theorems": [
    "C01_pack_header_roundtrip",
    "C01_pack_header_parse_complete",
    "C01_pack_header_parse_sound",
    "C01_pack_header_unterminated"
   ],
   "note": ""
  },
  {
   "property": "C02",
   "status": "proved",
   "theorems": [
    "C02_msb_size_complete",
    "C02_msb_size_sound"
   ],
   "note": ""
  },
  {
   "property": "C03",
   "status": "proved",
   "theorems": [
    "C03_msb_size_unterminated",
    "C03_any_offset"
   ],
   "note": ""
  },
  {
   "property": "C04",
   "status": "proved",
   "theorems": [
    "C04_ofs_decode",
    "C04_ofs_every_distance",
    "C04_ofs_unique",
    "C04_ofs_sound",
    "C04_ofs_unterminated"
   ],
   "note": ""
  },
  {
   "property": "C05",
   "status": "proved",
   "theorems": [
    "C05_loose_header_roundtrip",
    "C05_loose_header_format",
    "C05_loose_header_parse"
   ],
   "note": ""
  },
  {
   "property": "C06",
   "status": "proved",
   "theorems": [
    "C06_apply_is_meaning",
    "C06_apply_terminates"
   ],
   "note": ""
  },
  {
   "property": "C07",
   "status": "partial",
   "theorems": [
    "C07_malformed_rejected_refuted",
    "C07_every_last_copy_refuted",
    "C07_malformed_rejected_partial"
   ],
   "note": "Refuted as stated, and in general: every delta whose last instruction is a copy outside the source is accepted and that copy dropped. Proved: that is the only malformed delta that is accepted."
  },
  {
   "property": "C08",
   "status": "proved",
   "theorems": [
    "C08_chain_is_composition"
   ],
   "note": ""
  },
  {
   "property": "C09",
   "status": "proved",
   "theorems": [
    "C09_chunked_reads",
    "C09_only_start"
   ],
   "note": ""
  },
  {
   "property": "C10",
   "status": "partial",
   "theorems": [
    "C10_short_delta_refuted",
    "C10_stale_bytes_refuted",
    "C10_short_delta_partial",
    "C10_chain_partial"
   ],
   "note": "Refuted: a delta producing less than announced is padded with buffer contents (zeros for one delta, stale bytes for a chain). Proved in general what is shown instead: single deltas (padding with zeros, or ValueError when more is produced) and chains of any length with any announced sizes (two buffers written in turn and never wiped; ValueError only if an output does not fit the buffer)."
  },
  {
   "property": "C11",
   "status": "proved",
   "theorems": [
    "C11_aggregation_equals_chain",
    "C11_aggregation_integrity",
    "C11_zero_instruction"
   ],
   "note": "Proved for the interpreter semantics the routine was written for (see C13 for Python 3)."
  },
  {
   "property": "C12",
   "status": "proved",
   "theorems": [
    "C12_slice_exact",
    "C12_beyond_end"
   ],
   "note": ""
  },
  {
   "property": "C13",
   "status": "partial",
   "theorems": [
    "C13_aggregation_py3_refuted"
   ],
   "note": "Refuted: on Python 3 connect_deltas raises TypeError for every delta stream that produces anything."
  },
  {
   "property": "C14",
   "status": "proved",
   "theorems": [
    "C14_index_roundtrip",
    "C14_reads_any_index"
   ],
   "note": ""
  },
  {
   "property": "C15",
   "status": "proved",
   "theorems": [
    "C15_sound",
    "C15_complete"
   ],
   "note": ""
  },
  {
   "property": "C16",
   "status": "proved",
   "theorems": [
    "C16_terminates",
    "C16_logarithmic"
   ],
   "note": ""
  },
  {
   "property": "C17",
   "status": "partial",
   "theorems": [
    "C17_refuted",
    "C17_large_refuted",
    "C17_cut_off_refuted",
    "C17_v1_partial",
    "C17_v2_partial"
   ],
   "note": "Refuted: PackIndexFile.offsets() of a version 2 index returns the raw 32-bit table, so entries of 2^31 and more come out as table positions with the top bit set (C17_refuted with an index IndexWriter itself writes; C17_large_refuted for every version 2 file). Proved for version 1 files and version 2 files without 64-bit offsets. C17_cut_off_refuted: from a file that ends within the table of offsets offsets() silently returns fewer entries (or raises ValueError) where offset(i) raises struct.error."
  },
  {
   "property": "C18",
   "status": "proved",
   "theorems": [
    "C18_partial_sha"
   ],
   "note": ""
  },
  {
   "property": "C19",
   "status": "partial",
   "theorems": [
    "C19_refuted",
    "C19_never_refuted"
   ],
   "note": "Refuted: the code compares the next sha with the found one, so only duplicate names are reported. C19_never_refuted: an index without duplicates never raises AmbiguousObjectName."
  },
  {
   "property": "C20",
   "status": "proved",
   "theorems": [
    "C20_canonical_sha"
   ],
   "note": ""
  },
  {
   "property": "C21",
   "status": "proved",
   "theorems": [
    "C21_known_size_contiguous",
    "C21_object_contiguous"
   ],
   "note": "For every zlib satisfying the laws in ZlibModel.v. Pack readers: every sequence of reads and rewinds; object readers: every sequence of reads (rewinds: C26)."
  },
  {
   "property": "C22",
   "status": "proved",
   "theorems": [
    "C22_one_block",
    "C22_known_size_exact",
    "C22_long_read",
    "C22_stored_blocks"
   ],
   "note": "For every zlib satisfying the laws, on streams where any 8 compressed bytes yield output (the quantifier of the property); the condition is proved for every zlib stream of stored blocks, and of one block with fixed codes. A request of at least as many bytes as the stream has is exact on every stream (C22_long_read)."
  },
  {
   "property": "C23",
   "status": "partial",
   "theorems": [
    "C23_one_block_partial",
    "C23_zlib_refuted",
    "C23_dynamic_block_refuted",
    "C23_empty_read_refuted",
    "C23_silent_start_refuted",
    "C23_nonempty_read_partial",
    "C23_stored_blocks_partial"
   ],
   "note": "Refuted with a valid stored-block stream whose first 8 bytes yield nothing, and with what zlib makes of 17 lines of text; in general for every stream whose first 8 (or n) bytes yield nothing, and for every zlib stream that begins with a dynamic block (reads of at most 8 bytes, or content of at most 8 bytes). Proved for streams where any 8 compressed bytes yield output, and in particular for all zlib streams of one block that is not dynamic."
  },
  {
   "property": "C24",
   "status": "partial",
   "theorems": [
    "C24_read_too_much_refuted",
    "C24_object_reads_partial",
    "C24_long_read_partial",
    "C24_crossing_partial",
    "C24_stored_blocks_refuted"
   ],
   "note": "Refuted in general: of an object in stored blocks (what zlib makes of data that cannot be compressed, up to 26 MB), every read(n) that goes beyond the first block returns the whole object (C24_stored_blocks_refuted). Proved: on every stream of which any 8 bytes give output, each read is exact, or, if it crosses the end of the header buffer, lacks as many bytes as came from the buffer, or gives all that is left (C24_crossing_partial); exact when the part read together with the header and the rest are read separately, and for every read that asks for at least as many bytes behind the header buffer as the compressed stream has."
  },
  {
   "property": "C25",
   "status": "partial",
   "theorems": [
    "C25_truncated_refuted",
    "C25_read_all_short_refuted",
    "C25_small_object_partial",
    "C25_compressed_partial",
    "C25_all_or_buffer_partial",
    "C25_few_blocks_partial",
    "C25_many_blocks_refuted"
   ],
   "note": "Refuted in general: of every object in more than 1640 stored blocks (27 MB of data that cannot be compressed; tried with zlib's own output) read() leaves out as many bytes as the header buffer has (C25_many_blocks_refuted); of an object whose stream is four or five stored blocks and a block with its own codes it leaves out the last 20 bytes (C25_truncated_refuted; zlib makes such a stream of a blob of 65541 bytes). Proved: on streams of which any 8 bytes give output nothing else can happen (C25_all_or_buffer_partial); objects in fewer stored blocks, objects that fit into 8192 bytes with header, compressed and not, and objects whose stream is at least 8192 bytes shorter than header and content are read completely."
  },
  {
   "property": "C26",
   "status": "partial",
   "theorems": [
    "C26_zlib_refuted",
    "C26_seek_after_partial_read_refuted",
    "C26_small_object_partial",
    "C26_clean_rest_partial",
    "C26_spoilt_rest_refuted",
    "C26_forged_header_refuted",
    "C26_known_size_partial",
    "C26_only_start"
   ],
   "note": "Refuted: read(5), seek(0), read(5) raises ValueError on an object stream because the buffer is not dropped, also on a stream made by zlib; in general for small objects: with a space and no null byte (or not exactly one space before the first null byte) in the unread rest the next read raises ValueError, and an unread rest that looks like a header is taken for the header. Proved for known-size readers after any history, for small objects once all has been read, and whenever the unread rest has neither a space nor a null byte. Other positions raise ValueError."
  },
  {
   "property": "C27",
   "status": "partial",
   "theorems": [
    "C27_wrong_length_refuted",
    "C27_every_length_refuted",
    "C27_empty_object_diverges_refuted",
    "C27_exact_length_partial"
   ],
   "note": "Refuted: bytes following the stream are subtracted twice when reading in pieces; with an empty object the call never returns. In general the result is the length of the stream less the length of unconsumed_tail, which is the beginning of what follows (all read histories). Proved exact when nothing follows, or every read asks for everything left."
  },
  {
   "property": "C28",
   "status": "partial",
   "theorems": [
    "C28_truncated_refuted",
    "C28_empty_object_diverges_refuted",
    "C28_large_object_refuted",
    "C28_iterate_any_pack_partial",
    "C28_iterate_written_partial"
   ],
   "note": "Refuted three times: a pack with an empty object first makes stream_iter loop for ever (compressed_bytes_read never returns, see C27); an object larger than a chunk (4 MB) that compresses well makes the next offset too small, so that the objects behind it are never yielded; an object whose end one read misses (C29) makes it raise AssertionError. Proved for every documented pack, and for every pack write_pack makes, whose objects are not empty, at most one chunk (4 MB) large, and delivered by a single read."
  },
  {
   "property": "C29",
   "status": "partial",
   "theorems": [
    "C29_truncated_refuted",
    "C29_read_back_partial"
   ],
   "note": "Refuted: with a compressor that ends three stored blocks with a block of its own codes for 20 bytes, read() returns all but these 20 bytes (C29_truncated_refuted, for all objects of that form; real zlib does so for an object of 49169 bytes). Writing succeeds, the index opens, info returns type and size, unknown shas raise BadObject, and the stream delivers the content contiguously, for every zlib satisfying the laws. That one read() returns everything (or that every read is exact) is proved if the compressor's output is no longer than the data or any 8 bytes of it produce output."
  },
  {
   "property": "C30",
   "status": "proved",
   "theorems": [
    "C30_count_and_sizes",
    "C30_too_few_objects",
    "C30_wrong_size"
   ],
   "note": "With and without object_count (None and 0 mean counting). Raises are ValueError for too few objects, AssertionError for a wrong size."
  },
  {
   "property": "C31",
   "status": "proved",
   "theorems": [
    "C31_crc_accepts_written"
   ],
   "note": ""
  },
  {
   "property": "C32",
   "status": "partial",
   "theorems": [
    "C32_single_byte_partial",
    "C32_far_object_refuted",
    "C32_beyond_refuted"
   ],
   "note": "Refuted for objects at 2 GiB or beyond, where the check raises KeyError whatever the data (C17), for every pack (C32_beyond_refuted). Proved for version 2 indices with offsets below 2 GiB: every position, every wrong value."
  },
  {
   "property": "C33",
   "status": "partial",
   "theorems": [
    "C33_never_false",
    "C33_sound",
    "C33_verdict_partial",
    "C33_cycle_refuted",
    "C33_followed"
   ],
   "note": "Never False and sound (hash of type, size and what the stream delivers) for every pack and index. Exact verdict proved for objects the code resolves (C69). Refuted part: for a REF_DELTA naming itself the call neither returns nor raises. C33_followed: for a chain of any shape the verdict is about the chain as the code follows it."
  },
  {
   "property": "C34",
   "status": "partial",
   "theorems": [
    "C34_zero_distance_refuted",
    "C34_terminates_partial"
   ],
   "note": "Refuted: an OFS_DELTA with distance 0. Proved: it terminates on every byte string without such an entry."
  },
  {
   "property": "C35",
   "status": "partial",
   "theorems": [
    "C35_ofs_after_ref_refuted",
    "C35_every_ofs_after_ref_refuted",
    "C35_chain_partial",
    "C35_followed",
    "C35_right_place"
   ],
   "note": "Refuted: an OFS_DELTA reached through a REF_DELTA is looked up at offset delta_info instead of pack_offset - delta_info; witness pack where the wrong blob is used, and C35_every_ofs_after_ref_refuted for every such chain. Proved for chains without OFS_DELTA after a REF_DELTA. C35_followed says for every chain which entries are visited; C35_right_place: a wrong turn is right only by chance."
  },
  {
   "property": "C36",
   "status": "partial",
   "theorems": [
    "C36_truncated_refuted",
    "C36_every_truncated_refuted",
    "C36_memory_partial",
    "C36_read_too_much_refuted"
   ],
   "note": "Proved against an abstract dictionary of objects for every sequence of stores, reads and queries. Missing: reads that cross the end of the 8192-byte header buffer and ask for less behind it than the compressed size (defect C25), and zlib streams with long parts that produce no output unless the object is small (C23). No-collision is not needed: the answers are those of some stored object with that name. Reads in pieces are refuted: read(65530) of 66000 bytes returns all of them (C36_read_too_much_refuted); so are complete reads: read() of 8206 bytes returns 8186 (C36_truncated_refuted, for every such object C36_every_truncated_refuted)."
  },
  {
   "property": "C37",
   "status": "partial",
   "theorems": [
    "C37_partly_read_refuted",
    "C37_clean_rest_partial",
    "C37_spoilt_rest_refuted"
   ],
   "note": "Refuted: two bytes read, then stream again: the next read raises ValueError (rewind leaves the partly read header buffer, C26); in general for small objects whose unread rest contains a space and no null byte. Proved for any number of uses of a small object whose unread rests contain neither."
  },
  {
   "property": "C38",
   "status": "partial",
   "theorems": [
    "C38_truncated_refuted",
    "C38_name_and_info",
    "C38_store_succeeds",
    "C38_stream_partial",
    "C38_read_too_much_refuted"
   ],
   "note": "Proved for every history of stores, queries and crashes (restarts): name, type, size, has_object and info. Refuted for reads in pieces: read(65530) of a stored blob of 66000 bytes returns 66000 bytes (C38_read_too_much_refuted; with real zlib read(17000) of 40000 random bytes is an example); and for read() when the stream is of the form of C25_truncated_refuted: the last 20 bytes are missing, whatever is done before and after (C38_truncated_refuted). Reading the content through stream is proved for zlib streams without long silent parts or at most 8192 bytes long and for read sequences that avoid the reader defects of C24-C26."
  },
  {
   "property": "C39",
   "status": "proved",
   "theorems": [
    "C39_existing_files_untouched"
   ],
   "note": "For every file, at every point of the run, whatever fails."
  },
  {
   "property": "C40",
   "status": "proved",
   "theorems": [
    "C40_crash_leaves_complete_files",
    "C40_temporary_file_not_reported"
   ],
   "note": "Every crash point. With a preset sha the theorem needs a system that takes writes completely (short writes with a preset sha: C41)."
  },
  {
   "property": "C41",
   "status": "partial",
   "theorems": [
    "C41_preset_sha_refuted",
    "C41_every_preset_refuted",
    "C41_short_write_partial"
   ],
   "note": "Refuted with a preset sha: FDStream.write ignores what os.write returns (gitdb/stream.py:693-695), the truncated object file is published; so for every non-empty object on every system with short writes (C41_every_preset_refuted). Proved without preset sha."
  },
  {
   "property": "C42",
   "status": "partial",
   "theorems": [
    "C42_short_stream_refuted",
    "C42_any_size_refuted"
   ],
   "note": "Refuted in general: for every stream shorter than announced, store on a faultless system succeeds and stores a header with the announced size, which info repeats (gitdb/fun.py:509-533, gitdb/db/loose.py:195-198)."
  },
  {
   "property": "C43",
   "status": "proved",
   "theorems": [
    "C43_stream_copy_exact",
    "C43_write_object_exact"
   ],
   "note": ""
  },
  {
   "property": "C44",
   "status": "partial",
   "theorems": [
    "C44_short_reads_refuted",
    "C44_every_short_read_refuted",
    "C44_short_reads_partial"
   ],
   "note": "Refuted as stated: a short read ends the copy without an error (C44_short_reads_refuted; for every reader C44_every_short_read_refuted). Proved: what is copied is a prefix of the source, at most size bytes, and its length is returned."
  },
  {
   "property": "C45",
   "status": "partial",
   "theorems": [
    "C45_removed_file_refuted",
    "C45_any_removal_refuted",
    "C45_no_removals_partial"
   ],
   "note": "Refuted when another program removes the file: _hexsha_to_file is never invalidated (gitdb/db/loose.py:96-104), by a witness and for every database and sha (C45_any_removal_refuted: has_object says True for ever, stream raises BadObject). Proved for histories without such removals."
  },
  {
   "property": "C46",
   "status": "proved",
   "theorems": [
    "C46_abbreviations",
    "C46_histories_are_tidy"
   ],
   "note": "For directories in which only object files look like object files; every history keeps that."
  },
  {
   "property": "C47",
   "status": "proved",
   "theorems": [
    "C47_answers",
    "C47_each_pack_once"
   ],
   "note": "For any sequence of queries and updates over directories of complete packs; each answer is compared with the set of packs known at that time. Packs that are incomplete or damaged: see C74, C75. Completeness is asked for only when the directory is read."
  },
  {
   "property": "C48",
   "status": "proved",
   "theorems": [
    "C48_update"
   ],
   "note": "For any reachable previous state and any directory. If a new pack file cannot be opened the call raises instead (C75)."
  },
  {
   "property": "C49",
   "status": "partial",
   "theorems": [
    "C49_same_time_refuted",
    "C49_newer_partial",
    "C49_every_unseen_refuted",
    "C49_refuted"
   ],
   "note": "Refuted: the directory's time stamp is compared with <=, so packs added within the same tick are not seen; in every history the objects only they contain are said to be missing (C49_every_unseen_refuted). Holds if the time stamp is newer."
  },
  {
   "property": "C50",
   "status": "proved",
   "theorems": [
    "C50_compound"
   ],
   "note": "For members whose methods answer according to fixed contents, in any order of calls, including updates. Shown to apply to the members of a GitDB."
  },
  {
   "property": "C51",
   "status": "partial",
   "theorems": [
    "C51_repacked_refuted",
    "C51_moved_refuted",
    "C51_every_move_refuted",
    "C51_updated_partial"
   ],
   "note": "Refuted: the cached database is asked although the object moved (loose to packed): info raises BadObject while has_object says True; moved to an alternate, even update_cache(force=True) does not help because LooseObjectDB answers has_object from its own cache. Proved: after update_cache answers are right for members that are themselves right. General (C51_every_move_refuted): for all members and histories, info keeps going to the member that had the object at first and raises what that raises."
  },
  {
   "property": "C52",
   "status": "partial",
   "theorems": [
    "C52_no_method_refuted",
    "C52_complete_partial"
   ],
   "note": "Refuted for members that have neither method (MemoryDB): AttributeError. Proved for all trees of members that have one and answer with a name, BadObject or AmbiguousObjectName."
  },
  {
   "property": "C53",
   "status": "proved",
   "theorems": [
    "C53_alternates",
    "C53_any_graph"
   ],
   "note": "All methods (has_object, info, sha_iter, size, update_cache) in any history; on any graph, also cyclic, an answer that is returned is right. Repositories are complete (indexes present, alternates decodable)."
  },
  {
   "property": "C54",
   "status": "partial",
   "theorems": [
    "C54_cycles_refuted",
    "C54_own_objects_partial"
   ],
   "note": "Refuted for every reachable cycle: no recursion depth suffices (in CPython RecursionError, which the except clause around databases() may turn into skipped alternates). Proved: objects of the repository itself are found."
  },
  {
   "property": "C55",
   "status": "partial",
   "theorems": [
    "C55_lines",
    "C55_update_partial",
    "C55_undecodable",
    "C55_unusable_refuted",
    "C55_every_unusable_refuted"
   ],
   "note": "In every state reachable by any calls with the disk changing in between. Refuted in one point: a database that stays listed is kept when its directory is no longer usable. General (C55_every_unusable_refuted): so for all states and listed paths."
  },
  {
   "property": "C56",
   "status": "proved",
   "theorems": [
    "C56_mutual_exclusion",
    "C56_lock_file"
   ],
   "note": "Any number of users, any order of open/write/commit/rollback/__del__, any interleaving of single system calls, any failing system calls, POSIX and Windows."
  },
  {
   "property": "C57",
   "status": "partial",
   "theorems": [
    "C57_lock_stays_refuted",
    "C57_raising_commit_refuted",
    "C57_every_lock_stays_refuted",
    "C57_every_raising_commit_refuted",
    "C57_only_commits_partial",
    "C57_commit_rollback_partial",
    "C57_succeeds",
    "C57_again",
    "C57_once",
    "C57_open"
   ],
   "note": "False when a system call fails at the end of commit: a failing rename leaves the lock file for ever because rollback does nothing any more (C57_lock_stays_refuted); a failing chmod makes commit raise although the file was replaced (C57_raising_commit_refuted). Proved: only commit changes the file, in one step, to what was written, at every point of every interleaving; what commit and rollback leave behind when they return or raise; success without faults; repetition; open. Both in general: every failing rename, every failing chmod (C57_every_lock_stays_refuted, C57_every_raising_commit_refuted)."
  },
  {
   "property": "C58",
   "status": "partial",
   "theorems": [
    "C58_file_missing_refuted",
    "C58_every_commit_refuted",
    "C58_steps_partial"
   ],
   "note": "False: commit removes the file before the rename on Windows (C58_file_missing_refuted), and so does every commit over an existing file (C58_every_commit_refuted). Proved: in the window the written data is in the lock file, apart from it the steps are as in C57."
  },
  {
   "property": "C59",
   "status": "proved",
   "theorems": [
    "C59_bin_hex_bin",
    "C59_hex_bin_hex",
    "C59_other_lengths"
   ],
   "note": ""
  },
  {
   "property": "C60",
   "status": "proved",
   "theorems": [
    "C60_type_ids",
    "C60_other_ids",
    "C60_type_names",
    "C60_git_ids",
    "C60_infos_agree",
    "C60_delta_names"
   ],
   "note": ""
  },
  {
   "property": "C61",
   "status": "partial",
   "theorems": [
    "C61_in_raises_refuted"
   ],
   "note": "Refuted for every database class: __contains__ evaluates self.has_obj, which does not exist (gitdb/db/base.py:30-31)."
  },
  {
   "property": "C62",
   "status": "proved",
   "theorems": [
    "C62_copies",
    "C62_available",
    "C62_unknown"
   ],
   "note": "For a system where nothing fails; the source after any use of the memory database, the target with any files."
  },
  {
   "property": "C63",
   "status": "partial",
   "theorems": [
    "C63_twice_compressed_refuted",
    "C63_every_copy_refuted"
   ],
   "note": "Refuted: the copy is compressed twice (store with a preset sha writes the compressed data through the compressing writer). For every source, target and list of shas the copies are there with the right type and size, and each read raises ValueError unless the compressed data looks like an object header (C63_every_copy_refuted)."
  },
  {
   "property": "C64",
   "status": "partial",
   "theorems": [
    "C64_between_refuted",
    "C64_every_create_refuted",
    "C64_names_refuted",
    "C64_short_writes_refuted",
    "C64_every_short_write_refuted",
    "C64_visible_partial",
    "C64_others_partial",
    "C64_result_partial"
   ],
   "note": "Refuted three times: between the two renames the pack is visible without its index (a PackedDB then raises FileNotFoundError for every query), the names are pack-b'<hex>'.pack in Python 3, and short writes go unnoticed (C64_every_short_write_refuted: on every such system, for all objects and every part of the header). The first in general: every creation that returns passes such a moment (C64_every_create_refuted). Proved for any number of processes and any crash point, writes not being short: what a scanner looks at is old, or a complete new pack, or the index of one; on return both files are complete and nothing temporary is left."
  },
  {
   "property": "C65",
   "status": "partial",
   "theorems": [
    "C65_is_loose_object_refuted",
    "C65_is_loose_object_partial"
   ],
   "note": "Refuted on Python 3: map(ord, bytes) raises TypeError on every non-empty input. Proved for the Python 2 meaning of ord."
  },
  {
   "property": "C66",
   "status": "partial",
   "theorems": [
    "C66_again_into_memory_refuted",
    "C66_files_into_memory_refuted",
    "C66_memory_into_memory_refuted",
    "C66_again_into_files_refuted"
   ],
   "note": "Refuted in general. For every proper object stored in a LooseObjectDB or a MemoryDB, storing the returned IStream in any MemoryDB gives an object that is there and whose reads raise ValueError; in a LooseObjectDB it always makes an empty file and info raises ValueError."
  },
  {
   "property": "C67",
   "status": "partial",
   "theorems": [
    "C67_wrong_base_refuted",
    "C67_never_compared_refuted"
   ],
   "note": "Refuted in general: the announced source size is only used as the bound for copies; no delta is rejected because the base has another size."
  },
  {
   "property": "C68",
   "status": "proved",
   "theorems": [
    "C68_header_info"
   ],
   "note": ""
  },
  {
   "property": "C69",
   "status": "partial",
   "theorems": [
    "C69_truncated_refuted",
    "C69_delta_objects_partial",
    "C69_mixed_refuted",
    "C69_followed",
    "C69_every_mixed_refuted"
   ],
   "note": "Refuted for chains with an OFS_DELTA behind a REF_DELTA: the content returned is that of another object (C69_mixed_refuted, see C35); and for a base whose end one read misses (C29): zeros take the place of its last 20 bytes (C69_truncated_refuted). Proved for: chains without OFS_DELTA after a REF_DELTA (see C35); zlib streams of which any 8 bytes produce output, or not longer than the data in deltas of at most 512 bytes and bases of at most 1 MB (see C23). Any chain length. Objects that are not deltas are read completely by one read, in pieces under the first condition. C69_followed: for a chain of any shape, what is returned is the object of the chain as it is followed; so C69_every_mixed_refuted for every pack with such a wrong turn."
  },
  {
   "property": "C70",
   "status": "partial",
   "theorems": [
    "C70_ref_cycle_refuted",
    "C70_ends_iff_partial",
    "C70_use_ends_partial"
   ],
   "note": "Refuted: a REF_DELTA naming itself makes all three run for ever. Proved: a query ends exactly if the chain of the object asked for does (for any bytes in the pack), and then reading the stream and checking its sha end, too."
  },
  {
   "property": "C71",
   "status": "partial",
   "theorems": [
    "C71_mixed_chain_refuted",
    "C71_unknown_base_partial",
    "C71_followed",
    "C71_every_mixed_refuted"
   ],
   "note": "Refuted for chains with an OFS_DELTA behind a REF_DELTA (C35): a pack whose object rests on a missing base, yet info and stream answer with the wrong blob as base. Proved for every other chain: stream raises ValueError, info never answers. In general: C71_followed and C71_every_mixed_refuted."
  },
  {
   "property": "C72",
   "status": "proved",
   "theorems": [
    "C72_concurrent_stores"
   ],
   "note": "Proved, with preset sha under the condition of complete writes."
  },
  {
   "property": "C73",
   "status": "proved",
   "theorems": [
    "C73_nobody_else"
   ],
   "note": ""
  },
  {
   "property": "C74",
   "status": "partial",
   "theorems": [
    "C74_refuted",
    "C74_every_missing_index_refuted",
    "C74_no_false_positive_partial"
   ],
   "note": "Refuted: the index is opened only when first searched and its FileNotFoundError (or parse error) ends the search, before or after the right pack depending on hit counts. Proved: no false positives. General: C74_every_missing_index_refuted."
  },
  {
   "property": "C75",
   "status": "partial",
   "theorems": [
    "C75_refuted",
    "C75_every_failed_load_refuted",
    "C75_every_said_missing_refuted"
   ],
   "note": "Refuted: _entities is assigned and the time stamp recorded before the directory is read, so the next query works on the incomplete list and answers False. General: after every failed load the next queries use the part loaded (C75_every_failed_load_refuted), so objects in the packs not loaded are said missing (C75_every_said_missing_refuted)."
  },
  {
   "property": "C76",
   "status": "partial",
   "theorems": [
    "C76_new_parts_refuted",
    "C76_every_new_part_refuted",
    "C76_updated_partial"
   ],
   "note": "Refuted: pack directory and alternates file are only looked for at the first use. Proved: after any other change that does not remove loose objects an update returns and all later answers are right. General (C76_every_new_part_refuted): a GitDB first used without packs and alternates never finds anything but loose objects."
  },
  {
   "property": "C77",
   "status": "partial",
   "theorems": [
    "C77_relative_refuted",
    "C77_every_relative_refuted",
    "C77_absolute_partial"
   ],
   "note": "Refuted: looked up in the current directory (for every repository: C77_every_relative_refuted). Proved: with absolute paths the repositories used are those git uses."
  },
  {
   "property": "C78",
   "status": "partial",
   "theorems": [
    "C78_invalid_root_refuted",
    "C78_first_call_partial",
    "C78_empty_path_refuted",
    "C78_name_partial",
    "C78_store_partial"
   ],
   "note": "Refuted: the attribute is assigned before the exception, so the second call works on an empty list. Proved: the first call raises (queries, completing names); storing and the output stream raise after any history."
  },
  {
   "property": "C79",
   "status": "proved",
   "theorems": [
    "C79_consistent",
    "C79_cycles"
   ],
   "note": "Also: on cyclic alternates none of sha_iter, size and update_cache returns."
  },
  {
   "property": "C80",
   "status": "partial",
   "theorems": [
    "C80_leftovers_refuted",
    "C80_every_leftovers_refuted",
    "C80_nothing_published_partial"
   ],
   "note": "Refuted: the temporary files stay, whenever the objects cannot be written (C80_every_leftovers_refuted). Proved: nothing is published when the objects cannot be written."
  },
  {
   "property": "C81",
   "status": "proved",
   "theorems": [
    "C81_created_found"
   ],
   "note": "Any previous packs; one that has the name of the new pack may contain only objects of the new one (names are hashes of packs, so it is the same pack unless there is a collision). Pack below 2^64 bytes; at most 2^31 objects; writes not short. Content as delivered by the reader of C29 (see there for what depends on zlib)."
  },
  {
   "property": "C82",
   "status": "proved",
   "theorems": [
    "C82_iteration_asks_each_name",
    "C82_iterate_written"
   ],
   "note": "Iteration modelled as the list of everything yielded. Theorem 1 holds for any pack contents; theorem 2 for packs written by write_pack with distinct names (the pack shorter than 2^64 bytes)."
  },
  {
   "property": "C83",
   "status": "proved",
   "theorems": [
    "C83_checksums_agree"
   ],
   "note": "No assumption on the streams or zlib; the entry count of the index assumes well-formed names, at most 2^31 objects and a pack shorter than 2^64 bytes."
  },
  {
   "property": "C84",
   "status": "partial",
   "theorems": [
    "C84_store_through_stream",
    "C84_preset_sha",
    "C84_reused_writer_names",
    "C84_reused_writer_refuted",
    "C84_flexible_writer_refuted",
    "C84_set_ostream"
   ],
   "note": "Proved for the first object stored through a new Sha1Writer or ZippedStoreShaWriter, and for copies with a preset sha. Refuted: with a writer that stays set the n-th object gets the hash of the first n objects together; FlexibleSha1Writer is accepted but store raises TypeError."
  },
  {
   "property": "C85",
   "status": "proved",
   "theorems": [
    "C85_info_among_writers",
    "C85_stream_among_writers",
    "C85_has_among_writers",
    "C85_finished_is_there"
   ],
   "note": "Proved for any interleaving of the system calls of any number of stores with those of the query; the storing processes may stop anywhere. What stream gives afterwards is what the complete file gives (C21-C26). With a preset sha the data stored must be the compressed object of that name and writes complete (C41)."
  },
  {
   "property": "C86",
   "status": "partial",
   "theorems": [
    "C86_pack_file_partial",
    "C86_index_file",
    "C86_entity_partial",
    "C86_bad_index_partial",
    "C86_short_pack",
    "C86_signature",
    "C86_other_file_refuted",
    "C86_other_entity_refuted",
    "C86_index_version_refuted"
   ],
   "note": "For files that are a pack and an index: every method of PackFile, PackIndexFile and PackEntity answers, after any history of calls, what the functions on opened files answer that the other properties are about. Refuted for other files: _set_cache_ stores cursor, version and size before it compares the signature, so only the first call raises ParseError and every later one uses the file as a pack; an index of unknown version tells version 2 the second time it is asked. What remains: lookups in a bad index fail always, short packs never tell a size."
  },
  {
   "property": "C87",
   "status": "proved",
   "theorems": [
    "C87_hit",
    "C87_miss",
    "C87_loaded",
    "C87_updated"
   ],
   "note": "Proved for every directory, state and query: who answers, which counters change, and in which order the packs are kept (stable descending rearrangement), on first load, after updates and every 500 answered queries."
  },
  {
   "property": "C88",
   "status": "proved",
   "theorems": [
    "C88_delegates",
    "C88_stores",
    "C88_answers",
    "C88_ever_after",
    "C88_info",
    "C88_has_agrees",
    "C88_info_agrees",
    "C88_nowhere",
    "C88_late",
    "C88_ostream"
   ],
   "note": "Proved for every history of questions, stores that succeed or raise, and stores by others that may be interrupted. Also: the loose database as a member of a GitDB and the LooseObjectDB made of system calls answer has_object and info alike; output streams are passed on to the loose database. In a history, pack directories and alternates files do not change (C53, C76 are about those)."
  },
  {
   "property": "C89",
   "status": "partial",
   "theorems": [
    "C89_size",
    "C89_slice_size",
    "C89_one_chunk_refuted",
    "C89_every_chunk_refuted",
    "C89_check_py3_refuted",
    "C89_checked_partial",
    "C89_compress",
    "C89_compress_py3_refuted"
   ],
   "note": "Proved: size, bounds, slices, compress (Python 2 semantics of StringIO; refuted for Python 3, where exactly the lists with something to join raise TypeError). Refuted for check_integrity: data of a list of one chunk is not looked at; on Python 3 the check raises AttributeError for every list of two or more chunks (right.next()). Proved on Python 2 for lists of two chunks or more."
  },
  {
   "property": "C90",
   "status": "partial",
   "theorems": [
    "C90_bracket_refuted",
    "C90_star_refuted",
    "C90_pattern_refuted",
    "C90_plain_partial",
    "C90_files",
    "C90_other_names"
   ],
   "note": "Refuted: special characters in the path of the directory are taken as a pattern; a PackedDB at .../pre[x]post uses exactly the packs of .../prexpost, one at .../pre*post those of all directories whose names begin and end so; in general the packs of all directories whose names match the last component as a shell pattern, specified in GlobSpec.v (proved for all trees and patterns). Proved: exact for paths without * ? [, and the model of PackedDB used by the other properties agrees with that; index names right for every path."
  },
  {
   "property": "C91",
   "status": "partial",
   "theorems": [
    "C91_history_partial",
    "C91_completes_partial",
    "C91_only_partial",
    "C91_upper_case_refuted",
    "C91_cycle_refuted",
    "C91_same_pack_refuted",
    "C91_every_same_pack_refuted",
    "C91_short_refuted",
    "C91_every_short_refuted",
    "C91_short_alternate_refuted"
   ],
   "note": "Violated: of several objects in one pack the first is returned (C91_same_pack_refuted; for every pack C91_every_same_pack_refuted); digits with an upper case letter never complete a loose object (C91_upper_case_refuted); fewer than three digits raise ValueError when there is a pack (C91_short_refuted for a unique object; for every repository with a pack and every history C91_every_short_refuted; if only a reachable alternate has a pack there is no answer either, C91_short_alternate_refuted); with cyclic alternates the call never returns (C91_cycle_refuted). What holds: every answer is the one that goes with the loose objects and the first match of each pack (C91_history_partial), so returned and reported names are right (C91_completes_partial) and a unique object is found (C91_only_partial)."
  },
  {
   "property": "C92",
   "status": "proved",
   "theorems": [
    "C92_text_of_bytes",
    "C92_bytes_of_text",
    "C92_round_trip",
    "C92_header",
    "C92_digits"
   ],
   "note": "All parts for all inputs: bytes decode to a text iff they are its UTF-8 form (specified by code point ranges in TextSpec.v, independently of the decoder), texts encode iff all their code points are scalar values, round trips, the header of type names as bytes or text, completion of names given as bytes or text. The codecs are CPython's, modelled by hand; they were compared with Python's on about 540,000 inputs."
  },
  {
   "property": "C93",
   "status": "partial",
   "theorems": [
    "C93_name_refuted",
    "C93_loose_abbreviation_refuted",
    "C93_loose_bytes_refuted",
    "C93_forty_bytes_refuted",
    "C93_packed_abbreviation_refuted",
    "C93_compound_abbreviation_refuted",
    "C93_path_partial"
   ],
   "note": "Refuted: names (bytes everywhere) are shown as the repr of a bytes object, b'...'; for an abbreviated name given as text to LooseObjectDB.partial_to_complete_sha_hex str() itself raises TypeError (to_hex_sha on a text that does not have 40 characters), given as bytes the hexadecimal form of the digits is shown; CompoundDB shows abbreviations of odd length with a 0 more. Proved is the exact text in each case; it is right only for names of 40 digits given as text. 40 bytes are taken for digits whatever they are and shown as a literal (C93_forty_bytes_refuted, against a specification of bytes literals); abbreviations not found in a PackedDB are shown with the half byte that was not asked for (C93_packed_abbreviation_refuted)."
  },
  {
   "property": "C94",
   "status": "proved",
   "theorems": [
    "C94_no_directory",
    "C94_first_use",
    "C94_update",
    "C94_all_packs",
    "C94_lookup",
    "C94_unsupported",
    "C94_loose_no_directory",
    "C94_members_asked",
    "C94_members_all",
    "C94_store",
    "C94_lock"
   ],
   "note": "For every directory and history of proper calls (directories list every name once, opening a file does not itself raise BadObject). Which exception belongs to which damage is specified in ErrorSpec.v by the bytes of the file. That later calls hide the problem is C74, C75 and C86."
  },
  {
   "property": "C95",
   "status": "partial",
   "theorems": [
    "C95_no_directory_refuted",
    "C95_damaged_pack_refuted",
    "C95_alternates_refuted",
    "C95_git_refuted",
    "C95_first_partial"
   ],
   "note": "False (three _refuted theorems, each for all directories of the kind): the attribute is set before loading it fails, so the exception comes once and the database then answers as if it were empty (PackedDB) or had no alternates (ReferenceDB, GitDB). What holds: the first call of every method and every update of a ReferenceDB raise. PackedDB's first use is C94_first_use."
  },
  {
   "property": "C96",
   "status": "partial",
   "theorems": [
    "C96_fields_partial",
    "C96_invalid_refuted",
    "C96_invalid_fields",
    "C96_types",
    "C96_no_other_types",
    "C96_hexsha",
    "C96_set",
    "C96_read"
   ],
   "note": "Refuted for InvalidOInfo and InvalidOStream: on Python 3 their __init__ passes an argument to object.__init__, so constructing one always raises TypeError (C96_invalid_refuted). For all other classes everything claimed is proved."
  },
  {
   "property": "C97",
   "status": "partial",
   "theorems": [
    "C97_contents_partial",
    "C97_never_other",
    "C97_empty_refuted",
    "C97_large_refuted",
    "C97_position_refuted",
    "C97_every_position_refuted",
    "C97_closed"
   ],
   "note": "Refuted for empty files (mmap raises ValueError, which the fallback does not catch), for files of more than 0x7ffff000 bytes that are read instead of mapped (one os.read, cut off without an error), and for descriptors not at their beginning (only the rest is read). Proved for all other files; what comes back is always a stretch of the file, and the descriptor is always closed."
  },
  {
   "property": "C98",
   "status": "partial",
   "theorems": [
    "C98_write",
    "C98_read",
    "C98_default_refuted",
    "C98_byte_ord",
    "C98_null_refuted",
    "C98_db_path"
   ],
   "note": "Refuted: NullStream.read gives the text '' instead of bytes, and _RandomAccessBytesIO() without an argument raises TypeError since its default is text. The rest is proved."
  },
  {
   "property": "C99",
   "status": "partial",
   "theorems": [
    "C99_bin",
    "C99_hex",
    "C99_bin_rejects_partial",
    "C99_unchecked_refuted"
   ],
   "note": "Proved for all names; things that are not text, bytes or buffers raise TypeError, and to_bin_sha raises ValueError for what is not 20 long and spells nothing. Refuted: text of 20 characters is taken for binary, names of other lengths are converted, to_hex_sha returns anything that has length 40 and raises TypeError for other text (C99_unchecked_refuted)."
  },
  {
   "property": "C100",
   "status": "proved",
   "theorems": [
    "C100_object_file",
    "C100_given_size",
    "C100_header"
   ],
   "note": "For every byte string; compressed_bytes_read is not among the calls (it can run for ever, see C27 and C28). Python's recursion limit is not modelled: a deep recursion of read would end in RecursionError."
  },
  {
   "property": "C101",
   "status": "partial",
   "theorems": [
    "C101_every_limit_refuted",
    "C101_refuted",
    "C101_size_partial",
    "C101_stream_partial",
    "C101_whole_partial"
   ],
   "note": "Violated: for every limit there is a proper stream of an object of 30 bytes plus 5 for every 2 calls (2530 bytes for Python's default limit of 1000) whose reading raises RecursionError; without the limit it returns. Holds: as many calls as the announced size has bytes are enough for any bytes and any calls; for a proper stream one call for every 8 compressed bytes and two more (also with the header parsed from the stream, and with wrong sizes); for reading all at once one call and one for every 8 bytes the stream is longer than the content."
  },
  {
   "property": "C102",
   "status": "partial",
   "theorems": [
    "C102_object_lost_refuted",
    "C102_commit_lost_refuted",
    "C102_others_unharmed_partial"
   ],
   "note": "Violated: nothing calls fsync, so for every store of a new object that returned and every commit that changed the file there is a power failure that leaves an empty file; the object then counts as present, cannot be read and is never written again (C102_object_lost_refuted, C102_commit_lost_refuted). Proved: all other files are unharmed, and the object file has a first part of the complete object (C102_others_unharmed_partial). Directory changes are taken to survive; a simplification in favour of the code."
  },
  {
   "property": "C103",
   "status": "partial",
   "theorems": [
    "C103_listing_partial",
    "C103_stray_file_refuted",
    "C103_not_an_object_refuted"
   ],
   "note": "Holds if all files that look like objects (38 characters in a directory with 2 characters, anywhere below the root) are object files (C103_listing_partial; stores keep it so, C46_histories_are_tidy). Violated otherwise: one such file with a character that is not a hexadecimal digit makes size(), sha_iter() and every abbreviated look-up raise binascii.Error (C103_stray_file_refuted), and a file named with capital letters or lying deeper is listed although has_object is False for its name (C103_not_an_object_refuted)."
  },
  {
   "property": "C104",
   "status": "partial",
   "theorems": [
    "C104_plain_files_partial",
    "C104_odd_path_refuted",
    "C104_quoted_refuted",
    "C104_comment_refuted"
   ],
   "note": "Violated: paths that begin or end with white space or contain a character at which str.splitlines splits are never used (C104_odd_path_refuted), quoted lines are taken as they are (C104_quoted_refuted), a directory named like a comment line is used (C104_comment_refuted); each for all files of the kind. Proved for files without such lines, with comments if no directory is named like them; relative paths are C77."
  },
  {
   "property": "C105",
   "status": "partial",
   "theorems": [
    "C105_pack_lost_refuted",
    "C105_again_partial",
    "C105_others_unharmed_partial"
   ],
   "note": "Violated: create never synchronises its files. C105_pack_lost_refuted: after every creation that returned, a power failure may leave the pack empty, also if a pack of that name had been there before; then every query to a new PackedDB over the directory raises ValueError (an empty file cannot be mapped), so that the objects of all other packs are out of reach, too, although all other files are unharmed. What holds: creating the pack again repairs it (C105_again_partial), and wherever create stops and the power fails, every other file is as before or a temporary one, and the new files have first parts of what they should have (C105_others_unharmed_partial). Short writes are excluded (C64)."
  },
  {
   "property": "C106",
   "status": "partial",
   "theorems": [
    "C106_same_pack_partial",
    "C106_loose_partial",
    "C106_small_objects_kept",
    "C106_loose_read_back_partial",
    "C106_packed_partial",
    "C106_again_partial",
    "C106_truncated_refuted"
   ],
   "note": "Violated: C106_truncated_refuted: an object whose stream lacks its last bytes (C25) among the objects makes write_pack fail with AssertionError, whatever else is to be packed. What holds: if the streams, read in chunks, give the contents, pack and index are those of the contents in memory (C106_same_pack_partial, for every kind of reader); so for the loose objects that are read correctly (C106_loose_partial; small ones are: C106_small_objects_kept), and then the pack has them all and no others (C106_loose_read_back_partial); the same for objects of a pack (C106_packed_partial), and packing a written pack again gives the very same bytes if zlib's output is dense or not longer than the data (C106_again_partial)."
  },
  {
   "property": "C107",
   "status": "partial",
   "theorems": [
    "C107_close",
    "C107_result_refuted",
    "C107_left_open",
    "C107_no_other_bytes",
    "C107_after_close",
    "C107_after_close_any",
    "C107_small_object"
   ],
   "note": "Which reads still work after closing is characterised exactly (what is left of the first 8192 bytes of header and content, C107_after_close); the rest is ValueError for good.  Refuted part: close never returns True, although documented."
  },
  {
   "property": "C108",
   "status": "partial",
   "theorems": [
    "C108_stored_for_all",
    "C108_readable",
    "C108_foreign_refuted",
    "C108_foreign_error_refuted",
    "C108_private_window_refuted",
    "C108_has_but_bad_refuted",
    "C108_created_private_refuted",
    "C108_cannot_open_refuted",
    "C108_commit_for_all"
   ],
   "note": "Violated in three ways.  Storing an object whose file belongs to another user never succeeds; without other faults the result is the PermissionError of chmod (C108_foreign_refuted, C108_foreign_error_refuted).  Every store of a new object passes a state in which the file is there for its user only (C108_private_window_refuted), in which has_object is True for others but info and stream raise BadObject (C108_has_but_bad_refuted).  Both files of every pack made by create stay readable for their user only (C108_created_private_refuted, C108_cannot_open_refuted).  What holds: C108_stored_for_all, C108_readable, C108_commit_for_all."
  },
  {
   "property": "C109",
   "status": "partial",
   "theorems": [
    "C109_moved_partial",
    "C109_sizes",
    "C109_gap_refuted"
   ],
   "note": "Proved for every zlib and all contents if the sizes that LooseObjectDB.stream reports are right (C109_moved_partial), which they are for files of at most 8192 bytes and for zlib streams without gaps (C109_sizes). Refuted in general (C109_gap_refuted): for a valid loose file whose zlib stream has 16384 bytes of empty blocks between the digits of the size and the null byte, stream reports a wrong size, create packs a wrong content under the name of the object and succeeds."
  },
  {
   "property": "C110",
   "status": "partial",
   "theorems": [
    "C110_same_content",
    "C110_same_header",
    "C110_wrong_length_refuted",
    "C110_every_length_refuted",
    "C110_exact_length_partial",
    "C110_walk_refuted"
   ],
   "note": "The content half is proved for every zlib, input and sequence of operations (C110_same_content, C110_same_header).  The length half is false: with something behind the stream and all read at once the result is always larger than the length (C110_every_length_refuted, witness C110_wrong_length_refuted), so that no pack of two or more objects whose first is not empty and is copied in one piece can be walked (C110_walk_refuted).  It holds if nothing follows or unconsumed_tail is not empty in the end (C110_exact_length_partial)."
  },
  {
   "property": "C111",
   "status": "partial",
   "theorems": [
    "C111_same_content_partial",
    "C111_same_errors_partial",
    "C111_chain_partial",
    "C111_overlong_refuted"
   ],
   "note": "False as stated: a delta that produces more than it announces is a ValueError with a map, and without a map for the target it is an object with the first announced bytes, for every such delta (C111_overlong_refuted). Proved: what succeeds with maps succeeds without and shows the same, every error but ValueError is the same, every well-formed chain gives its object. MemoryError is not modelled."
  },
  {
   "property": "C112",
   "status": "partial",
   "theorems": [
    "C112_history_partial",
    "C112_answers_partial",
    "C112_missing_refuted"
   ],
   "note": "False as stated: once anything has been asked, a missing attribute raises AssertionError instead of AttributeError, because the deltas are applied again from streams that are at their end: for every chain and after every sequence of operations (C112_missing_refuted). Proved: the exact answers of every history (C112_history_partial), which are those of the object when no missing attribute is asked for (C112_answers_partial). The streams' positions after a failed application are simplified, see LazyDeltaModel.v; the theorems are about deltas that can be applied."
  },
  {
   "property": "C113",
   "status": "partial",
   "theorems": [
    "C113_pack_partial",
    "C113_index_partial",
    "C113_entity_partial",
    "C113_empty_entity_refuted",
    "C113_cut_entity_refuted",
    "C113_other_file_refuted",
    "C113_bad_index_refuted",
    "C113_reopened_refuted"
   ],
   "note": "Holds for a pack with the signature PACK, an index that opens, and an entity of both with at least one object, in every history (calls, questions, closes; after close the methods may raise AttributeError, as in C86). Refuted: the entity of an index without objects raises AssertionError; a file without the signature PACK raises ParseError and an index that does not open raises its own error, so hasattr raises; a closed PackFile is opened again by the question and its methods answer afterwards. The entity of an index that is cut within its offsets raises struct.error. The names _cursor and _packfile_checksum of PackIndexFile are no missing attributes."
  },
  {
   "property": "C114",
   "status": "partial",
   "theorems": [
    "C114_returns_partial",
    "C114_rewinds_partial",
    "C114_before_end_partial",
    "C114_every_closed_refuted",
    "C114_refuted"
   ],
   "note": "Violated: a stream that was read to its end and closed gives empty reads, but compressed_bytes_read raises ValueError there and leaves _br at 0, so that every later read raises as well (C114_refuted for an object file; C114_every_closed_refuted for every such state). What holds: if the call returns, later reads are the same, for every zlib and every state, open or closed (C114_returns_partial; with rewinds if the buffer is empty at the end, C114_rewinds_partial); before the end of the content it returns and changes nothing (C114_before_end_partial). What an exception leaves of an open stream is not modelled."
  }
 ]
}