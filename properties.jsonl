{"id": "C01", "title": "Pack object headers round-trip and delimit themselves", "statement": "Parsing the bytes produced by create_pack_object_header(type, size), followed by any other bytes, gives back exactly that type, that size and the header's own length as the data offset; the header consists of byte values.", "quantifier": "every type id 0..7, every non-negative size, every trailing byte string", "why_tests_cant": "sizes are unbounded and each group of 7 bits opens a new loop iteration; tests sample a few sizes", "anchors": ["gitdb/fun.py:create_pack_object_header", "gitdb/fun.py:pack_object_header_info"]}
{"id": "C02", "title": "Delta size varints decode exactly", "statement": "msb_size(data, offset) on the little-endian base-128 encoding of n placed at offset returns (offset + encoded length, n); when it returns normally, the bytes it consumed are an encoding of the returned value ending at the first byte without the high bit.", "quantifier": "every n, every offset, every surrounding byte string; every input on which it returns", "why_tests_cant": "unbounded integers and arbitrary positions", "anchors": ["gitdb/fun.py:msb_size"]}
{"id": "C03", "title": "An unterminated delta size is rejected with an exception, never with a value", "statement": "If no terminating byte follows, msb_size raises (AssertionError for offset 0, IndexError for a positive offset inside the data) and never returns a size.", "quantifier": "every data string and offset", "why_tests_cant": "absence of a value for all malformed inputs cannot be sampled", "anchors": ["gitdb/fun.py:msb_size"]}
{"id": "C04", "title": "OFS_DELTA base distances decode exactly and uniquely", "statement": "The base distance that PackFile.info/stream report for an OFS_DELTA entry is the inverse of git's offset encoding: every distance has an encoding that decodes to it, followed by any bytes, and two byte strings that decode to the same distance are equal.", "quantifier": "every distance >= 0 and every trailing byte string; every pair of encodings", "why_tests_cant": "the encoding adds one per continuation byte, so off-by-one errors only show at 128, 16512, 2113664, ...", "anchors": ["gitdb/pack.py:pack_object_at"]}
{"id": "C05", "title": "Loose object headers round-trip", "statement": "Parsing 'type SP size NUL' as produced by loose_object_header gives back the type and the size whatever content follows, for any type name without space or NUL.", "quantifier": "every type name without SP/NUL, every size >= 0, every content", "why_tests_cant": "decimal formatting/parsing over unbounded sizes and arbitrary following content", "anchors": ["gitdb/fun.py:loose_object_header", "gitdb/fun.py:loose_object_header_info", "gitdb/stream.py:DecompressMemMapReader._parse_header_info"]}
{"id": "C06", "title": "Delta application computes the delta's meaning", "statement": "For every sequence of copy/insert instructions that stays inside the source, running apply_delta_data on any encoding of it writes exactly the concatenation of the instructed pieces and returns normally.", "quantifier": "every source, every instruction list, every legal encoding of each copy (any subset of zero bytes omitted, size 0x10000 as 0)", "why_tests_cant": "2^7 opcode layouts times arbitrary operands and lists", "anchors": ["gitdb/fun.py:apply_delta_data"]}
{"id": "C07", "title": "Malformed deltas are never silently accepted", "statement": "apply_delta_data never returns normally unless the whole delta buffer parsed as instructions that all stay inside the source and all were executed.", "quantifier": "every source, source size and delta buffer", "why_tests_cant": "ranges over all byte strings; the violating case is an out-of-range copy in last position", "anchors": ["gitdb/fun.py:apply_delta_data"]}
{"id": "C08", "title": "A delta chain read through DeltaApplyReader is the composition of its deltas", "statement": "For a base object and any number of well-formed deltas each made against the previous result, read() returns exactly the result of applying the deltas in order, and size is its length; the buffer swapping and stale bytes of earlier intermediate results never leak into the result.", "quantifier": "every base, every chain length, every sequence of intermediate sizes (growing and shrinking)", "why_tests_cant": "stale-buffer leaks depend on the order of sizes along arbitrarily long chains", "anchors": ["gitdb/stream.py:DeltaApplyReader", "gitdb/stream.py:DeltaApplyReader._set_cache_brute_", "gitdb/fun.py:apply_delta_data"]}
{"id": "C09", "title": "Chunked reads of a resolved delta object are transparent", "statement": "Whatever sequence of read(n) calls is made on a DeltaApplyReader, the results concatenate to a prefix of the object, read(n) with n>=1 returns exactly min(n, remaining) bytes, read() with n<1 returns all the rest, and seek(0) restarts from the first byte.", "quantifier": "every sequence of reads and rewinds", "why_tests_cant": "unbounded histories of calls", "anchors": ["gitdb/stream.py:DeltaApplyReader.read", "gitdb/stream.py:DeltaApplyReader.seek"]}
{"id": "C10", "title": "A delta whose instructions produce fewer bytes than its header announces is rejected", "statement": "DeltaApplyReader never returns bytes that were not produced by the delta's instructions.", "quantifier": "every base, every delta", "why_tests_cant": "needs a statement over all malformed deltas; the implementation pads with buffer contents", "anchors": ["gitdb/stream.py:DeltaApplyReader._set_cache_brute_"]}
{"id": "C11", "title": "Reverse delta aggregation equals step-by-step application", "statement": "The chunk list built by connect_deltas from a chain of deltas (latest first), applied to the base, writes the same bytes as applying the deltas one after another, including when aggregation stops early because nothing refers to the base any more.", "quantifier": "every chain of well-formed deltas of any length, every base (under the interpreter semantics the routine was written for: one-character indexing, integer division)", "why_tests_cant": "the merge splits, truncates and re-bases chunks; boundary cases depend on arbitrary overlaps", "anchors": ["gitdb/fun.py:connect_deltas", "gitdb/fun.py:TopdownDeltaChunkList.connect_with_next_base", "gitdb/fun.py:delta_list_slice", "gitdb/fun.py:_closest_index", "gitdb/fun.py:DeltaChunkList.compress"]}
{"id": "C12", "title": "Slicing a delta chunk list is exact", "statement": "delta_list_slice(dcl, ofs, size) yields chunks that, applied to the same base, write exactly bytes [ofs, ofs+size) of what the whole list writes.", "quantifier": "every contiguous chunk list, every range inside it", "why_tests_cant": "the range may start and end anywhere relative to arbitrarily many chunk boundaries", "anchors": ["gitdb/fun.py:delta_list_slice", "gitdb/fun.py:_closest_index"]}
{"id": "C13", "title": "Reverse delta aggregation works on the supported interpreter", "statement": "connect_deltas returns a chunk list for every well-formed delta stream on Python 3, the only supported interpreter family.", "quantifier": "every non-empty delta stream on Python 3", "why_tests_cant": "the path is switched off without the C extension so no test runs it", "anchors": ["gitdb/fun.py:connect_deltas", "gitdb/fun.py:_closest_index", "gitdb/fun.py:DeltaChunkList.compress"]}
{"id": "C14", "title": "A written pack index reads back exactly", "statement": "After IndexWriter.append of any entries and write, PackIndexFile on the produced bytes reports version 2, the number of entries, and, in sha order, each entry's sha, crc (mod 2^32) and offset, including offsets of 2^31 and more; packfile_checksum and indexfile_checksum are the given pack sha and the hash of everything before it.", "quantifier": "every list of entries with 20-byte shas and offsets below 2^64, in any order, of any length below 2^32 with at most 2^31 large offsets", "why_tests_cant": "fanout, four parallel tables and the 64-bit escape interact for arbitrary sizes; test_pack_64 is skipped upstream", "anchors": ["gitdb/pack.py:IndexWriter", "gitdb/pack.py:PackIndexFile"]}
{"id": "C15", "title": "Index lookup by full sha is sound and complete", "statement": "sha_to_index(sha) returns an index whose sha is the given one whenever the index contains it, and None otherwise, for version 1 and version 2 index files.", "quantifier": "every sorted index file content with a correct fanout (v1 and v2), every 20-byte sha; soundness for every file content at all", "why_tests_cant": "bisection errors show only for particular positions and counts per fanout bucket", "anchors": ["gitdb/pack.py:PackIndexFile.sha_to_index", "gitdb/pack.py:PackIndexFile._read_fanout"]}
{"id": "C16", "title": "Lookup always terminates", "statement": "sha_to_index and partial_sha_to_index terminate on every index content, well-formed or not.", "quantifier": "every fanout table and every sha list", "why_tests_cant": "termination on all malformed inputs", "anchors": ["gitdb/pack.py:PackIndexFile.sha_to_index", "gitdb/pack.py:PackIndexFile.partial_sha_to_index"]}
{"id": "C17", "title": "PackIndexFile.offsets() agrees with offset(i)", "statement": "offsets() contains, for every index i, the same pack offset that offset(i) returns.", "quantifier": "every version 1 and version 2 index", "why_tests_cant": "needs packs over 2 GiB; the test for it is skipped upstream", "anchors": ["gitdb/pack.py:PackIndexFile.offsets", "gitdb/pack.py:PackIndexFile.offset"]}
{"id": "C18", "title": "Abbreviated shas resolve to a matching object when one exists", "statement": "partial_sha_to_index returns the first index whose hex sha starts with the given hex prefix, and None exactly when no sha in the index starts with it.", "quantifier": "every well-formed index, every hex prefix of 4 to 40 digits (2 bytes and more), odd and even", "why_tests_cant": "odd-length prefixes and fanout bucket edges interact with bisection for arbitrary contents", "anchors": ["gitdb/pack.py:PackIndexFile.partial_sha_to_index", "gitdb/fun.py:is_equal_canonical_sha"]}
{"id": "C19", "title": "Ambiguous abbreviated shas are reported inside one pack", "statement": "partial_sha_to_index raises AmbiguousObjectName whenever two different shas of the index start with the prefix.", "quantifier": "every index and prefix", "why_tests_cant": "quantifies over all indices with colliding prefixes; fixtures contain none", "anchors": ["gitdb/pack.py:PackIndexFile.partial_sha_to_index", "gitdb/db/pack.py:PackedDB.partial_to_complete_sha"]}
{"id": "C20", "title": "Canonical sha comparison is hex-prefix comparison", "statement": "is_equal_canonical_sha(n, match, sha), with match the (zero padded) binary form of an n-digit hex prefix, is true exactly when the 40-digit hex form of sha starts with that prefix.", "quantifier": "every prefix length 1..40, every prefix, every sha", "why_tests_cant": "16^40 inputs; nibble handling differs for odd lengths", "anchors": ["gitdb/fun.py:is_equal_canonical_sha"]}
{"id": "C21", "title": "The decompressing reader never skips, repeats or invents bytes", "statement": "Whatever sequence of read calls is made on a DecompressMemMapReader over a valid zlib stream, with anything following the stream in the file, each call returns the content bytes immediately following those returned before.", "quantifier": "every content, every compressed form, every trailing data, every sequence of read sizes, every way zlib may split its work", "why_tests_cant": "window arithmetic over arbitrary compression ratios; upstream comments call it convoluted", "anchors": ["gitdb/stream.py:DecompressMemMapReader.read"]}
{"id": "C22", "title": "read(n) on a pack object stream returns n bytes until the end", "statement": "On a reader created with a known size, read(n) returns exactly min(n, remaining) bytes and read() all the remaining bytes.", "quantifier": "every content and read size, for every stream on which any 8 compressed bytes yield output", "why_tests_cant": "depends on how output is distributed over compressed bytes", "anchors": ["gitdb/stream.py:DecompressMemMapReader.read"]}
{"id": "C23", "title": "A short or empty read means end of stream", "statement": "read(n) with n>=1 never returns an empty byte string while bytes remain.", "quantifier": "every content, every valid zlib stream", "why_tests_cant": "needs streams whose first bytes produce no output (block headers), at arbitrary positions", "anchors": ["gitdb/stream.py:DecompressMemMapReader.read"]}
{"id": "C24", "title": "read(n) on an object stream never returns more than n bytes", "statement": "On a stream returned by LooseObjectDB.stream or MemoryDB.stream, read(n) with n>=1 returns at most n bytes.", "quantifier": "every object, every n, every zlib stream", "why_tests_cant": "needs content whose compressed form is longer than the content", "anchors": ["gitdb/stream.py:DecompressMemMapReader.read", "gitdb/stream.py:DecompressMemMapReader._parse_header_info"]}
{"id": "C25", "title": "read() on an object stream returns the whole object", "statement": "On a stream freshly returned by LooseObjectDB.stream, read() returns all size bytes.", "quantifier": "every object, every zlib stream", "why_tests_cant": "violations need many incompressible blocks; tests use at most 1 MB of compressible data", "anchors": ["gitdb/stream.py:DecompressMemMapReader.read", "gitdb/stream.py:DecompressMemMapReader._parse_header_info"]}
{"id": "C26", "title": "seek(0) rewinds", "statement": "After any sequence of reads, seek(0) makes the stream deliver the object from its first byte again.", "quantifier": "every object, every history of reads before the rewind", "why_tests_cant": "depends on how much of the object had been read, at any point", "anchors": ["gitdb/stream.py:DecompressMemMapReader.seek", "gitdb/stream.py:DecompressMemMapReader._parse_header_info"]}
{"id": "C27", "title": "compressed_bytes_read gives the exact compressed length", "statement": "Once a non-empty object has been read completely, compressed_bytes_read() terminates and returns exactly the length of its zlib stream, whatever follows it in the file.", "quantifier": "every content of at least one byte, every compressed form, every following data, every read history", "why_tests_cant": "the end of the compressed stream can fall anywhere relative to the feeding windows", "anchors": ["gitdb/stream.py:DecompressMemMapReader.compressed_bytes_read"]}
{"id": "C28", "title": "Iterating a pack terminates and yields every object", "statement": "PackFile.stream_iter on a pack written by PackEntity.write_pack yields exactly the written objects in order (type, size, content, offset) and terminates.", "quantifier": "every list of objects", "why_tests_cant": "objects of every size including empty ones, in every order", "anchors": ["gitdb/pack.py:PackFile._iter_objects", "gitdb/pack.py:PackFile.stream_iter", "gitdb/stream.py:DecompressMemMapReader.compressed_bytes_read"]}
{"id": "C29", "title": "Objects written with write_pack can be read back by sha", "statement": "For every list of objects with distinct shas, the pack and index produced by write_pack let PackEntity.info and PackEntity.stream return, for each sha, the object's type, size and content; other shas raise BadObject.", "quantifier": "every list of objects, every chunking of the input streams that delivers full chunks", "why_tests_cant": "end-to-end composition of five codecs over arbitrary lists", "anchors": ["gitdb/pack.py:PackEntity.write_pack", "gitdb/pack.py:write_stream_to_pack", "gitdb/pack.py:PackEntity._object", "gitdb/pack.py:IndexWriter", "gitdb/pack.py:PackIndexFile"]}
{"id": "C30", "title": "write_pack checks what it writes", "statement": "write_pack raises if an object's stream does not deliver exactly its declared size, or if fewer objects than object_count arrive; otherwise the header count equals the number of entries written.", "quantifier": "every object list, declared size, object_count and stream", "why_tests_cant": "all mismatches between declarations and streams", "anchors": ["gitdb/pack.py:PackEntity.write_pack", "gitdb/pack.py:write_stream_to_pack"]}
{"id": "C31", "title": "CRC verification accepts every intact object of a fresh pack", "statement": "For a pack below 2 GiB written by write_pack, is_valid_stream(sha, use_crc=True) is true for every written object.", "quantifier": "every list of objects with distinct shas", "why_tests_cant": "the crc is chained over header and compressed chunks and re-read over offset ranges computed from the sorted index", "anchors": ["gitdb/pack.py:PackEntity.is_valid_stream", "gitdb/pack.py:write_stream_to_pack", "gitdb/pack.py:PackEntity._set_cache_"]}
{"id": "C32", "title": "CRC verification detects any single corrupted byte", "statement": "If exactly one byte of an object's packed data is changed, is_valid_stream(sha, use_crc=True) is false.", "quantifier": "every packed data, every position, every wrong byte value", "why_tests_cant": "all positions times all values over unbounded data", "anchors": ["gitdb/pack.py:PackEntity.is_valid_stream"]}
{"id": "C33", "title": "SHA verification is sound", "statement": "is_valid_stream(sha) returns True only if the hash of the resolved object in loose format equals sha, and raises otherwise; it never returns False.", "quantifier": "every pack and sha", "why_tests_cant": "all corrupt packs", "anchors": ["gitdb/pack.py:PackEntity.is_valid_stream", "gitdb/fun.py:write_object"]}
{"id": "C34", "title": "Collecting a delta chain terminates", "statement": "PackFile.collect_streams terminates on every pack, in particular for every chain of OFS_DELTA entries.", "quantifier": "every pack content and offset", "why_tests_cant": "cyclic or self-referential entries are never produced by git", "anchors": ["gitdb/pack.py:PackFile.collect_streams"]}
{"id": "C35", "title": "Delta bases are resolved to the right object", "statement": "PackEntity.collect_streams follows OFS_DELTA entries to pack_offset - delta_info and REF_DELTA entries to the object with that sha, in any mixture, until a non-delta object or an unknown sha.", "quantifier": "every pack with every mixture of OFS and REF deltas", "why_tests_cant": "mixtures of the two kinds in every order", "anchors": ["gitdb/pack.py:PackEntity.collect_streams_at_offset", "gitdb/pack.py:PackFile.collect_streams"]}
{"id": "C36", "title": "MemoryDB returns what was stored", "statement": "After any sequence of stores and of complete or no reads, stream(sha) of each stored object delivers its type, size and content, has_object is true exactly for stored shas, size() is the number of distinct shas, and unknown shas raise BadObject.", "quantifier": "every sequence of operations, every content", "why_tests_cant": "unbounded histories", "anchors": ["gitdb/db/mem.py:MemoryDB"]}
{"id": "C37", "title": "Streams handed out by MemoryDB are independent of earlier partial reads", "statement": "stream(sha) delivers the whole object even if an earlier stream of the same object was only partly read.", "quantifier": "every object and every partial read", "why_tests_cant": "depends on the content left unread containing a space or NUL", "anchors": ["gitdb/db/mem.py:MemoryDB.stream", "gitdb/stream.py:DecompressMemMapReader.seek"]}
{"id": "C38", "title": "LooseObjectDB is a content-addressed store", "statement": "store returns the hash of 'type size NUL content' as binsha, after which has_object is true and info/stream return the type, size and content; objects stored before are still returned unchanged, whatever is stored later.", "quantifier": "every history of stores (without hash collisions), every content", "why_tests_cant": "unbounded histories and contents", "anchors": ["gitdb/db/loose.py:LooseObjectDB.store", "gitdb/db/loose.py:LooseObjectDB.stream", "gitdb/db/loose.py:LooseObjectDB.info", "gitdb/db/loose.py:LooseObjectDB.has_object"]}
{"id": "C39", "title": "store never overwrites or changes an existing object file", "statement": "If an object file exists, store leaves its bytes untouched.", "quantifier": "every database state and every stored object", "why_tests_cant": "all states", "anchors": ["gitdb/db/loose.py:LooseObjectDB.store"]}
{"id": "C40", "title": "store is atomic under process crashes", "statement": "If the process stops at any point inside store, every object file in the database is complete: a previously present file is unchanged and a new one has all its bytes; at most a temporary file is left, which no query reports.", "quantifier": "every crash point, every content and chunking", "why_tests_cant": "every crash point between system calls", "anchors": ["gitdb/db/loose.py:LooseObjectDB.store"]}
{"id": "C41", "title": "A short write is reported", "statement": "If the operating system accepts fewer bytes than offered for any write, store raises, leaves no object file and removes its temporary file.", "quantifier": "every schedule of write results, with and without a preset sha", "why_tests_cant": "requires injecting short writes at every position", "anchors": ["gitdb/db/loose.py:LooseObjectDB.store", "gitdb/stream.py:FDCompressedSha1Writer.write", "gitdb/stream.py:FDStream.write"]}
{"id": "C42", "title": "An object whose stream is shorter than its declared size is rejected", "statement": "store raises if the input stream ends before size bytes.", "quantifier": "every size and stream", "why_tests_cant": "all mismatches", "anchors": ["gitdb/fun.py:write_object", "gitdb/fun.py:stream_copy", "gitdb/db/loose.py:LooseObjectDB.store"]}
{"id": "C43", "title": "stream_copy copies exactly the requested bytes", "statement": "stream_copy(read, write, size, chunk) passes to write exactly the first min(size, available) bytes, for every chunk size, whenever read(n) delivers n bytes unless the source is exhausted.", "quantifier": "every source, size >= 0 and chunk size >= 1", "why_tests_cant": "boundary behaviour at every multiple of the chunk size", "anchors": ["gitdb/fun.py:stream_copy"]}
{"id": "C44", "title": "Short reads do not truncate a copy", "statement": "stream_copy copies size bytes from any source that eventually delivers them, even if it returns them in smaller pieces than asked for.", "quantifier": "every legal way of splitting the source's data", "why_tests_cant": "all splittings", "anchors": ["gitdb/fun.py:stream_copy"]}
{"id": "C45", "title": "has_object and stream agree", "statement": "In LooseObjectDB, whenever has_object(sha) is true, stream(sha) finds the object.", "quantifier": "every history of stores, queries and removals of files by other programs", "why_tests_cant": "needs interleavings with another program removing files", "anchors": ["gitdb/db/loose.py:LooseObjectDB.has_object", "gitdb/db/loose.py:LooseObjectDB.readable_db_object_path", "gitdb/db/loose.py:LooseObjectDB.stream"]}
{"id": "C46", "title": "Abbreviated names resolve exactly in LooseObjectDB", "statement": "partial_to_complete_sha_hex returns the only object whose hex sha starts with the prefix, raises BadObject if there is none and AmbiguousObjectName if there are several.", "quantifier": "every set of objects and every prefix", "why_tests_cant": "all sets and prefixes", "anchors": ["gitdb/db/loose.py:LooseObjectDB.partial_to_complete_sha_hex"]}
{"id": "C47", "title": "PackedDB answers do not depend on query history", "statement": "Whatever queries were made before, has_object(sha) is true exactly if one of the packs contains sha, and info/stream are answered from a pack containing it; re-sorting by hit counts never loses or duplicates a pack.", "quantifier": "every sequence of queries, every set of packs", "why_tests_cant": "the order changes every 500 hits as a function of the whole history", "anchors": ["gitdb/db/pack.py:PackedDB._pack_info", "gitdb/db/pack.py:PackedDB._sort_entities"]}
{"id": "C48", "title": "PackedDB.update_cache(force=True) makes the pack list match the directory", "statement": "After update_cache(force=True) the entities are exactly the pack-*.pack files present, each once; packs already known keep their entity.", "quantifier": "every previous list and every directory content", "why_tests_cant": "all pairs of states", "anchors": ["gitdb/db/pack.py:PackedDB.update_cache"]}
{"id": "C49", "title": "PackedDB.update_cache notices every change", "statement": "update_cache() without force picks up packs added since the last update.", "quantifier": "every timing of the additions relative to the directory's timestamp", "why_tests_cant": "needs changes within one timestamp tick", "anchors": ["gitdb/db/pack.py:PackedDB.update_cache"]}
{"id": "C50", "title": "CompoundDB finds an object iff a member has it", "statement": "has_object(sha) is true iff some member database has it; info/stream come from the first member that had it; queries in any order do not change the answers while the members do not change.", "quantifier": "every list of members, every query history", "why_tests_cant": "the cache makes answers depend on history", "anchors": ["gitdb/db/base.py:CompoundDB._db_query", "gitdb/db/base.py:CompoundDB.has_object"]}
{"id": "C51", "title": "A cached lookup does not hide an object that moved", "statement": "If an object is removed from one member and present in another (as after repacking), CompoundDB.info/stream still find it.", "quantifier": "every history of queries and moves", "why_tests_cant": "needs repacking between two queries", "anchors": ["gitdb/db/base.py:CompoundDB._db_query"]}
{"id": "C52", "title": "Abbreviated names across databases", "statement": "CompoundDB.partial_to_complete_sha_hex returns a sha iff the members' answers contain exactly one distinct sha, AmbiguousObjectName if they contain several or a member reports ambiguity, BadObject if none.", "quantifier": "every tree of member databases, every prefix", "why_tests_cant": "all combinations of answers", "anchors": ["gitdb/db/base.py:CompoundDB.partial_to_complete_sha_hex", "gitdb/db/base.py:_databases_recursive"]}
{"id": "C53", "title": "Alternates are searched transitively", "statement": "For repositories whose alternates do not form a cycle, GitDB.has_object(sha) is true iff the object is in the repository or in one reachable through alternates files, and the query terminates.", "quantifier": "every finite acyclic graph of repositories", "why_tests_cant": "graphs of any depth and shape", "anchors": ["gitdb/db/git.py:GitDB._set_cache_", "gitdb/db/ref.py:ReferenceDB._update_dbs_from_ref_file", "gitdb/db/base.py:CompoundDB.has_object"]}
{"id": "C54", "title": "Cyclic alternates are tolerated", "statement": "Looking up a missing object terminates even if alternates files refer to each other.", "quantifier": "every finite graph of repositories", "why_tests_cant": "needs cyclic configurations", "anchors": ["gitdb/db/git.py:GitDB._set_cache_", "gitdb/db/ref.py:ReferenceDB._update_dbs_from_ref_file"]}
{"id": "C55", "title": "ReferenceDB follows its alternates file", "statement": "After update_cache the databases are those of the listed paths that are usable, each once; databases whose path stays listed are kept, others removed, new ones appended in file order.", "quantifier": "every previous state and every file content", "why_tests_cant": "all pairs of states, including duplicates in the file", "anchors": ["gitdb/db/ref.py:ReferenceDB._update_dbs_from_ref_file"]}
{"id": "C56", "title": "LockedFD gives mutual exclusion", "statement": "Among any number of LockedFD instances on the same file, in any interleaving of their system calls, at most one has the file open between a successful open and the following commit or rollback.", "quantifier": "every number of processes, every interleaving", "why_tests_cant": "all schedules", "anchors": ["gitdb/util.py:LockedFD"]}
{"id": "C57", "title": "LockedFD commits atomically and rolls back completely", "statement": "The file's content changes only by commit, and then to exactly what was written; after rollback or an exception it is unchanged; after either the lock file is gone; both can be repeated without effect.", "quantifier": "every interleaving and every crash point (POSIX)", "why_tests_cant": "all schedules and crash points", "anchors": ["gitdb/util.py:LockedFD._end_writing"]}
{"id": "C58", "title": "LockedFD commits atomically on Windows", "statement": "The same holds with the Windows code path: at no crash point is the file missing.", "quantifier": "every crash point of commit", "why_tests_cant": "crash points between two system calls on one platform", "anchors": ["gitdb/util.py:LockedFD._end_writing"]}
{"id": "C59", "title": "Hex and binary shas convert losslessly", "statement": "to_bin_sha(to_hex_sha(b)) = b for every 20-byte b, to_hex_sha(to_bin_sha(h)) = h for every lower-case 40-digit h, and both are the identity on values already in the target form.", "quantifier": "all 2^160 shas", "why_tests_cant": "domain size", "anchors": ["gitdb/util.py:to_hex_sha", "gitdb/util.py:to_bin_sha"]}
{"id": "C60", "title": "Type names and pack type ids are inverse", "statement": "For each object type a pack can contain, mapping its id to the name and back gives the same id; OInfo.type_id and OPackInfo.type agree.", "quantifier": "all type ids", "why_tests_cant": "finite; settled by proof for all entries together with their use in write_pack", "anchors": ["gitdb/fun.py:type_id_to_type_map", "gitdb/fun.py:type_to_type_id_map", "gitdb/base.py:OInfo.type_id", "gitdb/base.py:OPackInfo.type"]}
{"id": "C61", "title": "The in operator works on databases", "statement": "sha in db is true iff db.has_object(sha).", "quantifier": "every database and sha", "why_tests_cant": "holds or fails for all inputs alike", "anchors": ["gitdb/db/base.py:ObjectDBR.__contains__"]}
{"id": "C62", "title": "MemoryDB.stream_copy transfers objects", "statement": "stream_copy(shas, LooseObjectDB) makes every listed object available in the target with the same type and content, leaves existing ones alone and returns the number actually copied; repeating it copies nothing.", "quantifier": "every set of stored objects, every list of shas, every target state", "why_tests_cant": "all combinations of already present objects and repetitions", "anchors": ["gitdb/db/mem.py:MemoryDB.stream_copy", "gitdb/db/loose.py:LooseObjectDB.store"]}
{"id": "C63", "title": "Objects can be copied between MemoryDBs", "statement": "MemoryDB.stream_copy(shas, other MemoryDB) makes the objects readable in the other database.", "quantifier": "every object", "why_tests_cant": "needs the direct-copy path against a compressing target", "anchors": ["gitdb/db/mem.py:MemoryDB.stream_copy", "gitdb/db/mem.py:MemoryDB.store"]}
{"id": "C64", "title": "PackEntity.create publishes a usable pack atomically", "statement": "At every point during create, a reader that scans the directory sees either no new pack or a pack with its index; file names are pack-<hex sha>.pack/.idx.", "quantifier": "every crash or scheduling point, every pack", "why_tests_cant": "needs a reader between two system calls", "anchors": ["gitdb/pack.py:PackEntity.create", "gitdb/db/pack.py:PackedDB.update_cache"]}
{"id": "C65", "title": "is_loose_object recognises zlib headers", "statement": "is_loose_object(m) is true iff the first two bytes form a zlib header (0x78 and a multiple of 31).", "quantifier": "every byte string of at least two bytes", "why_tests_cant": "all inputs", "anchors": ["gitdb/fun.py:is_loose_object"]}
{"id": "C66", "title": "Object stores do not lose an earlier object when re-storing an input stream", "statement": "Storing the IStream returned by one database's store into another database yields a readable object there.", "quantifier": "every object", "why_tests_cant": "needs the sha-preset path with an uncompressed or exhausted stream", "anchors": ["gitdb/db/loose.py:LooseObjectDB.store", "gitdb/base.py:IStream"]}
{"id": "C67", "title": "A delta made against a source of another size is rejected", "statement": "Resolving a delta whose header announces a source size different from the size of the object it is applied to fails instead of yielding an object.", "quantifier": "every base, every delta header", "why_tests_cant": "ranges over all mismatching sizes; the check is only described in a comment", "anchors": ["gitdb/stream.py:DeltaApplyReader._set_cache_brute_"]}
{"id": "C68", "title": "The header peek returns the type and size of a loose object", "statement": "loose_object_header_info on the mapped file returns the type and size stored in the object header, whatever follows the zlib stream in the map.", "quantifier": "every type without space or NUL, every content, every compressed form, every trailing data", "why_tests_cant": "the header may be split over any number of deflate blocks and the number of compressed bytes needed is unbounded", "anchors": ["gitdb/fun.py:loose_object_header_info"]}
{"id": "C69", "title": "Delta objects in a pack are resolved to their content", "statement": "For an object stored as a chain of deltas, PackEntity.info and PackEntity.stream return the type of the base object, the size announced by the newest delta and the content obtained by applying the deltas in order to the base.", "quantifier": "every pack, index, chain length and mixture of OFS and REF deltas", "why_tests_cant": "the chains are unbounded in length and the content depends on the composition of all deltas", "anchors": ["gitdb/pack.py:PackEntity._object", "gitdb/pack.py:PackEntity.collect_streams_at_offset", "gitdb/stream.py:DeltaApplyReader.new"]}
{"id": "C70", "title": "Queries by sha terminate on every pack", "statement": "PackEntity.info, stream and collect_streams terminate (with a result or an exception) for every sha, also when REF_DELTA entries name each other as bases.", "quantifier": "every pack and index", "why_tests_cant": "a hang cannot be observed by a test that has to end", "anchors": ["gitdb/pack.py:PackEntity.collect_streams_at_offset"]}
{"id": "C71", "title": "A delta whose base is missing is not turned into an object", "statement": "If the chain of deltas of an object ends in a REF_DELTA whose base is not in the pack, stream raises and info does not return.", "quantifier": "every pack, index and chain of deltas", "why_tests_cant": "chains are unbounded", "anchors": ["gitdb/pack.py:PackEntity._object", "gitdb/stream.py:DeltaApplyReader.new"]}
{"id": "C72", "title": "Concurrent stores into one database", "statement": "When several processes store objects into the same loose object directory at the same time, in any interleaving and with any of them crashing, every file is afterwards as before, a temporary file, or a complete object file of one of the stores; no file that was there disappears; and after a store has succeeded its object file is there.", "quantifier": "every number of processes, every interleaving, every crash and fault pattern", "why_tests_cant": "the number of interleavings is unbounded and the races are rarely hit", "anchors": ["gitdb/db/loose.py:176-251"]}
{"id": "C73", "title": "While a LockedFD instance has the file open nobody else changes it", "statement": "Between a successful open of one LockedFD instance and its commit or rollback, no step of any other instance on the same file changes the file's content or removes it (also on Windows).", "quantifier": "every number of processes, every interleaving, every failure of system calls", "why_tests_cant": "all schedules", "anchors": ["gitdb/util.py:LockedFD"]}
{"id": "C74", "title": "A pack without a usable index does not disturb lookups in the other packs", "statement": "PackedDB.has_object(sha) is true for an object contained in a complete pack, whatever other pack files (for example without an index file) are in the directory and whatever was queried before.", "quantifier": "every directory, every query history", "why_tests_cant": "the outcome depends on the order the hit counters put the packs in", "anchors": ["gitdb/db/pack.py:PackedDB._pack_info", "gitdb/db/pack.py:PackedDB.update_cache", "gitdb/pack.py:PackIndexFile.sha_to_index"]}
{"id": "C75", "title": "A failed update is not taken for a completed one", "statement": "If opening one of the pack files raised an exception while the list of packs was loaded, later queries either raise again or answer according to the packs present; they do not report objects of the other packs as missing.", "quantifier": "every directory, every sequence of calls", "why_tests_cant": "needs a damaged pack and repeated queries", "anchors": ["gitdb/db/pack.py:PackedDB._set_cache_", "gitdb/db/pack.py:PackedDB.update_cache"]}
{"id": "C76", "title": "After a forced update a GitDB answers like one just opened", "statement": "After update_cache(force=True) all queries of a GitDB answer according to what is on disk at that time, whatever was queried before.", "quantifier": "every previous history, every change on disk", "why_tests_cant": "needs a change of the directory layout between queries", "anchors": ["gitdb/db/git.py:GitDB._set_cache_", "gitdb/db/base.py:CompoundDB.update_cache", "gitdb/db/ref.py:ReferenceDB.update_cache"]}
{"id": "C77", "title": "Relative alternates are relative to the objects directory", "statement": "A relative path in objects/info/alternates refers, as for git, to a directory relative to the objects directory, whatever the current directory of the process is.", "quantifier": "every alternates file, every current directory", "why_tests_cant": "tests run with one current directory and absolute paths", "anchors": ["gitdb/db/ref.py:ReferenceDB._update_dbs_from_ref_file"]}
{"id": "C78", "title": "An invalid root is always reported", "statement": "Every use of a GitDB whose directory does not exist raises InvalidDBRoot.", "quantifier": "every sequence of calls", "why_tests_cant": "needs a second call after the exception", "anchors": ["gitdb/db/git.py:GitDB._set_cache_", "gitdb/util.py:LazyMixin.__getattr__"]}
{"id": "C79", "title": "sha_iter, size and has_object of a GitDB agree", "statement": "On acyclic alternates sha_iter lists exactly the names has_object reports, and size is the number of names listed.", "quantifier": "every finite acyclic graph of repositories, every history", "why_tests_cant": "graphs of any shape with shared objects", "anchors": ["gitdb/db/base.py:CompoundDB.sha_iter", "gitdb/db/base.py:CompoundDB.size", "gitdb/db/base.py:CompoundDB.has_object"]}
{"id": "C80", "title": "PackEntity.create leaves nothing behind when it fails", "statement": "When create raises, no file it made is left and no file that was there has changed.", "quantifier": "every object list, every failing call", "why_tests_cant": "needs every failure point", "anchors": ["gitdb/pack.py:PackEntity.create"]}
{"id": "C81", "title": "A created pack is found by a PackedDB over the directory", "statement": "After create has returned, a PackedDB opened on the directory reports exactly the objects of the packs that were there and of the new pack, and delivers type, size and content of the new objects.", "quantifier": "every list of objects with distinct names, every directory of packs, every zlib", "why_tests_cant": "end to end over all inputs", "anchors": ["gitdb/pack.py:PackEntity.create", "gitdb/db/pack.py:PackedDB"]}
{"id": "C82", "title": "Going through a pack by its index yields every object once, in name order", "statement": "PackEntity.info_iter and stream_iter yield, for each name in the index in order, what info(sha) and stream(sha) answer for that name, up to the first exception; for a pack written by write_pack every written object is yielded exactly once with its type, size and content.", "quantifier": "for all index files with strictly sorted names, all pack contents (valid or not), all lists of written objects with distinct names", "why_tests_cant": "tests iterate over a few fixture packs; order, completeness and agreement with queries by name for arbitrary packs need a proof", "anchors": ["gitdb/pack.py:709-715", "gitdb/pack.py:717-763", "gitdb/pack.py:851-863"]}
{"id": "C83", "title": "The checksums and counts of a written pack and its index agree", "statement": "Whenever write_pack succeeds, the pack has version 2 and the announced object count, ends with the sha of everything before it, PackFile.checksum, the returned sha and PackIndexFile.packfile_checksum are that sha, PackIndexFile.indexfile_checksum is the returned index sha and the sha of everything before it, and the index has as many entries as the pack has objects.", "quantifier": "for all lists of objects, streams, compression levels, object counts, hash functions and zlib implementations", "why_tests_cant": "tests compare checksums of a few packs; agreement of six values computed in different places for all inputs is a universal statement", "anchors": ["gitdb/pack.py:187-241", "gitdb/pack.py:392-402", "gitdb/pack.py:533-542", "gitdb/pack.py:567-586", "gitdb/pack.py:915-1004"]}
{"id": "C84", "title": "Objects stored while an output stream is set go to that stream under their own name", "statement": "While an output stream is set with set_ostream, LooseObjectDB.store writes header and content of each object to it, touches no file of the database and returns the sha of that object's header and content; every stream that set_ostream accepts can be stored to.", "quantifier": "for all objects, input streams, histories of stores through one stream, writer classes, zlib implementations and hash functions", "why_tests_cant": "tests store one object through a fresh writer; reuse of the writer and the other writer classes are not covered", "anchors": ["gitdb/db/base.py:70-93", "gitdb/db/loose.py:148-152", "gitdb/db/loose.py:176-251", "gitdb/stream.py:556-637"]}
{"id": "C85", "title": "Readers never see unfinished loose objects", "statement": "While any number of processes store objects into a LooseObjectDB, info(sha) and stream(sha) of another process give the data of a complete object with that name or raise BadObject; they raise BadObject only if the object was not there when the call began. has_object is true only for an object that is there when the call returns, false only for one that was not there when it began. An object whose store has returned is there.", "quantifier": "All numbers of storing processes, all interleavings of their system calls with those of the reader, all objects, all crashes of storing processes.", "why_tests_cant": "The window between opening and mapping the file, or between writing and renaming, is a few microseconds; a test cannot enumerate interleavings.", "anchors": ["gitdb/db/loose.py:92-106", "gitdb/db/loose.py:128-174", "gitdb/db/loose.py:176-251", "gitdb/util.py:165-202"]}
{"id": "C86", "title": "Lazily loaded pack objects answer the same at any time", "statement": "PackFile, PackIndexFile and PackEntity load their data on first use. In whatever order their methods are called, and also after calls that failed, each call answers as if it were the first one on a new object (after close it may raise AttributeError instead). In particular a file that is no pack, or an index of unknown version, is rejected by every call.", "quantifier": "for all file contents, all histories of method calls including failing ones and close, all zlib implementations and hash functions", "why_tests_cant": "tests open good files and call a few methods in one order; what an object answers after a failed call or in other orders is not covered", "anchors": ["gitdb/pack.py:244-302", "gitdb/pack.py:500-560", "gitdb/pack.py:640-720", "gitdb/util.py:232-265"]}
{"id": "C87", "title": "PackedDB asks the packs with most hits first", "statement": "A query of PackedDB goes through the packs in the order of the entity list and is answered by the first pack whose index has the object; it increases the counter of that pack and the number of answered queries by one and changes no other counter; a query without result changes none. Whenever the number of answered queries is a multiple of 500, and after each update of the list, the packs are in descending order of their counters, packs with equal counters keeping their order. The counter of a newly found pack is its number of objects.", "quantifier": "for all directory contents, states of the list and the counters, and queries", "why_tests_cant": "tests only look at whether objects are found; the order needs hundreds of queries and is not observed", "anchors": ["gitdb/db/pack.py:43-58", "gitdb/db/pack.py:60-85", "gitdb/db/pack.py:132-175"]}
{"id": "C88", "title": "Objects stored through a GitDB are in its own objects directory and are found at once", "statement": "GitDB.store(istream) stores into the loose objects of the GitDB's own objects directory, never into an alternate, whatever the database was asked before. From then on has_object, info and sha_iter of that GitDB know the object, although it keeps caches of its members and of earlier answers, and while others store into the same repository or its alternates. At a path that is no directory store raises InvalidDBRoot and writes nothing.", "quantifier": "for all repositories with acyclic alternates, all histories of calls and stores including failed and interrupted ones, all objects, hash functions and zlib implementations", "why_tests_cant": "tests store a few objects into an empty repository and read them back; the combination of caches, alternates and stores by others is not covered", "anchors": ["gitdb/db/git.py:44-83", "gitdb/db/base.py:150-240", "gitdb/db/loose.py:128-251"]}
{"id": "C89", "title": "Delta chunk lists measure themselves", "statement": "For a DeltaChunkList whose chunks lie one after the other, size() is the number of bytes that apply() writes, and lbound() and rbound() are where they begin and end; a slice of the list has the size that was asked for. A list that passes check_integrity(target_size) lies so and produces target_size bytes. compress() changes neither what the list writes nor where it lies and never makes the list longer.", "quantifier": "for all chunk lists, base buffers, offsets and sizes", "why_tests_cant": "the check is only called on lists made from a few test packs; no test builds a list that should fail it, and the python 3 branch of it is never reached with more than one chunk", "anchors": ["gitdb/fun.py:217-340"]}
{"id": "C90", "title": "A PackedDB uses the packs of its own directory whatever the directory is called", "statement": "For a PackedDB at a directory, update_cache finds exactly the files pack-*.pack of that directory, each with the index of the same name beside it, whatever characters the path of the directory contains.", "quantifier": "for all file system trees, directory paths and file names", "why_tests_cant": "the tests use temporary directories with harmless names", "anchors": ["gitdb/db/pack.py:149", "gitdb/pack.py:666-670"]}
{"id": "C91", "title": "Abbreviated names are completed over a repository and its alternates", "statement": "GitDB.partial_to_complete_sha_hex returns the name of an object iff it is the only object of the repository and the alternates it reaches, loose or packed, whose hexadecimal name begins with the digits; it raises AmbiguousObjectName iff there are several and BadObject iff there is none.", "quantifier": "for all repositories with any graph of alternates, all packs and loose objects, all hexadecimal digits (either case, 3 to 40 of them), after any history of lookups, updates and completions", "why_tests_cant": "the tests complete a few names of one fixture; ambiguity across packs, loose objects and alternates, upper case digits and cyclic alternates are not covered", "anchors": ["gitdb/db/base.py:153-163", "gitdb/db/base.py:240-276", "gitdb/db/loose.py:108-125", "gitdb/db/pack.py:180-206"]}
{"id": "C92", "title": "Text and bytes convert into each other without loss", "statement": "force_text gives the text its argument is the UTF-8 form of (RFC 3629) and raises ValueError for every other byte string; force_bytes gives the UTF-8 form of a text and raises ValueError iff there is a surrogate in it; both leave what is already text or bytes unchanged and undo each other. loose_object_header gives the same header for a type name as bytes and as text, and raises ValueError for names that are not ASCII. GitDB completes abbreviated names given as bytes and as text to the same answer.", "quantifier": "for all byte strings, all texts, all sizes, all digits and all GitDBs", "why_tests_cant": "UTF-8 has overlong forms, surrogates and truncated forms, the tests only use ASCII", "anchors": ["gitdb/utils/encoding.py:1-18", "gitdb/fun.py:481-485", "gitdb/db/base.py:240-276"]}
{"id": "C93", "title": "The text of a BadObject names what was not found", "statement": "str() of a BadObject raised by any lookup is the text 'BadObject: ' followed by the hexadecimal digits that were looked for.", "quantifier": "for all names and abbreviated names, as bytes or as text, and all lookups that raise BadObject", "why_tests_cant": "the tests only check that BadObject is raised, none makes a text of it", "anchors": ["gitdb/exc.py:27-33", "gitdb/util.py:219-223", "gitdb/db/loose.py:106-122", "gitdb/db/base.py:248-275"]}
{"id": "C94", "title": "Exceptions reach the caller unchanged", "statement": "A PackedDB whose directory cannot be listed raises FileNotFoundError on first use. If a file named like a pack cannot be opened, mapped or is no pack (too short, another signature), first use of any query and any update that looks at it raise the exception of such a file; otherwise they do not raise. Going through the known packs raises exactly if the index of one of them is missing, cannot be read or is none, with that exception; has_object raises nothing else. CompoundDB raises what the first member raises whose answer is needed (only BadObject is an answer). PackedDB.store and MemoryDB.set_ostream raise UnsupportedOperation. LooseObjectDB.store raises only errors of the system and what reading its stream raises; a LockedFD only errors of the system, or AssertionError when misused.", "quantifier": "for all directories, all contents of files, all histories of calls, all members of a CompoundDB", "why_tests_cant": "the tests have no directory with damaged or vanishing files", "anchors": ["gitdb/db/pack.py:89-175", "gitdb/pack.py:PackIndexFile._initialize", "gitdb/pack.py:PackFile._set_cache_", "gitdb/db/base.py:181-239", "gitdb/db/mem.py:46-47"]}
{"id": "C95", "title": "A database that could not be set up keeps saying so", "statement": "If the packs of a PackedDB or the databases of an alternates file cannot be loaded (missing directory, damaged pack, undecodable file), every call of the database raises the exception of that, not only the first one.", "quantifier": "for all directories and repositories with such a fault, all sequences of calls", "why_tests_cant": "the tests have no damaged repositories and do not go on after an exception", "anchors": ["gitdb/util.py:237-266", "gitdb/db/ref.py:25-77", "gitdb/db/git.py:44-69", "gitdb/db/pack.py:51-55", "gitdb/db/pack.py:132-175"]}
{"id": "C96", "title": "Records carry what they were made from", "statement": "Every record class of base.py can be constructed from its documented arguments; its properties give these arguments back (the size of an ODeltaStream that of its stream), type and type_id convert into each other by git's table, hexsha is the sha in lower-case hex, setting a property of an IStream changes that property only, the other records cannot be changed, and read reads the record's stream.", "quantifier": "for all record classes, arguments, properties and values", "why_tests_cant": "the tests construct a few records and compare some properties; InvalidOInfo and InvalidOStream are never constructed", "anchors": ["gitdb/base.py:20-313"]}
{"id": "C97", "title": "file_contents_ro gives the contents of the file", "statement": "file_contents_ro(fd, stream, allow_mmap) gives the whole contents of the file whichever mapping attempts fail, readable as a stream if that was asked for, or raises OSError; file_contents_ro_filepath closes the file it opened in all cases.", "quantifier": "for all files, positions of the descriptor, failures of mmap/fstat/read, and parameters", "why_tests_cant": "the tests map one small file; failing maps, empty and huge files and short reads do not occur", "anchors": ["gitdb/util.py:163-209"]}
{"id": "C98", "title": "Small helpers do as documented", "statement": "A _RandomAccessBytesIO holds the bytes written where they were written and gives them back by reading, indexing and len; byte_ord gives the number of a byte; a NullStream swallows bytes and gives empty bytes; db_path gives a path below the database's root for relative paths.", "quantifier": "for all buffers, positions, data, bytes and paths", "why_tests_cant": "the tests do not use these helpers on their own", "anchors": ["gitdb/util.py:97-127", "gitdb/stream.py:714-727", "gitdb/db/base.py:128-132"]}
{"id": "C99", "title": "A name can be given in any form", "statement": "However the name of an object is written (20 bytes or 40 digits in either case, as bytes, as a buffer, or the digits as text), to_bin_sha returns the 20 bytes and to_hex_sha 40 digits spelling them; everything else is rejected with ValueError or TypeError.", "quantifier": "every value of these types", "why_tests_cant": "there are 2^160 names with 2^k spellings each, and unboundedly many wrong values of every length", "anchors": ["gitdb/util.py:to_hex_sha", "gitdb/util.py:to_bin_sha", "gitdb/util.py:hex_to_bin", "gitdb/util.py:bin_to_hex"]}
{"id": "C100", "title": "Reading ends on every file", "statement": "Opening a loose object, reading its header and any sequence of read and seek calls on a DecompressMemMapReader end with a result or an exception, whatever the bytes of the file are (damaged, cut off, with a wrong size in the header) and whatever size was given for the content.", "quantifier": "all byte strings, all sizes, all sequences of reads and seeks, all zlib implementations whose decompress returns or raises and respects max_length", "why_tests_cant": "read calls itself until it has enough, so it has to be shown for all data that a round without output is the last one; damaged files are unlimited in number", "anchors": ["gitdb/stream.py:91-134", "gitdb/stream.py:200-319", "gitdb/fun.py:403-412"]}
{"id": "C101", "title": "Nested calls of read stay within a bound", "statement": "DecompressMemMapReader.read calls itself when a call of zlib gave fewer bytes than wanted. The number of its calls that are active at the same time is bounded independently of the data, so that reading an object never fails with RecursionError.", "quantifier": "For every zlib satisfying the laws, every stream and content, every sequence of reads and rewinds, every limit on nested calls.", "why_tests_cant": "The depth depends on how the compressed bytes are spread over the windows; streams of ordinary compressors need one or two calls, and a stream that needs 1000 has to be made for it.", "anchors": ["gitdb/stream.py:214-319", "gitdb/stream.py:309-317", "gitdb/stream.py:257-279"]}
{"id": "C102", "title": "What was stored or committed survives a power failure", "statement": "Once LooseObjectDB.store has returned, the object stays readable, and once LockedFD.commit has returned, the file has its new content, also if the machine loses power afterwards and the system had kept written data in memory. Files that were there before are not harmed.", "quantifier": "For every zlib, every hash function, every object and source, every behaviour of the system, every file written through a LockedFD by any interleaving of users, and every loss of unsynchronised data.", "why_tests_cant": "A power failure cannot be provoked in a unit test, and without one the data are always there.", "anchors": ["gitdb/db/loose.py:176-251", "gitdb/util.py:65", "gitdb/util.py:353-400"]}
{"id": "C103", "title": "Listing a loose object directory", "statement": "LooseObjectDB.sha_iter() lists exactly the objects that are there, each of them once, and size() is their number.", "quantifier": "For every well-formed file system, every content of the directory and every order in which the system lists it.", "why_tests_cant": "The test has a handful of objects in a directory that holds nothing else; what happens with other files depends on names nobody thinks of.", "anchors": ["gitdb/db/loose.py:253-269"]}
{"id": "C104", "title": "The alternates file is read as git reads it", "statement": "The repositories a GitDB searches through objects/info/alternates are those git would search: one path per line, lines ending with a line feed only, lines beginning with # ignored, lines in double quotes unquoted as in C, white space being part of the path.", "quantifier": "for all alternates files, all trees of repositories with absolute paths, all histories of calls", "why_tests_cant": "needs files with unusual names and line ends; all combinations of them", "anchors": ["gitdb/db/ref.py:ReferenceDB._update_dbs_from_ref_file"]}
{"id": "C105", "title": "A created pack survives a power failure", "statement": "Once PackEntity.create has returned, the objects of the pack stay readable, and so do the objects of every other pack of the directory, also if the machine loses power afterwards and the system had kept written data in memory. Files that were there before are not harmed.", "quantifier": "For every zlib, every hash function, every list of objects and sources, every behaviour of the system without short writes, every moment at which create is stopped, and every loss of unsynchronised data.", "why_tests_cant": "A power failure cannot be provoked in a unit test, and without one the data are always there.", "anchors": ["gitdb/pack.py:1007-1029", "gitdb/db/pack.py:155-186", "gitdb/util.py:65"]}
{"id": "C106", "title": "Objects of a database can be packed", "statement": "PackEntity.write_pack (and create) given the streams of objects of a database, loose or packed, writes a pack that has these objects with the contents they have there: the same pack and index as for the contents in memory.", "quantifier": "For every zlib, every hash function, every list of objects, every page size, every database whose files have the objects.", "why_tests_cant": "Which reads of a DecompressMemMapReader are exact depends on where zlib's blocks end relative to windows of the reader; the packs of the test fixtures have no object for which they are not.", "anchors": ["gitdb/pack.py:915-1004", "gitdb/pack.py:130-170", "gitdb/db/loose.py:163-166", "gitdb/stream.py:204-331"]}
{"id": "C107", "title": "A closed stream", "statement": "DecompressMemMapReader.close closes the memory map if this was allowed on creation and returns True then, leaves it alone otherwise, and can be called again.  A read of a closed stream gives the bytes the open stream would have given, or raises; once it raised, no later read gives anything.", "quantifier": "For every zlib, every object, every reads before and every operations after closing.", "why_tests_cant": "The tests never read a stream after closing it.", "anchors": ["gitdb/stream.py:90-91", "gitdb/stream.py:140-149", "gitdb/stream.py:214-319", "gitdb/db/loose.py:163-166"]}
{"id": "C108", "title": "Access rights in a shared database", "statement": "In a database that several users write to, an object that has been stored is readable for all of them: store ends with a file that everyone may read, has_object does not announce an object that others cannot read, storing an object that is there already succeeds whoever stored it first, and the files of a pack made by PackEntity.create can be read by others.  A file replaced by LockedFD.commit is readable for all.", "quantifier": "For every zlib, every hash function, every object, every two users, every system behaviour and every owner of the files before.", "why_tests_cant": "The tests run as one user (often root), who owns every file; the moment between rename and chmod lasts microseconds.", "anchors": ["gitdb/db/loose.py:73-75", "gitdb/db/loose.py:128-146", "gitdb/db/loose.py:176-251", "gitdb/pack.py:1007-1029", "gitdb/util.py:323", "gitdb/util.py:366-394"]}
{"id": "C109", "title": "Moving loose objects into a pack loses nothing", "statement": "If PackEntity.create, given the streams of objects of a LooseObjectDB, returns, then a PackedDB opened on the directory has all these objects, with the type, size and content they have in their loose files, besides the objects of the packs that were there; and all loose objects are still there unchanged.  So the loose files can be removed.", "quantifier": "For every zlib, hash function, page size, number of objects, content, fuel, and every run of create that returns.", "why_tests_cant": "That reading in chunks, writing, indexing and reading back compose without loss depends on the contents, their compressed forms and how zlib delivers them; tests use a few small objects compressed by one library.", "anchors": ["gitdb/pack.py:914-1031", "gitdb/db/loose.py:164-166", "gitdb/stream.py:91-134", "gitdb/stream.py:214-322", "gitdb/db/pack.py:56-170"]}
{"id": "C110", "title": "The reader with zlib 1.2.5 and 1.2.7", "statement": "On a system with zlib 1.2.5 or 1.2.7 (other than macOS), where DecompressMemMapReader counts compressed bytes in another way, it delivers the same type, size, content and errors as elsewhere for any sequence of reads and rewinds; and once a non-empty object has been read completely, compressed_bytes_read() is the length of its zlib stream.", "quantifier": "For every map, size, sequence of reads and rewinds, zlib behaviour, data after the stream, page size.", "why_tests_cant": "The branch runs only with two old zlib versions, which no test machine has; and the count depends on where the windows end.", "anchors": ["gitdb/stream.py:297-300", "gitdb/stream.py:151-196", "gitdb/stream.py:214-319", "gitdb/pack.py:551-558"]}
{"id": "C111", "title": "DeltaApplyReader without anonymous memory maps", "statement": "Whichever of the allocations of a DeltaApplyReader get an anonymous memory map and whichever fall back to memory blocks because mmap raises OSError, the reader has the same size, the same content at every sequence of reads and rewinds, and fails with the same errors.", "quantifier": "For every set of delta streams and base stream, well-formed or not; every choice of which allocations get a map; every sequence of reads and rewinds.", "why_tests_cant": "The fallback runs only where the system refuses a map, which no test provokes; the two kinds of buffers differ only when something is written beyond their end.", "anchors": ["gitdb/util.py:146-160", "gitdb/util.py:97-116", "gitdb/stream.py:404-477", "gitdb/fun.py:621-678"]}
{"id": "C112", "title": "DeltaApplyReader whatever it is asked first", "statement": "A DeltaApplyReader over deltas that produce an object answers every sequence of reads, rewinds and questions for the size as the object does, whichever comes first and makes it apply the deltas; a question for an attribute it does not have (as in hasattr) raises AttributeError and changes no later answer.", "quantifier": "For every non-empty chain of well-formed deltas, every kind of streams they come from, every sequence of operations.", "why_tests_cant": "The deltas are applied by __getattr__ of LazyMixin, for whatever name is asked; tests read the object and ask for nothing else.", "anchors": ["gitdb/util.py:237-266", "gitdb/stream.py:361-368", "gitdb/stream.py:404-477", "gitdb/stream.py:486-504", "gitdb/stream.py:541-544"]}
{"id": "C113", "title": "Missing attributes of packs and indices", "statement": "Asking a PackFile, a PackIndexFile or a PackEntity for an attribute that it does not have (as hasattr does) raises AttributeError whatever was called before, and changes no later answer of any method.", "quantifier": "For every pack and index file, every history of calls, questions and closes.", "why_tests_cant": "LazyMixin loads the file for whatever name is asked, so the answer depends on the file and on the history; tests ask for existing attributes only.", "anchors": ["gitdb/util.py:237-266", "gitdb/pack.py:267-302", "gitdb/pack.py:532-542", "gitdb/pack.py:677-700"]}
{"id": "C114", "title": "Asking a stream for its compressed length does not disturb it", "statement": "compressed_bytes_read() changes no later read of the stream, whether the stream is open or was closed and wherever it stands.", "quantifier": "every stream, every read history, every list of later reads", "why_tests_cant": "the method moves the stream itself while it counts, and what it leaves depends on the state in which it stops", "anchors": ["gitdb/stream.py:DecompressMemMapReader.compressed_bytes_read", "gitdb/stream.py:DecompressMemMapReader.close"]}
