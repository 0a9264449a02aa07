# Formal model of gitdb in Rocq (Coq 8.16.1)

## 1. Shape of the development

The model is a set of total, executable Gallina functions over `list Z` (bytes), `Z`
(Python ints), records and lists, mirroring the Python code branch by branch.  Exceptions
are values (`Raise e`).  A loop that does not end is the value `Diverge`: loops take fuel,
and a theorem about a result `Ok`/`Raise` says that some fuel gives it (and then all larger
fuel does).  Every definition cites the lines of /repo it models.

Three kinds of files, in `rocq/theories`:

* `*Model.v`: the code, definitions only;
* `*Spec.v`: what the theorems talk about, written without the model's helpers (git's file
  formats, the meaning of a delta, a dictionary of objects, what is on disk, ...);
* `Prop_*.v`: the property theorems, each proved by one lemma from the other files, with
  `Print Assumptions` after it and an `Example` `C##_ex...` beside it that shows a
  non-trivial case meeting the hypotheses.  All other files are lemmas.

| model file | models |
|------|--------|
| `Py.v` | Python prelude: exceptions, slicing, indexing, `int()`, `%i`, `find`, `split`, `struct`, hex |
| `FunModel.v` | gitdb/fun.py: header codecs, `msb_size`, `stream_copy`, `write_object`, `is_equal_canonical_sha`, type tables; gitdb/util.py: `to_hex_sha`, `to_bin_sha`; gitdb/base.py: `OInfo` |
| `DeltaModel.v` | gitdb/fun.py: `apply_delta_data`, `DeltaChunk`, `DeltaChunkList`, `TopdownDeltaChunkList`, `connect_deltas` |
| `IndexModel.v` | gitdb/pack.py: `IndexWriter`, `PackIndexFile` (versions 1 and 2) |
| `Crc32.v` | `zlib.crc32`, concretely |
| `ZlibModel.v` | interface of Python's zlib objects, the laws assumed of them, one executable implementation |
| `DeflateModel.v`, `Sha1.v` | a decoder for all zlib streams (RFC 1950, 1951) with a simple compressor, and SHA-1: instances of the two parameters, for examples with real files (`Fixtures.v`) |
| `CompressModel.v` | that decoder with any compressor |
| `ReaderModel.v` | gitdb/stream.py: `DecompressMemMapReader` |
| `DepthModel.v` | the `read` of gitdb/stream.py that calls itself, with a limit on nested calls |
| `DeltaReaderModel.v` | gitdb/stream.py: `DeltaApplyReader`; gitdb/util.py: `allocate_memory` |
| `PackModel.v` | gitdb/pack.py: `pack_object_at`, `write_stream_to_pack`, `PackFile`, `PackEntity` |
| `ClosedModel.v` | `close` of DecompressMemMapReader in gitdb/stream.py and reading a stream whose memory map is closed |
| `LazyModel.v` | `LazyMixin.__getattr__` of gitdb/util.py; `PackFile`, `PackIndexFile`, `PackEntity` as objects with attributes that are set on first use, failed loading, `close` |
| `LazyDeltaModel.v` | `DeltaApplyReader` of gitdb/stream.py as an object with attributes that are set on first use |
| `MissingModel.v` | `LazyMixin.__getattr__` of packs, indices and entities for a name that is no attribute, and histories with such questions |
| `AllocModel.v` | `DeltaApplyReader` with the fallback of `allocate_memory` of gitdb/util.py |
| `OsModel.v` | system calls, files, processes, crashes, interleavings (not gitdb code) |
| `LooseModel.v` | the writers of gitdb/stream.py; gitdb/db/loose.py |
| `OstreamModel.v` | gitdb/db/base.py: `ostream`, `set_ostream`, `store` through a stream of the caller |
| `LockModel.v` | gitdb/util.py: `LockedFD` |
| `MemModel.v` | gitdb/db/mem.py |
| `PackDbModel.v` | gitdb/db/pack.py |
| `GlobModel.v` | which files `PackedDB.update_cache` finds: `glob`, `fnmatch`, `os.path.join/split/splitext`; the file names of a `PackEntity` |
| `CompoundModel.v` | gitdb/db/base.py: `CompoundDB` |
| `GitModel.v` | gitdb/db/git.py, gitdb/db/ref.py |
| `GitAbbrModel.v` | `CompoundDB.partial_to_complete_sha_hex` over the members of a GitDB |
| `TextModel.v` | gitdb/utils/encoding.py, `loose_object_header` and abbreviated names with text or bytes, the text of `BadObject` (gitdb/exc.py) |
| `RecordModel.v` | gitdb/base.py: the record classes |
| `UtilModel.v` | gitdb/util.py: `file_contents_ro`, `file_contents_ro_filepath`, `_RandomAccessBytesIO`, `byte_ord`; gitdb/stream.py: `NullStream`; gitdb/db/base.py: `db_path` |
| `CreateModel.v` | gitdb/pack.py: `PackEntity.create` and the writing of packs as a program of system calls |

## 2. Trusted base

* Coq's kernel (the proofs also pass `coqchk`).  No native compiler, no plugins.
* `Print Assumptions` of every property theorem: `Closed under the global context`.  No
  axiom is used, neither own nor from the standard library.  (`coqchk -o` lists axioms of
  `Coq.ssr.ssrunder` because standard library files that are loaded contain them; no
  theorem depends on them.)
* That the definitions in the `*Model.v` files say what the Python code does.  This is a
  reading of the code, not a proof.  The simplifications are listed in section 4.
* That the statements say what properties.jsonl says.  Section 6 says how this was tested.

### External components

* **zlib** is a parameter: a record of operations (`zlib`) and a record of laws
  (`zlib_laws`).  Theorems quantify over every implementation that satisfies the laws; they
  are hypotheses, not axioms.  The laws leave open how much output a call produces; they
  describe where CPython's `decompressobj` puts input it did not use.  An executable
  implementation (`stored`: zlib streams of stored blocks with header, Adler-32 and the same
  treatment of left over input) is proved to satisfy them (`stored_laws`); examples and the
  witnesses of refutations use it.  A second one (`rle`: run lengths, so that streams can be
  shorter than their content) is proved to satisfy them too (`rle_laws`), and a third one,
  `deflate`, a decoder of RFC 1950 and RFC 1951 with dynamic, fixed and stored blocks
  (`deflate_laws`); before it was committed, its output, `unconsumed_tail` and `unused_data`
  were compared with CPython's zlib on random streams and random calls, without a
  difference.  Theorems that need more say so: `dense` (any 8 bytes of compressed input
  produce output); `one_block_dense` proves it of every stream that is one stored block or one
  block with fixed codes, as zlib gives for short or incompressible content.
* **SHA-1** is an arbitrary function on byte strings with 20-byte results (`sha1_of` in
  `Sha1.v` is the real one).  Where two
  objects with the same sha would make a statement false, the theorem says in terms of
  contents what is assumed or speaks of "some stored object with that name".
* **CRC-32** is concrete; the single-byte theorem (C32) is about the polynomial itself.
* **smmap** is a view of the whole file from an offset to its end (window limits are not
  modelled).
* **The operating system** (`OsModel.v`): a program is either finished or about to make a
  system call.  Each call is one atomic step; whether it fails, how much a write takes and
  which temporary name is chosen is left to the system (`may_fail` says which kinds of
  faults are possible).  A crash is stopping between two steps.  Several processes take
  steps in any order.  Not modelled: durability (a crash of the machine that loses data
  written before), hard and symbolic links, two descriptors at different
  positions of one file.  Owners and access rights are a refinement (`RightsSpec.v`, C108).
* **mmap.PAGESIZE** is a parameter.

## 3. Properties

114 properties are in properties.jsonl (C67-C114 were added while modelling).  MANIFEST.json
names the theorems for each and says in a note what is proved, refuted or missing.  Where
the code violates a property, the full statement stays in properties.jsonl, the violation
is a theorem with suffix `_refuted` about a concrete witness (or about all cases of a kind),
and what does hold is a theorem with suffix `_partial`.

How they are proved:

* **C01-C05, C20, C59, C60, C65, C68** (codecs; `Prop_Fun.v`, `Prop_Reader.v`): against an
  arithmetic description of the encodings (`FunSpec.v`), by induction on the encoding.
  Encoding, decoding and uniqueness are separate theorems.
* **C06, C07, C67** (`Prop_Delta.v`): `apply_delta_data` against an instruction-list
  semantics (`DeltaSpec.v`: parse, then execute with all bounds checked).
* **C08-C10** (`Prop_DeltaReader.v`): buffers are byte lists with a position and mmap's
  fixed size; invariant: the first bytes of the current base buffer are the intermediate
  object.
* **C11-C13, C89**: a chunk list denotes a function of the base; slices and connecting are
  proved to preserve the meaning; induction over the chain.
* **C14-C19** (`Prop_Index.v`): an index file is described by its tables (`IndexSpec.v`);
  bisection by invariant.
* **C21-C27** (`Prop_Reader.v`): invariant between the reader's fields, the decompressor's
  state and the position in the content, for every zlib; histories of calls by induction.
  `Prop_Deflate.v`: C22 and C23 for streams of one block that is not dynamic, without other
  conditions; witnesses for C23 and C26 that zlib made.  Requests for at least as many bytes as
  the compressed stream has need no condition on the stream: the window then reaches its end.
  `Prop_Cut.v`: streams whose last block gives no output for 13 bytes; the positions at which the
  windows end are computed for all contents of that form.
  `Prop_Stored.v`: streams of stored blocks give output for any 6 bytes (`StoredBlocks.v`); a read
  across the end of the header buffer is decided by what its first call of zlib gives
  (`CrossProofs.v`), and for stored blocks that is what it asks for less 5 bytes for each block
  after the first (`StoredReads.v`).
* **C28-C35, C69-C71** (`Prop_Pack.v`; `Prop_Walk.v`: delta chains of any shape, as the code
  follows them): packs described by git's format (`PackSpec.v`);
  a simulation lemma (`SimProofs.v`) replaces the real streams by ideal ones.
  **C82, C83** (`Prop_PackIter.v`): iteration over the index and the two checksums of a
  written pack, from the theorems about written packs.
  **C86** (`Prop_Lazy.v`): the attributes that can be set after any calls, as an invariant.
* **C38-C42, C45, C46, C72** (`Prop_Loose.v`), **C56-C58, C73** (`Prop_Lock.v`),
  **C64, C80** (`Prop_Create.v`): programs of system calls; a rely/guarantee logic (`wp` in
  `OsProofs.v`) proved sound for any interleaving and any crash point; invariants on the
  directory.  **C85** (`Prop_LooseRead.v`): the same, with one process that reads; it relies
  on nobody writing to files that have been published.
* **C84** (`Prop_Ostream.v`): a database with an output stream set, as a state machine over
  the bytes the writer has digested.
* **C36, C37, C62, C63, C66** (`Prop_Mem.v`), **C47-C49, C74, C75** (`Prop_PackDb.v`),
  **C87** (`Prop_PackOrder.v`), **C50-C55, C76-C79** (`Prop_Git.v`), **C81**: databases as state machines; theorems about
  any history of calls, compared with a description of what is on disk.
* **C90** (`Prop_Glob.v`): pattern matching against the set of matching names; shows that the
  simplification of `PackDbModel.v` (names instead of paths) is right for plain paths.
* **C91** (`Prop_GitAbbr.v`): the invariant of the state machine of `Prop_Git.v`, and one on the
  candidate that is carried from member to member.  One or two digits: an answer means that no
  reachable repository has a pack (`GitShort.v`).
* **C92, C93** (`Prop_Text.v`): the UTF-8 codec against RFC 3629 as ranges of code points
  (`TextSpec.v`); texts of exceptions computed.
* **C94** (`Prop_Errors.v`): damaged files are described by their bytes (`ErrorSpec.v`); invariant
  over histories: every pack known once, mapped files are bytes.  `Prop_SystemErrors.v`: every
  result of the programs of system calls, call by call.
* **C95** (`Prop_Errors.v`, `Prop_Git.v`): sequences of calls computed on every database with such a fault.
* **C96-C98** (`Prop_Record.v`): the arguments of each class by property, systems that may fail
  or read short (`RecordSpec.v`), byte by byte effect of writing and reading.
* **C99** (`Prop_Name.v`): against the digits that spell a name (`NameSpec.v`).
* **C100** and the cases in which **C70** holds (`Prop_Stop.v`): of zlib only that decompress
  returns no more than asked for, or raises (`inflater` in `StopSpec.v`; proved of `stored` and
  `deflate` for all input).  Chains of deltas by the first bytes of the entries (`chain_ends`,
  an inductive predicate); both directions.
* **C101** (`Prop_Depth.v`): with a limit the same outcome as without (`enough` in
  `DepthSpec.v`); for every limit a stream that needs more calls, built of empty blocks.
* **C102** (`Prop_Durable.v`): a power failure keeps directories and any first part of each file
  written since everything was on disk (`power_loss` in `DurableSpec.v`); the file a store or a
  commit leaves is always one created since.  Real systems may also lose changes of
  directories; that is not modelled.
* **C103** (`Prop_List.v`, `LooseList.v`): sha_iter and size for every content of the directory
  and every order of os.walk: right for tidy directories; stray files end the iteration with
  `binascii.Error`, oddly named ones are listed as objects.
* **C104** (`Prop_Alt.v`, `AltSpec.v`, `AltProofs.v`): git's format of the alternates file, specified
  apart from the model, against the lines ReferenceDB uses; answers of a GitDB by C53.
* **C105** (`Prop_PackDurable.v`, `CreateDurable.v`): the power failures of C102 and
  PackEntity.create, with an invariant on which files are new.
* **C106** (`Prop_Repack.v`, `RepackSpec.v`, `RepackProofs.v`): write_pack depends on its
  streams only through what reads of chunk_size give, so streams that give the contents make
  the pack of the contents in memory; `streams`, `pack_loose` and `repack` are what a caller
  does (test_pack.py), not functions of the library.
* **C107** (`Prop_Closed.v`, `ClosedModel.v`, `ClosedSpec.v`, `ClosedProofs.v`): `close` of
  DecompressMemMapReader and what reading does afterwards.  The read function of a closed map
  is a second definition (ClosedModel) with the slice replaced by ValueError;
  `C107_no_other_bytes` relates it to the open one in every state, `C107_after_close` says
  exactly which reads of a loose object still work.  The result promised in the docstring is
  refuted.
* **C108** (`Prop_Rights.v`, `RightsSpec.v`, `RightsProofs.v`, `RightsTop.v`): the same
  programs of system calls (store, create_pack, commit, has_object, info, stream) run by a
  user under a semantics with owners and rights.  A run under rights that opens no file is a
  run of the system where chmod may fail, so the theorems about that system apply.
* **C109** (`Prop_Move.v`, `MoveSpec.v`, `MoveProofs.v`): the composition of
  LooseObjectDB.stream, PackEntity.create and PackedDB.  No assumption on how the reader cuts
  the contents into pieces: by C21 the pieces are consecutive, by the assertion in write_pack
  they are complete, and C81 (stated for what was read) gives the rest.
* **C110** (`OldZlibModel.v`, `OldZlibProofs.v`, `Prop_OldZlib.v`): the same reader with the
  other branch of stream.py:297.  Every operation commutes with replacing the counter of
  compressed bytes, and that counter is always the end of the last window less
  unconsumed_tail; the lengths follow from the invariants behind C27.
* **C88** (`Prop_GitStore.v`): ties the two together.  The repositories a GitDB sees are
  read off the file system the programs of system calls work on (`fs_at` in
  `GitStoreSpec.v`); storing only adds loose objects, and the invariant of the state machine
  is preserved by that.
* **C43, C44, C61** (`Prop_Fun.v`, `Prop_Loose.v`).
* **C111** (`AllocModel.v`, `AllocProofs.v`, `Prop_Alloc.v`): DeltaApplyReader with the fallback
  of allocate_memory (OSError of mmap), any choice of which allocations get a map.  A simulation
  through stream_copy, apply_delta_data and the loop over the deltas: the run without maps does
  the same as the one with maps until the latter has a ValueError.  Refuted for deltas that produce
  more than announced, which are then no error.
* **C112** (`LazyDeltaModel.v`, `LazyDeltaSpec.v`, `LazyDeltaProofs.v`, `Prop_LazyDelta.v`):
  DeltaApplyReader as an object with attributes that are set by LazyMixin and with the
  positions in its streams.  Applying the deltas gives what it gives in `DeltaReaderModel.v`
  and leaves every delta stream at its end; from there an induction on the operations.  Refuted
  for attributes that are missing.
* **C113** (`MissingModel.v`, `MissingProofs.v`, `Prop_Missing.v`): the objects of C86 with one
  more operation, a question for an attribute that does not exist.  It loads the file and then
  raises; the invariants of C86 are shown to survive it.  Partial: an entity without objects, a
  file that is no pack and an index that does not open raise other errors, and a closed pack is
  opened again (`_refuted` theorems).
* **C114** (`CountModel.v`, `CountProofs.v`, `Prop_Count.v`): the streams of C107 with
  compressed_bytes_read.  Partial: when the call returns; closed at the end it raises and spoils
  the stream (`_refuted` theorems).

## 4. Simplifications and what is not modelled

Stated again at each definition.

* Python's recursion limit: recursion is unbounded (`Diverge` where it never ends), except in
  `DepthModel.v` (C101), where only the calls of `DecompressMemMapReader.read` count.
  CPython raises RecursionError there; that exception can be swallowed by the
  `except Exception` in gitdb/db/ref.py:67-75 (C54).
* `DecompressMemMapReader`: the branch for zlib 1.2.5/1.2.7 (stream.py:297) is modelled for
  the reader and for PackFile.stream_iter only (C110), all else uses the other branch; what an exception leaves of an open one.
* `DeltaApplyReader` works at construction instead of on first use (on first use in C112); the C extension
  (`_perf`) is not in the repository and not modelled; connect_deltas is modelled with the
  Python 2 and the Python 3 meaning of `ord` (C11, C13).
* `allocate_memory`: anonymous maps are assumed to be available, except in C111; the MemoryError of the fallback.
* smmap windows, cursors and their reference counts.
* The other properties about packs use opened files; C86 ties them to the lazily loaded
  objects.
* `PackedDB`: the directory does not change during one call; the hit counters are not
  raced for; the root path contains no glob characters (C90 is about those).
* `GitDB`: the file system does not change during one call; text files are decoded already
  (undecodable: ValueError).
* Access rights (`RightsSpec.v`): readable by the owner only or by everyone, no privileged
  user, directories writable by all, POSIX rights.  Only C108 is about them; the other
  properties are about processes of one user.
* Writers: the state of a writer after an
  exception is not modelled (C84 speaks of histories of successful calls).
* Not modelled: `gitdb/const.py`, `gitdb/typ.py` beyond the names, encodings other than
  UTF-8 and ASCII, the texts of exceptions other than `BadObject`, `gitdb/test`, `setup.py`, `doc`.

## 5. What the proofs found in the code

Each item is a `_refuted` theorem.

| property | finding |
|---|---|
| C07 | an out-of-range copy as last instruction is dropped silently, in every delta |
| C10 | a delta that produces too little is padded with buffer contents; what exactly is shown for chains with any announced sizes is `C10_chain_partial` (spec `DeltaSheetSpec.v`) |
| C13, C65 | `ord` on ints: `connect_deltas`, `is_loose_object` raise TypeError on Python 3 |
| C17, C32 | `PackIndexFile.offsets()` returns raw table entries for offsets of 2 GiB and more, so crc checks raise KeyError (every pack: `C32_beyond_refuted`) |
| C19 | ambiguous abbreviations are not reported within one pack |
| C23-C26 | object streams: short reads (nothing at all from every zlib stream that begins with a dynamic block, `C23_dynamic_block_refuted`), too long reads, `read()` incomplete, `seek(0)` after a partial read broken (what it does to every small object: `C26_clean_rest_partial`, `C26_spoilt_rest_refuted`, `C26_forged_header_refuted`, spec `RewindSpec.v`) |
| C24, C25 | data that cannot be compressed (stored blocks): of every object of up to 26 MB, each `read(n)` that goes beyond the first block returns the whole object; of every object of more than 27 MB, `read()` leaves out the last 8178 bytes or so, without an error |
| C25, C28, C29, C36, C38, C69 | the last 20 bytes of some objects are lost: `read()` in a pack, in an object file or a MemoryDB stops before them, a delta on top gets zeros, iterating over the pack raises AssertionError |
| C27, C28 | `compressed_bytes_read` counts left over input twice (the result is always the length of the stream less the length of `unconsumed_tail`); with an empty object the iteration over a pack never ends; after an object of more than one chunk (4 MB) that compresses well it goes on at a wrong offset |
| C33, C34, C70 | REF_DELTA cycles and OFS_DELTA distance 0 are followed for ever |
| C35 | OFS_DELTA behind a REF_DELTA is resolved to the wrong object (every chain: `C35_every_ofs_after_ref_refuted`, `C69_every_mixed_refuted`) |
| C71 | behind a REF_DELTA an OFS_DELTA is followed to the wrong place, so an object whose base is missing is still built, on an unrelated blob (every such chain: `C71_every_mixed_refuted`) |
| C37, C63, C66 | MemoryDB hands out one stream object; copies between MemoryDBs are compressed twice; re-storing an exhausted stream truncates |
| C41, C42, C44 | short writes with a preset sha (every object: `C41_every_preset_refuted`), short streams (every one: `C42_any_size_refuted`) and short reads (every reader: `C44_every_short_read_refuted`) go unnoticed |
| C45, C51 | caches keep objects that were removed or moved; general: `C45_*`, `C51_every_move_refuted` |
| C49, C74, C75 | PackedDB: same-tick changes missed, a missing index breaks all queries, a failed load counts as done; general: `C74_every_*`, `C75_every_*` |
| C52 | MemoryDB members make abbreviated lookups raise AttributeError |
| C54, C55, C76-C78 | alternates: cycles, unusable directories, new parts, relative paths, invalid roots; general: `C55_every_unusable_refuted`, `C76_every_new_part_refuted` |
| C91 | abbreviated names: several objects in one pack go unnoticed, upper case digits complete no loose object, one or two digits raise ValueError |
| C93 | `BadObject` shows names as `b'...'`; its text raises TypeError for abbreviations given as text |
| C90 | characters special to glob in the path: packs of other directories are used, own ones are not |
| C57, C58 | LockedFD: lock left behind when rename fails; on Windows the file is missing for a moment; general: `C57_every_*`, `C58_every_*` |
| C61 | `in` raises AttributeError |
| C64, C80 | `PackEntity.create`: pack visible before its index, file names `pack-b'...'`, short writes, temporary files left (every failure: `C80_every_leftovers_refuted`) |
| C67 | the source size of a delta is never compared with the base (for every delta: `C67_never_compared_refuted`) |
| C84 | a writer that is set stays in use and digests on, so later names are wrong; `FlexibleSha1Writer` is accepted but `store` raises TypeError |
| C86 | a file that is no pack is rejected once, then used as a pack; an index of unknown version tells version 2 when asked again |
| C95 | an exception while packs or alternates are loaded comes once; later calls answer as if there were none |
| C96 | `InvalidOInfo` and `InvalidOStream` cannot be constructed on Python 3 |
| C97 | `file_contents_ro`: ValueError for empty files, files over 2 GiB cut off when not mapped |
| C99 | `to_bin_sha` takes text of 20 characters for binary, `to_hex_sha` returns anything of length 40 and raises TypeError for other text |
| C101 | `DecompressMemMapReader.read` calls itself for every piece of at least 8 compressed bytes; streams of empty blocks around an object of 2530 bytes make it exceed Python's limit of 1000 calls |
| C102 | nothing is synchronised to disk (`fsync` is never called): after a power failure every object just stored, and every file just committed, may be empty; such an object counts as present and storing it again leaves it empty |
| C103 | one file with 38 characters, not all hexadecimal digits, in a two-character directory anywhere below the root makes `size()`, `sha_iter()` and every abbreviated look-up raise `binascii.Error`; files named with capital letters, or deeper down, are listed although `has_object` is False for them |
| C104 | alternates: lines are stripped and split at all of Python's line ends, quotes are not removed, comments are taken for paths |
| C106 | an object of a database whose stream lacks its last bytes (C25) cannot be packed: write_pack fails with AssertionError |
| C108 | shared databases: storing an object that another user has stored fails with PermissionError; between rename and chmod `has_object` is True but others get BadObject; packs made by `create` are readable by their user only |
| C109 | a valid loose object whose zlib stream has a gap of 16384 bytes (empty blocks) within its header is given a wrong size and content by `LooseObjectDB.stream`, without an exception (`info` gives the right size); `create` then packs the wrong content under its name |
| C110 | with zlib 1.2.5 and 1.2.7 `compressed_bytes_read` is too large whenever an object is read at once and something follows its stream (so for every object of a pack that is copied in one piece): no pack of two or more such objects can be walked there |
| C111 | where the system has no anonymous memory map for it, a delta that produces more than it announces is no error: the reader shows the first announced bytes |
| C112 | asking a DeltaApplyReader that was used before for an attribute it does not have (`hasattr(reader, "close")`) raises AssertionError: the deltas are applied again |
| C113 | `hasattr(pack, name)` opens a closed PackFile again; for a file that is no pack it raises ParseError, for an index that does not open the error of opening it, for the entity of an empty index AssertionError, and for the entity of an index cut within its offsets struct.error |
| C114 | compressed_bytes_read of a stream that was read to its end and closed raises ValueError, and after it every read raises, where it gave an empty result before |
| C107 | `close` never returns True although its documentation promises it for a closed map |
| C105 | create synchronises nothing: after a power failure the new pack (also one that replaced a complete pack of the same name) may be empty, and one empty pack makes every query to a new PackedDB raise ValueError |
| C98 | `NullStream.read` gives text; `_RandomAccessBytesIO()` raises TypeError |
| C89 | `check_integrity` accepts a single chunk whose data is too short; on Python 3 it raises AttributeError for longer lists, and `compress` TypeError for lists with something to join |

## 6. Testing the theorems

seeded/LOG.jsonl has one line for each wrong program tried: the definition edited, the edit,
the claim it breaks, the lemmas whose proofs failed and the property theorems that depend
on them, and which theorems were tightened as a consequence.  The edits were made in a
scratch copy; a theorem counts as failed if its proof needs a lemma that no longer goes
through.

The model itself was tested on the files of /repo/gitdb/test/fixtures, with `deflate` and
`sha1_of`: `Fixtures.v` repeats the assertions of gitdb/test/test_pack.py about the smallest
pack and reads the smaller loose object.  The two larger packs (one with an index of version 1,
both kinds of deltas) were tried outside the repository; every object has the checksum of its
name there, too.
