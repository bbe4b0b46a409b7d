# Formal model of ratarmount in Rocq (Coq 8.16.1)

## 1. Layout

* `rocq/theories/PyBase.v`, `PyStr.v`, `PyInt.v`, `PyDict.v` - Python notions shared by all models: slices, results with
  exceptions, string operations (`split`, `join`, `strip`, ...), `int` and `str`, dictionaries as association lists.
* `FileInfo.v` (the record FileInfo and the stat constants), `MemFile_Spec.v` (an in-memory file, the specification of all
  file-like objects), `TreeIndex_Proofs.v` (lemmas for all backends that fill an index with a tree), `Tree_Source.v` (example
  mount sources for the non-vacuity examples; models no code).
* `rocq/theories/<Topic>_Model.v` - the model of the code, function by function. Every definition cites the
  file and lines of /repo it models and names its simplifications. No proofs.
* `rocq/theories/<Topic>_Spec.v` - the small independent specification used by the theorem statements.
* `rocq/theories/<Topic>_Proofs.v` - lemmas.
* `rocq/theories/<Topic>_Props.v` - the property theorems, the examples showing that the hypotheses are met by a concrete,
  non-trivial case, and `Print Assumptions`. `Build_*` has no model file of its own: it is about `Index_Model.v`.

Names: a theorem starts with the id of its property. `_partial`: proves a part of the property, the comment above it says what
is missing. `_refuted`: the model, and as far as the model is faithful the code, violates that part of the property; the
theorem gives the witness. A property with a refuted part has the status "partial" in MANIFEST.json.

Exceptions are values (`Err e`), loops are structural recursion or fuelled recursion whose fuel is proved sufficient,
mutation is state passing, calls into libraries and the operating system are explicit parameters of the theorems.

## 2. Trusted base

* Coq's kernel, version 8.16.1 (no native_compute, no plugins, no disabled checks).
* Axioms: none. `Print Assumptions` prints "Closed under the global context" for every theorem listed in section 6. The
  development imports only the standard library (Coq.Lists, ZArith, Strings, Sorting, Bool, Arith and the tactic `lia`). A whole-
  library listing (coqchk) also shows the seven axioms of Coq.ssr.ssrunder, a module type of the standard library that is loaded
  with Coq's own tactics; no theorem depends on them.
* The reading of /repo: nothing here is extracted from or executed against the Python code. The tie between model and
  code is the citation at each definition.
* Assumed about the environment (each is visible as a model definition): a Python file object is a byte string with
  a position; SQLite executes the given statement as the relational operation documented, single statements outside
  explicit transactions are atomic and durable once committed; Python string/list/dict operations as documented.
  Characters are modelled as Coq `ascii` (8 bit); Unicode is not modelled.

## 3. Property plan

| id | what is modelled | how it is proved |
|----|------------------|------------------|
| C01 | `RawStenciledFile.__init__`, `_find_stencil` (bisect), `_read1_unlocked`, `read` | read loop invariant: result so far is a slice of the concatenation |
| C02 | same + `seek`, `tell` as a step function | refinement to an in-memory file, induction over the list of calls; the negative-seek case is refuted |
| C03 | threads with micro steps lock / seek / read / unlock on one shared position | invariant over all schedules; unlocked `SQLiteIndexedTar.read` refuted |
| C04 | `RawJoinedFileFromFactory` with its open-part cache | invariant on the cache + slice lemma + loop of a caller |
| C05 | `LambdaReaderFile`, `ZeroFile` | refinement to an in-memory file |
| C06 | `BlockParallelReader._find_block`, `_read`, `seek` with an arbitrary valid cache/prefetch oracle | slice lemma over gathered blocks; read(-1) refuted |
| C07 | `LRUCache` operation by operation | invariant by induction over operations; refutations for `setdefault` and failed `__getitem__` |
| C08 | `WriteSQLiteBlobs.write/_flush_blob/close`, `SQLiteBlobsFile` | round trip by induction over writes; size bound refuted for one large write, proved for small writes |
| C09 | `SQLiteIndex.lookup`, `versions` as relational queries over rows | sorting lemmas |
| C10 | `SQLiteIndex.list`, `list_mode` | last-wins dictionary over rows sorted by offset |
| C11 | `_try_add_parent_folders` with its bounded cache, `set_file_info(s)` | invariant: every cached folder already has all its ancestors recorded |
| C12 | `_finalize_files_table` | set equality between rows and inserted entries/ancestors |
| C13 | index creation as a list of atomic database steps, `_load_index` acceptance check | all prefixes of the step list; a window is refuted |
| C14 | xattr tables, view trigger, getters | last-write-wins map refinement |
| C15 | `posixpath.normpath`, `SQLiteIndex.normpath` | stack-machine invariant |
| C16 | `UnionMountSource.lookup/versions` without cache hit | induction over sources against the concatenated version list |
| C17 | `UnionMountSource._list` | set equality |
| C18 | `UnionMountSource._list` dictionary update order | refuted + what holds |
| C19 | `_build_folder_cache` with an arbitrary stopping point | coherence invariant of the cache; clash refuted |
| C20 | userdata stack discipline of the layers | induction over layer stacks; violations refuted |
| C21 | `FileVersionLayer._decode_versions_path_api`, `lookup`, `_list_wrapper` | case analysis over decoded paths; violations refuted |
| C22 | `_resolve_hard_links` | induction over the bounded loop |
| C23 | recursive dictionary with `mount`, `unmount`, `is_mountable`, `_find_mount_source` | refinement to a finite map of mount points |
| C24 | `lookup` + `open` keyed by the joined name | refuted for nested mount points, proved for top-level ones |
| C25 | `RemovePrefixMountSource` | case analysis on path components; version argument refuted |
| C26 | `_simply_find_mounted`, `mounted` dictionary | longest-prefix specification |
| C27 | `AutoMountLayer.lookup/versions/_append_mount_points` | arithmetic; wrap-around refuted |
| C28 | sparse branch of `SQLiteIndexedTar.open` | list induction over the map; no-hole case refuted |
| C29 | `SQLiteIndexedTar.read` | refuted; proved for ranges inside the member |
| C30, C31 | overlay state (lower tree, overlay folder, deletion table) and operations | simulation by an abstract file map; several refutations |
| C32 | `commit_overlay` list building + abstract tar delete/append | set semantics |
| C33 | handle table of `FuseMount` | monotone counter invariant |
| C34 | `_create_multi_mount` | uniqueness and completeness by induction |
| C35 | `split_command_line`, `CommandFile` | round trip over split/join |
| C36 | `format_number`, `check_for_sequence`, `check_for_split_file_in` | termination by pigeonhole, gap-freeness |
| C37 | `strip_suffix` over abstract rules | prefix invariant |
| C38 | `_parse_ar_archive` | round trip with an AR writer in the spec; decreasing measure |
| C39 | `_create_index` worklist, `find_asar_header` | permutation with the tree flattening |
| C40 | `max_up_count` | lexical walk specification |
| C41 | `FolderMountSource.list/lookup` | refuted (swapped arguments) + names |
| C42 | `compute_hashes` loop, `smplayer_hash` | monoid-action law; sum over disjoint ranges |
| C43 | `might_be_format` | position invariant for arbitrary checkers |
| C44 | `get_possible_index_file_paths` | case analysis |
| C45 | `_check_metadata2`, `_try_to_mark_as_appended`, `_get_past_end_offset`, `_check_rows_validity`, the update of the tables | the finalized table of old and new members against the one from scratch, row by row; refutations |
| C46 | hard links to their own path in the version layer | refuted (oldest instead of previous version), proved for one earlier version |
| C47 | `chmod`, `chown`, `utimens` of the overlay | simulation; chown(-1,-1) refuted |
| C48 | `determine_mount_point` | path lemmas; hidden names and trailing slashes refuted |
| C49 | `FolderMountSource` with an index | reuse of the tree lemmas; refutations |
| C50 | `SQLiteIndexMountSource` hashing into xattrs | last-write-wins map; collisions refuted |
| C51 | `detect_formats`, the table of formats and magic bytes | case analysis over an arbitrary table; tiny files refuted |
| C52 | `find_zstd` frames | induction over skippable frames |
| C53 | `find_squashfs_offset` | search lemma; nonzero positions refuted |
| C54 | the check functions of single formats | exact conditions |
| C55, C56 | `_try_load_index` over all candidates, `clear_indexes` | induction over candidates; stale temporary and read-only refuted |
| C57, C58 | `open_writable`, `ensure_writable_path` | case analysis; a probe of ':memory:' refuted |
| C59 | `set_file_infos`, `_reload_index_on_disk` | content invariant over batches; closed connection refuted |
| C60 - C62 | `_process_tar_info`, `_create_index_recursively` on block lists | induction over the layout and the nesting |
| C63 | the decision to use a stored index | case analysis over all flags and archives; refutations |
| C64 | libarchive files, buffers and the cache of archives, as a state machine over call histories | refinement to independent in-memory files, invariant over all histories; refutation for empty members |
| C65 | the index built with libarchive, lookup and open composed | sorted entry numbers, `SeqIndex_Proofs`; composition with C64 |
| C66 | link rows of libarchive entries | computation of the resolved location; refutation for folders |
| C67 | several archive handles on one Python file object | invariant when the archive fits into the buffer; refutation otherwise |
| C68 | from the blocks of a TAR, through index and lookup, to the bytes of any history of reads | composition of C60, C09, C10, C28 and C02 |
| C69 | choice of the archive backend, tables and backends as parameters | loop invariant over the tried backends, then first-match lemmas |
| C70 | choice of the decompressor and detection of the compression | first-match lemmas; refutation for missing modules |
| C71 | RAR backend over the list of entries that rarfile gives | dictionary and path lemmas; refutations for absolute names, "./", listed modes and missing folders |
| C72 | SQLAR backend over the rows of the table, with SQLite's GLOB | pattern lemmas for texts without special characters, dictionary and path lemmas; refutations for special characters, missing folders, ".." |
| C73 | 7z backend: index rows, the file that collects extracted chunks | index lemmas; induction over the chunks for an exact characterization; refutation for longer chunks |
| C74 | ZIP backend: index rows, dictionary of headers, open | lemma for indexes of members with any header offsets; bit arithmetic of modes; refutation for shared headers |
| C75 | password search of ZIP, 7z, RAR, SQLAR over what the library shows and opens | induction over the candidates; refutations for mixed archives and encrypted directories |
| C76 | SquashFS file object: buffered block, position, read, seek, tell | invariant relating the buffered block to the content; induction over the read loop with a measure; induction over calls; refutation for tell and SEEK_CUR |
| C77 | SquashFS iteration over inodes, rows, index, open | nested induction over trees; lemmas for indexes of members; arithmetic of inode references; refutation for devices |
| C78 | the file object of the FAT driver over a table and cluster contents | invariant over call lists: position and current cluster agree with an in-memory file |
| C79 | parsing of the boot sector and of the tables of 12, 16 and 32 bit entries | bit-level round trip against the layout of the specification; composition with C78 |
| C80 | parsing of directory slots: long names, short names, times, clusters | round trip of a directory written as in the specification, split over clusters in any way |
| C81 | the search of entries by path and the FAT mount source | induction over the path: every path leads to the root, an entry or nowhere; composition with C78, C79 and C80 |
| C82 | getattr, readdir, readlink and the extended attributes of the front end over an abstract mount source and the rows of the overlay table | the names kept and the paths inspected are compared through the split of written paths; induction over listings |
| C83 | chmod's effect on the overlay table and the table lookup with the sub mount point cut off | find over the table before and after; witnesses for the root and a nested archive |
| C84 | statfs of the front end and merge_statfs as folds over dictionaries | value of one key followed through the folds |
| C85 | recognition of own paths and filtering of index locations with realpath as a parameter | normal form of absolute paths is the written location; prefix of locations |
| C86 | decisions on parsed commands as lists of actions | case analysis over the decision, induction over the paths to unmount |
| C87 | gather_embedded_files with its stale variable, _open_with_offset and open over an abstract document | numbering of images and texts by quotient and remainder is inverted; induction over the objects found with the set of seen offsets; witnesses for the documents that go wrong |
| C88 | _look_up_path with its loop that ignores names below files, list, lookup, open over trees of objects | the walk is compared with the walk of the specification that stops at files; induction over names and entries |
| C89 | splitting of URLs, opening of a path inside the repository, choice of the default reference | split at the first separator; prefix and path concatenate to one walk; case analysis |
| C90 | _get_path, _list, lookup, open over an abstract fsspec file system; what it means to serve a tree is in the specification, with an example server proved to do so | paths of the mount become paths of the server; induction over listings through the dictionary; stripping lemmas for URLs |
| C91 | the adaptor's ls, info, _open | case analysis and induction over the listing |
| C92 | find_tar_file_offsets and _get_pax_size on the bytes of a file; pax records, octal sizes and entries with data as an independent specification | induction over the entries with the position, the skip counter and the announced size as invariant; inner induction for runs of zero blocks and pax records |
| C93 | _detect_gnu_incremental with an oracle for the time limit | from C92's characterisation; the first header is read without any assumption on the rest |
| C94 | _get_tar_prefix, _fix_incremental_backup_name_prefixes and the flag of _process_tar_info; headers with name and prefix fields as specification | case analysis on the layout of the member's headers |
| C95 | The dictionary of attributes of one member from its pax headers, the base64 decoder of Python's binascii, percent decoding, the collection of rows over all members, on top of the attribute store of C14. | Specification of base64 and percent encoding as relations from bytes to texts; decoders shown to invert them by induction; the dictionary shown to hold exactly the attributes; rows of all members composed with C14. Two refutations. |
| C96 | parse_parallelization and the nested look-ups of the decoders. | Texts as a relation to item lists; dictionary laws; equivalence of acceptance. |
| C97 | open_compressed_file and use_rapidgzip over the table of compression backends and the set of loaded modules. | Composition of C96, C70 and a lemma on first positions in the priority list. Two refutations. |
| C98 | The list of prioritized backends from the arguments. | Reversal turns the last usable name into the first one; then C69 and C70. |
| C99 | Separation of the mount point, removal of neighbouring duplicates, rejection of other duplicates, inferred mount point. | Equivalence with a specification by induction over the arguments; C48 for the inferred one. |
| C100 | Passwords, index folders, options for FUSE. | Split after join; dictionary laws; order of first occurrences as a relation. |
| C101 | tables of the index as a function from names to rows; statements of load, store and clear; decoders as records of what they export, accept and raise; histories with a cut anywhere | invariant over histories: every table holds rows of one export (all of them without cuts); refuted for cuts and unhandled exceptions |
| C102 | block offset tables in the same model | same invariant; independence of formats; refuted for cuts |
| C103 | get_gzip_info on bytes, the name and the row of a single file, then the index (Index_Model) and opening (TarRead_Model, Stencil_Model) | RFC 1952 as a relation on bytes; one row in the root folder; composition with C02; refuted for unread and improper names |
| C104 | the constructor of the mount: filtering of inputs, overlay and control layers, composition, creation of the mount point | case analysis over the constructor, induction over the inputs; look-up in the union; provenance invariant of the side-by-side tree |
| C105 | the decorator that keeps calls out of ignored prefixes, around the overlay model of C30 | prefix test related to paths, frame lemma per call, induction over histories |
| C106 | constructor and destructor over the table of real folders | what each phase adds; invariant that tables are trees |
| C107 | The constructor of SQLiteIndexMountSource with its metadata checks, and _finalize_index, as a step over the archive file and its one stored index; histories of changes and mounts. | Invariants over all histories (origin of the rows; stored time stamp determines the content); case analysis of one mount; counterexample histories for the false parts. |
| C108 | parse_ogg, parse_ogg_page_header, detect_media_type, _convert_to_row and open on lists of bytes; pages and their encoding as a separate specification after RFC 3533. | Induction over the pages with the two tables of streams as invariant; a second invariant (pages do not overlap) over arbitrary bytes; counterexamples for the false parts. |
| C109 | The regular expressions for names, values and attributes as scanners, _find_tag_attribute_spans, and the part of handle_starttag that chooses attributes. | Induction over the attributes of a written tag; dictionary lemmas; counterexamples for the false parts. |
| C110 | lineOffsets, to_char_offset, the conversion to byte offsets and the embedded span, over documents whose characters have any byte width. | Induction over chunks, offsets and characters; C109 for the place in the tag. |
| C111 | DATA_URL_REGEX, the base64 decoder and the choice of the encoding; unescape, encode and the codec search are parameters. | Round trip with an independent base64 encoder by strong induction; case analysis. |
| C112 | _finalize_index and the early return of SQLiteIndexedTar as a step over the written attributes; histories of mounts with interruptions. | Invariant over histories (each written attribute is right), then C50's lemmas for the last mount; counterexample histories for TAR archives. |
| C113 | SingleFileMountSource: construction, the entries made up, list, lookup and open (Lone_Model.v); the returned view is the StenciledFile of C02 | path normalization reduced to the components a path denotes; permissions by cases; reading by C02 |
| C114 | Prefetcher.fetch and prefetch (Lru_Model.v), with the floating point formula as a parameter that is exact at both of its ends | the memory equals the list of distinct values by last use, by induction over the history; the run is the longest descending one in it |
| C115 | check_input_file_type and check_mount_source (Check_Model.v) with the file system, format detection and installed modules as parameters | pieces between separators by an inductive specification; the module import loop reduced to membership; the later branches shown to be unreachable |
| C116 | unmount and unmount_list_checked (Check_Model.v) over an arbitrary state of the system and arbitrary programs | induction over the mount points and the programs tried |
| C117 | the two counters of layers, in the index of a TAR archive and in AutoMountLayer, over trees of layers (Depth_Model.v) | refinement: what is shown equals the tree cut after N layers, by induction over the layers, for every mount source at every depth |
| C118 | the scan of headers with and without ignored zero blocks (Tar_Model) | induction over the archives and the zero blocks between them (Zeros_Props) |
| C119 | the modes of files that become folders (Tar_Model) | bitwise extensionality over the mode (Zeros_Props) |
| C120 | virtual paths, rows and opening of embedded files (HtmlName_Model) | the names by cases over splitext, then the lemmas about lists of members (HtmlName_Props) |
| C121 | the regular expressions for data URLs in texts as scanners, and finditer (HtmlCss_Model) | induction over the links; no match can begin in the text before a link (HtmlCss_Props) |
| C122 | opening of URLs with the regular expression for WebDAV as scanners, the environment, Dropbox and ssh paths, and the decision between folder, file and error; servers as oracles | round trip of written URLs through the expression; soundness for all texts; case distinction over the protocols and the answers |
| C123 | rows of AR members, the index built from them, and opening, on top of Ar_Model and Index_Model | composition of the round trip of the parser (C38) with the lemmas about indexes of members; header offsets increase |
| C124 | the caller and the workers of compress_zstd as a transition system | invariant over all schedules, a decreasing weight for termination, progress by cases |
| C125 | the methods of the ext4 mount source over inodes, the inode table and inode_at of the ext4 module as parameters | relation from locations to inodes as specification; induction over the entries of a folder |
| C126 | PDFMountSource over the gathered objects: rows, reading at the time of mounting, lookup, listing and open | composition of the theorems about gathered objects with the lemmas about indexes made from members in one go |
| C127 | the whole way of a request: the index of a TAR archive, the FileVersionLayer with hard links, the handles of FuseMount, and StenciledFile reads on one shared archive file | an invariant over the history: the entry of a handle stays the file it was opened for, with any position, until it is released; hard links by induction on the chain; reads by C01 |
| C128 | readdir over the FileVersionLayer over the index of a TAR archive | from the rows of the finished index (C11, C12) to the members of the archive; list_mode and lookup agree by C10 |
| C129 | the stack of C127 and C128 (block list, index, version layer, FUSE requests), with the path spelled PATH.versions/K | the occurrences in the index are shown to be the members at the location in archive order (a sorted permutation), so that the numbering theorem of the index (C09) and the spelling theorem of the version layer (C21) apply; reading as for C127 |
| C130 | The index of a recursively read TAR archive (Tar_Model.index_part with any number of levels) behind the served requests of C127 and the listing of C128 | Every inserted row belongs to a held member or a mount point (induction over the levels); the look-up then finds the row with the greatest header offset; C01 gives the bytes; the listing lemmas of C128 are redone for any set of present locations |
| C131 | unlink, rmdir and rename of the write overlay (Overlay_Model.v) with their errors | from the invariant of C30 about reachable overlays; refuted where a path was made again over a deleted one |
| C132 | the calls of HTMLDataURLParser with _update_end_offset, and gather_embedded_files as a whole (HtmlDoc_Model.v) | invariant over the calls that relates each candidate to the piece of the document it comes from; then C109, C110 and C121 for each candidate |
| C133 | FsTime_Model: _get_modification_time with the regular expression of strptime, ordinals of dates, mktime for an arbitrary time zone | The calendar is specified by going from day to day; induction shows that ordinals count days; each directive of the format is shown to take exactly its digits |
| C134 | DosTime_Model: the fields of ZipInfo.date_time, the checks of datetime, the list of rows as far as times go | The bits of date and time are taken apart again by division; the calendar as for C133; induction over the entries for the failing archive |

Not expressible: real wall-clock behaviour, memory safety of C extensions, the correctness of third-party decoders
(zlib, xz, rapidgzip, libarchive, ...), the FUSE kernel protocol. These are parameters of the models.

## 4. What is modelled

The header of each `<Topic>_Model.v` and the comment at each definition give the exact lines and simplifications. In short:

| topic | code | left out |
|-------|------|----------|
| Stencil | StenciledFile.py `RawStenciledFile` | closed underlying files |
| Joined | StenciledFile.py `RawJoinedFileFromFactory`, `LambdaReaderFile`, `ZeroFile` | lock |
| Conc | locked reads of StenciledFile.py and unlocked `SQLiteIndexedTar.read` as atomic steps | preemption inside one seek or read |
| Block, Lru | BlockParallelReaders.py `BlockParallelReader`, utils.py `LRUCache`, `Prefetcher` | the decoders; worker processes (a result is the requested slice) |
| Blob | SQLiteBlobFile.py | SQLite itself |
| Path | posixpath.normpath, `SQLiteIndex.normpath` | Unicode |
| Index, Build | SQLiteIndex.py tables, `set_file_info(s)`, `_try_add_parent_folders`, `_finalize_files_table`, `lookup`, `list`, `versions` | SQL parser; reals for mtime |
| Crash | the statements of index creation as atomic steps; `_load_index` table checks | SQLite's journal (a statement or transaction is atomic) |
| Xattr, Hash | xattr tables and getters; hashing.py; SQLiteIndexMountSource.py 118-209 | hash functions (any state machine) |
| Union, Version, Subvol, Prefix, Auto, Layers | mountsource/compositing/*.py | the innermost sources (arbitrary functions) |
| Factory | mountsource/factory.py: backend selection; compressions.py: find_available_backend, detect_compression | URLs (fsspec, git, ssh), the backends themselves |
| Rar | mountsource/formats/rar.py: file dictionary, list, list_mode, lookup, versions, open | rarfile itself, passwords |
| Sqlar | mountsource/formats/sqlar.py: name dictionary, list, list_mode, lookup, open; GLOB of SQLite | passwords, SQLite itself, characters of several bytes |
| Seven | mountsource/formats/py7zr.py: CachedFile, open_in_memory, rows, open | py7zr itself |
| Zip | mountsource/formats/zip.py: rows, header dictionary, open | zipfile itself, calendar dates |
| Pass | _find_password of zip.py, py7zr.py, rar.py, sqlar.py | key derivation, decryption |
| Sparse, Tar, Append, TarRead | formats/tar.py: opening, sparse maps, indexing, index checks, appending | header parsing (Python's tarfile), xattrs, GNU incremental name prefixes, parallel indexing |
| Overlay, Commit, Fuse, Multi, Command | ratarmount/WriteOverlay.py, FuseMount.py | FUSE protocol, GNU tar (documented effect), ignored prefixes |
| Split, Strip | compressions.py, utils.py, actions.py | parser of glob patterns |
| Ar, Asar, Folder | formats/ar.py, asar.py, folder.py | JSON parser, operating system calls |
| Format | formats.py | is_tar, is_zipfile, deflate check (parameters) |
| Lib, LibIndex, LibShared | formats/libarchive.py | the library (entries are given; a front to back format for file objects), encryption check |
| Locate, Spill | SQLiteIndex.py location of indexes, move of an index to disk | permissions other than "writable or not", links |
| Squash | mountsource/formats/squashfs.py: SquashFSFile, SquashFSImage iteration, rows, open | PySquashfsImage itself, decompressors, find_squashfs_offset, statfs |
| FAT volumes | Fat_*, FatDir_* | writing, the dirty flag, the FSInfo sector, the OEM encoding (a parameter), checks of image names |
| FAT mount source | FatTree_* | the cache of read directories (reading is repeated in the model), the time zone (a parameter) |
| Front end requests | Front_Spec, Front_Model, Front_Proofs, Front_Props | mtime fractions, logging, opendir/releasedir |
| Own mount point | Own_Spec, Own_Model, Own_Proofs, Own_Props | passwords, options and layers of the new mount source, Windows separators |
| PDF | Pdf_Model, Pdf_Spec, Pdf_Proofs, Pdf_Props | pypdf, hashed names of unnamed objects, index rows |
| Git | Git_Model, Git_Spec, Git_Proofs, Git_Props | pygit2, commit time taken from HEAD instead of the reference, user and group |
| fsspec | Fsspec_Model, Fsspec_Spec, Fsspec_Proofs, Fsspec_Props | fsspec's file systems, Dropbox, dates, listings of plain names, URL chaining of SQLiteIndexedTarFileSystem's constructor |
| quick TAR walk and GNU incremental archives | Offsets_* | the time that passes (oracle); file positions; signs, underscores and 0o in octal sizes; text encodings of names; logging |
| Pax | tar.py 217-231, 410-480; utils.py 317-318; binascii.a2b_base64 and urllib.parse.unquote of the standard library | tarfile's parsing of the pax records; the parallel variant of the member loop |
| Cli | CLIHelpers.py 152-221; actions.py 181-235, 277-289; compressions.py 470-620; utils.py 321-328 | argparse itself; check_input_file_type (a parameter); json.loads (a parameter); non-ASCII digits; warnings |
| Seek | SQLiteIndex.py 1386-1602 | the decoders themselves (what they export and accept is arbitrary), moving an index from memory to a file (Spill), reading the file to its end before exporting |
| Single | compressions.py 388-405, tar.py 946-1011 | the decompressor and fstat of its file object (a parameter), detecting that a file is no TAR archive |
| Mounts | FuseMount.__init__ 115-297, _close 307-317 and 383-392; WriteOverlay.py __init__ 73-100, check_ignored_prefixes 24-47 | temporary log file of the control interface, forwarded options, recursive and version layers on top (Auto, Version), folder cache of the union, dangling links as mount points, threads |
| Reuse of indexes | Reuse_Model.v, Reuse_Spec.v, Reuse_Proofs.v, Reuse_Props.v | Archives given as open files or URLs, several candidate places for the index (Locate), check sums (Hash), version warnings, an index file given explicitly with the index argument. |
| OGG | Ogg_Model.v, Ogg_Spec.v, Ogg_Proofs.v, Ogg_Props.v | OGMStreamParser and the comment parser (unreachable), log messages, the transform option, might_be_format (Format), CRC checks (the code does none). |
| Files embedded in HTML | Html_Model.v, Html_Spec.v, Html_Proofs.v, Html_Props.v | Python's HTMLParser (its reports are a parameter), end offsets of candidates from handle_data and style sheets, html.unescape and unquote, codecs, the names of the files (_convert_to_row). |
| Check sums over mounts | Rehash_Model.v, Rehash_Props.v | Metadata (Reuse), appended archives, indexes that cannot be written. |
| Lone (C113) | Lone_Model.v, Lone_Props.v | statfs; locks (see C03); the buffer of buffered views; failures of the given function; seek and tell that return None |
| Prefetch (C114) | Lru_Model.v, Prefetch_Props.v | the values of the floating point formula between its ends |
| Check (C115, C116) | Check_Model.v, Check_Props.v | texts of messages; the list of programs found in PATH; races between checks and later use; modules imported by other modules as a side effect |
| Depth (C117) | Depth_Model.v, Depth_Props.v | folders inside of archives; formats other than TAR and compressed files; names of mount points; empty TAR archives; lazy mounting |
| Archives behind each other (C118, C119) | Zeros_Props.v over Tar_Model.v | headers that are damaged between archives |
| Names of embedded files and style sheets (C120, C121) | HtmlName_Model.v, HtmlCss_Model.v | mimetypes.guess_extension, SHA-256 and HTMLParser are parameters |
| URLs of other machines | Url_Model.v, Url_Spec.v, Url_Props.v | fsspec, sshfs, webdav4 and dropboxdrivefs themselves; timeouts; the lifetime of the opened file |
| Mounted AR archives | ArMount_Model.v, ArMount_Props.v | names that cannot be decoded; buffering |
| Compression into frames | Zcompress_Model.v, Zcompress_Spec.v, Zcompress_Props.v | the compressor itself, exceptions of workers and files |
| ext4 images | Ext_Model, Ext_Spec, Ext_Props | the ext4 module itself, the injected peek method, closing the file |
| Mounted PDF documents | PdfMount_Model, PdfMount_Props | pypdf; sha256; that the index stays in memory |
| Mounted TAR archive end to end | Served_Model.v, Served_Spec.v, Served_Proofs.v, Served_Props.v | sparse members (Sparse_Model.v), concurrency (Conc_Model.v), write overlays (Overlay and Front models), nested archives (C68) |
| Listing a mounted TAR archive | Ls_Model.v, Ls_Spec.v, Ls_Proofs.v, Ls_Props.v | write overlays (Front_Model.v), union mounts (Union_Model.v), archives in archives |
| Old versions in a mounted TAR archive | OldVer_Spec, OldVer_Proofs, OldVer_Props | locations with something below them or with members of type D; paths with versions in several components (C21 treats those for any source) |
| Recursively mounted TAR archive | DeepLs_Proofs, Deep_Spec, Deep_Proofs, Deep_Props | damaged nested archives (their complete members are indexed, C60), mount points with empty or dotted names, compressed nested archives (AutoMount) |
| C131 errors of removing and renaming | OverlayFail_Props.v (theorems) over Overlay_Model.v | errors of the disk itself; calls that the kernel rejects before they reach the program (unlink of a folder, rmdir of a file) |
| C132 embedded files of a whole HTML document | HtmlDoc_Model.v, HtmlDoc_Spec.v, HtmlDoc_Proofs.v, HtmlDoc_Props.v | Python's HTMLParser: which calls it makes is given by the pieces of the document (HtmlDoc_Spec.v); texts and values with character references, which the parser replaces before it reports them |
| Times of remote files | FsTime_* | digits outside ASCII; fractions of seconds of datetimes; the C library's mktime beyond a choice of offset for each local time |
| Times of ZIP and RAR entries | DosTime_*, ZipTime_* | extra fields of ZIP with other times (zipfile does not use them); the fallback to another backend after the error |

Not modelled at all: the command line parser, progress bars and log messages, the other archive backends (zip, rar, 7z,
squashfs, ext4, fat, git, html, ogg, pdf, fsspec), the compression backends, the gzip and bzip2 seek point
indexes as data, threads outside C03, fusepy.

## 5. Findings

Every line is a `_refuted` theorem or a remark at a model definition; it is a claim about the code as modelled.

* File objects (C02, C05-C08): a rejected seek leaves the new (negative) position; `BlockParallelReader.read(-1)` loses the last
  byte and steps back; `LRUCache` lookups of missing keys corrupt the usage list, `setdefault` ignores the size limit;
  one write larger than two blobs makes an oversized blob.
* Concurrency (C03): `SQLiteIndexedTar.read` seeks and reads without the lock.
* Index (C11-C15): generated parent folders share the header offset of a member, so its extended attributes show on the
  folder; a folder shadowed by a file or a block device (bit 14 of the mode) is not generated; paths starting with '../'
  are normalized differently in queries and in rows; two windows during creation in which an empty index is accepted after a crash.
* Union (C18, C19): list shows the metadata of the first source, lookup of the last; the folder cache is wrong if one source has a file
  where another has a folder.
* Layers (C20-C27, C46): the subvolume layer pops its marker before `try`; get_mount_source of a version layer carries a wrong
  marker; `.versions/0` and `.versions/-1` resolve; missing paths below `.versions` fail an assertion or list as empty; a hard
  link to its own path gives the oldest version; hard links below versioned folders are not resolved; `is_mountable` creates
  folders and so blocks later mounts; files of nested subvolumes cannot be opened; remove-prefix drops the version and passes "" for
  the root; automount: versions out of range wrap around, nested archives are hidden by their mount point, empty
  archives list as missing, lazily mounted names depend on the history with stripped extensions.
* Members (C28, C29): sparse files without holes and unaligned pieces cannot be opened; `read` returns bytes past the member.
* Overlay (C30-C32, C47): truncating loses the content in the overlay; renaming a copy lets the file of the archive reappear;
  renaming a folder leaves the files of the archive behind; symlink, link and mknod over a deleted name stay hidden and do
  not create parents; files are marked as deleted even if the operation failed; renaming onto a hard link overwrites all
  names; chown(-1,-1) fails; committing ignores metadata, drops implied folders, leaves other spellings of a name, and
  commits links that were hidden.
* FUSE (C33-C35): handles leak; writing reopens by path; readers opened before a copy-up are stale; a failing write leaves a
  closed handle; with --disable-union-mount the control interface ("/" as key) and sources with empty base name fail; an
  empty argument list cannot be expressed in the control file.
* Names (C36, C37, C48): the opened file need not be one of the joined parts; a hidden file is stripped to the empty name, its
  mount point is then the parent folder; URLs with a trailing slash are mounted on the current folder.
* AR, ASAR, folders (C38, C39, C41, C49): GNU long names other than the first are not found; thin members are named by number; BSD
  names longer than the member give a negative size; "#1/abc" raises ValueError; one link in an ASAR makes all of it unreadable,
  empty folders list as missing, and all rows share header offset 0; the folder listing swaps two arguments, so link targets are
  wrong; indexed folders never resolve links and cannot find anything but regular files again.
* Hashes (C42, C50): the SMPlayer hash is wrong with short reads; attributes user.hash.* in the archive suppress the hashing.
* Formats (C51, C53): find_squashfs_offset is wrong when the file is not at position 0; files of fewer than two bytes are skipped.
* Index location (C44, C55-C57, C59): archives whose paths differ in '/' and '_' share an index file; after a faulty compressed
  index its temporary copy hides the next candidate, which is deleted; clear_indexes ignores read-only; ':memory:' is probed as a
  file in the current folder; without a writable candidate the connection in use is closed.
* TAR (C61, C62): a file that is only named *.tar is mounted as an empty folder; block devices and hard links have no type bits;
  nested archives of a truncated archive are not mounted; stripping ".tar" from a hidden file gives the empty name.
* Appending (C45, C63): see the refuted theorems in `Append_Props.v`: a nested TAR or a hard link at the end loses the appended
  members; a truncated archive cannot be opened again with its own index; StopIteration escapes from the check; changes of
  members that are not sampled, a read-only index of a grown archive and a changed archive of the same size are not noticed.
* Libarchive (C64-C67): empty members open but cannot be read; hard links in folders dangle; archives given as file objects that
  are larger than the buffer of 1 MiB are read wrongly because all handles share the position of the file object, even when the
  members are read in order (`take` requires a smaller index although an equal one would do).
* Reading TAR members (C68): a file with another member below its path is hidden by a generated folder.
* Compression detection (C70): a format whose check accepts the file but for which no module is installed ends the detection,
  although a later format could be opened.

Remarks without a theorem: `_filter_index_locations_in_fuse_mount` turns the empty folder (beside the archive) into the current
folder; `get_gzip_info` loops at the end of a file with the name flag and uses an invalid struct format; the fsspec class
strips a protocol to one character.
* C71: RAR entries with absolute names are listed but not found by lookup (C71_absolute_refuted). An entry "./" is listed as "." (C71_dot_refuted). A folder without an entry of its own is listed with the mode of the last entry below it, i.e. as a regular file (C71_listed_mode_refuted). A missing path or a file lists as an empty folder instead of not at all (C71_missing_list_refuted).
* C72: SQLAR folder names are used as GLOB patterns without escaping: a folder with "[" lists as empty (C72_bracket_refuted) and one with "?" lists files of other folders (C72_question_mark_refuted). Files whose folders have no rows are unreachable, or the folder is listed but not found (C72_missing_parents_refuted). Names with ".." give a folder ".." (C72_dots_refuted). Missing paths and files list as empty folders (C72_missing_list_refuted).
* C73: when py7zr writes a chunk that is longer than everything before it, the beginning of that chunk is dropped, because the number of bytes to skip gets negative (C73_chunks_refuted; C73_chunks_exact says exactly when contents are right).
* C74: ZIP entries that share a local header are opened as the last one of them (C74_shared_header_refuted).
* C75: if only later files are encrypted, then no password (ZIP, 7z) or a wrong one (RAR) is used although a fitting one was given (C75_mixed_refuted). If the directory is encrypted and no password fits, then the archive is mounted as an empty folder (C75_wrong_password_refuted). An empty password is never tried for ZIP (C75_empty_password_refuted).
* C76: after a read, tell() still reports the position of the last seek, and seek(..., SEEK_CUR) starts there (C76_tell_after_read_refuted). Readers that only use absolute seeks are not affected (C76_reads_content_partial).
* C77: if PySquashfsImage's mode has the bits of the file type, then a character device is shown as a symbolic link without a target, because S_IFREG is added to its mode (C77_character_device_refuted).
* C78: on FAT images `seek` to a negative position is not rejected and a seek beyond the end is moved to the end (`C78_negative_seek_refuted`, `C78_seek_beyond_end_refuted`).
* C79: the last entry of a FAT12 table is dropped unless the table's size is 2 modulo 3; the type is determined without the root directory's sectors, so that a FAT12 volume with slightly less than 4085 clusters is read as FAT16; a short file that starts like a boot sector makes the check raise struct.error (`C79_last_entry_refuted`, `C79_type_refuted`, `C79_check_refuted`).
* C80: the end mark of a FAT directory only ends the current cluster, so that stale entries in later clusters come up; an orphaned long name makes the whole directory unreadable (`C80_end_of_directory_refuted`, `C80_orphaned_name_refuted`). A cluster chain that comes back to itself is followed without end.
* C81: `exists` of the FAT mount source raises ENOTDIR for a path below a file where `lookup` answers None; `list` normalizes paths and `lookup` does not, so that the empty path is found but not listed and paths with `..` are listed but not found (`C81_exists_refuted`, `C81_list_refuted`).
* C82: readdir of a path that does not exist yields an empty folder instead of ENOENT; names equal to the overlay database's are hidden in every folder although they can be opened.
* C83: chmod/chown/utimens on the root are stored under ('','') but read under ('','.'), so they have no effect; for files of nested archives _lookup cuts the sub mount point off the path before asking the overlay table, so changes do not show, and changes to /f show on /a.tar/f.
* C84: FuseMount.statfs computes the overlay's free space and overwrites the result with the sources' statistics (FuseMount.py 905).
* C85: _filter_index_locations_in_fuse_mount strips file:// but then resolves the unstripped URL, turns :memory: into a file of that name, and tests index folders before resolving them, so relative folders inside the mount are kept; paths with two leading slashes are not recognised as own.
* C86: an absolute mount point inside the running mount is used unchanged as path below the mount (/mnt/x/sub is mounted at /mnt/x/mnt/x/sub, and unmounting /mnt/x/sub does not find it); the argument list that _process_parsed_arguments returns for unmounting other mounts is discarded by _parse_command.
* C87: pdf.py 122-133 tests a stale variable for numbered objects: page images and texts are not shown except for the very first object of a document without embedded files; a document with text only fails to mount with an UnboundLocalError; empty attachments raise an error when opened.
* C88: git.py 55 ignores names below files, so /README/x shows README; one symbolic link with a target that is not UTF-8 makes list() of its folder raise; versions() is 1 for missing paths; the mtime is that of HEAD although another reference is mounted (git.py 33).
* C89: git.py 38-39 uses init.defaultBranch, a setting for new repositories, before the checked-out branch, so the mount shows another branch or fails if the repository has no branch of that name.
* C90: list() of a file returns an empty listing instead of None because fsspec lists a file as itself; versions() is 1 for missing paths.
* C91: SQLiteIndexedTarFsspec.py 23 indexes one character (path[-len-3]) instead of slicing, so paths with the protocol are looked up as a single character; line 53 looks up the bare name instead of the path and prefixes the key twice, so entries of sources that list plain names are missing or wrongly named.
* C92: find_tar_file_offsets raises ValueError for a size in base 256 (GNU tar, files of 8 GiB or more), so nothing behind such a file is seen by the detection of incremental archives (`C92_base_256_refuted`).
* C92: find_tar_file_offsets does not skip the extension headers of old GNU sparse files; it can report a position inside the data of such a file as a split point (`C92_sparse_refuted`).
* C93: an incremental archive whose first folder has a name of more than 100 bytes is not recognised, because only entries behind a regular file (or the very first) are looked at (`C93_refuted`).
* C94: in an incremental archive, a ustar member whose prefix field is one folder loses that folder (`C94_refuted`).
* C94: a symbolic link, or any other non-file, in front of the first folder entry of an incremental archive is shown below a folder named like a time stamp (`C94_all_names_refuted`).
* C95: one LIBARCHIVE.xattr value whose base64 text is broken (length 1 modulo 4) raises out of the member loop, so this member and all members behind it are missing from the index (tar.py 226, 452-480).
* C95: attribute names under LIBARCHIVE.xattr that are not valid UTF-8 are shown with replacement characters (tar.py 226, urllib.parse.unquote).
* C97: if rapidgzip is installed and indexed_gzip is not, a gzip file smaller than four seek-point spacings is recognised and then opened with indexed_gzip, which is None: AttributeError (compressions.py 588).
* C97: the parallel xz decoder is never used for files opened from a path, because block_boundaries is looked up on the compressed file object instead of the decompressed one (compressions.py 603): -P xz:<n> has no effect.
* C100: a password file with CRLF line ends yields passwords that end with a carriage return (actions.py 228).
* C96: of several items for one backend in -P only the last one is checked for being a number (CLIHelpers.py 153-166).
* CLIHelpers.py 188: determine_recursion_depth is called with the unknown keyword recursion_depth, which it ignores, so the warning about options without effect appears although a recursion depth is given. Not modelled: only a message.
* C101: a process that dies while storing gzip seek points leaves a table with a part of them, which the next mount imports without a check that it is complete (C101_crash_refuted). The same happens if exporting raises something else than ZranError, RuntimeError or ValueError, or anything at all when only rapidgzip is installed, because the handler then refers to the missing module indexed_gzip (C101_failed_export_refuted).
* C102: the same for block offsets of bzip2 and Zstandard archives (C102_crash_refuted).
* C103: get_gzip_info unpacks the length of the extra field with the invalid struct format '<U', so that the stored name of a gzip file with an extra field is never used; a stored name in Latin-1, as RFC 1952 has it, is not used either unless it is valid UTF-8 (C103_unread_name_refuted). A stored name with a slash gives a file that is listed and cannot be opened, an empty one an empty mount, and an archive file called '..gz' a file called '.' (C103_improper_name_refuted). A compressed TAR archive without members is mounted as a file.
* C104: a write overlay that is the mount point and is also named as an input before an archive is not put on top (the second mention of the mount point is dropped), so that the archive's files win over changed ones.
* C104: `--disable-union-mount` with a write overlay and at least one input never starts: the overlay checks that its database is shown at the root, but sources side by side are only shown below their names.
* C105: `rename` is the only modifying call without `check_ignored_prefixes`: files can be renamed into the control folder (and land in the overlay folder), and control files can be renamed away.
* C107 (`C107_verify_refuted`): SQLiteIndexMountSource._finalize_index stores the metadata again after loading an index. If a changed archive is mounted once without verifyModificationTime, the new time stamp is stored with the old table, and all later mounts with verifyModificationTime accept the stale table.
* C107 (`C107_default_refuted`): by default only archives that became smaller are recognized as changed; a replaced archive of at least the same size is shown with the old table, although time stamp and size are stored.
* C107 (`C107_warned_refuted`): for the same reason as above, the warning that an index was made with other arguments (encoding, transform) appears once; the next mount with the same arguments shows the old table without any warning.
* C108 (`C108_numbers_refuted`): parse_ogg never updates last_sequence_number, so the check that page numbers increase never fails and missing pages are never reported.
* C108 (`C108_all_shown_refuted`): chained streams with the same serial number: only the last one is shown, the bytes of the earlier ones are not reachable (a warning is logged).
* C108 (`C108_size_refuted`): the size of a stream whose last page is cut off counts bytes that are not in the file.
* C109 (`C109_capitals_refuted`): HTMLParser reports attribute names in lower case but _find_tag_attribute_spans compares them with the text of the document, so data URLs in `<IMG SRC=...>` are lost.
* C109 (`C109_colon_refuted`): HTML_NAME_PATTERN has no colon or underscore, so the search stops at such attributes; data URLs in xlink:href, and all behind such an attribute, are lost.
* C109 (`C109_unquoted_refuted`): of a value without quotes only the letters, digits, periods and hyphens at its start are taken, which gives an empty file.
* C110 (`C110_multibyte_refuted`): _open_with_span reads as many characters as the span has bytes; a data URL with multi-byte characters is read with what follows it in the document.
* C111 (`C111_always_refuted`): a data URL without charset and with a character outside of ASCII raises UnicodeEncodeError, and as all data URLs are opened for their sizes, the whole document cannot be mounted.
* C112 (`C112_tar_refuted`, `C112_tar_resumed_refuted`): SQLiteIndexedTar returns before _finalize_index if an index was loaded, so for TAR archives hashing that was interrupted is never resumed, contrary to the comment in _compute_and_store_hashes, and algorithms asked for later are not computed.
* C112 (`C112_once_refuted`): one unsupported algorithm in --hashes makes the count of stored hashes incomplete for each file, so that every mount reads and hashes all files again.
* **C113 a file that cannot be sought in is empty** (`C113_unseekable_refuted`): SingleFileMountSource with a function for opening shows the size 0 for files that cannot be sought in, so that they cannot be read through a mount. Also only the slashes around a path are removed before comparing (`C113_spelling_refuted`): `/b/../name` is not found.
* **C115 the helpful error for missing modules is unreachable** (`C115_module_refuted`): check_input_file_type lines 121-146 are only reached if a supported format was detected, but then line 94 has already accepted the file. A RAR file without the module rarfile is refused with just: cannot be opened.
* **C115 the warning for zstd files with one frame is never shown** (`C115_warning_refuted`): the backend is looked up as `indexed_std` instead of `indexed_zstd` (CLIHelpers.py 61); the KeyError is suppressed.
* **C117 a negative recursion depth is not unlimited** (`C117_negative_refuted`): the help says that a negative value represents infinite depth and that --recursive is the same as --recursion-depth -1, but determine_recursion_depth hands the number on as it is. The members of the TAR archive itself are then already too deep, so that mounting any uncompressed TAR archive fails and compressed ones are shown as one file.
* **C117 the depth 0 differs from no recursion for compressed TAR archives** (`C117_zero_refuted`), which are shown as one file, and 1 does not mount archives inside of them (`C117_one_refuted`), because decompressing counts as a layer if a depth is given but not without.
* **C117 wrong warning** (`C117_warning_refuted`): process_trivial_parsed_arguments calls determine_recursion_depth with recursion_depth= instead of recursionDepth=, so that --strip-recursive-tar-extension is said to have no effect with --recursion-depth alone although it has.
* C120: a file of unknown type that a saved page has from the place / (html.py 456-493) gets a row with an empty name in the root folder; no path finds it (C120_root_refuted).
* C121: the comment that tells where a file came from is ignored if the data URL behind it is in quotes (html.py 121-125); the file is then shown under its digest (C121_quoted_original_refuted).
* `try_open_url`: the regular expression for webdav:// URLs matches every text, so the error message about special characters in user name and password is never shown. With a slash in the password, the user name and the start of the password are used as host and port, and the rest becomes part of the path (C122_special_characters_refuted).
* `compress_zstd` with frameSize 0 writes an empty file and reports no error (C124_zero_refuted).
* ext4: symbolic links are shown without a target (ext4.py 63), so that readlink gives an empty string (C125_link_target_refuted); versions gives 1 for paths that do not exist (C125_versions_refuted); one name that is not valid in the chosen encoding makes the listing of the whole folder raise UnicodeDecodeError, so that none of its files is visible (C125_undecodable_refuted).
* C127: with --transform, hard links in TAR archives lead nowhere, because only the names of members are transformed and not the targets of hard links; the link then looks like an empty file.
* C128: hard links in TAR archives are listed without a file type, while stat shows the type of the file they lead to.
* C129_link_refuted: hard links are not followed below PATH.versions, so the newest version of a path that is a hard link is shown as an empty file without a type although PATH shows the target.
* C130_hard_link_refuted: a hard link in a nested TAR archive that is mounted recursively is looked up in the outermost archive, because the link name is stored without the mount point of its archive (tar.py 252) and FileVersionLayer joins it with the mount point of the whole mount source (versioning.py 108-118). If the outer archive has a file of that name, the link shows the data of the wrong file.
* C131: when a file of the archive is removed, a fifo or node is made in its place (which stays hidden, see C30) and then the folder, which looks empty, is removed, `rmdir` fails with EIO but the folder is hidden all the same, because `_mark_as_deleted` runs in a `finally` clause (WriteOverlay.py 374-393). `C131_empty_folder_refuted`.
* C133: the fact modify of an FTP server, which is in UTC, is read as local time (fsspec.py 136, time.mktime), so that modification times are wrong by the offset of the local time zone; a time with a fraction of a second, which RFC 3659 allows, raises ValueError, which the listing of the folder does not catch (C133_ftp_refuted, C133_fraction).
* C134: an entry of a ZIP archive without a date (the date 0 has month 0 and day 0), or with another date that is not in the calendar, makes datetime raise ValueError for the whole archive, so that ZipMountSource cannot mount it although zipfile reads it (zip.py 48; C134_no_date, C134_not_mounted, C134_zip_refuted).

## 6. Theorems and assumptions

`Print Assumptions` under each of these prints "Closed under the global context".

<!-- theorems -->

* C01 (proved, Stencil_Props): C01_stenciled_read_at
* C02 (partial, Stencil_Props): C02_stenciled_history_partial, C02_stenciled_history_actual, C02_rejected_seek_refuted
* C03 (proved, Conc_Props): C03_locked_readers, C03_no_deadlock, C03_unlocked_direct_reads_refuted, C03_unlocked_beside_locked_refuted
* C04 (proved, Joined_Props): C04_joined_history, C04_joined_gather
* C05 (partial, Joined_Props): C05_callback_file_partial, C05_zero_file_callback, C05_rejected_seek_refuted
* C06 (partial, Block_Props): C06_block_reader_partial, C06_read_all_refuted
* C07 (partial, Lru_Props): C07_lru_partial, C07_failed_getitem_refuted, C07_setdefault_refuted
* C08 (partial, Blob_Props): C08_blobs_hold_written, C08_blobs_read_back, C08_blob_part, C08_blob_size_partial, C08_blob_size_refuted
* C09 (proved, Index_Props): C09_version_numbers, C09_occurrences_exist, C09_root_version
* C10 (proved, Index_Props): C10_list_agrees_with_lookup, C10_relative_path_refuted
* C100 (partial, Cli_Props): C100_passwords, C100_folders, C100_fuse, C100_fuse_extra, C100_crlf_refuted
* C101 (partial, Seek_Props): C101_next_mount_loads, C101_loads_are_complete_partial, C101_loads_are_parts, C101_decoders_keep_apart, C101_crash_refuted, C101_failed_export_refuted
* C102 (partial, Seek_Props): C102_next_mount_sets, C102_blocks_are_complete_partial, C102_blocks_are_parts, C102_formats_keep_apart, C102_crash_refuted
* C103 (partial, Single_Props): C103_single_file_partial, C103_every_file_has_a_name, C103_unread_name_refuted, C103_improper_name_refuted, C103_only_without_members
* C104 (partial, Mounts_Props): C104_later_input_wins, C104_overlay_wins, C104_control_wins, C104_nothing_else, C104_refuses, C104_missing_ignored, C104_starts, C104_side_by_side_overlay_refuted, C104_overlay_at_point_refuted
* C105 (partial, Mounts_Props): C105_calls_refused, C105_other_calls_unaffected, C105_control_intact_partial, C105_rename_refuted
* C106 (proved, Mounts_Props): C106_failure_leaves_no_trace, C106_leaves_no_trace, C106_mounted
* C107 (partial, Reuse_Props): C107_only_past_contents, C107_unchanged, C107_verified, C107_shrunk, C107_recreate, C107_reused, C107_backend, C107_read_only, C107_old_index, C107_verify_refuted, C107_default_refuted, C107_warned_refuted
* C108 (partial, Ogg_Props): C108_demultiplexed, C108_again, C108_separate, C108_numbers_refuted, C108_all_shown_refuted, C108_size_refuted
* C109 (partial, Html_Props): C109_found, C109_absent, C109_tag, C109_capitals_refuted, C109_colon_refuted, C109_unquoted_refuted
* C11 (proved, Build_Props): C11_every_member_reachable, C11_ancestors_are_folders_partial, C11_some_version_is_folder_partial, C11_shadowed_folder_refuted, C11_block_device_refuted
* C110 (partial, Html_Props): C110_offset, C110_bytes, C110_text, C110_attribute, C110_multibyte_refuted
* C111 (partial, Html_Props): C111_base64, C111_plain, C111_charset, C111_open, C111_always_refuted
* C112 (partial, Rehash_Props): C112_hashes, C112_right, C112_tar_partial, C112_tar_resumed_refuted, C112_tar_refuted, C112_once_refuted
* C113 (partial, Lone_Props): C113_name, C113_tree, C113_open, C113_fresh, C113_refused, C113_unseekable_refuted, C113_spelling_refuted
* C114 (proved, Prefetch_Props): C114_memory, C114_prefetch, C114_ends
* C115 (partial, Check_Props): C115_url, C115_file, C115_fallback, C115_monotone, C115_module_refuted, C115_warning_refuted
* C116 (proved, Check_Props): C116_unmount, C116_tried
* C117 (partial, Depth_Props): C117_depth, C117_recursive, C117_default, C117_negative_refuted, C117_zero_refuted, C117_one_refuted, C117_warning_partial, C117_warning_refuted
* C118 (proved, Zeros_Props): C118_all_archives, C118_nothing_else, C118_two_archives
* C119 (proved, Zeros_Props): C119_folder_permissions
* C12 (proved, Build_Props): C12_finalize_loses_and_invents_nothing
* C120 (partial, HtmlName_Props): C120_lookup_and_open_partial, C120_root_refuted
* C121 (partial, HtmlCss_Props): C121_style_sheet, C121_places, C121_sound, C121_quoted_partial, C121_quoted_original_refuted
* C122 (partial, Url_Props): C122_webdav, C122_not_mixed, C122_dropbox, C122_ssh, C122_general, C122_refused, C122_special_characters_refuted
* C123 (partial, ArMount_Props): C123_lookup_and_open_partial, C123_nothing_else_partial
* C124 (proved, Zcompress_Props): C124_frames, C124_round_trip, C124_ends, C124_zero_refuted
* C125 (partial, Ext_Props): C125_lookup_and_open, C125_list, C125_no_list, C125_check, C125_versions_refuted, C125_link_target_refuted, C125_undecodable_refuted
* C126 (partial, PdfMount_Props): C126_attachments_partial, C126_nothing_else_partial
* C127 (partial, Served_Props): C127_open_and_read, C127_stat, C127_new_handles, C127_released, C127_missing, C127_transform_refuted, C127_stale
* C128 (partial, Ls_Props): C128_list, C128_nothing_below, C128_modes, C128_link_type_refuted
* C129 (partial, OldVer_Props): C129_open_and_read, C129_stat, C129_no_more, C129_folder, C129_list, C129_link_refuted
* C13 (partial, Crash_Props): C13_crash_safety_partial, C13_creation_succeeds, C13_crash_windows_refuted
* C130 (partial, Deep_Props): C130_open_and_read, C130_stat, C130_mount_point, C130_list, C130_hard_link_refuted
* C131 (partial, OverlayFail_Props): C131_absent, C131_not_empty, C131_file_removed, C131_empty_folder_partial, C131_empty_folder_refuted
* C132 (proved, HtmlDoc_Props): C132_gathered
* C133 (partial, FsTime_Props): C133_ftp_local_partial, C133_ftp_refuted, C133_fraction, C133_no_such_day, C133_aware, C133_number
* C134 (partial, DosTime_Props, ZipTime_Props): C134_zip_time, C134_zip_partial, C134_no_date, C134_zip_refuted, C134_rar, C134_shown, C134_not_mounted
* C14 (proved, Xattr_Props): C14_xattrs_last_write, C14_batching, C14_folder_attributes_refuted
* C15 (proved, Path_Props): C15_normpath_confines, C15_normpath_canonical, C15_query_partial, C15_query_refuted
* C16 (proved, Union_Props): C16_union_versions, C16_union_versions_cached_partial
* C17 (proved, Union_Props): C17_union_list_names
* C18 (partial, Union_Props): C18_listed_metadata_partial, C18_single_owner_partial, C18_list_metadata_refuted
* C19 (partial, Union_Props): C19_cache_transparent_partial, C19_cache_transparent_refuted
* C20 (partial, Layers_Props): C20_get_mount_source_unchanged, C20_handle_unchanged_partial, C20_reaches_owner_twice, C20_mount_source_owner_partial, C20_subvolume_folder_refuted, C20_version_alias_refuted
* C21 (partial, Version_Props): C21_versions_listed, C21_version_lookup, C21_spelled_path, C21_no_other_names_partial, C21_versions_folder, C21_versions_folder_refuted
* C22 (proved, Version_Props): C22_result_on_chain, C22_lookup_total, C22_chain_end
* C23 (partial, Subvol_Props): C23_history_partial, C23_is_mountable, C23_mixed_history_partial, C23_is_mountable_refuted
* C24 (partial, Subvol_Props): C24_open_partial, C24_open_refuted, C24_nested_never_opens
* C25 (partial, Prefix_Props): C25_inside_prefix_partial, C25_above_prefix, C25_nothing_else, C25_versions_refuted
* C26 (partial, Auto_Props): C26_innermost_exists, C26_innermost_answers, C26_only_below, C26_history, C26_walk, C26_lazy_partial, C26_lazy_refuted
* C27 (partial, Auto_Props): C27_list_partial, C27_list_mode_partial, C27_list_names, C27_versions_partial, C27_versions_refuted, C27_nested_refuted, C27_empty_refuted
* C28 (partial, Sparse_Props): C28_sparse_read_partial, C28_sparse_size, C28_bad_maps_rejected, C28_no_hole_refuted, C28_unaligned_refuted
* C29 (partial, Sparse_Props): C29_read_within_partial, C29_open_stops, C29_read_refuted, C29_read_rest_refuted
* C30 (partial, Overlay_Props): C30_only_named_paths, C30_untouched, C30_removed_stays_gone, C30_rmdir_only_empty, C30_create, C30_mkdir, C30_links_partial, C30_rename_moves, C30_rename_gone_partial, C30_rename_folder_partial, C30_listing, C30_rename_refuted, C30_recreate_refuted, C30_rename_folder_refuted, C30_rename_over_link_refuted, C30_symlink_parent_refuted
* C31 (partial, Overlay_Props): C31_open_and_write, C31_write, C31_truncate_partial, C31_truncate_length, C31_truncate_refuted
* C32 (partial, Commit_Props): C32_commit_partial, C32_remount_partial, C32_spelling_refuted, C32_folder_for_file_refuted, C32_link_for_deleted_refuted, C32_implied_folder_refuted
* C33 (partial, Fuse_Props): C33_handles_differ, C33_read, C33_open_opens_shown, C33_created, C33_first_write_partial, C33_read_only_handle, C33_no_overlay, C33_write_refuted, C33_stale_reader_refuted, C33_failed_write_refuted, C33_open_exactly, C33_unknown_handle
* C34 (partial, Multi_Props): C34_side_by_side, C34_none_is_lost, C34_no_name_refuted, C34_control_refuted
* C35 (partial, Command_Props): C35_arguments, C35_echo, C35_rejected, C35_at_most_once, C35_chunks_irrelevant, C35_no_arguments_refuted
* C36 (partial, Split_Props): C36_sequence, C36_detection, C36_member_partial, C36_own_file_refuted, C36_link_refuted
* C37 (proved, Strip_Props): C37_left_over, C37_prefix, C37_unchanged, C37_exclusion, C37_order, C37_patterns, C37_every_pattern_reads, C37_pattern_reads_once, C37_split_once, C37_empty_refuted
* C38 (partial, Ar_Props): C38_round_trip_partial, C38_truncated, C38_headers, C38_regions, C38_terminates, C38_magic, C38_thin, C38_mode, C38_thin_mode, C38_gnu_refuted, C38_thin_names_refuted, C38_size_refuted
* C39 (proved, Asar_Props): C39_rows, C39_archive, C39_probe, C39_probe_complete, C39_kinds, C39_links_refuted
* C40 (proved, Folder_Props): C40_leaves, C40_links, C40_files, C40_versions
* C41 (partial, Folder_Props): C41_names, C41_info_partial, C41_links_refuted, C41_special_refuted
* C42 (partial, Hash_Props): C42_hashes, C42_smplayer, C42_smplayer_refuted
* C43 (proved, Format_Props): C43_position, C43_accepts
* C44 (partial, Locate_Props): C44_explicit, C44_candidates, C44_distinct, C44_collision_refuted
* C45 (partial, Append_Props): C45_update_equals_scratch_partial, C45_boundary_is_checked, C45_versions_differ_refuted, C45_changed_middle_refuted, C45_nested_last_refuted, C45_nested_last_stale_refuted, C45_hard_link_last_refuted, C45_equal_offsets_refuted
* C46 (partial, Version_Props): C46_self_link_partial, C46_self_link_refuted
* C47 (partial, Overlay_Props): C47_attributes, C47_chown_refuted
* C48 (partial, Strip_Props): C48_differs, C48_beside_partial, C48_beside_refuted, C48_hidden, C48_url_partial, C48_url_refuted
* C49 (partial, Folder_Props): C49_index, C49_rows, C49_special_refuted
* C50 (partial, Hash_Props): C50_resumed, C50_others, C50_once, C50_shared_refuted, C50_own_attributes_refuted
* C51 (partial, Format_Props): C51_detect, C51_table, C51_signatures, C51_small_refuted
* C52 (proved, Format_Props): C52_frames
* C53 (partial, Format_Props): C53_first, C53_position_refuted
* C54 (proved, Format_Props): C54_signatures
* C55 (partial, Locate_Props): C55_first, C55_none, C55_stale_refuted, C55_file_url
* C56 (partial, Locate_Props): C56_only_candidates, C56_archive_safe, C56_read_only, C56_clear, C56_clear_refuted
* C57 (partial, Locate_Props): C57_first_possible, C57_kept, C57_memory, C57_memory_refuted
* C58 (proved, Locate_Props): C58_found_again
* C59 (partial, Spill_Props): C59_moved, C59_unwritable_refuted
* C60 (proved, Tar_Props, TarMark_Props): C60_every_member_is_found, C60_nothing_else_is_indexed, C60_nested_is_marked, C60_unmarked
* C61 (partial, Tar_Props): C61_stays_a_file_partial, C61_fake_archive_refuted
* C62 (partial, Tar_Props): C62_file_types_partial, C62_block_device_refuted
* C63 (partial, Append_Props): C63_used_index_fits, C63_unchanged_archive_uses_index, C63_read_only_stale_refuted, C63_same_size_refuted, C63_truncated_archive_refuted, C63_header_gone_refuted
* C64 (partial, Lib_Props): C64_independent_files_partial, C64_empty_member_refuted
* C65 (partial, Lib_Props): C65_newest_entry_is_served_partial, C65_folders_are_served, C65_compressed_name, C65_entry_below_refuted
* C66 (partial, Lib_Props): C66_links_partial, C66_hard_link_in_folder_refuted
* C67 (partial, Lib_Props): C67_file_object_partial, C67_larger_archive_refuted
* C68 (partial, TarRead_Props): C68_newest_member_is_read_partial, C68_nested_member_is_read, C68_member_below_refuted
* C69 (proved, Factory_Props): C69_choice, C69_mounts_iff, C69_each_once, C69_other_paths, C69_moved_object_refuted
* C70 (partial, Factory_Props): C70_decompressor, C70_detect, C70_missing_module_refuted
* C71 (partial, Rar_Props): C71_listing_partial, C71_lookup_partial, C71_versions, C71_types, C71_listed_attributes_partial, C71_absolute_refuted, C71_dot_refuted, C71_listed_mode_refuted, C71_missing_list_refuted
* C72 (partial, Sqlar_Props): C72_listing_partial, C72_lookup_partial, C72_listed_attributes_partial, C72_open, C72_bracket_refuted, C72_question_mark_refuted, C72_missing_parents_refuted, C72_dots_refuted, C72_missing_list_refuted
* C73 (partial, Seven_Props): C73_lookup_and_open_partial, C73_chunks_exact, C73_chunks_refuted
* C74 (partial, Zip_Props): C74_lookup_and_open, C74_shared_header_refuted
* C75 (partial, Pass_Props): C75_zip_choice, C75_seven_choice, C75_rar_choice, C75_sqlar_choice, C75_all_files_partial, C75_encrypted_directory, C75_mixed_refuted, C75_wrong_password_refuted, C75_empty_password_refuted
* C76 (partial, Squash_Props): C76_reads_content_partial, C76_all_calls, C76_tell_after_read_refuted, C76_negative_seek_raises
* C77 (partial, Squash_Props): C77_lookup_and_open, C77_list, C77_character_device_refuted
* C78 (partial, Fat_Props): C78_fat_file_partial, C78_as_in_memory, C78_negative_seek_refuted, C78_seek_beyond_end_refuted
* C79 (partial, Fat_Props): C79_table_partial, C79_volume_partial, C79_file_of_image, C79_last_entry_refuted, C79_type_refuted, C79_check_refuted, C79_check
* C80 (partial, FatDir_Props): C80_directory_partial, C80_times, C80_invalid_times, C80_end_of_directory_refuted, C80_orphaned_name_refuted
* C81 (partial, FatTree_Props): C81_lookup, C81_root, C81_lookup_none, C81_list_partial, C81_list_none, C81_content_partial, C81_exists_refuted, C81_list_refuted
* C82 (partial, Front_Props): C82_listing, C82_types, C82_stat, C82_dots_partial, C82_links_and_attributes, C82_missing_refuted, C82_listing_refuted, C82_attribute_position
* C83 (partial, Front_Props): C83_chmod_partial, C83_root_refuted, C83_nested_refuted
* C84 (partial, Front_Props): C84_block_size, C84_merge, C84_free_space_refuted
* C85 (partial, Own_Props): C85_own_paths_partial, C85_own_paths_refuted, C85_index_file_partial, C85_file_url_refuted, C85_memory_refuted, C85_folders_partial, C85_folders_refuted, C85_nothing_left
* C86 (partial, Own_Props): C86_inputs, C86_mount_relative, C86_mount_absolute_refuted, C86_unmount_partial, C86_unmount_refuted
* C87 (partial, Pdf_Props): C87_shown_reads, C87_attachments, C87_images_only_first_partial, C87_images_refuted, C87_text_only_refuted, C87_open_partial, C87_open_refuted
* C88 (partial, Git_Props): C88_lookup, C88_missing_partial, C88_missing_refuted, C88_list, C88_list_mode, C88_list_refuted, C88_open, C88_open_other, C88_versions_refuted
* C89 (partial, Git_Props): C89_git_url_partial, C89_git_url_refuted, C89_file_url, C89_inside_folder, C89_inside_file, C89_inside_missing_partial, C89_default_reference_partial, C89_default_reference_refuted, C89_default_reference_detached
* C90 (partial, Fsspec_Props): C90_lookup, C90_root, C90_missing, C90_list, C90_list_file_refuted, C90_versions_refuted, C90_http_list, C90_http_lookup
* C91 (partial, Fsspec_Props): C91_info_open, C91_read_only, C91_ls_partial, C91_ls_refuted, C91_protocol_refuted
* C92 (partial, Offsets_Props): C92_split_points, C92_never_separates, C92_pax_size, C92_base_256_refuted, C92_sparse_refuted
* C93 (partial, Offsets_Props): C93_sound, C93_first, C93_complete, C93_refuted
* C94 (partial, Offsets_Props): C94_time_removed, C94_long_name_kept, C94_kept, C94_all_names, C94_refuted, C94_all_names_refuted
* C95 (partial, Pax_Props): C95_base64, C95_shown, C95_broken_value_refuted, C95_invalid_name_refuted
* C96 (proved, Cli_Props): C96_threads, C96_accepts
* C97 (partial, Cli_Props): C97_gzip, C97_bzip2, C97_xz, C97_rapidgzip_only_refuted, C97_xz_refuted
* C98 (proved, Cli_Props): C98_archive, C98_decompressor
* C99 (proved, Cli_Props): C99_arguments, C99_inferred

## 7. Tests against wrong programs

`seeded/LOG.jsonl` holds one line per edit of a model in a scratch copy (the definition, the edit, the claim it breaks, the
theorems that failed, the theorems that were tightened). Edits that turned out not to change the behaviour are not logged.
