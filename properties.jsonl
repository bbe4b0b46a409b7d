{"id": "C01", "title": "Positioned read of a cut-out file returns exactly the addressed bytes", "statement": "A file opened as an ordered list of (file, offset, size) cut-outs behaves as the concatenation of those cut-outs: after seek(o), read(n) returns bytes [o, o+n) of the concatenation clipped to its end, read(-1) returns everything from o to the end, and tell() afterwards is o plus the number of returned bytes. Zero-sized cut-outs are invisible, the same file may occur many times and in any order.", "quantifier": "every list of cut-outs inside the underlying files, every content, every offset >= 0 and every size >= -1", "why_tests_cant": "The cut-out boundaries, zero-sized cut-outs, duplicate files and read sizes combine without bound; a test samples a few of them.", "anchors": ["core/ratarmountcore/StenciledFile.py:RawStenciledFile.__init__", "core/ratarmountcore/StenciledFile.py:RawStenciledFile._find_stencil", "core/ratarmountcore/StenciledFile.py:RawStenciledFile._read1_unlocked", "core/ratarmountcore/StenciledFile.py:RawStenciledFile.read", "core/ratarmountcore/StenciledFile.py:RawStenciledFile.seek"]}
{"id": "C02", "title": "A cut-out file behaves like an in-memory file over any history of calls", "statement": "For every sequence of seek (all three whence values), read and tell calls, a stenciled file gives the same results as an in-memory byte buffer holding the joined content, including seeks past the end; a seek to a negative position is rejected and leaves the file usable at its previous position.", "quantifier": "every sequence of seek/read/tell calls with any arguments, every list of cut-outs", "why_tests_cant": "It ranges over unbounded call histories; the state carried between calls (position after a failed or overshooting seek) is what goes wrong.", "anchors": ["core/ratarmountcore/StenciledFile.py:RawStenciledFile.seek", "core/ratarmountcore/StenciledFile.py:RawStenciledFile.read", "core/ratarmountcore/StenciledFile.py:RawStenciledFile.tell"]}
{"id": "C03", "title": "Concurrent readers of one archive never see each other's bytes", "statement": "Any number of members opened from one archive share the archive's single file object; for every interleaving of the threads' steps every completed read returns exactly the bytes of its own member, because each read repositions the shared file object and reads it while holding the shared lock.", "quantifier": "every number of threads, every program of reads per thread, every schedule of atomic steps (lock, seek, read, unlock)", "why_tests_cant": "Schedules cannot be enumerated; a race shows up in a vanishing fraction of runs.", "anchors": ["core/ratarmountcore/StenciledFile.py:RawStenciledFile.read", "core/ratarmountcore/StenciledFile.py:RawStenciledFile._read1_unlocked", "core/ratarmountcore/mountsource/formats/tar.py:SQLiteIndexedTar.open", "core/ratarmountcore/mountsource/formats/tar.py:SQLiteIndexedTar.read", "core/ratarmountcore/mountsource/compositing/singlefile.py:SingleFileMountSource.open"]}
{"id": "C04", "title": "A split archive joined on demand reads as the concatenation of its parts", "statement": "Reading a split file (name.001, name.002, ...) through the joiner that keeps only one part open returns the bytes of the concatenated parts for every position; each raw read returns a non-empty prefix of the remaining data unless at the end, so reading until the requested amount is gathered returns exactly the requested range, whatever part happened to be open before.", "quantifier": "every list of parts (including empty parts), every history of seeks and reads", "why_tests_cant": "The open-part cache makes the result history dependent; histories are unbounded.", "anchors": ["core/ratarmountcore/StenciledFile.py:RawJoinedFileFromFactory.read", "core/ratarmountcore/StenciledFile.py:RawJoinedFileFromFactory._get_file_object", "core/ratarmountcore/StenciledFile.py:RawJoinedFileFromFactory.seek"]}
{"id": "C05", "title": "A file built from a positioned-read callback is that callback's content", "statement": "A file object created from a read(offset, size) callback and a size returns, for every history of seeks and reads, the bytes of the callback's content clipped to the declared size, and never asks the callback for a range beyond the declared size.", "quantifier": "every content, declared size, and history of seek/read calls", "why_tests_cant": "Unbounded histories and sizes.", "anchors": ["core/ratarmountcore/StenciledFile.py:LambdaReaderFile.read", "core/ratarmountcore/StenciledFile.py:LambdaReaderFile.seek", "core/ratarmountcore/StenciledFile.py:ZeroFile"]}
{"id": "C06", "title": "Block-wise parallel decompression returns the right bytes whatever is cached", "statement": "Reading from a block-compressed file through the parallel reader returns the requested range of the decompressed stream for every history of seeks and reads, every number of cached blocks, every prefetch decision and every completion order of the background jobs.", "quantifier": "every division of the stream into blocks, every cache/prefetch state, every sequence of seek/read calls with size >= -1", "why_tests_cant": "The result must not depend on cache content, prefetch predictions or scheduling, which tests cannot control.", "anchors": ["core/ratarmountcore/BlockParallelReaders.py:BlockParallelReader._find_block", "core/ratarmountcore/BlockParallelReaders.py:BlockParallelReader._read", "core/ratarmountcore/BlockParallelReaders.py:BlockParallelReader.seek"]}
{"id": "C07", "title": "The block cache holds at most its capacity and only what was stored", "statement": "For every sequence of operations the least-recently-used cache returns for a key the value last stored under it (or reports it missing), never holds more entries than its capacity, evicts the entry unused for the longest time and never fails because of its own bookkeeping.", "quantifier": "every capacity >= 1 and every sequence of get/set/setdefault/contains/clear operations", "why_tests_cant": "The bookkeeping is history dependent; the failing histories involve lookups of absent keys followed by evictions.", "anchors": ["core/ratarmountcore/utils.py:LRUCache"]}
{"id": "C08", "title": "Data streamed into index blobs reads back unchanged", "statement": "Whatever chunking is used to write a seek-point stream into the index database, reading the stored blobs back yields the written bytes in order, and no stored blob exceeds the configured blob size.", "quantifier": "every sequence of writes of arbitrary sizes and every positive blob size", "why_tests_cant": "Chunk sizes relative to the blob size are unbounded; a boundary mistake appears only for certain remainders.", "anchors": ["core/ratarmountcore/SQLiteBlobFile.py:WriteSQLiteBlobs.write", "core/ratarmountcore/SQLiteBlobFile.py:WriteSQLiteBlobs._flush_blob", "core/ratarmountcore/SQLiteBlobFile.py:SQLiteBlobsFile"]}
{"id": "C09", "title": "File versions are numbered consistently", "statement": "If a path occurs n times in an archive then versions(path) is n; for 1 <= k <= n lookup(path, k) is the k-th oldest occurrence, lookup(path, -j) is the j-th newest counted from 0, so lookup(path, 0) is the newest and lookup(path, k) equals lookup(path, k-n); every other version number yields nothing.", "quantifier": "every finalized index, every path and every integer version number", "why_tests_cant": "The relation must hold for all tables and all integers, including out-of-range ones.", "anchors": ["core/ratarmountcore/SQLiteIndex.py:SQLiteIndex.lookup", "core/ratarmountcore/SQLiteIndex.py:SQLiteIndex.versions"]}
{"id": "C10", "title": "Listing a folder agrees with looking its entries up", "statement": "For a folder of the archive, list(folder) contains exactly the names for which lookup(folder/name) succeeds, with the same metadata as that lookup, and list_mode(folder) has the same names with the same modes.", "quantifier": "every finalized index with unique (path, name, offset) keys and every folder path", "why_tests_cant": "Tables are unbounded and several versions per name interact with ordering.", "anchors": ["core/ratarmountcore/SQLiteIndex.py:SQLiteIndex.list", "core/ratarmountcore/SQLiteIndex.py:SQLiteIndex.list_mode", "core/ratarmountcore/SQLiteIndex.py:SQLiteIndex.lookup"]}
{"id": "C11", "title": "Every archive member is reachable from the root", "statement": "After an archive has been indexed, every ancestor folder of every member can be looked up, so each member can be reached by listing folders from the root downwards, even if the archive has no entries for the folders and however members are ordered or batched.", "quantifier": "every sequence of inserted entries, any order, any batching, any number of distinct folders", "why_tests_cant": "A bounded folder cache decides whether a parent row is emitted; a mistake needs specific long orders of many folders.", "anchors": ["core/ratarmountcore/SQLiteIndex.py:SQLiteIndex._try_add_parent_folders", "core/ratarmountcore/SQLiteIndex.py:SQLiteIndex.set_file_info", "core/ratarmountcore/SQLiteIndex.py:SQLiteIndex.set_file_infos", "core/ratarmountcore/SQLiteIndex.py:SQLiteIndex._finalize_files_table"]}
{"id": "C12", "title": "Finalizing the index loses and invents no file", "statement": "The finalized index holds every inserted (path, name, offset) entry with the attributes it was last inserted with, plus folder rows only for the ancestors of inserted entries; no other row exists.", "quantifier": "every sequence of inserted entries", "why_tests_cant": "Quantifies over all insertion histories.", "anchors": ["core/ratarmountcore/SQLiteIndex.py:SQLiteIndex._finalize_files_table", "core/ratarmountcore/SQLiteIndex.py:SQLiteIndex.finalize_index", "core/ratarmountcore/SQLiteIndex.py:SQLiteIndex.set_file_infos"]}
{"id": "C13", "title": "A crash while creating an index never yields an index that is accepted but incomplete", "statement": "If the process dies at any point while an index file is being created, then the next start either rejects the leftover file and indexes again, or the accepted index contains every member.", "quantifier": "every list of entries, every batching, every crash point between two committed database operations", "why_tests_cant": "Crash points cannot be enumerated by tests.", "anchors": ["core/ratarmountcore/SQLiteIndex.py:SQLiteIndex.open_writable", "core/ratarmountcore/SQLiteIndex.py:SQLiteIndex._finalize_files_table", "core/ratarmountcore/SQLiteIndex.py:SQLiteIndex._load_index", "core/ratarmountcore/create-index-tables.sql"]}
{"id": "C14", "title": "Extended attributes read back as last written", "statement": "After any sequence of attribute insertions, get_xattr of an entry and key returns the last value inserted for it, and list_xattr lists exactly the inserted keys of this entry, each once.", "quantifier": "every sequence of (entry, key, value) insertions", "why_tests_cant": "Keys are interned in a second table; histories are unbounded.", "anchors": ["core/ratarmountcore/SQLiteIndex.py:SQLiteIndex.setxattrs", "core/ratarmountcore/SQLiteIndex.py:SQLiteIndex.list_xattr", "core/ratarmountcore/SQLiteIndex.py:SQLiteIndex.get_xattr", "core/ratarmountcore/create-index-tables.sql"]}
{"id": "C15", "title": "Path normalization confines every member below the root", "statement": "The normalized path of an archive member starts with a slash, contains no empty, '.' or '..' component, is a fixed point of normalization, and denotes the member that lexical resolution of the original path below the root denotes, so no archive can place an entry outside of the mount point.", "quantifier": "every path string", "why_tests_cant": "Path strings are unbounded and adversarial archives choose them.", "anchors": ["core/ratarmountcore/SQLiteIndex.py:SQLiteIndex.normpath", "core/ratarmountcore/SQLiteIndex.py:SQLiteIndex._query_normpath"]}
{"id": "C16", "title": "Union mount: the rightmost source wins and versions enumerate all sources", "statement": "In a union mount lookup(path) returns the entry of the last source having it; the versions of a path are all versions of all sources in order: the number of versions is the sum, version k counts from the oldest of the first source, version -j counts back from the newest of the last source, all other numbers give nothing.", "quantifier": "every list of sources with arbitrary contents, every path, every integer version", "why_tests_cant": "Sources, contents and versions are unbounded.", "anchors": ["core/ratarmountcore/mountsource/compositing/union.py:UnionMountSource.lookup", "core/ratarmountcore/mountsource/compositing/union.py:UnionMountSource.versions"]}
{"id": "C17", "title": "Union mount: a folder lists exactly the names any source offers", "statement": "list(path) of a union mount contains a name if and only if some source lists it in that folder, and the folder exists iff it exists in some source.", "quantifier": "every list of sources and every path", "why_tests_cant": "Unbounded sources and contents.", "anchors": ["core/ratarmountcore/mountsource/compositing/union.py:UnionMountSource._list"]}
{"id": "C18", "title": "Union mount: listed metadata is that of lookup", "statement": "For every name listed by a union mount the listed metadata (mode) is the one lookup returns for that entry.", "quantifier": "every list of sources and every path", "why_tests_cant": "Depends on which source shadows which for every overlap pattern.", "anchors": ["core/ratarmountcore/mountsource/compositing/union.py:UnionMountSource._list", "core/ratarmountcore/mountsource/compositing/union.py:UnionMountSource.lookup"]}
{"id": "C19", "title": "Union mount: the folder cache is transparent", "statement": "For immutable sources, lookup, versions and list through a union mount give the same answer whatever folder cache was built (any depth limit, entry limit or timeout), including no cache at all.", "quantifier": "every list of sources, every cache produced by any stopping point of the cache construction, every path and version", "why_tests_cant": "The stopping point depends on wall-clock time.", "anchors": ["core/ratarmountcore/mountsource/compositing/union.py:UnionMountSource._build_folder_cache", "core/ratarmountcore/mountsource/compositing/union.py:UnionMountSource.lookup", "core/ratarmountcore/mountsource/compositing/union.py:UnionMountSource._list"]}
{"id": "C20", "title": "Using a file handle through mount layers never changes it", "statement": "open, read, list_xattr, get_xattr and get_mount_source of a union, version or subvolume layer leave the passed FileInfo unchanged on every exit, also when an inner layer raises, so the same FileInfo can be used again.", "quantifier": "every nesting of layers, every operation, every success or failure of the innermost source", "why_tests_cant": "Quantifies over arbitrary layer stacks and failure points.", "anchors": ["core/ratarmountcore/mountsource/compositing/union.py:UnionMountSource.open", "core/ratarmountcore/mountsource/compositing/versioning.py:FileVersionLayer.open", "core/ratarmountcore/mountsource/compositing/versioning.py:FileVersionLayer.get_mount_source", "core/ratarmountcore/mountsource/compositing/subvolumes.py:SubvolumesMountSource.open"]}
{"id": "C21", "title": "The .versions folder shows exactly the versions that exist", "statement": "If a path has n versions then path.versions lists the names 1..n, looking up path.versions/k gives version k of the path for 1 <= k <= n, names that are not listed do not exist, and a path without versions has no .versions folder.", "quantifier": "every path, every version count and every name below the special folder", "why_tests_cant": "Names and counts are unbounded and special paths may collide with real ones.", "anchors": ["core/ratarmountcore/mountsource/compositing/versioning.py:FileVersionLayer._decode_versions_path_api", "core/ratarmountcore/mountsource/compositing/versioning.py:FileVersionLayer.lookup", "core/ratarmountcore/mountsource/compositing/versioning.py:FileVersionLayer._list_wrapper"]}
{"id": "C22", "title": "Hard-link resolution terminates and never leaves the link chain", "statement": "Looking up a hard link terminates for every archive, also for cyclic links, and its result is an entry on the chain of link targets starting at the link; if the chain is shorter than the limit and ends in a non-link, that entry is returned.", "quantifier": "every archive (every target function of links), every start path and version", "why_tests_cant": "Cycles and chain lengths are unbounded.", "anchors": ["core/ratarmountcore/mountsource/compositing/versioning.py:FileVersionLayer._resolve_hard_links", "core/ratarmountcore/mountsource/compositing/versioning.py:FileVersionLayer._is_hard_link"]}
{"id": "C23", "title": "Dynamically mounted subvolumes appear and disappear exactly at their mount points", "statement": "After any sequence of successful mounts and unmounts, a path resolves into a mounted source exactly if it equals or lies below a currently mounted mount point, with the remaining path handed to it; unmounting removes precisely that mount point and intermediate folders exist exactly as long as something is mounted below them.", "quantifier": "every sequence of mount/unmount/is_mountable calls and every path", "why_tests_cant": "The tree is history dependent.", "anchors": ["core/ratarmountcore/mountsource/compositing/subvolumes.py:SubvolumesMountSource.mount", "core/ratarmountcore/mountsource/compositing/subvolumes.py:SubvolumesMountSource.unmount", "core/ratarmountcore/mountsource/compositing/subvolumes.py:SubvolumesMountSource.is_mountable", "core/ratarmountcore/mountsource/compositing/subvolumes.py:SubvolumesMountSource._find_mount_source"]}
{"id": "C24", "title": "What a subvolume mount looks up can be opened", "statement": "Every FileInfo returned by lookup for a file below a mount point can be opened and read through the same subvolume mount, reaching the source that produced it, for mount points of any depth.", "quantifier": "every mount tree, every path", "why_tests_cant": "Depends on the nesting depth of mount points.", "anchors": ["core/ratarmountcore/mountsource/compositing/subvolumes.py:SubvolumesMountSource.lookup", "core/ratarmountcore/mountsource/compositing/subvolumes.py:SubvolumesMountSource.open", "core/ratarmountcore/mountsource/compositing/subvolumes.py:SubvolumesMountSource.read"]}
{"id": "C25", "title": "A prefixed mount shows the source below the prefix and nothing else", "statement": "A source wrapped with a prefix answers for prefix/x exactly what the source answers for x (same version), shows the prefix's ancestors as folders containing only the next component, and has no other entries.", "quantifier": "every prefix, every source, every path and version", "why_tests_cant": "All prefixes and paths.", "anchors": ["core/ratarmountcore/mountsource/compositing/removeprefix.py:RemovePrefixMountSource"]}
{"id": "C26", "title": "Recursive mounting resolves each path to its innermost mounted archive", "statement": "With recursive mounting, every path is answered by the archive mounted at the longest mounted prefix of the path, with the remainder as path inside it; mounting further archives changes only answers at or below the new mount point.", "quantifier": "every set of mount points, every path, every sequence of mounts", "why_tests_cant": "Unbounded nesting and orders (lazy mounting mounts on access).", "anchors": ["core/ratarmountcore/mountsource/compositing/automount.py:AutoMountLayer._simply_find_mounted", "core/ratarmountcore/mountsource/compositing/automount.py:AutoMountLayer._find_mounted", "core/ratarmountcore/mountsource/compositing/automount.py:AutoMountLayer.lookup"]}
{"id": "C27", "title": "Recursive mounting adds the archive folder without hiding the archive or other entries", "statement": "In a folder containing a mounted archive the listing keeps all names of the underlying folder and adds the mount point name; an empty folder lists as empty; versions of a mounted path are the mounted root plus the versions of the underlying file, each reachable exactly once, and other version numbers give nothing.", "quantifier": "every folder, every set of mount points, every integer version", "why_tests_cant": "Versions and mount points are unbounded.", "anchors": ["core/ratarmountcore/mountsource/compositing/automount.py:AutoMountLayer.lookup", "core/ratarmountcore/mountsource/compositing/automount.py:AutoMountLayer._append_mount_points", "core/ratarmountcore/mountsource/compositing/automount.py:AutoMountLayer.versions"]}
{"id": "C28", "title": "Sparse TAR members expand to the described content", "statement": "Reading a GNU sparse member yields the file described by its sparse map: data chunks at their offsets, zeros elsewhere, exactly up to the real size, for every valid map including maps without holes or with only holes.", "quantifier": "every ordered non-overlapping sparse map, every data, every real size", "why_tests_cant": "Maps are unbounded.", "anchors": ["core/ratarmountcore/mountsource/formats/tar.py:SQLiteIndexedTar.open"]}
{"id": "C29", "title": "Reading a TAR member never returns bytes beyond the member", "statement": "read(fileInfo, size, offset) returns exactly the bytes of the member in the requested range, clipped to the member's size.", "quantifier": "every archive content, member, size and offset", "why_tests_cant": "All ranges, in particular those crossing the member's end.", "anchors": ["core/ratarmountcore/mountsource/formats/tar.py:SQLiteIndexedTar.read", "core/ratarmountcore/mountsource/MountSource.py:MountSource.read"]}
{"id": "C30", "title": "The write overlay never modifies the mounted sources and hides what was deleted", "statement": "For every history of overlay operations the underlying source content is unchanged; a path whose last operation was a successful unlink/rmdir does not exist; a path created or renamed to afterwards exists again with the new content.", "quantifier": "every history of create/write/truncate/unlink/mkdir/rmdir/rename/chmod/... calls", "why_tests_cant": "Histories are unbounded; the failures need specific sequences over files of the lower layer.", "anchors": ["ratarmount/WriteOverlay.py:WritableFolderMountSource", "ratarmount/FuseMount.py:FuseMount._lookup", "ratarmount/FuseMount.py:FuseMount.readdir"]}
{"id": "C31", "title": "Overlay writes and truncations act on the current content", "statement": "After write(data, offset) to a file, reading yields the previous content with that range replaced (zero filled up to the offset); truncate(n) keeps exactly the first n bytes of the content visible before, whether the file so far lives in the archive or in the overlay.", "quantifier": "every content, offset, data, length and every prior history", "why_tests_cant": "All contents and histories.", "anchors": ["ratarmount/WriteOverlay.py:WritableFolderMountSource.write", "ratarmount/WriteOverlay.py:WritableFolderMountSource.truncate", "ratarmount/WriteOverlay.py:WritableFolderMountSource._ensure_file_is_modifiable"]}
{"id": "C32", "title": "Committing an overlay yields the archive the mount showed", "statement": "After commit_overlay the TAR archive contains exactly what the mount with overlay showed: deleted paths are gone (with everything below them), overlay files replace archive members, everything else is kept.", "quantifier": "every archive, every overlay state", "why_tests_cant": "All combinations of deletions and additions.", "anchors": ["ratarmount/WriteOverlay.py:commit_overlay"]}
{"id": "C33", "title": "File handles are never confused", "statement": "Every open or create returns a handle different from all handles returned before, and reads and writes through a handle act on the file it was opened for until it is released.", "quantifier": "every sequence of open/create/read/write/release calls", "why_tests_cant": "Histories are unbounded.", "anchors": ["ratarmount/FuseMount.py:FuseMount._add_new_handle", "ratarmount/FuseMount.py:FuseMount._resolve_file_handle", "ratarmount/FuseMount.py:FuseMount.release"]}
{"id": "C34", "title": "Mounting many sources side by side drops none of them", "statement": "When several sources are mounted as subvolumes, each gets its own unique folder name and no source is lost, even for equal base names or base names that look like generated ones.", "quantifier": "every list of base names", "why_tests_cant": "Collisions between generated and given names need adversarial lists.", "anchors": ["ratarmount/FuseMount.py:FuseMount._create_multi_mount"]}
{"id": "C35", "title": "Commands written to the control file are parsed into the intended arguments", "statement": "For every argument list joined with NUL, newline or space (not containing the delimiter), writing it to the control file in any number of chunks yields exactly that argument list; input not starting with the command name is rejected.", "quantifier": "every argument list, delimiter and chunking of the writes", "why_tests_cant": "Arguments and chunkings are unbounded.", "anchors": ["ratarmount/FuseMount.py:split_command_line", "ratarmount/FuseMount.py:CommandFile"]}
{"id": "C36", "title": "Split archives are recognised completely and in order", "statement": "For a file belonging to a split archive the detected list of parts is the numbered sequence of consecutive suffixes starting at 0 or 1 that exist in the folder, in counting order, without gaps or repetitions, and detection terminates for every folder.", "quantifier": "every folder content, every name, every numbering system (decimal, hexadecimal, alphabetic) and width", "why_tests_cant": "Folder contents and widths are unbounded; overflow of the suffix width is a boundary case.", "anchors": ["core/ratarmountcore/compressions.py:check_for_sequence", "core/ratarmountcore/compressions.py:check_for_split_file_in", "core/ratarmountcore/utils.py:format_number"]}
{"id": "C37", "title": "Suffix stripping only ever strips a suffix of the file name", "statement": "strip_suffix keeps the folder part and returns a prefix of the file name; if no rule matches at the end the path is unchanged; after an exclusion rule matching the end nothing stripped by earlier rules remains stripped.", "quantifier": "every path and every rule list", "why_tests_cant": "All rule lists and names.", "anchors": ["core/ratarmountcore/compressions.py:strip_suffix"]}
{"id": "C38", "title": "AR archives are parsed into exactly their members", "statement": "For every list of members, parsing the AR archive made of them returns the members in order with their names, sizes and metadata and with data offsets such that the bytes at (offset, size) are the member's content; parsing terminates on every input.", "quantifier": "every list of members (short or BSD long names, odd and even sizes) and every byte string for termination", "why_tests_cant": "All member lists and malformed inputs.", "anchors": ["core/ratarmountcore/mountsource/formats/ar.py:_parse_ar_archive"]}
{"id": "C39", "title": "ASAR archives are indexed completely", "statement": "For every ASAR header tree, indexing yields exactly one row for every entry of the tree (with its full path, kind, offset and size) regardless of batching, and the header probe computes the data offset that the format defines.", "quantifier": "every JSON tree of entries and every header size", "why_tests_cant": "Trees are unbounded in depth and width.", "anchors": ["core/ratarmountcore/mountsource/formats/asar.py:ASARMountSource._create_index", "core/ratarmountcore/formats.py:find_asar_header"]}
{"id": "C40", "title": "Relative symlinks are rewritten exactly when they leave the mounted folder", "statement": "A relative symbolic link inside a mounted folder is resolved by the mount itself exactly if its target exists and following it lexically would leave the folder at some step; every other link is shown with its target as it is.", "quantifier": "every link path and every relative link target", "why_tests_cant": "All paths and targets.", "anchors": ["core/ratarmountcore/mountsource/formats/folder.py:max_up_count", "core/ratarmountcore/mountsource/formats/folder.py:FolderMountSource.lookup"]}
{"id": "C41", "title": "Folder listing agrees with lookup", "statement": "For a bind-mounted folder, list(path) returns for every entry the same file information as lookup(path/name), and list_mode has the same names and file types.", "quantifier": "every directory tree", "why_tests_cant": "All trees; in particular link targets and nested folders.", "anchors": ["core/ratarmountcore/mountsource/formats/folder.py:FolderMountSource.list", "core/ratarmountcore/mountsource/formats/folder.py:FolderMountSource._dir_entry_to_file_info"]}
{"id": "C42", "title": "File hashes do not depend on how the file object splits its reads", "statement": "The computed hashes depend only on the file's content: for every way the file object returns its data in non-empty pieces the streaming hash state equals hashing the whole content at once, and the SMPlayer hash equals the 64-bit sum defined over the first and last 64 KiB without counting any byte twice.", "quantifier": "every content and every chunking", "why_tests_cant": "Chunkings and sizes around the chunk boundary are unbounded.", "anchors": ["core/ratarmountcore/hashing.py:compute_hashes", "core/ratarmountcore/hashing.py:smplayer_hash"]}
{"id": "C43", "title": "Probing a file for its format leaves its position unchanged", "statement": "Testing whether a file might be of a given format leaves the file position where it was for every content, every start position and every checker (also when the checker raises), and with magic bytes it accepts exactly the files starting with them.", "quantifier": "every content, position and header checker", "why_tests_cant": "All contents and checkers.", "anchors": ["core/ratarmountcore/formats.py:might_be_format"]}
{"id": "C44", "title": "Index locations are tried in a fixed order of preference", "statement": "The list of possible index locations is determined by the options and by which compressed indexes exist: an explicitly given index path is the only candidate and ':memory:' means none; otherwise a URL comes first, then for each index folder in the given order the file next to the archive (with its existing compressed variants) or the file in the folder named like the archive path; without folders the place next to the archive and then memory. Different archives have different index files.", "quantifier": "every option combination, archive path, folder spelling and home folder", "why_tests_cant": "All combinations of options and path spellings.", "anchors": ["core/ratarmountcore/SQLiteIndex.py:SQLiteIndex.get_possible_index_file_paths", "core/ratarmountcore/SQLiteIndex.py:SQLiteIndex.__init__"]}
{"id": "C45", "title": "Appended archives are detected without losing members", "statement": "When a TAR archive has grown since it was indexed, the update is accepted only if the indexed part is unchanged at its recorded boundary, and after the update the index equals the one obtained by indexing the grown archive from scratch.", "quantifier": "every archive and every appended list of members", "why_tests_cant": "All archives and appends.", "anchors": ["core/ratarmountcore/mountsource/formats/tar.py:SQLiteIndexedTar._try_to_mark_as_appended", "core/ratarmountcore/mountsource/formats/tar.py:SQLiteIndexedTar._get_past_end_offset"]}
{"id": "C46", "title": "A path re-added as a hard link to itself shows its previous version", "statement": "If the newest entry of a path is a hard link to the same path (tar --append of a hard-linked file), looking up the path gives the version right before the link.", "quantifier": "every path and every number of earlier versions", "why_tests_cant": "Depends on the number of versions, which is unbounded.", "anchors": ["core/ratarmountcore/mountsource/compositing/versioning.py:FileVersionLayer._resolve_hard_links"]}
{"id": "C47", "title": "Changing attributes on a writable mount changes exactly those", "statement": "After a successful chmod, chown or utimens on a path of a mount with a write overlay, getattr of that path reports the new value of the changed attribute, the other attributes of the path, the attributes of all other paths and all file contents are as before. Asking for no change (chown with -1, -1) succeeds and changes nothing.", "quantifier": "every history of overlay operations, every path and every attribute change", "why_tests_cant": "The stored metadata row may or may not exist, may be partial or marked as deleted depending on the whole history before the call; tests only fix a few histories.", "anchors": ["ratarmount/WriteOverlay.py:WritableFolderMountSource._set_file_metadata", "ratarmount/WriteOverlay.py:WritableFolderMountSource.update_file_info", "ratarmount/FuseMount.py:FuseMount._lookup"]}
{"id": "C48", "title": "The inferred mount point is a fresh name next to the archive", "statement": "When no mount point is given, the inferred one differs from the archive, and it is a nonempty name in the folder of the archive: the archive name without its suffix, or with '.mounted' appended. For a URL it is a nonempty name in the current folder.", "quantifier": "every archive path or URL and every table of suffixes", "why_tests_cant": "Names, dots, hidden files and suffix tables are unbounded.", "anchors": ["ratarmount/actions.py:determine_mount_point", "core/ratarmountcore/compressions.py:strip_suffix", "core/ratarmountcore/compressions.py:compile_suffix_rules"]}
{"id": "C49", "title": "An indexed folder shows exactly the files that were there", "statement": "After a folder was indexed, every file below it is found under its path with the metadata and link target that the file system reported, opening a regular file opens exactly the file at that path, listings have the names in the folder, and no other path is found.", "quantifier": "every directory tree, every order of the entries in a folder and every order of the rows in the database", "why_tests_cant": "All trees; files are opened by a number that must be unique over all of them and across batches.", "anchors": ["core/ratarmountcore/mountsource/formats/folder.py:IndexedFolderMountSource._create_index", "core/ratarmountcore/mountsource/formats/folder.py:IndexedFolderMountSource._get_path_in_index", "core/ratarmountcore/mountsource/formats/folder.py:IndexedFolderMountSource.open"]}
{"id": "C50", "title": "Hashing that was interrupted can be resumed", "statement": "If hashes are requested, then after any number of runs that were interrupted at any point and one run that completes, every regular file that can be read has exactly the computed hashes as extended attributes user.hash.<algorithm> with the right values, however the rows were ordered and whichever files failed in the interrupted runs, and all other attributes of the archive are kept.", "quantifier": "every table of files, every list of algorithms, every sequence of interrupted runs and every cut of them, every row order", "why_tests_cant": "Interruption points, failures and histories are unbounded, and whether a file counts as hashed is decided by counting attributes.", "anchors": ["core/ratarmountcore/mountsource/SQLiteIndexMountSource.py:SQLiteIndexMountSource._compute_and_store_hashes"]}
{"id": "C51", "title": "detect_formats finds exactly the formats whose own test accepts the file", "statement": "For the table of file formats and any file and position, the detection with its precomputed magic-byte tables returns exactly the formats whose individual test (magic bytes and check function) accepts the file at that position: no format is lost or invented by the two-byte shortcut; in particular a file is detected as 7z, RAR, gzip, xz, ar, ... exactly if the published signature stands at the position.", "quantifier": "all file contents, all positions, all answers of the external TAR/ZIP/deflate checks", "why_tests_cant": "the shortcut groups formats by their first two bytes and by missing magic bytes; tests only cover the sample files of each format", "anchors": ["core/ratarmountcore/formats.py:detect_formats", "core/ratarmountcore/formats.py:might_be_format", "core/ratarmountcore/formats.py:recompute_cached_magic_bytes", "core/ratarmountcore/formats.py:FILE_FORMATS"]}
{"id": "C52", "title": "Any number of skippable frames before LZ4 and Zstandard data is skipped", "statement": "A file is accepted as LZ4 or Zstandard exactly if, after any number of skippable frames, the magic number of the format follows; truncated frames are rejected without an exception and the check terminates.", "quantifier": "all file contents, all numbers and sizes of skippable frames", "why_tests_cant": "the number of frames and their sizes are unbounded", "anchors": ["core/ratarmountcore/formats.py:_check_lz4_header", "core/ratarmountcore/formats.py:_check_zstandard_header"]}
{"id": "C53", "title": "The SquashFS image in an AppImage is found at the first valid superblock", "statement": "The offset found is the first position in the searched prefix at which a valid superblock starts, or -1 if there is none; occurrences of the magic bytes that start no valid superblock do not hide later ones.", "quantifier": "all file contents and search limits", "why_tests_cant": "false magic bytes can occur in any number before the image", "anchors": ["core/ratarmountcore/formats.py:find_squashfs_offset", "core/ratarmountcore/formats.py:is_squashfs"]}
{"id": "C54", "title": "The checks for AVI, cpio, ISO 9660, bzip2, zlib, HTML, ASAR and encrypted SQLAR accept exactly the documented headers", "statement": "Each check accepts a file exactly if the documented header stands at the position, never raises for short files, whatever bytes follow.", "quantifier": "all file contents and positions", "why_tests_cant": "a check that is too lax or too strict only shows up for contents no test uses", "anchors": ["core/ratarmountcore/formats.py:is_avi", "core/ratarmountcore/formats.py:is_cpio", "core/ratarmountcore/formats.py:is_iso9660", "core/ratarmountcore/formats.py:is_bzip2", "core/ratarmountcore/formats.py:_check_zlib_header", "core/ratarmountcore/formats.py:is_html_file", "core/ratarmountcore/formats.py:is_asar"]}
{"id": "C55", "title": "The first acceptable index is used and only faulty ones are removed", "statement": "The index that is used is that of the first candidate whose file passes all checks; the candidates tried before it that exist and failed are removed (unless read-only), an index made by another backend stops the search with an error, and all other files stay.", "quantifier": "every list of candidates, every state of the disk, every outcome of decompression and checks", "why_tests_cant": "Which candidates exist and fail is unbounded.", "anchors": ["core/ratarmountcore/SQLiteIndex.py:SQLiteIndex.open_existing", "core/ratarmountcore/SQLiteIndex.py:SQLiteIndex._try_load_index", "core/ratarmountcore/SQLiteIndex.py:SQLiteIndex._load_index"]}
{"id": "C56", "title": "Handling indexes never touches other files, and read-only means read-only", "statement": "Looking for, clearing and creating indexes change, remove or create no file that is not a candidate for an index; the archive itself is never a candidate unless it is given as the index file; with read-only indexes no file changes.", "quantifier": "every disk, candidate list and failure of reading, writing and removing", "why_tests_cant": "Failures can happen at every candidate.", "anchors": ["core/ratarmountcore/SQLiteIndex.py:SQLiteIndex.open_existing", "core/ratarmountcore/SQLiteIndex.py:SQLiteIndex.clear_indexes", "core/ratarmountcore/SQLiteIndex.py:SQLiteIndex.open_writable", "core/ratarmountcore/SQLiteIndex.py:SQLiteIndex.get_possible_index_file_paths"]}
{"id": "C57", "title": "A new index is created at the first possible location without overwriting anything", "statement": "A new index goes to the first candidate that can be written and holds no data; a file with content is never overwritten; if there is none, an error is raised; if memory is preferred no file is created.", "quantifier": "every candidate list, disk and outcome of the write probes", "why_tests_cant": "All combinations of unwritable locations.", "anchors": ["core/ratarmountcore/SQLiteIndex.py:SQLiteIndex.open_writable", "core/ratarmountcore/SQLiteIndex.py:SQLiteIndex._path_can_be_used_for_sqlite", "core/ratarmountcore/utils.py:ensure_writable_path"]}
{"id": "C58", "title": "An index that was created is found the next time", "statement": "If no index was accepted and a new one was created, the next mount of the unchanged archive with the same options loads exactly that index, wherever it was created and whatever faulty or cut-off files lie at the candidates before it.", "quantifier": "every disk, candidate list, unremovable faulty index and failing write", "why_tests_cant": "Needs two runs over arbitrary disk states.", "anchors": ["core/ratarmountcore/SQLiteIndex.py:SQLiteIndex.open_existing", "core/ratarmountcore/SQLiteIndex.py:SQLiteIndex.open_writable"]}
{"id": "C59", "title": "Moving a growing index from memory to disk loses nothing", "statement": "An index started in memory contains exactly the inserted rows after any sequence of insertions, stays in memory without touching a file up to the minimum file count, and beyond it lies at the first possible location.", "quantifier": "every sequence of batches, limit, candidate list and disk", "why_tests_cant": "The move can happen inside any batch.", "anchors": ["core/ratarmountcore/SQLiteIndex.py:SQLiteIndex.set_file_infos", "core/ratarmountcore/SQLiteIndex.py:SQLiteIndex._reload_index_on_disk", "core/ratarmountcore/SQLiteIndex.py:SQLiteIndex.open_writable"]}
{"id": "C60", "title": "Every member of a TAR archive, at any depth of nesting, is indexed with its own position", "statement": "After a TAR archive is indexed, every member of it, and of every complete TAR archive nested in it up to the recursion limit, has a row at the folder the nesting gives it, with the header position, data position, size, mode, owner, time and link of its header, counted in the outermost file. Every row comes from such a member, from a nested archive's mount point, or from a folder of an incremental archive.", "quantifier": "all archives, members, extended headers, nesting depths, transformations and recursion limits", "why_tests_cant": "Tests index a few archives with one or two levels; an offset computed against the wrong file object only shows for particular nestings and header sizes.", "anchors": ["core/ratarmountcore/mountsource/formats/tar.py:SQLiteIndexedTar._create_index_recursively", "core/ratarmountcore/mountsource/formats/tar.py:_TarFileMetadataReader._process_tar_info", "core/ratarmountcore/mountsource/formats/tar.py:_TarFileMetadataReader._process_serial"]}
{"id": "C61", "title": "A file that only looks like a nested archive stays readable as a file", "statement": "A member whose name ends in .tar but whose contents are no TAR archive is still shown as a regular file with its contents after a recursive mount.", "quantifier": "all members whose names end in .tar, with any contents", "why_tests_cant": "Holds or fails depending on the contents of a file that nobody thinks of putting into a test archive.", "anchors": ["core/ratarmountcore/mountsource/formats/tar.py:SQLiteIndexedTar._create_index_recursively", "core/ratarmountcore/mountsource/formats/tar.py:_TarFileMetadataReader._open_tar"]}
{"id": "C62", "title": "The file type shown is the one in the archive", "statement": "For every member, the type bits of the mode shown agree with the type flag of its header, and the permission bits are those of the header.", "quantifier": "all type flags and all modes", "why_tests_cant": "Tests use regular files, folders and links; other type flags and modes with unusual bits are not covered.", "anchors": ["core/ratarmountcore/mountsource/formats/tar.py:_TarFileMetadataReader._tar_info_full_mode"]}
{"id": "C63", "title": "A stored index is used unchanged only if the archive still fits it", "statement": "When an archive is opened and an index for it is found, the index is used as it is only if the archive has not become smaller since it was indexed, if its size is the recorded one, if its modification time is the recorded one (where verification of it is requested), and, for an uncompressed TAR, if the end-of-archive marker follows the last indexed member. The index of an unchanged archive is always used; and an archive that can be indexed from scratch can also be opened with any index left over from an earlier state of it.", "quantifier": "all archives before and after an arbitrary change, all recorded sizes and times, all tables, all options (verification of time, read-only index, version of the index)", "why_tests_cant": "A test can change an archive in a few ways; the decision must be right for every combination of size, time, flags and contents.", "anchors": ["core/ratarmountcore/mountsource/formats/tar.py:SQLiteIndexedTar._check_metadata2", "core/ratarmountcore/mountsource/formats/tar.py:SQLiteIndexedTar._try_to_mark_as_appended", "core/ratarmountcore/mountsource/formats/tar.py:SQLiteIndexedTar.__init__"]}
{"id": "C64", "title": "Files opened from a libarchive-backed mount are independent of each other", "statement": "For every archive that is mounted through libarchive, and every interleaving of open, read, seek, tell and close calls on any number of open files, each call returns what it would return if its file were a private in-memory file holding the member's content: the hidden reuse of half-read archives and the buffering never show.", "quantifier": "all archives, all numbers of open files, all histories of calls, all cache and buffer sizes", "why_tests_cant": "The archive objects are moved between open files depending on the whole history of opens, seeks back and closes; tests exercise a few orders of access.", "anchors": ["core/ratarmountcore/mountsource/formats/libarchive.py:LibarchiveFile", "core/ratarmountcore/mountsource/formats/libarchive.py:IterableArchiveCache", "core/ratarmountcore/mountsource/formats/libarchive.py:IterableArchive"]}
{"id": "C65", "title": "Looking up and opening a path in a libarchive mount gives the newest entry's content", "statement": "For every archive read through libarchive, looking up a path gives size, time and permissions of the last entry of the archive at that path, and opening the looked-up file and reading it gives exactly that entry's bytes, whatever was opened before; a file that is merely compressed appears under the archive's name without the compression suffix.", "quantifier": "all entry lists including duplicate paths, unusual spellings and missing sizes, all paths, all previous calls", "why_tests_cant": "Requires the numbering of entries at index time, the lookup order in the index and the iteration at open time to agree for every archive and history.", "anchors": ["core/ratarmountcore/mountsource/formats/libarchive.py:ArchiveEntry.convert_to_row", "core/ratarmountcore/mountsource/formats/libarchive.py:LibarchiveMountSource._create_index", "core/ratarmountcore/mountsource/formats/libarchive.py:LibarchiveMountSource.open"]}
{"id": "C66", "title": "Links in libarchive mounts lead where the archive says", "statement": "For every archive read through libarchive, a symbolic link keeps its target text, and following a hard link leads to the entry it names.", "quantifier": "all entries, all folders they are in", "why_tests_cant": "The outcome depends on the folder of the link relative to the archive root; archives in the tests have few links.", "anchors": ["core/ratarmountcore/mountsource/formats/libarchive.py:ArchiveEntry.linkname", "core/ratarmountcore/mountsource/formats/libarchive.py:ArchiveEntry.convert_to_row"]}
{"id": "C67", "title": "An archive given as a file object reads like one given by path", "statement": "For every archive that libarchive reads from a Python file object (for example an archive inside another archive), opening and reading its members in any order gives the members' contents.", "quantifier": "all archives of any size, all sequences of opens", "why_tests_cant": "The error only shows when the archive is larger than the callback buffer of 1 MiB and more than two archive handles exist.", "anchors": ["core/ratarmountcore/mountsource/formats/libarchive.py:IterableArchive._open_with_file_object", "core/ratarmountcore/mountsource/formats/libarchive.py:IterableArchiveCache.take"]}
{"id": "C68", "title": "A path of a TAR mount reads the bytes of the newest member at that path", "statement": "For every TAR archive, looking up a path, opening the result and performing any sequence of seeks and reads gives exactly the bytes that the archive stores for its last member at that path; members of TARs inside the TAR, at any depth, are served with their exact bytes out of the outermost file.", "quantifier": "all archives (any number of members, duplicate paths, extra header blocks), all nesting depths, all call histories", "why_tests_cant": "It composes header scanning, offset computation, the index, version order and the stenciled reads; each is tested alone with a few archives.", "anchors": ["core/ratarmountcore/mountsource/formats/tar.py:_TarFileMetadataReader", "core/ratarmountcore/mountsource/formats/tar.py:SQLiteIndexedTar.open", "core/ratarmountcore/SQLiteIndex.py:SQLiteIndex.lookup", "core/ratarmountcore/StenciledFile.py:RawStenciledFile"]}
{"id": "C69", "title": "A file is opened with the first backend in the user's order, by extension, or of the table, that recognises and opens it", "statement": "open_mount_source uses the first backend of the user's priorities that recognises and opens the file; otherwise the first one that the file name extension suggests; otherwise the first of all backends. It succeeds exactly if some backend can open the file, whatever the file is called and whatever priorities are given, and it tries each backend at most once. Missing paths are errors, folders are served as folders, and a split file that no backend can open is served as one file.", "quantifier": "all tables of backends, formats and extensions, all files (as the verdicts of all checks and backends), names and priority lists", "why_tests_cant": "the order has three sources, names are mapped between two tables and failures of backends are swallowed: tests open a few files with the backends that are installed", "anchors": ["core/ratarmountcore/mountsource/factory.py:open_mount_source", "core/ratarmountcore/mountsource/factory.py:find_backends_by_extension", "core/ratarmountcore/mountsource/factory.py:_matches_extension", "core/ratarmountcore/mountsource/archives.py:ARCHIVE_BACKENDS"]}
{"id": "C70", "title": "The detected compression can be undone, and detection leaves the file untouched", "statement": "detect_compression leaves the position of the file where it was and answers only with a format that the file matches and that an installed module can open; it finds the first such format. The module is the first installed one in the user's order, else in the order of the table.", "quantifier": "all tables of modules, installed modules, priorities, files and positions", "why_tests_cant": "needs every combination of installed modules and of formats with overlapping signatures", "anchors": ["core/ratarmountcore/compressions.py:detect_compression", "core/ratarmountcore/compressions.py:find_available_backend"]}
{"id": "C71", "title": "A RAR archive is served as the tree of its entries", "statement": "Listing a folder gives exactly the names that lead from it to entries of the archive, including folders that have no entry of their own; a name is listed exactly if it can be looked up; a lookup gives the attributes of the last entry at that path and opening it opens that entry; a listing reports the same attributes as a lookup; entry names cannot lead out of the archive.", "quantifier": "all archives (any names with '.', '..' and repeated slashes, duplicates, missing folders), all paths", "why_tests_cant": "names are cleaned, cut at prefixes and deduplicated by string operations: the property ranges over all name sets", "anchors": ["core/ratarmountcore/mountsource/formats/rar.py:RarMountSource.list", "core/ratarmountcore/mountsource/formats/rar.py:RarMountSource._lookups", "core/ratarmountcore/mountsource/formats/rar.py:RarMountSource._clean_path", "core/ratarmountcore/mountsource/formats/rar.py:RarMountSource._get_name"]}
{"id": "C72", "title": "SQLAR archives are served as the tree of their table", "statement": "For every SQLAR file: a folder lists exactly the names of the rows directly below it, once each, and exactly what is listed can be looked up; looking up a path gives mode, modification time, size and link target of the newest row that leads there, and nothing where there is no row; opening a file gives the bytes that were stored, whether they were compressed or not.", "quantifier": "every table of rows (names, row ids, modes, sizes, contents), every location, every compressor with an inverse", "why_tests_cant": "Names may be written in many ways, contain pattern characters, and lack their folders; tests use a few archives written by one tool.", "anchors": ["core/ratarmountcore/mountsource/formats/sqlar.py:SQLARMountSource.list", "core/ratarmountcore/mountsource/formats/sqlar.py:SQLARMountSource.lookup", "core/ratarmountcore/mountsource/formats/sqlar.py:SQLARMountSource.open"]}
{"id": "C73", "title": "Files in 7z archives are found and read completely", "statement": "For every 7z archive: looking up a path gives the attributes of the last entry stored there, and opening it gives all bytes that the library extracts for that entry, however the library cuts them into chunks.", "quantifier": "every list of entries, every location, every transform of names, every chunking of the content", "why_tests_cant": "How the decompressor chunks its output depends on the codec and the data; tests see a few chunkings of small files.", "anchors": ["core/ratarmountcore/mountsource/formats/py7zr.py:CachedFile.write", "core/ratarmountcore/mountsource/formats/py7zr.py:open_in_memory", "core/ratarmountcore/mountsource/formats/py7zr.py:Py7zrMountSource._convert_to_row"]}
{"id": "C74", "title": "Entries of ZIP archives are found and opened through the index", "statement": "For every ZIP archive: looking up a path gives size, time, type, permissions and link target of the newest entry at that path, and opening it opens exactly that entry.", "quantifier": "every list of directory entries with any names, attributes and header offsets, every location, every transform of names", "why_tests_cant": "Several entries may have the same path in any order, entries may lack UNIX modes or share headers; tests use a few archives.", "anchors": ["core/ratarmountcore/mountsource/formats/zip.py:ZipMountSource._convert_to_row", "core/ratarmountcore/mountsource/formats/zip.py:ZipMountSource.open"]}
{"id": "C75", "title": "Encrypted archives are opened with a fitting password", "statement": "For every encrypted ZIP, 7z, RAR or SQLAR archive and every list of passwords: the first password that fits is used, so that all files can be read, and mounting fails if none fits.", "quantifier": "every archive (what the library shows and opens for every password), every list of passwords", "why_tests_cant": "Which files are encrypted and with which password is up to the archive; tests use archives where all files have one password.", "anchors": ["core/ratarmountcore/mountsource/formats/zip.py:ZipMountSource._find_password", "core/ratarmountcore/mountsource/formats/py7zr.py:Py7zrMountSource._find_password", "core/ratarmountcore/mountsource/formats/rar.py:RarMountSource._find_password", "core/ratarmountcore/mountsource/formats/sqlar.py:SQLARMountSource._find_password"]}
{"id": "C76", "title": "Files of a SquashFS image are read like in-memory files", "statement": "For every file of a SquashFS image, whether it is stored in blocks, with blocks of zeros left out or with a fragment, every history of reads of any size and of seeks on the opened file returns the bytes that the same history returns on an in-memory file with the stored content, and tell reports the position of the next read.", "quantifier": "every block size, every content, every way to leave out zero blocks, every history of read, seek and tell calls", "why_tests_cant": "The state depends on the block that is buffered and on the history of seeks and reads; tests cover a few sequences on a few images.", "anchors": ["core/ratarmountcore/mountsource/formats/squashfs.py:SquashFSFile.read", "core/ratarmountcore/mountsource/formats/squashfs.py:SquashFSFile.read1", "core/ratarmountcore/mountsource/formats/squashfs.py:SquashFSFile.seek", "core/ratarmountcore/mountsource/formats/squashfs.py:SquashFSFile._refill_buffer"]}
{"id": "C77", "title": "The mounted tree is the tree of the SquashFS image", "statement": "For every SquashFS image, a path finds a file exactly if the image has one there, with its size, time, permissions, type and link target; listing a folder gives exactly its entries; and opening a file opens the inode of that file, also if it has several hard links.", "quantifier": "every directory tree with proper distinct names and every reference to inodes of 32 and 16 bits", "why_tests_cant": "Trees of any depth and shape are flattened into an index with numbers for inodes; a collision or a lost entry shows only for particular trees.", "anchors": ["core/ratarmountcore/mountsource/formats/squashfs.py:SquashFSImage._recursive_inodes_iterator", "core/ratarmountcore/mountsource/formats/squashfs.py:SquashFSImage._join_inode_offset", "core/ratarmountcore/mountsource/formats/squashfs.py:SquashFSMountSource._convert_to_row", "core/ratarmountcore/mountsource/formats/squashfs.py:SquashFSMountSource.open"]}
{"id": "C78", "title": "Files on a FAT volume read back their content", "statement": "For every allocation table and cluster contents in which a file's clusters are linked, opening the file on a FAT image and doing any sequence of seeks and reads answers as an in-memory file with that content would, as long as no seek goes before the start or beyond the end.", "quantifier": "all FAT types, tables, chains, cluster sizes, contents, sequences of seek/read/tell calls", "why_tests_cant": "the answers depend on the position inside the chain after arbitrary seeks; tests only try a few seek/read patterns on small images", "anchors": ["core/ratarmountcore/_external/pyfatfs/FatIO.py:FatIO", "core/ratarmountcore/_external/pyfatfs/PyFat.py:PyFat.get_cluster_chain"]}
{"id": "C79", "title": "The layout of a FAT volume is understood", "statement": "For every image with a valid boot sector, the volume is recognized, its type, allocation table, cluster size and every cluster's position are those of Microsoft's specification, so that every file linked in the table on the image is read back; and every file can be checked for being a FAT image without an error.", "quantifier": "all boot sectors, all images, all three FAT types, all table sizes", "why_tests_cant": "the bit packing and the geometry depend on all field values; test images cover a handful of geometries", "anchors": ["core/ratarmountcore/_external/pyfatfs/PyFat.py:PyFat.parse_header", "core/ratarmountcore/_external/pyfatfs/PyFat.py:PyFat._parse_fat", "core/ratarmountcore/mountsource/formats/fat.py:FATMountSource"]}
{"id": "C80", "title": "Directories on a FAT volume are read back", "statement": "For every directory stored on a FAT volume, in linked clusters or in the root directory area, with deleted slots in between, exactly its entries are found, in order, with their long name (any Unicode name of up to 819 UTF-16 units), short name, attributes, size, first cluster and modification time to two seconds.", "quantifier": "all directories, names, cluster sizes and chains", "why_tests_cant": "long names are spread over slots and cross cluster borders at any place; tests only have a few names", "anchors": ["core/ratarmountcore/_external/pyfatfs/PyFat.py:PyFat.parse_dir_entries_in_cluster_chain", "core/ratarmountcore/_external/pyfatfs/FATDirectoryEntry.py:FATLongDirectoryEntry", "core/ratarmountcore/_external/pyfatfs/EightDotThree.py:EightDotThree", "core/ratarmountcore/_external/pyfatfs/DosDateTime.py:DosDateTime"]}
{"id": "C81", "title": "The mounted tree is the tree of the FAT volume", "statement": "For every FAT volume whose directories have no name twice, a path finds an entry exactly if following the directories on the volume by long or short names leads to one, with its size, kind and time; a directory lists exactly its visible entries, each once; and opening a file gives its content; and all queries agree on which paths exist.", "quantifier": "all volumes, directory trees of any depth, names and paths", "why_tests_cant": "trees and names are unbounded; the parts of a name and of a directory are scattered over the image", "anchors": ["core/ratarmountcore/mountsource/formats/fat.py:FATMountSource.lookup", "core/ratarmountcore/mountsource/formats/fat.py:FATMountSource.list", "core/ratarmountcore/mountsource/formats/fat.py:FATMountSource.open", "core/ratarmountcore/_external/pyfatfs/FATDirectoryEntry.py:FATDirectoryEntry.get_entry"]}
{"id": "C82", "title": "What ls shows can be inspected, and the other way round", "statement": "On a mounted folder, the names reported by readdir besides . and .. are exactly those for which getattr succeeds, with or without a write overlay and whatever was deleted through it, with the right file types; getattr reports the source's size, mode, owner, time and the number of 512 byte blocks; readlink and the extended attributes are those of the source; reading a folder that does not exist is an error.", "quantifier": "every mount source whose listings agree with its lookups, every overlay table, folder and name", "why_tests_cant": "Mount sources, deletions and names are unbounded; tests only try a few archives.", "anchors": ["ratarmount/FuseMount.py:FuseMount._lookup", "ratarmount/FuseMount.py:FuseMount.getattr", "ratarmount/FuseMount.py:FuseMount.readdir", "ratarmount/FuseMount.py:FuseMount.readlink", "ratarmount/FuseMount.py:FuseMount.getxattr", "ratarmount/WriteOverlay.py:WritableFolderMountSource.list_deleted", "ratarmount/WriteOverlay.py:WritableFolderMountSource.is_deleted"]}
{"id": "C83", "title": "A changed mode shows on the file it was changed for, wherever that lies", "statement": "After chmod on a path of a writable mount, getattr of that path reports the new mode and everything else as before, and no other path changes; this includes the root and files in recursively mounted archives.", "quantifier": "every mount source, overlay table, path, other path and mode", "why_tests_cant": "The interplay of stored paths and sub mount points has unboundedly many shapes.", "anchors": ["ratarmount/FuseMount.py:FuseMount._lookup", "ratarmount/WriteOverlay.py:WritableFolderMountSource.update_file_info", "ratarmount/WriteOverlay.py:WritableFolderMountSource._split_path", "ratarmount/WriteOverlay.py:WritableFolderMountSource._set_file_metadata"]}
{"id": "C84", "title": "File system statistics are merged and reported", "statement": "statfs reports block sizes of at least 256 KiB and not below those of the sources, the smallest maximal name length of all sources, and on a writable mount the free space of the overlay folder.", "quantifier": "every list of source statistics, every overlay, every key", "why_tests_cant": "Any number of sources with any subset of keys.", "anchors": ["ratarmount/FuseMount.py:FuseMount.statfs", "core/ratarmountcore/mountsource/MountSource.py:merge_statfs"]}
{"id": "C85", "title": "A running mount keeps its indexes out of itself", "statement": "Paths inside the own mount point are recognised however they are written. Index files and folders that lie there are not used; all other locations given are used as given, including file URLs and :memory:; if none is left, indexes are kept in memory.", "quantifier": "every mount point, path, index file and list of folders, every real path function", "why_tests_cant": "Paths and spellings are unbounded; a missed case deadlocks the mount.", "anchors": ["ratarmount/FuseMount.py:FuseMount._path_provided_by_us", "ratarmount/FuseMount.py:FuseMount._filter_index_locations_in_fuse_mount"]}
{"id": "C86", "title": "Commands given to a running mount act on what they name", "statement": "A mount command mounts at the named place below the running mount, never takes relative inputs or inputs from the mount itself; an unmount command removes exactly the mounts it names, here or elsewhere.", "quantifier": "every parsed command, mount point and state of the subvolumes", "why_tests_cant": "Commands and paths are unbounded.", "anchors": ["ratarmount/FuseMount.py:FuseMount._process_parsed_arguments", "ratarmount/FuseMount.py:FuseMount._parse_command", "ratarmount/FuseMount.py:FuseMount.mount"]}
{"id": "C87", "title": "Files of a PDF document", "statement": "Every attachment of a document can be found and reads as the attached stream; page images and page texts are shown and read as such.", "quantifier": "every document: embedded files, pages, annotations, images, texts, cross reference table", "why_tests_cant": "The number and arrangement of objects is unbounded; the mapping between objects and offsets must be invertible for all of them.", "anchors": ["core/ratarmountcore/mountsource/formats/pdf.py:gather_embedded_files", "core/ratarmountcore/mountsource/formats/pdf.py:PDFMountSource._open_with_offset", "core/ratarmountcore/mountsource/formats/pdf.py:PDFMountSource.open"]}
{"id": "C88", "title": "A git commit as a file system", "statement": "Every path of the mounted commit is found with its kind, size and link target and reads as in the commit; folders list exactly their entries, as lookup shows them; paths the commit does not have are not found.", "quantifier": "every commit tree, prefix and path in any spelling", "why_tests_cant": "Trees and paths are unbounded.", "anchors": ["core/ratarmountcore/mountsource/formats/git.py:GitMountSource._look_up_path", "core/ratarmountcore/mountsource/formats/git.py:GitMountSource.list", "core/ratarmountcore/mountsource/formats/git.py:GitMountSource.lookup", "core/ratarmountcore/mountsource/formats/git.py:GitMountSource.open"]}
{"id": "C89", "title": "git:// and file:// URLs", "statement": "A git URL opens the repository, reference and path it is written with: a folder of the repository is mounted as if it were the root, a file is opened; without a reference the checked-out branch is used; file URLs name local paths.", "quantifier": "every repository path, reference and path inside, every tree, every set of branches", "why_tests_cant": "URLs and repositories are unbounded.", "anchors": ["core/ratarmountcore/mountsource/factory.py:_open_git_mount_source", "core/ratarmountcore/mountsource/factory.py:try_open_url", "core/ratarmountcore/mountsource/formats/git.py:GitMountSource._get_default_reference"]}
{"id": "C90", "title": "Remote file systems through fsspec", "statement": "For every remote tree served by an fsspec file system (with absolute paths or without leading slash, with or without prefix, or by a web server with quoted URLs), lookup finds exactly what is there, folders list exactly their entries under their names, and files read as their contents.", "quantifier": "every remote tree, prefix, path, link page and quoting", "why_tests_cant": "Trees, names and URL forms are unbounded; the adaptation of names has many special cases.", "anchors": ["core/ratarmountcore/mountsource/formats/fsspec.py:FSSpecMountSource._get_path", "core/ratarmountcore/mountsource/formats/fsspec.py:FSSpecMountSource._list", "core/ratarmountcore/mountsource/formats/fsspec.py:FSSpecMountSource.lookup", "core/ratarmountcore/mountsource/formats/fsspec.py:FSSpecMountSource._lookup_http", "core/ratarmountcore/mountsource/formats/fsspec.py:FSSpecMountSource.open"]}
{"id": "C91", "title": "Mount sources as fsspec file systems", "statement": "info, ls and open of the fsspec file system show and read exactly what the mount source has, with full paths, for paths with and without the protocol, read-only.", "quantifier": "every mount source and path", "why_tests_cant": "Mount sources and paths are unbounded.", "anchors": ["core/ratarmountcore/SQLiteIndexedTarFsspec.py:MountSourceFileSystem.ls", "core/ratarmountcore/SQLiteIndexedTarFsspec.py:MountSourceFileSystem.info", "core/ratarmountcore/SQLiteIndexedTarFsspec.py:MountSourceFileSystem._open", "core/ratarmountcore/SQLiteIndexedTarFsspec.py:MountSourceFileSystem._stripProtocol"]}
{"id": "C92", "title": "The places where a TAR archive may be cut are headers, and never separate a header from the entry it describes", "statement": "For every well-formed TAR archive, with or without blocks of zeros between the entries, the quick walk over the headers reports exactly the positions (in increasing order, with their type flags) of the headers of the first entry and of every entry that follows a regular file. So an archive cut there never has a long name, a long link or an extended header in one part and the entry it describes in the other. The size of an entry that an extended header announces is the value of its last size record.", "quantifier": "all archives (any number of entries, any sizes, any contents, any pax records), both settings for zero blocks", "why_tests_cant": "The claim is about every sequence of entries and every content of the extended headers; tests hold a few archives. Sizes in base 256 and the extension headers of sparse files, which break the claim, do not occur in small test archives.", "anchors": ["core/ratarmountcore/mountsource/formats/tar.py:_TarFileMetadataReader.find_tar_file_offsets", "core/ratarmountcore/mountsource/formats/tar.py:_TarFileMetadataReader._get_pax_size", "core/ratarmountcore/utils.py:ceil_div"]}
{"id": "C93", "title": "GNU incremental archives are recognised", "statement": "An archive is taken for a GNU incremental backup only if it holds a folder entry of such a backup. An archive that starts with such an entry is always recognised, even if the rest of it is damaged. Otherwise it is recognised if such an entry follows a regular file and fewer than 1000 entries (10000 for an uncompressed file on disk) precede it and the search takes less than three seconds. An archive whose first folder has a long name is not recognised.", "quantifier": "all archives, all time-outs", "why_tests_cant": "The answer depends on the order of all entries in front of the first folder entry, on their number and on the time taken.", "anchors": ["core/ratarmountcore/mountsource/formats/tar.py:SQLiteIndexedTar._detect_gnu_incremental"]}
{"id": "C94", "title": "Members of GNU incremental archives are shown under their real names", "statement": "The time stamp that GNU tar keeps in the prefix field of the headers of an incremental backup is removed from the name of every member, for plain headers and for headers that follow a long link; names that came from a long-name entry, names in headers with an empty prefix or with a prefix of several folders are kept. If the archive is recognised as incremental or its first member is a folder entry, all names are right.", "quantifier": "all archives, all names and prefix fields", "why_tests_cant": "The claim holds for all combinations of name, prefix field and long-name entries; the failing ones (a folder named like the prefix field, a member in front of the first folder entry) are unlikely to be in a test.", "anchors": ["core/ratarmountcore/mountsource/formats/tar.py:_TarFileMetadataReader._fix_incremental_backup_name_prefixes", "core/ratarmountcore/mountsource/formats/tar.py:_TarFileMetadataReader._get_tar_prefix", "core/ratarmountcore/mountsource/formats/tar.py:_TarFileMetadataReader._process_tar_info"]}
{"id": "C95", "title": "Extended attributes in TAR archives", "statement": "For every TAR archive whose members keep their extended attributes in pax headers, either plainly under SCHILY.xattr., or with a percent-encoded name and a base64 value without padding under LIBARCHIVE.xattr., or both, each member of the mounted archive lists exactly the names of its attributes and returns exactly their bytes, and no attribute of another member.", "quantifier": "all member lists, attribute names and values, both notations and every mixture of them, every order in which the database returns rows", "why_tests_cant": "A test fixes a few names and values; the base64 tails, the percent escapes, the mixture of both notations and the assignment of rows to members have to be right for every value.", "anchors": ["core/ratarmountcore/mountsource/formats/tar.py:_process_tar_info", "core/ratarmountcore/mountsource/formats/tar.py:_process_serial", "core/ratarmountcore/utils.py:decode_unpadded_base64", "core/ratarmountcore/SQLiteIndex.py:set_xattrs"]}
{"id": "C96", "title": "Numbers of decoder threads", "statement": "The text of -P is accepted exactly if it is a number or a comma-separated list of <backend>:<number> items (of items with the same name only the last has to be a number). Every decoder then gets the last number given for the first of its names that is given, else the default item, and 0 or a missing default means all available cores.", "quantifier": "all texts, all backends, every number of cores", "why_tests_cant": "Texts, repeated items and names are unbounded.", "anchors": ["ratarmount/CLIHelpers.py:parse_parallelization", "core/ratarmountcore/compressions.py:open_compressed_file"]}
{"id": "C97", "title": "The decoder of a compressed file", "statement": "A compressed TAR is decoded by an installed decoder that supports its format, with the number of threads requested on the command line: large gzip files on disk by rapidgzip unless indexed_gzip is preferred, other gzip files by indexed_gzip, bzip2 files by rapidgzip, xz files with several blocks by the parallel xz decoder.", "quantifier": "every set of installed modules, every file, every -P and --use-backend", "why_tests_cant": "Needs all combinations of installed modules, file sizes, priorities and thread counts.", "anchors": ["core/ratarmountcore/compressions.py:open_compressed_file", "core/ratarmountcore/compressions.py:use_rapidgzip", "ratarmount/CLIHelpers.py:parse_parallelization"]}
{"id": "C98", "title": "The backend named last wins", "statement": "Of all backends named with --use-backend, in one or several comma-separated arguments, that can open a file (or undo a compression), the one named last is used.", "quantifier": "all arguments, all files, all tables of backends", "why_tests_cant": "The number of arguments and the outcomes of the backends are unbounded.", "anchors": ["ratarmount/CLIHelpers.py:process_trivial_parsed_arguments", "core/ratarmountcore/mountsource/factory.py:open_mount_source", "core/ratarmountcore/compressions.py:find_available_backend"]}
{"id": "C99", "title": "Paths on the command line", "statement": "Every path on the command line is mounted, once and in the order given, except that the last one is the mount point if it is no URL and a folder or does not exist. A path that is given again at another position is an error. Without a mount point, one is inferred that is neither the first source nor another existing file.", "quantifier": "all argument lists, all states of the file system", "why_tests_cant": "Argument lists and file systems are unbounded.", "anchors": ["ratarmount/actions.py:process_parsed_arguments", "ratarmount/actions.py:determine_mount_point", "ratarmount/CLIHelpers.py:process_trivial_parsed_arguments"]}
{"id": "C100", "title": "Lists in options", "statement": "The passwords that are tried are that of --password and the lines of the password file, in this order and each once; the index folders are the items of the comma-separated text; FUSE gets exactly the options given, the last one of each name, and those for --prefix.", "quantifier": "all texts of options and all password files", "why_tests_cant": "The texts are unbounded.", "anchors": ["ratarmount/CLIHelpers.py:process_trivial_parsed_arguments", "ratarmount/actions.py:process_parsed_arguments", "ratarmount/actions.py:create_fuse_mount", "core/ratarmountcore/utils.py:remove_duplicates_stable"]}
{"id": "C101", "title": "Seek points of gzip archives survive between mounts", "statement": "The seek points a decoder exports for a gzip or zlib archive are stored in the index, and the next mount with that decoder imports exactly those: whatever tables the index file held before, whichever decoders mounted it in between, after failed exports and after the data was dropped. What is imported is always all the data of one export, and mounting with one decoder does not take the data of the other away.", "quantifier": "all contents of the index file, decoders (what they export, accept and raise), blob sizes, histories of mounts and of dropped data, points where the process dies", "why_tests_cant": "The tables written depend on the decoder, the number of blobs and the history; tests mount twice with one decoder and never see leftovers of others or of a process that died.", "anchors": ["core/ratarmountcore/SQLiteIndex.py:synchronize_compression_offsets", "core/ratarmountcore/SQLiteIndex.py:_load_gzip_index", "core/ratarmountcore/SQLiteIndex.py:_store_gzip_index", "core/ratarmountcore/SQLiteIndex.py:clear_compression_offsets", "core/ratarmountcore/SQLiteBlobFile.py:WriteSQLiteBlobs"]}
{"id": "C102", "title": "Block offsets of bzip2 and Zstandard archives survive between mounts", "statement": "The block offsets found when a bzip2 or Zstandard archive is first mounted are stored in the index and given to the decoder at the next mount, completely and unchanged, whatever else was mounted with that index in between; offsets a decoder rejects are found anew, and the tables of different formats do not disturb each other.", "quantifier": "all contents of the index file, block offsets, decoders, histories of mounts and of dropped data, points where the process dies", "why_tests_cant": "A truncated table of offsets is accepted silently by decoders, so that only the state of the file at every point of every history shows whether it can arise.", "anchors": ["core/ratarmountcore/SQLiteIndex.py:synchronize_compression_offsets", "core/ratarmountcore/SQLiteIndex.py:clear_compression_offsets"]}
{"id": "C103", "title": "A compressed file that is no archive is mounted as one file", "statement": "Mounting a compressed file in which no TAR member is found shows one file in the root folder: under the name and with the time stored in a gzip file, or else under the name of the archive file without its compression suffix. It is found under every path leading to it, nothing else is found anywhere, and its contents are the decompressed data for every sequence of seeks and reads.", "quantifier": "all archive names, compressed files, stored names and flags, decompressed contents, paths, sequences of calls", "why_tests_cant": "The names come from bytes of the file that can be anything: flags, extra fields, slashes, other encodings; tests have a few files made by gzip.", "anchors": ["core/ratarmountcore/compressions.py:get_gzip_info", "core/ratarmountcore/mountsource/formats/tar.py:SQLiteIndexedTar._create_index", "core/ratarmountcore/SQLiteIndex.py:set_file_info"]}
{"id": "C104", "title": "The mount point shows the inputs, the later ones first, the overlay above them and the control files on top", "statement": "For every set of inputs, mount point, overlay and options (union mount): after a successful start, a path is shown as the last existing input that has it shows it; the write overlay wins over all inputs and the control files win over all; nothing else is shown. Inputs that do not exist (and are no URLs) are ignored as long as one exists; a mount point that is a file, only missing inputs, or nothing to mount are refused; otherwise, if every existing input can be opened and the folders are there, the mount starts.", "quantifier": "all input lists, folder trees, overlay choices (none, temporary, named), control interface on/off, paths and sources", "why_tests_cant": "Tests mount a few combinations; the order, the self-bind special case and the overlay must work together for every list of inputs.", "anchors": ["ratarmount/FuseMount.py:FuseMount.__init__", "ratarmount/FuseMount.py:FuseMount._create_multi_mount", "ratarmount/WriteOverlay.py:WritableFolderMountSource.__init__"]}
{"id": "C105", "title": "Calls through the mount cannot alter the control files or leak them into the overlay", "statement": "For every sequence of file system calls on a mount with write overlay and control interface: calls on paths inside the control folder are refused without effect, all other calls behave as if there were no control folder, and the control files stay visible as they are and never appear in the overlay folder.", "quantifier": "all sequences of calls with all paths, all archives below", "why_tests_cant": "A test tries some calls on some paths; every decorated and undecorated call matters.", "anchors": ["ratarmount/WriteOverlay.py:check_ignored_prefixes", "ratarmount/WriteOverlay.py:WritableFolderMountSource", "ratarmount/FuseMount.py:FuseMount.__init__"]}
{"id": "C106", "title": "Mounting and unmounting leaves no trace", "statement": "For every request: whether the mount fails to start or is used and taken down, the real folders afterwards are as before, except for the named overlay folder and what is in it, and the log file, with the folders above them. In particular a created mount point and the temporary overlay folder are removed. While mounted, the mount point and the overlay folder exist.", "quantifier": "all requests, folder trees, failure points and activity inside the overlay folder", "why_tests_cant": "Tests look at a few successful mounts; a leftover after one of the many failure points would not be seen.", "anchors": ["ratarmount/FuseMount.py:FuseMount.__init__", "ratarmount/FuseMount.py:FuseMount._close"]}
{"id": "C107", "title": "When a stored index is used again", "statement": "For archives other than TAR: a mount that takes a stored index shows nothing but what the archive held at some time; if the archive was not changed it shows what the archive holds; after the archive became smaller, or with clearIndexCache, or with verifyModificationTime at every mount, the index is made anew when the archive changed; an index of another back end is refused and kept; a read-only mount neither makes nor changes an index; and a table made with other arguments is not shown without a warning.", "quantifier": "Every history of mounts with any options and of changes of the archive, starting without an index, and every parser of archives", "why_tests_cant": "The outcome depends on the whole history: each mount of a changed archive stores new metadata with the old table, so that the effect shows only two mounts later.", "anchors": ["core/ratarmountcore/mountsource/SQLiteIndexMountSource.py:SQLiteIndexMountSource._check_metadata", "core/ratarmountcore/mountsource/SQLiteIndexMountSource.py:SQLiteIndexMountSource._finalize_index", "core/ratarmountcore/SQLiteIndex.py:SQLiteIndex.check_archive_stats", "core/ratarmountcore/SQLiteIndex.py:SQLiteIndex.check_metadata_backend", "core/ratarmountcore/SQLiteIndex.py:SQLiteIndex.store_metadata"]}
{"id": "C108", "title": "Streams of OGG files", "statement": "An OGG file shows one file for each logical stream, under a distinct name made of the kind of stream, its serial number in 8 hexadecimal digits and an extension; the content is the pages of that stream in the order of the file, the size is its length, and the content is itself a valid OGG file that shows just itself. No byte of any accepted file is part of two streams. A file whose page numbers do not increase is rejected, no page of an accepted file is lost, and the size is right for cut off files as well.", "quantifier": "Every valid sequence of pages of any number of interleaved streams, every trailing rest shorter than a page header, and every sequence of bytes for the separation", "why_tests_cant": "There are unboundedly many interleavings of streams and page sizes.", "anchors": ["core/ratarmountcore/mountsource/formats/ogg.py:parse_ogg", "core/ratarmountcore/mountsource/formats/ogg.py:parse_ogg_page_header", "core/ratarmountcore/mountsource/formats/ogg.py:detect_media_type", "core/ratarmountcore/mountsource/formats/ogg.py:OGGMountSource"]}
{"id": "C109", "title": "Attribute values in HTML tags", "statement": "For every tag with quoted attribute values, exactly the attributes whose value is a data URL with content are taken for embedded files, each once; the place found for it is that of its value, and the original URL is the value of the data-savepage attribute that belongs to it. The same holds for attribute names in capital letters or with colons, and for values without quotes.", "quantifier": "Every tag with any number of attributes, white space, quotes and values", "why_tests_cant": "There are unboundedly many ways to write a tag.", "anchors": ["core/ratarmountcore/mountsource/formats/html.py:_find_tag_attribute_spans", "core/ratarmountcore/mountsource/formats/html.py:HTMLDataURLParser.handle_starttag"]}
{"id": "C110", "title": "Positions in HTML documents", "statement": "Line and column of every place in a document are turned into its offset in characters and this into its offset in bytes, however the document is cut into pieces for reading and whatever characters take several bytes. The data URL that is read back from the place found for an attribute, or for a text in a style sheet, is the one in the document.", "quantifier": "Every document, every way it is cut into pieces, every sorted list of offsets, every tag", "why_tests_cant": "Documents, encodings and chunk boundaries are unbounded in number.", "anchors": ["core/ratarmountcore/mountsource/formats/html.py:gather_embedded_files", "core/ratarmountcore/mountsource/formats/html.py:HTMLMountSource._open_with_span"]}
{"id": "C111", "title": "Contents of data URLs", "statement": "The file of a base64 data URL has exactly the encoded bytes and the media type of the URL, whatever other parameters and line breaks it has; the file of one with text has that text in the encoding that the charset names, or else in ASCII. Every data URL can be opened.", "quantifier": "Every content, media type, list of parameters and place of line breaks", "why_tests_cant": "Contents and parameters are unbounded.", "anchors": ["core/ratarmountcore/mountsource/formats/html.py:DataURLFile", "core/ratarmountcore/mountsource/formats/html.py:DATA_URL_REGEX"]}
{"id": "C112", "title": "Check sums over several mounts", "statement": "Whatever mounts came before, each with its own list of algorithms and each interrupted anywhere while hashing or not: a check sum that is shown as extended attribute is right, and after a mount that was not interrupted each file that could be read has all the check sums asked for. What is complete is not computed again. This holds for every kind of archive.", "quantifier": "Every history of mounts, lists of algorithms, interruptions and files that cannot be read", "why_tests_cant": "The histories of mounts and interruptions are unbounded.", "anchors": ["core/ratarmountcore/mountsource/SQLiteIndexMountSource.py:SQLiteIndexMountSource._finalize_index", "core/ratarmountcore/mountsource/SQLiteIndexMountSource.py:SQLiteIndexMountSource._compute_and_store_hashes", "core/ratarmountcore/mountsource/formats/tar.py:SQLiteIndexedTar.__init__"]}
{"id": "C113", "title": "A mount source with one file shows this file and nothing else", "statement": "For a file object, or a function opening one, mounted under a path: the mount source is made exactly if the path leads to something directly below the root; the root is a folder listing just this name; looking up the name gives a regular file whose size is the length of the content and whose permissions follow from what the file object allows; no spelling of a path finds anything else. Whatever was looked up as a file can be opened with every buffering and then behaves, over every history of seeks and reads and wherever others leave the position of the shared file object, as a file with this content; nothing else (folders, links, entries of other times, owners or mount sources) is opened.", "quantifier": "all paths, contents, permissions, owners, times, buffer sizes and histories of calls", "why_tests_cant": "Tests use one short file name and one content; spellings of paths, foreign entries and histories are unbounded.", "anchors": ["core/ratarmountcore/mountsource/compositing/singlefile.py:SingleFileMountSource", "core/ratarmountcore/mountsource/compositing/singlefile.py:_get_mode"]}
{"id": "C114", "title": "The parallel readers prefetch just the blocks behind the last one, more of them the longer the read went on in order", "statement": "After every history of requested blocks the prefetcher remembers the last few distinct blocks in the order of their last use. It asks only for blocks directly behind the one requested last, without gaps, and never for that one or one before it; how many depends only on the length of the run of blocks requested in ascending order without gaps just before: the next one after a jump, and as many as allowed after a run as long as the memory. At the start, or if nothing may be prefetched, it asks for nothing.", "quantifier": "all histories of requested blocks, sizes of the memory and limits", "why_tests_cant": "The number of histories is unbounded; tests exercise the prefetcher only through a few sequential reads.", "anchors": ["core/ratarmountcore/utils.py:Prefetcher", "core/ratarmountcore/BlockParallelReaders.py:BlockParallelReader"]}
{"id": "C115", "title": "An argument is accepted as a mount source exactly if something installed can open it", "statement": "An argument with :// is accepted as it is exactly if fsspec is installed and knows every protocol, separated by ::, before it. Any other argument must be a file. A part of a split file is replaced by its first part. Otherwise the resolved path is accepted exactly if a detected format other than SQLAR is one of a backend all of whose modules can be imported, or if sqlcipher is installed, the name ends with .sqlar in any case and the start looks random. What is refused is still accepted if it is a folder, or a ZIP or RAR file by the check of the library. Installing more never makes an accepted argument be refused. The error for a missing module names the module, and large zstd files with one frame give a warning (false: neither ever happens).", "quantifier": "all arguments, file systems, contents, tables of backends and sets of installed modules", "why_tests_cant": "The combinations of formats, backends and installed modules are unbounded; tests run with one set of installed modules.", "anchors": ["ratarmount/CLIHelpers.py:check_input_file_type", "ratarmount/actions.py:process_parsed_arguments"]}
{"id": "C116", "title": "Unmounting tells the truth about what is still mounted", "statement": "When unmounting several mount points every one of them is tried, with each program in turn until one succeeds. Nothing else is taken away. The exit code is 0 exactly if none of them is a mount point afterwards, and exactly those that still are get named.", "quantifier": "all lists of mount points, states of the system and behaviours of the programs called, also those that report a failure although they have unmounted", "why_tests_cant": "The behaviour of the external programs is outside of the control of tests.", "anchors": ["ratarmount/actions.py:unmount", "ratarmount/actions.py:unmount_list_checked"]}
{"id": "C117", "title": "The recursion depth says how many layers of archives in archives are opened", "statement": "For TAR archives and compressed files nested in each other in any way: with the recursion depth N, the outermost layer and exactly N more are opened, where decompressing is a layer and a TAR archive is one, and a compressed TAR archive is one folder if two layers are left for it. With --recursive alone all layers are opened. With neither, the outermost archive is opened (for a compressed TAR archive also the TAR archive in it), and nothing inside. As documented, a negative depth is unlimited, 0 is the same as no recursion, and 1 mounts all archives in the given archives (all three false).", "quantifier": "all trees of nested archives, all depths, with and without --recursive", "why_tests_cant": "Nesting and depth are unbounded; tests use at most two levels and never a negative depth.", "anchors": ["core/ratarmountcore/utils.py:determine_recursion_depth", "core/ratarmountcore/mountsource/formats/tar.py:SQLiteIndexedTar", "core/ratarmountcore/mountsource/compositing/automount.py:AutoMountLayer", "ratarmount/cli.py:create_parser", "ratarmount/CLIHelpers.py:process_trivial_parsed_arguments"]}
{"id": "C118", "title": "With ignored zero blocks, all TAR archives behind each other in one file are shown", "statement": "If several TAR archives follow each other in one file, a mount that ignores zero blocks has an entry for every member of every one of them and for nothing else, while a mount that does not has those of the first archive alone.", "quantifier": "every number of archives, every sequence of members with names, sizes and types, and every amount of padding by zero blocks", "why_tests_cant": "tests concatenate two small archives; the claim is about all sequences of archives and paddings", "anchors": ["core/ratarmountcore/mountsource/formats/tar.py:SQLiteIndexedTar"]}
{"id": "C119", "title": "An archive shown as a folder can be entered by those who may read the file", "statement": "When an archive is shown as a folder, the folder has the read and write permissions of the archive file, may be entered by each of owner, group and others exactly if these may read or execute the file, and has the type of a folder.", "quantifier": "every mode of the archive file", "why_tests_cant": "tests use files with one mode", "anchors": ["core/ratarmountcore/utils.py:create_folder_from_file_permissions", "core/ratarmountcore/mountsource/compositing/automount.py:AutoMountLayer"]}
{"id": "C120", "title": "An embedded file of a saved page is found under the place it came from", "statement": "A file that is embedded in an HTML document as a data URL is shown under the place that the page saver noted for it, with the suffix of its media type added unless the name has it already in any capitalization, and without such a note under the digest of its contents with that suffix; it is a regular file with the size of its decoded contents, and opening it gives these.", "quantifier": "every list of embedded files with their original URLs, media types and contents, every table of suffixes and every --transform", "why_tests_cant": "tests hold a few saved pages; names, suffixes and clashes between them are unbounded", "anchors": ["core/ratarmountcore/mountsource/formats/html.py:HTMLMountSource._convert_to_row", "core/ratarmountcore/mountsource/formats/html.py:HTMLMountSource.open"]}
{"id": "C121", "title": "Data URLs in style sheets and scripts are found", "statement": "In the text of a style sheet or script, exactly the data URLs behind url( or in quotes are taken for embedded files, each from its first to its last character, and with the original URL of the comment before it.", "quantifier": "every text between the links, every number of links, every data URL and every original URL", "why_tests_cant": "tests hold a few saved pages; what stands between the links is unbounded", "anchors": ["core/ratarmountcore/mountsource/formats/html.py:HTMLDataURLParser.handle_data", "core/ratarmountcore/mountsource/formats/html.py:DATA_URL_IN_CSS"]}
{"id": "C122", "title": "URLs of other machines open what they name", "statement": "Opening webdav://[user:password@]host/path asks that host with those credentials, else with both credentials of the environment, never with a mix; ssh, sftp and scp paths are relative to the home folder behind one slash and absolute behind two; Dropbox paths keep their names and get one slash before and none behind; what is a folder there is shown as a folder, what is a file is opened at its start, what does not exist or cannot be read from any place is an error.", "quantifier": "all URLs, credentials, environments, installed modules, servers and answers of the servers", "why_tests_cant": "There are no tests with arbitrary servers, user names and passwords, and the behaviour depends on the text of the URL together with the environment and the answers.", "anchors": ["core/ratarmountcore/mountsource/factory.py:try_open_url", "core/ratarmountcore/mountsource/factory.py:_open_sshfs_mount_source"]}
{"id": "C123", "title": "A mounted AR archive shows its members with their contents", "statement": "Every well-formed AR archive can be mounted. The last member at a path is found there with its size, times, owner and permissions, opening it gives exactly its contents, folders list what is found below them, and nothing is found where the archive has nothing.", "quantifier": "all archives (any number of members with short, BSD and first GNU long names, symbol tables), decodings, transformations of names, and orders in which the database returns rows", "why_tests_cant": "Tests look at a few archives; the path from the header through the index to the contents has to fit together for all names, sizes and orders.", "anchors": ["core/ratarmountcore/mountsource/formats/ar.py:ARMountSource._convert_to_row", "core/ratarmountcore/mountsource/formats/ar.py:ARMountSource.open", "core/ratarmountcore/SQLiteIndex.py:SQLiteIndex.lookup"]}
{"id": "C124", "title": "Compressing into zstd frames keeps the data, whatever the workers do", "statement": "Compressing a file into frames of a given size with several threads writes the compressed chunks in the order of the file, each chunk of that size except perhaps the last, so that decompressing gives the file back; at most as many chunks as threads are waiting at any time, it never gets stuck, and it ends.", "quantifier": "all contents, positive frame sizes, numbers of threads and schedules of the workers", "why_tests_cant": "The order in which the threads finish cannot be controlled by a test.", "anchors": ["core/ratarmountcore/compressions.py:compress_zstd"]}
{"id": "C125", "title": "Mounted ext4 images show the file system in them", "statement": "For every image whose file system is sound, looking up the written location of an inode gives its size, time, mode and owner and opening the result gives its data; nothing else is found; the listing of a folder names exactly what can be looked up below it, with the same attributes, without \".\" and \"..\"; checking for the format leaves the position of the file unchanged. Links keep their targets, a missing path has no version, and a name that is not text only affects its own entry (the last three are false).", "quantifier": "all file systems (inodes, folders, names), all encodings, all locations and versions", "why_tests_cant": "Test images contain few files with plain names; the claim is about every tree, every name and every encoding.", "anchors": ["core/ratarmountcore/mountsource/formats/ext4.py:EXT4MountSource", "core/ratarmountcore/mountsource/formats/ext4.py:is_ext4_image"]}
{"id": "C126", "title": "A mounted PDF document shows its attachments", "statement": "For every PDF document, mounting shows each attached stream under its name (objects without a name under the hash of their contents) with the size of its data, and opening it gives that data; nothing is found where neither an attachment nor a page's image or text is, and folders list exactly what can be looked up below them.", "quantifier": "all documents (attachments, pages, cross reference tables), all names, all transformations of names, all orders of the index", "why_tests_cant": "A test has one document with a handful of attachments; name clashes, missing names and shared streams are combinations that are never built.", "anchors": ["core/ratarmountcore/mountsource/formats/pdf.py:PDFMountSource", "core/ratarmountcore/mountsource/formats/pdf.py:gather_embedded_files"]}
{"id": "C127", "title": "A mounted TAR archive answers the kernel's requests with the archive's files", "statement": "When a TAR archive is mounted read-only, then after any history of stat, open, read and release requests: a path at which the archive has a regular file, itself or through a chain of up to 128 hard links, can be opened; every read with the handle, at any position and of any size and whatever requests for other files come in between, returns exactly the bytes of that file at that position; stat shows the size, permissions, owner and time of that file; handles are not given out twice, give no data after their release; and a path with nothing at it or below it is reported as missing. Hard links keep working when names are transformed.", "quantifier": "all archives made of whole blocks with any members, all transformations of names for files, all histories of requests, all orders in which the database returns rows, all positions and sizes", "why_tests_cant": "needs all interleavings of requests to several open files that share one file object, and all archives with hard link chains and repeated members", "anchors": ["ratarmount/FuseMount.py:FuseMount.open", "ratarmount/FuseMount.py:FuseMount.read", "ratarmount/FuseMount.py:FuseMount.release", "ratarmount/FuseMount.py:FuseMount.getattr", "core/ratarmountcore/mountsource/compositing/versioning.py:FileVersionLayer", "core/ratarmountcore/mountsource/formats/tar.py:SQLiteIndexedTar.open"]}
{"id": "C128", "title": "Listing a mounted TAR archive shows exactly what is in it", "statement": "Listing a folder of a mounted TAR archive gives '.', '..' and, each once, the names of the members in it and of the folders that other members are in, whether or not the archive has a member for these folders; nothing else is listed, and a location with nothing below it has no entries. The listed type and permissions are those of the last member with this path, those of a readable folder if only members below it exist, and always the type that stat shows.", "quantifier": "all archives made of whole blocks with any members, repeated or missing folders and transformed names, all locations, all orders in which the database returns rows", "why_tests_cant": "needs all archives: members in any order and number, folders that are missing, repeated, or come after their content", "anchors": ["ratarmount/FuseMount.py:FuseMount.readdir", "core/ratarmountcore/mountsource/compositing/versioning.py:FileVersionLayer.list_mode", "core/ratarmountcore/SQLiteIndex.py:SQLiteIndex.list_mode"]}
{"id": "C129", "title": "Old versions of a file in a mounted TAR archive", "statement": "In a TAR archive mounted without recursion in which a path occurs several times (tar -r, tar -u) and that has no entry called PATH.versions itself, listing PATH.versions gives exactly the numbers 1 to n for the n occurrences; PATH.versions/K has the size, type, permissions, owner and time of the K-th occurrence in the order of the archive; opening it and reading, at any offset and size and between any other requests, gives exactly the bytes of that occurrence; K > n does not exist (ENOENT); PATH.versions is a folder with the time and owner of the newest occurrence and cannot be opened; and the highest version is what PATH itself shows.", "quantifier": "all archives of 512-byte blocks, name transformations, locations, numbers of occurrences, histories of requests and orders in which SQLite returns rows", "why_tests_cant": "The number of occurrences, the positions between them and the interleaving of requests are unbounded; tests use one or two archives with three versions.", "anchors": ["core/ratarmountcore/mountsource/compositing/versioning.py:FileVersionLayer.lookup", "core/ratarmountcore/SQLiteIndex.py:SQLiteIndex.lookup", "core/ratarmountcore/SQLiteIndex.py:SQLiteIndex.versions", "ratarmount/FuseMount.py:FuseMount.readdir"]}
{"id": "C130", "title": "A recursively mounted TAR archive shows the files of its nested archives", "statement": "When a TAR archive is mounted recursively, a regular file in a nested archive, to any depth up to the limit, is found at the mount point of its archive followed by its name in it: stat gives the attributes of its own header, and after an open every read with the handle gives its bytes, whatever other requests come in between. The mount point is a folder that everyone who may read the archive may enter, and listing a folder shows the names of everything in it, from all archives, and nothing else. Hard links in nested archives show the file they link to.", "quantifier": "all archives whose nested archives are complete, all options for mount points and transformations that give clean mount points, all nesting depths, locations, histories of requests, orders of SQL results, and read positions and sizes", "why_tests_cant": "nesting depth, histories and archive contents are unbounded; tests use a few nested fixtures", "anchors": ["core/ratarmountcore/mountsource/formats/tar.py:SQLiteIndexedTar._create_index_recursively", "core/ratarmountcore/mountsource/SQLiteIndexMountSource.py:SQLiteIndexMountSource.lookup", "core/ratarmountcore/mountsource/compositing/versioning.py:FileVersionLayer._resolve_hard_links", "ratarmount/FuseMount.py:FuseMount.read"]}
{"id": "C131", "title": "Removing and renaming on a writable mount fail only for the reasons a file system gives", "statement": "After every history of calls: removing or renaming something that is not shown fails with 'no such file' and changes nothing that is shown; removing a folder that shows something fails with 'not empty' and changes nothing; a shown file or link can be removed and is gone afterwards; a folder that shows nothing can be removed and is gone afterwards; a call that failed has removed nothing.", "quantifier": "every archive, every history of calls on the write overlay, every path", "why_tests_cant": "The state of the overlay folder and of its database depends on an unbounded history; the failing case needs a path that is deleted and made again.", "anchors": ["ratarmount/WriteOverlay.py:WritableFolderMountSource.unlink", "ratarmount/WriteOverlay.py:WritableFolderMountSource.rmdir", "ratarmount/WriteOverlay.py:WritableFolderMountSource.rename"]}
{"id": "C132", "title": "All files embedded in an HTML document are gathered, at the right bytes", "statement": "For every HTML document whose start tags have lower case attribute names, once each, and quoted values: gathering the embedded files succeeds; every data URL with content that is the value of an attribute of a start tag is found together with the original URL the page saver left for it; so is every data URL that the search in a text between tags finds; each of them spans exactly the bytes of the data URL in the file; and nothing else is found.", "quantifier": "every sequence of tags, texts, end tags, declarations and comments, characters of any number of bytes, every way the document is read in chunks", "why_tests_cant": "The end of a tag is only guessed from the next call of the parser, lines and columns are turned into offsets of characters and those into offsets of bytes; this depends on all of the document.", "anchors": ["core/ratarmountcore/mountsource/formats/html.py:gather_embedded_files", "core/ratarmountcore/mountsource/formats/html.py:HTMLDataURLParser"]}
{"id": "C133", "title": "The modification time of a remote file is the one the server gives", "statement": "For every instant that a server names, the modification time shown for the file is that instant, wherever the mount runs: for a date with its offset from UTC (SFTP), for a number, and for the fourteen digits in UTC of FTP servers, with or without a fraction of a second. Without any of them the time is 0. Days that are not in the calendar are an error.", "quantifier": "every instant of the years 1 to 9999, every time zone of the machine, every further text behind the time", "why_tests_cant": "The result depends on the time zone of the machine the tests run on, and on every day of the calendar.", "anchors": ["core/ratarmountcore/mountsource/formats/fsspec.py:FSSpecMountSource._get_modification_time"]}
{"id": "C134", "title": "ZIP and RAR archives are mounted whatever dates their entries have, and show them as UTC", "statement": "Every ZIP archive that can be read is mounted, whatever the dates of its entries. An entry whose date and time are in the calendar is shown with them, read as UTC, in whatever time zone the mount runs. An entry of a RAR archive is shown with its date read as UTC, or with 0 if it has none.", "quantifier": "every pair of a date and a time stored in 16 bits each, every instant from 1980 to 2107 with an even second, every list of entries", "why_tests_cant": "There are four billion pairs, and the calendar has exceptions for months and leap years.", "anchors": ["core/ratarmountcore/mountsource/formats/zip.py:ZipMountSource._convert_to_row", "core/ratarmountcore/mountsource/formats/rar.py:RarMountSource._convert_to_file_info"]}
