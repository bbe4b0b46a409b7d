{"claims": [
 {"property": "C01", "status": "proved", "theorems": ["C01_stenciled_read_at"], "note": ""},
 {"property": "C02", "status": "partial", "theorems": ["C02_stenciled_history_partial", "C02_stenciled_history_actual", "C02_rejected_seek_refuted"], "note": "False after a rejected seek (position assigned before the check); exact behaviour proved for all histories."},
 {"property": "C03", "status": "proved", "theorems": ["C03_locked_readers", "C03_no_deadlock", "C03_unlocked_direct_reads_refuted", "C03_unlocked_beside_locked_refuted"], "note": "Proved for files opened from the archive (locked reads). The unlocked SQLiteIndexedTar.read shortcut is refuted."},
 {"property": "C04", "status": "proved", "theorems": ["C04_joined_history", "C04_joined_gather"], "note": ""},
 {"property": "C05", "status": "partial", "theorems": ["C05_callback_file_partial", "C05_zero_file_callback", "C05_rejected_seek_refuted"], "note": "False after a rejected seek: position is assigned before the check, the callback is then asked for a negative offset."},
 {"property": "C06", "status": "partial", "theorems": ["C06_block_reader_partial", "C06_read_all_refuted"], "note": "proved for sizes >= 0 and non-negative seeks; read(-1) is refuted: it drops the last byte and moves the position backwards"},
 {"property": "C07", "status": "partial", "theorems": ["C07_lru_partial", "C07_failed_getitem_refuted", "C07_setdefault_refuted"], "note": "proved for indexed accesses to present keys and setdefault with room; the other two kinds of calls are refuted: a failed lookup corrupts the usage list, setdefault grows without limit"},
 {"property": "C08", "status": "partial", "theorems": ["C08_blobs_hold_written", "C08_blobs_read_back", "C08_blob_part", "C08_blob_size_partial", "C08_blob_size_refuted"], "note": "contents and read-back proved for all writes; blob size bound proved for writes up to the blob size and refuted for larger ones"},
 {"property": "C09", "status": "proved", "theorems": ["C09_version_numbers", "C09_occurrences_exist", "C09_root_version"], "note": "The root has one version under every number. Paths starting with '../' are excluded (C15_query_refuted)."},
 {"property": "C10", "status": "proved", "theorems": ["C10_list_agrees_with_lookup", "C10_relative_path_refuted"], "note": "For absolute paths, as all callers pass. The refuted theorem shows the edge case of the relative path '..'."},
 {"property": "C100", "status": "partial", "theorems": ["C100_passwords", "C100_folders", "C100_fuse", "C100_fuse_extra", "C100_crlf_refuted"], "note": "Proved for lines separated by line feeds; refuted for password files with carriage returns."},
 {"property": "C101", "status": "partial", "theorems": ["C101_next_mount_loads", "C101_loads_are_complete_partial", "C101_loads_are_parts", "C101_decoders_keep_apart", "C101_crash_refuted", "C101_failed_export_refuted"], "note": "False for a process that dies while storing, for unexpected exceptions of the export and, without indexed_gzip, for every failing export: a part of the data stays and is imported (refuted). Proved for all other histories; with crashes, data is always a part of one export."},
 {"property": "C102", "status": "partial", "theorems": ["C102_next_mount_sets", "C102_blocks_are_complete_partial", "C102_blocks_are_parts", "C102_formats_keep_apart", "C102_crash_refuted"], "note": "False for a process that dies while storing: later mounts get the offsets stored until then (refuted). Proved for all other histories; with crashes, offsets are always a part of those of one mount."},
 {"property": "C103", "status": "partial", "theorems": ["C103_single_file_partial", "C103_every_file_has_a_name", "C103_unread_name_refuted", "C103_improper_name_refuted", "C103_only_without_members"], "note": "False for stored names behind an extra field or not in UTF-8 (ignored), and for stored names with slashes, empty, '.' or '..' (the file cannot be found); refuted for all of these. Proved for all other compressed files."},
 {"property": "C104", "status": "partial", "theorems": ["C104_later_input_wins", "C104_overlay_wins", "C104_control_wins", "C104_nothing_else", "C104_refuses", "C104_missing_ignored", "C104_starts", "C104_side_by_side_overlay_refuted", "C104_overlay_at_point_refuted"], "note": "False in two corners, proved as such: an overlay that is the mount point and an earlier input too does not win over later inputs, and with --disable-union-mount an overlay and an input can never be mounted together. Everything else is proved."},
 {"property": "C105", "status": "partial", "theorems": ["C105_calls_refused", "C105_other_calls_unaffected", "C105_control_intact_partial", "C105_rename_refuted"], "note": "rename is not guarded (finding), so the histories exclude renames from or to the control folder."},
 {"property": "C106", "status": "proved", "theorems": ["C106_failure_leaves_no_trace", "C106_leaves_no_trace", "C106_mounted"], "note": "Symbolic links fixed during the call; the temporary log file of the control interface is not modelled."},
 {"property": "C107", "status": "partial", "theorems": ["C107_only_past_contents", "C107_unchanged", "C107_verified", "C107_shrunk", "C107_recreate", "C107_reused", "C107_backend", "C107_read_only", "C107_old_index", "C107_verify_refuted", "C107_default_refuted", "C107_warned_refuted"], "note": "Proved except that a changed archive of at least the old size is shown with the old table by default, that one mount without verification disables verification afterwards, and that the warning about arguments comes once (refuted theorems)."},
 {"property": "C108", "status": "partial", "theorems": ["C108_demultiplexed", "C108_again", "C108_separate", "C108_numbers_refuted", "C108_all_shown_refuted", "C108_size_refuted"], "note": "Proved for valid files; the rejection of files with wrong page numbers, the visibility of chained streams with the same serial number and the sizes of cut off files are refuted."},
 {"property": "C109", "status": "partial", "theorems": ["C109_found", "C109_absent", "C109_tag", "C109_capitals_refuted", "C109_colon_refuted", "C109_unquoted_refuted"], "note": "Holds for quoted values and lower case names of letters, digits, hyphens and periods; refuted for capitals, colons and unquoted values."},
 {"property": "C11", "status": "proved", "theorems": ["C11_every_member_reachable", "C11_ancestors_are_folders_partial", "C11_some_version_is_folder_partial", "C11_shadowed_folder_refuted", "C11_block_device_refuted"], "note": "The stated property is proved at the level of list and lookup. Whether the newest version of an ancestor is a folder is proved under the condition that the archive has no other entry there, and refuted otherwise."},
 {"property": "C110", "status": "partial", "theorems": ["C110_offset", "C110_bytes", "C110_text", "C110_attribute", "C110_multibyte_refuted"], "note": "Holds for data URLs of one-byte characters in documents with any characters elsewhere; refuted for data URLs with multi-byte characters."},
 {"property": "C111", "status": "partial", "theorems": ["C111_base64", "C111_plain", "C111_charset", "C111_open", "C111_always_refuted"], "note": "Contents are right; refuted that every data URL can be opened. unescape, encode and search are parameters."},
 {"property": "C112", "status": "partial", "theorems": ["C112_hashes", "C112_right", "C112_tar_partial", "C112_tar_resumed_refuted", "C112_tar_refuted", "C112_once_refuted"], "note": "Shown values are right for all kinds of archives; completeness holds for all but TAR archives; refuted for TAR archives, and that complete files are not hashed again if an algorithm is unsupported."},
 {"property": "C113", "status": "partial", "theorems": ["C113_name", "C113_tree", "C113_open", "C113_fresh", "C113_refused", "C113_unseekable_refuted", "C113_spelling_refuted"], "note": "Proved for file objects and for functions that open files that can be sought in; false for those that cannot, and other spellings of the path are not found"},
 {"property": "C114", "status": "proved", "theorems": ["C114_memory", "C114_prefetch", "C114_ends"], "note": "The number of blocks between both ends of the formula is a parameter"},
 {"property": "C115", "status": "partial", "theorems": ["C115_url", "C115_file", "C115_fallback", "C115_monotone", "C115_module_refuted", "C115_warning_refuted"], "note": "Acceptance is proved in full; the error that names the module and the zstd warning never appear"},
 {"property": "C116", "status": "proved", "theorems": ["C116_unmount", "C116_tried"], "note": ""},
 {"property": "C117", "status": "partial", "theorems": ["C117_depth", "C117_recursive", "C117_default", "C117_negative_refuted", "C117_zero_refuted", "C117_one_refuted", "C117_warning_partial", "C117_warning_refuted"], "note": "Exact for every depth from 0 on and for --recursive; the documented meanings of negative depths, 0 and 1 are false"},
 {"property": "C118", "status": "proved", "theorems": ["C118_all_archives", "C118_nothing_else", "C118_two_archives"], "note": "Over block sequences; the header parser is that of C55."},
 {"property": "C119", "status": "proved", "theorems": ["C119_folder_permissions"], "note": "All modes."},
 {"property": "C12", "status": "proved", "theorems": ["C12_finalize_loses_and_invents_nothing"], "note": ""},
 {"property": "C120", "status": "partial", "theorems": ["C120_lookup_and_open_partial", "C120_root_refuted"], "note": "Proved for files that have a location of their own with nothing below it; a file from the root has none (refuted)."},
 {"property": "C121", "status": "partial", "theorems": ["C121_style_sheet", "C121_places", "C121_sound", "C121_quoted_partial", "C121_quoted_original_refuted"], "note": "Links without quotes and links in one kind of quotes; the original URL of quoted links is lost (refuted). C121_sound: for any text, every reported place is that of a data URL with content."},
 {"property": "C122", "status": "partial", "theorems": ["C122_webdav", "C122_not_mixed", "C122_dropbox", "C122_ssh", "C122_general", "C122_refused", "C122_special_characters_refuted"], "note": "Proved for URLs as documented. Refuted: a password with a slash is neither refused (the error message for it can never be reached, the expression matches every text) nor kept from other hosts: user name and the start of the password are taken for host and port. fsspec's own splitting of URLs and the answers of the servers are parameters."},
 {"property": "C123", "status": "partial", "theorems": ["C123_lookup_and_open_partial", "C123_nothing_else_partial"], "note": "For archives in which GNU long names are the first of their table: other ones are not found, see C38_gnu_refuted. Members with others below their path are left out."},
 {"property": "C124", "status": "proved", "theorems": ["C124_frames", "C124_round_trip", "C124_ends", "C124_zero_refuted"], "note": "For every schedule. A frame size of zero writes an empty file without an error (refuted, outside of the quantifier). The compressor is a parameter; exceptions of the workers are not modelled."},
 {"property": "C125", "status": "partial", "theorems": ["C125_lookup_and_open", "C125_list", "C125_no_list", "C125_check", "C125_versions_refuted", "C125_link_target_refuted", "C125_undecodable_refuted"], "note": "Lookup, open, listing and the format check are proved for every sound file system and every encoding. Three parts are false of the code: links never have a target, missing paths have one version, and one undecodable name makes its folder unlistable. The ext4 module is a parameter."},
 {"property": "C126", "status": "partial", "theorems": ["C126_attachments_partial", "C126_nothing_else_partial"], "note": "Proved from the document to lookup, listing and open, for documents whose objects can be gathered. Partial: attachments without data cannot be opened (C87_open_refuted), documents with only text cannot be mounted and most images are not shown (C87), and a stream attached under two names is shown under one of them. pypdf is a parameter."},
 {"property": "C127", "status": "partial", "theorems": ["C127_open_and_read", "C127_stat", "C127_new_handles", "C127_released", "C127_missing", "C127_transform_refuted", "C127_stale"], "note": "All of it is proved, but the last sentence is false: the targets of hard links are not transformed, so they lead nowhere."},
 {"property": "C128", "status": "partial", "theorems": ["C128_list", "C128_nothing_below", "C128_modes", "C128_link_type_refuted"], "note": "The last part is false for hard links: they are listed without a file type while stat follows them."},
 {"property": "C129", "status": "partial", "theorems": ["C129_open_and_read", "C129_stat", "C129_no_more", "C129_folder", "C129_list", "C129_link_refuted"], "note": "All but the last part is proved for paths with nothing below them; the last part is false for hard links, which are not followed below PATH.versions."},
 {"property": "C13", "status": "partial", "theorems": ["C13_crash_safety_partial", "C13_creation_succeeds", "C13_crash_windows_refuted"], "note": "Safe at every crash point except two windows of the set-up phase, in which a file without members is accepted (refuted)."},
 {"property": "C130", "status": "partial", "theorems": ["C130_open_and_read", "C130_stat", "C130_mount_point", "C130_list", "C130_hard_link_refuted"], "note": "Regular files, mount points and listings of nested archives proved to any depth; hard links in nested archives are looked up in the outermost archive (refuted); nested archives have to be complete or no archives at all"},
 {"property": "C131", "status": "partial", "theorems": ["C131_absent", "C131_not_empty", "C131_file_removed", "C131_empty_folder_partial", "C131_empty_folder_refuted"], "note": "For every history from an empty overlay. Removing an empty-looking folder is proved when the overlay folder has nothing in it; otherwise it can fail and hide the folder, which is refuted with a witness."},
 {"property": "C132", "status": "proved", "theorems": ["C132_gathered"], "note": "For documents given as pieces (tags, texts, end tags and declarations, comments) and the calls Python's HTMLParser makes for them. Capital letters, unquoted values and multi-byte data URLs are treated in C109 and C110."},
 {"property": "C133", "status": "partial", "theorems": ["C133_ftp_local_partial", "C133_ftp_refuted", "C133_fraction", "C133_no_such_day", "C133_aware", "C133_number"], "note": "Dates with their offset and numbers are exact. The time of an FTP server is read as local time, so that it is right only where local time is UTC (C133_ftp_local_partial gives the error exactly, C133_ftp_refuted). A time with a fraction, which RFC 3659 allows, is a ValueError (C133_fraction)."},
 {"property": "C134", "status": "partial", "theorems": ["C134_zip_time", "C134_zip_partial", "C134_no_date", "C134_zip_refuted", "C134_rar", "C134_shown", "C134_not_mounted"], "note": "Times are exact where all entries have a date in the calendar, up to stat on the mounted archive (C134_shown). One entry whose date is not in the calendar, such as the date 0 that some programs write, makes the whole archive fail with ValueError in this backend (C134_no_date, C134_not_mounted, C134_zip_refuted)."},
 {"property": "C14", "status": "proved", "theorems": ["C14_xattrs_last_write", "C14_batching", "C14_folder_attributes_refuted"], "note": "Entries are identified by header offset. The refuted theorem shows that generated parent folders share it with a file below them."},
 {"property": "C15", "status": "proved", "theorems": ["C15_normpath_confines", "C15_normpath_canonical", "C15_query_partial", "C15_query_refuted"], "note": "Normalization of members is proved in full. Normalization of queries differs for paths starting with '../'."},
 {"property": "C16", "status": "proved", "theorems": ["C16_union_versions", "C16_union_versions_cached_partial"], "note": "C16_union_versions is the full statement without cached folders; the _cached_partial theorem extends it to the cache for coherent sources without file/folder conflicts (see C19)."},
 {"property": "C17", "status": "proved", "theorems": ["C17_union_list_names"], "note": "For all sources and paths, list and list_mode."},
 {"property": "C18", "status": "partial", "theorems": ["C18_listed_metadata_partial", "C18_single_owner_partial", "C18_list_metadata_refuted"], "note": "The English property is false: the listed metadata is that of the first source with the name, the lookup uses the last one. Proved: exactly which metadata is listed, and agreement if one source owns the name."},
 {"property": "C19", "status": "partial", "theorems": ["C19_cache_transparent_partial", "C19_cache_transparent_refuted"], "note": "False in general (file in one source where another has a folder); proved for coherent immutable sources without such conflicts, for all cache depths and all limit schedules."},
 {"property": "C20", "status": "partial", "theorems": ["C20_get_mount_source_unchanged", "C20_handle_unchanged_partial", "C20_reaches_owner_twice", "C20_mount_source_owner_partial", "C20_subvolume_folder_refuted", "C20_version_alias_refuted"], "note": "Proved for all layer nestings and failures unless the userdata holds the None marker of a subvolume folder (there the code pops before its try block: refuted). Also: the FileInfo returned by get_mount_source of a version layer carries a wrong marker (refuted)."},
 {"property": "C21", "status": "partial", "theorems": ["C21_versions_listed", "C21_version_lookup", "C21_spelled_path", "C21_no_other_names_partial", "C21_versions_folder", "C21_versions_folder_refuted"], "note": "Listing and lookup of .versions folders are proved for every spelled path; refuted part: the unlisted names 0, -1, ... resolve, and a missing path fails with an assertion in lookup and lists as an empty folder."},
 {"property": "C22", "status": "proved", "theorems": ["C22_result_on_chain", "C22_lookup_total", "C22_chain_end"], "note": "Structural recursion bounded by the limit of 128 hops; the result is on the chain."},
 {"property": "C23", "status": "partial", "theorems": ["C23_history_partial", "C23_is_mountable", "C23_mixed_history_partial", "C23_is_mountable_refuted"], "note": "Proved for all mount/unmount histories (refinement of a table of mount points, including every reply). Refuted with is_mountable, which creates parent folders; with it, what is mounted is still exact."},
 {"property": "C24", "status": "partial", "theorems": ["C24_open_partial", "C24_open_refuted", "C24_nested_never_opens"], "note": "Holds for mount points in the root folder; no nested mount point can be opened (KeyError)."},
 {"property": "C25", "status": "partial", "theorems": ["C25_inside_prefix_partial", "C25_above_prefix", "C25_nothing_else", "C25_versions_refuted"], "note": "Everything but the version argument of lookup, which is dropped (refuted)."},
 {"property": "C26", "status": "partial", "theorems": ["C26_innermost_exists", "C26_innermost_answers", "C26_only_below", "C26_history", "C26_walk", "C26_lazy_partial", "C26_lazy_refuted"], "note": "Every path is answered by its innermost mounted archive, with every version number in range; mounting more only affects paths at or below the new mount points (plus the listing of the parent folder); mount tables only grow over every history of queries and over the eager walk. With lazy mounting and default options lookups are independent of the history and lead where following the path name by name leads. Refuted for stripped extensions with lazy mounting."},
 {"property": "C27", "status": "partial", "theorems": ["C27_list_partial", "C27_list_mode_partial", "C27_list_names", "C27_versions_partial", "C27_versions_refuted", "C27_nested_refuted", "C27_empty_refuted"], "note": "Non-empty listings keep all names and show mounted archives as folders; the versions of a mounted archive of the outermost source are its file versions plus the folder. Refuted: version numbers out of range wrap around, archives nested in archives are hidden by their mount point, empty mounted archives list as missing."},
 {"property": "C28", "status": "partial", "theorems": ["C28_sparse_read_partial", "C28_sparse_size", "C28_bad_maps_rejected", "C28_no_hole_refuted", "C28_unaligned_refuted"], "note": "Every well-formed sparse map with at least one hole and block-aligned pieces reads, at every position and size, as the described content; accepted maps are ordered and within the real size. Refuted: maps without holes (ValueError) and maps whose pieces are not multiples of 512 bytes."},
 {"property": "C29", "status": "partial", "theorems": ["C29_read_within_partial", "C29_open_stops", "C29_read_refuted", "C29_read_rest_refuted"], "note": "Reads inside the member and all reads through open are right; read(fileInfo, size, offset) returns bytes past the member when the range reaches beyond its end (refuted with witness)."},
 {"property": "C30", "status": "partial", "theorems": ["C30_only_named_paths", "C30_untouched", "C30_removed_stays_gone", "C30_rmdir_only_empty", "C30_create", "C30_mkdir", "C30_links_partial", "C30_rename_moves", "C30_rename_gone_partial", "C30_rename_folder_partial", "C30_listing", "C30_rename_refuted", "C30_recreate_refuted", "C30_rename_folder_refuted", "C30_rename_over_link_refuted", "C30_symlink_parent_refuted"], "note": "For every history of calls from an empty overlay. False parts are refuted with witnesses: renaming a copied-up file lets the archive's file reappear, links and nodes created over a deleted path stay hidden, renaming a folder leaves the archive's files behind, renaming an archive file onto a hard-linked one overwrites all its names, symlinks cannot be made in archive-only folders."},
 {"property": "C31", "status": "partial", "theorems": ["C31_open_and_write", "C31_write", "C31_truncate_partial", "C31_truncate_length", "C31_truncate_refuted"], "note": "Writes proved in full. Truncation is proved for files that only the archives have; for files already in the overlay folder it is refuted (the content is replaced by zeros)."},
 {"property": "C32", "status": "partial", "theorems": ["C32_commit_partial", "C32_remount_partial", "C32_spelling_refuted", "C32_folder_for_file_refuted", "C32_link_for_deleted_refuted", "C32_implied_folder_refuted"], "note": "For every archive with the usual name spellings and every history of calls as the kernel passes them on, except folder renames, folders made over archive files and links made over deleted names: committing yields exactly the files, links and folders the mount showed. Refuted with witnesses: other spellings, folder in place of a file, link in place of a deleted file, folders without own members. Attributes are not modelled (chmod and chown are not committed for archive-only files)."},
 {"property": "C33", "status": "partial", "theorems": ["C33_handles_differ", "C33_read", "C33_open_opens_shown", "C33_created", "C33_first_write_partial", "C33_read_only_handle", "C33_no_overlay", "C33_write_refuted", "C33_stale_reader_refuted", "C33_failed_write_refuted", "C33_open_exactly", "C33_unknown_handle"], "note": "Handles are never reused; reads and created handles follow the file. Writing reopens by path, so the full claim fails after a rename (refuted), for readers opened before a copy-up, and after a failing write."},
 {"property": "C34", "status": "partial", "theorems": ["C34_side_by_side", "C34_none_is_lost", "C34_no_name_refuted", "C34_control_refuted"], "note": "Proved for proper base names. Refuted for base names that denote no folder: a trailing slash gives the empty base name, and the control interface is mounted under '/', so with --disable-union-mount it always fails."},
 {"property": "C35", "status": "partial", "theorems": ["C35_arguments", "C35_echo", "C35_rejected", "C35_at_most_once", "C35_chunks_irrelevant", "C35_no_arguments_refuted"], "note": "Proved for nonempty argument lists; the empty list cannot be expressed (refuted)."},
 {"property": "C36", "status": "partial", "theorems": ["C36_sequence", "C36_detection", "C36_member_partial", "C36_own_file_refuted", "C36_link_refuted"], "note": "Detection ends and returns exactly the consecutive parts. Refuted: the opened file itself need not be one of the parts (x.gz next to x.aa, x.ab), and for symbolic links the target's name is used."},
 {"property": "C37", "status": "proved", "theorems": ["C37_left_over", "C37_prefix", "C37_unchanged", "C37_exclusion", "C37_order", "C37_patterns", "C37_every_pattern_reads", "C37_pattern_reads_once", "C37_split_once", "C37_empty_refuted"], "note": "Suffix stripping for every path and rule list, including the compilation of patterns into rules. The parser of globs is a parameter. Finding: a hidden file whose whole name is a suffix is stripped to the empty name, against the comment in the code."},
 {"property": "C38", "status": "partial", "theorems": ["C38_round_trip_partial", "C38_truncated", "C38_headers", "C38_regions", "C38_terminates", "C38_magic", "C38_thin", "C38_mode", "C38_thin_mode", "C38_gnu_refuted", "C38_thin_names_refuted", "C38_size_refuted"], "note": "Archives with short, BSD and symbol table members are read exactly; meta data equals the header for every accepted input. GNU long names other than the first of the table are not found and thin members are named by number (refuted)."},
 {"property": "C39", "status": "proved", "theorems": ["C39_rows", "C39_archive", "C39_probe", "C39_probe_complete", "C39_kinds", "C39_links_refuted"], "note": "For every header tree of files and folders as the code documents the format, through to lookup, list and content in the index model. C39_links_refuted: an archive with a link or an unpacked file is rejected as a whole."},
 {"property": "C40", "status": "proved", "theorems": ["C40_leaves", "C40_links", "C40_files", "C40_versions"], "note": "Paths lead through no links and no dot components. Links with a missing target are shown as they are. Indexed folders never resolve links (C49)."},
 {"property": "C41", "status": "partial", "theorems": ["C41_names", "C41_info_partial", "C41_links_refuted", "C41_special_refuted"], "note": "Names, sizes, times, modes and owners agree. Link targets and user data in listings never agree with lookup because two arguments are swapped and the link is read at the folder's path; list_mode shows special files as regular files."},
 {"property": "C42", "status": "partial", "theorems": ["C42_hashes", "C42_smplayer", "C42_smplayer_refuted"], "note": "Proved for all algorithms that read the whole file and all ways of splitting the reads; the SMPlayer hash is proved for full reads and refuted for short reads."},
 {"property": "C43", "status": "proved", "theorems": ["C43_position", "C43_accepts"], "note": "might_be_format restores the position for every check function and accepts exactly if the magic bytes stand at the position and the check accepts; a raising check is passed through with the position restored"},
 {"property": "C44", "status": "partial", "theorems": ["C44_explicit", "C44_candidates", "C44_distinct", "C44_collision_refuted"], "note": "order and names proved for all options; C44_collision_refuted: in an index folder two archives whose paths differ only in '/' and '_' share one index file"},
 {"property": "C45", "status": "partial", "theorems": ["C45_update_equals_scratch_partial", "C45_boundary_is_checked", "C45_versions_differ_refuted", "C45_changed_middle_refuted", "C45_nested_last_refuted", "C45_nested_last_stale_refuted", "C45_hard_link_last_refuted", "C45_equal_offsets_refuted"], "note": "Proved: for every archive without nested archives whose last member has plain data, the update after appending gives lookups equal to those of an index from scratch; an accepted update has the first and last regular headers in place. Refuted: number of versions of a folder, changes of unsampled members, a nested TAR or a hard link with nonzero size as last member, and rows with equal offsets in another order."},
 {"property": "C46", "status": "partial", "theorems": ["C46_self_link_partial", "C46_self_link_refuted"], "note": "True with one earlier version; refuted with two: the oldest version is returned."},
 {"property": "C47", "status": "partial", "theorems": ["C47_attributes", "C47_chown_refuted"], "note": "Successful changes proved; chown(-1,-1) raises ValueError instead of doing nothing."},
 {"property": "C48", "status": "partial", "theorems": ["C48_differs", "C48_beside_partial", "C48_beside_refuted", "C48_hidden", "C48_url_partial", "C48_url_refuted"], "note": "Proved for names that do not start with a dot; refuted for hidden files (mount point is the folder of the archive) and for URLs ending in a slash (mount point is the current folder)."},
 {"property": "C49", "status": "partial", "theorems": ["C49_index", "C49_rows", "C49_special_refuted"], "note": "Proved except that empty folders list nothing and that the path of anything but a regular file cannot be found again, so its extended attributes cannot be read."},
 {"property": "C50", "status": "partial", "theorems": ["C50_resumed", "C50_others", "C50_once", "C50_shared_refuted", "C50_own_attributes_refuted"], "note": "Proved for files with their own header number in archives that bring no user.hash.* attributes of the requested kind; refuted without these two conditions."},
 {"property": "C51", "status": "partial", "theorems": ["C51_detect", "C51_table", "C51_signatures", "C51_small_refuted"], "note": "proved for files with at least two bytes after the position and any table, and for the table of ratarmount for all files; C51_small_refuted: a format with a one-byte magic would be missed in tiny files. is_tar, is_zipfile and the deflate check are parameters"},
 {"property": "C52", "status": "proved", "theorems": ["C52_frames"], "note": "any number of skippable frames; cut frames are rejected; no exception"},
 {"property": "C53", "status": "partial", "theorems": ["C53_first", "C53_position_refuted"], "note": "proved for files opened at position 0; C53_position_refuted: at other positions the offsets found are wrong"},
 {"property": "C54", "status": "proved", "theorems": ["C54_signatures"], "note": "exact conditions of all checks that do not call other libraries"},
 {"property": "C55", "status": "partial", "theorems": ["C55_first", "C55_none", "C55_stale_refuted", "C55_file_url"], "note": "proved if the failing candidates are not compressed and not URLs; C55_stale_refuted: after a faulty compressed index its temporary copy is opened in place of the next index, which is then removed although it is fine"},
 {"property": "C56", "status": "partial", "theorems": ["C56_only_candidates", "C56_archive_safe", "C56_read_only", "C56_clear", "C56_clear_refuted"], "note": "C56_clear_refuted: clearing the index cache removes files even with read-only indexes"},
 {"property": "C57", "status": "partial", "theorems": ["C57_first_possible", "C57_kept", "C57_memory", "C57_memory_refuted"], "note": "C57_memory_refuted: the fallback to memory needs a writable current folder because ':memory:' is tried out as a file"},
 {"property": "C58", "status": "proved", "theorems": ["C58_found_again"], "note": "for plain local candidates; checks are any fixed function of the content"},
 {"property": "C59", "status": "partial", "theorems": ["C59_moved", "C59_unwritable_refuted"], "note": "proved if there are no candidates or a possible one; C59_unwritable_refuted: otherwise the connection in use is closed and indexing fails"},
 {"property": "C60", "status": "proved", "theorems": ["C60_every_member_is_found", "C60_nothing_else_is_indexed", "C60_nested_is_marked", "C60_unmarked"], "note": "Archives as lists of 512-byte blocks; header parsing by Python's tarfile is not modelled."},
 {"property": "C61", "status": "partial", "theorems": ["C61_stays_a_file_partial", "C61_fake_archive_refuted"], "note": "Proved when archives are not mounted recursively; refuted for recursive mounts: a fake archive is mounted as an empty folder."},
 {"property": "C62", "status": "partial", "theorems": ["C62_file_types_partial", "C62_block_device_refuted"], "note": "Proved for regular files, folders, symbolic links, character devices and FIFOs; refuted for block devices, which get no type bits."},
 {"property": "C63", "status": "partial", "theorems": ["C63_used_index_fits", "C63_unchanged_archive_uses_index", "C63_read_only_stale_refuted", "C63_same_size_refuted", "C63_truncated_archive_refuted", "C63_header_gone_refuted"], "note": "Proved: an index used as found implies not shrunk, verified time equal, size equal and end marker in place for writable indexes; the index of an unchanged archive is used. Refuted: read-only index of a grown archive is used stale, same-size changes without verification, and archives that can be indexed but not opened with a left-over index (truncated archive, header gone)."},
 {"property": "C64", "status": "partial", "theorems": ["C64_independent_files_partial", "C64_empty_member_refuted"], "note": "Proved for all histories over nonempty members; refuted for empty members, which open but raise RuntimeError on read."},
 {"property": "C65", "status": "partial", "theorems": ["C65_newest_entry_is_served_partial", "C65_folders_are_served", "C65_compressed_name", "C65_entry_below_refuted"], "note": "Proved for nonempty entries with nothing below them and for folders; a file entry with another entry below it is hidden by a generated folder (refuted)."},
 {"property": "C66", "status": "partial", "theorems": ["C66_links_partial", "C66_hard_link_in_folder_refuted"], "note": "Symbolic links and hard links in the top folder proved; hard links in folders dangle (refuted)."},
 {"property": "C67", "status": "partial", "theorems": ["C67_file_object_partial", "C67_larger_archive_refuted"], "note": "Proved when the archive fits into the callback buffer; refuted for larger archives, where archive objects share one file position."},
 {"property": "C68", "status": "partial", "theorems": ["C68_newest_member_is_read_partial", "C68_nested_member_is_read", "C68_member_below_refuted"], "note": "Proved for members with nothing below their path and that are not sparse (C28 covers those); a member with another one below its path is hidden by a generated folder (refuted). Seeks before the start are excluded (C02)."},
 {"property": "C69", "status": "proved", "theorems": ["C69_choice", "C69_mounts_iff", "C69_each_once", "C69_other_paths", "C69_moved_object_refuted"], "note": "Assumes that format checks do not raise and that backends that give up without an exception leave a file object at its start (C69_moved_object_refuted shows why); both hold for the backends in the table."},
 {"property": "C70", "status": "partial", "theorems": ["C70_decompressor", "C70_detect", "C70_missing_module_refuted"], "note": "A matching format without an installed module ends the search although a later format could be opened (refuted)."},
 {"property": "C71", "status": "partial", "theorems": ["C71_listing_partial", "C71_lookup_partial", "C71_versions", "C71_types", "C71_listed_attributes_partial", "C71_absolute_refuted", "C71_dot_refuted", "C71_listed_mode_refuted", "C71_missing_list_refuted"], "note": "Proved for relative names other than the root; absolute names, an entry for the root, the attributes of listed folders and listings of missing paths are refuted."},
 {"property": "C72", "status": "partial", "theorems": ["C72_listing_partial", "C72_lookup_partial", "C72_listed_attributes_partial", "C72_open", "C72_bracket_refuted", "C72_question_mark_refuted", "C72_missing_parents_refuted", "C72_dots_refuted", "C72_missing_list_refuted"], "note": "Proved for names without '..', tables with rows for all folders and folder names without *, ? and [; refuted otherwise."},
 {"property": "C73", "status": "partial", "theorems": ["C73_lookup_and_open_partial", "C73_chunks_exact", "C73_chunks_refuted"], "note": "Contents are right exactly if no chunk is longer than everything before it; bytes are lost otherwise."},
 {"property": "C74", "status": "partial", "theorems": ["C74_lookup_and_open", "C74_shared_header_refuted"], "note": "Proved for archives whose entries have their own headers; refuted for shared ones."},
 {"property": "C75", "status": "partial", "theorems": ["C75_zip_choice", "C75_seven_choice", "C75_rar_choice", "C75_sqlar_choice", "C75_all_files_partial", "C75_encrypted_directory", "C75_mixed_refuted", "C75_wrong_password_refuted", "C75_empty_password_refuted"], "note": "The first password that opens the first file is used. Refuted for archives with differently protected files and for encrypted directories without a fitting password (mounted as empty)."},
 {"property": "C76", "status": "partial", "theorems": ["C76_reads_content_partial", "C76_all_calls", "C76_tell_after_read_refuted", "C76_negative_seek_raises"], "note": "Reads and seeks from the start or end are proved; tell and SEEK_CUR after a read are refuted, and positions are reported up to the end only."},
 {"property": "C77", "status": "partial", "theorems": ["C77_lookup_and_open", "C77_list", "C77_character_device_refuted"], "note": "Proved for files, folders and links without --transform; a character device whose stored mode has its type bits is shown as a link (refuted)."},
 {"property": "C78", "status": "partial", "theorems": ["C78_fat_file_partial", "C78_as_in_memory", "C78_negative_seek_refuted", "C78_seek_beyond_end_refuted"], "note": "Seeks before the start are not rejected and seeks beyond the end are capped (refuted); otherwise as an in-memory file."},
 {"property": "C79", "status": "partial", "theorems": ["C79_table_partial", "C79_volume_partial", "C79_file_of_image", "C79_last_entry_refuted", "C79_type_refuted", "C79_check_refuted", "C79_check"], "note": "The last FAT12 entry can be dropped, volumes close below 4085 clusters are taken for FAT16, and the check of short files raises (refuted)."},
 {"property": "C80", "status": "partial", "theorems": ["C80_directory_partial", "C80_times", "C80_invalid_times", "C80_end_of_directory_refuted", "C80_orphaned_name_refuted"], "note": "An end mark only ends its cluster and orphaned long names make the directory unreadable (refuted)."},
 {"property": "C81", "status": "partial", "theorems": ["C81_lookup", "C81_root", "C81_lookup_none", "C81_list_partial", "C81_list_none", "C81_content_partial", "C81_exists_refuted", "C81_list_refuted"], "note": "exists raises for paths below a file, and list and lookup disagree on the empty path and on '..' (refuted)."},
 {"property": "C82", "status": "partial", "theorems": ["C82_listing", "C82_types", "C82_stat", "C82_dots_partial", "C82_links_and_attributes", "C82_missing_refuted", "C82_listing_refuted", "C82_attribute_position"], "note": "Listing and inspecting agree up to the overlay's database names, which are hidden in every folder (refuted). A missing folder lists as empty (refuted). The dots theorem needs a source that takes the empty path for the root."},
 {"property": "C83", "status": "partial", "theorems": ["C83_chmod_partial", "C83_root_refuted", "C83_nested_refuted"], "note": "Proved for entries of sources mounted at the root of the mount; false for the root folder itself and for files of nested archives (refuted)."},
 {"property": "C84", "status": "partial", "theorems": ["C84_block_size", "C84_merge", "C84_free_space_refuted"], "note": "Block sizes and merging proved; the overlay's free space is computed and then thrown away (refuted)."},
 {"property": "C85", "status": "partial", "theorems": ["C85_own_paths_partial", "C85_own_paths_refuted", "C85_index_file_partial", "C85_file_url_refuted", "C85_memory_refuted", "C85_folders_partial", "C85_folders_refuted", "C85_nothing_left"], "note": "Proved for absolute paths without a double leading slash and plain index paths; file URLs, :memory:, relative folders and paths with two leading slashes are handled wrongly (refuted)."},
 {"property": "C86", "status": "partial", "theorems": ["C86_inputs", "C86_mount_relative", "C86_mount_absolute_refuted", "C86_unmount_partial", "C86_unmount_refuted"], "note": "Inputs, relative mount points and inner unmounts proved; absolute mount points inside the mount end up at the full path below it and unmounts of other mounts are dropped (refuted)."},
 {"property": "C87", "status": "partial", "theorems": ["C87_shown_reads", "C87_attachments", "C87_images_only_first_partial", "C87_images_refuted", "C87_text_only_refuted", "C87_open_partial", "C87_open_refuted"], "note": "Everything shown reads as what its name says and every attachment is shown. Images and texts are mostly not shown, text-only documents fail to mount and empty attachments cannot be opened: refuted with witnesses."},
 {"property": "C88", "status": "partial", "theorems": ["C88_lookup", "C88_missing_partial", "C88_missing_refuted", "C88_list", "C88_list_mode", "C88_list_refuted", "C88_open", "C88_open_other", "C88_versions_refuted"], "note": "Everything in the commit is found, listed and read. Paths through files are found although they do not exist, one undecodable link target makes its folder unlistable, and missing paths have one version: refuted with witnesses."},
 {"property": "C89", "status": "partial", "theorems": ["C89_git_url_partial", "C89_git_url_refuted", "C89_file_url", "C89_inside_folder", "C89_inside_file", "C89_inside_missing_partial", "C89_default_reference_partial", "C89_default_reference_refuted", "C89_default_reference_detached"], "note": "URLs are taken apart as documented unless a part contains a separator; the default branch of the configuration precedes the checked-out branch: refuted with witnesses."},
 {"property": "C90", "status": "partial", "theorems": ["C90_lookup", "C90_root", "C90_missing", "C90_list", "C90_list_file_refuted", "C90_versions_refuted", "C90_http_list", "C90_http_lookup"], "note": "Proved for trees served in either path style and for web servers. Listing a file gives an empty folder and missing paths have one version: refuted with witnesses."},
 {"property": "C91", "status": "partial", "theorems": ["C91_info_open", "C91_read_only", "C91_ls_partial", "C91_ls_refuted", "C91_protocol_refuted"], "note": "Proved for paths without protocol and sources that list dictionaries; sources that list names and paths with the protocol are refuted with witnesses."},
 {"property": "C92", "status": "partial", "theorems": ["C92_split_points", "C92_never_separates", "C92_pax_size", "C92_base_256_refuted", "C92_sparse_refuted"], "note": "Full characterisation of the reported positions for archives with octal sizes and without the extension headers of old GNU sparse files; for those the English property is false and is refuted with witnesses."},
 {"property": "C93", "status": "partial", "theorems": ["C93_sound", "C93_first", "C93_complete", "C93_refuted"], "note": "Exact conditions proved; that every archive with a folder entry is recognised is refuted (long folder name first)."},
 {"property": "C94", "status": "partial", "theorems": ["C94_time_removed", "C94_long_name_kept", "C94_kept", "C94_all_names", "C94_refuted", "C94_all_names_refuted"], "note": "Names are right under the stated conditions; a one-folder ustar prefix and members in front of the first folder entry of an unrecognised archive are refuted."},
 {"property": "C95", "status": "partial", "theorems": ["C95_base64", "C95_shown", "C95_broken_value_refuted", "C95_invalid_name_refuted"], "note": "Proved for well-formed attribute headers with valid UTF-8 names. Refuted outside: one value that is no base64 text ends the indexing of the whole archive, and names that are not valid UTF-8 are changed."},
 {"property": "C96", "status": "proved", "theorems": ["C96_threads", "C96_accepts"], "note": "All texts; digits are ASCII."},
 {"property": "C97", "status": "partial", "theorems": ["C97_gzip", "C97_bzip2", "C97_xz", "C97_rapidgzip_only_refuted", "C97_xz_refuted"], "note": "Proved for gzip with both modules, for bzip2, and for xz file objects that know their block boundaries. Refuted: with only rapidgzip installed small gzip files cannot be opened, and the thread count has no effect on xz files opened from a path."},
 {"property": "C98", "status": "proved", "theorems": ["C98_archive", "C98_decompressor"], "note": "Composes the command line with the choice of backends of C69 and C70."},
 {"property": "C99", "status": "proved", "theorems": ["C99_arguments", "C99_inferred"], "note": "Equivalence: the command succeeds with a result exactly if the specification allows it."}
]}
