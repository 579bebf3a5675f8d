{
 "claims": [
  {
   "property": "C01",
   "status": "proved",
   "theorems": [
    "C01_read_unsigned",
    "C01_read_bool",
    "C01_field_unsigned_digits"
   ],
   "note": ""
  },
  {
   "property": "C02",
   "status": "proved",
   "theorems": [
    "C02_read_signed",
    "C02_read_signed_one_bit"
   ],
   "note": ""
  },
  {
   "property": "C03",
   "status": "proved",
   "theorems": [
    "C03_write_read"
   ],
   "note": ""
  },
  {
   "property": "C04",
   "status": "proved",
   "theorems": [
    "C04_write_frame"
   ],
   "note": ""
  },
  {
   "property": "C05",
   "status": "proved",
   "theorems": [
    "C05_read_host",
    "C05_write_host"
   ],
   "note": ""
  },
  {
   "property": "C06",
   "status": "proved",
   "theorems": [
    "C06_read_local",
    "C06_write_local"
   ],
   "note": ""
  },
  {
   "property": "C07",
   "status": "partial",
   "theorems": [
    "C07_any_offset_partial",
    "C07_any_offset_refuted",
    "C07_read_out_of_bounds_refuted"
   ],
   "note": "Intended property is false of the code: proved on exactly the layouts of layout_ok, refuted for every other layout (round trip fails, out-of-bounds read on a tight buffer)."
  },
  {
   "property": "C08",
   "status": "partial",
   "theorems": [
    "C08_write_any_value_partial",
    "C08_neighbour_refuted"
   ],
   "note": "Intended property is false for unsigned fields: exact effect of writing any value proved; a neighbour-changing write exhibited. True for signed fields (C04)."
  },
  {
   "property": "C09",
   "status": "proved",
   "theorems": [
    "C09_read_truncates"
   ],
   "note": ""
  },
  {
   "property": "C10",
   "status": "proved",
   "theorems": [
    "C10_fields_independent",
    "C10_getters_total",
    "C10_index"
   ],
   "note": ""
  },
  {
   "property": "C11",
   "status": "proved",
   "theorems": [
    "C11_fill_from",
    "C11_eq_exact"
   ],
   "note": ""
  },
  {
   "property": "C12",
   "status": "proved",
   "theorems": [
    "C12_structbuf",
    "C12_new_is_zero"
   ],
   "note": ""
  },
  {
   "property": "C13",
   "status": "proved",
   "theorems": [
    "C13_vector_is_a_list",
    "C13_sizes"
   ],
   "note": ""
  },
  {
   "property": "C14",
   "status": "proved",
   "theorems": [
    "C14_at_exact",
    "C14_at_panics"
   ],
   "note": ""
  },
  {
   "property": "C15",
   "status": "partial",
   "theorems": [
    "C15_release_check_refuted",
    "C15_release_check_partial",
    "C15_release_exact"
   ],
   "note": "Intended property is false in release builds: index*SIZE wraps, at(2^62) of a 4-byte struct returns element 0. Proved for all indices whose product does not overflow."
  },
  {
   "property": "C16",
   "status": "proved",
   "theorems": [
    "C16_slice_selects",
    "C16_slice_panics",
    "C16_slice_panics_release",
    "C16_slice_release_exact",
    "C16_slices_compose",
    "C16_slices_compose_exact"
   ],
   "note": ""
  },
  {
   "property": "C17",
   "status": "proved",
   "theorems": [
    "C17_iteration"
   ],
   "note": ""
  },
  {
   "property": "C18",
   "status": "partial",
   "theorems": [
    "C18_multi_len_exact_partial",
    "C18_multi_size_hint_refuted",
    "C18_av_len_partial",
    "C18_av_size_hint_refuted"
   ],
   "note": "Intended property is false: size_hint of both iterators is the default (0, None). len() proved exact in every reachable iterator state."
  },
  {
   "property": "C19",
   "status": "proved",
   "theorems": [
    "C19_views_stay_inside",
    "C19_handles_are_readable"
   ],
   "note": ""
  },
  {
   "property": "C20",
   "status": "partial",
   "theorems": [
    "C20_vector_at_partial",
    "C20_vector_at_exact",
    "C20_vector_handle_exact",
    "C20_vector_at_refuted"
   ],
   "note": "Intended property is false: at/at_mut only check the start of the element against the buffer including padding. Proved for existing elements."
  },
  {
   "property": "C21",
   "status": "proved",
   "theorems": [
    "C21_multi_debug",
    "C21_debug_preview"
   ],
   "note": ""
  },
  {
   "property": "C22",
   "status": "proved",
   "theorems": [
    "C22_write_read",
    "C22_write_succeeds"
   ],
   "note": "File storage needs a non-empty schema (an empty file cannot be mapped); success of the write proved under `ready` (nothing in the way, no I/O failure)."
  },
  {
   "property": "C23",
   "status": "proved",
   "theorems": [
    "C23_read_decides",
    "C23_ok_iff",
    "C23_utf8_exact",
    "C23_utf8_error",
    "C23_missing",
    "C23_ok_sound"
   ],
   "note": "Exact decision for all stored bytes; debug builds with a header within 16 of 2^64 are covered by C25."
  },
  {
   "property": "C24",
   "status": "proved",
   "theorems": [
    "C24_truncated",
    "C24_extended"
   ],
   "note": ""
  },
  {
   "property": "C25",
   "status": "partial",
   "theorems": [
    "C25_bad_header_refuted",
    "C25_bad_header_partial"
   ],
   "note": "Intended property is false in debug builds (size + 16 overflows and panics, for every such header). Proved for release builds and for all other headers."
  },
  {
   "property": "C26",
   "status": "proved",
   "theorems": [
    "C26_external_vector",
    "C26_multi_vector",
    "C26_write_isolated",
    "C26_identifiers"
   ],
   "note": "write, external vectors and multivectors, in the same storage or in one that is apart; identifiers that do not clash (see C55)."
  },
  {
   "property": "C27",
   "status": "partial",
   "theorems": [
    "C27_rewrite_partial",
    "C27_rewrite_refuted",
    "C27_rewrite_stale_refuted"
   ],
   "note": "Intended property is false for memory storage (appends; unreadable, or stale after a read). Proved for file storage."
  },
  {
   "property": "C28",
   "status": "partial",
   "theorems": [
    "C28_subdir_partial",
    "C28_subdir_refuted"
   ],
   "note": "Intended property is false for memory storage (every subdir is a new empty storage). Proved for file storage."
  },
  {
   "property": "C29",
   "status": "proved",
   "theorems": [
    "C29_memory_stable",
    "C29_file_stable"
   ],
   "note": ""
  },
  {
   "property": "C30",
   "status": "proved",
   "theorems": [
    "C30_create_twice",
    "C30_create_new"
   ],
   "note": "Without failing system calls; with them see C109."
  },
  {
   "property": "C31",
   "status": "proved",
   "theorems": [
    "C31_session_exact",
    "C31_all_succeed"
   ],
   "note": "Success without I/O failures proved (C31_session_exact); exactness whenever all calls succeeded (C31_all_succeed). Other steps of the program may be interleaved."
  },
  {
   "property": "C32",
   "status": "proved",
   "theorems": [
    "C32_same_as_vector"
   ],
   "note": ""
  },
  {
   "property": "C33",
   "status": "proved",
   "theorems": [
    "C33_failures_sound"
   ],
   "note": "For all fault schedules; stored files are assumed to be at most isize::MAX bytes long."
  },
  {
   "property": "C34",
   "status": "partial",
   "theorems": [
    "C34_close_partial",
    "C34_close_refuted",
    "C34_multi_vector_partial",
    "C34_multi_vector_refuted"
   ],
   "note": "Intended property is false: dropping the still open handle panics whenever the flush or the finalisation in close fails (proved for every history), for multivectors also if the index cannot be read back. Without I/O failures close returns."
  },
  {
   "property": "C35",
   "status": "proved",
   "theorems": [
    "C35_crash_in_write"
   ],
   "note": ""
  },
  {
   "property": "C36",
   "status": "partial",
   "theorems": [
    "C36_create_partial",
    "C36_run_partial",
    "C36_close_partial",
    "C36_crash_refuted"
   ],
   "note": "Intended property is false: 8 bytes of data are taken for the padding (witness). Proved: at any crash point a reader gets an error, an empty resource or the complete data."
  },
  {
   "property": "C37",
   "status": "proved",
   "theorems": [
    "C37_session_exact",
    "C37_all_succeed"
   ],
   "note": "Success without I/O failures (C37_session_exact) and exactness whenever all calls succeeded. Condition: the data size is below 2^bits of the index type (see C42)."
  },
  {
   "property": "C38",
   "status": "proved",
   "theorems": [
    "C38_index_partition"
   ],
   "note": ""
  },
  {
   "property": "C39",
   "status": "proved",
   "theorems": [
    "C39_at_exact",
    "C39_slice_exact",
    "C39_iterator_exact",
    "C39_buckets_at",
    "C39_buckets_slice",
    "C39_buckets_iterator"
   ],
   "note": ""
  },
  {
   "property": "C40",
   "status": "proved",
   "theorems": [
    "C40_buckets_inside",
    "C40_items_inside",
    "C40_collect_inside",
    "C40_unknown_tag_panics",
    "C40_truncated_item_panics"
   ],
   "note": "Any bytes and any sequence of at/slice/next/next_back; items via next and collect, including getters."
  },
  {
   "property": "C41",
   "status": "partial",
   "theorems": [
    "C41_slice_refuted",
    "C41_excluded_max_refuted",
    "C41_debug_panics_partial",
    "C41_release_panics_partial",
    "C41_release_exact"
   ],
   "note": "Intended property is false: slice(i+1..i) gives a view without index entries (for every view and i), and Excluded(usize::MAX) wraps in release builds. Every other range out of bounds proved to panic (debug; release unless a product overflows); C41_release_exact gives the result of every range in release builds."
  },
  {
   "property": "C42",
   "status": "partial",
   "theorems": [
    "C42_width_partial",
    "C42_width_refuted"
   ],
   "note": "Intended property is false: offsets are truncated to the index type, in both builds (witness: 8-bit index, 260 bytes). Proved for data below 2^bits."
  },
  {
   "property": "C43",
   "status": "proved",
   "theorems": [
    "C43_failures_sound"
   ],
   "note": "For all fault schedules; stored files are assumed to be at most isize::MAX bytes long."
  },
  {
   "property": "C44",
   "status": "partial",
   "theorems": [
    "C44_open_partial",
    "C44_open_sound",
    "C44_open_unique",
    "C44_fresh_open_partial",
    "C44_open_refuted"
   ],
   "note": "Proved for release builds, and for debug builds when no size header overflows; refuted for debug builds: an optional resource with a size header above 2^64-17 makes open panic. Mapped files must not have been truncated."
  },
  {
   "property": "C45",
   "status": "partial",
   "theorems": [
    "C45_build_open_partial",
    "C45_memory_refuted"
   ],
   "note": "Proved for every archive description as generated, any calls in any order with arbitrary interleaving of open writers and sub-builders, both storages, all builds and byte orders, same storage and new process, provided the calls returned Ok. Refuted for sub-archives in memory storage, which are never found."
  },
  {
   "property": "C46",
   "status": "partial",
   "theorems": [
    "C46_struct_getter_partial",
    "C46_struct_getter_refuted",
    "C46_struct_setter_partial",
    "C46_struct_setter_refuted"
   ],
   "note": "Intended property is false of the code: no size check; a short struct resource gives a handle whose getter, and the setter it is passed to, read out of bounds. Proved for resources at least as long as the struct."
  },
  {
   "property": "C47",
   "status": "proved",
   "theorems": [
    "C47_external_vector",
    "C47_multi_vector"
   ],
   "note": "External vectors and multivectors; the panicking thread is covered for external vectors."
  },
  {
   "property": "C48",
   "status": "partial",
   "theorems": [
    "C48_nested_memory_partial",
    "C48_nested_file_partial",
    "C48_nested_refuted"
   ],
   "note": "Intended property is false for file storage when the directory is missing (NotFound). Proved for memory storage and for existing directories."
  },
  {
   "property": "C49",
   "status": "proved",
   "theorems": [
    "C49_external_vector",
    "C49_multi_vector",
    "C49_write_format",
    "C49_signature_format"
   ],
   "note": ""
  },
  {
   "property": "C50",
   "status": "partial",
   "theorems": [
    "C50_stop_partial",
    "C50_new_partial",
    "C50_vector_refuted",
    "C50_torn_refuted"
   ],
   "note": "Intended property is false: a vector that was not closed is shown as empty (C50_vector_refuted), and a torn multivector panics on access (C50_torn_refuted). Proved at every crash or failure point after any successful calls, file storage: open never panics; if it succeeds, everything required has been started, completed data is shown exactly, the interrupted call shows its data or nothing, and an archive that was complete still opens. Calls after a failed call are C64."
  },
  {
   "property": "C51",
   "status": "partial",
   "theorems": [
    "C51_one_bit_signed_refuted",
    "C51_one_bit_signed_partial"
   ],
   "note": "Intended property is false: -1 reads back as 1 in a one-bit signed field (all offsets, buffers). 0 and all wider fields proved."
  },
  {
   "property": "C52",
   "status": "partial",
   "theorems": [
    "C52_enum_from_bytes_refuted",
    "C52_enum_set_get_partial",
    "C52_enum_exact_partial"
   ],
   "note": "Intended property is false on untrusted bytes (transmute of an undeclared discriminant). Exact characterisation and set-then-get proved."
  },
  {
   "property": "C53",
   "status": "partial",
   "theorems": [
    "C53_schema_of_data_refuted",
    "C53_schema_of_data_partial"
   ],
   "note": "Intended property is false (crash between data and schema). Proved: without an older schema only a prefix of the new schema reads the new data."
  },
  {
   "property": "C54",
   "status": "partial",
   "theorems": [
    "C54_rewrite_partial",
    "C54_rewrite_mapped_refuted"
   ],
   "note": "Intended property is false: rewriting with shorter data makes every later read through that storage touch unmapped memory (C54_rewrite_mapped_refuted). C54_rewrite_partial gives the exact result of reading again in all cases."
  },
  {
   "property": "C56",
   "status": "partial",
   "theorems": [
    "C56_kept_partial",
    "C56_failing_stat_refuted"
   ],
   "note": "Intended property is false: a failing stat counts as absent (C56_failing_stat_refuted). C56_kept_partial: this is the only way; in memory, and if the first system call works, the archive is kept."
  },
  {
   "property": "C57",
   "status": "partial",
   "theorems": [
    "C57_peek_refuted",
    "C57_peek_partial"
   ],
   "note": "Intended property is false in both storages (witnesses). Reads of other resources, and reads through another file storage object, proved harmless."
  },
  {
   "property": "C58",
   "status": "partial",
   "theorems": [
    "C58_recreate_partial",
    "C58_recreate_refuted"
   ],
   "note": "Intended property is false (witness). Proved: anything readable after a crash in create is the complete old data."
  },
  {
   "property": "C55",
   "status": "partial",
   "theorems": [
    "C55_names_partial",
    "C55_names_refuted"
   ],
   "note": "Intended property is false: multivector x and resource x_index, resource x and x.schema (witnesses in both storages). Proved for names without dot, none the index of the other."
  },
  {
   "property": "C59",
   "status": "partial",
   "theorems": [
    "C59_empty_index_refuted",
    "C59_one_entry_partial"
   ],
   "note": "Intended property is false: no index entry gives a panic, or length usize::MAX in release builds. An index with one entry is empty as intended (C59_one_entry_partial)."
  },
  {
   "property": "C60",
   "status": "partial",
   "theorems": [
    "C60_create_partial",
    "C60_run_partial",
    "C60_close_partial",
    "C60_crash_refuted"
   ],
   "note": "Intended property is false (witness: 8 bytes of data; the bucket access panics). Proved: each part is unreadable, empty or complete at every crash point."
  },
  {
   "property": "C61",
   "status": "proved",
   "theorems": [
    "C61_build_succeeds",
    "C61_round_trip"
   ],
   "note": "Sub-archives must not be named like another resource (two Rust methods of one type cannot have the same name); memory storage without sub-archives."
  },
  {
   "property": "C62",
   "status": "proved",
   "theorems": [
    "C62_fields",
    "C62_views",
    "C62_multi_views",
    "C62_storage",
    "C62_writers",
    "C62_archives",
    "C62_carries_over"
   ],
   "note": "Stated per group of functions; covers undefined behaviour, too: if the debug build returns, the release build returns the same."
  },
  {
   "property": "C63",
   "status": "proved",
   "theorems": [
    "C63_same_files",
    "C63_same_bytes"
   ],
   "note": "C63_same_files: whole directory trees under the hypotheses of C61. C63_same_bytes: each resource, in any two storages, if all calls succeed."
  },
  {
   "property": "C64",
   "status": "proved",
   "theorems": [
    "C64_last_success_wins",
    "C64_sub_stuck"
   ],
   "note": "Excluded: setting a vector that is being written or closed, and anything on a sub-archive after it was created again. C64_sub_stuck is the negative part about sub-archives."
  },
  {
   "property": "C65",
   "status": "proved",
   "theorems": [
    "C65_struct_text",
    "C65_text_eq"
   ],
   "note": ""
  },
  {
   "property": "C66",
   "status": "proved",
   "theorems": [
    "C66_view_text",
    "C66_view_text_eq",
    "C66_vector_text",
    "C66_vector_text_eq",
    "C66_multi_text",
    "C66_multi_text_eq",
    "C66_bucket_text_eq"
   ],
   "note": ""
  },
  {
   "property": "C67",
   "status": "partial",
   "theorems": [
    "C67_archive_text_partial",
    "C67_built_text",
    "C67_opened_text_partial",
    "C67_torn_refuted",
    "C67_short_refuted",
    "C67_raw_refuted"
   ],
   "note": "Intended property is false: a multivector of an interrupted writer panics (C67_torn_refuted), a struct resource that is too short is read out of bounds (C67_short_refuted, cf. C46), and raw data is shown only as address and size (C67_raw_refuted). Proved: there is a text if structs are long enough, multivectors are intact and no enumerators are undeclared (C67_archive_text_partial); in particular for every archive written by a builder and opened again, if there are no enums (C67_built_text); for arbitrary contents there is a text or a panic if structs are long enough (C67_opened_text_partial). Each text has a stray comma after the opening brace (C67_example)."
  },
  {
   "property": "C68",
   "status": "proved",
   "theorems": [
    "C68_still",
    "C68_write"
   ],
   "note": ""
  },
  {
   "property": "C69",
   "status": "partial",
   "theorems": [
    "C69_external_vector_partial",
    "C69_multi_vector_partial",
    "C69_torn_refuted",
    "C69_schema_refuted",
    "C69_overwrite_refuted"
   ],
   "note": "Intended property is false: a reader can see the size field half written and get a proper part of the data (C69_torn_refuted), a half written schema can be the expected one (C69_schema_refuted), and if an older version is replaced the reader loses the memory it mapped (C69_overwrite_refuted). Proved when there is no older version: the reader gets an error or a beginning of the final data; everything or nothing unless it looks in the middle of a write; what it got does not change; the expected schema is a beginning of the schema (C69_external_vector_partial, C69_multi_vector_partial)."
  },
  {
   "property": "C70",
   "status": "partial",
   "theorems": [
    "C70_multi_vector_partial",
    "C70_empty_index_refuted",
    "C70_eight_refuted"
   ],
   "note": "Intended property is false: an index that was mapped when it had 8 bytes is taken for empty (C70_empty_index_refuted), and 8 bytes of data are taken for padding while the index is already complete (C70_eight_refuted). Proved, if there is no older version: opening returns; if it succeeds, the index is empty, or the data are shown as empty and the final data have at most 8 bytes, or the data are complete and the index is a beginning of the final index, all of it if the size of the index was not read in the middle of a write; complete parts show the buckets."
  },
  {
   "property": "C71",
   "status": "proved",
   "theorems": [
    "C71_getters",
    "C71_built"
   ],
   "note": "C71_getters for every archive that was opened (C44); C71_built for one that was built (C45). The value of a struct getter is the memory from the start of the data on, because create takes no length (C46)."
  },
  {
   "property": "C72",
   "status": "partial",
   "theorems": [
    "C72_still",
    "C72_open_during_partial",
    "C72_final_refuted",
    "C72_snapshot_refuted"
   ],
   "note": "Intended property (what is opened is the finished archive, or at least what an open sees at one time) is false: C72_final_refuted, C72_snapshot_refuted. C72_open_during_partial says what can be opened instead. The writer meets no I/O failure, and the file system shows effects in program order (C68). C72_still ties the stepwise reader to the one of C44."
  },
  {
   "property": "C73",
   "status": "proved",
   "theorems": [
    "C73_external_vector",
    "C73_multi_vector",
    "C73_text_eq"
   ],
   "note": "C73_external_vector and C73_multi_vector for all histories; C73_text_eq: the texts determine the numbers. Found by mutation testing: no earlier theorem mentioned the texts of the writers."
  },
  {
   "property": "C74",
   "status": "partial",
   "theorems": [
    "C74_still",
    "C74_refused_partial",
    "C74_both_refuted"
   ],
   "note": "C74_refused_partial: the call after which a second creation is refused. C74_both_refuted: for every archive and history a second process that checked too early succeeds as well, and what follows from it (proved for all moments and schemas). Two processes, the second writes after the first is done; for interleaved writes see C78 and C79."
  },
  {
   "property": "C75",
   "status": "proved",
   "theorems": [
    "C75_diff",
    "C75_description"
   ],
   "note": "The diff crate is not modelled: the theorem holds for every edit script whose sides are the lines of the two schemas, separated at line feeds. C75_crlf_example shows what would be lost if the crate dropped carriage returns."
  },
  {
   "property": "C76",
   "status": "partial",
   "theorems": [
    "C76_first_error",
    "C76_names_partial",
    "C76_missing_schema_refuted",
    "C76_which_refuted"
   ],
   "note": "Intended property is false in two points: C76_missing_schema_refuted (all cases of a missing schema) and C76_which_refuted. C76_first_error is exact (in debug builds for size headers that do not overflow, cf. C25); C76_names_partial holds for all storages and failures."
  },
  {
   "property": "C77",
   "status": "partial",
   "theorems": [
    "C77_write",
    "C77_external_vector_partial",
    "C77_multi_vector_partial",
    "C77_archive_partial",
    "C77_durable_refuted",
    "C77_order_refuted",
    "C77_holes_refuted"
   ],
   "note": "Power failure: each file independently keeps a beginning of the sequence of writes to it (the last one maybe in part); directories are arbitrary. Intended property is false in three points: C77_durable_refuted, C77_order_refuted, C77_holes_refuted (the last for file systems that also lose single bytes of a file). The *_partial theorems state what remains, for all inputs. The writer has no I/O failures before; no older version of the resource."
  },
  {
   "property": "C78",
   "status": "proved",
   "theorems": [
    "C78_alone",
    "C78_close",
    "C78_ends",
    "C78_goes_on",
    "C78_agree",
    "C78_create"
   ],
   "note": "Processes without I/O failures; a process is a list of calls (write, create_archive, a handle with any chunks, an external vector, a multivector), each proved equal to the function of Storage.v when alone, with all failures (C78_alone; close up to its final read, C78_close). Hypotheses: nothing is in the way of the calls (processes_ok), no file is written where another call needs a directory."
  },
  {
   "property": "C79",
   "status": "partial",
   "theorems": [
    "C79_bytes_partial",
    "C79_mixed_refuted",
    "C79_exclusive_refuted"
   ],
   "note": "Intended property is false: C79_mixed_refuted (a reader gets data that neither process wrote), C79_exclusive_refuted (two creators). C79_bytes_partial is the exact statement about every byte that remains, for all contents and interleavings."
  },
  {
   "property": "C80",
   "status": "proved",
   "theorems": [
    "C80_vector",
    "C80_vector_any_limit",
    "C80_multi"
   ],
   "note": "Lengths of the byte vectors; what the allocator reserves beyond them is not modelled. C80_vector_any_limit has the limit as a parameter."
  },
  {
   "property": "C81",
   "status": "proved",
   "theorems": [
    "C81_spellings",
    "C81_write",
    "C81_read",
    "C81_round_trip",
    "C81_open"
   ],
   "note": "Names that start with a slash replace the path of the storage (PathBuf::join) and are excluded. Symbolic links are outside the model; for paths with \"..\" see C102. A directory whose path ends with '.' has to exist already: it is not made (C102_dot_refuted)."
  },
  {
   "property": "C82",
   "status": "partial",
   "theorems": [
    "C82_same",
    "C82_accepts",
    "C82_keeps",
    "C82_portable_partial",
    "C82_bucket",
    "C82_buckets_keep",
    "C82_bucket_portable_partial",
    "C82_refuted"
   ],
   "note": "Partial because the intended independence of the width is false (C82_refuted); C82_accepts and C82_bucket are exact for every width. Here only the readers that narrow a stored number are modelled for a general width; views and vectors are in C94."
  },
  {
   "property": "C83",
   "status": "partial",
   "theorems": [
    "C83_read",
    "C83_set_partial",
    "C83_wrong_sign",
    "C83_wrong_sign_refuted",
    "C83_eq_declared",
    "C83_eq_exact",
    "C83_eq_refuted",
    "C83_fill_partial",
    "C83_fill_refuted",
    "C83_items"
   ],
   "note": "Partial because the unconditional claim is false (C83_eq_refuted, C83_fill_refuted, C83_wrong_sign_refuted). C83_read, C83_eq_exact and C83_wrong_sign are exact; undeclared discriminants need bytes from elsewhere, a wrong impl Int is a mistake of the program which nothing checks."
  },
  {
   "property": "C84",
   "status": "partial",
   "theorems": [
    "C84_fill_sets",
    "C84_copy_partial",
    "C84_whole_refuted",
    "C84_copyable_refuted"
   ],
   "note": "Partial because the unconditional claim is false (C84_whole_refuted, C84_copyable_refuted); C84_copy_partial has exactly these two conditions. The copying program is a definition of CopySpec.v, following the test; C84_fill_sets shows that its setter calls are those of fill_from."
  },
  {
   "property": "C85",
   "status": "partial",
   "theorems": [
    "C85_with_len_debug_partial",
    "C85_with_len_release",
    "C85_with_len_refuted",
    "C85_grow",
    "C85_reserve"
   ],
   "note": "Partial because the claim is false for with_len and reserve in release builds (C85_with_len_refuted); C85_with_len_release and C85_reserve state the exact result there. Running out of memory below isize::MAX is not modelled."
  },
  {
   "property": "C86",
   "status": "partial",
   "theorems": [
    "C86_session",
    "C86_closed",
    "C86_drop",
    "C86_close_states",
    "C86_retry_refuted"
   ],
   "note": "Repeating a failed close is refuted (C86_retry_refuted). ResourceHandle is not exported and close of ExternalVector and MultiVector consumes the vector, so programs using the library cannot repeat it; the rest is proved for all sequences of calls."
  },
  {
   "property": "C87",
   "status": "proved",
   "theorems": [
    "C87_text_eq",
    "C87_opened_complete"
   ],
   "note": ""
  },
  {
   "property": "C88",
   "status": "proved",
   "theorems": [
    "C88_beside",
    "C88_processes",
    "C88_failures",
    "C88_no_failures",
    "C88_ends"
   ],
   "note": ""
  },
  {
   "property": "C89",
   "status": "partial",
   "theorems": [
    "C89_bytes_partial",
    "C89_agree_partial",
    "C89_tree",
    "C89_shared_refuted"
   ],
   "note": "Intended property is false: C89_shared_refuted (one process has written a resource, the death of another one that writes the same makes it unreadable). C89_bytes_partial and C89_agree_partial say what can be in the files at any time, with all failures and deaths."
  },
  {
   "property": "C90",
   "status": "proved",
   "theorems": [
    "C90_write",
    "C90_read",
    "C90_unchecked"
   ],
   "note": ""
  },
  {
   "property": "C91",
   "status": "partial",
   "theorems": [
    "C91_same",
    "C91_stream",
    "C91_read_partial",
    "C91_read_refuted"
   ],
   "note": "Partial because the intended property (what was streamed with success can be read) is false from 2^W bytes on (C91_read_refuted, for every width from 8 to 62); C91_stream is exact for every width. Failures are combined with other widths in C95. The model stops before the read at the end of close; with it, close reports the wrapped sizes (C98)."
  },
  {
   "property": "C92",
   "status": "proved",
   "theorems": [
    "C92_close",
    "C92_calls",
    "C92_errors",
    "C92_agree",
    "C92_beside_vector",
    "C92_beside_multi"
   ],
   "note": "The read at the end of the close of a vector is left out (C92_close is the exact relation); of the close of a multivector the reads of its index and its data are left out, so that a failure of the read of the index, which would come before the end of the data, is not among the failures here (it is in C37 and C42). Elements have correct layouts, values in range, and sizes that fit (job_typed)."
  },
  {
   "property": "C93",
   "status": "partial",
   "theorems": [
    "C93_same",
    "C93_vector",
    "C93_multi",
    "C93_vector_read_partial",
    "C93_multi_read_partial",
    "C93_vector_read_refuted",
    "C93_multi_read_refuted"
   ],
   "note": "Partial because the intended property (what was written with success can be read) is false from 2^W bytes on (C93_vector_read_refuted, C93_multi_read_refuted); C93_vector and C93_multi are exact for every width. Failures are combined with other widths in C95. The flush limit plus one element or the items of one bucket fit isize::MAX; offsets fit the index type. The model stops before the read at the end of close; with it, close reports the wrapped sizes (C98)."
  },
  {
   "property": "C94",
   "status": "partial",
   "theorems": [
    "C94_same",
    "C94_views",
    "C94_multi_views",
    "C94_vectors",
    "C94_with_len",
    "C94_grow",
    "C94_read_vectors",
    "C94_safe",
    "C94_multi_safe",
    "C94_release_refuted"
   ],
   "note": "Partial because the intended property (panics do not depend on the width) is false in release builds if the size of the struct divides 2^W (C94_release_refuted). The rest is exact. bits <= W for multi-arrays; stored offsets that do not fit usize are in C82."
  },
  {
   "property": "C95",
   "status": "proved",
   "theorems": [
    "C95_debug",
    "C95_release",
    "C95_stream",
    "C95_vector",
    "C95_multi"
   ],
   "note": "The sessions of Conc.v: the handle is made, everything is written and closed, without the read at the end of close (C82 for the readers). Beyond the sizes of the last three theorems the results without failures are in C91 and C93."
  },
  {
   "property": "C96",
   "status": "proved",
   "theorems": [
    "C96_same",
    "C96_portable",
    "C96_open",
    "C96_unique",
    "C96_sound",
    "C96_wider"
   ],
   "note": "Files longer than isize::MAX of the target cannot be mapped and are excluded (readable_w)."
  },
  {
   "property": "C97",
   "status": "proved",
   "theorems": [
    "C97_same",
    "C97_debug",
    "C97_debug_open",
    "C97_release",
    "C97_release_open",
    "C97_build_succeeds",
    "C97_round_trip"
   ],
   "note": "Each resource is set at most once, as in C45. Storage-level functions without usize arithmetic are shared with the 64-bit model."
  },
  {
   "property": "C98",
   "status": "proved",
   "theorems": [
    "C98_vector",
    "C98_multi",
    "C98_stream",
    "C98_builder",
    "C98_closed"
   ],
   "note": "Elements and index entries fit isize::MAX of the target; the offsets fit the index type and everything fits a 64-bit address space. For builders each resource is set at most once."
  },
  {
   "property": "C99",
   "status": "partial",
   "theorems": [
    "C99_storage_partial",
    "C99_builder_partial",
    "C99_memory",
    "C99_multi_exact",
    "C99_multi_refuted",
    "C99_directory_refuted"
   ],
   "note": "The claim is false for create_multi_vector: C99_multi_exact gives its exact result and the _refuted theorems give general conditions for the panic. The struct setter needs a struct of the right size (C46)."
  },
  {
   "property": "C100",
   "status": "partial",
   "theorems": [
    "C100_read_partial",
    "C100_open_partial",
    "C100_fresh_open_partial",
    "C100_open_refuted",
    "C100_fresh_open_refuted"
   ],
   "note": "The claim is false in debug builds (C100_open_refuted, C100_fresh_open_refuted, for every archive); the partial theorems show that there are no other exceptions. Files contain bytes and are not larger than isize::MAX."
  },
  {
   "property": "C101",
   "status": "partial",
   "theorems": [
    "C101_unambiguous",
    "C101_one_line",
    "C101_diff_refuted",
    "C101_schemas",
    "C101_name"
   ],
   "note": "Partial because the diff is not shown as lines (C101_diff_refuted). Texts are sequences of characters; C101_schemas is for schemas whose bytes are the characters (ASCII). The texts of io::Error and Utf8Error are arbitrary."
  },
  {
   "property": "C102",
   "status": "partial",
   "theorems": [
    "C102_exists",
    "C102_read",
    "C102_create",
    "C102_interrupted",
    "C102_dot_refuted",
    "C102_slash_refuted",
    "C102_below",
    "C102_below_refuted",
    "C102_alias_refuted",
    "C102_memory",
    "C102_memory_refuted"
   ],
   "note": "Partial because the intended property is false for unusual paths (C102_dot_refuted, C102_slash_refuted, C102_below_refuted, C102_alias_refuted, C102_memory_refuted). The system calls are those of a tree without links in which nothing fails; for failing calls see the other properties. C102_exists, C102_read and C102_create justify the use of components as keys in the other properties."
  },
  {
   "property": "C103",
   "status": "partial",
   "theorems": [
    "C103_write",
    "C103_blocked",
    "C103_archive_partial",
    "C103_archive_refuted"
   ],
   "note": "Partial because the intended property is false for archives (C103_archive_refuted; C103_archive_partial says exactly when it holds). For writes to file storages it is proved in full."
  },
  {
   "property": "C104",
   "status": "partial",
   "theorems": [
    "C104_call_partial",
    "C104_run_partial",
    "C104_close_refuted"
   ],
   "note": "Partial because the intended property is false for closing (C104_close_refuted) and for sub-archives whose signature was left behind (C64_sub_stuck). C104_call_partial says exactly which other calls succeed, C104_run_partial that everything works from states without open writers."
  },
  {
   "property": "C105",
   "status": "proved",
   "theorems": [
    "C105_vector",
    "C105_multi",
    "C105_vector_blocked",
    "C105_multi_blocked"
   ],
   "note": "C105_vector and C105_multi: what works when nothing was in the way; C105_vector_blocked and C105_multi_blocked: otherwise no attempt works."
  },
  {
   "property": "C106",
   "status": "proved",
   "theorems": [
    "C106_one",
    "C106_memory",
    "C106_fewer",
    "C106_tells",
    "C106_file_read",
    "C106_file_write"
   ],
   "note": "With {:?}. The text of a mapping (memmap) and the escaping of strings by the standard library are parameters; the bytes of paths are taken as characters (ASCII)."
  },
  {
   "property": "C107",
   "status": "proved",
   "theorems": [
    "C107_program",
    "C107_success",
    "C107_others",
    "C107_safe",
    "C107_blocked",
    "C107_read",
    "C107_read_sound"
   ],
   "note": "C107_program: the program works; C107_success: under any failing calls, a run that returns success has written everything; C107_others: after runs that also write other names; C107_safe: what runs leave alone; C107_blocked: otherwise it never works; C107_read: resources that are in place are read back with their contents (files of at most isize::MAX bytes, schemas that are UTF-8); C107_read_sound: what is read is what the files contain. Programs write resources directly with a storage, not with the builder of an archive (see C103 for the signature, which is not overwritten)."
  },
  {
   "property": "C108",
   "status": "proved",
   "theorems": [
    "C108_again",
    "C108_success",
    "C108_present",
    "C108_safe"
   ],
   "note": "C108_again: the program works after the signature was removed; C108_success: under any failing calls, a run that returns success has written everything; C108_present: otherwise it does nothing; C108_safe: what runs and removals leave alone. C108_mixed_example: after a removal of only the signature and a killed run, an archive can open with old and new contents. Programs write into one directory (no sub-archives)."
  },
  {
   "property": "C109",
   "status": "partial",
   "theorems": [
    "C109_memory",
    "C109_file_partial",
    "C109_lost",
    "C109_program",
    "C109_only",
    "C109_file_refuted"
   ],
   "note": "Partial because the intended property is false for file storages (C109_file_refuted: an archive that opens is lost). C109_file_partial says exactly what happens for each fate of the first call, C109_lost that the archive is replaced if only this call fails; C109_memory is the full property for memory storages. C109_program: whole programs; C109_only: which files can change."
  }
 ]
}