{
 "claims": [
  {
   "property": "C01",
   "status": "partial",
   "theorems": [
    "C01_read_returns_last_write_partial",
    "C01_fixed_shape",
    "C01_default_partial",
    "C01_coordinates",
    "C01_api_partial",
    "C01_api_any_partial",
    "C01_api_default_partial",
    "C01_read_returns_last_write_refuted",
    "C01_tame_partial",
    "C01_synchronised_partial",
    "C01_api_tame_partial"
   ],
   "note": "Proved for every history accepted by ok_history; for every legal one-block history on fixed-shape datasets in every plain configuration; for every legal history (sizes within C ints) when selection encoding and sharing are off; and with encoding and sharing on (default settings) for every legal history whose multi-block writes use blocks shorter than the dataset and whose record writes are not repeated (C01_default_partial). C01_api_partial, C01_api_default_partial say the same of sequences of H5Dwrite and H5Dread with dataspaces, memory types and buffers, down to every byte of the user's memory. The unrestricted statement is false (default configuration, full-width block in a multi-block write): refuted."
  },
  {
   "property": "C02",
   "status": "partial",
   "theorems": [
    "C02_unwritten_elements_partial",
    "C02_tame_partial",
    "C02_unwritten_elements_refuted"
   ],
   "note": "For every history accepted by ok_history and every tame history (TameSpec.v), any number of processes; refuted in general: with the default settings an element never written can read as data of another position."
  },
  {
   "property": "C03",
   "status": "partial",
   "theorems": [
    "C03_flush_publishes_partial",
    "C03_default_partial",
    "C03_highest_rank_wins_partial",
    "C03_coordinates",
    "C03_tame_partial",
    "C03_flush_publishes_refuted",
    "C03_highest_rank_tame_partial"
   ],
   "note": "For every history accepted by ok_history; for every legal history (sizes within C ints) when selection encoding and sharing are off; with the default settings for the legal histories of DefSpec.v. Refuted in general: with the default settings a flushed write of another process is not seen."
  },
  {
   "property": "C04",
   "status": "proved",
   "theorems": [
    "C04_coordinates_round_trip"
   ],
   "note": "For every selection stored as coordinates, at any place in a section."
  },
  {
   "property": "C05",
   "status": "partial",
   "theorems": [
    "C05_encoding_round_trip_partial",
    "C05_encoding_only_short_blocks",
    "C05_encoding_round_trip_refuted"
   ],
   "note": "Round trip exactly for blocks shorter than the array in every dimension but the first; false otherwise."
  },
  {
   "property": "C06",
   "status": "partial",
   "theorems": [
    "C06_record_round_trip_partial",
    "C06_record_size_refuted"
   ],
   "note": "Blocks and record number recovered; the reported data size is wrong (refuted)."
  },
  {
   "property": "C07",
   "status": "partial",
   "theorems": [
    "C07_sharing_transparent_partial",
    "C07_sharing_transparent_refuted",
    "C07_sharing_esize_refuted",
    "C07_sharing_kind_refuted",
    "C07_tame_partial"
   ],
   "note": "Transparent for accepted histories (multi-block writes of the same rank and number of blocks agree on being record writes, no record selection repeated with the compact index, equal selections have equal element size with the array index); false without each of these: three witnesses."
  },
  {
   "property": "C08",
   "status": "partial",
   "theorems": [
    "C08_index_kinds_same_reads_partial",
    "C08_same_pieces_partial",
    "C08_C13_tame_partial",
    "C08_index_kinds_refuted",
    "C08_index_kinds_differ_refuted"
   ],
   "note": "Same pieces of one search; same reads of accepted and of tame histories; refuted in general: repeated record writes, equal selections of datasets of different element size."
  },
  {
   "property": "C09",
   "status": "partial",
   "theorems": [
    "C09_search_exact_partial",
    "C09_compact_exact_partial",
    "C09_compact_refuted"
   ],
   "note": "Exact for both indexes when counts (and, for the compact index, record numbers) fit a C int; false for records beyond 2^32 in the compact index."
  },
  {
   "property": "C10",
   "status": "partial",
   "theorems": [
    "C10_search_bytes_partial",
    "C10_search_bytes_refuted"
   ],
   "note": "Exact byte correspondence when counts fit a C int; of a block of 2^31 elements nothing is transferred."
  },
  {
   "property": "C11",
   "status": "partial",
   "theorems": [
    "C11_extents_disjoint_partial",
    "C11_independent_refuted"
   ],
   "note": "For every history of non-empty writes whose log datasets are placed apart by the library underneath; disjointness of log datasets is that library's, not this code's. An independent read while writes wait records all of them at the start of the file (refuted)."
  },
  {
   "property": "C12",
   "status": "proved",
   "theorems": [
    "C12_sections_tile",
    "C12_any_queue",
    "C12_merged_entries",
    "C12_layout",
    "C12_sections_tile_partial"
   ],
   "note": "For every history whose writes name existing datasets and have blocks of the right rank, and for queues filled in any way with entries whose header announces their size (merged entries included). Entry sizes are integers without bound in the model and C ints in the code."
  },
  {
   "property": "C13",
   "status": "partial",
   "theorems": [
    "C13_limit_same_reads_partial",
    "C13_limit_same_reads_refuted",
    "C13_nothing_written_refuted",
    "C13_loads_each_section_once",
    "C08_C13_tame_partial"
   ],
   "note": "Any two limits give the same reads; false for a file without metadata."
  },
  {
   "property": "C14",
   "status": "proved",
   "theorems": [
    "C14_keeps_elements",
    "C14_any_blocks"
   ],
   "note": "For every selection of the library and every list of disjoint blocks."
  },
  {
   "property": "C15",
   "status": "proved",
   "theorems": [
    "C15_row_major",
    "C15_regular",
    "C15_any_blocks_refuted"
   ],
   "note": "For every selection the library can hold; the block order of the library (trees of spans) is an assumption about HDF5. For other block orders the result need not be row-major (refuted, not reachable)."
  },
  {
   "property": "C16",
   "status": "partial",
   "theorems": [
    "C16_points_partial",
    "C16_points_refuted"
   ],
   "note": "Only for points in row-major order; the code sorts the points, so any other order is lost (refuted)."
  },
  {
   "property": "C17",
   "status": "partial",
   "theorems": [
    "C17_pending_reads_partial",
    "C17_pending_reads_refuted",
    "C17_overlapping_rows_partial",
    "C17_nested_reads_refuted",
    "C17_tame_partial"
   ],
   "note": "For queues of reads in which no element is requested twice, over whole histories; for overlapping requests, at the level of the rows read, when no row lies inside another one. With shared elements the property is false in general: refuted with an overlapping request in a history, and for every read nested in another read of the same block."
  },
  {
   "property": "C18",
   "status": "partial",
   "theorems": [
    "C18_file_view_partial",
    "C18_file_view_refuted"
   ],
   "note": "For pieces of different logged blocks and of one-dimensional blocks; false for several pieces of one multi-dimensional block (refuted)."
  },
  {
   "property": "C19",
   "status": "partial",
   "theorems": [
    "C19_stored_partial",
    "C19_unsupported_filter",
    "C19_read_back_refuted",
    "C19_read_fails_refuted",
    "C19_overflow_refuted",
    "C19_pass_through_refuted",
    "C19_reopened_refuted"
   ],
   "note": "The stored bytes are decodable for every lossless compressor and number of stages; the read path never recovers them (it compresses again, and MPI_Pack gets a one-byte buffer; after reopening the filters are gone and the compressed bytes are returned), so the property is false."
  },
  {
   "property": "C20",
   "status": "partial",
   "theorems": [
    "C20_isolated_partial",
    "C20_untouched",
    "C20_buffered_refuted"
   ],
   "note": "Isolation holds for every write whose data is copied (property false or unset, or packing, conversion, filtering). With the property set to true the user buffer is aliased until the flush, the opposite of doc/api.md: refuted."
  },
  {
   "property": "C21",
   "status": "partial",
   "theorems": [
    "C21_compression_changes_nothing",
    "C21_compression_changes_nothing_partial",
    "C21_compressor_partial",
    "C21_compressed_fits_partial",
    "C21_compressor_error_refuted",
    "C21_depends_on_earlier_writes_refuted"
   ],
   "note": "For every sequence of calls, legal or not, and every compressor that returns without error, in files without merging, alignment and subfiling. Refuted when zlib reports that a stream was freed prematurely: a write whose selection does not compress into its own size may fail."
  },
  {
   "property": "C22",
   "status": "partial",
   "theorems": [
    "C22_once_each_partial",
    "C22_histories_partial",
    "C22_histories_refuted",
    "C22_twice_refuted",
    "C22_encoded_refuted",
    "C22_only_bit_refuted"
   ],
   "note": "Holds in whole histories (any number of processes, creations, resizings, writes, flushes, reads, reopenings) when no process writes a dataset twice between two flushes, for plain coordinates; at the level of entries also with selection encoding in one dimension. False otherwise: characterised for two writes, witnesses for the default settings, for a whole history and for merging as the only setting."
  },
  {
   "property": "C23",
   "status": "partial",
   "theorems": [
    "C23_flushed_once_partial",
    "C23_flush_twice_partial",
    "C23_flushed_once_refuted"
   ],
   "note": "For every history of writes with data; a write of no element can wait forever (refuted)."
  },
  {
   "property": "C24",
   "status": "proved",
   "theorems": [
    "C24_ids_unique",
    "C24_ids_stable"
   ],
   "note": "Uniqueness for every history and every name, also over reopening; stability for paths of simple names (C26 says what goes wrong for others). That data recorded under an identifier is returned only for it is C32."
  },
  {
   "property": "C25",
   "status": "partial",
   "theorems": [
    "C25_ranges_partial",
    "C25_partition",
    "C25_same_group",
    "C25_number_agrees",
    "C25_chain",
    "C25_messages_match",
    "C25_overflow_refuted",
    "C25_reopen_refuted"
   ],
   "note": "For every number of processes and groups whose product fits a C int (overflow refuted), and for every assignment of processes to nodes. Opening an existing file uses a wrong number of groups (refuted)."
  },
  {
   "property": "C26",
   "status": "partial",
   "theorems": [
    "C26_not_reserved_partial",
    "C26_distinct_partial",
    "C26_scan_partial",
    "C26_scan_skips_internal",
    "C26_all_loaded_partial",
    "C26_iterate_partial",
    "C26_absolute_refuted",
    "C26_scan_refuted",
    "C26_paths_refuted"
   ],
   "note": "For paths of components without slash and not starting with a dot; absolute names, names starting with a dot and multi-component names are refuted."
  },
  {
   "property": "C27",
   "status": "partial",
   "theorems": [
    "C27_create_partial",
    "C27_settings_kept",
    "C27_subfiles_reported",
    "C27_layout_refuted",
    "C27_aligned_refuted",
    "C27_open_refuted",
    "C27_single_read_refuted",
    "C27_access_list_refuted",
    "C27_access_list_default_refuted"
   ],
   "note": "For new files, every property list made by setter calls and every environment without the data layout variable. False for that variable (inverted), for settings at opening (ignored), for reading single subfiles, for the lists reported by the file; the aligned layout is undefined behaviour."
  },
  {
   "property": "C28",
   "status": "partial",
   "theorems": [
    "C28_get_after_set_partial",
    "C28_lost_refuted",
    "C28_value_refuted",
    "C28_encoding_refuted"
   ],
   "note": "For seven of eleven properties and every sequence of calls; three setters do nothing and one is out of bounds (refuted)."
  },
  {
   "property": "C29",
   "status": "partial",
   "theorems": [
    "C29_accounting_partial",
    "C29_limit_partial",
    "C29_refused_only_full_partial",
    "C29_flush_releases_partial",
    "C29_no_double_free",
    "C29_uninitialised_refuted",
    "C29_wrap_refuted"
   ],
   "note": "Proved for a counter that starts at zero and sizes that do not wrap; the code does not initialise the counter, and the setter of the limit has no effect (C28_lost_refuted)."
  },
  {
   "property": "C30",
   "status": "partial",
   "theorems": [
    "C30_closed_once_partial",
    "C30_get_file_refuted",
    "C30_failed_open_refuted"
   ],
   "note": "Proved for histories in which H5Iget_file_id is called only while a file identifier is open and H5Dopen does not fail in a file that is not log based; both exceptions are refuted with witnesses."
  },
  {
   "property": "C31",
   "status": "partial",
   "theorems": [
    "C31_accepted_extent",
    "C31_set_extent_keeps_data_partial",
    "C31_rejected_extent_refuted",
    "C31_shrink_grow_refuted"
   ],
   "note": "An accepted size change alters no read, after any sequence of calls. A rejected call does change the dataset, and shrinking then growing exposes old data: refuted."
  },
  {
   "property": "C32",
   "status": "partial",
   "theorems": [
    "C32_dataset_isolation_partial",
    "C32_tame_partial",
    "C32_dataset_isolation_refuted"
   ],
   "note": "For accepted and for tame histories; refuted in general with the default settings (deduplication takes a record write for an earlier write to another dataset)."
  },
  {
   "property": "C33",
   "status": "partial",
   "theorems": [
    "C33_write_n_is_n_writes_partial",
    "C33_tame_partial",
    "C33_write_n_refuted"
   ],
   "note": "For accepted and for tame histories; refuted in general with the default settings."
  },
  {
   "property": "C34",
   "status": "proved",
   "theorems": [
    "C34_reopen_preserves",
    "C34_reopen_flushed",
    "C34_reopen_preserves_partial",
    "C34_disk_reopens",
    "C34_disk_transparent",
    "C34_reopen_settled"
   ],
   "note": "After every sequence of calls (writes that select something carry data), reopened by any number of processes: collective reads, or any reads after a flush. Files without subfiles; the datasets are found again (C26, C53, C54 treat names and subfiles)."
  },
  {
   "property": "C35",
   "status": "partial",
   "theorems": [
    "C35_large_positions_partial",
    "C35_large_blocks_refuted"
   ],
   "note": "Large coordinates are handled; blocks of 2^31 elements are not."
  },
  {
   "property": "C36",
   "status": "partial",
   "theorems": [
    "C36_write_partial",
    "C36_read_partial",
    "C01_api_partial",
    "C36_points_refuted",
    "C36_empty_refuted"
   ],
   "note": "For all selections except unsorted points, memory arrays with sizes below 2^31, also in whole histories (C01_api_partial); unsorted points and empty memory selections refuted."
  },
  {
   "property": "C37",
   "status": "partial",
   "theorems": [
    "C37_independent_reads_partial",
    "C37_independent_reads_refuted"
   ],
   "note": "Holds when nothing is pending; a pending write is lost otherwise."
  },
  {
   "property": "C38",
   "status": "partial",
   "theorems": [
    "C38_selection_partial",
    "C38_selection_only_thin",
    "C38_selection_refuted",
    "C38_log_dataset_partial",
    "C38_log_dataset_refuted",
    "C38_read_partial",
    "C38_scalar"
   ],
   "note": "Right for pieces with at most the first and last dimension larger than one (all pieces of rank 1 and 2) and for no others; log datasets must lie in the file in the order of their numbers. The branch for filtered data is not covered here (see C19)."
  },
  {
   "property": "C39",
   "status": "proved",
   "theorems": [
    "C39_sorted_permutation"
   ],
   "note": "For every list of rows."
  },
  {
   "property": "C40",
   "status": "partial",
   "theorems": [
    "C40_once_partial",
    "C40_covered_partial",
    "C40_twice_refuted",
    "C40_missed_refuted"
   ],
   "note": "Exactly once when there are at least as many sections as processes. With more processes than sections entries are taken several times or, with metadata sharing, not at all (refuted). What is then stored is C59."
  },
  {
   "property": "C41",
   "status": "partial",
   "theorems": [
    "C41_reversal_involution",
    "C41_reversal_is_reversal",
    "C41_entry_partial",
    "C41_entry_exact",
    "C41_entry_refuted",
    "C41_reader_refuted"
   ],
   "note": "The reversal functions are proved correct; entries of a big-endian writer differ from little-endian ones in the 64-bit header fields (exact characterisation), and a big-endian reader reads out of bounds."
  },
  {
   "property": "C42",
   "status": "partial",
   "theorems": [
    "C42_scalar_round_trip_partial",
    "C42_scalar_refuted"
   ],
   "note": "Holds without selection encoding; creation is undefined behaviour in the default configuration."
  },
  {
   "property": "C43",
   "status": "partial",
   "theorems": [
    "C43_own_bytes_partial",
    "C43_within_stripe_partial",
    "C43_recorded_refuted",
    "C43_overwritten_refuted",
    "C43_offsets_partial",
    "C43_offsets_refuted"
   ],
   "note": "Each process writes its own bytes once, but the recorded positions are never those written to, stripes of different processes collide, and offsets collide when three groups share a target (refuted)."
  },
  {
   "property": "C44",
   "status": "partial",
   "theorems": [
    "C44_agreeing_partial",
    "C44_writers_partial",
    "C44_pass_through_partial",
    "C44_empty_selection_refuted",
    "C44_nothing_found_refuted",
    "C44_buffered_refuted",
    "C44_subfiling_partial"
   ],
   "note": "Holds for programs without reads, and for reads on whose emptiness and result (anything found or not) the processes agree. False otherwise, for every number of processes; with subfiling the close ends exactly when all groups have written or none has."
  },
  {
   "property": "C45",
   "status": "partial",
   "theorems": [
    "C45_second_refused",
    "C45_first_accepted_partial",
    "C45_closed_forgotten",
    "C45_other_device_refuted"
   ],
   "note": "Files are recognised by inode number only: a different file system can give a false refusal (refuted); proved on one file system."
  },
  {
   "property": "C46",
   "status": "partial",
   "theorems": [
    "C46_no_sharing_partial",
    "C46_known_selection_partial",
    "C46_repeated_refuted",
    "C46_unreadable_refuted",
    "C46_misplaced_refuted"
   ],
   "note": "Holds without metadata sharing and for selections already known; with sharing (the default) a failed write of a new selection leaves a table entry behind, and repeating it loses the selection (universal), makes the metadata unreadable or puts data in the wrong place (witnesses)."
  },
  {
   "property": "C47",
   "status": "partial",
   "theorems": [
    "C47_wait_partial",
    "C47_wait_succeeds_partial",
    "C47_unusable_refuted",
    "C47_create_refuted",
    "C47_early_end_refuted",
    "C47_cancel_refuted",
    "C47_notified_once",
    "C47_notified_status_partial",
    "C47_notified_race_refuted"
   ],
   "note": "Proved for requests that know their connector and have distinct parts, any number of waits; the completion callback is called exactly once under every interleaving and with a fair status when the parts' callbacks do not overlap. False otherwise: the requests the connector makes carry connector id -1, so every wait is an error; a dataset creation lists the same part four times; a failed part ends the wait while others run; overlapping callbacks can turn a failure into success; cancel reports the last part only."
  },
  {
   "property": "C48",
   "status": "partial",
   "theorems": [
    "C48_text_partial",
    "C48_stack_partial",
    "C48_unknown_refuted",
    "C48_malformed_refuted"
   ],
   "note": "Proved for connector numbers of at most seven digits, any settings text below and any depth of stacking; with the number (unsigned)-1 of an unknown connector the buffer overflows, and a text without a number is undefined behaviour."
  },
  {
   "property": "C49",
   "status": "partial",
   "theorems": [
    "C49_released_partial",
    "C49_leak_refuted"
   ],
   "note": "Proved for copies and releases; every object made from text and every call of H5Pset_vol_log, H5Fcreate, H5Fopen, H5Fdelete and H5Fis_accessible leaves exactly one reference behind."
  },
  {
   "property": "C50",
   "status": "partial",
   "theorems": [
    "C50_reported_partial",
    "C50_rejected_refuted"
   ],
   "note": "Proved for all sequences without a rejected size change; a rejected change is partly visible until the file is reopened."
  },
  {
   "property": "C51",
   "status": "partial",
   "theorems": [
    "C51_write_converts_partial",
    "C51_no_conversion_refuted",
    "C51_compound_refuted"
   ],
   "note": "Proved for every selection in file and memory and every conversion that does not depend on the stored element. A missing conversion is not reported and the raw bytes are stored (all such writes); members left out of a compound memory type are overwritten with uninitialised memory (witness)."
  },
  {
   "property": "C52",
   "status": "partial",
   "theorems": [
    "C52_read_converts_partial",
    "C01_api_partial",
    "C52_larger_type_refuted",
    "C52_compound_refuted"
   ],
   "note": "Proved for reads with a conversion of non-compound types into contiguous memory, and into a memory selection when the memory type is not larger. No other read succeeds (shown for all of them)."
  },
  {
   "property": "C53",
   "status": "partial",
   "theorems": [
    "C53_own_group_partial",
    "C53_read_all_subfiles_refuted",
    "C53_read_refuted",
    "C53_flush_after_read_refuted",
    "C53_write_again_refuted",
    "C53_reopen_refuted",
    "C53_forgets_refuted",
    "C53_uneven_refuted",
    "C53_uneven_read_refuted"
   ],
   "note": "Proved for data of the reader's own group with single-subfile reads, within one session, when between two reads all groups write or none does and each group's calls are tame (either index, any buffer limit). Without single-subfile reads no read returns written data (all histories); once a group has written, read all subfiles or reopened the file, and written again, the next H5Fflush, H5Dread or H5Fclose fails (all histories); the first read hangs whenever one group has written and another has not (all such histories); after closing and opening the file, reads before the next write return fill values only, whatever was written before (all histories)."
  },
  {
   "property": "C54",
   "status": "partial",
   "theorems": [
    "C54_distinct_names",
    "C54_same_name_partial",
    "C54_directory_refuted"
   ],
   "note": "Names of different groups differ; the names used for creating and opening agree when the file name has no directory part, and never agree when it has one (then reads of all subfiles and reopening fail, for all histories)."
  },
  {
   "property": "C55",
   "status": "partial",
   "theorems": [
    "C55_read_again_partial",
    "C55_between_partial",
    "C55_between_refuted"
   ],
   "note": "A successful read never changes the next read, after any sequence of calls; for tame one-process histories reads, flushes and reopenings may be placed anywhere; refuted in general (a read between two writes of the same record avoids an undefined read)."
  },
  {
   "property": "C56",
   "status": "partial",
   "theorems": [
    "C56_dump_lists_the_writes_partial",
    "C56_dump_shared_esize_refuted",
    "C56_dump_wide_refuted",
    "C56_dump_hidden_name_refuted"
   ],
   "note": "Every legal history of reasonable sizes when selections are stored as coordinates and not shared; otherwise histories that avoid the defects of encoding and sharing. Refuted outside: shared selections of datasets of different element size are listed with wrong data, a multi-block write as wide as the dataset makes the utility abort, datasets with names starting with one underscore are decoded with uninitialised descriptions. Not covered: merging, filters, subfiles."
  },
  {
   "property": "C57",
   "status": "partial",
   "theorems": [
    "C57_all_elements_printed_partial",
    "C57_strings_refuted",
    "C57_floats_refuted"
   ],
   "note": "Integers and unknown types, floats of 4 and 8 bytes, strings of one character; refuted for all other strings and floats. The conversion of a value to text is not modelled."
  },
  {
   "property": "C58",
   "status": "partial",
   "theorems": [
    "C58_kind_hdf5_partial",
    "C58_kind_unknown_partial",
    "C58_kind_offset_partial",
    "C58_kind_netcdf_refuted"
   ],
   "note": "HDF5 kinds, 64-bit offset and unknown files; NetCDF classic and 64-bit data are swapped, for every such file."
  },
  {
   "property": "C59",
   "status": "partial",
   "theorems": [
    "C59_replay_owned_partial",
    "C59_replay_one_process_partial",
    "C59_replay_log_order_partial",
    "C59_replay_order_refuted",
    "C59_replay_race_refuted",
    "C59_replay_shrunk_refuted",
    "C59_replay_wide_refuted"
   ],
   "note": "Every schedule of at most as many replaying processes as wrote the file, when each element is written by one process only, nothing written lies outside the final extents and the history avoids the defects of encoding and sharing. Elements written by several processes get the value last in the log order (one replaying process), which is not the order of the writes, or depend on a race (refuted); a shrunk dataset makes the replay fail. Filters, merging and subfiles are not covered."
  },
  {
   "property": "C60",
   "status": "partial",
   "theorems": [
    "C60_who_writes_partial",
    "C60_unsynchronised_refuted"
   ],
   "note": "For all pairs of tame histories (TameSpec.v) whose conflicting writes are separated. Without the separation the process with the higher number wins (refuted)."
  },
  {
   "property": "C61",
   "status": "partial",
   "theorems": [
    "C61_crash_keeps_closed_partial",
    "C61_crash_point_partial",
    "C61_created_refuted",
    "C61_new_file_refuted"
   ],
   "note": "Every subset of the changes, in any order, and every crash point of tame histories (TameSpec.v), when no dataset was created since the last close. If one was, the file cannot be opened (refuted, for every history). Changes are atomic and the underlying library is assumed to open the file."
  },
  {
   "property": "C62",
   "status": "partial",
   "theorems": [
    "C62_flush_lost_refuted",
    "C62_flush_adds_nothing_refuted"
   ],
   "note": "False: flushed data is lost, and for every tame history the file is read as when it was last closed."
  },
  {
   "property": "C63",
   "status": "partial",
   "theorems": [
    "C63_close_atomic_partial",
    "C63_reordered_refuted"
   ],
   "note": "When changes reach the disk in order and no dataset was created. With the attribute of the file on the disk before the metadata the file cannot be opened (refuted)."
  },
  {
   "property": "C64",
   "status": "partial",
   "theorems": [
    "C64_usable_partial",
    "C64_nothing_issued_partial",
    "C64_no_more_data_refuted"
   ],
   "note": "When no object created since the last close is on the disk. After a flush since then nothing can be stored any more (refuted, for every history)."
  },
  {
   "property": "C65",
   "status": "partial",
   "theorems": [
    "C65_data_any_order",
    "C65_metadata_any_order",
    "C65_aligned_refuted"
   ],
   "note": "Data: after any sequence of calls. Metadata: writes of the right rank. False for the stripe-aligned layout, where processes write the same stripe."
  },
  {
   "property": "C66",
   "status": "partial",
   "theorems": [
    "C66_transparent_partial",
    "C66_own_objects_partial",
    "C66_new_links_refuted",
    "C66_links_refuted"
   ],
   "note": "Any names for creating, opening, testing, deleting, moving; names not starting with an underscore for H5Lcreate_hard, H5Lcreate_soft and H5Lcopy, which are refuted for others; H5Lmove with H5L_SAME_LOC is undefined. Names are single components; files without subfiles; the library underneath is the model of LibModel."
  },
  {
   "property": "C67",
   "status": "partial",
   "theorems": [
    "C66_transparent_partial",
    "C66_own_objects_partial",
    "C67_delete_by_idx_refuted",
    "C67_delete_by_idx_fails_refuted",
    "C67_attributes_refuted"
   ],
   "note": "Any attribute name for creating, opening, testing, deleting; by index in increasing order of creation (name and size also decreasing) through an identifier of the object's own type. Refuted: deleting by index destroys the file, renaming and information by name with underscores, objects named with an underscore, other orders."
  },
  {
   "property": "C68",
   "status": "partial",
   "theorems": [
    "C66_transparent_partial",
    "C68_number_of_links_refuted",
    "C68_number_of_attributes_refuted",
    "C68_open_by_idx_refuted"
   ],
   "note": "Enumeration in every order for every history; counts of attributes through an identifier of the object's own type; counts of links below the root group. The others are refuted, exactly."
  },
  {
   "property": "C69",
   "status": "partial",
   "theorems": [
    "C69_structure_partial",
    "C69_exact_partial",
    "C69_names_refuted",
    "C69_underscore_refuted"
   ],
   "note": "Every history of supported calls and every tree, if no link name starts with an underscore, dot or slash and no attribute name with a dot or slash; each object appears under one of its hard links, other hard links and soft links are not in the new file. Refuted for other names."
  },
  {
   "property": "C70",
   "status": "partial",
   "theorems": [
    "C70_failed_calls_partial",
    "C70_repeated_flush_refuted",
    "C70_repeated_read_refuted",
    "C70_repeated_close_refuted"
   ],
   "note": "Successful calls are unaffected whenever creating a log dataset, metadata dataset or dataset or writing data fails, in every sequence of calls in which H5Fclose and H5Dset_extent succeed. Refuted, for all histories: a flush that fails after the log dataset was created can never be repeated; a read that could not write the metadata makes every later read fail; H5Fclose after a failing H5Fclose returns success and stores nothing."
  },
  {
   "property": "C71",
   "status": "partial",
   "theorems": [
    "C71_reports_success_refuted",
    "C71_flush_refuted",
    "C71_close_refuted"
   ],
   "note": "False for all histories when the underlying library does not report an address: the data are dropped with success and nothing the program does later depends on them; metadata likewise, and no later read returns. When addresses are reported it is C01, C03, C34."
  },
  {
   "property": "C72",
   "status": "partial",
   "theorems": [
    "C70_failed_calls_partial",
    "C72_create_refuted",
    "C72_extent_refuted"
   ],
   "note": "True when the underlying dataset cannot be created. Refuted, for all histories: if one of its attributes cannot be written the file can never be opened again; H5Dset_extent that failed to write the attribute changes the reported sizes until the file is closed."
  },
  {
   "property": "C73",
   "status": "partial",
   "theorems": [
    "C73_transparent_partial",
    "C73_number_of_attributes_refuted",
    "C73_name_by_idx_refuted",
    "C73_last_attribute_refuted",
    "C73_mark_refuted",
    "C73_calls_refuted"
   ],
   "note": "Every sequence of calls on any file, except H5Oget_info and H5Aget_name/info_by_idx through the identifier of the file or of a dataset, H5Lmove with H5L_SAME_LOC, variable-length strings, H5Fget_access_plist and opening a file that has an attribute _int_att. Each exception is refuted. Not covered: H5Ocopy, external links, the creation order in H5Aget_info."
  },
  {
   "property": "C74",
   "status": "partial",
   "theorems": [
    "C74_below_2GiB_partial",
    "C74_2GiB_refuted",
    "C74_4GiB_refuted",
    "C74_read_back_refuted"
   ],
   "note": "True (the C ints make no difference) for every history whose writes have fewer than 2^31 bytes and at most 2^21 blocks. Refuted beyond, for all histories: after a write of 2 to 4 GiB no flush, close or collective read succeeds; of 4 GiB or more only the size modulo 2^32 is stored and every call succeeds. Not covered: 4 GiB writes while other processes have writes pending, metadata entries of 2 GiB, merged requests."
  },
  {
   "property": "C75",
   "status": "partial",
   "theorems": [
    "C75_one_process_partial",
    "C75_settled_partial",
    "C75_same_as_flushing",
    "C75_same_as_flushing_alone",
    "C75_read_flushes_refuted",
    "C75_read_loses_writes_refuted"
   ],
   "note": "True for one process, and for any number of processes when H5Fflush or H5Fclose comes between writes and reads (tame histories). Refuted for all histories of several processes: no read flushes, a read gives what it gives without the writes since the last one, and after a flush the data of unflushed writes is destroyed by the next read."
  },
  {
   "property": "C76",
   "status": "partial",
   "theorems": [
    "C76_unchanged",
    "C76_reads",
    "C76_writes_unseen",
    "C76_write_refuted",
    "C76_close_refuted",
    "C76_reads_after_write_refuted",
    "C76_swmr_close_refuted"
   ],
   "note": "The file is unchanged and reads are right, for every file and every sequence of calls. Refuted for all: writes are accepted with success and dropped by a successful H5Fclose; until then flushes fail, and with one process every read; with H5F_ACC_SWMR_READ H5Fclose always fails. Not in the model: a file the program may not write cannot be opened at all."
  },
  {
   "property": "C77",
   "status": "partial",
   "theorems": [
    "C77_flush_delivers_partial",
    "C77_blocking_reads_partial",
    "C77_not_before_flush",
    "C77_close_completes_refuted"
   ],
   "note": "H5Fflush completes the reads with the values written last and touches nothing else, in tame histories in which the reads of one process share neither buffer bytes nor elements (C17 refutes the rest); memory is untouched until then, for all programs. Refuted for all programs: H5Fclose does not complete reads, it forgets them with success."
  },
  {
   "property": "C78",
   "status": "partial",
   "theorems": [
    "C78_visit_exact_partial",
    "C78_visit_links_partial",
    "C78_visit_objects_partial",
    "C78_shown_paths_open_partial",
    "C78_names_below_refuted",
    "C78_number_of_attributes_refuted"
   ],
   "note": "Exact for every sequence of supported calls (C66): the same objects or links in the same order, the connector's group never; every path shown opens its object. Refuted for all: underscores at the beginning of names below the first level are shown doubled, and the number of attributes told by H5Ovisit is three too large for datasets and one for the root group."
  },
  {
   "property": "C79",
   "status": "partial",
   "theorems": [
    "C79_read_n_partial",
    "C79_arrays_kept",
    "C79_read_n_refuted",
    "C79_arrays_changed_refuted"
   ],
   "note": "Blocking: for every tame history with blocks that do not overlap; refuted for a block inside another one. Non-blocking: right as long as the caller leaves its arrays alone until H5Fflush; refuted otherwise, for every program (the blocks stored last are read)."
  },
  {
   "property": "C80",
   "status": "partial",
   "theorems": [
    "C80_mpi_of_the_program",
    "C80_mpi_of_the_connector_partial",
    "C80_operations_while_loaded",
    "C80_references_partial",
    "C80_register_again_refuted",
    "C80_closed_twice_refuted",
    "C80_second_time_refuted",
    "C80_program_mpi_refuted",
    "C80_one_failure_refuted",
    "C80_failed_load_refuted",
    "C80_before_loading_refuted"
   ],
   "note": "Proved: with MPI initialised by the program the connector never touches it; operations are registered exactly while loaded; programs that register by name and count references keep their property lists working. Refuted: H5VL_log_register after an unload, its identifier closed twice, a second load in a program without MPI, MPI_Finalize by the program, any load after one failed registration."
  },
  {
   "property": "C81",
   "status": "partial",
   "theorems": [
    "C81_exactly_these_partial",
    "C81_program_goes_on_partial",
    "C81_data_refuted",
    "C81_object_last_refuted",
    "C81_open_again_refuted"
   ],
   "note": "Which failures end the program is determined exactly, for every history: with HDF5 before 1.13.3 and the file closed after its objects none does. Refuted: with HDF5 1.13.3 or later every failing H5Dread and H5Dwrite ends the program; so does a failing close of the file when an object is closed last; a file whose H5Fclose failed can never be opened again by the program."
  },
  {
   "property": "C82",
   "status": "partial",
   "theorems": [
    "C82_accepted",
    "C82_fixed_partial",
    "C82_string_refused",
    "C82_string_no_effect",
    "C82_variable_length_refuted"
   ],
   "note": "Proved for types without parts of variable length, in tame histories of any number of processes that separate their conflicting writes; variable-length strings are refused. Refuted for every other type with a part of variable length: it is accepted, and the file holds the pointers instead of the contents."
  },
  {
   "property": "C83",
   "status": "partial",
   "theorems": [
    "C83_no_subfiles_partial",
    "C83_delete_refuted",
    "C83_replace_refuted"
   ],
   "note": "Proved for all histories of files without subfiles. Refuted with subfiles, for every disk and number of subfiles: H5Fdelete leaves them, exclusive creation then fails half done, and replacing a file leaves the subfiles the new one does not have."
  },
  {
   "property": "C84",
   "status": "partial",
   "theorems": [
    "C84_plain_lists_partial",
    "C84_fill_value_partial",
    "C84_list_changed_refuted",
    "C84_other_files_refuted",
    "C84_layout_reported_refuted",
    "C84_filters_lost_refuted",
    "C84_mandatory_filter_refuted"
   ],
   "note": "Proved for lists that are contiguous and without filters, and for the fill value of all datasets whose filters are optional. Refuted for all others: H5Dcreate makes the program's list contiguous, also when it fails, after which the list is refused for extendable datasets of other files; every dataset reports the contiguous layout; filters are gone after reopening; lists with mandatory filters are refused. Rests on what HDF5 keeps of the list of a contiguous, empty dataset (trusted base)."
  },
  {
   "property": "C85",
   "status": "partial",
   "theorems": [
    "C85_one_process_partial",
    "C85_writes_refuted",
    "C85_seen_refuted"
   ],
   "note": "H5Dflush and H5Oflush reach the empty dataset underneath and write nothing that is pending: for every history the file and all later results are those of the program without these calls; with several processes the next read misses the flushed writes. With one process reads are right, because they flush themselves."
  },
  {
   "property": "C86",
   "status": "partial",
   "theorems": [
    "C86_others_partial",
    "C86_values_partial",
    "C86_until_closed_partial",
    "C86_shared_refuted"
   ],
   "note": "Proved for all settings until the file is closed, and through any number of reopenings when metadata entries are not shared. Refuted for the default settings: when another dataset was written with the selection of a deleted one, reading it after reopening has undefined behaviour; with the array index so has every read."
  },
  {
   "property": "C87",
   "status": "partial",
   "theorems": [
    "C87_unwritten_partial",
    "C87_dump_refuted",
    "C87_replay_refuted",
    "C87_headers_refuted"
   ],
   "note": "Refuted for every program: as soon as one deleted dataset had been written, h5ldump and h5lreplay fail on the whole file, which they list and replay when the deletion is left out (finding 114). Proved: deleted datasets that were never written change neither the listing nor the replay. Missing: replay by several processes, filters, subfiles, merging."
  },
  {
   "property": "C88",
   "status": "partial",
   "theorems": [
    "C88_close_partial",
    "C88_close_uneven_refuted",
    "C88_dump_partial",
    "C88_replay_partial",
    "C88_replay_subfile_order_partial",
    "C88_replay_order_refuted"
   ],
   "note": "Proved for sessions in which every group writes or none does: H5Fclose returns, each subfile is the file its group would have written alone, h5ldump lists every write, and h5lreplay is right when each element is written by one process. Refuted for every other session: H5Fclose hangs (finding 115); and for elements written by two groups, where replay follows the order of the subfiles. Missing: sessions with reads, filters, merging."
  },
  {
   "property": "C89",
   "status": "partial",
   "theorems": [
    "C89_status_partial",
    "C89_success_partial",
    "C89_output_refuted",
    "C89_dump_status_partial"
   ],
   "note": "Proved: status 0 means that the input was a log file and all of it was copied or listed, and no other file is changed. Refuted for every wrong input: h5lreplay reports it, goes on, and truncates the output file (finding 117). The copying is a parameter (C59). Missing: failures in the middle of copying."
  }
 ]
}