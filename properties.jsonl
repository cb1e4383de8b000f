{"id": "C01", "title": "Read returns the last write", "statement": "In any single-process history of dataset creations, H5Dwrite / H5Dwrite_n calls, H5Fflush calls and blocking H5Dread calls on a log-based file, every element returned by H5Dread is the value given to that element by the most recent write that selected it (later calls win; inside one H5Dwrite_n later blocks win).", "quantifier": "every history of operations, every dataset shape and element size, every selection, every placement of the log extents that grows with time", "why_tests_cant": "the property composes metadata encoding, deduplication, flush layout, index search and MPI type construction over unbounded histories; a test samples a handful of histories", "anchors": ["src/H5VL_log_dataseti.cpp:H5VL_log_dataseti_write", "src/H5VL_log_dataseti.cpp:H5VL_log_dataseti_read", "src/H5VL_logi_nb.cpp:H5VL_log_nb_flush_write_reqs", "src/H5VL_log_filei_meta.cpp:H5VL_log_filei_metaflush", "src/H5VL_logi_nb.cpp:H5VL_log_nb_perform_read"]}
{"id": "C02", "title": "Unwritten elements read as the fill value", "statement": "An element that no write of the history selected is returned by H5Dread as the dataset's fill value when a fill value is defined, and leaves the user's buffer byte unchanged when none is defined.", "quantifier": "every history, dataset, read selection and fill value", "why_tests_cant": "absence of a stray write to any element for any history cannot be sampled", "anchors": ["src/H5VL_logi_nb.cpp:H5VL_log_nb_flush_read_reqs", "src/H5VL_log_dataset.cpp:H5VL_log_dataset_create"]}
{"id": "C03", "title": "Collective flush publishes every rank's writes", "statement": "After a collective flush every rank's queued writes are visible to a collective read by any rank; among conflicting writes of one flush the one of the highest rank (and its latest) wins.", "quantifier": "every number of ranks, every assignment of writes to ranks, every flush schedule", "why_tests_cant": "the number of ranks and the interleaving of their queues is unbounded", "anchors": ["src/H5VL_logi_nb.cpp:H5VL_log_nb_flush_write_reqs", "src/H5VL_log_filei_meta.cpp:H5VL_log_filei_metaflush"]}
{"id": "C04", "title": "Selections survive the log metadata (coordinate form)", "statement": "A write request whose selection is stored as plain start/count coordinates decodes, from the bytes put in the metadata log, to exactly the same dataset id, the same list of blocks in the same order, and per-block data offsets equal to the number of data bytes of the preceding blocks.", "quantifier": "every rank, number of blocks, coordinates below 2^63 and element size", "why_tests_cant": "byte-level round trip over all sizes", "anchors": ["src/H5VL_logi_nb.cpp:H5VL_log_wreq_t::H5VL_log_wreq_t", "src/H5VL_logi_meta.cpp:H5VL_logi_metaentry_decode", "src/H5VL_logi_dataspace.cpp:H5VL_log_selections::encode"]}
{"id": "C05", "title": "Selections survive the log metadata (offset encoding)", "statement": "With selection encoding enabled (the default), a multi-block write decodes from the metadata log to the same blocks it was issued with, for every in-bounds selection.", "quantifier": "every shape and in-bounds multi-block selection", "why_tests_cant": "the failing selections are those touching a full inner dimension; tests avoid them", "anchors": ["src/H5VL_logi_meta.hpp:H5VL_logi_sel_encode", "src/H5VL_logi_meta.hpp:H5VL_logi_sel_decode", "src/H5VL_logi_nb.cpp:H5VL_log_wreq_t::H5VL_log_wreq_t"]}
{"id": "C06", "title": "Record writes survive the log metadata", "statement": "A write confined to one record of a dataset with an unlimited first dimension decodes to the same blocks, with the record number restored as first coordinate and length one, and with the unfiltered data size reported by the decoder equal to the real one.", "quantifier": "every rank, record number, block list", "why_tests_cant": "the record form is chosen per request from its content", "anchors": ["src/H5VL_logi_nb.cpp:H5VL_log_wreq_t::H5VL_log_wreq_t", "src/H5VL_logi_meta.cpp:H5VL_logi_metaentry_decode"]}
{"id": "C07", "title": "Metadata sharing is transparent", "statement": "Replacing the selection of a write by a reference to an earlier identical selection never changes the blocks a reader recovers for it, in whatever order writes are issued and whichever datasets they target.", "quantifier": "every history of writes to any mix of datasets in one metadata section", "why_tests_cant": "the hash table compares raw bytes across datasets and forms; collisions depend on the whole history", "anchors": ["src/H5VL_log_dataseti.cpp:H5VL_log_dataseti_write", "src/H5VL_logi_nb.cpp:H5VL_log_wreq_t::operator==", "src/H5VL_logi_meta.cpp:H5VL_logi_metaentry_ref_decode"]}
{"id": "C08", "title": "Index kinds are interchangeable", "statement": "Reading through the compact index returns the same pieces, in the same order, as reading through the array index, for any content of the metadata log.", "quantifier": "every metadata section produced by the write path, every read request", "why_tests_cant": "the two indexes store entries differently (record number split off, references by pointer)", "anchors": ["src/H5VL_logi_idx_compact.cpp:H5VL_logi_compact_idx_t", "src/H5VL_logi_idx_list.cpp:H5VL_logi_array_idx_t"]}
{"id": "C09", "title": "Index search is exact", "statement": "For every block of a read request and every block of a logged write of that dataset, the search reports a piece if and only if the two share an element, and the piece covers exactly the shared elements.", "quantifier": "every pair of blocks, every rank", "why_tests_cant": "boundary conditions over unbounded coordinates", "anchors": ["src/H5VL_logi_idx_list.cpp:intersect", "src/H5VL_logi_idx_list.cpp:H5VL_logi_array_idx_t::search"]}
{"id": "C10", "title": "Search results address the right bytes", "statement": "The data offset and the memory offset reported for each element of a piece are the row-major position of that element in the logged data of the write and in the reader's buffer.", "quantifier": "every piece, every element of it, element size", "why_tests_cant": "index arithmetic over all shapes", "anchors": ["src/H5VL_logi_idx_list.cpp:H5VL_logi_array_idx_t::search", "src/H5VL_log_dataseti.cpp:H5VL_log_dataset_readi_gen_rtypes"]}
{"id": "C11", "title": "Log extents never overlap", "statement": "The file regions given to different write requests - of one process, of different processes, of different flushes - are pairwise disjoint and lie inside the log dataset created for their flush.", "quantifier": "every number of ranks, requests and sizes", "why_tests_cant": "depends on prefix sums over all ranks", "anchors": ["src/H5VL_logi_nb.cpp:H5VL_log_nb_flush_write_reqs"]}
{"id": "C12", "title": "Metadata sections tile the metadata dataset", "statement": "The metadata dataset written by a flush starts with the number of sections and their end offsets, its sections are exactly the ranks' metadata entries in rank order, they do not overlap, and they fill the dataset completely.", "quantifier": "every number of ranks and every queue content", "why_tests_cant": "layout arithmetic over all rank counts and sizes", "anchors": ["src/H5VL_log_filei_meta.cpp:H5VL_log_filei_metaflush"]}
{"id": "C13", "title": "A bounded metadata buffer changes nothing", "statement": "Reading with a limited metadata buffer loads every section of every metadata dataset exactly once, in order, terminates, and finds the same pieces as loading everything at once.", "quantifier": "every buffer limit, number of metadata datasets and sections", "why_tests_cant": "cursor arithmetic over two nested counters", "anchors": ["src/H5VL_log_filei_meta.cpp:H5VL_log_filei_metaupdate_part", "src/H5VL_logi_nb.cpp:H5VL_log_read_idx_search"]}
{"id": "C14", "title": "Hyperslab normalization keeps the selected elements", "statement": "Converting a hyperslab selection to the internal block list (merging, sorting, splitting interleaving blocks) neither loses, adds nor duplicates an element.", "quantifier": "every selection HDF5 can hold (regular hyperslabs, unions of hyperslabs, point lists), and every list of disjoint blocks; every rank", "why_tests_cant": "combinatorial over block configurations", "anchors": ["src/H5VL_logi_dataspace.cpp:H5VL_log_selections::H5VL_log_selections(hid_t)", "src/H5VL_logi_dataspace.cpp:merge_blocks", "src/H5VL_logi_dataspace.cpp:sortblocks"]}
{"id": "C15", "title": "Hyperslab normalization keeps row-major order", "statement": "The internal block list enumerates the selected elements in the row-major order in which HDF5 pairs them with memory elements.", "quantifier": "every regular hyperslab and every union of hyperslabs, every rank", "why_tests_cant": "needs three or more blocks in a special position to fail", "anchors": ["src/H5VL_logi_dataspace.cpp:H5VL_log_selections::H5VL_log_selections(hid_t)"]}
{"id": "C16", "title": "Point selections keep the order of the points", "statement": "A point selection pairs its k-th point with the k-th memory element.", "quantifier": "every list of points", "why_tests_cant": "the code sorts points; only unsorted lists reveal it", "anchors": ["src/H5VL_logi_dataspace.cpp:H5VL_log_selections::H5VL_log_selections(hid_t)"]}
{"id": "C17", "title": "Concurrent pending reads do not disturb each other", "statement": "When several read requests are served together, each receives the bytes it would receive alone, also when they overlap.", "quantifier": "every set of read requests served by one flush", "why_tests_cant": "the trimming of overlapping file rows depends on relative positions of unboundedly many rows", "anchors": ["src/H5VL_log_dataseti.cpp:H5VL_log_dataset_readi_gen_rtypes"]}
{"id": "C18", "title": "The file view is a legal MPI file type", "statement": "The displacements of the file type built for a read are monotonically non-decreasing and its regions do not overlap, as MPI requires of file views.", "quantifier": "every list of pieces", "why_tests_cant": "grouping of interleaving pieces uses a comparison of last elements", "anchors": ["src/H5VL_log_dataseti.cpp:H5VL_log_dataset_readi_gen_rtypes", "src/H5VL_logi_idx.cpp:H5VL_log_idx_search_ret_t::operator>"]}
{"id": "C19", "title": "Filtered datasets read back what was written", "statement": "For a dataset created with a compression filter, reading returns the data that was written.", "quantifier": "every data content and every lossless compressor", "why_tests_cant": "holds or fails for all data at once", "anchors": ["src/H5VL_logi_filter.cpp:H5VL_logi_filter", "src/H5VL_logi_filter.cpp:H5VL_logi_unfilter"]}
{"id": "C20", "title": "Buffered writes are isolated from the user's buffer", "statement": "When H5Pset_buffered asks for buffering, modifying the user's buffer after H5Dwrite returns does not change what is written.", "quantifier": "every later modification of the buffer", "why_tests_cant": "every schedule of modifications between write and flush", "anchors": ["src/H5VL_log_dataseti.cpp:H5VL_log_dataseti_write", "src/H5VL_log.cpp:H5Pset_buffered", "doc/api.md"]}
{"id": "C21", "title": "Metadata compression never changes results", "statement": "Turning metadata compression on or off gives the same metadata entries to readers.", "quantifier": "every sequence of calls and every behaviour of the compressor", "why_tests_cant": "depends on the compressor outcome for every selection", "anchors": ["src/H5VL_log_dataseti.cpp:H5VL_log_dataseti_write", "src/H5VL_logi_zip.cpp:H5VL_log_zip_compress"]}
{"id": "C22", "title": "Metadata merging never changes results", "statement": "Turning metadata merging on gives readers the same blocks as writing separate entries.", "quantifier": "every sequence of writes to a dataset", "why_tests_cant": "layout depends on the number of appends", "anchors": ["src/H5VL_logi_nb.cpp:H5VL_log_merged_wreq_t::append", "src/H5VL_logi_meta.cpp:H5VL_logi_metaentry_decode"]}
{"id": "C23", "title": "Every queued write is flushed exactly once", "statement": "Every accepted write is put in the log exactly once, by the first flush that follows it, and the number of pending writes returns to zero; flushing twice writes nothing the second time.", "quantifier": "every sequence of writes and flushes", "why_tests_cant": "history property", "anchors": ["src/H5VL_logi_nb.cpp:H5VL_log_nb_flush_write_reqs", "src/H5VL_log_filei.cpp:H5VL_log_filei_get_num_pending_writes"]}
{"id": "C24", "title": "Dataset identifiers are unique and stable", "statement": "Every dataset created in a file gets an identifier different from all others, the next free one, and writes recorded under an identifier are only ever returned for that dataset.", "quantifier": "every sequence of creations and writes", "why_tests_cant": "history property", "anchors": ["src/H5VL_log_dataset.cpp:H5VL_log_dataset_create", "src/H5VL_log_dataseti.cpp:H5VL_log_dataseti_open"]}
{"id": "C25", "title": "Subfile groups partition the processes", "statement": "With subfiling every process belongs to exactly one group, groups are contiguous ranges of ranks, sizes differ by at most one and no group is empty when there are at least as many processes as groups.", "quantifier": "every number of processes and groups", "why_tests_cant": "integer division over all pairs", "anchors": ["src/H5VL_log_filei.cpp:H5VL_log_filei_calc_node_rank", "src/H5VL_log_filei.cpp:H5VL_log_filei_post_create"]}
{"id": "C26", "title": "User object names never clash with internal ones", "statement": "The stored name of a user object created by a relative path is never one of the connector's internal names, distinct user names stay distinct, and the scan done at file open recognises exactly the user objects and recovers the name the user gave.", "quantifier": "every name", "why_tests_cant": "all strings", "anchors": ["src/H5VL_logi_util.hpp:H5VL_logi_name_remap", "src/H5VL_log_filei.cpp:H5VL_log_filei_dset_visit"]}
{"id": "C27", "title": "Settings requested are settings used", "statement": "Every access/creation property and environment variable documented for the connector changes exactly the behaviour it names, with the environment taking precedence.", "quantifier": "every combination of properties and environment variables", "why_tests_cant": "exponentially many combinations", "anchors": ["src/H5VL_log_filei.cpp:H5VL_log_filei_parse_fapl", "src/H5VL_log_filei.cpp:H5VL_log_filei_parse_fcpl"]}
{"id": "C28", "title": "Set then get returns the value set", "statement": "For every connector property, a get after a set on the same property list returns the value that was set.", "quantifier": "every property and value", "why_tests_cant": "every value of every property", "anchors": ["src/H5VL_log.cpp"]}
{"id": "C29", "title": "Internal buffer space stays within the limit", "statement": "The connector's accounting of internal buffers never exceeds the configured limit, never goes negative and returns to zero when all buffers are released.", "quantifier": "every sequence of allocations and releases", "why_tests_cant": "history property", "anchors": ["src/H5VL_log_filei.cpp:H5VL_log_filei_balloc", "src/H5VL_log_filei.cpp:H5VL_log_filei_bfree"]}
{"id": "C30", "title": "A file is closed exactly once, when its last handle goes", "statement": "The underlying file is closed exactly when the last object of the file is released, never before, never twice.", "quantifier": "every sequence of opens and closes of objects", "why_tests_cant": "history property", "anchors": ["src/H5VL_log_filei.cpp:H5VL_log_filei_inc_ref", "src/H5VL_log_filei.cpp:H5VL_log_filei_dec_ref"]}
{"id": "C31", "title": "Extending a dataset keeps its data", "statement": "H5Dset_extent changes no element inside both the old and the new extent; a rejected call changes nothing; after shrinking and growing again the re-exposed elements read as fill value.", "quantifier": "every sequence of writes and extent changes", "why_tests_cant": "history property", "anchors": ["src/H5VL_log_dataset.cpp:H5VL_log_dataset_specific"]}
{"id": "C32", "title": "Writes to one dataset never affect another", "statement": "The value read from a dataset depends only on writes to that dataset.", "quantifier": "every history over any number of datasets", "why_tests_cant": "frame property over all histories", "anchors": ["src/H5VL_logi_idx_list.cpp:H5VL_logi_array_idx_t::search", "src/H5VL_log_dataseti.cpp:H5VL_log_dataseti_write"]}
{"id": "C33", "title": "H5Dwrite_n equals its sequence of H5Dwrite calls", "statement": "One H5Dwrite_n with n blocks has the same effect on later reads as n H5Dwrite calls with those blocks in order.", "quantifier": "every block list, also overlapping blocks", "why_tests_cant": "overlaps within a call and any n", "anchors": ["src/H5VL_log.cpp:H5Dwrite_n", "src/H5VL_log_dataset.cpp:H5VL_log_dataset_optional"]}
{"id": "C34", "title": "Closing and reopening preserves contents", "statement": "After H5Fclose and a later H5Fopen every dataset reads the same as before closing.", "quantifier": "every history before close, legal or not, and every number of processes that reopen the file; collective reads, or the file was flushed before closing; files without subfiles (C53) and datasets with names that are found again (C26)", "why_tests_cant": "durability over all histories", "anchors": ["src/H5VL_log_filei.cpp:H5VL_log_filei_close", "src/H5VL_log_filei.cpp:H5VL_log_filei_post_open"]}
{"id": "C35", "title": "Large blocks are addressed correctly", "statement": "Blocks longer than 2^31-1 along a dimension and coordinates beyond it are read back correctly.", "quantifier": "every 64-bit extent", "why_tests_cant": "tests cannot allocate such extents", "anchors": ["src/H5VL_logi_idx.hpp:H5VL_log_idx_search_ret_t", "src/H5VL_logi_dataspace.cpp:H5VL_log_selections::get_mpi_type"]}
{"id": "C36", "title": "Memory selections are packed and unpacked in order", "statement": "With a memory dataspace selection the k-th selected memory element is paired with the k-th selected file element, on write and on read, and unpacking changes no unselected memory element.", "quantifier": "every memory selection", "why_tests_cant": "all block lists and extents", "anchors": ["src/H5VL_logi_dataspace.cpp:H5VL_log_selections::get_mpi_type", "src/H5VL_log_dataseti.cpp:H5VL_log_dataseti_write"]}
{"id": "C37", "title": "Independent reads never lose pending writes", "statement": "An independent H5Dread by one process of several does not destroy or misplace writes that are still queued.", "quantifier": "every number of processes and every schedule of independent reads, writes and flushes", "why_tests_cant": "schedules", "anchors": ["src/H5VL_log_dataseti.cpp:H5VL_log_dataseti_read", "src/H5VL_log_filei_meta.cpp:H5VL_log_filei_metaflush"]}
{"id": "C38", "title": "Pass-through reads select the right log elements", "statement": "In pass-through mode the hyperslab selected in a log dataset for a piece is exactly the byte set of the piece, and the log dataset chosen is the one containing the piece.", "quantifier": "every piece shape and rank, every placement of log datasets", "why_tests_cant": "stride arithmetic for all ranks", "anchors": ["src/H5VL_log_dataseti.cpp:sel_space", "src/H5VL_log_dataseti.cpp:foff2logidx"]}
{"id": "C39", "title": "Offsets are sorted correctly", "statement": "Sorting the rows of interleaving pieces yields a sorted permutation that keeps each row's file offset, memory offset and length together.", "quantifier": "every number of rows", "why_tests_cant": "recursion over all lengths", "anchors": ["src/H5VL_log_dataseti.cpp:sortoffsets"]}
{"id": "C40", "title": "Replay distributes every metadata section exactly once", "statement": "When a log file is replayed by any number of processes every metadata section is replayed by exactly one of them.", "quantifier": "every number of sections and processes", "why_tests_cant": "integer arithmetic over all pairs", "anchors": ["utils/h5lreplay/h5lreplay_meta.cpp"]}
{"id": "C41", "title": "The on-disk metadata is little endian everywhere", "statement": "Byte reversal is an involution, and an entry written on a big-endian host is byte-for-byte the entry a little-endian host would write.", "quantifier": "every word and entry", "why_tests_cant": "all byte strings; hosts not available", "anchors": ["src/H5VL_logi_util.hpp:H5VL_logi_lreverse", "src/H5VL_logi_nb.cpp:H5VL_log_wreq_t::H5VL_log_wreq_t"]}
{"id": "C42", "title": "Scalar datasets round trip", "statement": "A scalar (rank 0) dataset reads back the value written to it.", "quantifier": "every element value", "why_tests_cant": "memory accesses before the start of an array are invisible to tests", "anchors": ["src/H5VL_log_dataset.cpp:H5VL_log_dataset_create", "src/H5VL_log_dataseti.cpp:H5VL_log_dataset_readi_gen_rtypes"]}
{"id": "C43", "title": "Aligned writes store every byte once", "statement": "The stripe-aligned write path writes every byte of every request at the file position recorded in its metadata.", "quantifier": "every stripe size, stripe count, number of processes and request sizes", "why_tests_cant": "arithmetic over all sizes", "anchors": ["src/H5VL_logi_nb.cpp:H5VL_log_nb_ost_write", "src/H5VL_logi_nb.cpp:H5VL_log_nb_flush_write_reqs_align"]}
{"id": "C44", "title": "Processes agree on the sequence of collective calls", "statement": "When all processes of a file make the same sequence of collective API calls, each with its own selections and data, they also issue the same sequence of collective operations underneath, so no process waits forever.", "quantifier": "every number of processes, every sequence of collective calls, every choice of selections per process (also empty ones)", "why_tests_cant": "the mismatch depends on which processes select nothing or find nothing", "anchors": ["src/H5VL_log_dataseti.cpp:H5VL_log_dataseti_read", "src/H5VL_logi_nb.cpp:H5VL_log_nb_perform_read", "src/H5VL_logi_nb.cpp:H5VL_log_nb_flush_write_reqs", "src/H5VL_log_filei_meta.cpp:H5VL_log_filei_metaflush"]}
{"id": "C45", "title": "A file is not opened twice, and only then refused", "statement": "While a file is open through the connector another H5Fopen or H5Fcreate of it, by whatever path, is refused; opening any other file, or the same one after it was closed, is not.", "quantifier": "every history of opens and closes, every file system layout", "why_tests_cant": "history property over all aliasings of paths", "anchors": ["src/H5VL_log_filei.cpp:H5VL_log_filei_search", "src/H5VL_log_filei.cpp:H5VL_log_filei_register", "src/H5VL_log_filei.cpp:H5VL_log_filei_rm", "src/H5VL_log_file.cpp:H5VL_log_file_open"]}
{"id": "C46", "title": "A failed write has no effect", "statement": "When H5Dwrite returns an error, for instance because a buffer cannot be allocated or a filter is not supported, everything written, flushed and read afterwards is the same as if the failed call had not been made.", "quantifier": "every state of the write queue, every failing write, every later sequence of writes", "why_tests_cant": "the damage appears only when a later write uses the same selection, and depends on what was queued in between", "anchors": ["src/H5VL_log_dataseti.cpp:H5VL_log_dataseti_write", "src/H5VL_log_filei.cpp:H5VL_log_filei_balloc", "src/H5VL_logi_filter.cpp:H5VL_logi_filter"]}
{"id": "C47", "title": "The status of an asynchronous operation is that of all its parts", "statement": "Waiting for an asynchronous operation (H5VLrequest_wait, H5ESwait) reports success only when every underlying operation it started has succeeded, failure as soon as one has failed, and goes on being possible until then; a completion callback is called exactly once, after the last part, with the same verdict; cancelling reports that a part could not be cancelled.", "quantifier": "every number of parts, every final status and duration of each, every number of waits, every interleaving of the completion callbacks", "why_tests_cant": "the verdict depends on which part ends when and on how the completion callbacks of different threads interleave; the native connector runs everything synchronously, so no test ever has a running part", "anchors": ["src/H5VL_log_req.cpp:H5VL_log_request_wait", "src/H5VL_log_req.cpp:H5VL_log_request_notify", "src/H5VL_log_req.cpp:H5VL_log_request_cancel", "src/H5VL_log_reqi.cpp:H5VL_log_reqi_notify_cb", "src/H5VL_log_obji.cpp:H5VL_log_obj_t", "src/H5VL_log_dataset.cpp:H5VL_log_dataset_create"]}
{"id": "C48", "title": "The text form of connector settings reads back", "statement": "The text produced for the connector's settings (as used in HDF5_VOL_CONNECTOR) describes, when read again, the same underlying connector with the same settings text, for stacks of connectors of any depth; no text makes the connector use memory it does not own or a number it was not given.", "quantifier": "every connector number, every settings text of the connector below, every depth of stacking, every text supplied by a user", "why_tests_cant": "settings texts nest and may contain any character, and the buffer size depends on the number of digits", "anchors": ["src/H5VL_log_info.cpp:H5VL_log_info_to_str", "src/H5VL_log_info.cpp:H5VL_log_str_to_info"]}
{"id": "C49", "title": "Settings objects give back the references they take", "statement": "After any sequence of creating, copying and releasing settings objects, setting them in property lists and using these for files that leaves none of them alive and no file open, every underlying connector has as many references as before, so it can be unloaded.", "quantifier": "every sequence of operations on settings objects", "why_tests_cant": "a leaked reference is invisible until the connector should have been unloaded, and the balance must hold for every order of copies and releases", "anchors": ["src/H5VL_log_info.cpp:H5VL_log_info_copy", "src/H5VL_log_info.cpp:H5VL_log_info_free", "src/H5VL_log_info.cpp:H5VL_log_str_to_info"]}
{"id": "C50", "title": "H5Dget_space reports the current shape", "statement": "H5Dget_space reports the sizes given by the last H5Dset_extent that succeeded, or by the creation, and the maximal sizes of the creation, in the same session and after closing and reopening the file; a failed H5Dset_extent changes neither.", "quantifier": "every sequence of creations, size changes, reopenings and queries on any number of datasets", "why_tests_cant": "history property over two copies of the sizes, one in memory and one in the file", "anchors": ["src/H5VL_log_dataset.cpp:H5VL_log_dataset_create", "src/H5VL_log_dataset.cpp:H5VL_log_dataset_get", "src/H5VL_log_dataset.cpp:H5VL_log_dataset_specific", "src/H5VL_log_dataseti.cpp:H5VL_log_dataseti_open"]}
{"id": "C51", "title": "Data is converted when written", "statement": "H5Dwrite with a memory datatype that differs from the dataset's stores, for each selected element, the value HDF5's conversion gives for the corresponding element in memory; members of a compound element that the memory type does not name keep their value; if HDF5 has no conversion between the types the call fails and stores nothing.", "quantifier": "every pair of datatypes and conversion, every selection in file and memory, every content of memory", "why_tests_cant": "ranges over all conversions and selections; uninitialised memory usually looks harmless in a test", "anchors": ["src/H5VL_log_dataset.cpp:H5VL_log_dataset_write", "src/H5VL_log_dataseti.cpp:H5VL_log_dataseti_write"]}
{"id": "C52", "title": "Data is converted when read", "statement": "H5Dread with a memory datatype that differs from the dataset's puts, for each selected element, the converted value into the corresponding element of the user's memory and changes no other byte; it succeeds whenever HDF5 has a conversion.", "quantifier": "every pair of datatypes and conversion, every selection in file and memory, every history of writes before the read", "why_tests_cant": "ranges over all conversions, selections and histories", "anchors": ["src/H5VL_log_dataset.cpp:H5VL_log_dataset_read", "src/H5VL_log_dataseti.cpp:H5VL_log_dataseti_read", "src/H5VL_logi_nb.cpp:H5VL_log_nb_perform_read"]}
{"id": "C53", "title": "Data in subfiles can be read back", "statement": "In a file with subfiles, H5Dread returns for each element the value written last by any process, whichever group of processes wrote it, in the session that wrote it and after closing and reopening the file; reads, writes and flushes can follow each other in any order.", "quantifier": "every history of calls of any number of groups of any number of processes, with and without single-subfile reads", "why_tests_cant": "depends on the history of flushes and reads, on which groups have written, and on the division of the processes into groups", "anchors": ["src/H5VL_logi_nb.cpp:H5VL_log_nb_flush_read_reqs", "src/H5VL_logi_nb.cpp:H5VL_log_nb_flush_write_reqs", "src/H5VL_log_filei.cpp:H5VL_log_filei_open_subfile", "src/H5VL_log_filei.cpp:H5VL_log_filei_close", "src/H5VL_log_filei_meta.cpp:H5VL_log_filei_metaflush"]}
{"id": "C54", "title": "Subfiles have distinct names and are found again", "statement": "Different groups use different subfiles, and opening a file finds the subfiles created with it, whatever the file's name.", "quantifier": "every file name and group number, every history before the file is opened again", "why_tests_cant": "ranges over all names and group numbers", "anchors": ["src/H5VL_log_filei.cpp:H5VL_log_filei_create_subfile", "src/H5VL_log_filei.cpp:H5VL_log_filei_open_subfile"]}
{"id": "C55", "title": "Reads, flushes and reopenings do not change what later reads return", "statement": "A read returns the same whether or not other reads, flushes or reopenings of the file were made before it.", "quantifier": "every history and every place where reads, flushes and reopenings are inserted", "why_tests_cant": "ranges over all histories and insertion points; reads flush, and cache an index", "anchors": ["src/H5VL_log_dataseti.cpp:H5VL_log_dataseti_read", "src/H5VL_log_filei_meta.cpp:H5VL_log_filei_metaupdate", "src/H5VL_logi_nb.cpp:H5VL_log_nb_flush_write_reqs"]}
{"id": "C56", "title": "h5ldump lists exactly the writes in the log", "statement": "The listing that h5ldump makes of a file shows every write that was made to it, once, in the section of the process that made it and in the order it was made, with the dataset, the blocks and the data of the write, and nothing else.", "quantifier": "every history of calls on the file, every configuration, with and without data", "why_tests_cant": "ranges over all histories: the listing decodes deduplicated, encoded and compressed entries and follows back references", "anchors": ["utils/h5ldump/h5ldump.cpp:h5ldump_file", "utils/h5ldump/h5ldump_meta.cpp:h5ldump_mdset", "utils/h5ldump/h5ldump_meta.cpp:h5ldump_mdsec", "utils/h5ldump/h5ldump_visit.cpp:h5ldump_visit_handler"]}
{"id": "C57", "title": "h5ldump prints every element of a block once", "statement": "For a block of n elements h5ldump prints the n values, or all their bytes if the type is not known to it, whatever the type and its size; it reads no byte outside the block.", "quantifier": "every type class, element size and number of elements", "why_tests_cant": "ranges over all types and sizes", "anchors": ["utils/h5ldump/h5ldump_meta.cpp:h5ldump_print_data"]}
{"id": "C58", "title": "h5ldump -k names the kind of a file", "statement": "The kind printed is that of the file: HDF5 with the log connector's attribute, NetCDF-4, HDF5, one of the three NetCDF classic formats by version number, or unknown.", "quantifier": "every content of a file and every set of attributes", "why_tests_cant": "ranges over all file contents", "anchors": ["utils/h5ldump/h5ldump.cpp:get_file_signature"]}
{"id": "C59", "title": "Replaying a log file gives a file with the same contents", "statement": "After h5lreplay has converted a log file into an ordinary HDF5 file, every element of every dataset of the new file has the value last written to it before the log file was closed, and elements never written have the fill value, for any number of processes running the utility.", "quantifier": "all histories of calls by any number of processes that end by closing the file, all numbers of replaying processes and all schedules of them", "why_tests_cant": "the result depends on the order of entries in the log, on how sections are dealt to the replaying processes and on their relative speed; tests replay a few files with one schedule", "anchors": ["utils/h5lreplay/h5lreplay.cpp:h5lreplay_core", "utils/h5lreplay/h5lreplay_data.cpp:h5lreplay_read_data", "utils/h5lreplay/h5lreplay_data.cpp:h5lreplay_write_data", "utils/h5lreplay/h5lreplay_meta.cpp:h5lreplay_parse_meta", "utils/h5lreplay/h5lreplay_copy.cpp:h5lreplay_copy_handler"]}
{"id": "C60", "title": "It does not matter which process issues a write", "statement": "If writes of the same element by different processes are separated by a flush, a collective read or a reopening, then distributing the same writes in another way over the processes, or issuing all of them from one process, does not change what later collective reads return.", "quantifier": "all pairs of programs, of any numbers of processes, that make the same changes in the same order and separate conflicting writes; all placements of flushes, reads and reopenings", "why_tests_cant": "ranges over all distributions of all programs; a test compares one distribution with another for a few programs", "anchors": ["src/H5VL_log_file.cpp:H5VL_log_file_specific", "src/H5VL_logi_nb.cpp:H5VL_log_nb_flush_write_reqs", "src/H5VL_log_filei_meta.cpp:H5VL_log_filei_metaflush", "src/H5VL_log_dataset.cpp:H5VL_log_dataset_write"]}
{"id": "C61", "title": "A crash keeps what was in the file when it was last closed", "statement": "If the processes stop at any point after the file was closed and opened again, then whichever of the changes made since then have reached the disk, the file can be opened, and reads return, for every element of every dataset, the value it had when the file was last closed.", "quantifier": "all histories, all crash points inside or between calls, all subsets and orders of the changes that reached the disk since the last close, all numbers of processes before and after", "why_tests_cant": "the number of crash points and of subsets of surviving changes is unbounded, and tests do not crash at all", "anchors": ["src/H5VL_log_filei.cpp:H5VL_log_filei_post_open", "src/H5VL_log_filei.cpp:H5VL_log_filei_close", "src/H5VL_log_dataset.cpp:H5VL_log_dataset_create", "src/H5VL_log_dataseti.cpp:H5VL_log_dataseti_open"]}
{"id": "C62", "title": "What H5Fflush has written survives a crash", "statement": "If H5Fflush returned after a write, and the processes stop later at any point, the file that is opened afterwards contains the data written.", "quantifier": "all histories, all crash points after the flush", "why_tests_cant": "ranges over all histories and crash points; a test would have to crash", "anchors": ["src/H5VL_log_file.cpp:H5VL_log_file_specific", "src/H5VL_log_filei.cpp:H5VL_log_filei_flush", "src/H5VL_logi_nb.cpp:H5VL_log_nb_flush_write_reqs"]}
{"id": "C63", "title": "Closing is all or nothing", "statement": "If the processes stop inside H5Fclose, the file that is opened afterwards contains either everything that was in it when it was last closed and nothing else, or everything written before H5Fclose was called.", "quantifier": "all histories, all crash points inside H5Fclose, all orders in which its changes reach the disk", "why_tests_cant": "crash points inside one call cannot be produced by calling the API", "anchors": ["src/H5VL_log_filei.cpp:H5VL_log_filei_close", "src/H5VL_log_filei_meta.cpp:H5VL_log_filei_metaflush"]}
{"id": "C64", "title": "A file left by a crash can be used again", "statement": "After a crash the file can be opened for writing, and the program that opened it can create, write, flush, read and close with the results it would have had with a properly closed file.", "quantifier": "all histories before the crash, all subsets of changes that reached the disk, all programs afterwards", "why_tests_cant": "combines all crash states with all later programs", "anchors": ["src/H5VL_logi_nb.cpp:H5VL_log_nb_flush_write_reqs", "src/H5VL_log_filei_meta.cpp:H5VL_log_filei_metaflush", "src/H5VL_log_filei.cpp:H5VL_log_filei_post_open"]}
{"id": "C65", "title": "The order in which data reaches the file does not matter", "statement": "When the processes flush (H5Fflush, H5Fclose or the flush inside a read), the content of the file afterwards does not depend on the order in which their bytes reach the storage: no byte is written by two processes or twice by one.", "quantifier": "every sequence of calls before the flush, every number of processes, every interleaving of the bytes written", "why_tests_cant": "a test sees one interleaving chosen by the MPI library and the file system", "anchors": ["src/H5VL_logi_nb.cpp:H5VL_log_nb_flush_write_reqs", "src/H5VL_log_filei_meta.cpp:H5VL_log_filei_metaflush", "src/H5VL_logi_nb.cpp:H5VL_log_nb_ost_write"]}
{"id": "C66", "title": "Groups and links behave as without the connector", "statement": "Creating groups and datasets, opening, testing, deleting, moving, copying and linking objects, with any names, returns what it returns when the same program uses the HDF5 library without the connector; also after the file was closed and opened again. The objects the connector keeps in the file are neither seen nor changed.", "quantifier": "every sequence of calls on a new file, every name, every structure of groups and links", "why_tests_cant": "names the connector uses itself can collide with user names in any combination of calls; tests use ordinary names", "anchors": ["src/H5VL_log_link.cpp:H5VL_log_link_create", "src/H5VL_log_link.cpp:H5VL_log_link_move", "src/H5VL_log_link.cpp:H5VL_log_link_copy", "src/H5VL_log_link.cpp:H5VL_log_link_specific", "src/H5VL_log_group.cpp:H5VL_log_group_create", "src/H5VL_log_obj.cpp:H5VL_log_object_open"]}
{"id": "C67", "title": "Attributes behave as without the connector", "statement": "Creating, reading, writing, testing, renaming and deleting attributes of files, groups and datasets, by name or by index, returns what it returns without the connector and never changes the attributes the connector keeps.", "quantifier": "every sequence of calls, every object, every attribute name and index", "why_tests_cant": "indices shift and names collide only for particular combinations of the connector's own attributes and the user's", "anchors": ["src/H5VL_log_att.cpp:H5VL_log_attr_create", "src/H5VL_log_att.cpp:H5VL_log_attr_open", "src/H5VL_log_att.cpp:H5VL_log_attr_get", "src/H5VL_log_att.cpp:H5VL_log_attr_specific"]}
{"id": "C68", "title": "Enumerations and counts show exactly the user's objects", "statement": "H5Literate, H5Aiterate, the number of links of a group, the number of attributes of an object and access by index show exactly the links and attributes the user made, in the order they would have without the connector.", "quantifier": "every sequence of calls, every order of enumeration, every object however it is named", "why_tests_cant": "whether an internal object shows up depends on the identifier used, the order requested and the names of the user's objects", "anchors": ["src/H5VL_log_obj.cpp:H5VL_log_object_get", "src/H5VL_log_group.cpp:H5VL_log_group_get", "src/H5VL_log_linki.cpp:H5VL_log_linki_iterate_op", "src/H5VL_log_atti.cpp:H5VL_log_atti_iterate_op"]}
{"id": "C69", "title": "h5lreplay reproduces the structure of the file", "statement": "The file written by h5lreplay contains every group and dataset of the log file under one of its names, with the attributes of the user, and the attributes of the file, and nothing else; nothing the connector keeps for itself appears.", "quantifier": "every sequence of calls that made the file, every tree of groups, every choice of names, hard and soft links", "why_tests_cant": "depends on the shape of the tree, on which names start with an underscore and on how many links lead to an object; tests use a few flat files", "anchors": ["utils/h5lreplay/h5lreplay_copy.cpp:h5lreplay_copy_handler", "utils/h5lreplay/h5lreplay_copy.cpp:h5lreplay_attr_copy_handler", "utils/h5lreplay/h5lreplay.cpp:h5lreplay_core"]}
{"id": "C70", "title": "A call that fails can be repeated", "statement": "When a call returns an error because the underlying library failed, the calls that do succeed return what they would without it, and the same call made again later can succeed and then does what the first was to do.", "quantifier": "every sequence of calls, every choice of operations of the underlying library that fail, every continuation of the program", "why_tests_cant": "errors of the storage are not produced by tests, and their consequences depend on which of many steps failed and on what is done afterwards", "anchors": ["src/H5VL_logi_nb.cpp:H5VL_log_nb_flush_write_reqs", "src/H5VL_log_filei_meta.cpp:H5VL_log_filei_metaflush", "src/H5VL_log_filei.cpp:H5VL_log_filei_close"]}
{"id": "C71", "title": "Success means that the data are stored", "statement": "When H5Fflush or H5Fclose returns success, the data written before is in the file: later reads return it.", "quantifier": "every sequence of calls, every behaviour of the underlying library including datasets that have no address", "why_tests_cant": "the case is reached only when the underlying library does not report the address of a new dataset, which tests cannot provoke", "anchors": ["src/H5VL_logi_nb.cpp:H5VL_log_nb_flush_write_reqs", "src/H5VL_log_filei_meta.cpp:H5VL_log_filei_metaflush", "src/H5VL_logi_dataset.cpp:H5VL_logi_dataset_get_foff"]}
{"id": "C72", "title": "A failing H5Dcreate or H5Dset_extent leaves no trace", "statement": "When H5Dcreate or H5Dset_extent returns an error, the file and everything the program can ask about it are as they were before the call, now and after the file is closed and opened.", "quantifier": "every sequence of calls before and after, every step of the call that fails", "why_tests_cant": "needs a failure between two steps of one call and then arbitrary later calls", "anchors": ["src/H5VL_log_dataset.cpp:H5VL_log_dataset_create", "src/H5VL_log_dataset.cpp:H5VL_log_dataset_specific", "src/H5VL_log_dataseti.cpp:H5VL_log_dataseti_open"]}
{"id": "C73", "title": "A file not made by the connector is used as without it", "statement": "When a file that was not created through the connector is opened through it, every call returns what it returns without the connector, and the file is left as it is left without the connector.", "quantifier": "every file, every sequence of calls on links, objects, attributes and data, every behaviour of the library towards data", "why_tests_cant": "the same callbacks serve both kinds of files and each has to make the distinction; needs every call on every kind of identifier after every history", "anchors": ["src/H5VL_log_filei.cpp:H5VL_log_filei_post_open", "src/H5VL_log_att.cpp:H5VL_log_attr_get", "src/H5VL_log_obj.cpp:H5VL_log_object_get", "src/H5VL_log_file.cpp:H5VL_log_file_get", "src/H5VL_log_dataset.cpp:H5VL_log_dataset_create", "src/H5VL_log_link.cpp:H5VL_log_link_move"]}
{"id": "C74", "title": "A write of any amount of data is stored whole", "statement": "However many bytes H5Dwrite is given, after a successful flush the file holds all of them and reads return them; other writes are not affected.", "quantifier": "every amount of data, every history before and after, every number of processes, both ways of writing (MPI or the underlying connector)", "why_tests_cant": "the amounts at which C ints overflow take gigabytes and cannot be combined with many histories; the claim ranges over all amounts", "anchors": ["src/H5VL_logi_nb.cpp:H5VL_log_nb_flush_write_reqs", "src/H5VL_logi_nb.cpp:H5VL_log_wreq_t::H5VL_log_wreq_t", "src/H5VL_log_filei_meta.cpp:H5VL_log_filei_metaflush", "src/H5VL_logi_meta.hpp:H5VL_logi_meta_hdr"]}
{"id": "C75", "title": "A blocking read flushes and sees every write made before it", "statement": "H5Dread without the non-blocking option flushes all pending writes first, so that it returns the data of every write that was made before it, and later calls still find those writes.", "quantifier": "every history, every number of processes, every kind of index and every configuration without subfiles", "why_tests_cant": "whether a read flushes depends on the number of processes, and whether unflushed writes survive it depends on what was flushed before; needs every history", "anchors": ["src/H5VL_log_dataseti.cpp:H5VL_log_dataseti_read", "src/H5VL_log_file.cpp:H5VL_log_file_create", "src/H5VL_log_file.cpp:H5VL_log_file_open", "src/H5VL_log_filei_meta.cpp:H5VL_log_filei_metaflush", "doc/usage.md"]}
{"id": "C76", "title": "A file opened for reading only stays as it is, can be read, and refuses to be written", "statement": "In a file opened with H5F_ACC_RDONLY no call changes the file, reads return what they return in a file opened for writing, and H5Dwrite returns an error.", "quantifier": "every file, every sequence of calls in every number of sessions, every number of processes", "why_tests_cant": "needs every sequence of calls in a session, including writes that are accepted and only refused, or dropped, later", "anchors": ["src/H5VL_log_file.cpp:H5VL_log_file_open", "src/H5VL_log_filei.cpp:H5VL_log_filei_post_open", "src/H5VL_log_filei.cpp:H5VL_log_filei_close", "src/H5VL_log_dataseti.cpp:H5VL_log_dataseti_write", "src/H5VL_logi_nb.cpp:H5VL_log_nb_flush_write_reqs"]}
{"id": "C77", "title": "A non-blocking read is completed by H5Fflush or H5Fclose, and not before", "statement": "After H5Dread with the non-blocking transfer property the user buffer is left alone until H5Fflush or H5Fclose; when that call returns, the buffer holds for every selected element the value written last by any process, and no other memory has changed.", "quantifier": "every history of reads, writes, flushes and reopenings, every number of processes, every number of reads queued by each of them", "why_tests_cant": "the result depends on all writes, by every process, between the read and the flush, on all other reads in the queue, and on whether a flush or a close comes first", "anchors": ["src/H5VL_log_dataseti.cpp:H5VL_log_dataseti_read", "src/H5VL_log_filei.cpp:H5VL_log_filei_flush", "src/H5VL_log_filei.cpp:H5VL_log_filei_close", "src/H5VL_logi_nb.cpp:H5VL_log_nb_flush_read_reqs", "src/H5VL_logi_nb.cpp:H5VL_log_nb_perform_read", "doc/usage.md"]}
{"id": "C78", "title": "Recursive enumeration shows the user's tree", "statement": "H5Ovisit and H5Lvisit call the user's callback for exactly the objects and links the user made below the starting place, in the order they would have without the connector, under the paths the user made them with and with the same information; a path shown can be used to open the object it was shown for.", "quantifier": "every sequence of calls that builds a file, every starting place given by an identifier or a name, both index types and orders, every depth", "why_tests_cant": "what is shown depends on the whole tree: on which names start with underscores at which depth, on objects with several names and on where the connector's own group falls in the order", "anchors": ["src/H5VL_log_obj.cpp:H5VL_log_object_specific", "src/H5VL_log_obji.cpp:H5VL_log_obji_iterate_op", "src/H5VL_log_link.cpp:H5VL_log_link_specific", "src/H5VL_log_linki.cpp:H5VL_log_linki_iterate_op", "src/H5VL_logi_util.hpp:H5VL_logi_name_remap"]}
{"id": "C79", "title": "H5Dread_n equals its sequence of H5Dread calls", "statement": "One H5Dread_n with n blocks fills the buffer with the bytes that n H5Dread calls with those blocks in order would deliver one after the other, whether the call blocks or is completed by H5Fflush.", "quantifier": "every history, every list of blocks, every state of the log, and everything the program does between a non-blocking call and the flush", "why_tests_cant": "the pieces of all blocks are sorted, grouped and trimmed together, so the outcome depends on how the blocks lie to each other and to every logged write; and a queued call refers to the caller's memory", "anchors": ["doc/api.md", "src/H5VL_log.cpp:H5Dread_n", "src/H5VL_log_dataset.cpp:H5VL_log_dataset_optional", "src/H5VL_logi_dataspace.cpp:H5VL_log_selections", "src/H5VL_log_dataseti.cpp:H5VL_log_dataseti_read"]}
{"id": "C80", "title": "The connector can be loaded and unloaded at will", "statement": "A program may load the connector, use files and unload it any number of times, whether or not it uses MPI itself. The connector initialises MPI only when the program has not and finalises it exactly when it initialised it; it stays loaded as long as an identifier or property list refers to it; H5Dwrite_n and H5Dread_n are available, as two different operations, exactly while it is loaded; a load that fails leaves nothing behind.", "quantifier": "every sequence of MPI_Init, MPI_Finalize, registrations of the connector, H5VLclose, H5Pset_vol, H5Pclose, file uses and failing registrations", "why_tests_cant": "the state kept in static variables depends on the whole sequence of loads and unloads; tests load the connector once, with MPI initialised by the test", "anchors": ["src/H5VL_log_main.cpp:H5VL_log_init", "src/H5VL_log_main.cpp:H5VL_log_obj_term", "src/H5VL_log.cpp:H5VL_log_register", "src/H5VL_log_dataset.cpp:H5Dwrite_n_op_val"]}
{"id": "C81", "title": "A call that fails returns an error and the program goes on", "statement": "Whatever fails inside a call - the underlying library, MPI, memory - the call returns an error to the program; no failure ends the program, and after closing a file has failed the program can open it again.", "quantifier": "every sequence of opening, reopening, closing, reading, writing and other calls on a file, every placement of failures in it, both ways the dataset callbacks are registered", "why_tests_cant": "the failures are of the libraries below and are not provoked by tests; what happens depends on which identifier of the file is closed last", "anchors": ["src/H5VL_logi_err.hpp:CHECK_ERR", "src/H5VL_log_dataset.cpp:H5VL_log_dataset_write_2", "src/H5VL_log_dataset.cpp:H5VL_log_dataset_read_2", "src/H5VL_log_obji.cpp:~H5VL_log_obj_t", "src/H5VL_log_filei.cpp:H5VL_log_filei_close", "src/H5VL_log_filei.cpp:H5VL_log_filei_rm"]}
{"id": "C82", "title": "Data of every type that is accepted is stored; types of variable length are refused", "statement": "H5Dcreate returns an error for datatypes that contain parts of variable length, as documented, and accepts all others; for a dataset that was created, every element read has the value last written, in whatever program it is read.", "quantifier": "every datatype built from fixed-size types, variable-length strings and sequences, arrays and compounds; every content of the program's memory; every history of calls", "why_tests_cant": "in the program that wrote them the pointers stored are still valid, so a test that reads back in the same run passes", "anchors": ["src/H5VL_log_dataset.cpp:H5VL_log_dataset_create", "src/H5VL_log_dataseti.cpp:H5VL_log_dataseti_write", "doc/userguide.md"]}
{"id": "C83", "title": "Deleting or replacing a file removes all of it", "statement": "After H5Fdelete the file is gone with everything H5Fcreate made for it, and its name can be used again, also exclusively; H5Fcreate with H5F_ACC_TRUNC leaves nothing of the file it replaces; H5Fis_accessible tells whether the file exists.", "quantifier": "every content of the disk, every history of H5Fcreate, H5Fdelete and H5Fis_accessible, every number of subfiles", "why_tests_cant": "what is left depends on the history of the directory and on the numbers of subfiles of earlier files of the same name", "anchors": ["src/H5VL_log_file.cpp:H5VL_log_file_specific", "src/H5VL_log_file.cpp:H5VL_log_file_create", "src/H5VL_log_filei.cpp:H5VL_log_filei_create_subfile"]}
{"id": "C84", "title": "The creation properties of a dataset are kept", "statement": "H5Dcreate leaves the creation property list it is given as it was, so that the program can go on using it; H5Dget_create_plist returns the layout, the filters and the fill value the list held when the dataset was created, also after the file has been closed and opened again; and the filters keep being applied.", "quantifier": "every sequence of creating and setting property lists, creating datasets in a log file (with success or not) and in other files, reopening the file and asking for the properties of datasets", "why_tests_cant": "what is lost depends on the order in which lists are set and used for different files, and on reopening", "anchors": ["src/H5VL_log_dataset.cpp:H5VL_log_dataset_create", "src/H5VL_log_dataset.cpp:H5VL_log_dataset_get", "src/H5VL_log_dataseti.cpp:H5VL_log_dataseti_open", "src/H5VL_logi_filter.hpp:H5VL_logi_get_filters"]}
{"id": "C85", "title": "Flushing a dataset writes its data", "statement": "After H5Dflush or H5Oflush of a dataset has returned, everything written to that dataset before is in the file and is seen by the reads that follow.", "quantifier": "every history of creations, writes, reads, flushes, flushes of single objects and reopenings, any number of processes", "why_tests_cant": "with one process a test sees the data, because the read flushes by itself; with several processes it depends on the order of writes, flushes and reads", "anchors": ["src/H5VL_log_dataset.cpp:H5VL_log_dataset_specific", "src/H5VL_log_obj.cpp:H5VL_log_object_specific", "src/H5VL_log_file.cpp:H5VL_log_file_specific"]}
{"id": "C86", "title": "Deleting a dataset leaves the data of the others alone", "statement": "After H5Ldelete of a dataset, every other dataset still returns the last values written to it, also after the file has been closed and opened again, with writes pending at the time of the deletion or not; a dataset created afterwards, also under the same name, starts with its fill value and does not see what the deleted one held.", "quantifier": "every history of creations, deletions, resizings, writes, reads, flushes and reopenings in which deleted datasets are not used any more; any number of processes, every index and setting", "why_tests_cant": "whether the log entries of the deleted dataset matter depends on which other writes had the same selection, in which flush they were, and on the index used after reopening", "anchors": ["src/H5VL_log_link.cpp:H5VL_log_link_specific", "src/H5VL_log_filei.cpp:H5VL_log_file_open", "src/H5VL_logi_idx_list.cpp:parse_block", "src/H5VL_logi_idx_compact.cpp:parse_block", "src/H5VL_log_dataseti.cpp:H5VL_log_dataseti_open"]}
{"id": "C87", "title": "The utilities work on files from which datasets were deleted", "statement": "h5ldump lists and h5lreplay copies a file from which datasets have been deleted: the entries and the contents of the datasets that remain are those of the same file without the deletions.", "quantifier": "every history of creations, deletions, resizings, writes, reads, flushes and reopenings in which deleted datasets are not used any more; any number of writing processes", "why_tests_cant": "it must hold for every history; a test with a dataset that was deleted before anything was written to it succeeds", "anchors": ["src/H5VL_log_link.cpp:H5VL_log_link_specific", "utils/h5ldump/h5ldump_meta.cpp:h5ldump_mdsec", "utils/h5ldump/h5ldump_visit.cpp:h5ldump_visit", "utils/h5lreplay/h5lreplay_meta.cpp:h5lreplay_parse_meta", "utils/h5lreplay/h5lreplay_data.cpp:h5lreplay_write_data"]}
{"id": "C88", "title": "Closing a file with subfiles, and the utilities on it", "statement": "H5Fclose of a file with subfiles returns and leaves in each subfile what its group of processes wrote; h5ldump lists all writes of all subfiles, and h5lreplay makes a file in which every element has the value last written to it.", "quantifier": "every file name, number and size of groups, and history of creations, resizings, writes and flushes by the groups; every number of replaying processes and every schedule of them", "why_tests_cant": "it must hold for every distribution of the writes over the groups; a test in which every group writes does not meet the deadlock of H5Fclose", "anchors": ["src/H5VL_log_filei.cpp:H5VL_log_filei_close", "src/H5VL_log_filei_meta.cpp:H5VL_log_filei_metaflush", "utils/h5ldump/h5ldump.cpp:h5ldump_file", "utils/h5lreplay/h5lreplay.cpp:h5lreplay_core", "utils/h5lreplay/h5lreplay.cpp:split_comm"]}
{"id": "C89", "title": "A utility that reports an error has changed no file", "statement": "h5lreplay and h5ldump return status 0 only if the input is a log file and all of it was copied or listed; when h5lreplay reports an error because the input is not a log file, all files are as before.", "quantifier": "every input and output path and every content of the file system", "why_tests_cant": "it must hold for every input file, in particular every kind of wrong one; a test that checks the message and the status sees nothing wrong", "anchors": ["utils/h5lreplay/h5lreplay.cpp:main", "utils/h5lreplay/h5lreplay.cpp:h5lreplay_core", "utils/h5ldump/h5ldump.cpp:main"]}
