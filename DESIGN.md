# Formal model of the HDF5 log-based VOL connector

The code under `/repo` is read as text; nothing is compiled or run.  The model is
written in Rocq (Coq 8.16.1) under `rocq/theories`, logical name `Verif`.

## Files

`*Model.v` contain definitions only, each citing the file and lines it models and the
simplifications made.  `Spec.v`, `History.v`, `SysSpec.v` and the other `*Spec.v` are the
specification: they are written without reference to the log (`Spec.v`, `History.v`) or only
name the observable inputs and outputs of the modelled functions.  `*Proofs.v` and `*Claims.v`
contain lemmas.  `P_*.v` contain the property theorems and nothing else: each is closed by
`exact lemma`, followed by `Print Assumptions`, and by an `Example` showing that a concrete case
meets its hypotheses.

| model file | code |
|---|---|
| `Base` | outcome type `Ok/Err/UB`, little-endian words, bounds-checked buffer reads, byte maps |
| `MetaModel` | `H5VL_logi_meta.{hpp,cpp}`, request constructor of `H5VL_logi_nb.cpp:42-172`, `encode`/`get_sel_size` of `H5VL_logi_dataspace.cpp` |
| `QueueModel` | `H5VL_log_dataseti.cpp:787-1022` (write without merging): sharing, compression decision, queue |
| `FlushModel` | `H5VL_logi_nb.cpp:592-894`, `H5VL_log_filei_meta.cpp:49-320` |
| `SchedModel` | the single bytes written by the processes in a flush (same lines), in any order of arrival |
| `IndexModel` | `H5VL_logi_idx_list.cpp`, `H5VL_logi_idx_compact.cpp`, `H5VL_log_filei_meta.cpp:326-535`, `H5VL_logi_nb.cpp:315-339` |
| `ReadModel` | `H5VL_logi_idx.cpp`, `H5VL_log_dataseti.cpp:30-91, 444-677`, `H5VL_logi_nb.cpp:341-590` (unfiltered) |
| `SelModel` | `H5VL_logi_dataspace.cpp:27-437, 551-622`, packing and unpacking of memory selections |
| `SysModel` | a file driven by a history of API calls of several processes: create, set_extent, write, flush, read, close and reopen |
| `PendModel` | queued reads served together, `H5VL_log_filei.cpp:669-689`, `H5VL_logi_nb.cpp:522-590` |
| `PassModel` | pass-through reads, `H5VL_log_dataseti.cpp:93-442` |
| `MergeModel` | metadata merging, `H5VL_logi_nb.cpp:197-313`, 641-650 |
| `MergeSysModel` | histories of calls with merging on: `H5VL_log_filei.cpp:657-688`, `H5VL_log_dataset.cpp:547-552`, `H5VL_log_dataseti.cpp:1005-1011` |
| `FilterModel` | `H5VL_logi_filter.cpp`, read of filtered blocks `H5VL_logi_nb.cpp:379-490` |
| `AlignModel` | stripe-aligned writes, `H5VL_logi_nb.cpp:896-1113` |
| `BufModel` | `H5VL_log_filei.cpp:84-107, 321-334`, data part of `H5VL_log_dataseti_write` |
| `FailModel` | `H5VL_log_dataseti_write` when a step after the construction of the request fails |
| `RefModel` | reference counting of file objects, handles, table of open files (`H5VL_log_filei.cpp`, `H5VL_log_obji.cpp`, `H5VL_log_wrap.cpp`, `H5VL_log_file.cpp`) |
| `NameModel` | name remapping, scan at open, iteration callbacks, dataset identifiers |
| `GroupModel` | `H5VL_log_filei_calc_node_rank`, `H5VL_log_filei.cpp:943-1016` |
| `CfgModel` | `H5VL_log.cpp:134-770`, `H5VL_log_filei.cpp:336-469` |
| `CollModel` | which collective operations each API call issues |
| `ReplayModel` | `utils/h5lreplay/h5lreplay_meta.cpp:33-190` |
| `ReplayDataModel` | `utils/h5lreplay/h5lreplay.cpp:123-290`, `h5lreplay_data.cpp:40-170`, `h5lreplay_copy.cpp:100-130` (extents of the new datasets) |
| `ReqModel` | `H5VL_log_req.cpp`, `H5VL_log_reqi.cpp`, requests of `H5VL_log_dataset_create` and of the one-part operations |
| `InfoModel` | `H5VL_log_info.cpp`, `H5VL_log.cpp:48-70`, `H5VL_log_file.cpp:82, 186, 230, 317, 424-428` |
| `ShapeModel` | `H5VL_log_dataset.cpp:54-221, 431-570`, `H5VL_log_dataseti.cpp:689-761` as far as sizes are concerned |
| `ApiModel` | `H5VL_log_dataset.cpp:285-386`, `H5VL_log_dataseti.cpp:787-1141`, `H5VL_logi_nb.cpp:489-520`: dataspaces, types and buffers of H5Dwrite and H5Dread; conversions and malloc memory are arbitrary |
| `DumpModel` | h5ldump: `utils/h5ldump/h5ldump.cpp:34-86, 178-280`, `h5ldump_meta.cpp:27-300`: metadata datasets, sections, entries, blocks with their data, how many values are printed, kinds of files. The visit (`h5ldump_visit.cpp`) is the table of datasets of SysModel |
| `SubModel` | files with subfiles: `H5VL_log_filei.cpp:109-291, 736-770, 867-941`, `H5VL_logi_nb.cpp:522-590`, names of subfiles, the groups' logs and counters |
| `CrashModel` | what reaches the disk and when: `H5VL_log_dataset.cpp:118-183`, `H5VL_logi_nb.cpp:730-760`, `H5VL_log_filei_meta.cpp:186-243`, `H5VL_log_filei.cpp:669-688, 749-767`, `H5VL_log_file.cpp:444-456`; opening what was left: `H5VL_log_filei.cpp:109-199`, `H5VL_log_dataseti.cpp:689-761`, `H5VL_log_filei_meta.cpp:356-365` |
| `FaultModel` | the same calls when an operation of the underlying library fails: what the exception leaves in memory and on the disk, `H5VL_logi_nb.cpp:661-673, 738-841`, `H5VL_log_filei_meta.cpp:186-243, 300-318`, `H5VL_log_dataset.cpp:108-183, 520-544`, `H5VL_log_filei.cpp:1081-1084`, `H5VL_log_file.cpp:528-539` |
| `LibModel` | no code of /repo: links and attributes of the HDF5 library underneath |
| `NsModel` | callbacks for groups, links, objects and attributes: `H5VL_log_group.cpp:43-215`, `H5VL_log_link.cpp:44-425`, `H5VL_log_obj.cpp:40-100, 173-235`, `H5VL_log_att.cpp:44-485`, own attributes of `H5VL_log_dataset.cpp:121-178` and `H5VL_log_dataseti.cpp:689-761`, scan at open |
| `RegModel` | the same callbacks on files not made by the connector: `H5VL_log_att.cpp:63-67, 128-142, 285-353, 409-412`, `H5VL_log_dataset.cpp:88-108, 250-256, 299-302, 352-355, 441-444, 514-517, 589-592`, `H5VL_log_file.cpp:346-350, 440-463`, `H5VL_log_filei.cpp:109-130, 721-733`, `H5VL_log_link.cpp:197, 213, 297, 368-376`, `H5VL_log_obj.cpp:62-78, 191-218, 259-265` |
| `IntModel` | the flush, the metadata write and the entry sizes again, with the sizes held in C ints: `H5VL_logi_nb.cpp:98-110, 592-684, 818-823, 829-838`, `H5VL_log_filei_meta.cpp:93-118, 262-265`, `H5VL_logi_meta.hpp:28` |
| `RoModel` | files opened for reading only: `H5VL_log_file.cpp:259, 297`, `H5VL_log_filei.cpp:182-183, 739` |
| `VisitModel` | H5Ovisit and H5Lvisit: `H5VL_log_obj.cpp:241-307`, `H5VL_log_link.cpp:340-421`, `H5VL_log_obji.cpp:19-37`, `H5VL_log_linki.cpp:14-32`; opening by a path of several names |
| `ReadNModel` | non-blocking H5Dread_n and the caller's arrays: `H5VL_log.cpp:103-140`, `H5VL_log_dataset.cpp:612-621`, `H5VL_logi_dataspace.cpp:151-156`, `H5VL_log_dataseti.cpp:1034-1141` |
| `LoadModel` | loading and unloading, MPI, optional operations, H5VL_log_register: `H5VL_log_main.cpp:56-167`, `H5VL_log.cpp:17-36`, `H5VL_log_dataset.cpp:41-42` |
| `ZipModel` | `H5VL_logi_zip.cpp:21-59` over the results of zlib's calls, and the write call with it |
| `EscModel` | where exceptions are caught: `H5VL_logi_err.hpp:31-94`, `H5VL_log_dataset.cpp:381-420`, `H5VL_log_obji.cpp:82-95`, `H5VL_log_file.cpp:528-539`, `H5VL_log_filei.cpp:710-850` |
| `TyModel` | datatypes with variable-length parts: `H5VL_log_dataset.cpp:88-90, 130-135`, `H5VL_log_dataseti.cpp:918-973` with equal types |
| `CplModel` | dataset creation property lists: `H5VL_log_dataset.cpp:54-240, 463-473`, `H5VL_log_dataseti.cpp:690-770`, `H5VL_logi_filter.hpp:36-62` |
| `OflModel` | flushing one object: `H5VL_log_dataset.cpp:519-561`, `H5VL_log_obj.cpp:267-292` |
| `DelModel` | deleting datasets: `H5VL_log_link.cpp:343-427`, `H5VL_log_filei.cpp:135-196` |
| `SlotModel` | slots of the tables of the utilities that no visited dataset fills: `utils/h5ldump/h5ldump_visit.cpp:55-79`, `utils/h5lreplay/h5lreplay.cpp:219`, `h5lreplay_copy.cpp:37-46` |
| `SubToolModel` | closing a file with subfiles and the utilities on it: `H5VL_log_filei.cpp:736-800`, `utils/h5ldump/h5ldump.cpp:190-301`, `utils/h5lreplay/h5lreplay.cpp:94-129, 228-295` |
| `UtilModel` | main programs of the utilities: `utils/h5lreplay/h5lreplay.cpp:33-92, 176-200`, `utils/h5ldump/h5ldump.cpp:34-189` |
| `DiskModel` | which files exist: `H5VL_log_file.cpp:155-172, 391-470`, `H5VL_log_filei.cpp:243-253, 867-903` |
| `NbModel` | non-blocking reads in whole histories: `H5VL_log_dataseti.cpp:1034-1141`, `H5VL_log_filei.cpp:669-688, 710-825`, `H5VL_logi_nb.cpp:522-590` |
| `RealModel` | when a blocking read flushes: `H5VL_log_dataseti.cpp:1124-1133`, `H5VL_log_file.cpp:132, 281` |
| `CopyModel` | copying of groups, datasets, names and attributes by h5lreplay: `h5lreplay_copy.cpp:22-245`, `h5lreplay.cpp:211-223`; H5Ovisit as a depth-first search in order of creation |
| `EndianModel` | `WORDS_BIGENDIAN` parts |

Numbers: `Z` for file data, offsets and sizes, `nat` for lengths, indices and fuel.  64-bit sums
and products are exact unless a comment says otherwise; conversions to C `int` are modelled (`i32`)
where the code makes them, except for the block counts named in the comments of `SelModel` and
`FlushModel`.  Undefined behaviour is the distinct outcome `UB`; a theorem that a call returns `Ok`
therefore also says that no undefined behaviour is met.

## Trusted base

1. Coq's kernel (8.16.1), `coqc` and `vm_compute`.
2. Axioms: none.  `Print Assumptions` reports "Closed under the global context" for every theorem in
   the `P_*.v` files.  No file declares an axiom, parameter, functor or module type.  The seven
   constants `Coq.ssr.ssrunder.Under_rel.*` that `vcheck` lists belong to the module type of the
   standard library's ssreflect plugin, loaded by `Lia`/`Zify`-related files of the standard library;
   no theorem depends on them.
3. The correspondence between the model and the C++ code: by reading, definition by definition, with
   the lines cited.  It is not checked by a tool.
4. External software, as parameters or as written-out assumptions:
   * the placement of a log dataset in the file by the underlying VOL: the argument `doff` of every
     flush, arbitrary except that the theorems on whole histories ask that log datasets are placed at
     increasing, non-overlapping addresses (`ok_flush`);
   * `std::sort`: any function that returns a permutation sorted by the comparison operator
     (`is_sort`, `is_order`); examples use a concrete insertion sort proved to be one;
   * zlib: arbitrary functions (`MetaModel.zlib`) that return a result or say that it does not fit; errors reported by
     zlib, which make the write fail, are in `ZipModel`; in `FilterModel` the compressor is assumed to
     succeed on a buffer of `deflateBound` bytes;
   * `malloc` failure, `stat`, `H5Tconvert`, user memory: arguments, arbitrary;
   * MPI reads deliver the i-th byte of the file type map to the i-th byte of the memory type map, in
     type map order; MPI leaves the order open when entries overlap (`ReadModel.mpi_read`);
   * `MPI_Pack`/`MPI_Unpack` fail when the buffer size they are given is too small (C19);
   * MPI collectives: an operation completes when all members of its communicator are at it, with the
     result of the standard; no other progress rule is used (`CollModel.step`).  A collective of the
     underlying VOL is taken to synchronise in the same way;
   * HDF5 returns the blocks of a hyperslab selection in the order of its span trees
     (`SelSpec`, used by C14, C15), and pairs selected elements in row-major order;
   * `H5Sselect_hyperslab` and `H5Dread` refuse overlapping blocks and blocks outside of the extent
     (`PassModel.hsel`);
   * the HDF5 library calls the close callback of an object when its last identifier is closed, and
     wraps the file for `H5Iget_file_id` (`RefModel`);
   * property lists copy as many bytes as the property was inserted with (`CfgModel`);
   * of the creation property list of a contiguous dataset with an empty dataspace, HDF5 stores the fill value but no filters; it refuses mandatory
     filters for such a dataset and ignores optional ones; extendable or filtered datasets of ordinary files need the chunked layout (CplModel);
   * HDF5 initialises a connector when its first identifier is made and terminates it when the last reference is dropped, never reuses
     an identifier or the value of an optional operation, and refuses to register a name twice; MPI_Initialized stays true after
     MPI_Finalize (`LoadModel`).
   * links and attributes: the library underneath behaves as `LibModel` (attributes and links in order of
     creation or of names, at most 16 soft links followed, an attribute renamed keeps its place); an identifier given as
     H5L_SAME_LOC reaches the connector as NULL; H5Aopen_by_idx passes no name (`NsModel`);
   * crashes: each change of the underlying file (an object created, an attribute or a piece of data written) is
     atomic, and the underlying library opens the file whichever changes it contains (`CrashModel`).
5. `e_coll` of `SysModel` says that blocking reads flush.  In the code this is so exactly when one process has
   opened the file (`RealModel`); C75 says for which histories of several processes it makes no difference.
6. API calls are atomic in `SysModel`: collective calls are made by all processes together and the
   collectives inside them complete.  Which processes enter which collective is `CollModel`.

## Modelled and not modelled

Modelled: see the table above.  Not modelled, of `/repo/src`:

* datatype, blob, token and introspection callbacks (`H5VL_log_datatype.cpp`, `_blob.cpp`, `_token.cpp`,
  `_introspect.cpp`), and of the attribute, group, link and object callbacks those not named in `LibModel`'s list of
  calls (H5Ocopy, which always fails for log files, H5Orefresh, mounting, external and user-defined
  links): they pass their arguments to the underlying VOL.  Their name remapping (C26), their reference
  counting (C30) and their requests (C47) are modelled;
* the conversions of HDF5 themselves (arbitrary functions in ApiModel), profiling (`H5VL_logi_debug`, `H5VL_logi_err`);
* the directory of the subfiles (that it can be made and opened); C's `basename` is the one that does
  not change its argument (`SubModel`);
* of h5lreplay filtered datasets and links to other objects than by H5Ovisit; h5lgen; of h5ldump the conversion of values to text and the lines about the file;
* the dataset statistics and debug output, the generic optional callback `H5VL_log_optional` (`H5VL_log_main.cpp`), H5Pset_vol_log of lists that already have a connector with settings;
* failures of other operations than the changes listed in `CrashModel` (closing objects, property lists, memory, MPI), and failures that differ between processes (`FaultModel`);
* crashes of files with subfiles or with filters; a crash that leaves the underlying HDF5 file unreadable or a change half done (`CrashModel` takes the best case);
* wrap-around of 64-bit sizes, memory exhaustion outside of `H5VL_log_filei_balloc`.


## Per property: what is modelled, how it is proved, what came out

Status as in MANIFEST.json.  `_partial`: proved under hypotheses that leave out part of the property; the
note says what.  `_refuted`: the statement is false of the model, shown by a witness or for all inputs of a class.

* **C01 Read returns the last write** (partial). SysModel (whole file as a state machine over histories), History.v (program order, expected value); refinement of `run` to the specification `srun` of SysSpec by induction on the history, then to "last write in program order". With the default settings: DefSpec (which histories) and DefProofs (they satisfy the conventions of SysSpec).  Result: Proved for every history accepted by ok_history; for every legal one-block history on fixed-shape datasets in every plain configuration; for every legal history (sizes within C ints) when selection encoding and sharing are off; and with encoding and sharing on (default settings) for every legal history whose multi-block writes use blocks shorter than the dataset and whose record writes are not repeated (C01_default_partial). C01_api_partial, C01_api_default_partial say the same of sequences of H5Dwrite and H5Dread with dataspaces, memory types and buffers, down to every byte of the user's memory. The unrestricted statement is false (default configuration, full-width block in a multi-block write): refuted.
* **C02 Unwritten elements read as the fill value** (partial). Same refinement; the elements no write selected keep the fill value or the former buffer content.  Result: For every history accepted by ok_history and every tame history (TameSpec.v), any number of processes; refuted in general: with the default settings an element never written can read as data of another position.
* **C03 Collective flush publishes every rank's writes** (partial). Same refinement for any number of processes; order of conflicting writes by rank.  Result: For every history accepted by ok_history; for every legal history (sizes within C ints) when selection encoding and sharing are off; with the default settings for the legal histories of DefSpec.v. Refuted in general: with the default settings a flushed write of another process is not seen.
* **C04 Selections survive the log metadata (coordinate form)** (proved). MetaModel, byte-exact encoder and decoder; round trip by induction on the block list, at any position of a section.  Result: For every selection stored as coordinates, at any place in a section.
* **C05 Selections survive the log metadata (offset encoding)** (partial). MetaModel; round trip under the exact bound, proof that the bound is necessary, witness that the full statement is false.  Result: Round trip exactly for blocks shorter than the array in every dimension but the first; false otherwise.
* **C06 Record writes survive the log metadata** (partial). MetaModel; as C04/C05 for record entries; witness for the wrong data size.  Result: Blocks and record number recovered; the reported data size is wrong (refuted).
* **C07 Metadata sharing is transparent** (partial). QueueModel + SysModel; invariant that every reference points back to an entry decoding to the intended blocks; witnesses for the collisions.  Result: Transparent for accepted histories (multi-block writes of the same rank and number of blocks agree on being record writes, no record selection repeated with the compact index, equal selections have equal element size with the array index); false without each of these: three witnesses.
* **C08 Index kinds are interchangeable** (partial). IndexModel; simulation between the two index representations, lifted to whole histories.  Result: Same pieces of one search; same reads of accepted and of tame histories; refuted in general: repeated record writes, equal selections of datasets of different element size.
* **C09 Index search is exact** (partial). IndexModel; set equality between reported pieces and shared elements.  Result: Exact for both indexes when counts (and, for the compact index, record numbers) fit a C int; false for records beyond 2^32 in the compact index.
* **C10 Search results address the right bytes** (partial). IndexModel + ReadModel; row-major arithmetic.  Result: Exact byte correspondence when counts fit a C int; of a block of 2^31 elements nothing is transferred.
* **C11 Log extents never overlap** (partial). FlushModel; invariant over histories on recorded extents.  Result: For every history of non-empty writes whose log datasets are placed apart by the library underneath; disjointness of log datasets is that library's, not this code's. An independent read while writes wait records all of them at the start of the file (refuted).
* **C12 Metadata sections tile the metadata dataset** (proved). FlushModel, MergeModel; the content of a metadata dataset as an explicit layout (LogSpec.layout); invariant over all histories with writes of the right rank: every queued entry announces its own size.  Result: For every history whose writes name existing datasets and have blocks of the right rank, and for queues filled in any way with entries whose header announces their size (merged entries included). Entry sizes are integers without bound in the model and C ints in the code.
* **C13 A bounded metadata buffer changes nothing** (partial). IndexModel; cursor loop over sections with a termination measure, lifted to whole histories.  Result: Any two limits give the same reads; false for a file without metadata.
* **C14 Hyperslab normalization keeps the selected elements** (proved). SelModel; multiset of coordinates is preserved by merge, sort, grouping and row breakdown.  Result: For every selection of the library and every list of disjoint blocks.
* **C15 Hyperslab normalization keeps row-major order** (proved). SelModel; the concatenated coordinates are sorted in row-major order for every selection HDF5 can hold.  Result: For every selection the library can hold; the block order of the library (trees of spans) is an assumption about HDF5. For other block orders the result need not be row-major (refuted, not reachable).
* **C16 Point selections keep the order of the points** (partial). SelModel; witness that unsorted points are reordered, proof for sorted ones.  Result: Only for points in row-major order; the code sorts the points, so any other order is lost (refuted).
* **C17 Concurrent pending reads do not disturb each other** (partial). PendModel (several requests served by one call); proof for disjoint requests, witnesses for overlapping ones. Rows that overlap without nesting: induction over `trim` (OverlapProofs), the copies of one row commute with the reads of the later ones; nested rows: universal refutation.  Result: For queues of reads in which no element is requested twice, over whole histories; for overlapping requests, at the level of the rows read, when no row lies inside another one. With shared elements the property is false in general: refuted with an overlapping request in a history, and for every read nested in another read of the same block.
* **C18 The file view is a legal MPI file type** (partial). ReadModel/PendModel; monotone displacements of the file type.  Result: For pieces of different logged blocks and of one-dimensional blocks; false for several pieces of one multi-dimensional block (refuted).
* **C19 Filtered datasets read back what was written** (partial). FilterModel; pipeline with the compressor as a parameter.  Result: The stored bytes are decodable for every lossless compressor and number of stages; the read path never recovers them (it compresses again, and MPI_Pack gets a one-byte buffer; after reopening the filters are gone and the compressed bytes are returned), so the property is false.
* **C20 Buffered writes are isolated from the user's buffer** (partial). BufModel; user memory as a map, pending writes alias it or own a copy.  Result: Isolation holds for every write whose data is copied (property false or unset, or packing, conversion, filtering). With the property set to true the user buffer is aliased until the flush, the opposite of doc/api.md: refuted.
* **C21 Metadata compression never changes results** (partial). QueueModel.compress_sel with zlib as an arbitrary function; a simulation between the run with and the run without compression for every sequence of calls (AnyProofs).  `ZipModel`: H5VL_log_zip_compress over the results of the zlib calls; calls that succeed are those of QueueModel, and zlib errors become failing writes.  Result: For every sequence of calls, legal or not, and every compressor that returns without error, in files without merging, alignment and subfiling. Refuted when zlib reports that a stream was freed prematurely: a write whose selection does not compress into its own size may fail.
* **C22 Metadata merging never changes results** (partial). MergeModel; the merged entry decoded by MetaModel.decode. MergeSysModel: whole histories with merging on; the state after queueing the merged requests satisfies the invariant of SysProofs with the writes of each process sorted by dataset, and sorting changes nothing when no process wrote a dataset twice.  Result: Holds in whole histories (any number of processes, creations, resizings, writes, flushes, reads, reopenings) when no process writes a dataset twice between two flushes, for plain coordinates; at the level of entries also with selection encoding in one dimension. False otherwise: characterised for two writes, witnesses for the default settings, for a whole history and for merging as the only setting.
* **C23 Every queued write is flushed exactly once** (partial). FlushModel + SysModel; the log as a list of extents, each request in it once.  Result: For every history of writes with data; a write of no element can wait forever (refuted).
* **C24 Dataset identifiers are unique and stable** (proved). NameModel; invariant on the table of identifiers over histories of create/open/delete/reopen.  Result: Uniqueness for every history and every name, also over reopening; stability for paths of simple names (C26 says what goes wrong for others). That data recorded under an identifier is returned only for it is C32.
* **C25 Subfile groups partition the processes** (partial). GroupModel; arithmetic of the division for every number of processes and groups, and for every node assignment.  Result: For every number of processes and groups whose product fits a C int (overflow refuted), and for every assignment of processes to nodes. Opening an existing file uses a wrong number of groups (refuted).
* **C26 User object names never clash with internal ones** (partial). NameModel; strings.  Result: For paths of components without slash and not starting with a dot; absolute names, names starting with a dot and multi-component names are refuted.
* **C27 Settings requested are settings used** (partial). CfgModel; property lists made by setter calls, environment as a function.  Result: For new files, every property list made by setter calls and every environment without the data layout variable. False for that variable (inverted), for settings at opening (ignored), for reading single subfiles, for the lists reported by the file; the aligned layout is undefined behaviour.
* **C28 Set then get returns the value set** (partial). CfgModel; sequences of setter and getter calls.  Result: For seven of eleven properties and every sequence of calls; three setters do nothing and one is out of bounds (refuted).
* **C29 Internal buffer space stays within the limit** (partial). BufModel; accounting invariant over histories of allocations.  Result: Proved for a counter that starts at zero and sizes that do not wrap; the code does not initialise the counter, and the setter of the limit has no effect (C28_lost_refuted).
* **C30 A file is closed exactly once, when its last handle goes** (partial). RefModel; invariant linking the reference count to live handles.  Result: Proved for histories in which H5Iget_file_id is called only while a file identifier is open and H5Dopen does not fail in a file that is not log based; both exceptions are refuted with witnesses.
* **C31 Extending a dataset keeps its data** (partial). SysModel.set_extent inside whole histories; reads do not look at the extent (AnyProofs), for every sequence of calls.  Result: An accepted size change alters no read, after any sequence of calls. A rejected call does change the dataset, and shrinking then growing exposes old data: refuted.
* **C32 Writes to one dataset never affect another** (partial). Consequence of the refinement: histories that agree on one dataset read the same from it.  Result: For accepted and for tame histories; refuted in general with the default settings (deduplication takes a record write for an earlier write to another dataset).
* **C33 H5Dwrite_n equals its sequence of H5Dwrite calls** (partial). Consequence of the refinement: a multi-block write and its sequence of one-block writes.  Result: For accepted and for tame histories; refuted in general with the default settings.
* **C34 Closing and reopening preserves contents** (proved). OReopen inside whole histories: invariant that the cached index is what rebuilding it gives, and that closing writes what a collective read writes (AnyProofs), for every sequence of calls.  Result: After every sequence of calls (writes that select something carry data), reopened by any number of processes: collective reads, or any reads after a flush. Files without subfiles; the datasets are found again (C26, C53, C54 treat names and subfiles).
* **C35 Large blocks are addressed correctly** (partial). i32 conversions of the search results; witness for 2^31 blocks.  Result: Large coordinates are handled; blocks of 2^31 elements are not.
* **C36 Memory selections are packed and unpacked in order** (partial). SelModel.pack_write / unpack_read.  Result: For all selections except unsorted points, memory arrays with sizes below 2^31, also in whole histories (C01_api_partial); unsorted points and empty memory selections refuted.
* **C37 Independent reads never lose pending writes** (partial). SysModel with e_coll = false.  Result: Holds when nothing is pending; a pending write is lost otherwise.
* **C38 Pass-through reads select the right log elements** (partial). PassModel; HDF5 hyperslab semantics written out (hsel).  Result: Right for pieces with at most the first and last dimension larger than one (all pieces of rank 1 and 2) and for no others; log datasets must lie in the file in the order of their numbers. The branch for filtered data is not covered here (see C19).
* **C39 Offsets are sorted correctly** (proved). ReadModel.sortoffsets; sorted permutation of rows.  Result: For every list of rows.
* **C40 Replay distributes every metadata section exactly once** (partial). ReplayModel; which entries each process takes.  Result: Exactly once when there are at least as many sections as processes. With more processes than sections entries are taken several times or, with metadata sharing, not at all (refuted). What is then stored is C59.
* **C41 The on-disk metadata is little endian everywhere** (partial). EndianModel; reversal functions and the big-endian constructor.  Result: The reversal functions are proved correct; entries of a big-endian writer differ from little-endian ones in the 64-bit header fields (exact characterisation), and a big-endian reader reads out of bounds.
* **C42 Scalar datasets round trip** (partial). Rank 0 in MetaModel/SysModel.  Result: Holds without selection encoding; creation is undefined behaviour in the default configuration.
* **C43 Aligned writes store every byte once** (partial). AlignModel; the stripe buffer loop and the offsets of the chain of groups.  Result: Each process writes its own bytes once, but the recorded positions are never those written to, stripes of different processes collide, and offsets collide when three groups share a target (refuted).
* **C44 Processes agree on the sequence of collective calls** (partial). CollModel; processes as programs of collective operations, any schedule.  Result: Holds for programs without reads, and for reads on whose emptiness and result (anything found or not) the processes agree. False otherwise, for every number of processes; with subfiling the close ends exactly when all groups have written or none has.
* **C45 A file is not opened twice, and only then refused** (partial). RefModel; the table of open files.  Result: Files are recognised by inode number only: a different file system can give a false refusal (refuted); proved on one file system.
* **C46 A failed write has no effect** (partial). FailModel; a write that fails after its request was built.  Result: Holds without metadata sharing and for selections already known; with sharing (the default) a failed write of a new selection leaves a table entry behind, and repeating it loses the selection (universal), makes the metadata unreadable or puts data in the wrong place (witnesses).
* **C47 The status of an asynchronous operation is that of all its parts** (partial). ReqModel/ReqSpec/ReqProofs; the underlying connector is an oracle that answers successive waits and releases finished requests; the completion callbacks are interleaved step by step (invariant: counter = callbacks not returned).  Result: Proved for requests that know their connector and have distinct parts, any number of waits; the completion callback is called exactly once under every interleaving and with a fair status when the parts' callbacks do not overlap. False otherwise: the requests the connector makes carry connector id -1, so every wait is an error; a dataset creation lists the same part four times; a failed part ends the wait while others run; overlapping callbacks can turn a failure into success; cancel reports the last part only.
* **C48 The text form of connector settings reads back** (partial). InfoModel/InfoProofs; printf, sscanf, strchr and strrchr as list functions; induction on the depth of the stack.  Result: Proved for connector numbers of at most seven digits, any settings text below and any depth of stacking; with the number (unsigned)-1 of an unknown connector the buffer overflows, and a text without a number is undefined behaviour.
* **C49 Settings objects give back the references they take** (partial). InfoModel; invariant: references minus live objects minus texts read is constant.  Result: Proved for copies and releases; every object made from text and every call of H5Pset_vol_log, H5Fcreate, H5Fopen, H5Fdelete and H5Fis_accessible leaves exactly one reference behind.
* **C50 H5Dget_space reports the current shape** (partial). ShapeModel/ShapeSpec/ShapeProofs; simulation of the shapes by the pair (attributes, description).  Result: Proved for all sequences without a rejected size change; a rejected change is partly visible until the file is reopened.
* **C51 Data is converted when written** (partial). ApiModel/ApiSpec; conversions of HDF5 are arbitrary element functions, malloc memory is an arbitrary byte map.  Result: Proved for every selection in file and memory and every conversion that does not depend on the stored element. A missing conversion is not reported and the raw bytes are stored (all such writes); members left out of a compound memory type are overwritten with uninitialised memory (witness).
* **C52 Data is converted when read** (partial). ApiModel/ApiSpec/ApiSim; simulation of API calls by the operations of SysModel.  Result: Proved for reads with a conversion of non-compound types into contiguous memory, and into a memory selection when the memory type is not larger. No other read succeeds (shown for all of them).
* **C53 Data in subfiles can be read back** (partial). SubModel: the groups of processes, each with a log of its own (the state of SysModel) and the counters of the open file; per-group use of the invariant of SysProofs for single-subfile reads, invariant on dataset descriptions for the loop over the subfiles; a group whose counter is behind the log datasets that exist stays so, and can store nothing (SubAgainClaims); a reopened file whose counters are 0 has an empty index until data is stored (SubReopenClaims); witnesses for the rest.  Result: Proved for data of the reader's own group with single-subfile reads, within one session, when between two reads all groups write or none does and each group's calls are tame (either index, any buffer limit). Without single-subfile reads no read returns written data (all histories); once a group has written, read all subfiles or reopened the file, and written again, the next H5Fflush, H5Dread or H5Fclose fails (all histories); the first read hangs whenever one group has written and another has not (all such histories); after closing and opening the file, reads before the next write return fill values only, whatever was written before (all histories).
* **C54 Subfiles have distinct names and are found again** (partial). SubModel: names of subfiles as strings; decimal numbers are injective, a slash is in one name and not in the other.  Result: Names of different groups differ; the names used for creating and opening agree when the file name has no directory part, and never agree when it has one (then reads of all subfiles and reopening fail, for all histories).
* **C55 Reads, flushes and reopenings do not change what later reads return** (partial). Invariant on the cached index (AnyProofs) for repeated reads; equality of the expected contents for histories that differ in flushes, reads and reopenings; witness.  Result: A successful read never changes the next read, after any sequence of calls; for tame one-process histories reads, flushes and reopenings may be placed anywhere; refuted in general (a read between two writes of the same record avoids an undefined read).
* **C56 h5ldump lists exactly the writes in the log** (partial). DumpModel: the loops of h5ldump over metadata datasets, sections and entries, with the decoders of MetaModel; DumpSpec rebuilds the log from the list of calls; the invariant of SysProofs keeps each section and the writes it stands for, and the file does not depend on the index in use (DumpRun.same_file).  Result: Every legal history of reasonable sizes when selections are stored as coordinates and not shared; otherwise histories that avoid the defects of encoding and sharing. Refuted outside: shared selections of datasets of different element size are listed with wrong data, a multi-block write as wide as the dataset makes the utility abort, datasets with names starting with one underscore are decoded with uninitialised descriptions. Not covered: merging, filters, subfiles.
* **C57 h5ldump prints every element of a block once** (partial). DumpModel.print_plan; arithmetic.  Result: Integers and unknown types, floats of 4 and 8 bytes, strings of one character; refuted for all other strings and floats. The conversion of a value to text is not modelled.
* **C58 h5ldump -k names the kind of a file** (partial). DumpModel.file_kind; comparison of the first bytes.  Result: HDF5 kinds, 64-bit offset and unknown files; NetCDF classic and 64-bit data are swapped, for every such file.
* **C59 Replaying a log file gives a file with the same contents** (partial). ReplayDataModel: the loops of h5lreplay from the parsing of the metadata to the H5Dwrites of each process; the log of the history (DumpSpec) gives the sections; each section belongs to one replaying process (C40); sections of one writer keep program order, and writes of different writers to different elements commute in every interleaving (ReplayDataProofs, ReplayDataRun).  Result: Every schedule of at most as many replaying processes as wrote the file, when each element is written by one process only, nothing written lies outside the final extents and the history avoids the defects of encoding and sharing. Elements written by several processes get the value last in the log order (one replaying process), which is not the order of the writes, or depend on a race (refuted); a shrunk dataset makes the replay fail. Filters, merging and subfiles are not covered.
* **C60 It does not matter which process issues a write** (partial). SysModel; in a synchronised history at most one process has a pending write of an element, so publishing in the order of the processes keeps the last write of each element (SyncProofs).  Result: For all pairs of tame histories (TameSpec.v) whose conflicting writes are separated. Without the separation the process with the higher number wins (refuted).
* **C61 A crash keeps what was in the file when it was last closed** (partial). CrashModel takes every call apart into changes of the underlying file; a crash leaves any subset of the changes made since the last close. Invariant: what the attribute of the file counts is untouched (remains), and log data lies behind it (from the invariant of whole histories); a read is then the read of the closed file.  Result: Every subset of the changes, in any order, and every crash point of tame histories (TameSpec.v), when no dataset was created since the last close. If one was, the file cannot be opened (refuted, for every history). Changes are atomic and the underlying library is assumed to open the file.
* **C62 What H5Fflush has written survives a crash** (partial). CrashModel; special case of C61 where all changes are on the disk.  Result: False: flushed data is lost, and for every tame history the file is read as when it was last closed.
* **C63 Closing is all or nothing** (partial). CrashModel; the attribute of the file is the last change of H5Fclose, so a proper prefix of its changes is covered by C61 and all of them by C34.  Result: When changes reach the disk in order and no dataset was created. With the attribute of the file on the disk before the metadata the file cannot be opened (refuted).
* **C64 A file left by a crash can be used again** (partial). CrashModel; without new objects the disk is in step with the opened state (synced); with a log dataset left behind every flush of data fails, and pending data stays pending (stuck).  Result: When no object created since the last close is on the disk. After a flush since then nothing can be stored any more (refuted, for every history).
* **C65 The order in which data reaches the file does not matter** (partial). SchedModel: the bytes each process writes in a flush, with addresses; every permutation of their arrival gives the file of FlushModel (addresses are pairwise different because recorded sizes are data sizes, an invariant of all histories).  Result: Data: after any sequence of calls. Metadata: writes of the right rank. False for the stripe-aligned layout, where processes write the same stripe.
* **C66 Groups and links behave as without the connector** (partial). LibModel (links and attributes of the library underneath) is run directly, as the specification, and below the callbacks (NsModel). Simulation: the stored file is a function (enc) of the user's file: names with a leading underscore get another one, the group _LOG and the own attributes come first. Every supported call commutes with enc (vol_sim); induction on the calls.  Result: Any names for creating, opening, testing, deleting, moving; names not starting with an underscore for H5Lcreate_hard, H5Lcreate_soft and H5Lcopy, which are refuted for others; H5Lmove with H5L_SAME_LOC is undefined. Names are single components; files without subfiles; the library underneath is the model of LibModel.
* **C67 Attributes behave as without the connector** (partial). As C66; indices are shifted by the number of own attributes, which come first in order of creation. Witnesses and general theorems for the calls that do not commute.  Result: Any attribute name for creating, opening, testing, deleting; by index in increasing order of creation (name and size also decreasing) through an identifier of the object's own type. Refuted: deleting by index destroys the file, renaming and information by name with underscores, objects named with an underscore, other orders.
* **C68 Enumerations and counts show exactly the user's objects** (partial). As C66; the filter of the iteration callbacks removes exactly the own names, and doubling the underscore keeps the order of names, so sorting commutes with it.  Result: Enumeration in every order for every history; counts of attributes through an identifier of the object's own type; counts of links below the root group. The others are refuted, exactly.
* **C69 h5lreplay reproduces the structure of the file** (partial). `CopyModel`: H5Ovisit over the stored file, the copy handlers. Visiting commutes with the encoding of C66; visited paths are distinct, come after their parent, and lead to the visited object; the depth-first search reaches every object once; then induction over the visited list.  Result: Every history of supported calls and every tree, if no link name starts with an underscore, dot or slash and no attribute name with a dot or slash; each object appears under one of its hard links, other hard links and soft links are not in the new file. Refuted for other names.
* **C70 A call that fails can be repeated** (partial). `FaultModel`: the calls of `CrashModel`, stopped at the first change of the underlying file that fails, and the state of the open file then. Simulation by `run`: the two files differ in the addresses of requests not yet flushed and in a log dataset that is in the way. Refutations: the existing log dataset is an invariant; a metadata dataset of zeros is an invariant and its parsing fails; crash theorem C61 for H5Fclose.  Result: Successful calls are unaffected whenever creating a log dataset, metadata dataset or dataset or writing data fails, in every sequence of calls in which H5Fclose and H5Dset_extent succeed. Refuted, for all histories: a flush that fails after the log dataset was created can never be repeated; a read that could not write the metadata makes every later read fail; H5Fclose after a failing H5Fclose returns success and stores nothing.
* **C71 Success means that the data are stored** (partial). `FaultModel` ([LostData], [LostMeta]). Noninterference: two files that differ in the data of flushed requests behave alike; a metadata dataset of zeros as in C70.  Result: False for all histories when the underlying library does not report an address: the data are dropped with success and nothing the program does later depends on them; metadata likewise, and no later read returns. When addresses are reported it is C01, C03, C34.
* **C72 A failing H5Dcreate or H5Dset_extent leaves no trace** (partial). `FaultModel`. An anchor without all of its attributes is an invariant, and opening fails at it; the effects of H5Fclose do not depend on the sizes.  Result: True when the underlying dataset cannot be created. Refuted, for all histories: if one of its attributes cannot be written the file can never be opened again; H5Dset_extent that failed to write the attribute changes the reported sizes until the file is closed.
* **C73 A file not made by the connector is used as without it** (partial). `RegModel`: the callbacks on files without the mark of the connector. Case analysis over the calls and induction over the sequence; what the library does with data is an arbitrary function.  Result: Every sequence of calls on any file, except H5Oget_info and H5Aget_name/info_by_idx through the identifier of the file or of a dataset, H5Lmove with H5L_SAME_LOC, variable-length strings, H5Fget_access_plist and opening a file that has an attribute _int_att. Each exception is refuted. Not covered: H5Ocopy, external links, the creation order in H5Aget_info.
* **C74 A write of any amount of data is stored whole** (partial). `IntModel`: `run` with the lengths of the memory type, the copying positions and the entry sizes as C ints. An invariant on queue and entry sizes shows that below 2 GiB per write nothing changes; above, a simulation shows that every later call behaves as if other data had been written, or that every flush fails.  Result: True (the C ints make no difference) for every history whose writes have fewer than 2^31 bytes and at most 2^21 blocks. Refuted beyond, for all histories: after a write of 2 to 4 GiB no flush, close or collective read succeeds; of 4 GiB or more only the size modulo 2^32 is stored and every call succeeds. Not covered: 4 GiB writes while other processes have writes pending, metadata entries of 2 GiB, merged requests.
* **C75 A blocking read flushes and sees every write made before it** (partial). `RealModel`: `run` in which a read flushes exactly when one process opened the file, as the code decides it. An invariant (nothing pending) identifies it with `run` with flushing reads on settled histories; a relation of queues up to data gives the refutations for all histories.  Result: True for one process, and for any number of processes when H5Fflush or H5Fclose comes between writes and reads (tame histories). Refuted for all histories of several processes: no read flushes, a read gives what it gives without the writes since the last one, and after a flush the data of unflushed writes is destroyed by the next read.
* **C76 A file opened for reading only stays as it is, can be read, and refuses to be written** (partial). `RoModel`: the calls of `FaultModel` on a disk where every change through the library fails and H5Fclose makes none. Every call that changes anything starts with a change through the library, hence the disk is unchanged; invariants of the queues give the rest.  Result: The file is unchanged and reads are right, for every file and every sequence of calls. Refuted for all: writes are accepted with success and dropped by a successful H5Fclose; until then flushes fail, and with one process every read; with H5F_ACC_SWMR_READ H5Fclose always fails. Not in the model: a file the program may not write cannot be opened at all.
* **C77 A non-blocking read is completed by H5Fflush or H5Fclose, and not before** (partial). `NbModel`: `RealModel` with a queue of reads and a memory per process; H5Fflush serves the queues with `serve` of `PendModel`. The refinement invariant holds along the run; each flush delivers by the theorem behind C17. The queue is never looked at by other calls, hence the refutation.  Result: H5Fflush completes the reads with the values written last and touches nothing else, in tame histories in which the reads of one process share neither buffer bytes nor elements (C17 refutes the rest); memory is untouched until then, for all programs. Refuted for all programs: H5Fclose does not complete reads, it forgets them with success.
* **C78 Recursive enumeration shows the user's tree** (partial). `VisitModel`: a depth-first search of the library with each object (H5Ovisit) or each link (H5Lvisit) shown once, and the callback in front of the user's. The stored file is the user's file with other names (the simulation behind C66), the search of it gives the same list with the own group inserted, and the callback removes that entry.  Result: Exact for every sequence of supported calls (C66): the same objects or links in the same order, the connector's group never; every path shown opens its object. Refuted for all: underscores at the beginning of names below the first level are shown doubled, and the number of attributes told by H5Ovisit is three too large for datasets and one for the root group.
* **C79 H5Dread_n equals its sequence of H5Dread calls** (partial). The n-block read and the sequence of one-block reads are both histories of `SysModel`; both are right by the invariant (C03), and right answers are unique. `ReadNModel` adds the caller's arrays that a queued H5Dread_n keeps pointing to.  Result: Blocking: for every tame history with blocks that do not overlap; refuted for a block inside another one. Non-blocking: right as long as the caller leaves its arrays alone until H5Fflush; refuted otherwise, for every program (the blocks stored last are read).
* **C80 The connector can be loaded and unloaded at will** (partial). `LoadModel`: the statics of the connector, MPI as a three-state variable, HDF5 as the identifier of the connector with its references and the table of optional operations. Invariants over all programs of calls (who owns MPI, which operations are registered, how many references exist); the refutations are states that no further call leaves.  Result: Proved: with MPI initialised by the program the connector never touches it; operations are registered exactly while loaded; programs that register by name and count references keep their property lists working. Refuted: H5VL_log_register after an unload, its identifier closed twice, a second load in a program without MPI, MPI_Finalize by the program, any load after one failed registration.
* **C81 A call that fails returns an error and the program goes on** (partial). `EscModel`: the calls and reference counts of `RefModel`, with the outcome of each call: an error returned by the try block of the callback, or an exception that leaves a callback without one or a destructor, which ends the program. The invariant of C30 says when H5VL_log_filei_close runs.  Result: Which failures end the program is determined exactly, for every history: with HDF5 before 1.13.3 and the file closed after its objects none does. Refuted: with HDF5 1.13.3 or later every failing H5Dread and H5Dwrite ends the program; so does a failing close of the file when an object is closed last; a file whose H5Fclose failed can never be opened again by the program.
* **C82 Data of every type that is accepted is stored; types of variable length are refused** (partial). `TyModel`: datatypes as a grammar, the check of H5Dcreate, writes whose buffer may hold pointers into a heap; `value` (in TySpec) is what the program understands by an element. The fixed types follow from C01; for the others an element whose value depends on the heap is constructed by induction on the type.  Result: Proved for types without parts of variable length, in tame histories of any number of processes that separate their conflicting writes; variable-length strings are refused. Refuted for every other type with a part of variable length: it is accepted, and the file holds the pointers instead of the contents.
* **C83 Deleting or replacing a file removes all of it** (partial). `DiskModel`: the paths on the disk, creation of main file and subfiles, deletion of the main file. DiskSpec: the files of the user, each with its number of subfiles. Induction over the history; the subfiles left over from the injectivity of their names (C54).  Result: Proved for all histories of files without subfiles. Refuted with subfiles, for every disk and number of subfiles: H5Fdelete leaves them, exclusive creation then fails half done, and replacing a file leaves the subfiles the new one does not have.
* **C84 The creation properties of a dataset are kept** (partial). CplModel; simulation of CplSpec for plain lists and for fill values, invariants over the calls for the rest.  Result: Proved for lists that are contiguous and without filters, and for the fill value of all datasets whose filters are optional. Refuted for all others: H5Dcreate makes the program's list contiguous, also when it fails, after which the list is refused for extendable datasets of other files; every dataset reports the contiguous layout; filters are gone after reopening; lists with mandatory filters are refused. Rests on what HDF5 keeps of the list of a contiguous, empty dataset (trusted base).
* **C85 Flushing a dataset writes its data** (partial). OflModel over RealModel; erasure of the calls by induction over the history.  Result: H5Dflush and H5Oflush reach the empty dataset underneath and write nothing that is pending: for every history the file and all later results are those of the program without these calls; with several processes the next read misses the flushed writes. With one process reads are right, because they flush themselves.
* **C86 Deleting a dataset leaves the data of the others alone** (partial). DelModel over SysModel; simulation between the history with deletions and the one without, the index being that of the datasets that remain; values from the theorem on synchronised programs; witnesses with sharing.  Result: Proved for all settings until the file is closed, and through any number of reopenings when metadata entries are not shared. Refuted for the default settings: when another dataset was written with the selection of a deleted one, reading it after reopening has undefined behaviour; with the array index so has every read.
* **C87 The utilities work on files from which datasets were deleted** (partial). DumpModel and ReplayDataModel on the files DelModel leaves behind; entry by entry comparison of the utility on the file with and without the deletions, positions of the entries being the same; what the entries are from the theorems of C56 and C59.  Result: Refuted for every program: as soon as one deleted dataset had been written, h5ldump and h5lreplay fail on the whole file, which they list and replay when the deletion is left out (finding 114). Proved: deleted datasets that were never written change neither the listing nor the replay. Missing: replay by several processes, filters, subfiles, merging.
* **C88 Closing a file with subfiles, and the utilities on it** (partial). SubToolModel: H5Fclose on SubModel, then DumpModel and ReplayDataModel on the subfiles found by their paths; simulation of each group by a system with a file of its own, so that the theorems of C56 and C59 apply; the two classes of replaying processes by their parity.  Result: Proved for sessions in which every group writes or none does: H5Fclose returns, each subfile is the file its group would have written alone, h5ldump lists every write, and h5lreplay is right when each element is written by one process. Refuted for every other session: H5Fclose hangs (finding 115); and for elements written by two groups, where replay follows the order of the subfiles. Missing: sessions with reads, filters, merging.
* **C89 A utility that reports an error has changed no file** (partial). UtilModel: the main programs over a file system, the copying a parameter; case analysis over the input file.  Result: Proved: status 0 means that the input was a log file and all of it was copied or listed, and no other file is changed. Refuted for every wrong input: h5lreplay reports it, goes on, and truncates the output file (finding 117). The copying is a parameter (C59). Missing: failures in the middle of copying.

## Findings

Behaviour of the code that contradicts a property, found while modelling.  "C.." names the refutation
where there is one; the others are outside of the model and only recorded here.

1. Offset encoding: the count of a block that spans a whole inner dimension is encoded as an offset and
   decodes to another count; default configuration (C05, C01).
2. Record entries: the decoder multiplies the first `ndim-1` counts, so the reported data size is wrong (C06).
3. Metadata compression is never applied: the result of `H5VL_log_zip_compress` (a bool) is compared with 0 (C21).
4. Merging: the flag word is tested against a configuration bit, so coordinates are stored under the
   header of encoded offsets; starts and counts of several appends are interleaved; the deflate flag is set
   without compressing; with merging as the only setting the data block is indeterminate (C22).
5. Sharing compares selections only: dataset, element size and flags are ignored (C07).
6. Compact index: a full reference within one record loses the record (C07, C08).
7. References whose target belongs to a deleted dataset are dereferenced as null.
8. `operator>` of search results tests the same condition in both branches, so grouping of interleaving
   pieces misses some (C18).
9. Trimming of overlapping rows uses rows already trimmed, and copies the end of the earlier row also when the later one ends before it (C17, C79). Rows that overlap without nesting are served correctly (`C17_overlapping_rows_partial`); every nested one is not (`C17_nested_reads_refuted`).
10. Rank 0 datasets: `dsteps[-1]` is written when selection encoding is on (C42).
11. `sel_space` uses one stride for all dimensions: wrong for pieces with three or more (C38).
12. `foff2logidx` assumes log datasets in file order (C38).
13. Subfiling: reads of other subfiles are not performed, `open_subfile` uses the full path in the file name,
    the number of groups is read from the configuration word (C25), `& !` instead of `& ~`.
14. `H5VL_LOG_DATA_LAYOUT` is inverted, `post_open` overwrites the settings requested (C27).
15. Point selections are sorted and their buffer freed through a moved pointer (C16).
16. `merge_blocks` of an empty list returns one block.
17. Last-write-wins rests on log datasets being placed at increasing addresses (hypothesis `ok_flush`).
18. An independent read by one process of several drops queued requests (C37).
19. A limited metadata buffer cannot read a file to which nothing was written, whatever the limit and the configuration (C13).
20. A rejected `H5Dset_extent` changes the stored sizes; shrinking and growing exposes old data (C31).
21. `fp->bused` is never initialised (C29).
22. `MPI_Unpack` is given the element size as input size in one branch.
23. Aligned writes: recorded offsets are not those written, the stride drifts, chained offsets forget the
    base (C43).
24. Absolute names and multi-component names are not remapped (C26).
25. Open files are recognised by inode only, not by device (C45).
26. Filtered reads compress again instead of decompressing, pack into a one-byte buffer, overflow zbuf (C19).
27. Setters without effect; `sel_encoding` inserts 8 bytes from a 4-byte object; `single_subfile_read` is
    stored in one class of list and looked up in another (C28, C27).
28. The buffered property is inverted with respect to doc/api.md (C20).
29. Replay: 8-byte reads into 4-byte ints, sections taken several times or never (C40); unfilter copies in
    the wrong direction.
30. Deferred `H5Dread_n` keeps pointers to arrays of the caller and reads them at H5Fflush (C79).
31. `fp->dxplid` is independent for several processes, so reads do not flush (C37).
32. Reads rely on type map order for overlapping blocks (trusted base).
33. Processes with empty selections or without results skip collectives (C44).
34. Writes of no element stay pending (C23).
35. Compact index: record numbers are truncated to `int` (C09).
36. Big-endian hosts: 64-bit header fields and the reader's reversal (C41).
37. Blocks of 2^31 elements (C35).
38. Reads into an empty memory selection write to the buffer (C36).
39. Wrapping a file takes no reference (C30).
40. `parse_strip_info` uses the file handle before it is opened (C27).
41. `H5Fget_access_plist` reports other settings than those in use (C27).
42. `rank * ngroup` overflows `int` (C25).
43. `datatype_open_with_uo` leaks (dead code).
44. A failed `H5Dopen` on a file that is not log based leaks a reference (C30).
45. A failed write leaves its entry in the deduplication table (C46).
46. Pass-through reads of filtered data select the whole log dataset (C19).
47. A failed write leaks its internal buffer (C29 counts it).
48. Merging leaks the separate request and fills the deduplication table with requests never queued.
49. Errors of `H5Tconvert` are ignored in `H5Dwrite`.
50. Default settings: a multi-block record write is taken for an earlier non-record write with the same rank
    and number of blocks (or the reverse), because deduplication compares only the encoded bytes (C07).
51. Requests of asynchronous operations are made with the default constructor, so they carry the connector
    identifier -1 and can neither be waited on, cancelled nor freed (C47).
52. The request of `H5Dcreate` lists the underlying request of the dataset creation four times (C47).
53. The completion callback updates the common status without synchronisation: a failure can be lost (C47).
54. The text of the connector settings is written into a buffer that is three bytes short when the underlying
    connector is unknown; settings read from text, and H5Pset_vol_log, leak one reference to the underlying connector (C48, C49);
    so does every H5Fcreate, H5Fopen, H5Fdelete and H5Fis_accessible, which give the copy of the settings to `free` (`H5VL_log_file.cpp:186, 317, 428`).
55. A rejected `H5Dset_extent` changes the sizes reported by `H5Dget_space` but not those in the file (C50).
56. `H5Dread` with a memory selection and a memory type larger than the dataset's type: `MPI_Unpack` is told
    the size in the file type and fails (with MPI's default error handler the program aborts; otherwise the result is not looked at), the user's memory is not filled (C52).
57. Conversion of compound types: the background buffer is uninitialised in `H5Dwrite` (members not written
    are overwritten with malloc memory) and NULL in `H5Dread` (C51, C52).
58. Subfiling without single-subfile reads: the loop over the subfiles opens each one and reads nothing, so no
    read ever returns written data (C53).
59. `H5VL_log_filei_open_subfile` takes the numbers of log and metadata datasets from the main file, where they
    are 0: after a read the next flush tries to create a log dataset that exists, and after reopening no
    metadata is found (C53).
60. The barrier in the metadata flush is inside the branch of groups with entries: with subfiling a read after
    only some groups have written never returns (C53; proved for the first read of every such session).
61. Subfiles are created under the base name of the file and opened under the full name: a file named with a
    directory cannot be opened again (C54).
62. h5ldump: a two-block write as wide as the dataset aborts the utility; shared selections of datasets of different
    element sizes are listed with wrong data (C56; consequences of findings on encoding and sharing).
63. h5ldump skips datasets whose names start with a single underscore, and then decodes their log entries with a
    table slot that was never filled in (C56).
64. h5ldump prints the first n bytes of n strings of any length, reads beyond the block for 2-byte floats and prints
    half of 16-byte floats (C57).  One-byte integers and bytes of unknown types are printed as characters; `std::hex`
    stays in force for all later integers; big-endian types are printed in native order (read from the code).
65. `h5ldump -k` swaps "NetCDF classic" and "NetCDF 64-bit data", and prints an empty line for other versions (C58).
    For a file that is not a log file the utility prints an error and goes on (read from the code).
66. h5ldump aborts on filtered datasets whose stored data is larger than the unfiltered data (read from the code).
67. h5lreplay writes the entries in the order of the log (metadata dataset, process, program order), not in the
    order of the writes, and its processes write the same elements without synchronisation: elements written by
    several processes can get an old value (C59).
68. h5lreplay gives the new datasets the current extent as maximum; entries outside of it (written before a dataset
    was shrunk) make the utility fail (C59).
69. h5lreplay, read from the code: for filtered datasets `memcpy (buf, req.bufs[0], csize)` copies in the wrong
    direction, and the new dataset is given filters with a contiguous layout, so its creation fails; the names of
    objects that start with `_` are shortened before the source object is opened, so such datasets cannot be
    replayed; a write of 2 GiB or more gets a negative or truncated length; for a file that is not a log file the
    utility reports an error and goes on.
70. H5Fflush writes only the data: not the metadata that says where it belongs, not the counts in the attribute of the
    file, and it does not flush the underlying file.  Whatever was flushed since the file was last closed is lost
    in a crash (C62).
71. The number of datasets is stored only when the file is closed, and the table made from it when the file is opened is
    indexed without a check: after a crash a file in which a dataset was created since can no longer be opened, with
    everything in it; a new file that was never closed neither (C61).
72. Log datasets are numbered from the same attribute: after a crash the next flush creates a name that exists and
    fails, so nothing can be written to the file any more, and H5Fclose of a file with pending data fails (C64).
73. Nothing orders the attribute of the file after the metadata it counts (C63).
74. The metadata stored by an independent read while writes wait records all waiting writes at offset 0 of the file
    (C11), and forgets them, so that their data is never written (C37).
75. H5Lcreate_hard, H5Lcreate_soft and H5Lcopy do not change names that start with an underscore: a link made as
    `_x` cannot be found again, a link to `_x` cannot be made or dangles, and the connector's group can be linked
    to and opened (C66).
76. H5Lmove with H5L_SAME_LOC dereferences a null pointer (link.cpp:197, :213; C66).
77. H5Adelete_by_idx does not skip the connector's attributes: index 0 of any dataset in order of creation is its
    `_dims`; the call succeeds and the file can never be opened again (C67).
78. H5Acreate_by_name and H5Aopen_by_name do not change the name of the object, H5Arename and
    H5Aget_info_by_name not that of the attribute; H5Arename can rename the connector's attributes; H5Aget_name_by_idx
    returns the stored name; H5Aopen_by_idx skips the first attributes also in decreasing order and in the order
    of names (C67).
79. H5Gget_info of the root group counts the connector's group; H5Oget_info_by_name deducts the attributes of the
    object the name starts from, so a group without attributes named from the file has 2^64-1 of them; H5Oopen_by_idx
    opens the connector's group; H5Lget_name_by_idx and all other access by index fail (C68).
80. h5lreplay shortens the name before it opens the object in the input file: an object in the root group whose name
    starts with one underscore makes the whole replay fail (`_LOG` made by the user opens the connector's group)
    (h5lreplay_copy.cpp:47; C69).
81. h5lreplay looks only at the first character of the whole path: below the root group `_x` comes out as `__x`;
    objects and attributes whose names start with a dot are dropped, and for a dropped dataset the entry of the
    table of datasets used for copying the data stays unset (C69).
82. h5lreplay loses soft links and all but the first hard link to an object (C69).

83. A flush that fails after its log dataset was created does not count it: every later flush, collective read and
    H5Fclose tries to create the same name and fails; what is in the queue can no longer be stored (nb.cpp:738-841; C70).
84. A metadata dataset is counted as soon as it exists: if its content cannot be written it stays zero, an entry of size 0
    is an error for the reader, and no read of the file succeeds any more, also after closing and opening
    (filei_meta.cpp:189-194; C70).
85. H5Fclose decrements the reference count before anything can fail; calling it again after a failure makes the
    count -1, does nothing and returns success (filei.cpp:1081-1084; C70).
86. If the underlying library does not report the address of a new dataset, a warning is printed, the data (or the
    metadata) is dropped, and the call returns success; data then seems to be at offset 0 of the file, so reads return
    the first bytes of the file (nb.cpp:769-778, filei_meta.cpp:220-228; C71).
87. If an attribute of a new dataset cannot be written, the dataset stays in the file without it, and opening the
    file fails from then on (dataset.cpp:118-176; C72).
88. H5Dset_extent changes the sizes in memory before it writes the attribute and does not restore them; the strides used
    by the encoding stay those of the old sizes (dataset.cpp:525-544; C72).
89. In files not made by the connector H5Oget_info reports one attribute too few through the identifier of the file and
    three too few through that of a dataset (2^64-3 for none), and H5Aget_name_by_idx and H5Aget_info_by_idx skip as
    many attributes or fail: the connector's own attributes are deducted although there are none
    (obj.cpp:211-218, att.cpp:298-350; C73).
90. In such files H5Dcreate refuses variable-length strings (dataset.cpp:88-90), H5Fget_access_plist always fails
    because it asks a file that is not open (file.cpp:346), and H5Lmove with H5L_SAME_LOC dereferences NULL (link.cpp:197;
    C73).
91. A file with an attribute _int_att of the user's is taken for one of the connector's: it can no longer be opened, and an
    attribute with more than five elements is read over the end of an array (filei.cpp:122-128; C73).
92. The length of each buffer goes to an int (nb.cpp:666).  A write of 2 to 4 GiB is accepted and then every flush, close
    and collective read fails (with several processes the others wait in MPI_Allreduce); with H5VL_LOG_PASSTHRU the
    position in the copy is an int too (nb.cpp:820) and 2 GiB pending on one process are undefined (C74).
93. Of a write of 4 GiB or more only the size modulo 2^32 is stored, without an error; the data of later writes of the
    same flush go to other places than recorded (nb.cpp:664-670; C74).
94. A blocking H5Dread decides from the transfer property list of the file, not of the call, whether it flushes; that
    list is a copy of the default one, so with more than one process no read flushes (doc/usage.md: "Calling H5Dread
    automatically triggers a flush").  It does not see the pending writes, and if anything was flushed since the last
    read it writes out and deletes the entries of the pending writes too: their data is lost (dataseti.cpp:1124-1133,
    file.cpp:132, 281; C75, C37).
95. In a file opened with H5F_ACC_RDONLY H5Dwrite succeeds and H5Fclose drops the data with success (filei.cpp:739);
    after such a write H5Fflush fails, and with one process every H5Dread.  With H5F_ACC_SWMR_READ the flag is not 0
    and H5Fclose fails on its own attribute (C76).
96. The file is opened with MPI_MODE_RDWR whatever the flag is (filei.cpp:182), so a file without write permission
    cannot be opened even for reading.
97. H5Fclose never serves fp->rreqs (filei.cpp:710-825): a non-blocking read that no H5Fflush follows is forgotten,
    H5Fclose succeeds, the buffer keeps its former content (`C77_close_completes_refuted`).  doc/usage.md promises
    the data only when H5Fflush returns.
98. The callbacks of H5Ovisit and H5Lvisit look only at the first name of a path (obji.cpp:27-34, linki.cpp:22-29): below
    the first level `_d` is shown as `__d` (C78). The path shown does open the object, the path the user would write does not.
99. H5Ovisit passes the library's information on unchanged, while H5Oget_info subtracts the own attributes (obj.cpp:211-218):
    the number of attributes is three too large for every dataset, one for the root group (C78).
100. H5VL_log_register keeps the identifier in a static variable: after H5VLclose, which doc/api.md asks for, and the unload, it returns the closed identifier for ever; called twice it counts one reference, and the two H5VLclose calls unload the connector under a property list in use (C80). `H5VL_log.cpp:30-36`.
101. The connector finalises MPI at its first unload, if it initialised it, without asking MPI_Finalized: a program that finalised MPI itself gets a second MPI_Finalize, and a second load finds MPI_Initialized true and communicates after MPI_Finalize (C80). `H5VL_log_main.cpp:82-84`, `:155-159`.
102. When the second of the two registrations fails, the first one stays and the flag is false, so that every later load fails; MPI, if initialised by the failed load, is never finalised (C80). `H5VL_log_main.cpp:84-93`.
103. Before the connector is loaded, H5Dwrite_n and H5Dread_n on a dataset of another connector request operation 0, which the native VOL takes for a format conversion (C80). `H5VL_log.cpp:92,123`, `H5VL_log_dataset.cpp:41-42`.
104. H5VL_log_zip_compress takes the Z_DATA_ERROR of deflateEnd ("freed prematurely", possible whenever the output did not fit) for a failure: with metadata compression a write of a selection that does not compress may fail (zlib 1.2 does so when the space ends before the last block; else the function returns true with the output cut, which only the wrong test of finding 3 hides). `H5VL_logi_zip.cpp:42-51`.
105. With HDF5 1.13.3 or later the dataset callbacks are loops with CHECK_ERR outside any try block: every H5Dread and H5Dwrite that fails throws through the C library and ends the program (C81). `H5VL_log_dataset.cpp:381-420`, `H5VL_log_dataset.hpp:20-26`.
106. The destructor of objects may close the file, and that throws when it fails; destructors are noexcept: when an object is closed after the file, a failing flush, metadata flush or close ends the program (C81). `H5VL_log_obji.cpp:82-95`, `H5VL_log_filei.cpp:710-825`.
107. A file whose H5Fclose failed stays in the table of open files: H5Fopen and H5Fcreate of it are refused until the program ends (C81). `H5VL_log_filei.cpp:832`.
108. H5Dcreate refuses variable-length strings only: sequences of variable length (H5Tvlen_create) and compounds or arrays that contain them or such strings are accepted, contrary to doc/userguide.md, and the file stores the program's pointers (C82). `H5VL_log_dataset.cpp:88-90`.
109. H5Fdelete removes the main file only: the subfiles stay, and H5Fcreate with H5F_ACC_EXCL then makes the main file and fails at the first subfile (C83). `H5VL_log_file.cpp:413-442`, `H5VL_log_filei.cpp:249, 890-891`. H5F_ACC_TRUNC with fewer groups leaves the subfiles of the others.
110. H5Dcreate in a log file sets the layout of the creation property list *of the program* to contiguous, before anything can fail: the chunk sizes are lost, and the list is then refused for extendable or filtered datasets of ordinary files (C84). `H5VL_log_dataset.cpp:113`.
111. H5Dget_create_plist is passed on to the contiguous, empty dataset underneath: chunk sizes are never reported, filters not after reopening; and after reopening compressed data are returned as they lie in the file (C84, C19). `H5VL_log_dataset.cpp:112, 463-473`, `H5VL_log_dataseti.cpp:739-741`.
112. H5Dflush and H5Oflush are passed on to the empty dataset underneath: the writes queued for the dataset stay in memory, and with several processes a read after the flush does not see them (C85). `H5VL_log_dataset.cpp:556-560`, `H5VL_log_obj.cpp:291`.
113. With the default settings a write whose selection equals an earlier one refers to the entry of the earlier one, also across datasets. When the dataset of the earlier entry is deleted, opening the file again skips that entry and the reference is followed to nothing: undefined behaviour when the other dataset is read, and with the array index when any dataset is read (C86, compare 7). `H5VL_logi_idx_list.cpp:41-93`, `H5VL_logi_idx_compact.cpp:103-153`, `H5VL_logi_meta.cpp:26-83`.
114. The log entries of a deleted dataset stay in the file, and both utilities trip over them: h5ldump decodes them with a slot of zero dimensions and elements of size 0 and aborts because the data does not fit its buffer (or reads past it when the selection is encoded), h5lreplay calls H5Dwrite with identifier 0. One deleted dataset that had ever been written makes the whole file impossible to list or replay (C87). `utils/h5ldump/h5ldump_meta.cpp:199-235`, `utils/h5lreplay/h5lreplay_data.cpp:147-168`.
115. H5Fclose of a file with subfiles hangs when some group of processes has written and another has not: the MPI_Barrier over all processes that ends the metadata flush is inside the branch taken only by groups with entries to store. Proved for every such session (C88). `src/H5VL_log_filei_meta.cpp:133-290`.
116. h5lreplay goes through the subfiles in order, so an element written by two groups gets the value of the group with the higher number, or any of the two if there are several replaying processes, whatever the order of the writes and flushes was (C88). `utils/h5lreplay/h5lreplay.cpp:228-295`.
117. h5lreplay notices that its input is missing or not HDF5, prints the error and goes on; the result of opening the input is not tested either (`CHECK_ID (faplid)` instead of `finid`), and the output file, whatever it held, is truncated before the missing attribute stops the program (C89). `utils/h5lreplay/h5lreplay.cpp:67-86, 187-189`.
118. A file with subfiles cannot be appended to. Once a group has stored data and the file is read without single-subfile reads, or closed and opened again, the number of log datasets is taken from the main file, where it is 0, and the next flush with data creates a log dataset under a name that exists: H5Fflush, H5Dread and H5Fclose fail. Proved for all histories (C53). `src/H5VL_log_filei.cpp:905-941`, `src/H5VL_logi_nb.cpp:719-760`.
119. With single-subfile reads, a file with subfiles is read as if it were empty after it is closed and opened again: the number of metadata datasets comes from the main file, where it is 0, so no process looks at the metadata in its subfile. Every read before the next write returns fill values. Proved for all histories (C53). `src/H5VL_log_filei.cpp:762-767, 905-941`, `src/H5VL_log_filei_meta.cpp:326-416`.

## Testing the theorems

`seeded/LOG.jsonl` lists edits of the model made in a scratch copy.  For each edit the whole development
is rebuilt; every lemma whose proof fails is admitted in the scratch copy, and `Print Assumptions` then
tells which property theorems depend on a failed lemma ("theorems_failed") and which are still proved.
