# Formal model of flatdata-rs in Rocq (Coq 8.16.1)

## 1. Layout

All sources are in `rocq/theories/` (logical name `Verif`).

| file | content |
|------|---------|
| `Base.v` | outcomes (`Ret`/`Panic`/`UB`/`Crash`), machine arithmetic, byte slices |
| `Codec.v` | `helper.rs`, `bytereader.rs`, `bytewriter.rs` |
| `Structs.v` | `define_struct!`, `define_index!`, `structbuf.rs`, enum fields |
| `Views.v` | `arrayview.rs`, `vector.rs` (`Vector`) |
| `Storage.v` | `storage.rs`, `memstorage.rs`, `filestorage.rs` over a model of disk and memory with fault/crash injection |
| `Writers.v` | `ExternalVector`, `MultiVector`, `define_variadic_struct!`, `create_external_vector`, `create_multi_vector` |
| `MultiViews.v` | `multiarrayview.rs` |
| `Archives.v` | `define_archive!`: open, getters, builder |
| `Diff.v` | `compute_diff` and the descriptions of errors |
| `ErrorText.v` | `Debug` and `Display` of errors |
| `Paths.v` | path resolution, `create_dir_all` and the keys of memory storages, with `.` and `..` |
| `Text.v` | the `Debug` implementations of structs, views, writers and archives |
| `StorageText.v` | the `Debug` implementations of storages |
| `Conc.v` | calls as programs of system calls, several processes |
| `ConcFail.v` | several processes whose calls fail and which are killed |
| `Width.v`, `WidthWriters.v`, `WidthVectors.v`, `WidthMemory.v`, `WidthArchives.v`, `WidthBuilders.v`, `WidthRuns.v` | the readers, opening and building archives, streaming, external vectors and multivectors, views and vectors in memory on targets with any width of `usize` |
| `Enums.v` | structs with enum fields, `PartialEq` of variadic items |
| `*Spec.v` | small independent specifications the theorems refer to |
| `*Facts.v`, `*Use.v`, `*More.v`, `CodecNeg.v`, `BuilderCrash.v`, `BuilderProgress.v`, `MomentLogs.v`, `ConcFailBytes.v`, `ConcVec.v`, `CodecBounds.v`, `WidthAgree.v`, `WidthFit.v`, `WidthSafe.v`, `WidthRunBuild.v` | lemmas and proofs |
| `Props*.v` | the property theorems, concrete examples beside them, `Print Assumptions` |
| `Conformance.v`, `UnitTests.v` | the repository's unit tests (2238 table rows of the codec and all others with a runtime assertion) evaluated in the model for all builds and byte orders |
| `Karenina.v`, `Coappearances.v` | the archive description and the files of `tests/coappearances`; the integration tests evaluated in the model: the sample archive (not written by flatdata-rs) opens and shows the expected values, and copying it with the builder gives the same files byte for byte |

The last four files are tests of the model's fidelity, not proofs of properties.

## 2. How the code is modelled

* A byte is a `Z` in `[0,256)`; a buffer is a `list Z`.  A `&[u8]` is a
  `slice`: the bytes from its start to the end of the underlying allocation
  plus its length, so that raw-pointer reads behind the slice but inside the
  allocation are distinguished from reads outside the allocation (`UB`).
* A panic is the outcome `Panic`, an access outside the allocation is `UB`,
  a killed process is `Crash`.  `Result`/`Option` stay data.
* `usize`/`u64` arithmetic on caller-supplied values is written with its
  overflow behaviour: `Panic` in a `Debug` build, wrap-around mod 2^64 in a
  `Release` build.  A 64-bit target is assumed (other widths: C82, C91, C93-C98).
* The host byte order is a parameter.
* I/O is a state monad over a `world` containing the disk (files,
  directories), all memory storages, the mmap caches of file storages and a
  list of faults consumed by file-storage system calls (ok, error, partial
  write then error, partial write then process death).  Theorems quantify over
  all fault lists.
* The flush threshold (32 MiB) is a parameter of the writer functions and
  theorems quantify over it; the code's value is one instance (used in C80).

## 3. Plan per property

C01-C09 (codec): model `read_bytes!`/`write_bytes!` literally (copy to a local
u64, `from_le`, shift, ninth byte, mask, sign extension) and prove bit-level
characterisations (`Z.testbit`) against a spec that only mentions the bits of
the buffer.  C07, C08 are false in general: prove witnesses (`_refuted`) and
the true part (`_partial`).

C10-C12 (structs): layouts are data (`sdesc`); setters are modelled through
`write_bytes!` on the `SIZE`-byte window; refinement to a list of field values
by induction over the list of setter calls.

C13-C21 (vectors and views): refinement of `Vector` to a list of records by
induction over operations; `ArrayView` against `chunks`; iterators against a
deque.  C15, C18, C20 are refuted for the code as it is.

C22-C30, C48, C49 (storage): functional model of both storages; round-trip and
exact-decision theorems; C25, C27, C28, C48 are (partly) refuted.

C31-C36, C47 (external vector): invariant over all histories relating the
stream contents and the buffer with the list of elements; C34, C36 refuted
with exact characterisation of the outcome after a crash.

C37-C43 (multivector): the same with the index; C41, C42 refuted.

C44-C46, C50 (archives): archive definitions are data with nesting; `open` and
the builder are interpreters; C46 and C50 refuted/partial.

C51, C52 (one-bit signed and enum fields): corollaries of the codec
characterisation.  C53, C54, C56-C58, C60 (crashes, faults, rewriting, reading
during writing): case analysis of every system call with frame reasoning over
the cells (files, memory entries) a call may touch; all are refuted as intended,
with the exact guarantee proved beside it.  C55 (names): injectivity of paths.
C59: multi array views without index entries.

C45, C50 are proved by one simulation: a relation between the builder's state,
the world and the `plan` of what has been set, kept by every successful call,
with a separate analysis of the call that fails or is killed.

C61 (progress) and C64 (calls after failed calls) extend this simulation; C62
(release builds against debug builds) and C63 (reproducible files) are
relational: two executions of one program are compared step by step.  C65-C67, C87
(`Debug` texts) model the formatting as byte strings and prove that the texts
can be decoded.

C68-C70 (a reader beside a writer): an execution is a list of effects on files;
the disk at a moment is a prefix of it, the last effect maybe half done; the
content of each file over time is characterised first, and the steps of the
reader are evaluated at arbitrary increasing moments.  C72 does this for all
files of an archive under construction, with a second invariant of the builder
that records the timeline of every file.

C101 (texts of errors) does this with the escaping of strings.

C102 (paths) relates the disk of the model to a tree with POSIX path resolution.

C103 (doing it again) compares files and directories after failed attempts with those
of an attempt that worked at once.

C104 (going on) says which calls on a builder succeed when failures stop.

C105 (vectors again) is C103 for external vectors and multivectors.

C106 (texts of storages): the maps are functions in the model, so the text is a
relation; prove that it is a function after every program.

C107 (programs again): C103 and C105 for lists of resources; each step keeps what the
following ones need (free places, names the object has not read).

C108 (archives again): making a builder does nothing or writes the signature as a resource,
so C107 applies when the signature was removed.

C109 (existing archives): cases on the fate of the call that looks for the signature.

C71, C73-C77 (getters, texts of writers, racing creators, error texts, which
error is returned, power failures) are corollaries of the above with their own small models of what
remains.  C78, C79 (several writers): the calls as syntax trees of system calls,
an interleaving semantics, and an invariant over all reachable states.  C80 (memory
use): a closed form of the number of buffered elements, by induction over
histories.  C81 (spellings): two executions whose worlds differ only in the keys
of the map cache are related step by step.  C82 (width): the readers with the
width as a parameter, compared with the 64-bit ones.  C91: streaming with the
width as a parameter.  C83 (enums): the struct
functions again with the checks the enum types add, compared with the plain ones.
C88, C89 (failing processes): a simulation between a process whose files others
spare and the same process alone with its own list of failures; an invariant on
the bytes of shared files.
C84 (copying): the calls of the copying program are a history of the second
builder (C61) with the same plan (C63).

C85 (sizes beyond the address space): the size computations of `Views.v` are
evaluated exactly, with `wrap_or_panic` unfolded in both builds.

C86 (resource handles): `HandleSpec.v` runs any list of `write` and `close` on
one handle.  The session theorem is an induction with the invariant `writing` of
`HandleFacts.v`; calls on a closed handle need no invariant.

Every property has an executable model; none is planned as "not applicable".

## 4. Trusted base

* Coq's kernel (8.16.1), including its `vm_compute` evaluator (used for closed
  examples and witnesses).
* The fidelity of the model to the Rust source: every definition of the model
  files cites the lines it models.  The tests of section 1 (`Conformance.v`,
  `UnitTests.v`, `Coappearances.v`) are evidence for it, not proof.
* That the specification files say what the English properties say.

### 4.1 Axioms

`Print Assumptions` prints "Closed under the global context" for every property
theorem (list in section 5).  No axiom, parameter, functor, module type, plugin
or disabled check is used.  `coqchk` lists seven constants of a module type that
the standard library's `ssreflect` support declares and that are loaded by
standard library files; no theorem depends on them: `Coq.ssr.ssrunder.Under_rel`
with the fields `Under_rel`, `Under_rel_from_rel`, `Under_relE`, `Over_rel`,
`over_rel`, `over_rel_done`, `under_rel_done`.

### 4.2 Modelled

| source | modelled |
|--------|----------|
| `helper.rs` | `Int`, `masked!`, `num_bytes!`, `extend_sign!`, `intersperse!` |
| `bytereader.rs`, `bytewriter.rs` | both macros, all arms used by generated code |
| `archive.rs` | `define_struct!` (getters, setters, `PartialEq`, `Debug`, `fill_from`, enum fields), `define_index!`, `define_variadic_struct!` (tags, `create`, `create_mut`, add functions, `Debug`, `PartialEq`), `check_resource!`, `opt!`, `define_archive!` (`open`, getters, builder with all setters, `new`, sub-archives, `Debug`) |
| `structbuf.rs` | all |
| `arrayview.rs` | all |
| `vector.rs` | `Vector` and `ExternalVector` completely |
| `multiarrayview.rs` | all |
| `multivector.rs` | all |
| `storage.rs` | `read`, `write`, `read_and_check_schema`, `create_external_vector`, `create_multi_vector`, `create_archive`, `ResourceHandle` with `Drop` and `Debug`, `MemoryDescriptor`, stream helpers |
| `memstorage.rs`, `filestorage.rs` | all; the cache of mapped files and the cache of read memory resources are state |
| `error.rs` | the error cases and their fields, descriptions; the text of a schema diff for a given edit script (`Diff.v`), the texts of errors (`ErrorText.v`) |

### 4.3 Not modelled, or simplified

* Text: `Debug` of `memmap::Mmap` (an argument of the model), the `diff` crate (an edit
  script is an argument of the model of `compute_diff`), doc comments, the schema constants of structs (`SCHEMA`).  Formatting of integers,
  booleans, lists, pairs and options by the standard library is written down in
  `Text.v`; addresses are a parameter; the flags of `{:#?}` are not modelled (they
  only affect `MemoryDescriptor` and derived implementations).
* Lifetimes and borrowing: what the compiler excludes is not modelled, e.g. using
  a handle after the next `grow`.  `MemoryDescriptor` is the slice it was made
  from (the pointer does not go stale because the storage is kept alive).
* The dynamic checks of `RefCell` in the storages (no borrow outlives the block that uses it).
* `Clone` of `ResourceHandle` (two handles for one stream).  The type is not
  exported and nothing clones it.
* Allocation failure, except that more than `isize::MAX` bytes panic.
* A 64-bit target is assumed, except in C82 (`Width.v`: the readers that narrow a
  stored u64, for every width), C91 (`WidthWriters.v`: streaming), C93
  (`WidthVectors.v`: external vectors and multivectors), C94 (`WidthMemory.v`: views
  and the in-memory `Vector`), C95 (the writers when calls fail), C96 (`WidthArchives.v`: opening
  archives), C97 (`WidthBuilders.v`: closing writers, archive builders) and C98
  (`WidthRuns.v`: sequences of calls up to close).
* File system: paths are sequences of components; `.` and empty components vanish
  and `..` is an ordinary name.  C102 (`Paths.v`) proves that this is what the system
  does for names without `..` that end with a name (if a directory whose path ends
  with `.` exists, and a memory storage has a path or no name starts with `./`), and
  what it does for others.  Links, the working directory, permissions, case folding, and non-UTF-8
  names are not modelled.  Regular files and directories exist.  Every system call
  of file storage may fail, write a prefix and fail, or write a prefix and kill the
  process; for `create_dir_all` the prefix is one of the directories on the path.
  (Between several writers, C78, C79, C88, C89, directories are made in any parts.)  A write that returned
  success is on disk, except in C77: there every file keeps its own beginning of
  what was written to it (there is no `fsync` in the code).
* A mapping of a file that was truncated is undefined behaviour (in reality a
  signal for pages behind the end, stale or zero bytes before it).  I/O errors on
  page faults are not modelled.
* Other processes: in the form of arbitrary changes outside of the resource
  that is written (`EOther`/`MOther`, C33, C43), of new processes that read, and
  of a reader whose steps happen at any moments of a writer's execution
  (C68-C70).  There the disk is sequentially consistent: a reader sees the effect of
  all completed system calls and of the first bytes of a running write, and its
  mapping shows the content the file has at that time.  Several writers at once
  (C78, C79): `Conc.v` has the calls as programs of system calls, proved equal to the
  functions of `Storage.v` when run alone; processes move in any order, writes
  are done in any parts, an open file stays the same file when another process
  truncates it.  There, no call fails; in C88 and C89 (`ConcFail.v`) calls fail
  and processes are killed.  The calls include the life of an external vector and
  of a multivector (C92): filled, closed, and dropped at the first failure.  The
  read at the end of `close` is left out in all of these, and so is the read of the
  index in the middle of `MultiVector::close`.
* `MultiVector::drop` of a panicking thread is modelled as doing nothing.
* The flush limit is a parameter of the writers and theorems hold for every value;
  C80 is about the value in the code.
* Files are at most `isize::MAX` bytes long (hypothesis `disk_ok` of the crash
  theorems, size hypotheses of others).
* C45, C50: calls are made with values in range, each resource is set at most
  once (setting twice is C27, C54, C58), through one builder object per
  sub-archive.  C50 covers one failing or killed call after calls that worked, C64 calls
  after failed calls.

### 4.4 Disagreements found between intended properties and the code

Each is a `..._refuted` theorem; the note of the property in `MANIFEST.json`
gives the witness.

* C07, fields may be laid out at any bit offset: Intended property is false of the code: proved on exactly the layouts of layout_ok, refuted for every other layout (round trip fails, out-of-bounds read on a tight buffer) (`C07_any_offset_refuted`, `C07_read_out_of_bounds_refuted`)
* C08, setting an out-of-range value does not disturb neighbouring fields: Intended property is false for unsigned fields: exact effect of writing any value proved; a neighbour-changing write exhibited. True for signed fields (C04) (`C08_neighbour_refuted`)
* C100, reading and opening report failures as errors: The claim is false in debug builds (C100_open_refuted, C100_fresh_open_refuted, for every archive); the partial theorems show that there are no other exceptions. Files contain bytes and are not larger than isize::MAX (`C100_open_refuted`, `C100_fresh_open_refuted`)
* C101, texts of errors: Partial because the diff is not shown as lines (C101_diff_refuted). Texts are sequences of characters; C101_schemas is for schemas whose bytes are the characters (ASCII). The texts of io::Error and Utf8Error are arbitrary (`C101_diff_refuted`)
* C102, which file or entry a name stands for: Partial because the intended property is false for unusual paths (C102_dot_refuted, C102_slash_refuted, C102_below_refuted, C102_alias_refuted, C102_memory_refuted). The system calls are those of a tree without links in which nothing fails; for failing calls see the other properties. C102_exists, C102_read and C102_create justify the use of components as keys in the other properties (`C102_dot_refuted`, `C102_slash_refuted`, `C102_below_refuted`, `C102_alias_refuted`, `C102_memory_refuted`)
* C103, doing again what failed or was interrupted: Partial because the intended property is false for archives (C103_archive_refuted; C103_archive_partial says exactly when it holds). For writes to file storages it is proved in full (`C103_archive_refuted`)
* C104, builders go on after failures: Partial because the intended property is false for closing (C104_close_refuted) and for sub-archives whose signature was left behind (C64_sub_stuck). C104_call_partial says exactly which other calls succeed, C104_run_partial that everything works from states without open writers (`C104_close_refuted`)
* C109, creating an archive does not overwrite an archive that is there, even if system calls fail: Partial because the intended property is false for file storages (C109_file_refuted: an archive that opens is lost). C109_file_partial says exactly what happens for each fate of the first call, C109_lost that the archive is replaced if only this call fails; C109_memory is the full property for memory storages. C109_program: whole programs; C109_only: which files can change (`C109_file_refuted`)
* C15, the index check also holds in release builds: Intended property is false in release builds: index*SIZE wraps, at(2^62) of a 4-byte struct returns element 0. Proved for all indices whose product does not overflow (`C15_release_check_refuted`)
* C18, iterators honour the ExactSizeIterator contract: Intended property is false: size_hint of both iterators is the default (0, None). len() proved exact in every reachable iterator state (`C18_multi_size_hint_refuted`, `C18_av_size_hint_refuted`)
* C20, vector element access is memory safe: Intended property is false: at/at_mut only check the start of the element against the buffer including padding. Proved for existing elements (`C20_vector_at_refuted`)
* C25, a corrupt size header is reported as an error: Intended property is false in debug builds (size + 16 overflows and panics, for every such header). Proved for release builds and for all other headers (`C25_bad_header_refuted`)
* C27, rewriting a resource replaces it: Intended property is false for memory storage (appends; unreadable, or stale after a read). Proved for file storage (`C27_rewrite_refuted`, `C27_rewrite_stale_refuted`)
* C28, subdir gives access to the same storage below a directory: Intended property is false for memory storage (every subdir is a new empty storage). Proved for file storage (`C28_subdir_refuted`)
* C34, close reports I/O failures as errors: Intended property is false: dropping the still open handle panics whenever the flush or the finalisation in close fails (proved for every history), for multivectors also if the index cannot be read back. Without I/O failures close returns (`C34_close_refuted`, `C34_multi_vector_refuted`)
* C36, a crash before close completes never yields a readable external vector: Intended property is false: 8 bytes of data are taken for the padding (witness). Proved: at any crash point a reader gets an error, an empty resource or the complete data (`C36_crash_refuted`)
* C41, multiArrayView::slice panics on ranges out of bounds: Intended property is false: slice(i+1..i) gives a view without index entries (for every view and i), and Excluded(usize::MAX) wraps in release builds. Every other range out of bounds proved to panic (debug; release unless a product overflows); C41_release_exact gives the result of every range in release builds (`C41_slice_refuted`, `C41_excluded_max_refuted`)
* C42, multivectors are correct for any amount of data: Intended property is false: offsets are truncated to the index type, in both builds (witness: 8-bit index, 260 bytes). Proved for data below 2^bits (`C42_width_refuted`)
* C44, open succeeds exactly when all required parts check out: Proved for release builds, and for debug builds when no size header overflows; refuted for debug builds: an optional resource with a size header above 2^64-17 makes open panic. Mapped files must not have been truncated (`C44_open_refuted`)
* C45, an archive written with its builder reads back: Proved for every archive description as generated, any calls in any order with arbitrary interleaving of open writers and sub-builders, both storages, all builds and byte orders, same storage and new process, provided the calls returned Ok. Refuted for sub-archives in memory storage, which are never found (`C45_memory_refuted`)
* C46, struct resource getters, and setters given their handles, are memory safe: Intended property is false of the code: no size check; a short struct resource gives a handle whose getter, and the setter it is passed to, read out of bounds. Proved for resources at least as long as the struct (`C46_struct_getter_refuted`, `C46_struct_setter_refuted`)
* C48, slash-separated keys address nested resources: Intended property is false for file storage when the directory is missing (NotFound). Proved for memory storage and for existing directories (`C48_nested_refuted`)
* C50, a partially written archive cannot be opened: Intended property is false: a vector that was not closed is shown as empty (C50_vector_refuted), and a torn multivector panics on access (C50_torn_refuted). Proved at every crash or failure point after any successful calls, file storage: open never panics; if it succeeds, everything required has been started, completed data is shown exactly, the interrupted call shows its data or nothing, and an archive that was complete still opens. Calls after a failed call are C64 (`C50_vector_refuted`, `C50_torn_refuted`)
* C51, one-bit signed fields round trip: Intended property is false: -1 reads back as 1 in a one-bit signed field (all offsets, buffers). 0 and all wider fields proved (`C51_one_bit_signed_refuted`)
* C52, enum getters only produce declared enumerators: Intended property is false on untrusted bytes (transmute of an undeclared discriminant). Exact characterisation and set-then-get proved (`C52_enum_from_bytes_refuted`)
* C53, a resource is only readable with the schema it was written with: Intended property is false (crash between data and schema). Proved: without an older schema only a prefix of the new schema reads the new data (`C53_schema_of_data_refuted`)
* C54, rewriting a resource that was already read is safe: Intended property is false: rewriting with shorter data makes every later read through that storage touch unmapped memory (C54_rewrite_mapped_refuted). C54_rewrite_partial gives the exact result of reading again in all cases (`C54_rewrite_mapped_refuted`)
* C55, different resource names never share stored data: Intended property is false: multivector x and resource x_index, resource x and x.schema (witnesses in both storages). Proved for names without dot, none the index of the other (`C55_names_refuted`)
* C56, create_archive never overwrites an archive: Intended property is false: a failing stat counts as absent (C56_failing_stat_refuted). C56_kept_partial: this is the only way; in memory, and if the first system call works, the archive is kept (`C56_failing_stat_refuted`)
* C57, reading an unfinished resource does not disturb its writer: Intended property is false in both storages (witnesses). Reads of other resources, and reads through another file storage object, proved harmless (`C57_peek_refuted`)
* C58, recreating a resource never exposes old data under the new schema: Intended property is false (witness). Proved: anything readable after a crash in create is the complete old data (`C58_recreate_refuted`)
* C59, a multi array view without index entries is empty: Intended property is false: no index entry gives a panic, or length usize::MAX in release builds. An index with one entry is empty as intended (C59_one_entry_partial) (`C59_empty_index_refuted`)
* C60, a crash never leaves a damaged multivector that can be opened: Intended property is false (witness: 8 bytes of data; the bucket access panics). Proved: each part is unreadable, empty or complete at every crash point (`C60_crash_refuted`)
* C67, texts of archives: Intended property is false: a multivector of an interrupted writer panics (C67_torn_refuted), a struct resource that is too short is read out of bounds (C67_short_refuted, cf. C46), and raw data is shown only as address and size (C67_raw_refuted). Proved: there is a text if structs are long enough, multivectors are intact and no enumerators are undeclared (C67_archive_text_partial); in particular for every archive written by a builder and opened again, if there are no enums (C67_built_text); for arbitrary contents there is a text or a panic if structs are long enough (C67_opened_text_partial). Each text has a stray comma after the opening brace (C67_example) (`C67_torn_refuted`, `C67_short_refuted`, `C67_raw_refuted`)
* C69, reading while a vector is written: Intended property is false: a reader can see the size field half written and get a proper part of the data (C69_torn_refuted), a half written schema can be the expected one (C69_schema_refuted), and if an older version is replaced the reader loses the memory it mapped (C69_overwrite_refuted). Proved when there is no older version: the reader gets an error or a beginning of the final data; everything or nothing unless it looks in the middle of a write; what it got does not change; the expected schema is a beginning of the schema (C69_external_vector_partial, C69_multi_vector_partial) (`C69_torn_refuted`, `C69_schema_refuted`, `C69_overwrite_refuted`)
* C70, opening a multivector while it is written: Intended property is false: an index that was mapped when it had 8 bytes is taken for empty (C70_empty_index_refuted), and 8 bytes of data are taken for padding while the index is already complete (C70_eight_refuted). Proved, if there is no older version: opening returns; if it succeeds, the index is empty, or the data are shown as empty and the final data have at most 8 bytes, or the data are complete and the index is a beginning of the final index, all of it if the size of the index was not read in the middle of a write; complete parts show the buckets (`C70_empty_index_refuted`, `C70_eight_refuted`)
* C72, opening an archive while it is being built: Intended property (what is opened is the finished archive, or at least what an open sees at one time) is false: C72_final_refuted, C72_snapshot_refuted. C72_open_during_partial says what can be opened instead. The writer meets no I/O failure, and the file system shows effects in program order (C68). C72_still ties the stepwise reader to the one of C44 (`C72_final_refuted`, `C72_snapshot_refuted`)
* C74, only one process creates an archive: C74_refused_partial: the call after which a second creation is refused. C74_both_refuted: for every archive and history a second process that checked too early succeeds as well, and what follows from it (proved for all moments and schemas). Two processes, the second writes after the first is done; for interleaved writes see C78 and C79 (`C74_both_refuted`)
* C76, which error opening an archive returns: Intended property is false in two points: C76_missing_schema_refuted (all cases of a missing schema) and C76_which_refuted. C76_first_error is exact (in debug builds for size headers that do not overflow, cf. C25); C76_names_partial holds for all storages and failures (`C76_missing_schema_refuted`, `C76_which_refuted`)
* C77, what is left after a power failure: Power failure: each file independently keeps a beginning of the sequence of writes to it (the last one maybe in part); directories are arbitrary. Intended property is false in three points: C77_durable_refuted, C77_order_refuted, C77_holes_refuted (the last for file systems that also lose single bytes of a file). The *_partial theorems state what remains, for all inputs. The writer has no I/O failures before; no older version of the resource (`C77_durable_refuted`, `C77_order_refuted`, `C77_holes_refuted`)
* C79, processes that write different contents to the same files: Intended property is false: C79_mixed_refuted (a reader gets data that neither process wrote), C79_exclusive_refuted (two creators). C79_bytes_partial is the exact statement about every byte that remains, for all contents and interleavings (`C79_mixed_refuted`, `C79_exclusive_refuted`)
* C82, the width of usize: Partial because the intended independence of the width is false (C82_refuted); C82_accepts and C82_bucket are exact for every width. Here only the readers that narrow a stored number are modelled for a general width; views and vectors are in C94 (`C82_refuted`)
* C83, structs with enum fields; equality of items: Partial because the unconditional claim is false (C83_eq_refuted, C83_fill_refuted, C83_wrong_sign_refuted). C83_read, C83_eq_exact and C83_wrong_sign are exact; undeclared discriminants need bytes from elsewhere, a wrong impl Int is a mistake of the program which nothing checks (`C83_wrong_sign_refuted`, `C83_eq_refuted`, `C83_fill_refuted`)
* C84, copying an archive through its builder: Partial because the unconditional claim is false (C84_whole_refuted, C84_copyable_refuted); C84_copy_partial has exactly these two conditions. The copying program is a definition of CopySpec.v, following the test; C84_fill_sets shows that its setter calls are those of fill_from (`C84_whole_refuted`, `C84_copyable_refuted`)
* C85, vectors too large for the address space: Partial because the claim is false for with_len and reserve in release builds (C85_with_len_refuted); C85_with_len_release and C85_reserve state the exact result there. Running out of memory below isize::MAX is not modelled (`C85_with_len_refuted`)
* C86, answers of a resource handle: Repeating a failed close is refuted (C86_retry_refuted). ResourceHandle is not exported and close of ExternalVector and MultiVector consumes the vector, so programs using the library cannot repeat it; the rest is proved for all sequences of calls (`C86_retry_refuted`)
* C89, failing processes with the same files: Intended property is false: C89_shared_refuted (one process has written a resource, the death of another one that writes the same makes it unreadable). C89_bytes_partial and C89_agree_partial say what can be in the files at any time, with all failures and deaths (`C89_shared_refuted`)
* C91, streaming on targets with a narrow usize: Partial because the intended property (what was streamed with success can be read) is false from 2^W bytes on (C91_read_refuted, for every width from 8 to 62); C91_stream is exact for every width. Failures are combined with other widths in C95. The model stops before the read at the end of close; with it, close reports the wrapped sizes (C98) (`C91_read_refuted`)
* C93, external vectors and multivectors on targets with a narrow usize: Partial because the intended property (what was written with success can be read) is false from 2^W bytes on (C93_vector_read_refuted, C93_multi_read_refuted); C93_vector and C93_multi are exact for every width. Failures are combined with other widths in C95. The flush limit plus one element or the items of one bucket fit isize::MAX; offsets fit the index type. The model stops before the read at the end of close; with it, close reports the wrapped sizes (C98) (`C93_vector_read_refuted`, `C93_multi_read_refuted`)
* C94, views and vectors in memory on targets with a narrow usize: Partial because the intended property (panics do not depend on the width) is false in release builds if the size of the struct divides 2^W (C94_release_refuted). The rest is exact. bits <= W for multi-arrays; stored offsets that do not fit usize are in C82 (`C94_release_refuted`)
* C99, starting and writing resources reports failures as errors: The claim is false for create_multi_vector: C99_multi_exact gives its exact result and the _refuted theorems give general conditions for the panic. The struct setter needs a struct of the right size (C46) (`C99_multi_refuted`, `C99_directory_refuted`)

## 5. Output of Print Assumptions

"Closed under the global context" for each of these 394 theorems:

* `PropsAgain.v`: C105_vector, C105_multi, C105_vector_blocked, C105_multi_blocked
* `PropsArchive.v`: C44_open_partial, C44_open_sound, C44_open_unique, C44_fresh_open_partial, C44_open_refuted, C46_struct_getter_partial, C46_struct_getter_refuted, C46_struct_setter_partial, C46_struct_setter_refuted, C71_getters
* `PropsBounds.v`: C90_write, C90_read, C90_unchecked
* `PropsBuffer.v`: C80_vector, C80_vector_any_limit, C80_multi
* `PropsBuilder.v`: C45_build_open_partial, C45_memory_refuted, C50_stop_partial, C50_new_partial, C50_vector_refuted, C50_torn_refuted, C71_built
* `PropsCodec.v`: C01_read_unsigned, C01_read_bool, C01_field_unsigned_digits, C02_read_signed, C02_read_signed_one_bit, C03_write_read, C04_write_frame, C05_read_host, C05_write_host, C06_read_local, C06_write_local, C07_any_offset_partial, C07_any_offset_refuted, C07_read_out_of_bounds_refuted, C08_write_any_value_partial, C08_neighbour_refuted, C09_read_truncates
* `PropsConc.v`: C78_alone, C78_close, C78_ends, C78_goes_on, C78_agree, C78_create, C79_bytes_partial, C79_mixed_refuted, C79_exclusive_refuted
* `PropsConcFail.v`: C88_beside, C88_processes, C88_failures, C88_no_failures, C88_ends, C89_bytes_partial, C89_agree_partial, C89_tree, C89_shared_refuted
* `PropsConcVec.v`: C92_close, C92_calls, C92_errors, C92_agree, C92_beside_vector, C92_beside_multi
* `PropsCopy.v`: C84_fill_sets, C84_copy_partial, C84_whole_refuted, C84_copyable_refuted
* `PropsCounts.v`: C73_external_vector, C73_multi_vector, C73_text_eq
* `PropsDuring.v`: C72_still, C72_open_during_partial, C72_final_refuted, C72_snapshot_refuted
* `PropsEnums.v`: C83_read, C83_set_partial, C83_wrong_sign, C83_wrong_sign_refuted, C83_eq_declared, C83_eq_exact, C83_eq_refuted, C83_fill_partial, C83_fill_refuted, C83_items
* `PropsErrorText.v`: C101_unambiguous, C101_one_line, C101_diff_refuted, C101_schemas, C101_name
* `PropsErrors.v`: C75_diff, C75_description, C76_first_error, C76_names_partial, C76_missing_schema_refuted, C76_which_refuted
* `PropsExtVec.v`: C31_session_exact, C31_all_succeed, C32_same_as_vector, C33_failures_sound, C34_close_partial, C34_close_refuted, C36_create_partial, C36_run_partial, C36_close_partial, C36_crash_refuted, C47_external_vector, C49_external_vector, C26_external_vector, C57_peek_refuted, C57_peek_partial, C58_recreate_partial, C58_recreate_refuted
* `PropsHandle.v`: C86_session, C86_closed, C86_drop, C86_close_states, C86_retry_refuted
* `PropsLimit.v`: C85_with_len_debug_partial, C85_with_len_release, C85_with_len_refuted, C85_grow, C85_reserve
* `PropsLook.v`: C87_text_eq, C87_opened_complete
* `PropsMoments.v`: C68_still, C68_write, C69_external_vector_partial, C69_multi_vector_partial, C69_torn_refuted, C69_schema_refuted, C69_overwrite_refuted, C70_multi_vector_partial, C70_empty_index_refuted, C70_eight_refuted
* `PropsMultiVec.v`: C37_session_exact, C37_all_succeed, C38_index_partition, C42_width_partial, C42_width_refuted, C43_failures_sound, C34_multi_vector_partial, C34_multi_vector_refuted, C47_multi_vector, C49_multi_vector, C26_multi_vector, C55_names_partial, C55_names_refuted, C60_create_partial, C60_run_partial, C60_close_partial, C60_crash_refuted
* `PropsMultiViews.v`: C39_at_exact, C39_slice_exact, C39_iterator_exact, C39_buckets_at, C39_buckets_slice, C39_buckets_iterator, C18_multi_len_exact_partial, C18_multi_size_hint_refuted, C21_multi_debug, C40_buckets_inside, C40_items_inside, C40_collect_inside, C40_unknown_tag_panics, C40_truncated_item_panics, C41_slice_refuted, C41_excluded_max_refuted, C41_debug_panics_partial, C41_release_panics_partial, C41_release_exact, C59_empty_index_refuted, C59_one_entry_partial
* `PropsNarrow.v`: C91_same, C91_stream, C91_read_partial, C91_read_refuted
* `PropsNarrowArch.v`: C96_same, C96_portable, C96_open, C96_unique, C96_sound, C96_wider
* `PropsNarrowBuild.v`: C97_same, C97_debug, C97_debug_open, C97_release, C97_release_open, C97_build_succeeds, C97_round_trip
* `PropsNarrowClose.v`: C98_vector, C98_multi, C98_stream, C98_builder, C98_closed
* `PropsNarrowFail.v`: C95_debug, C95_release, C95_stream, C95_vector, C95_multi
* `PropsNarrowMem.v`: C94_same, C94_views, C94_multi_views, C94_vectors, C94_with_len, C94_grow, C94_read_vectors, C94_safe, C94_multi_safe, C94_release_refuted
* `PropsNarrowVec.v`: C93_same, C93_vector, C93_multi, C93_vector_read_partial, C93_multi_read_partial, C93_vector_read_refuted, C93_multi_read_refuted
* `PropsOpen.v`: C100_read_partial, C100_open_partial, C100_fresh_open_partial, C100_open_refuted, C100_fresh_open_refuted
* `PropsOverwrite.v`: C109_memory, C109_file_partial, C109_lost, C109_program, C109_only, C109_file_refuted
* `PropsPaths.v`: C102_exists, C102_read, C102_create, C102_interrupted, C102_dot_refuted, C102_slash_refuted, C102_below, C102_below_refuted, C102_alias_refuted, C102_memory, C102_memory_refuted
* `PropsPower.v`: C77_write, C77_external_vector_partial, C77_multi_vector_partial, C77_archive_partial, C77_durable_refuted, C77_order_refuted, C77_holes_refuted
* `PropsProfile.v`: C62_fields, C62_views, C62_multi_views, C62_storage, C62_writers, C62_archives, C62_carries_over
* `PropsProgress.v`: C61_build_succeeds, C61_round_trip
* `PropsRace.v`: C74_still, C74_refused_partial, C74_both_refuted
* `PropsRebuild.v`: C108_again, C108_success, C108_present, C108_safe
* `PropsRecover.v`: C104_call_partial, C104_run_partial, C104_close_refuted
* `PropsRedo.v`: C103_write, C103_blocked, C103_archive_partial, C103_archive_refuted
* `PropsRepro.v`: C63_same_files, C63_same_bytes
* `PropsRerun.v`: C107_program, C107_success, C107_others, C107_safe, C107_blocked, C107_read, C107_read_sound
* `PropsRetry.v`: C64_last_success_wins, C64_sub_stuck
* `PropsRewrite.v`: C54_rewrite_partial, C56_kept_partial
* `PropsSpell.v`: C81_spellings, C81_write, C81_read, C81_round_trip, C81_open
* `PropsStart.v`: C99_storage_partial, C99_builder_partial, C99_memory, C99_multi_exact, C99_multi_refuted, C99_directory_refuted
* `PropsStorage.v`: C22_write_read, C22_write_succeeds, C23_read_decides, C23_ok_iff, C23_utf8_exact, C23_utf8_error, C23_missing, C23_ok_sound, C24_truncated, C24_extended, C25_bad_header_refuted, C25_bad_header_partial, C26_write_isolated, C26_identifiers, C27_rewrite_partial, C27_rewrite_refuted, C27_rewrite_stale_refuted, C28_subdir_partial, C28_subdir_refuted, C29_memory_stable, C29_file_stable, C30_create_twice, C30_create_new, C56_failing_stat_refuted, C35_crash_in_write, C48_nested_memory_partial, C48_nested_file_partial, C48_nested_refuted, C49_write_format, C49_signature_format, C53_schema_of_data_refuted, C53_schema_of_data_partial, C54_rewrite_mapped_refuted
* `PropsStorageText.v`: C106_one, C106_memory, C106_fewer, C106_tells, C106_file_read, C106_file_write
* `PropsStructs.v`: C10_fields_independent, C10_getters_total, C10_index, C11_fill_from, C11_eq_exact, C12_structbuf, C12_new_is_zero, C51_one_bit_signed_refuted, C51_one_bit_signed_partial, C52_enum_from_bytes_refuted, C52_enum_set_get_partial, C52_enum_exact_partial
* `PropsText.v`: C65_struct_text, C65_text_eq, C66_view_text, C66_view_text_eq, C66_vector_text, C66_vector_text_eq, C66_multi_text, C66_multi_text_eq, C66_bucket_text_eq, C67_archive_text_partial, C67_built_text, C67_opened_text_partial, C67_torn_refuted, C67_short_refuted, C67_raw_refuted
* `PropsViews.v`: C13_vector_is_a_list, C13_sizes, C14_at_exact, C14_at_panics, C15_release_check_refuted, C15_release_check_partial, C15_release_exact, C16_slice_selects, C16_slice_panics, C16_slice_panics_release, C16_slice_release_exact, C16_slices_compose, C16_slices_compose_exact, C17_iteration, C18_av_len_partial, C18_av_size_hint_refuted, C19_views_stay_inside, C19_handles_are_readable, C20_vector_at_partial, C20_vector_at_exact, C20_vector_handle_exact, C20_vector_at_refuted, C21_debug_preview
* `PropsWidth.v`: C82_same, C82_accepts, C82_keeps, C82_portable_partial, C82_bucket, C82_buckets_keep, C82_bucket_portable_partial, C82_refuted
