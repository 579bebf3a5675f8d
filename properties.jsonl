{"id": "C01", "title": "Reading an unsigned or bool field yields exactly its bits, little-endian", "statement": "read_bytes! of an unsigned integer type (or bool) returns the number whose binary digits are the num_bits bits of the buffer starting at bit `offset`, counting bits from the least significant bit of byte 0 upwards, and never touches memory outside the buffer; this holds whenever the field lies inside the buffer and either starts in the first byte or fits in eight consecutive bytes.", "quantifier": "every buffer content and length, every offset, every width 1..64 not larger than the type, every unsigned type and bool, both byte orders of the host, checked and unchecked builds", "why_tests_cant": "There are 2^(8*len) buffers for each of infinitely many offsets; tests sample single-bit patterns only.", "anchors": ["src/bytereader.rs: read_bytes!", "src/helper.rs: masked!, num_bytes!, extend_sign!"]}
{"id": "C02", "title": "Reading a signed field sign-extends it", "statement": "read_bytes! of a signed integer type with at least two bits returns the two's-complement value of the field's bits; a one-bit signed field reads as 0 or 1.", "quantifier": "every buffer, offset, width 1..width(T), every signed type, under the same layout condition as C01", "why_tests_cant": "The sign extension shifts by a width-dependent amount; every (type,width,offset,content) combination must agree.", "anchors": ["src/bytereader.rs: read_bytes!", "src/helper.rs: masked!, num_bytes!, extend_sign!"]}
{"id": "C03", "title": "Writing then reading a field returns the value written", "statement": "After write_bytes! of a value that is representable in num_bits bits, read_bytes! with the same type, offset and width returns that value (signed fields need at least two bits).", "quantifier": "every value in range, every previous buffer content, every offset/width/type with the layout condition of C01", "why_tests_cant": "A round trip over all 64-bit values, offsets and neighbouring contents cannot be enumerated.", "anchors": ["src/bytereader.rs: read_bytes!", "src/bytewriter.rs: write_bytes!", "src/helper.rs: masked!, num_bytes!, extend_sign!"]}
{"id": "C04", "title": "Writing a field changes only that field's bits", "statement": "write_bytes! of a value representable in num_bits bits (any value at all for signed types) makes the field's bits equal to the low num_bits bits of the value and leaves every other bit of the buffer, and its length, unchanged.", "quantifier": "every value, buffer, offset, width, type with the layout condition of C01", "why_tests_cant": "Non-interference quantifies over all neighbouring contents.", "anchors": ["src/bytewriter.rs: write_bytes!", "src/helper.rs: masked!, num_bytes!, extend_sign!"]}
{"id": "C05", "title": "Encoding and decoding do not depend on the byte order of the host", "statement": "read_bytes! and write_bytes! give the same result, including panics and out-of-bounds accesses, on little-endian and big-endian hosts.", "quantifier": "all inputs, with no layout condition", "why_tests_cant": "Tests run on one architecture.", "anchors": ["src/bytereader.rs: read_bytes!", "src/bytewriter.rs: write_bytes!"]}
{"id": "C06", "title": "Field access stays inside the field's own bytes", "statement": "Under the layout condition of C01, reading a field returns the same value for any two buffers that agree on the field's bits, and writing any value (even out of range) changes no byte except those that contain bits of the field.", "quantifier": "all buffers, values, offsets, widths and types under the layout condition", "why_tests_cant": "Concerns absence of effects over all memory contents.", "anchors": ["src/bytereader.rs: read_bytes!", "src/bytewriter.rs: write_bytes!"]}
{"id": "C07", "title": "Fields may be laid out at any bit offset", "statement": "Intended: C03 holds for every field inside the buffer, also for a field of 58..64 bits that straddles nine bytes and does not start in the first byte.", "quantifier": "every offset and width", "why_tests_cant": "The failing layouts are a sparse corner (width>=58 and unaligned and byte offset >= 1) that the test tables never reach.", "anchors": ["src/bytereader.rs: read_bytes!", "src/bytewriter.rs: write_bytes!"]}
{"id": "C08", "title": "Setting an out-of-range value does not disturb neighbouring fields", "statement": "Intended: calling a setter with any value of its argument type changes no bit outside the field.", "quantifier": "every value of the argument type, every layout", "why_tests_cant": "Needs all out-of-range values against all neighbouring contents.", "anchors": ["src/bytewriter.rs: write_bytes!", "src/archive.rs: define_struct!"]}
{"id": "C09", "title": "A wide value is truncated to the type on read", "statement": "Reading an unsigned field that is wider than the requested type returns the field's value modulo 2^width(type).", "quantifier": "every buffer, offset, width up to 64, unsigned type", "why_tests_cant": "All contents and widths.", "anchors": ["src/bytereader.rs: read_bytes!", "src/helper.rs: masked!, num_bytes!, extend_sign!"]}
{"id": "C10", "title": "Struct fields behave like independent variables", "statement": "For a struct whose fields lie inside its size, do not overlap and meet the layout condition, any sequence of setter calls with in-range values followed by a getter returns the last value set for that field, or the value it had before if it was not set; bytes outside the struct never change.", "quantifier": "every struct layout, every initial content, every sequence of setter calls of any length, every position of the struct in a buffer", "why_tests_cant": "Histories of unbounded length over unboundedly many layouts.", "anchors": ["src/archive.rs: define_struct!", "src/structbuf.rs: StructBuf::get_mut"]}
{"id": "C11", "title": "fill_from makes the target equal to the source", "statement": "After target.fill_from(&source) every field of target equals that of source, so target == source; == holds exactly when all declared fields are equal, and bytes outside the target struct are untouched.", "quantifier": "every well-formed layout, every pair of contents", "why_tests_cant": "Quantifies over all contents, including garbage in unused bits.", "anchors": ["src/archive.rs: define_struct!"]}
{"id": "C12", "title": "A new StructBuf is all zero and serialises to exactly its size", "statement": "StructBuf::new() has all fields zero; after any setters as_bytes() has length SIZE_IN_BYTES, contains the fields' encoding, and the padding behind it stays zero.", "quantifier": "every layout, every sequence of setters", "why_tests_cant": "Sequences and layouts are unbounded.", "anchors": ["src/structbuf.rs: StructBuf"]}
{"id": "C13", "title": "Vector behaves like a list of records", "statement": "Any sequence of with_len, grow, at_mut(i).set_f(v) with i < len and in-range v behaves like a list of records: len() is the number of elements, grow appends an all-zero record, a set changes that field of that element only, and at(i) and as_view().at(i) return the current record.", "quantifier": "every layout, every operation sequence of any length", "why_tests_cant": "Unbounded histories; padding bytes are recycled as element bytes on growth, which only an invariant can show to be clean.", "anchors": ["src/vector.rs: Vector", "src/arrayview.rs: ArrayView"]}
{"id": "C14", "title": "ArrayView::at returns the element at the index and panics outside", "statement": "In a build with overflow checks, view.at(i) returns a handle to bytes [i*SIZE,(i+1)*SIZE) of the view when i < len() and panics for every other index.", "quantifier": "every view over every byte slice, every usize index", "why_tests_cant": "2^64 indices; boundary effects at multiples of the size.", "anchors": ["src/arrayview.rs: ArrayView"]}
{"id": "C15", "title": "The index check also holds in release builds", "statement": "Intended: view.at(i) panics for every i >= len() in every build.", "quantifier": "every index, both builds", "why_tests_cant": "Only astronomically large indices wrap around to a valid offset.", "anchors": ["src/arrayview.rs: ArrayView"]}
{"id": "C16", "title": "Slicing an ArrayView selects the elements of the range", "statement": "In a build with overflow checks, slice(range) yields exactly the elements with index in the range, for every form of range bound, and panics if the range is out of bounds or decreasing; slices compose.", "quantifier": "every view whose byte length is a multiple of the size, every pair of start and end bounds", "why_tests_cant": "All combinations of bound kinds and values.", "anchors": ["src/arrayview.rs: ArrayView"]}
{"id": "C17", "title": "Iterating a view from either end visits every element once", "statement": "Any interleaving of next() and next_back() on an iterator returns what popping from the front and back of the list of elements returns; after exhaustion both return None for ever, and len() is the number of elements left.", "quantifier": "every view, every finite sequence of next/next_back/len calls", "why_tests_cant": "Exponentially many interleavings, unbounded length.", "anchors": ["src/arrayview.rs: ArrayViewIter"]}
{"id": "C18", "title": "Iterators honour the ExactSizeIterator contract", "statement": "Intended: len() and size_hint() of ArrayView and MultiArrayView iterators both report the exact number of remaining elements.", "quantifier": "every iterator state", "why_tests_cant": "size_hint is never called by the tests.", "anchors": ["src/arrayview.rs: ArrayViewIter", "src/multiarrayview.rs: MultiArrayViewIter"]}
{"id": "C19", "title": "Views over arbitrary bytes never hand out out-of-bounds elements", "statement": "Whatever bytes a view is created over and whatever indices, ranges and iterator steps are used, in every build, each call either panics or returns a handle (or view) lying entirely inside the original slice.", "quantifier": "every byte slice, every call sequence, both builds", "why_tests_cant": "Memory safety for adversarial input and wrapping index arithmetic.", "anchors": ["src/arrayview.rs: ArrayView", "src/arrayview.rs: ArrayViewIter"]}
{"id": "C20", "title": "Vector element access is memory safe", "statement": "Intended: Vector::at(i) and at_mut(i) never give access outside the vector's elements.", "quantifier": "every vector and index", "why_tests_cant": "Out-of-range indices inside the 8-byte padding do not crash in a test.", "anchors": ["src/vector.rs: Vector"]}
{"id": "C21", "title": "Debug output of views shows the first ten elements", "statement": "The Debug output of a view lists exactly the first min(len,10) elements and appends an ellipsis exactly when there are more than ten.", "quantifier": "every view of every length", "why_tests_cant": "All lengths and contents.", "anchors": ["src/arrayview.rs: debug_format", "src/multiarrayview.rs: debug_format"]}
{"id": "C22", "title": "A written resource reads back", "statement": "After storage.write(name, schema, data) succeeds on a resource name not used before, storage.read(name, schema) returns exactly data, for memory and file storage (file storage needs a non-empty schema).", "quantifier": "every storage state, name, schema, data shorter than 2^64-16 bytes", "why_tests_cant": "All states and contents.", "anchors": ["src/storage.rs: ResourceStorage", "src/memstorage.rs: MemoryResourceStorage", "src/filestorage.rs: FileResourceStorage"]}
{"id": "C23", "title": "read accepts a resource exactly when header, length and schema fit", "statement": "storage.read(name, schema) returns Ok(d) if and only if both the resource and its schema resource are readable, the resource is header ++ d ++ 8 bytes with the header being the little-endian length of d, and the stored schema equals the given one; otherwise it returns the error for the first failed check.", "quantifier": "every stored content, including adversarial bytes, every expected schema", "why_tests_cant": "All byte strings.", "anchors": ["src/storage.rs: ResourceStorage::read_and_check_schema"]}
{"id": "C24", "title": "Truncated or extended resources are rejected", "statement": "If the stored bytes of a resource are any proper prefix of a valid resource, or a valid resource with extra bytes appended, read returns UnexpectedDataSize.", "quantifier": "every valid resource, every truncation point, every suffix", "why_tests_cant": "Every crash point/truncation length for every content.", "anchors": ["src/storage.rs: ResourceStorage::read_and_check_schema"]}
{"id": "C25", "title": "A corrupt size header is reported as an error", "statement": "Intended: for every 8-byte header, reading a resource whose header does not match its length returns UnexpectedDataSize and does not panic.", "quantifier": "every header value, both builds", "why_tests_cant": "Only headers within 16 of 2^64 overflow.", "anchors": ["src/storage.rs: ResourceStorage::read_and_check_schema"]}
{"id": "C26", "title": "Writing one resource does not affect others", "statement": "write, and creating and filling an external vector or multivector, under one name leaves the stored bytes of every other resource (and its schema) unchanged, for different identifiers in the same storage and for other directories.", "quantifier": "every storage state, every pair of distinct resource names, every content", "why_tests_cant": "All states.", "anchors": ["src/storage.rs: ResourceStorage", "src/memstorage.rs: MemoryResourceStorage", "src/filestorage.rs: FileResourceStorage"]}
{"id": "C27", "title": "Rewriting a resource replaces it", "statement": "Intended: after two successful writes to the same name, a storage opened afterwards reads the data of the second.", "quantifier": "every storage, every pair of contents", "why_tests_cant": "Needs all histories; memory storage appends instead.", "anchors": ["src/memstorage.rs: MemoryResourceStorage", "src/filestorage.rs: FileResourceStorage"]}
{"id": "C28", "title": "subdir gives access to the same storage below a directory", "statement": "Intended: a resource written through storage.subdir(d) can be read through another storage.subdir(d).", "quantifier": "every directory name, resource and content, both storages", "why_tests_cant": "All histories; memory storage starts an empty storage each time.", "anchors": ["src/memstorage.rs: MemoryResourceStorage", "src/filestorage.rs: FileResourceStorage"]}
{"id": "C29", "title": "Reads are stable", "statement": "Once memory storage has returned the bytes of a resource, every later read of it returns the same bytes, whatever is written afterwards; for file storage the same holds as long as that file is not written.", "quantifier": "every later history of operations of any length", "why_tests_cant": "Unbounded histories.", "anchors": ["src/memstorage.rs: MemoryResourceStorage", "src/filestorage.rs: FileResourceStorage"]}
{"id": "C30", "title": "Creating an archive twice fails without touching the storage", "statement": "create_archive returns AlreadyExists and leaves the storage unchanged if the signature resource exists; otherwise on success the signature resource exists and reads back as empty data with the archive's schema.", "quantifier": "every storage state, archive name and schema; no system call fails", "why_tests_cant": "All states.", "anchors": ["src/storage.rs: create_archive"]}
{"id": "C31", "title": "External vector writes exactly its elements", "statement": "For every sequence of grow and setter calls on the last element, if all calls succeed then close() returns a view whose elements are exactly the elements in order, and the resource read later with the same schema has the same bytes; len() is the number of grows.", "quantifier": "every struct layout, every history of any length and total size (any number of intermediate flushes), both storages", "why_tests_cant": "The flush threshold of 32 MiB makes multi-flush histories impractical to test; all histories.", "anchors": ["src/vector.rs: ExternalVector", "src/storage.rs: ResourceHandle"]}
{"id": "C32", "title": "Vector and ExternalVector produce the same resource", "statement": "Writing records through an external vector produces byte-for-byte the same resource and schema as filling a Vector and writing its view.", "quantifier": "every list of records, every flush pattern, both storages", "why_tests_cant": "All contents and flush patterns.", "anchors": ["src/vector.rs: ExternalVector", "src/vector.rs: Vector", "src/storage.rs: ResourceStorage"]}
{"id": "C33", "title": "I/O failures never corrupt an external vector silently", "statement": "Whatever writes fail or are cut short, and however often grow is retried, if close() returns Ok the view and the stored resource contain exactly the elements whose grow succeeded, in order.", "quantifier": "every schedule of I/O failures and partial writes, every history with retries, file storage", "why_tests_cant": "Every fault schedule.", "anchors": ["src/vector.rs: ExternalVector", "src/storage.rs: ResourceHandle"]}
{"id": "C34", "title": "close reports I/O failures as errors", "statement": "Intended: when flushing or finalising fails inside close(), close() returns Err and does not panic.", "quantifier": "every I/O failure during close", "why_tests_cant": "Fault injection at every I/O call.", "anchors": ["src/vector.rs: ExternalVector", "src/storage.rs: ResourceHandle", "src/storage.rs: impl Drop for ResourceHandle"]}
{"id": "C35", "title": "A crash during write never yields a wrong resource", "statement": "If the process dies at any point during storage.write on file storage, a reader opened afterwards gets the complete new data, or what the name held before if it was not touched yet, or an error.", "quantifier": "every crash point at byte granularity, every previous disk state, name, schema, data", "why_tests_cant": "Every crash point.", "anchors": ["src/storage.rs: ResourceStorage", "src/filestorage.rs: FileResourceStorage"]}
{"id": "C36", "title": "A crash before close completes never yields a readable external vector", "statement": "Intended: if the process dies before close() of an external vector finished, a reader opened afterwards either gets an error or the complete data.", "quantifier": "every history, every crash point at byte granularity", "why_tests_cant": "Every crash point.", "anchors": ["src/vector.rs: ExternalVector", "src/storage.rs: ResourceHandle", "src/filestorage.rs: FileResourceStorage"]}
{"id": "C37", "title": "Multivector returns exactly the items added to each bucket", "statement": "For every sequence of grow, add_x and setter calls, if all succeed then close() returns a view with as many buckets as grows, and bucket i yields exactly the items added after the i-th grow, in order, with their types and field values.", "quantifier": "every variadic type, index width, history of any length whose data fits the index width, any flush pattern, both storages", "why_tests_cant": "Unbounded histories and flush patterns.", "anchors": ["src/multivector.rs: MultiVector", "src/multiarrayview.rs: MultiArrayView", "src/archive.rs: define_variadic_struct!", "src/archive.rs: define_index!"]}
{"id": "C38", "title": "Multivector index is a monotone partition of the data", "statement": "After close the index starts with 0, is non-decreasing, and its last entry is the size of the data.", "quantifier": "every history as in C37", "why_tests_cant": "Unbounded histories.", "anchors": ["src/multivector.rs: MultiVector"]}
{"id": "C39", "title": "Slicing and iterating a MultiArrayView select buckets", "statement": "In a build with overflow checks, slice(a..b) with a <= b <= len() contains exactly buckets a..b and any interleaving of next/next_back yields each bucket once in order, then None for ever.", "quantifier": "every multi array view with a non-empty index, every in-bounds range, every interleaving", "why_tests_cant": "All ranges and interleavings.", "anchors": ["src/multiarrayview.rs: MultiArrayView", "src/multiarrayview.rs: MultiArrayViewIter"]}
{"id": "C40", "title": "Multi array views over arbitrary bytes never read out of bounds", "statement": "Whatever index and data bytes a MultiArrayView is created over, bucket access and item iteration either panic or yield items lying entirely inside the bucket, which lies inside the data; unknown type tags panic.", "quantifier": "every index and data content, every index, both builds", "why_tests_cant": "Adversarial archives.", "anchors": ["src/multiarrayview.rs: MultiArrayView", "src/multiarrayview.rs: MultiArrayViewItemIter", "src/archive.rs: define_variadic_struct!"]}
{"id": "C41", "title": "MultiArrayView::slice panics on ranges out of bounds", "statement": "Intended: slice panics for every range that is decreasing or exceeds len().", "quantifier": "every range", "why_tests_cant": "Off-by-one corner of the sentinel.", "anchors": ["src/multiarrayview.rs: MultiArrayView"]}
{"id": "C42", "title": "Multivectors are correct for any amount of data", "statement": "Intended: C37 without the condition that the data size fits the index width.", "quantifier": "every history", "why_tests_cant": "Needs more data than 2^index_bits bytes.", "anchors": ["src/multivector.rs: MultiVector", "src/archive.rs: define_index!"]}
{"id": "C43", "title": "I/O failures never corrupt a multivector silently", "statement": "Whatever I/O fails, if close() of a multivector returns Ok, its view contains exactly the buckets whose grow succeeded with their items.", "quantifier": "every fault schedule, every history with retries", "why_tests_cant": "Every fault schedule.", "anchors": ["src/multivector.rs: MultiVector", "src/storage.rs: ResourceHandle"]}
{"id": "C44", "title": "open succeeds exactly when all required parts check out", "statement": "Archive::open returns Ok iff the signature and every non-optional struct, vector, multivector (index and data), raw and sub-archive resource reads successfully with its schema; optional resources that do not read successfully are reported as None and do not affect the result.", "quantifier": "every archive definition (any nesting), every storage content", "why_tests_cant": "All storages and definitions.", "anchors": ["src/archive.rs: define_archive!"]}
{"id": "C45", "title": "An archive written with its builder reads back", "statement": "Creating an archive with the builder, setting resources in any order, each at most once, and opening it returns for every resource set the data that was set, None for optional resources not set, and an error if a required one was not set.", "quantifier": "every archive definition, every order and content of builder calls", "why_tests_cant": "All definitions and histories.", "anchors": ["src/archive.rs: define_archive!", "src/storage.rs: ResourceStorage"]}
{"id": "C46", "title": "Struct resource getters, and setters given their handles, are memory safe", "statement": "Intended: after open succeeds, the getter of a struct resource reads only bytes of that resource, and passing its handle to a setter of an archive builder copies exactly the record.", "quantifier": "every stored content", "why_tests_cant": "Adversarial resource sizes.", "anchors": ["src/archive.rs: define_archive!"]}
{"id": "C47", "title": "Forgetting to close a writer panics", "statement": "Dropping an external vector or multivector that was not closed panics (unless already panicking), and dropping one whose close ran through does not.", "quantifier": "every history", "why_tests_cant": "All histories.", "anchors": ["src/storage.rs: impl Drop for ResourceHandle"]}
{"id": "C48", "title": "Slash-separated keys address nested resources", "statement": "Intended: write(\"a/b\", ...) succeeds and can be read back as \"a/b\" in both storages.", "quantifier": "every slash-separated key", "why_tests_cant": "All keys and directory states.", "anchors": ["src/storage.rs: ResourceStorage", "src/filestorage.rs: FileResourceStorage", "src/memstorage.rs: MemoryResourceStorage"]}
{"id": "C49", "title": "The header is the little-endian data length and the trailer is zero", "statement": "Every resource written through write, ExternalVector or MultiVector consists of the 8-byte little-endian length of the data, the data, and 8 zero bytes.", "quantifier": "every history and content", "why_tests_cant": "All lengths and contents.", "anchors": ["src/storage.rs: write_to_stream, write_size, write_padding, ResourceHandle::close"]}
{"id": "C50", "title": "A partially written archive cannot be opened", "statement": "Intended: if the process dies at any point before the builder has finished writing all required resources, Archive::open fails.", "quantifier": "every crash point, every archive definition", "why_tests_cant": "Every crash point.", "anchors": ["src/archive.rs: define_archive!", "src/archive.rs: Archive::open"]}
{"id": "C51", "title": "One-bit signed fields round trip", "statement": "Intended: C03 also holds for one-bit fields of a signed type, whose two's-complement range is {-1, 0}.", "quantifier": "every signed primitive type, buffer, bit offset, build and host byte order", "why_tests_cant": "The tests' tables contain no one-bit signed field with value -1; which values survive has to be settled for every offset and buffer.", "anchors": ["src/bytereader.rs read_bytes!", "src/bytewriter.rs write_bytes!"]}
{"id": "C52", "title": "Enum getters only produce declared enumerators", "statement": "Intended: the getter of an enum field never produces a value that is not an enumerator; in particular reading an enumerator back after setting it returns it.", "quantifier": "every well-formed struct, enum field, set of discriminants, buffer content and sequence of setter calls", "why_tests_cant": "The transmute in the getter is undefined behaviour on undeclared discriminants, which a test on valid data never hits and an assertion could not observe.", "anchors": ["src/archive.rs define_struct! (transmute in getters)", "src/archive.rs define_enum_test!"]}
{"id": "C53", "title": "A resource is only readable with the schema it was written with", "statement": "Intended: if write of a file resource fails or the process dies in it, a reader opened afterwards can read the new data only with the schema passed to that write.", "quantifier": "every crash point and I/O failure at byte granularity, every previous disk state, name, schema, data", "why_tests_cant": "The window between writing data and schema is a few system calls; tests never kill the process there, and never compare data against the schema of another version.", "anchors": ["src/storage.rs ResourceStorage::write"]}
{"id": "C54", "title": "Rewriting a resource that was already read is safe", "statement": "Intended: after reading a resource through a file storage, writing the same resource through that storage and reading it again gives the new data or an error.", "quantifier": "every pair of contents, every storage state", "why_tests_cant": "Touching a mapping behind the end of a truncated file raises SIGBUS or not depending on page boundaries, so a test with small data passes.", "anchors": ["src/filestorage.rs MemoryMappedFileStorage::read", "src/storage.rs ResourceStorage::write"]}
{"id": "C56", "title": "create_archive never overwrites an archive", "statement": "Intended: create_archive never replaces an existing archive signature, also when system calls fail.", "quantifier": "every storage state, archive name and I/O failure", "why_tests_cant": "Requires a stat call to fail while later calls succeed, which tests cannot provoke.", "anchors": ["src/storage.rs create_archive", "src/filestorage.rs exists"]}
{"id": "C57", "title": "Reading an unfinished resource does not disturb its writer", "statement": "Intended: if a resource is read through the same storage while an external vector for it is still being filled, the vector can still be closed successfully.", "quantifier": "every storage kind, every history with reads in between", "why_tests_cant": "Tests read resources only after the writer is closed; the caching of the first read is invisible then.", "anchors": ["src/memstorage.rs read_resource", "src/filestorage.rs MemoryMappedFileStorage::read", "src/storage.rs ResourceHandle::close"]}
{"id": "C58", "title": "Recreating a resource never exposes old data under the new schema", "statement": "Intended: if the process dies in create_external_vector over an existing resource, a reader opened afterwards cannot read the old data with the new schema.", "quantifier": "every crash point at byte granularity, every previous content", "why_tests_cant": "The schema is replaced before the data; tests never kill the process between the two.", "anchors": ["src/storage.rs create_external_vector"]}
{"id": "C55", "title": "Different resource names never share stored data", "statement": "Intended: two resources (of any kind) with different names in one storage never share a file or stream.", "quantifier": "every pair of distinct names, every kind of resource", "why_tests_cant": "A collision needs particular names (multivector foo and resource foo_index, resource foo.schema); tests use unrelated names.", "anchors": ["src/storage.rs create_multi_vector", "src/storage.rs write", "src/archive.rs define_archive"]}
{"id": "C59", "title": "A multi array view without index entries is empty", "statement": "Intended: a MultiArrayView whose index holds no complete entry reports length 0, is empty and iterates without yielding anything.", "quantifier": "every index shorter than one entry, both builds", "why_tests_cant": "Every index written by the library has at least the sentinel; an empty index only comes from foreign or damaged data, which tests do not contain.", "anchors": ["src/multiarrayview.rs MultiArrayView::len", "src/multiarrayview.rs MultiArrayViewIter::next"]}
{"id": "C60", "title": "A crash never leaves a damaged multivector that can be opened", "statement": "Intended: if the process dies while a multivector is created, filled or closed, a reader opened afterwards either cannot read one of its two resources or finds all buckets.", "quantifier": "every crash point at byte granularity, every history", "why_tests_cant": "Needs a crash at chosen bytes of two files and data whose size coincides with the padding.", "anchors": ["src/multivector.rs: MultiVector", "src/storage.rs: create_multi_vector", "src/storage.rs: ResourceHandle"]}
{"id": "C61", "title": "Building an archive succeeds if nothing is in the way", "statement": "In an empty or not yet existing directory (or a new memory storage) and without I/O failures, creating a builder and every sequence of calls on it, its writers and its sub-builders, each resource at most once and with values in range, succeeds: no call returns an error, panics or has undefined behaviour. If everything required is set and closed, a new process on any machine then opens the archive and sees exactly the data set.", "quantifier": "all archive definitions, all orders of calls, all data, both builds and byte orders", "why_tests_cant": "The number of orders and definitions is unbounded; nested sub-archives create directories that must not collide with resources.", "anchors": ["src/archive.rs: define_archive!", "src/storage.rs: create_archive", "src/filestorage.rs: FileResourceStorage"]}
{"id": "C62", "title": "A release build does what the debug build does, unless the debug build panics", "statement": "For every function of the library and every input, disk content and sequence of I/O failures, the release build (wrapping arithmetic, no debug assertions) has the same outcome and the same effects as the debug build, or the debug build panics. So a program whose debug build never panics does the same when optimised, and a release build panics only where the debug build does.", "quantifier": "all inputs, all states, all call sequences, all I/O failures", "why_tests_cant": "Tests run in one build at a time and on finitely many inputs; the builds differ only on overflow and failed debug assertions.", "anchors": ["src/bytereader.rs: read_bytes!", "src/bytewriter.rs: write_bytes!", "src/storage.rs: read_and_check_schema", "src/arrayview.rs: ArrayView", "src/archive.rs: define_archive!"]}
{"id": "C63", "title": "The files written depend on the data only", "statement": "Two builders of the same archive definition that are given the same data leave the same files with the same bytes, in whatever order the resources are set, element by element or as bytes, in whatever order the setters of an element are called, with whatever flush limit, build, byte order and directory.", "quantifier": "all archive definitions, all data, all orders of calls, both builds and byte orders", "why_tests_cant": "The number of orders is unbounded; uninitialised or stale bytes (padding, reused buffers) would show only for some orders.", "anchors": ["src/archive.rs: define_archive!", "src/vector.rs: ExternalVector", "src/multivector.rs: MultiVector", "src/storage.rs: ResourceHandle"]}
{"id": "C64", "title": "After failures the last successful call counts", "statement": "A builder may go on after calls that returned errors. In a directory, whatever calls were made, whichever of them failed at whatever system call, and if the process finally panics or dies in a call: a new process opens the archive or gets an error. If it opens, every required resource was tried, each resource shows the data of the last call that set it successfully, and a resource whose last call failed shows nothing or the data of one of the calls. If every required resource was set successfully in the end, it opens. The creation of a sub-archive can be retried only if no signature file was left behind; otherwise it never works again.", "quantifier": "all archive definitions, all sequences of calls and results, all I/O failures and crash points", "why_tests_cant": "Each system call of each call of an unbounded history may fail, and stale contents of earlier attempts stay on disk.", "anchors": ["src/archive.rs: define_archive!", "src/storage.rs: ResourceStorage::write, create_external_vector, create_multi_vector, create_archive", "src/filestorage.rs: create_output_stream", "src/vector.rs: ExternalVector", "src/multivector.rs: MultiVector"]}
{"id": "C65", "title": "Texts of structs", "statement": "The Debug text of a struct handle shows the name of the struct and the name and value of every field. Two handles of one struct type have the same text exactly if they compare equal. There is no panic; undefined behaviour occurs exactly if an enum field has a value that is not declared.", "quantifier": "all struct layouts with integer, bool and enum fields, all contents, builds and byte orders", "why_tests_cant": "Equality of texts for all pairs of contents; undeclared enumerators.", "anchors": ["src/archive.rs: define_struct! Debug, PartialEq", "src/helper.rs: intersperse!"]}
{"id": "C66", "title": "Texts of views", "statement": "The Debug text of ArrayView, its iterator, Vector, MultiArrayView and its iterator exists exactly if the first ten elements have no undeclared enumerators. Two views have the same text exactly if they have the same length and the same first ten elements or buckets. The text of an iterator over a bucket determines all its items.", "quantifier": "all element types, all contents and lengths, all names", "why_tests_cant": "All pairs of views; texts are built from several nested formats.", "anchors": ["src/arrayview.rs: debug_format", "src/multiarrayview.rs: debug_format", "src/vector.rs: Debug", "src/archive.rs: define_variadic_struct! Debug"]}
{"id": "C67", "title": "Texts of archives", "statement": "Printing an opened archive with Debug returns and never panics or reads out of bounds.", "quantifier": "all archive definitions and opened archives", "why_tests_cant": "Archives left behind by a crash or written by other programs, nested sub-archives.", "anchors": ["src/archive.rs: define_archive! Debug", "src/storage.rs: MemoryDescriptor"]}
{"id": "C68", "title": "Reading during a write", "statement": "A process that reads a file resource while another process writes it with write gets an error or the complete data. What it got does not change while the writer goes on. It can succeed only if the schema it expects is a beginning of the schema that is written. The read never panics and never touches memory that is not there.", "quantifier": "all data, schemas and names, all byte orders and builds of both processes, every interleaving of the steps of both, including reads in the middle of a write call; no older version of the resource on the disk and no I/O failures", "why_tests_cant": "The steps of two processes can interleave in unboundedly many ways and a test cannot stop a process inside a write call.", "anchors": ["src/storage.rs: write, read_and_check_schema", "src/filestorage.rs: read_resource, MemoryMappedFileStorage"]}
{"id": "C69", "title": "Reading while a vector is written", "statement": "A process that reads the resource of an external vector, or index or data of a multivector, while another process fills and closes it gets an error or the complete data, with the schema it expects, also if an older version is replaced.", "quantifier": "all element types and variadic types, all contents, buffer sizes, every interleaving of reader and writer", "why_tests_cant": "Interleavings and torn writes of the size field, which is written last.", "anchors": ["src/vector.rs: ExternalVector", "src/multivector.rs: MultiVector", "src/storage.rs: ResourceHandle, read_and_check_schema"]}
{"id": "C70", "title": "Opening a multivector while it is written", "statement": "If a process opens the two resources of a multivector while another process fills and closes it, it gets an error or a multivector whose buckets can all be accessed and are the final ones.", "quantifier": "all variadic types and contents, index widths and buffer sizes, every interleaving of reader and writer", "why_tests_cant": "Interleavings of two processes with the two files.", "anchors": ["src/multivector.rs: close, grow, flush", "src/archive.rs: define_archive! open", "src/storage.rs: read_and_check_schema"]}
{"id": "C71", "title": "Getters of an opened archive", "statement": "Each getter of an opened archive returns the data found under the name and with the schema of its own resource. It returns nothing only for an optional resource that is not there; a multivector with only one of its two parts counts as not there. After a build the getters return what was built.", "quantifier": "all archive definitions, places and contents, every resource of every kind", "why_tests_cant": "The tests read the resources of one archive whose optional resources are all there or all missing.", "anchors": ["src/archive.rs: define_archive! getters", "src/archive.rs: define_archive! open"]}
{"id": "C72", "title": "Opening an archive while it is being built", "statement": "Opening an archive that another process is building returns an error or an archive. Every resource of that archive is a resource of the finished archive: it is missing only if it is optional, a vector or multivector may be seen shorter than it will be, and what was seen does not change afterwards. Opening succeeds only if the builder will have put everything that is required.", "quantifier": "all archive definitions, all successful sequences of builder calls, all interleavings of the reader's steps with the writer's file effects, including writes seen half done", "why_tests_cant": "The tests open archives after they are built, in the same process.", "anchors": ["src/archive.rs: define_archive! open", "src/archive.rs: define_archive! builder", "src/storage.rs: read", "src/filestorage.rs: read_resource"]}
{"id": "C73", "title": "What writers say about themselves", "statement": "At any time before close, len() of an external vector is the number of grow calls that succeeded, is_empty() holds exactly if there were none, is_open() holds, and the Debug texts of external vectors and multivectors show these numbers. The size shown by the resource handle is that of the elements flushed so far; without I/O failures the resource holds exactly these elements behind an empty size field. After close the handle shows that it is closed and the size of all elements.", "quantifier": "all histories with and without I/O failures", "why_tests_cant": "The tests never look at the length, the text or the handle of a writer after a failed call or a partial flush.", "anchors": ["src/vector.rs: ExternalVector::len", "src/vector.rs: ExternalVector::is_empty", "src/vector.rs: impl Debug for ExternalVector", "src/multivector.rs: impl Debug for MultiVector", "src/storage.rs: impl Debug for ResourceHandle"]}
{"id": "C74", "title": "Only one process creates an archive", "statement": "While a process builds an archive in an empty directory, there is one system call among its first four after which create_archive of any other process for the same archive name and place fails with AlreadyExists and changes nothing; before it the signature is not found. Intended but false: only one of two processes that create the archive succeeds. The check for the signature and its creation are two steps; a process that looked before that call and writes after the builder finished returns Ok as well. With the same schema no file changes; with a different schema the finished archive can not be opened any more (WrongSignature).", "quantifier": "all archives, histories of builder calls without I/O failures, moments of the check, schemas", "why_tests_cant": "The tests create an archive from a single process and never look at create_archive while it runs in two.", "anchors": ["src/storage.rs: create_archive", "src/archive.rs: define_archive! new", "src/filestorage.rs: exists", "src/filestorage.rs: create_output_stream"]}
{"id": "C75", "title": "What the schema diff in an error shows", "statement": "If read reports WrongSignature, the resource named is the one read, and from the text of the diff the stored schema and the expected schema can be recovered exactly: lines marked '-' and ' ' are the stored one, lines marked '+' and ' ' the expected one; at least one line is marked '-' or '+'. This holds for every correct line by line edit script the diff crate may find. The description of an error tells its kind.", "quantifier": "all storages, schemas, edit scripts", "why_tests_cant": "The tests compare one diff of one pair of schemas, if any.", "anchors": ["src/storage.rs: compute_diff", "src/storage.rs: read_and_check_schema", "src/error.rs: description"]}
{"id": "C76", "title": "Which error opening an archive returns", "statement": "Opening a directory fails exactly with the error of the first required part, in the order signature, structs, vectors, multivector index and data, raw data, required sub-archives, that a new process could not read; optional parts never cause an error. An error that names a resource names a required part, and the error MissingSchema is never returned. Intended but false: a missing schema is reported as MissingSchema (it is reported as Io NotFound with the name of the resource, as if the data were missing), and the error tells which resource failed (a wrong size or encoding names none, and a resource of a sub-archive is named without its directory).", "quantifier": "all archives, directories with arbitrary files; names in errors also with I/O failures and for memory storages", "why_tests_cant": "The tests open archives with at most one defect, so the order never matters, and never check the variant for a missing schema.", "anchors": ["src/archive.rs: define_archive! open", "src/archive.rs: check_resource!", "src/storage.rs: read_and_check_schema", "src/storage.rs: create_archive", "src/error.rs: ResourceStorageError"]}
{"id": "C77", "title": "What is left after a power failure", "statement": "If every file has kept its own beginning of what was written to it (nothing is ever synced), a new process reading a resource gets an error or: all of it if it was written in one go; all of it or nothing if it is a closed vector, a multivector's index or its data. Opening an archive that was being built, or was finished, returns; every part it shows is all or nothing of what was set, and no required part is missing. Intended but false: what was closed is there afterwards (a required vector may open as empty), a multivector whose index is there has its data (files may reach the disk in another order than they were written, and buckets cannot be accessed), and lost bytes in a file of the right length are noticed (only the size is checked).", "quantifier": "all archives, resources, sessions, points of the execution per file", "why_tests_cant": "A test cannot cut the power, and after a normal exit the operating system shows every write.", "anchors": ["src/filestorage.rs: create_output_stream", "src/storage.rs: ResourceHandle", "src/storage.rs: write", "src/vector.rs: ExternalVector::close", "src/multivector.rs: close", "src/archive.rs: define_archive! open"]}
{"id": "C78", "title": "Processes that write the same contents at once", "statement": "Any number of processes, of any builds and byte orders, create archives, write resources, stream resources through handles and fill external vectors and multivectors at the same place, their system calls interleaved in any way and writes done in any number of parts. If their calls agree about what belongs into each file, then when all are done every process has done all its calls or stopped at the creation of an archive that it found; every file of the calls that were done is complete and reads back; every other file is as before. If several processes create an archive that was not there, at least one succeeds and the archive is there. Every run ends, and a process that is not done can go on.", "quantifier": "all numbers of processes, lists of calls, interleavings, splits of writes", "why_tests_cant": "A test runs the processes in the few orders that the scheduler happens to choose.", "anchors": ["src/storage.rs: write", "src/storage.rs: create_archive", "src/storage.rs: ResourceHandle", "src/filestorage.rs: create_output_stream"]}
{"id": "C79", "title": "Processes that write different contents to the same files", "statement": "Whatever contents several processes write to the same files at once: every process returns as in C78, files that no call wrote are as before, and every byte of a written file is the byte that one of the processes would have left there alone, or 0. Intended but false: the file is what one of the processes wrote (a reader may get, without an error, data that nobody wrote), and create_archive admits one creator only (two creators with different schemas may both succeed, with a signature that matches neither).", "quantifier": "all numbers of processes, lists of calls, interleavings, splits of writes", "why_tests_cant": "Needs two writers at the same time in an unlucky order.", "anchors": ["src/storage.rs: write", "src/storage.rs: create_archive", "src/storage.rs: read_and_check_schema", "src/filestorage.rs: create_output_stream"]}
{"id": "C80", "title": "Writers keep at most 32 MiB and one entry in memory", "statement": "After any history of an external vector, with any I/O failures, exactly the last k of the n elements added are in its buffer, where k follows from n, the element size and the limit of 32 MiB, and the buffer has at most 32 MiB and one element; all other elements have been handed to the storage, where (if no call failed) exactly their bytes are behind the header. The same holds for the index of a multivector; its data buffer has the last buckets, which without the last one have at most 32 MiB with the padding.", "quantifier": "all histories, failures, element types, buckets", "why_tests_cant": "A test would have to add more than 32 MiB and cannot see the buffer.", "anchors": ["src/vector.rs: ExternalVector", "src/multivector.rs: MultiVector"]}
{"id": "C81", "title": "Spellings of a directory", "statement": "File and memory storages, and archives opened in them, depend on the components of the path they are given only: with doubled slashes, '.' components, or a slash at the end, every write has the same result and leaves the same files (whatever fails), and every read and every open of an archive, with its sub-archives, returns the same. (A directory spelled with a '.' at the end has to exist, see C102.) What was written with one spelling is read back with another.", "quantifier": "all paths, names that do not start with a slash, contents, faults", "why_tests_cant": "Tests use one spelling.", "anchors": ["src/filestorage.rs: FileResourceStorage", "src/memstorage.rs: MemoryResourceStorage", "src/archive.rs: define_archive!"]}
{"id": "C82", "title": "The width of usize", "statement": "On a target whose usize has W bits, a resource is accepted exactly if its schema is right and its length header is the length of the data up to a multiple of 2^W, and a bucket of a multi-array lies between its two offsets modulo 2^W. Intended: the result is the same on all targets; it is for headers below 2^W - 16 and offsets below 2^W, hence for everything a 64-bit reader accepts and for all buckets of a view that is in order. For larger ones it is false: a file refused by a 64-bit reader is accepted by a 32-bit one, and a bucket is returned where a 64-bit build panics.", "quantifier": "all widths from 8 to 64, builds, byte orders, contents", "why_tests_cant": "Tests run on one target.", "anchors": ["src/storage.rs: ResourceStorage::read_and_check_schema", "src/archive.rs: define_index!", "src/multiarrayview.rs: MultiArrayView::at"]}
{"id": "C83", "title": "Structs with enum fields; equality of items", "statement": "A struct some of whose fields are enums is a record of independent fields: reading all fields (Debug), PartialEq, fill_from and the setters act on the record exactly as for primitive fields, and items of a variadic struct are equal exactly if they are the same alternative with equal fields. This holds when every enum field that is read holds a declared discriminant and the program's impl Int for the enum says signed or no discriminant is negative. Intended without these conditions; it is then false: equality and fill_from are undefined behaviour on an undeclared discriminant reached before the first difference (even comparing a struct with itself), and with an unsigned impl Int a negative enumerator overwrites all bits that follow the field in its last byte.", "quantifier": "all structs, enums, bytes, builds, byte orders", "why_tests_cant": "Tests use one enum field of two bits alone in its struct, with declared discriminants only and the right impl Int.", "anchors": ["src/archive.rs: define_struct!", "src/archive.rs: define_variadic_struct!", "src/bytewriter.rs: write_bytes!", "src/helper.rs: Int"]}
{"id": "C84", "title": "Copying an archive through its builder", "statement": "A program that opens an archive made by a builder and gives everything it reads to the builder of a second archive (structs and vectors as they are or field by field with fill_from, multivectors bucket by bucket and item by item, raw data, sub-archives) never fails, and the second archive has the same files with the same bytes, also if building, reading and copying happen on machines with different byte orders. Intended for all archives; it is false for an optional sub-archive that was started but not filled (readers do not see it, its files are lost), and, when copying field by field, for bits that belong to no field.", "quantifier": "all archive definitions, data, orders of calls, builds and byte orders", "why_tests_cant": "The test copies one archive on one machine.", "anchors": ["tests/coappearances_test.rs: copy_coappearances_archive", "src/archive.rs: define_archive!", "src/archive.rs: define_struct!", "src/archive.rs: define_variadic_struct!", "src/multivector.rs: MultiVector", "src/vector.rs: ExternalVector"]}
{"id": "C85", "title": "Vectors too large for the address space", "statement": "Vector::with_len, grow and reserve give what was asked for or panic, never a smaller vector. Proved with overflow checks, and for grow in all builds; it is false for with_len and reserve in release builds, where the size in bytes wraps around: the exact results are stated, and with_len(2^61) of an 8-byte struct is an empty vector.", "quantifier": "all structs, lengths, vectors, builds", "why_tests_cant": "No test can allocate that much, and tests run with overflow checks.", "anchors": ["src/vector.rs: Vector::with_len", "src/vector.rs: Vector::grow", "src/vector.rs: Vector::reserve", "src/vector.rs: Vector::calc_size"]}
{"id": "C86", "title": "Answers of a resource handle", "statement": "On a handle for a fresh resource, without I/O failures, every write succeeds, the first close returns all bytes written and leaves header, data and padding in the storage, and every later call is refused with UnexpectedEof and changes nothing. A handle is open until a close has written the header; dropping an open handle panics, dropping a closed one does not. Intended also: a close that failed can be repeated; this is false, the second close can report success for a resource whose first bytes were overwritten with zeros.", "quantifier": "all sequences of calls, data, storages; for closed handles all worlds and failures", "why_tests_cant": "The test writes and closes once in memory; no test makes close fail.", "anchors": ["src/storage.rs: ResourceHandle::write", "src/storage.rs: ResourceHandle::close", "src/storage.rs: ResourceHandle::is_open", "src/storage.rs: Drop for ResourceHandle"]}
{"id": "C87", "title": "When two archives have the same text", "statement": "Two opened archives of the same type that can be printed have the same Debug text exactly if they look the same: the same optional parts are missing, structs have equal fields, vectors and multivectors have the same length and the same first ten elements, raw data has the same size and address, and sub-archives look the same. An opened archive lacks no required part.", "quantifier": "all archive definitions with any nesting, all contents, all addresses, all builds and byte orders on both sides", "why_tests_cant": "No test prints an archive with optional parts or sub-archives; ambiguity of texts shows only by comparing all pairs of archives.", "anchors": ["src/archive.rs: define_archive! Debug", "src/archive.rs: opt!", "src/helper.rs: intersperse!", "src/storage.rs: MemoryDescriptor"]}
{"id": "C88", "title": "Processes with different files do not harm each other", "statement": "A process creates archives, writes resources, streams resources and fills external vectors and multivectors while others change the disk in any way between its system calls and between the parts of its writes, but spare its files and directories. Its system calls may fail and it may be killed. At any time its files are as after a run alone with some failures; it returns what it would return alone; after a success all its resources read back. This holds in particular for any number of processes with different files, in shared directories that need not exist, each of which may fail or die at any point; files of none of them are as before. Directories may be made in parts. No run goes on for ever.", "quantifier": "all lists of calls, numbers of processes, interleavings, splits of writes, failures, deaths, and changes by others", "why_tests_cant": "Needs a process that dies or fails at a chosen system call while others are between theirs.", "anchors": ["src/storage.rs: write", "src/storage.rs: create_archive", "src/storage.rs: ResourceHandle", "src/filestorage.rs: create_output_stream"]}
{"id": "C89", "title": "Failing processes with the same files", "statement": "Whatever processes write to the same files, whichever of their system calls fail and whenever they die: at any time a file is as before, or it is not longer than what some call puts there and each byte is 0 or the byte that one of the calls puts at this place; if the calls agree, each byte is 0 or right. Intended but false: a resource that one process has written successfully stays readable if another process that writes the same dies. At any time the disk is a tree: no path is both a file and a directory, and everything is in a directory, if this held at first.", "quantifier": "all lists of calls, numbers of processes, interleavings, splits of writes, failures, deaths", "why_tests_cant": "Needs a process that dies between creating a file and writing it, after another one has finished.", "anchors": ["src/storage.rs: write", "src/storage.rs: ResourceHandle", "src/filestorage.rs: create_output_stream"]}
{"id": "C90", "title": "What accesses to fields outside the buffer do", "statement": "For a buffer of any length and a field at any place: writing it panics exactly if its first byte is outside the buffer, or if the field starts in the first byte, takes nine bytes, and the buffer has eight. It leaves the memory of the buffer exactly if the first byte is inside and the buffer ends within the bytes that are copied as one word. Otherwise it succeeds. Reading never panics: it leaves the memory exactly if the buffer is shorter than the field, or, for fields over nine bytes, than twice the byte offset plus nine.", "quantifier": "all buffers, offsets, widths, types, values, hosts and builds", "why_tests_cant": "Accesses outside the memory have no observable result to test; the lengths and offsets are unbounded.", "anchors": ["src/bytewriter.rs: write_bytes", "src/bytereader.rs: read_bytes", "src/helper.rs: num_bytes"]}
{"id": "C91", "title": "Streaming on targets with a narrow usize", "statement": "A handle counts the streamed bytes in a usize of W bits. If nothing fails, streaming any chunks in a release build succeeds and leaves the chunks behind a header with their total length modulo 2^W; a debug build does the same below 2^W bytes and panics from there on. So a stream that reported success can be read on a 64-bit target exactly if it has fewer than 2^W bytes; for every width from 8 to 62 there are streams, of chunks that fit the address space, which succeed and can never be read.", "quantifier": "all widths, chunks, names, storages, builds and hosts; any state without failures", "why_tests_cant": "Needs a 32-bit target and more than 4 GiB of data.", "anchors": ["src/storage.rs: ResourceHandle::write", "src/storage.rs: ResourceHandle::close"]}
{"id": "C92", "title": "External vectors and multivectors of processes that run at once", "statement": "Processes also fill external vectors and multivectors. If they agree about the contents of files, then when all are done every external vector of the calls that were done reads back as its elements and every multivector as its items, whatever the builds, byte orders and flush limits. A process that succeeds beside others that spare its files leaves vectors and multivectors that read back, whatever has failed or died next to it. The life of a vector is that of a handle to which the bytes of the elements are written in some parts, with any failures, except that every failure after its creation is a panic; a multivector returns an error only if its index cannot be created.", "quantifier": "all numbers of processes, lists of calls, elements, interleavings, splits of writes, failures, deaths", "why_tests_cant": "A test runs the processes in the few orders that the scheduler happens to choose.", "anchors": ["src/vector.rs: ExternalVector", "src/multivector.rs: MultiVector", "src/storage.rs: create_external_vector", "src/storage.rs: create_multi_vector"]}
{"id": "C93", "title": "External vectors and multivectors on targets with a narrow usize", "statement": "On a target with a usize of W bits, if nothing fails and the buffers fit the address space, an external vector or a multivector written by a release build reports success and leaves its exact bytes behind headers that hold their lengths modulo 2^W, with offsets in the index modulo 2^W. A debug build does the same below 2^W bytes and panics from there on; for the data of a multivector it panics 8 bytes earlier. What reported success can be read on a 64-bit target exactly if the files have fewer than 2^W bytes, and then has the elements and items that were added; otherwise it is rejected. There are such vectors and multivectors that are never read.", "quantifier": "all widths from 1 to 64, builds, byte orders, flush limits, layouts, elements and items", "why_tests_cant": "A test would have to write 4 GiB on a 32-bit target.", "anchors": ["src/vector.rs: ExternalVector", "src/multivector.rs: MultiVector", "src/storage.rs: ResourceHandle::write"]}
{"id": "C94", "title": "Views and vectors in memory on targets with a narrow usize", "statement": "On a target with a usize of W bits, any calls on an array view or (if offsets fit usize) a multi-array view that fits the address space do in a debug build what they do on a 64-bit target, and in a release build, too, unless that is a panic. Any use of an in-memory vector by a debug build panics or does what it does on a 64-bit target, and then the release build does the same. with_len panics in a debug build if the bytes with padding exceed isize::MAX of the target; in a release build their number wraps around first. grow panics exactly if the new size exceeds isize::MAX. A release build returns an element for some indices past the end, where a 64-bit target panics, whenever the size of the struct divides 2^W. In both builds, calls on views that fit panic or stay inside: returned elements and buckets lie in the memory of the view, whatever wraps around. Reading an in-memory vector that fits gives what it gives on a 64-bit target.", "quantifier": "all widths from 1 to 64, layouts, lists of calls, views and vectors", "why_tests_cant": "A test runs on one target, and indices near 2^W / size are not tried.", "anchors": ["src/arrayview.rs: ArrayView", "src/multiarrayview.rs: MultiArrayView", "src/vector.rs: Vector"]}
{"id": "C95", "title": "Writers on targets with a narrow usize when calls fail", "statement": "On a target with a usize of W bits, streaming a resource or filling an external vector or a multivector in a debug build panics or has the same result and leaves the same disk and memory as on a 64-bit target, and as in a release build of the same target, whatever calls fail, are cut short, or kill the process. As long as the buffers fit the address space and the sizes are below 2^W, both builds do exactly what they do on a 64-bit target, in every world.", "quantifier": "all widths from 1 to 64, builds, byte orders, flush limits, layouts, elements and items, storages, worlds, failures and deaths at any call", "why_tests_cant": "A test would have to fail every system call on a 32-bit target.", "anchors": ["src/vector.rs: ExternalVector", "src/multivector.rs: MultiVector", "src/storage.rs: ResourceHandle"]}
{"id": "C96", "title": "Opening archives on targets with a narrow usize", "statement": "On a target with a usize of W bits, opening an archive whose files fit the address space takes a resource for present exactly if its size header is right modulo 2^W (and the rest is right): without failing calls, open returns the archive that shows this, or an error exactly if there is none, in a release build and, if no truncated header plus 16 reaches 2^W, in a debug build. With failing calls it still writes nothing, has no undefined behaviour, and what it shows is there. If no header reaches 2^W - 16, opening does the same as on a 64-bit target in every world. What opens on a 64-bit target opens on a narrower one, and shows at least the same.", "quantifier": "all widths from 8 to 64, builds, byte orders, archive definitions, storages, contents, worlds, failures", "why_tests_cant": "A test would need a 32-bit target and files with headers above 2^32.", "anchors": ["src/storage.rs: read_and_check_schema", "src/archive.rs: open"]}
{"id": "C97", "title": "Archive builders on targets with a narrow usize", "statement": "On a target with a usize of W bits, if no file of the archive is larger than isize::MAX of the target, an archive builder and its writers do exactly what they do on a 64-bit target, up to and including the first call that does not succeed, whatever that call does; if nothing is in the way all calls succeed. Without the bound, a debug build panics or does the same, so what it writes without failing opens on a 64-bit target and shows what was set; a release build does the same as the debug build unless that panics. What was built with W bits opens with W' bits, and shows what was set, if the files fit both.", "quantifier": "all widths, builds, byte orders, archive definitions, storages, histories of calls, worlds, failures of calls and crashes in the last call", "why_tests_cant": "A test would need targets with a narrow usize, and files larger than their address space.", "anchors": ["src/storage.rs: ResourceHandle::close", "src/vector.rs: ExternalVector", "src/multivector.rs: MultiVector", "src/archive.rs: define_archive! builder"]}
{"id": "C98", "title": "A close that succeeds on a narrow target tells the truth", "statement": "On a target with a usize of W bits, sizes and lengths wrap in release builds when more than 2^W bytes are written. Still, if close of a resource handle, an external vector or a multivector succeeds, after whatever calls succeeded or failed before, then the data written by the successful calls, with header and padding, is smaller than the address space, every call did exactly what it does on a 64-bit target, and the file holds what was written. Data that does not fit is reported by close at the latest. The same holds for an archive builder all of whose calls succeed once everything started is closed: the archive can be opened on a 64-bit target and shows what was set. A closed handle refuses all calls.", "quantifier": "all widths from 8 to 64, builds, byte orders, descriptions, storages, sequences of calls and of other activity, worlds and I/O failures", "why_tests_cant": "A test would need targets with a narrow usize, files larger than their address space and every point of failure.", "anchors": ["src/storage.rs: ResourceHandle::close", "src/storage.rs: read_resource", "src/vector.rs: ExternalVector", "src/multivector.rs: MultiVector", "src/archive.rs: define_archive (builder)"]}
{"id": "C99", "title": "Starting and writing resources reports failures as errors", "statement": "Calls that create or write resources (write, create_external_vector, create_archive, exists, a new builder, its setters, start methods and sub-builders) return in every state of the file system and storage, whatever fails: failures are errors, never panics. In memory they succeed. create_multi_vector should do the same, but it panics if the index can be created and then the schema or the file of the data cannot (a failing system call, or a directory of that name): the open handle of the index is dropped. The result of create_multi_vector is given exactly.", "quantifier": "all builds, byte orders, storages, names (of any content), schemas, data, builders, worlds (including directories, closed or damaged files) and sequences of I/O failures", "why_tests_cant": "Tests run on a healthy file system; failures at each system call, and odd names or directories in the way, are not tried.", "anchors": ["src/storage.rs: create_multi_vector", "src/storage.rs: ResourceStorage::write", "src/storage.rs: create_archive", "src/storage.rs: Drop for ResourceHandle", "src/archive.rs: define_archive! (builders)"]}
{"id": "C100", "title": "Reading and opening report failures as errors", "statement": "Reading a resource and opening an archive return in every state of the files, the storage and the process, whatever system calls fail: bad contents and failures are errors. Exceptions are proved to be the only ones: undefined behaviour only if a file was cut that this storage has mapped, and in debug builds a panic only if the size header of a resource that open reads, at any depth, overflows usize. Such a header in an optional resource makes a debug build panic on an archive that a release build opens.", "quantifier": "all builds, byte orders, storages, archive definitions of any nesting, contents of files, worlds and sequences of I/O failures", "why_tests_cant": "Tests open well-formed archives; arbitrary contents, failures at each system call and nesting cannot be enumerated.", "anchors": ["src/storage.rs: read_and_check_schema", "src/filestorage.rs: MemoryMappedFileStorage::read", "src/memstorage.rs: read_resource", "src/archive.rs: define_archive! (open)"]}
{"id": "C101", "title": "Texts of errors", "statement": "Intended: the text of an error shows what it is about. Different errors have different texts, whatever names, diffs and inner texts they contain; the resource named in the error is shown; both schemas of a wrong signature can be read off the text. But the diff is never shown line by line: Display is the derived Debug text, in which line feeds are escaped, and every text is a single line.", "quantifier": "all errors, names, schemas, edit scripts, inner texts and versions of string escaping", "why_tests_cant": "Ambiguities need particular quotes, backslashes and control characters in names, schemas and inner texts.", "anchors": ["src/error.rs: Display for ResourceStorageError", "src/error.rs: derive(Debug) of ResourceStorageError", "src/storage.rs: compute_diff"]}
{"id": "C102", "title": "Which file or entry a name stands for", "statement": "Intended: a resource name stands for one file below the directory of the storage, and for the same resource in file and memory storages. With path resolution of a POSIX system and the standard library's create_dir_all (directories made one by one): for relative names that end with a name and have no '..' component, whether a resource exists, what is read and what is created (with all directories and errors; if the process is killed between the calls that make directories, the first of them exist) is determined by the components, and the file is below the directory of the storage; in memory storages two names are one entry iff their components after the path of the storage are equal. Not so: names with '..' lead out of the directory and give a file several names (which are different entries in memory); nothing can be created if the path of a missing directory ends with '.', or if the name ends with a slash or '.'; in a memory storage with an empty path './x' and 'x' are different.", "quantifier": "all trees, working directories, paths, names", "why_tests_cant": "Needs unusual paths and names on many trees; tests use temporary directories and identifiers.", "anchors": ["src/filestorage.rs: exists", "src/filestorage.rs: read_resource", "src/filestorage.rs: create_output_stream", "src/memstorage.rs: MemoryStorage"]}
{"id": "C103", "title": "Doing again what failed or was interrupted", "statement": "Intended: a write to a file storage, or the creation of an archive, that failed or was interrupted can be repeated. For writes: after any number of attempts to write a resource, by any processes, with any contents, in which any system calls fail and which may be killed at any point (also between two directories), a write without failing calls succeeds iff nothing was in the way at first (neither file name is a directory, and the directory exists or has no file on its path); then exactly the two files with the new contents are added, and exactly the missing directories of the path. If something was in the way no attempt ever succeeds. For creating archives it is false: it succeeds iff no attempt got as far as creating the signature file; an attempt that was killed or failed behind that point returned no success, but the archive can never be created again.", "quantifier": "all worlds, paths, names, contents, fault sequences, numbers of attempts, builds, byte orders", "why_tests_cant": "Needs failures injected at every system call of several attempts and comparison of whole directory trees.", "anchors": ["src/filestorage.rs: create_output_stream", "src/storage.rs: ResourceStorage::write", "src/storage.rs: create_archive"]}
{"id": "C104", "title": "Builders go on after failures", "statement": "Intended: when system calls no longer fail, every further permitted call on a builder succeeds, whatever failed before. True, in a place where nothing was at first and after any calls of which any failed at any system call, for every call that does not close a vector or multivector; a call that creates a sub-archive succeeds iff there is no signature file of it. True for all calls, so that the archive opens and shows what was set last if everything required worked in the end, if no vector or multivector is being written when failures stop and no sub-archive failed to be created. False for closing a vector to which adding an element failed: the bytes written stay in the file and closing returns an error.", "quantifier": "all archive descriptions, sequences of calls, fault sequences, builds, byte orders, buffer sizes", "why_tests_cant": "Needs failures injected at every system call of arbitrary call sequences, followed by arbitrary continuations.", "anchors": ["src/archive.rs: define_archive (builder)", "src/filestorage.rs: create_output_stream", "src/vector.rs: ExternalVector", "src/multivector.rs: MultiVector"]}
{"id": "C105", "title": "Writing vectors again after failed or interrupted attempts", "statement": "If nothing was in the way of the files at first, then after any number of attempts to write an external vector or a multivector (with any element types, schemas and values; any system calls failing; killed anywhere), a further attempt without failures succeeds, gives exactly the elements added in it, and leaves exactly the files and directories that it would have left at first. If something was in the way (a directory in the place of a file, a file on the path), no attempt ever creates the vector.", "quantifier": "all element types, names, paths, numbers of attempts, their values and fault sequences, builds, byte orders, buffer sizes", "why_tests_cant": "Needs kills and failures at every system call of arbitrarily many earlier attempts with different types and lengths.", "anchors": ["src/vector.rs: ExternalVector", "src/multivector.rs: MultiVector", "src/filestorage.rs: create_output_stream", "src/storage.rs: create_external_vector, create_multi_vector"]}
{"id": "C106", "title": "What storages say about themselves", "statement": "After any program every storage has exactly one Debug text. That of a memory storage shows its path, the number of names that have been written and the number of names that have been read (a write counts the resource and its schema; a read counts them if they were there, also if it returns an error), never more read than written, and two texts are equal only if path and numbers are. That of a file storage lists exactly the files mapped by reads with their lengths, in the order of their paths: a successful read adds the file of the resource (16 bytes more than the data) and of its schema, writing changes nothing.", "quantifier": "all programs using storages, names, paths, contents, fault sequences, versions of string escaping, texts of mappings", "why_tests_cant": "Needs arbitrary sequences of calls on several storages; the texts are not tested at all.", "anchors": ["src/memstorage.rs: MemoryStorage (Debug), MemoryResourceStorage (derive Debug)", "src/filestorage.rs: MemoryMappedFileStorage, FileResourceStorage (derive Debug)"]}
{"id": "C107", "title": "Running a program that writes several resources again", "statement": "A program writes resources, external vectors and multivectors that share no files into one directory with one storage object, and stops when something fails. If nothing was in the way at first, then after any number of runs of this program, or of others that write any kinds of resources into some of the same files (any system calls failing; killed anywhere), it works when no call fails: all resources have exactly their contents, and all other files and directories are as at first. A run that says it worked has put all resources in place, whatever calls failed during it and whatever was in the directory. Earlier runs of programs that also write other names change nothing in this, and what they left of these names stays as it is; a resource that shares no file with the runs stays in place. If something was in the way (a directory in the place of a file, a file on the path), the program never works. When the resources are in place, any process reads all of them with one new storage object: every one is accepted and shows its contents. Whatever the directory contains and whatever calls fail, reading works only if the files of every resource have the bytes that were read and the expected schemas.", "quantifier": "all programs (numbers, kinds, names, schemas and contents of resources), paths, numbers of runs and their fault sequences, builds, byte orders, buffer sizes", "why_tests_cant": "Needs kills and failures at every system call of arbitrarily many earlier runs of different programs; tests write once into an empty directory.", "anchors": ["src/storage.rs: write, create_external_vector, create_multi_vector", "src/vector.rs: ExternalVector", "src/multivector.rs: MultiVector", "src/filestorage.rs: create_output_stream, read_resource"]}
{"id": "C108", "title": "Building an archive again after its signature was removed", "statement": "A program makes an archive builder and writes resources, external vectors and multivectors with its storage (files all different), stopping when something fails. If nothing was in the way at first, then after any number of runs of this program, or of others that write some of the same files (any system calls failing; killed anywhere), and any removals of these files between the runs, it works when no call fails and the file of the signature is not there: signature and resources have exactly their contents, and all other files and directories are as at first. Nothing but the signature has to be removed. A run that says it worked has put the signature and all resources in place, whatever calls failed during it and whatever was in the directory. If the file of the signature is there, with any contents, the program does nothing when no call fails (otherwise see C109). Runs and removals leave resources with other files in place.", "quantifier": "all archives, programs (numbers, kinds, names, schemas and contents of resources), paths, histories of runs and removals with their fault sequences, builds, byte orders, buffer sizes", "why_tests_cant": "Needs kills and failures at every system call of arbitrarily many earlier runs, combined with removals; tests build each archive once in an empty directory.", "anchors": ["src/archive.rs: define_archive! (builder)", "src/storage.rs: create_archive, write, create_external_vector, create_multi_vector", "src/filestorage.rs: exists, create_output_stream"]}
{"id": "C109", "title": "Creating an archive does not overwrite an archive that is there, even if system calls fail", "statement": "Intended: if the signature of an archive exists, creating the archive (create_archive, a new builder) changes nothing, whatever system calls fail. True in memory storages. In file storages it is true if the call that looks for the signature works, or kills the process; if this call fails, the signature is written as if it was not there (Path::exists returns false for errors). If only that call fails, the creation succeeds and replaces the signature and its schema, whatever they were, and the archive that was there need not open any more. A whole program that builds an archive then replaces all its resources. Whatever fails, creating an archive changes no other file than the signature and its schema.", "quantifier": "all storages, names, schemas, contents of the signature, fault sequences, builds, byte orders", "why_tests_cant": "Needs a failing stat on a file that exists.", "anchors": ["src/storage.rs: create_archive", "src/filestorage.rs: exists", "src/memstorage.rs: exists", "src/archive.rs: define_archive! (builder)"]}
